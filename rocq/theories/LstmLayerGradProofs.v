(** Proofs about training the LSTM layer. *)
From Coq Require Import String.
From Coq Require Import Reals Lra Lia.
From Verif Require Import BaseFacts NumR SeqProofs PaddedProofs PackProofs DropProofs LstmProofs LstmFwdProofs LstmBpttMainProofs LstmLayerSpec LstmLayerProofs LstmKernelModel LstmKernelSpec LstmBpttSpec.
Local Open Scope nat_scope.
Set Default Goal Selector "!".

Lemma mask_length {T} `{Num T} flips pos n (rate : option T) : length (fst (get_dropout_mask flips pos n rate)) = n.
Proof. unfold get_dropout_mask. destruct rate as [d|]; [|apply repeat_length]. destruct (negb (nZ 0 <? d)%num); [apply repeat_length|]. destruct (negb (d <? nZ 1)%num); [apply repeat_length|]. cbn [fst]. now rewrite map_length, seq_length. Qed.
Lemma mul1_mask {T} `{Num T} flips pos (rate : option T) L : mul1 L (fst (get_dropout_mask flips pos (length L) rate)) = Ok (vmap2 nmul L (fst (get_dropout_mask flips pos (length L) rate))).
Proof. unfold mul1. now rewrite mask_length, Nat.eqb_refl. Qed.

(** ** Any kernels *)
Section AnyKernel.
  Context {T : Type} `{Num T} `{Trans T} {S : Type}.
  Variable fwd : list T -> @init3 T -> @init3 T -> mat T -> list nat -> result (mat T * S).
  Variable bwd : mat T -> list nat -> list T -> S -> mat T -> result (mat T * list T).

  (** Training gives the output of a prediction with the masked weights, or the same error. *)
  Lemma training_output L hc rate flips pos Xp : let mp := get_dropout_mask flips pos (length L) rate in
    output_of (lstm_forward fwd bwd (Some L) hc rate true flips pos Xp) = output_of (lstm_forward fwd bwd (Some (vmap2 nmul L (fst mp))) hc rate false flips pos Xp).
  Proof.
    intros mp. unfold lstm_forward. destruct (padded_to_packed (nZ 0) Xp) as [Xr|e]; [|reflexivity]. cbn [bind get_set]. destruct (get_set hc) as [HC0|e]; [|reflexivity]. cbn [bind].
    destruct (py_get HC0 0) as [H0'|e]; [|reflexivity]. cbn [bind]. destruct (py_get HC0 1) as [C0|e]; [|reflexivity]. cbn [bind]. rewrite mul1_mask. fold mp. cbn [bind].
    destruct (fwd (vmap2 nmul L (fst mp)) H0' C0 (ragged_mat Xr) (r_lengths Xr)) as [[Y st]|e]; [|reflexivity]. cbn [bind fst snd].
    destruct (negb (Datatypes.length (m_rows Y) =? a_len (r_data Xr))); [reflexivity|]. destruct (packed_to_padded _ _ _); reflexivity.
  Qed.
  (** The callback of a successful training step: the one line that packs, calls the kernel, masks and unpacks *)
  Lemma training_callback L hc rate flips pos Xp Yp cb pos' : let mp := get_dropout_mask flips pos (length L) rate in
    lstm_forward fwd bwd (Some L) hc rate true flips pos Xp = Ok (Yp, cb, pos') -> pos' = snd mp /\
    exists Xr HC0 H0' C0 Y st, padded_to_packed (nZ 0) Xp = Ok Xr /\ hc = Some HC0 /\ py_get HC0 0 = Ok H0' /\ py_get HC0 1 = Ok C0 /\ fwd (vmap2 nmul L (fst mp)) H0' C0 (ragged_mat Xr) (r_lengths Xr) = Ok (Y, st) /\
      cb = lstm_backprop bwd (vmap2 nmul L (fst mp)) (fst mp) (Some (st, ragged_mat Xr)).
  Proof.
    intros mp. unfold lstm_forward. destruct (padded_to_packed (nZ 0) Xp) as [Xr|e]; [|discriminate]. cbn [bind get_set]. destruct hc as [HC0|]; [|discriminate]. cbn [bind get_set].
    destruct (py_get HC0 0) as [H0'|e] eqn:E0; [|discriminate]. cbn [bind]. destruct (py_get HC0 1) as [C0|e] eqn:E1; [|discriminate]. cbn [bind]. rewrite mul1_mask. fold mp. cbn [bind].
    destruct (fwd (vmap2 nmul L (fst mp)) H0' C0 (ragged_mat Xr) (r_lengths Xr)) as [[Y st]|e] eqn:E; [|discriminate]. cbn [bind fst snd].
    destruct (negb (Datatypes.length (m_rows Y) =? a_len (r_data Xr))); [discriminate|]. destruct (packed_to_padded _ _ _) as [Yp'|e]; [|discriminate]. cbn [bind]. intros Q. injection Q as <- <- <-. split; [reflexivity|].
    exists Xr, HC0, H0', C0, Y, st. repeat split; assumption.
  Qed.
  (** After a prediction the callback raises. *)
  Lemma prediction_callback L hc rate flips pos Xp Yp cb pos' : lstm_forward fwd bwd L hc rate false flips pos Xp = Ok (Yp, cb, pos') -> pos' = pos /\ forall dYp, cb dYp = Err AssertionError.
  Proof.
    unfold lstm_forward. destruct (padded_to_packed (nZ 0) Xp) as [Xr|e]; [|discriminate]. cbn [bind]. destruct (get_set L) as [L'|e]; [|discriminate]. cbn [bind]. destruct (get_set hc) as [HC0|e]; [|discriminate]. cbn [bind].
    destruct (py_get HC0 0) as [H0'|e]; [|discriminate]. cbn [bind]. destruct (py_get HC0 1) as [C0|e]; [|discriminate]. cbn [bind].
    destruct (fwd L' H0' C0 (ragged_mat Xr) (r_lengths Xr)) as [[Y st]|e] eqn:E; [|discriminate]. cbn [bind fst snd].
    destruct (negb (Datatypes.length (m_rows Y) =? a_len (r_data Xr))); [discriminate|]. destruct (packed_to_padded _ _ _) as [Yp'|e]; [|discriminate]. cbn [bind]. intros Q. injection Q as <- <- <-. split; reflexivity.
  Qed.
  (** Only the vector "LSTM" gets a gradient: the kernel's, masked. *)
  Lemma callback_grads L hc rate flips pos Xp Yp cb pos' dYp dXp g : lstm_forward fwd bwd (Some L) hc rate true flips pos Xp = Ok (Yp, cb, pos') -> cb dYp = Ok (dXp, g) ->
    exists dYr Xr st dX dL, padded_to_packed (nZ 0) dYp = Ok dYr /\ padded_to_packed (nZ 0) Xp = Ok Xr /\
      let mask := fst (get_dropout_mask flips pos (length L) rate) in
      bwd (ragged_mat dYr) (r_lengths dYr) (vmap2 nmul L mask) st (ragged_mat Xr) = Ok (dX, dL) /\ length dL = length L /\ g = [("LSTM"%string, vmap2 nmul dL mask)].
  Proof.
    intros E Ec. apply training_callback in E as (_ & Xr & HC0 & H0' & C0 & Y & st & Ex & _ & _ & _ & _ & ->). unfold lstm_backprop in Ec. destruct (padded_to_packed (nZ 0) dYp) as [dYr|e]; [|discriminate Ec]. cbn [bind] in Ec.
    destruct (bwd _ _ _ _ _) as [[dX dL]|e] eqn:Eb; [|discriminate Ec]. cbn [bind fst snd] in Ec. unfold mul1 in Ec. destruct (Nat.eqb_spec (Datatypes.length dL) (Datatypes.length (fst (get_dropout_mask flips pos (Datatypes.length L) rate)))) as [El|El]; [|discriminate Ec].
    cbn [bind] in Ec. destruct (packed_to_padded _ _ _) as [dXp'|e]; [|discriminate Ec]. cbn [bind] in Ec. injection Ec as <- <-. rewrite mask_length in El. exists dYr, Xr, st, dX, dL. repeat split; assumption.
  Qed.
  Lemma not_set hc L rate is_train flips pos Xp Xr : padded_to_packed (nZ 0) Xp = Ok Xr ->
    lstm_forward fwd bwd None hc rate is_train flips pos Xp = Err KeyError /\ lstm_forward fwd bwd (Some L) None rate is_train flips pos Xp = Err KeyError.
  Proof. intros E. unfold lstm_forward. rewrite E. split; reflexivity. Qed.
End AnyKernel.

(** ** The real numbers *)
Lemma combine_map_r {A B C} (f : B -> C) (l : list A) : forall m, combine l (map f m) = map (fun q => (fst q, f (snd q))) (combine l m).
Proof. induction l as [|a l IH]; intros [|b m]; cbn; try reflexivity. now rewrite IH. Qed.
Lemma used_mask (rate : option R) flips pos params : vmap2 nmul params (fst (get_dropout_mask flips pos (length params) rate)) = weights_used true rate flips pos params.
Proof.
  rewrite mask_flat. cbn [fst]. unfold weights_used, vmap2. rewrite combine_map_r, map_map. cbn [fst snd]. 
  assert (G : forall (l : list R) a, map (fun x => nmul (fst x) (keep rate (flips (snd x)))) (combine l (seq (pos + a) (length l))) = map (fun q => (snd q * keep rate (flips (pos + fst q)%nat))%R) (combine (seq a (length l)) l)).
  { induction l as [|x l IH]; intros a; [reflexivity|]. cbn [length seq combine map fst snd]. f_equal. rewrite <- IH. now replace (S (pos + a)) with (pos + S a) by lia. }
  specialize (G params 0). rewrite Nat.add_0_r in G. exact G.
Qed.
Lemma used_length b rate flips pos params : length (weights_used b rate flips pos params) = length params.
Proof. destruct b; [|reflexivity]. unfold weights_used. rewrite map_length, combine_length, seq_length. lia. Qed.
Lemma used_nth rate flips pos params k x : nth_error params k = Some x -> nth_error (weights_used true rate flips pos params) k = Some (x * keep rate (flips (pos + k)%nat))%R.
Proof.
  intros E. unfold weights_used. rewrite nth_error_map. pose proof (nth_error_lt_some _ _ _ E) as Hk. rewrite (map_nth_error_combine _ _ k k x); [reflexivity| |exact E]. now apply nth_error_seq.
Qed.
Lemma draws_mask (rate : option R) flips pos n : snd (get_dropout_mask flips pos n rate) = pos + draws rate n.
Proof. now rewrite mask_flat. Qed.

Section LayerTraining.
  Variables (depth dirs nO nI : nat).
  Hypotheses (Hd : depth <> 0) (Hdi : dirs <> 0) (HO : nO <> 0) (HI : nI <> 0).
  (** The layer computes the network of every sequence, with the weights that the mask leaves when training. *)
  Lemma forward_ok (params : list R) H0 C0 rest rate is_train flips pos p seqs : length params = lstm_size depth dirs nO nI ->
    represents 0%R nI p seqs -> like [nI] seqs -> (exists s, In s seqs /\ 0 < a_len s) ->
    exists ws Yp cb, all_layer_params (weights_used is_train rate flips pos params) depth dirs nO nI = Ok ws /\
      np_lstm_layer depth dirs nO (Some params) (Some (H0 :: C0 :: rest)) rate is_train flips pos p = Ok (Yp, cb, pos + draws_used is_train rate (length params)) /\
      represents 0%R (dirs * nO) Yp (each_sequence ws dirs nO C0 H0 seqs) /\ padded2list Yp = Ok (each_sequence ws dirs nO C0 H0 seqs) /\
      p_indices Yp = p_indices p /\ p_lengths Yp = p_lengths p /\ p_size_at_t Yp = p_size_at_t p.
  Proof.
    intros Lp Rp Hl Hex. destruct is_train.
    - destruct (predict_ok depth dirs nO nI Hd Hdi HO HI (weights_used true rate flips pos params) H0 C0 rest rate flips pos p seqs) as (ws & Yp & cb & E1 & E2 & E3); try assumption; [now rewrite used_length|].
      pose proof (training_output (np_lstm depth dirs nO) (np_backprop_lstm depth dirs nO) params (Some (H0 :: C0 :: rest)) rate flips pos p) as G. cbv zeta in G. rewrite used_mask in G.
      unfold np_lstm_layer in *. rewrite E2 in G. cbn [output_of] in G.
      destruct (lstm_forward _ _ (Some params) _ rate true flips pos p) as [[[Yp' cb'] pos']|e] eqn:E; [|discriminate G]. cbn [output_of] in G. injection G as ->.
      pose proof (training_callback _ _ _ _ _ _ _ _ _ _ _ E) as [-> _]. exists ws, Yp, cb'. rewrite draws_mask. split; [exact E1|]. split; [reflexivity|exact E3].
    - destruct (predict_ok depth dirs nO nI Hd Hdi HO HI params H0 C0 rest rate flips pos p seqs Lp Rp Hl Hex) as (ws & Yp & cb & E1 & E2 & E3). exists ws, Yp, cb. cbn [weights_used draws_used]. rewrite Nat.add_0_r. split; [exact E1|]. split; [exact E2|exact E3].
  Qed.
End LayerTraining.

(** Without a positive rate training uses the weights unchanged. *)
Lemma no_dropout rate flips pos params : (forall d, rate = Some d -> (d <= 0)%R) -> weights_used true rate flips pos params = params.
Proof.
  intros Hr. assert (K : forall f, keep rate f = 1%R) by (intros f; destruct rate as [d|]; [|reflexivity]; unfold keep; specialize (Hr d eq_refl); destruct (Rle_dec d 0); [reflexivity|lra]).
  unfold weights_used. apply (nth_ext _ _ 0%R 0%R); [rewrite map_length, combine_length, seq_length; lia|]. intros k Hk. rewrite map_length, combine_length, seq_length in Hk.
  rewrite (nth_indep _ 0%R ((fun q : nat * R => (snd q * keep rate (flips (pos + fst q)%nat))%R) (0, 0%R))) by (rewrite map_length, combine_length, seq_length; lia).
  rewrite (map_nth (fun q : nat * R => (snd q * keep rate (flips (pos + fst q)%nat))%R)), combine_nth by apply seq_length. cbn [fst snd]. rewrite K. lra.
Qed.

(** ** The gradient of one layer with one direction *)
Lemma falling_map f : (forall t, f (S t) <= f t) -> forall n s, falling (map f (seq s n)).
Proof. intros Hf. induction n as [|n IH]; intros s; [exact I|]. cbn [seq map]. destruct n as [|n]; [exact I|]. cbn [seq map falling] in *. split; [apply Hf|apply (IH (S s))]. Qed.
Lemma rep_falling (z : R) w p seqs : represents z w p seqs -> falling (p_size_at_t p).
Proof.
  intros Rp. rewrite (rep_sizes _ _ _ _ Rp). apply falling_map. intros t. rewrite <- !count_len. unfold count. induction (map a_len seqs) as [|x l IH]; [cbn; lia|]. cbn [filter].
  destruct (Nat.ltb_spec (S t) x), (Nat.ltb_spec t x); cbn [length]; lia.
Qed.
Lemma packed_wf (z : R) w p seqs : represents z w p seqs -> like [w] seqs -> seqs <> [] -> wf_mat (mkM w (packed (p_size_at_t p) (a3_cells (p_data p)))).
Proof.
  intros Rp Hl Hne. destruct (represents_packable z w p seqs Rp Hl Hne) as [(_ & _ & _ & Hc & _) _]. unfold wf_mat. cbn [m_rows m_cols]. rewrite Forall_forall. intros r Hr. unfold packed in Hr.
  apply in_concat in Hr as (c & Hc1 & Hc2). apply in_map_iff in Hc1 as ([n c'] & <- & Hq). cbn [fst snd] in Hc2. apply in_combine_r in Hq. rewrite Forall_forall in Hc. destruct (Hc c' Hq) as [_ F]. rewrite Forall_forall in F.
  apply F. rewrite <- (firstn_skipn n c'). apply in_or_app. now left.
Qed.
Lemma take_map {A} (f : list A -> list A) (G : list (list A)) l : (forall r, In r l -> r < length G) -> take (map f G) l = map f (take G l).
Proof. intros Hl. unfold take. rewrite map_map. apply map_ext_in. intros r Hr. rewrite (nth_indep _ [] (f [])) by (rewrite map_length; now apply Hl). apply map_nth. Qed.

Lemma one_layer_gradient nO nI (params : list R) H0 C0 rest rate flips pos p seqs dYp dYs : nO <> 0 -> nI <> 0 -> length params = lstm_size 1 1 nO nI ->
  represents 0%R nI p seqs -> like [nI] seqs -> (exists s, In s seqs /\ 0 < a_len s) ->
  represents 0%R nO dYp dYs -> like [nO] dYs -> map a_len dYs = map a_len seqs -> p_indices dYp = p_indices p ->
  exists w Yp cb dXp v, all_layer_params (weights_used true rate flips pos params) 1 1 nO nI = Ok [[w]] /\
    np_lstm_layer 1 1 nO (Some params) (Some (H0 :: C0 :: rest)) rate true flips pos p = Ok (Yp, cb, pos + draws rate (length params)) /\
    cb dYp = Ok (dXp, [("LSTM"%string, v)]) /\ length v = length params /\ (forall k, k < length params -> keep rate (flips (pos + k)%nat) = 0%R -> nth k v 0%R = 0%R) /\
    let outs := each_gradient w nO nI (init_row C0 0 0) (init_row H0 0 0) seqs dYs in represents 0%R nI dXp outs /\ padded2list dXp = Ok outs.
Proof.
  intros HO HI Lp Rp Hl Hex Rd Hld Hlens Hidx.
  destruct (batch_ok 0%R nI p seqs Rp Hl Hex) as (Hne & HX & LX & Hlen & Hn1 & Epack & batch & lengths & Esz & Hb & Hle & Hrow).
  assert (Hexd : exists s, In s dYs /\ 0 < a_len s).
  { destruct Hex as (s & Hin & Hs). apply (in_map a_len) in Hin. rewrite <- Hlens in Hin. apply in_map_iff in Hin as (d & Ed & Hd). exists d. split; [exact Hd|lia]. }
  destruct (batch_ok 0%R nO dYp dYs Rd Hld Hexd) as (Hned & HXd & LXd & Hlend & Hn1d & Epackd & _).
  assert (Eszd : p_size_at_t dYp = p_size_at_t p).
  { rewrite (rep_sizes _ _ _ _ Rd), (rep_sizes _ _ _ _ Rp). unfold max_len. rewrite Hlens. apply map_ext. intros t. rewrite <- !count_len. now rewrite Hlens. }
  pose proof (packed_wf 0%R nO dYp dYs Rd Hld Hned) as Wd.
  set (X := packed (p_size_at_t p) (a3_cells (p_data p))) in *. set (dY := packed (p_size_at_t dYp) (a3_cells (p_data dYp))) in *.
  set (L := weights_used true rate flips pos params) in *. assert (LL : length L = lstm_size 1 1 nO nI) by (unfold L; now rewrite used_length).
  destruct (one_layer nO nI L H0 C0 (mkM nI X) (mkM nO dY) batch lengths) as (w & s & dG & v & Ew & _ & Ef & Eb & Lv & _ & LG & _ & LY & Hrows); try assumption; [reflexivity|cbn [m_rows]; rewrite LX, Esz; reflexivity|rewrite <- Esz; apply (rep_falling 0%R nI p seqs Rp)|reflexivity|cbn [m_rows]; congruence|].
  cbn [m_rows] in *. destruct (forward_ok 1 1 nO nI ltac:(lia) ltac:(lia) HO HI params H0 C0 rest rate true flips pos p seqs Lp Rp Hl Hex) as (ws & Yp & cb & _ & E2 & _). cbn [draws_used] in E2.
  pose proof (training_callback _ _ _ _ _ _ _ _ _ _ _ E2) as (_ & Xr & HC0 & H0' & C0' & Y & st & Ex & Ehc & Eh & Ec & Efwd & Ecb).
  assert (Er : Xr = mk_ragged (mkA [nI] X) (p_size_at_t p)) by (change (@nZ R num_R 0) with 0%R in Ex; congruence). subst Xr.
  destruct (ragged_mat_ok nI X (p_size_at_t p)) as (Er & Erl & _); [lia|exact HX|]. destruct (ragged_mat_ok nO dY (p_size_at_t dYp)) as (Erd & Erld & _); [lia|exact HXd|].
  rewrite Er, Erl in *.
  injection Ehc as <-. cbn [py_get nth_error] in Eh, Ec. injection Eh as <-. injection Ec as <-. rewrite used_mask in Efwd, Ecb. fold L in Efwd, Ecb. rewrite <- Esz in Ef, Eb, Hrows. rewrite Ef in Efwd. injection Efwd as <- <-.
  set (mask := fst (get_dropout_mask flips pos (length params) rate)). assert (Lm : length v = length mask) by (unfold mask; rewrite mask_length; congruence).
  set (dX := map (times_t nI (in_weights w)) dG) in *. assert (LdX : length dX = length X) by (unfold dX; rewrite map_length; exact LG).
  assert (dXne : dX <> []) by (intros E; rewrite E in LdX; destruct X; [congruence|discriminate]).
  exists w, Yp, cb. eexists _, (vmap2 nmul v mask). split; [exact Ew|]. split; [exact E2|]. split.
  { rewrite Ecb. unfold lstm_backprop. change (@nZ R num_R 0) with 0%R. rewrite Epackd. cbn [bind]. rewrite Erd, Erld, Eszd, Eb. cbn [bind fst snd]. fold mask.
    unfold mul1. rewrite Lm, Nat.eqb_refl. cbn [bind m_cols m_rows]. rewrite <- Eszd. rewrite (unpack_ok 0%R dYp nI dX Hlend Hn1d); [|lia|exact dXne|congruence]. cbn [bind]. reflexivity. } split; [rewrite vmap2_length by exact Lm; congruence|]. split.
  - intros k Hk Hz. unfold mask. rewrite mask_flat. cbn [fst]. unfold vmap2.
    rewrite (nth_indep _ 0%R ((fun q : R * R => nmul (fst q) (snd q)) (0%R, 0%R))) by (rewrite map_length, combine_length, map_length, seq_length; lia).
    rewrite (map_nth (fun q : R * R => nmul (fst q) (snd q))), combine_nth by (rewrite map_length, seq_length; congruence). cbn [fst snd]. rewrite (nth_indep (map (fun k => keep rate (flips k)) (seq pos (length params))) 0%R (keep rate (flips 0))) by (rewrite map_length, seq_length; exact Hk).
    rewrite (map_nth (fun k => keep rate (flips k))), seq_nth by exact Hk. rewrite Hz. cbn. lra.
  - cbn zeta. set (outs := each_gradient w nO nI (init_row C0 0 0) (init_row H0 0 0) seqs dYs).
    assert (Lq : length dYs = length seqs) by (rewrite <- (map_length a_len dYs), Hlens; apply map_length).
    assert (Hout : forall i j, nth_error (p_indices p) i = Some j -> forall o, nth_error outs j = Some o -> exists x d, nth_error seqs j = Some x /\ nth_error dYs j = Some d /\ a_len d = a_len x /\ take dX (rows_of i 0 (p_size_at_t p)) = a_rows o /\ a_len o = a_len x).
    { intros i j Ei o Eo. unfold outs, each_gradient in Eo. rewrite nth_error_map in Eo. destruct (nth_error (combine seqs dYs) j) as [[x d]|] eqn:Eq; [|discriminate Eo]. injection Eo as <-. cbn [fst snd].
      assert (Ex' : nth_error seqs j = Some x) by (rewrite <- (map_fst_combine seqs dYs (eq_sym Lq)); apply (map_nth_error fst) in Eq; exact Eq).
      assert (Ed' : nth_error dYs j = Some d) by (rewrite <- (map_snd_combine seqs dYs (eq_sym Lq)); apply (map_nth_error snd) in Eq; exact Eq).
      assert (Eld : a_len d = a_len x) by (apply (map_nth_error a_len) in Ex', Ed'; rewrite Hlens in Ed'; congruence).
      exists x, d. split; [exact Ex'|]. split; [exact Ed'|]. split; [exact Eld|]. unfold a_len at 1. cbn [a_rows].
      pose proof (packed_rows 0%R nI p seqs i j x Rp Hl Ei Ex') as Hs. fold X in Hs. pose proof (packed_rows 0%R nO dYp dYs i j d Rd Hld) as Hsd. rewrite Hidx in Hsd. specialize (Hsd Ei Ed'). fold dY in Hsd. rewrite Eszd in Hsd.
      destruct (Hrow i j x Ei Ex') as [Li|[E3 E4]].
      - destruct (Hrows i Li) as [_ G]. rewrite Hs, Hsd in G. unfold dX. rewrite take_map by (intros r Hr; apply rows_of_bound in Hr; rewrite Esz in Hr, LX; unfold total in Hr; change (list_sum_nat (batch :: lengths)) with (fold_right Nat.add 0 (batch :: lengths)) in LX; lia).
        split; [now rewrite G|]. rewrite map_length, <- G. unfold take. rewrite map_length. unfold a_len. rewrite <- Hs. unfold take. now rewrite map_length.
      - rewrite <- Esz in E4. rewrite E4, E3. assert (E5 : a_rows d = []) by (unfold a_len in Eld; rewrite E3 in Eld; now destruct (a_rows d)). rewrite E5. cbn [kept_grads map length take]. unfold a_len. rewrite E3. split; reflexivity. }
    assert (Lo : length outs = length seqs) by (unfold outs, each_gradient; rewrite map_length, combine_length; lia).
    assert (Al : map a_len outs = map a_len dYs).
    { apply nth_error_ext. intros j. rewrite !nth_error_map. destruct (Nat.lt_ge_cases j (length seqs)) as [Hj|Hj].
      - destruct (perm_seq_nth _ _ j (rep_perm _ _ _ _ Rp) Hj) as [i Ei]. destruct (nth_error outs j) as [o|] eqn:Eo; [|apply nth_error_None in Eo; lia].
        destruct (Hout i j Ei o Eo) as (x & d & _ & Ed' & E6 & _ & E7). rewrite Ed'. cbn. f_equal. congruence.
      - rewrite !(proj2 (nth_error_None _ _)) by lia. reflexivity. }
    assert (Rep : represents 0%R nI (mkPad (mkA3 (a3_n1 (p_data dYp)) [nI] (map (fun c => c ++ SeqModel.zero_rows 0%R (a3_n1 (p_data dYp) - length c) [nI]) (chop (p_size_at_t dYp) dX))) (p_size_at_t dYp) (p_lengths dYp) (p_indices dYp)) outs).
    { apply (unpacked_represents 0%R nO nI dYp dYs); try assumption; [congruence|]. intros i j o Ei Eo. rewrite Hidx in Ei. rewrite Eszd. destruct (Hout i j Ei o Eo) as (x & d & _ & _ & _ & E & _). exact E. }
    split; [exact Rep|]. apply (represents_padded2list 0%R nI); [exact Rep|]. unfold like, outs, each_gradient. rewrite Forall_map, Forall_forall. intros q _. split; [reflexivity|]. unfold wf_nda. cbn [a_tail a_rows]. unfold shape_size. cbn [fold_right]. rewrite Nat.mul_1_r.
    rewrite Forall_map, Forall_forall. intros g _. unfold times_t. now rewrite map_length, seq_length.
Qed.

(** ** The initial state *)
From Verif Require Import ActProofs LstmBwdProofs.
Lemma cell_forward c : exists st, np_lstm 1 1 1 (repeat 0%R 16) [[[c]]] [[[0%R]]] (mkM 1 [[0%R]]) [1] = Ok (mkM 1 [[cell_out c]], st).
Proof.
  cbv -[Rplus Rmult Rdiv Ropp exp tanh IZR cell_out logistic_c Rinv].
  match goal with |- exists st, Ok (mkM 1 [[?e]], _) = _ => assert (E : e = cell_out c) end.
  { unfold cell_out. zero_args. rewrite logistic_c_R, logistic_0. f_equal. f_equal. rewrite tanh_0. ring. }
  rewrite E. eexists. reflexivity.
Qed.
Lemma cell_slope : derivable_pt_lim cell_out 0 (/ 4)%R.
Proof.
  unfold cell_out. eapply der_eq; [apply (derivable_pt_lim_mult (fun s => tanh (/ 2 * s))%R (fun _ => / 2)%R); [|apply derivable_pt_lim_const]|].
  - apply (derivable_pt_lim_comp (fun s => / 2 * s)%R tanh); [apply (derivable_pt_lim_scal id), derivable_pt_lim_id|apply der_tanh].
  - rewrite Rmult_0_r, tanh_0. field.
Qed.
Lemma initial_state : (forall c, exists cb, np_lstm_layer 1 1 1 (Some (repeat 0%R 16)) (Some [[[[c]]]; [[[0%R]]]]) None true (fun _ => 0%R) 0 one_row = Ok (mkPad (mkA3 1 [1] [[[cell_out c]]]) [1] [1] [0], cb, 0)) /\ derivable_pt_lim cell_out 0 (/ 4)%R /\
  forall depth dirs nO L hc (rate : option R) flips pos Xp Yp cb pos' dYp dXp g, np_lstm_layer depth dirs nO (Some L) hc rate true flips pos Xp = Ok (Yp, cb, pos') -> cb dYp = Ok (dXp, g) -> ~ In "HC0"%string (map fst g).
Proof.
  split; [|split; [exact cell_slope|]].
  - intros c. destruct (cell_forward c) as [st E]. unfold np_lstm_layer, lstm_forward. change (padded_to_packed (nZ 0) one_row) with (Ok (mkRag (mkA [1] [[0%R]]) [1] [1])). cbn [bind get_set py_get nth_error r_lengths]. rewrite mul1_mask, used_mask, no_dropout by discriminate. cbn [bind].
    change (ragged_mat (mkRag (mkA [1] [[0%R]]) [1] [1])) with (mkM 1 [[0%R]]). rewrite E. cbn [bind fst snd m_rows m_cols]. eexists. reflexivity.
  - intros depth dirs nO L hc rate flips pos Xp Yp cb pos' dYp dXp g E1 E2. destruct (callback_grads _ _ _ _ _ _ _ _ _ _ _ _ _ _ E1 E2) as (_ & _ & _ & _ & dL & _ & _ & _ & _ & ->). cbn. intros [Q|[]]. discriminate Q.
Qed.
