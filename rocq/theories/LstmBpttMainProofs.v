(** The gradients that NumpyOps returns for one layer and one direction. *)
From Coq Require Import Reals Lra Lia.
From Verif Require Import NumR MatSpec MatProofs BaseFacts CombProofs CombBuiltProofs MkProofs LstmProofs ActProofs SoftProofs SoftSeqProofs.
From Verif Require Import LstmModel LstmSpec LstmBwdProofs LstmBpttSpec LstmBpttProofs LstmBpttCodeProofs.
From Verif Require Import LstmKernelModel LstmKernelSpec LstmFwdProofs.
Set Default Goal Selector "!".
Local Open Scope nat_scope.

(** ** The kernels for one layer and one direction *)
Lemma slice_all {A} n (l : list A) : length l = n -> slice 0 n l = l.
Proof. intros <-. unfold slice. cbn [skipn]. apply firstn_all. Qed.
Lemma join_one (y : list (list R)) : map (fun n => concat (map (fun y => nth n y []) [y])) (seq 0 (length y)) = y.
Proof. cbn [map concat]. transitivity (map (fun n => nth n y []) (seq 0 (length y))); [apply map_ext; intros; apply app_nil_r|]. symmetry. apply vec_of. Qed.
Lemma row_add_zero_l c (x : list R) : length x = c -> row_add (zeros c) x = x.
Proof. intros <-. unfold row_add, vmap2, zeros. induction x as [|a x IH]; [reflexivity|]. cbn [length repeat combine map fst snd]. rewrite IH. f_equal. cbn [nadd nZ num_R]. lra. Qed.
Lemma add_zero_l r c (a : list (list R)) : length a = r -> Forall (fun x => length x = c) a -> add_rows (zero_rows r c) a = a.
Proof. intros <- F. unfold add_rows, vmap2, zero_rows. induction F as [|x a Hx F IH]; [reflexivity|]. cbn [length repeat combine map fst snd]. rewrite IH. f_equal. now apply row_add_zero_l. Qed.
Lemma add_rows_shape r c (a b : list (list R)) : length a = r -> length b = r -> Forall (fun x => length x = c) a -> Forall (fun x => length x = c) b -> length (add_rows a b) = r /\ Forall (fun x => length x = c) (add_rows a b).
Proof.
  intros La Lb Fa Fb. unfold add_rows, vmap2. split; [rewrite map_length, combine_length; lia|]. apply Forall_forall. intros x Hx. apply in_map_iff in Hx as ([u v] & <- & Hp). cbn [fst snd]. rewrite row_add_length.
  rewrite Forall_forall in Fa, Fb. rewrite (Fa u), (Fb v); [lia|now apply in_combine_r in Hp|now apply in_combine_l in Hp].
Qed.
Lemma one_layer nO nI (params : list R) H0 C0 X dY batch lengths : nO <> 0 -> nI <> 0 -> length params = lstm_size 1 1 nO nI -> m_cols X = nI -> total (batch :: lengths) = length (m_rows X) -> batch <> 0 -> falling (batch :: lengths) ->
  m_cols dY = nO -> wf_mat dY -> length (m_rows dY) = length (m_rows X) ->
  exists w s dG v, all_layer_params params 1 1 nO nI = Ok [[w]] /\ triple_shape nO nI w /\ np_lstm 1 1 nO params H0 C0 X (batch :: lengths) = Ok (mkM nO (d_Y s), [[s]]) /\
    np_backprop_lstm 1 1 nO dY (batch :: lengths) params [[s]] X = Ok (mkM nI (map (times_t nI (in_weights w)) dG), v) /\ length v = length params /\
    all_layer_params v 1 1 nO nI = Ok [[(mkM nI (add_rows (in_weights w) (outer (4 * nO) nI dG (m_rows X))), mkM nO (add_rows (hid_weights w) (outer (4 * nO) nO dG (d_Y s))), row_add (snd w) (colsum (4 * nO) dG))]] /\
    length dG = length (m_rows X) /\ Forall (fun g => length g = 4 * nO) dG /\ length (d_Y s) = length (m_rows X) /\
    forall b, b < batch -> let rows := rows_of b 0 (batch :: lengths) in
      take (d_Y s) rows = lstm_run nO w (init_row C0 0 0) (init_row H0 0 0) (take (m_rows X) rows) /\ take dG rows = kept_grads nO w (init_row C0 0 0) (init_row H0 0 0) (take (m_rows X) rows) (take (m_rows dY) rows).
Proof.
  intros HO HI Lp Hc Ht Hb Hf Hcy Hwy HLy. destruct (join_back 1 1 nO nI params HO HI ltac:(lia) Lp) as (ps & ws & v0 & E1 & E2 & Sh & _).
  destruct ws as [|[|w [|? ?]] [|? ?]]; cbn in Sh; try (exfalso; tauto || (destruct Sh as [Sh _]; discriminate)). destruct Sh as (_ & Sw & _). apply Forall_cons_iff in Sw as [Sw _].
  pose proof E2 as E3. unfold all_layer_params in E3. rewrite E1 in E3. cbn [bind fst] in E3. cbn [split_layers split_dirs] in E1. destruct (split_weights params nO nI 0) as [[p pi]|er] eqn:Es; [|discriminate E1]. cbn [bind fst snd] in E1. injection E1 as <- Epi. cbn [mapM] in E3.
  destruct (transpose_weights p) as [w'|er] eqn:Et; [|discriminate E3]. cbn [bind] in E3. injection E3 as ->.
  destruct (dir_fwd_ok 0 nO nI (m_rows X) w (batch :: lengths) batch (init_row C0 0 0) (init_row H0 0 0) Sw Ht (falling_head _ _ Hf)) as (s & Ef & [LG LC] & HY).
  destruct (dir_bwd_ok 0 nO nI (m_rows X) (zero_rows (length (m_rows X)) nI) (m_rows dY) w w batch lengths (init_row C0 0 0) (init_row H0 0 0) s Sw Hb Ht Hf HLy) as (dG & Eb & LdG & FdG & HG); [unfold wf_mat in Hwy; rewrite Hcy in Hwy; exact Hwy|exact Ef|].
  assert (HN : length (m_rows X) <> 0) by (unfold total in Ht; cbn [fold_right] in Ht; lia).
  assert (LYs : length (d_Y s) = length (m_rows X)).
  { clear - Ef Ht Hf. destruct w as [[Wx Wh] bb]. unfold np_dir_fwd in Ef. cbn [np_order bind] in Ef.
    destruct (steps_ok nO (length (m_rows X)) batch (m_rows Wh) bb (order_ltr 0 (batch :: lengths)) (mkDir (map (times (m_rows Wx)) (m_rows X)) (zero_rows (length (m_rows X)) nO) (zero_rows (length (m_rows X)) nO)) (repeat (init_row C0 0 0) batch) (repeat (init_row H0 0 0) batch)) as (s' & E' & _ & L2 & _ & _);
      try (apply repeat_length); [|apply order_ltr_disjoint|apply map_length|rewrite E' in Ef; injection Ef as ->; exact L2].
    pose proof (order_ltr_bound batch (batch :: lengths) 0 (falling_head _ _ Hf)) as Bo. eapply Forall_impl; [|exact Bo]. cbv beta. intros q Hq. lia. }
  set (dw' := (mkM nI (add_rows (in_weights w) (outer (4 * nO) nI dG (m_rows X))), mkM nO (add_rows (hid_weights w) (outer (4 * nO) nO dG (d_Y s))), row_add (snd w) (colsum (4 * nO) dG))) in *.
  assert (Sd : triple_shape nO nI dw').
  { destruct Sw as ((C1 & R1 & F1) & (C2 & R2 & F2) & L3). destruct (outer_rows (4 * nO) nI dG (m_rows X)) as [O1 O2]. destruct (outer_rows (4 * nO) nO dG (d_Y s)) as [O3 O4].
    destruct (add_rows_shape (4 * nO) nI (in_weights w) _ R1 O1 F1 O2) as [A1 A2]. destruct (add_rows_shape (4 * nO) nO (hid_weights w) _ R2 O3 F2 O4) as [A3 A4].
    unfold dw'. split; [split; [reflexivity|split; assumption]|]. split; [split; [reflexivity|split; assumption]|]. cbn [snd]. rewrite row_add_length, L3. unfold colsum. rewrite map_length, seq_length. lia. }
  destruct (join_ok 1 1 nO nI [[dw']] HO HI ltac:(lia)) as (v & V1 & V2 & V3); [cbn; repeat split; try reflexivity; constructor; [exact Sd|constructor]|].
  exists w, s, dG, v. split; [exact E2|]. split; [exact Sw|]. split; [|split; [|split; [lia|split; [exact V3|split; [exact LdG|split; [exact FdG|split; [exact LYs|]]]]]]].
  - unfold np_lstm, np_lstm_forward. cbn [np_layers_fwd np_dirs_fwd]. rewrite Hc, Es. cbn [bind fst snd]. rewrite Et. cbn [bind]. rewrite Ef. cbn [bind fst snd map]. unfold join_dirs. destruct (Nat.eqb_spec (length (m_rows X)) 0); [lia|]. cbn [bind fst snd].
    rewrite <- LYs, join_one. replace (1 * nO) with nO by lia. reflexivity.
  - unfold np_backprop_lstm. rewrite Hc, E2. cbn [bind layer_inputs_of]. unfold combine4. cbn [combine rev app np_layers_bwd]. rewrite Hc, Hcy, HLy. replace (1 * nO) with nO by lia. rewrite Nat.eqb_refl. cbn [negb]. unfold split_width. cbn [seq map np_dirs_bwd Nat.mul].
    assert (Ey : map (fun r => slice 0 nO r) (m_rows dY) = m_rows dY). { transitivity (map (fun r : list R => r) (m_rows dY)); [|apply map_id]. apply map_ext_in. intros r Hr. apply slice_all. unfold wf_mat in Hwy. rewrite Forall_forall in Hwy. rewrite <- Hcy. now apply Hwy. }
    rewrite Ey, Eb. cbn [bind fst snd rev app]. match goal with |- bind ?j ?k = ?r => transitivity (bind (Ok v) k); [apply (f_equal (fun z => bind z k)); exact V1|] end. cbn [bind]. rewrite add_zero_l; [reflexivity|rewrite map_length; exact LdG|]. apply Forall_forall. intros x Hx. apply in_map_iff in Hx as (g & <- & _). apply times_t_length.
  - intros b Hb'. cbv zeta. split; [apply (HY b Hb')|apply (HG b Hb')].
Qed.

(** ** The gradient of the input *)
Local Open Scope R_scope.
Lemma msum_rows_of (f : nat -> R) B : forall l s, Forall (fun n => (n <= B)%nat) l -> S_ B (fun b => msum (map f (rows_of b s l))) = S_ (total l) (fun i => f (s + i)%nat).
Proof.
  induction l as [|n l IH]; intros s F; cbn [rows_of map total fold_right]; [change (S_ B (fun _ => 0) = 0); apply S_zero|]. fold (total l). apply Forall_cons_iff in F as [F1 F2].
  rewrite (S_ext B _ (fun b => (if Nat.ltb b n then f (s + b)%nat else 0) + msum (map f (rows_of b (s + n) l)))).
  - rewrite S_plus, IH by exact F2. rewrite S_app. f_equal.
    + replace B with (n + (B - n))%nat by lia. rewrite S_app. rewrite (S_ext (B - n) _ (fun _ => 0)) by (intros k _; destruct (Nat.ltb_spec (n + k) n); [lia|reflexivity]). rewrite S_zero. rewrite (S_ext n _ (fun i => f (s + i)%nat)); [ring|]. intros i Hi. destruct (Nat.ltb_spec i n); [reflexivity|lia].
    + apply S_ext. intros i _. f_equal. lia.
  - intros b _. rewrite map_app, msum_app. f_equal. destruct (b <? n)%nat; cbn; lra.
Qed.
Lemma mdot_rows n (A B : list (list R)) : length A = n -> length B = n -> mdot A B = S_ n (fun r => dot (nth r A []) (nth r B [])).
Proof. revert n B. induction A as [|a A IH]; intros n [|b B] La Lb; cbn [length] in *; subst n; try discriminate; [reflexivity|]. rewrite mdot_cons, S_S. cbn [nth]. rewrite (IH (length A) B) by lia. reflexivity. Qed.
Lemma mdot_take (A B : list (list R)) l : mdot (take A l) (take B l) = msum (map (fun r => dot (nth r A []) (nth r B [])) l).
Proof. induction l as [|r l IH]; [reflexivity|]. cbn [take map]. rewrite mdot_cons, msum_cons. unfold take in IH. now rewrite IH. Qed.
Lemma mdot_split N (A B : list (list R)) batch lengths : length A = N -> length B = N -> total lengths = N -> Forall (fun n => (n <= batch)%nat) lengths ->
  mdot A B = S_ batch (fun b => mdot (take A (rows_of b 0 lengths)) (take B (rows_of b 0 lengths))).
Proof.
  intros LA LB Ht F. rewrite (mdot_rows N) by assumption. rewrite (S_ext batch _ (fun b => msum (map (fun r => dot (nth r A []) (nth r B [])) (rows_of b 0 lengths)))) by (intros; apply mdot_take). rewrite msum_rows_of by exact F. now rewrite Ht.
Qed.
Lemma mdot_zero_rows r c (A : list (list R)) : mdot A (zero_rows r c) = 0.
Proof. unfold mdot, zero_rows. revert r. induction A as [|a A IH]; intros [|r]; try reflexivity. cbn [repeat combine map fst snd]. rewrite msum_cons, IH, dot_zeros. lra. Qed.
Lemma moves2_const r c (m : list (list R)) : length m = r -> Forall (fun x => length x = c) m -> moves2 r c (fun _ => m) (zero_rows r c).
Proof.
  intros L F. split; [apply repeat_length|]. split; [intros; exact L|]. intros i Hi. rewrite nth_zero_rows by exact Hi. apply moves_const. rewrite Forall_forall in F. apply F, nth_In. lia.
Qed.
Lemma moves2_take N c m dm l : moves2 N c m dm -> (forall r, In r l -> (r < N)%nat) -> moves2 (length l) c (fun s => take (m s) l) (take dm l).
Proof.
  intros (L1 & L2 & M) Hin. split; [apply map_length|]. split; [intros; apply map_length|]. intros i Hi. assert (Hr : (nth i l 0%nat < N)%nat) by (apply Hin, nth_In, Hi). destruct (M _ Hr) as (A1 & A2 & A3). rewrite nth_take by exact Hi. split; [exact A1|]. split; [intros s; rewrite nth_take by exact Hi; apply A2|].
  intros j Hj. eapply der_local; [| |apply (A3 j Hj)]; [instantiate (1 := 1); instantiate (1 := -1); lra|]. intros s _. cbv beta. now rewrite nth_take by exact Hi.
Qed.

(** ** The gradient of the hidden weights *)
Lemma half : logistic_c 0 = / 2. Proof. rewrite logistic_c_R. apply logistic_0. Qed.
Ltac calc0 := let h := fresh in pose proof half as h; cbv -[Rplus Rmult Rdiv Ropp exp tanh IZR logistic_c Rinv Rminus] in h;
  cbv -[Rplus Rmult Rdiv Ropp exp tanh IZR logistic_c Rinv Rminus hid_out];
  repeat first [rewrite Rmult_0_l|rewrite Rmult_0_r|rewrite Rplus_0_l|rewrite Rplus_0_r|rewrite Rmult_1_l|rewrite Rmult_1_r|rewrite tanh_0|rewrite h].
Lemma tanh_gt x : 0 < x -> 0 < tanh x.
Proof.
  intros Hx. unfold tanh, sinh, cosh. pose proof (exp_pos x). pose proof (exp_pos (- x)). pose proof (exp_increasing (- x) x ltac:(lra)). apply Rdiv_lt_0_compat; lra.
Qed.
Lemma hid_fwd s : exists states, np_lstm 1 1 1 (hid_params s) [[[0]]] [[[0]]] hid_X [1; 1]%nat = Ok (mkM 1 [[0]; [hid_out]], states).
Proof. calc0. eexists. reflexivity. Qed.
Lemma hid_bwd : exists Y states, np_lstm 1 1 1 (hid_params 0) [[[0]]] [[[0]]] hid_X [1; 1]%nat = Ok (Y, states) /\
  exists dX v, np_backprop_lstm 1 1 1 (mkM 1 [[0]; [1]]) [1; 1]%nat (hid_params 0) states hid_X = Ok (dX, v) /\ nth 11 v 0 - nth 11 (hid_params 0) 0 > 0.
Proof.
  eexists. eexists. split; [calc0; reflexivity|]. eexists. eexists. split; [calc0; reflexivity|]. cbn [nth hid_params].
  pose proof (tanh_bounds 1) as [B1 B2]. pose proof (tanh_gt 1 ltac:(lra)). pose proof (tanh_bounds (/ 2 * tanh 1)) as [B3 B4]. pose proof (tanh_gt (/ 2 * tanh 1) ltac:(lra)).
  set (a := tanh 1) in *. set (t := tanh (/ 2 * a)) in *. assert (0 < 1 - a * a) by nra. assert (0 < 1 - t * t) by nra.
  assert (0 < (1 - t * t) * (1 - a * a)) by (apply Rmult_lt_0_compat; assumption). nra.
Qed.
Lemma hidden_refuted : exists (params : R -> list R) (X Y dY : mat R), (forall s, params s = map (fun k => if Nat.eqb k 11 then s else nth k (params 0) 0) (seq 0 16)) /\
  (forall s, exists states, np_lstm 1 1 1 (params s) [[[0]]] [[[0]]] X [1; 1]%nat = Ok (Y, states)) /\
  exists states, np_lstm 1 1 1 (params 0) [[[0]]] [[[0]]] X [1; 1]%nat = Ok (Y, states) /\
  exists dX v, np_backprop_lstm 1 1 1 dY [1; 1]%nat (params 0) states X = Ok (dX, v) /\ nth 11 v 0 - nth 11 (params 0) 0 > 0.
Proof.
  destruct hid_bwd as (Y & st & E & dX & v & E2 & H). exists hid_params, hid_X, Y, (mkM 1 [[0]; [1]]). split; [reflexivity|]. split.
  - intros s. destruct (hid_fwd 0) as (s0 & E0). rewrite E in E0. injection E0 as -> _. apply hid_fwd.
  - exists st. split; [exact E|]. exists dX, v. now split.
Qed.
