(** The LSTM backward kernels. *)
From Coq Require Import Reals Lra Lia.
From Verif Require Import NumR MatSpec MatProofs BaseFacts CombProofs CombBuiltProofs MkProofs LstmProofs ActProofs SoftProofs.
From Verif Require Import LstmModel LstmSpec LstmKernelModel LstmKernelSpec LstmFwdProofs.
Set Default Goal Selector "!".
Local Open Scope nat_scope.

(** ** Arrays of zeros *)
Lemma zeros_map {A} (l : list A) (f : A -> R) : (forall x, In x l -> f x = 0%R) -> map f l = zeros (length l).
Proof. induction l as [|x l IH]; intros E; [reflexivity|]. cbn [map length zeros repeat]. rewrite (E x (or_introl eq_refl)). f_equal. apply IH. intros y Hy. apply E. now right. Qed.
Lemma zero_sum (l : list R) : Forall (fun x => x = 0%R) l -> nsum l = 0%R.
Proof. intros F. rewrite nsum_msum. induction F as [|x l Hx F IH]; [reflexivity|]. rewrite msum_cons, IH, Hx. ring. Qed.
Lemma zero_mul (a b : list R) : Forall (fun x => x = 0%R) a -> Forall (fun x => x = 0%R) (vmap2 nmul a b).
Proof. intros F. unfold vmap2. revert b. induction F as [|x l Hx F IH]; intros [|y b]; cbn; constructor; [rewrite Hx; apply Rmult_0_l|apply IH]. Qed.
Lemma zeros_zero n : Forall (fun x : R => x = 0%R) (zeros n).
Proof. apply Forall_forall. intros x Hx. apply repeat_spec in Hx. exact Hx. Qed.
Lemma times_t_zero c (W : list (list R)) k : times_t c W (zeros k) = zeros c.
Proof. unfold times_t. rewrite zeros_map; [now rewrite seq_length|]. intros j _. apply zero_sum, zero_mul, zeros_zero. Qed.
Lemma col_zero_rows i N k : Forall (fun x : R => x = 0%R) (col (nZ 0) i (zero_rows N k)).
Proof.
  unfold col. apply Forall_forall. intros x Hx. apply in_map_iff in Hx as (r & <- & Hr). apply repeat_spec in Hr. subst r. unfold zeros. destruct (Nat.lt_ge_cases i k) as [H|H]; [apply nth_repeat|apply nth_overflow; now rewrite repeat_length].
Qed.
Lemma outer_zero r c N k (B : list (list R)) : outer r c (zero_rows N k) B = (zero_rows r c : list (list R)).
Proof.
  unfold outer, zero_rows at 2. assert (E : forall s, map (fun i => map (fun j => nsum (vmap2 nmul (col (nZ 0) i (zero_rows N k)) (col (nZ 0) j B))) (seq 0 c)) (seq s r) = repeat (zeros c : list R) r); [|apply E].
  induction r as [|r IH]; intros s; [reflexivity|]. cbn [seq map repeat]. rewrite IH. f_equal. rewrite zeros_map; [now rewrite seq_length|]. intros j _. apply zero_sum, zero_mul, col_zero_rows.
Qed.
Lemma sums_zero n N k : map (fun j => nsum (col (nZ 0) j (zero_rows N k))) (seq 0 n) = (zeros n : list R).
Proof. rewrite zeros_map; [now rewrite seq_length|]. intros j _. apply zero_sum, col_zero_rows. Qed.
Lemma row_add_zero c (x : list R) : length x = c -> row_add x (zeros c) = x.
Proof. intros <-. apply vmap2_zeros. Qed.
Lemma add_rows_zero r c (a : list (list R)) : length a = r -> Forall (fun x => length x = c) a -> add_rows a (zero_rows r c) = a.
Proof.
  intros <- F. unfold add_rows, vmap2, zero_rows. induction F as [|x a Hx F IH]; [reflexivity|]. cbn [length repeat combine map fst snd]. rewrite IH. f_equal. now apply row_add_zero.
Qed.
Lemma map_times_zero c (W : list (list R)) N k : map (times_t c W) (zero_rows N k) = (zero_rows N c : list (list R)).
Proof. unfold zero_rows. induction N as [|N IH]; [reflexivity|]. cbn [repeat map]. now rewrite IH, times_t_zero. Qed.
Lemma zero_rows_wide N c : Forall (fun x : list R => length x = c) (zero_rows N c).
Proof. apply Forall_forall. intros x Hx. apply repeat_spec in Hx. subst x. apply repeat_length. Qed.
Lemma add_triple_zero nO nI N k X Y (dWx dWh : mat R) (db : list R) : triple_shape nO nI (dWx, dWh, db) ->
  (mkM nI (add_rows (m_rows dWx) (outer (4 * nO) nI (zero_rows N k) X)), mkM nO (add_rows (m_rows dWh) (outer (4 * nO) nO (zero_rows N k) Y)), row_add db (map (fun j => nsum (col (nZ 0) j (zero_rows N k))) (seq 0 (4 * nO)))) = (dWx, dWh, db).
Proof.
  intros ((C1 & L1 & F1) & (C2 & L2 & F2) & L3). cbn [fst snd] in *. rewrite !outer_zero, sums_zero. rewrite (add_rows_zero (4 * nO) nI), (add_rows_zero (4 * nO) nO), row_add_zero by assumption. destruct dWx, dWh. cbn in *. now subst.
Qed.

(** ** A layer whose gate gradients are zero *)
Definition layer4 : Type := mat R * list (triple R) * list (triple R) * list (dir_state R).
Definition l_dws (l : layer4) : list (triple R) := snd (fst l).
Definition layer_ok (N dirs nO nI : nat) (l : layer4) : Prop :=
  let '(X, ws, dws, ss) := l in m_cols X = nI /\ length (m_rows X) = N /\ length ws = dirs /\ length dws = dirs /\ length ss = dirs /\ Forall (triple_shape nO nI) dws /\ Forall (fun s => length (d_G s) = N /\ length (d_C s) = N) ss.
(** One direction of NumPy, for one time step *)
Lemma np_dir_one d nO nI X dY w dw s n : triple_shape nO nI dw -> np_dir_bwd d nO nI X (zero_rows (length X) nI) dY w dw s [n] = Ok (zero_rows (length X) nI, dw).
Proof.
  intros Hd. destruct w as [[Wx Wh] b], dw as [[dWx dWh] db]. unfold np_dir_bwd. replace (back_order d (order_ltr 0 [n])) with (Ok ((0, n), @nil (nat * nat))) by (now destruct d). cbn [bind fst snd np_back_steps b_dG].
  rewrite add_triple_zero by exact Hd. rewrite map_times_zero, add_rows_zero; [reflexivity|apply repeat_length|apply zero_rows_wide].
Qed.
Lemma np_dirs_one nO nI X n : forall dYs d (ws dws : list (triple R)) ss, length ws = length dYs -> length dws = length dYs -> length ss = length dYs -> Forall (triple_shape nO nI) dws ->
  np_dirs_bwd d nO nI X (zero_rows (length X) nI) dYs ws dws ss [n] = Ok (zero_rows (length X) nI, dws).
Proof.
  induction dYs as [|dY dYs IH]; intros d ws dws ss L1 L2 L3 F; destruct ws as [|w ws]; destruct dws as [|dw dws]; destruct ss as [|s ss]; try discriminate; [reflexivity|]. apply Forall_cons_iff in F as [F1 F2].
  cbn [np_dirs_bwd]. rewrite np_dir_one by exact F1. cbn [bind fst snd]. rewrite IH by (cbn in *; lia || assumption). reflexivity.
Qed.
Lemma split_width_length dirs nO (dY : list (list R)) : length (split_width dirs nO dY) = dirs.
Proof. unfold split_width. now rewrite map_length, seq_length. Qed.
Lemma np_layers_one N dirs nO nI n x : layer_ok N dirs nO nI x -> forall l (dY : mat R), Forall (layer_ok N dirs nO (nO * dirs)) l -> length (m_rows dY) * m_cols dY = N * (dirs * nO) ->
  np_layers_bwd dirs nO [n] dY (l ++ [x]) = Ok (mkM nI (zero_rows N nI), map l_dws (l ++ [x])).
Proof.
  assert (One : forall nI x dY l, layer_ok N dirs nO nI x -> length (m_rows dY) * m_cols dY = N * (dirs * nO) ->
    np_layers_bwd dirs nO [n] dY (x :: l) = bind (np_layers_bwd dirs nO [n] (mkM nI (zero_rows N nI)) l) (fun r => Ok (fst r, l_dws x :: snd r))).
  { intros nI' [[[X ws] dws] ss] dY l (C & L & L1 & L2 & L3 & F & _) E. cbn [np_layers_bwd]. rewrite L, E, Nat.eqb_refl. cbn [negb]. rewrite C, <- L. rewrite np_dirs_one; rewrite ?split_width_length; try assumption. reflexivity. }
  intros Hx. induction l as [|y l IH]; intros dY F E; cbn [app].
  - rewrite (One nI x dY [] Hx E). reflexivity.
  - apply Forall_cons_iff in F as [F1 F2]. rewrite (One _ y dY _ F1 E), IH; [reflexivity|exact F2|]. cbn [m_rows m_cols]. unfold zero_rows. rewrite repeat_length. lia.
Qed.
(** One direction of the base implementation *)
Lemma base_back_ok nO Wh N (s : dir_state R) : length (d_G s) = N -> length (d_C s) = N -> forall order t3 size3 dY dC, Forall (fun p => fst p + snd p <= N) ((t3, size3) :: order) ->
  exists r, base_back_steps nO Wh s t3 size3 order dY dC = Ok r.
Proof.
  intros LG LC. induction order as [|[t2 size2] order IH]; intros t3 size3 dY dC F; [eexists; reflexivity|]. apply Forall_cons_iff in F as [F1 F]. pose proof F as F'. apply Forall_cons_iff in F as [F2 F]. cbn [fst snd] in *. cbn [base_back_steps].
  replace (Nat.eqb _ _) with true; [cbn [negb]; apply IH, F'|]. symmetry. apply Nat.eqb_eq. rewrite !slice_length. lia.
Qed.
Lemma back_order_ok d N n lengths : total (n :: lengths) = N -> exists t l, back_order d (order_ltr 0 (n :: lengths)) = Ok (t, l) /\ Forall (fun p => fst p + snd p <= N) (t :: l).
Proof.
  intros Ht. assert (F : Forall (fun p => fst p + snd p <= N) (order_ltr 0 (n :: lengths))).
  { assert (B : exists B, Forall (fun m => m <= B) (n :: lengths)).
    { clear. generalize (n :: lengths). intros l. exists (total l). induction l as [|m l IH]; [constructor|]. cbn [total fold_right]. fold (total l). constructor; [lia|]. eapply Forall_impl; [|exact IH]. cbv beta. intros a Ha. lia. }
    destruct B as [B HB]. eapply Forall_impl; [|exact (order_ltr_bound B _ 0 HB)]. cbv beta. intros p Hp. lia. }
  unfold back_order. destruct d as [|d].
  - apply Forall_rev in F. destruct (rev (order_ltr 0 (n :: lengths))) as [|t l] eqn:E; [|exists t, l; split; [reflexivity|exact F]].
    apply (f_equal (@length _)) in E. rewrite rev_length in E. discriminate.
  - destruct (order_ltr 0 (n :: lengths)) as [|t l] eqn:E; [discriminate|]. exists t, l. split; [reflexivity|exact F].
Qed.
Lemma base_dir_zero d nO nI X dC dY w dw (s : dir_state R) n lengths : triple_shape nO nI dw -> length (d_G s) = length X -> length (d_C s) = length X -> total (n :: lengths) = length X ->
  exists dC', base_dir_bwd d nO nI X (zero_rows (length X) (4 * nO)) dC (zero_rows (length X) nI) dY w dw s (n :: lengths) = Ok (dC', zero_rows (length X) nI, dw).
Proof.
  intros Hd LG LC Ht. destruct w as [[Wx Wh] b], dw as [[dWx dWh] db]. unfold base_dir_bwd. destruct (back_order_ok d _ n lengths Ht) as ([t3 s3] & l & E & F). rewrite E. cbn [bind fst snd].
  destruct (base_back_ok nO (m_rows Wh) (length X) s LG LC l t3 s3 dY dC F) as ([dY' dC'] & E2). rewrite E2. cbn [bind fst snd]. exists dC'. rewrite add_triple_zero by exact Hd. rewrite map_times_zero, add_rows_zero; [reflexivity|apply repeat_length|apply zero_rows_wide].
Qed.
Lemma base_dirs_zero nO nI X n lengths : total (n :: lengths) = length X -> forall dYs d dC (ws dws : list (triple R)) ss, length ws = length dYs -> length dws = length dYs -> length ss = length dYs -> Forall (triple_shape nO nI) dws ->
  Forall (fun s => length (d_G s) = length X /\ length (d_C s) = length X) ss ->
  exists dC', base_dirs_bwd d nO nI X (zero_rows (length X) (4 * nO)) dC (zero_rows (length X) nI) dYs ws dws ss (n :: lengths) = Ok (dC', zero_rows (length X) nI, dws).
Proof.
  intros Ht. induction dYs as [|dY dYs IH]; intros d dC ws dws ss L1 L2 L3 F G; destruct ws as [|w ws]; destruct dws as [|dw dws]; destruct ss as [|s ss]; try discriminate; [eexists; reflexivity|].
  apply Forall_cons_iff in F as [F1 F2]. apply Forall_cons_iff in G as [[G1 G2] G3]. cbn [base_dirs_bwd]. destruct (base_dir_zero d nO nI X dC dY w dw s n lengths F1 G1 G2 Ht) as (dC' & E). rewrite E. cbn [bind fst snd].
  destruct (IH (S d) dC' ws dws ss) as (dC'' & E'); try (cbn in *; lia || assumption). rewrite E'. eexists. reflexivity.
Qed.
Lemma base_layers_zero N dirs nO nI n lengths x : total (n :: lengths) = N -> layer_ok N dirs nO nI x -> forall l dC (dY : mat R), Forall (layer_ok N dirs nO (nO * dirs)) l -> length (m_rows dY) * m_cols dY = N * (dirs * nO) ->
  base_layers_bwd dirs nO (n :: lengths) (zero_rows N (4 * nO)) dC dY (l ++ [x]) = Ok (mkM nI (zero_rows N nI), map l_dws (l ++ [x])).
Proof.
  intros Ht. assert (One : forall nI x dC dY l, layer_ok N dirs nO nI x -> length (m_rows dY) * m_cols dY = N * (dirs * nO) -> exists dC',
    base_layers_bwd dirs nO (n :: lengths) (zero_rows N (4 * nO)) dC dY (x :: l) = bind (base_layers_bwd dirs nO (n :: lengths) (zero_rows N (4 * nO)) dC' (mkM nI (zero_rows N nI)) l) (fun r => Ok (fst r, l_dws x :: snd r))).
  { intros nI' [[[X ws] dws] ss] dC dY l (C & L & L1 & L2 & L3 & F & G) E. cbn [base_layers_bwd]. rewrite L, E, Nat.eqb_refl. cbn [negb]. rewrite C. rewrite <- L in Ht, G |- *. clear L.
    destruct (base_dirs_zero nO nI' (m_rows X) n lengths Ht (split_width dirs nO (m_rows dY)) 0 dC ws dws ss) as (dC' & Ed); rewrite ?split_width_length; try assumption. rewrite Ed. exists dC'. reflexivity. }
  intros Hx. induction l as [|y l IH]; intros dC dY F E; cbn [app].
  - destruct (One nI x dC dY [] Hx E) as (dC' & ->). reflexivity.
  - apply Forall_cons_iff in F as [F1 F2]. destruct (One _ y dC dY (l ++ [x]) F1 E) as (dC' & ->). rewrite IH; [reflexivity|exact F2|]. cbn [m_rows m_cols]. unfold zero_rows. rewrite repeat_length. lia.
Qed.

(** ** All layers *)
Lemma layer_inputs_ok N dirs nO : N <> 0 -> forall (states : list (list (dir_state R))) X, length (m_rows X) = N ->
  exists Xs, layer_inputs_of dirs nO X states = Ok Xs /\ length Xs = length states /\ Forall (fun X => length (m_rows X) = N) Xs /\
    match Xs with [] => True | X0 :: Xs => m_cols X0 = m_cols X /\ Forall (fun X => m_cols X = nO * dirs) Xs end.
Proof.
  intros HN. induction states as [|s states IH]; intros X HX; [exists []; repeat split; constructor|]. cbn [layer_inputs_of]. destruct states as [|s' states'].
  - exists [X]. repeat split; repeat constructor; assumption.
  - rewrite HX. unfold join_dirs. destruct (Nat.eqb_spec N 0); [lia|]. cbn [bind]. set (H := map _ (seq 0 N)).
    destruct (IH (mkM (dirs * nO) H)) as (Xs & E & L & F & G); [unfold H; cbn; now rewrite map_length, seq_length|]. rewrite E. cbn [bind]. exists (X :: Xs). cbn [length]. split; [reflexivity|]. split; [cbn in L; lia|]. split; [now constructor|]. split; [reflexivity|].
    destruct Xs as [|X0 Xs]; [constructor|]. destruct G as [G1 G2]. constructor; [cbn in G1; lia|exact G2].
Qed.
Lemma stack_ok N dirs nO : forall depth nI Xs (ws dws : list (list (triple R))) states, layers_shape triple_shape depth dirs nO nI ws -> layers_shape triple_shape depth dirs nO nI dws -> states_ok N depth dirs states ->
  length Xs = depth -> Forall (fun X => length (m_rows X) = N) Xs -> match Xs with [] => True | X0 :: Xs => m_cols X0 = nI /\ Forall (fun X => m_cols X = nO * dirs) Xs end ->
  map l_dws (combine4 Xs ws dws states) = dws /\ match combine4 Xs ws dws states with [] => depth = 0 | x :: l => layer_ok N dirs nO nI x /\ Forall (layer_ok N dirs nO (nO * dirs)) l end.
Proof.
  induction depth as [|depth IH]; intros nI Xs ws dws states Hw Hd [Ls Hs] LX FX CX; destruct ws as [|w ws]; try contradiction; destruct dws as [|dw dws]; try contradiction; destruct states as [|s states]; try discriminate; destruct Xs as [|X Xs]; try discriminate; [split; reflexivity|].
  destruct Hw as (W1 & W2 & W3). destruct Hd as (D1 & D2 & D3). apply Forall_cons_iff in Hs as [[S1 S2] S3]. apply Forall_cons_iff in FX as [X1 X2]. destruct CX as [C1 C2].
  destruct (IH (nO * dirs) Xs ws dws states W3 D3) as [I1 I2]; [split; [cbn in Ls; lia|exact S3]|cbn in LX; lia|exact X2| |].
  - destruct Xs as [|X' Xs]; [exact I|]. apply Forall_cons_iff in C2. exact C2.
  - unfold combine4 in *. cbn [combine map]. split; [unfold l_dws at 1; cbn [fst snd]; now rewrite I1|]. split; [unfold layer_ok; repeat (split; [assumption|]); assumption|].
    destruct (combine (combine (combine Xs ws) dws) states) as [|x l]; [constructor|]. destruct I2 as [I2 I3]. now constructor.
Qed.
Lemma np_one_step depth dirs nO nI (params : list R) dY n states X : depth <> 0 -> dirs <> 0 -> nO <> 0 -> nI <> 0 -> length params = lstm_size depth dirs nO nI -> m_cols X = nI -> length (m_rows X) <> 0 -> states_ok (length (m_rows X)) depth dirs states ->
  length (m_rows dY) * m_cols dY = length (m_rows X) * (dirs * nO) ->
  exists ps v, split_layers params depth dirs nO nI 0 = Ok (ps, length params) /\ np_backprop_lstm depth dirs nO dY [n] params states X = Ok (mkM nI (zero_rows (length (m_rows X)) nI), v) /\
    length v = length params /\ split_layers v depth dirs nO nI 0 = Ok (map (map one_bias) ps, length params).
Proof.
  intros Hd Hdi HO HI Lp Hc HN Hs HY. destruct (join_back depth dirs nO nI params HO HI Hdi Lp) as (ps & ws & v & E1 & E2 & Sh & E3 & Lv & E4). exists ps, v. split; [exact E1|]. split; [|split; assumption].
  unfold np_backprop_lstm. rewrite Hc, E2. cbn [bind]. destruct (layer_inputs_ok _ dirs nO HN states X eq_refl) as (Xs & EX & LX & FX & CX). rewrite EX. cbn [bind].
  destruct (stack_ok (length (m_rows X)) dirs nO depth nI Xs ws ws states Sh Sh Hs) as [M1 M2]; [rewrite LX; apply Hs|exact FX|rewrite <- Hc; exact CX|].
  destruct (combine4 Xs ws ws states) as [|x l]; [contradiction|]. destruct M2 as [M2 M3]. cbn [rev]. rewrite (np_layers_one _ dirs nO nI n x M2 (rev l)); [|now apply Forall_rev|exact HY].
  cbn [bind fst snd]. rewrite map_app, rev_app_distr, map_rev, rev_involutive. cbn [map rev app]. rewrite <- M1 in E3. cbn [map] in E3. match goal with |- context [join_layers ?a] => replace (join_layers a) with (Ok v) by (symmetry; exact E3) end. reflexivity.
Qed.
(** Zeros are read, transposed and joined as zeros *)
Lemma all_zeros (l : list R) : Forall (fun x => x = 0%R) l -> l = zeros (length l).
Proof. induction 1 as [|x l Hx F IH]; [reflexivity|]. cbn [length zeros repeat]. rewrite Hx. f_equal. exact IH. Qed.
Lemma join_zeros depth dirs nO nI : nO <> 0 -> nI <> 0 -> dirs <> 0 ->
  exists dws, all_layer_params (zeros (lstm_size depth dirs nO nI)) depth dirs nO nI = Ok dws /\ layers_shape triple_shape depth dirs nO nI dws /\ join_layers dws = Ok (zeros (lstm_size depth dirs nO nI) : list R).
Proof.
  intros HO HI Hdi. set (z := zeros (lstm_size depth dirs nO nI) : list R). assert (Lz : length z = lstm_size depth dirs nO nI) by apply repeat_length.
  destruct (join_back depth dirs nO nI z HO HI Hdi Lz) as (ps & ws & v & E1 & E2 & Sh & E3 & Lv & E4). exists ws. split; [exact E2|]. split; [exact Sh|]. rewrite E3. f_equal.
  destruct (split_ok z depth dirs nO nI [] Lz) as (ps' & E5 & _ & E6). rewrite app_nil_r in E5. rewrite E5 in E1. injection E1 as ->.
  destruct (split_ok v depth dirs nO nI [] ltac:(congruence)) as (qs & E7 & _ & E8). rewrite app_nil_r, E4 in E7. injection E7 as <- _.
  assert (F : Forall (fun x => x = 0%R) v); [|rewrite (all_zeros v F), Lv, Lz; reflexivity].
  assert (Fz : Forall (fun x => x = 0%R) (concat (map elements (concat ps)))) by (rewrite E6; apply zeros_zero). rewrite <- E8. rewrite <- concat_map. clear - Fz.
  induction (concat ps) as [|p l IH]; [constructor|]. cbn [map concat] in *. apply Forall_app in Fz as [F1 F2]. apply Forall_app. split; [|apply IH, F2]. unfold elements, one_bias in *. cbn [p_Wx p_bx p_Wh p_bh].
  rewrite !Forall_app in *. destruct F1 as (F1 & F3 & F4 & F5). repeat split; try assumption; [|apply zeros_zero].
  clear - F3 F5. unfold vmap2. revert F5. generalize (p_bh p). induction F3 as [|x a Hx F IH]; intros [|y b] F5; cbn; constructor; [|apply IH; now apply Forall_cons_iff in F5]. apply Forall_cons_iff in F5 as [-> _]. rewrite Hx. apply Rplus_0_l.
Qed.
Lemma base_zero depth dirs nO nI (params : list R) dY n lengths states X : depth <> 0 -> dirs <> 0 -> nO <> 0 -> nI <> 0 -> length params = lstm_size depth dirs nO nI -> m_cols X = nI -> length (m_rows X) <> 0 -> states_ok (length (m_rows X)) depth dirs states ->
  length (m_rows dY) * m_cols dY = length (m_rows X) * (dirs * nO) -> fold_right Nat.add 0 (n :: lengths) = length (m_rows X) ->
  base_backprop_lstm depth dirs nO dY (n :: lengths) params states X = Ok (mkM nI (zero_rows (length (m_rows X)) nI), zeros (length params)).
Proof.
  intros Hd Hdi HO HI Lp Hc HN Hs HY Ht. destruct (join_back depth dirs nO nI params HO HI Hdi Lp) as (_ & ws & _ & _ & E2 & Sh & _). destruct (join_zeros depth dirs nO nI HO HI Hdi) as (dws & E3 & Sd & E4).
  unfold base_backprop_lstm. rewrite Hc, E2. cbn [bind]. rewrite Lp, E3. cbn [bind]. destruct (layer_inputs_ok _ dirs nO HN states X eq_refl) as (Xs & EX & LX & FX & CX). rewrite EX. cbn [bind].
  destruct (stack_ok (length (m_rows X)) dirs nO depth nI Xs ws dws states Sh Sd Hs) as [M1 M2]; [rewrite LX; apply Hs|exact FX|rewrite <- Hc; exact CX|].
  destruct (combine4 Xs ws dws states) as [|x l]; [contradiction|]. destruct M2 as [M2 M3]. cbn [rev]. rewrite (base_layers_zero _ dirs nO nI n lengths x Ht M2 (rev l)); [|now apply Forall_rev|exact HY].
  cbn [bind fst snd]. rewrite map_app, rev_app_distr, map_rev, rev_involutive. cbn [map rev app]. rewrite <- M1 in E4. cbn [map] in E4. match goal with |- context [join_layers ?a] => replace (join_layers a) with (Ok (zeros (lstm_size depth dirs nO nI) : list R)) by (symmetry; exact E4) end. reflexivity.
Qed.

(** A gradient of the wrong size *)
Lemma wrong_size depth dirs nO nI (params : list R) dY n lengths states X : depth <> 0 -> dirs <> 0 -> nO <> 0 -> nI <> 0 -> length params = lstm_size depth dirs nO nI -> m_cols X = nI -> length (m_rows X) <> 0 -> states_ok (length (m_rows X)) depth dirs states ->
  length (m_rows dY) * m_cols dY <> length (m_rows X) * (dirs * nO) ->
  np_backprop_lstm depth dirs nO dY (n :: lengths) params states X = Err ValueError /\ base_backprop_lstm depth dirs nO dY (n :: lengths) params states X = Err ValueError.
Proof.
  intros Hd Hdi HO HI Lp Hc HN Hs HY. destruct (join_back depth dirs nO nI params HO HI Hdi Lp) as (_ & ws & _ & _ & E2 & Sh & _). destruct (join_zeros depth dirs nO nI HO HI Hdi) as (dws & E3 & Sd & E4).
  destruct (layer_inputs_ok _ dirs nO HN states X eq_refl) as (Xs & EX & LX & FX & CX).
  assert (Top : forall dws : list (list (triple R)), layers_shape triple_shape depth dirs nO nI dws -> exists Xt w dw s l, rev (combine4 Xs ws dws states) = (Xt, w, dw, s) :: l /\ length (m_rows Xt) = length (m_rows X)).
  { intros dws' Sd'. destruct (stack_ok (length (m_rows X)) dirs nO depth nI Xs ws dws' states Sh Sd' Hs) as [M1 M2]; [rewrite LX; apply Hs|exact FX|rewrite <- Hc; exact CX|].
    destruct (rev (combine4 Xs ws dws' states)) as [|[[[Xt w] dw] s] l] eqn:E.
    - apply (f_equal (@rev _)) in E. rewrite rev_involutive in E. cbn in E. rewrite E in M2. contradiction.
    - exists Xt, w, dw, s, l. split; [reflexivity|]. assert (I : In (Xt, w, dw, s) (combine4 Xs ws dws' states)) by (apply in_rev; rewrite E; now left).
      unfold combine4 in I. apply in_combine_l, in_combine_l, in_combine_l in I. rewrite Forall_forall in FX. now apply FX. }
  unfold np_backprop_lstm, base_backprop_lstm. rewrite Hc, E2. cbn [bind]. rewrite Lp, E3. cbn [bind]. rewrite EX. cbn [bind]. split.
  - destruct (Top ws Sh) as (Xt & w & dw & s & l & -> & LT). cbn [np_layers_bwd]. rewrite LT. apply Nat.eqb_neq in HY. rewrite HY. reflexivity.
  - destruct (Top dws Sd) as (Xt & w & dw & s & l & -> & LT). cbn [base_layers_bwd]. rewrite LT. apply Nat.eqb_neq in HY. rewrite HY. reflexivity.
Qed.

(** ** The first time step is never differentiated *)
Lemma np_back_out nO N Wh (s : dir_state R) r : forall order t3 size3 a a', (forall p, In p (removelast ((t3, size3) :: order)) -> r < fst p \/ fst p + snd p <= r) -> length (b_dG a) = N ->
  np_back_steps nO N Wh s t3 size3 order a = Ok a' -> nth r (b_dG a') [] = nth r (b_dG a) [] /\ length (b_dG a') = N.
Proof.
  induction order as [|[t2 size2] order IH]; intros t3 size3 a a' Ho L E; [injection E as <-; split; [reflexivity|exact L]|]. cbn [np_back_steps] in E.
  destruct (Nat.ltb_spec N (t2 + Nat.min size2 size3)); [discriminate E|]. destruct (Nat.ltb_spec N (t3 + Nat.min size2 size3)); [discriminate E|]. cbn [orb] in E.
  set (gs := map _ (seq 0 (Nat.min size2 size3))) in E. assert (Lg : length (map fst gs) = Nat.min size2 size3) by (unfold gs; now rewrite !map_length, seq_length).
  apply IH in E; [|intros p Hp; apply Ho; cbn [removelast] in Hp |- *; now right|cbn [b_dG]; rewrite splice_length; lia]. destruct E as [E1 E2]. split; [|exact E2]. rewrite E1. cbn [b_dG]. apply splice_out; [lia|].
  specialize (Ho (t3, size3)). cbn [removelast fst snd] in Ho. specialize (Ho (or_introl eq_refl)). lia.
Qed.
Lemma removelast_rev {A} (x : A) l : removelast (rev (x :: l)) = rev l.
Proof. cbn [rev]. rewrite removelast_app by discriminate. apply app_nil_r. Qed.
Lemma nth_add_rows (a b : list (list R)) r : r < length a -> r < length b -> nth r (add_rows a b) [] = row_add (nth r a []) (nth r b []).
Proof.
  intros Ha Hb. unfold add_rows, vmap2. rewrite (nth_indep _ [] ((fun p => row_add (fst p) (snd p)) ([], []))) by (rewrite map_length, combine_length; lia).
  rewrite (map_nth (fun p => row_add (fst p) (snd p)) (combine a b) ([], []) r). revert b r Ha Hb. induction a as [|x a IH]; intros [|y b] [|r] Ha Hb; cbn in *; try lia; [reflexivity|]. apply IH; lia.
Qed.
Lemma row_add_zeros c : row_add (zeros c) (zeros c) = (zeros c : list R).
Proof. apply row_add_zero, repeat_length. Qed.
Lemma np_dir_first nO nI X dX dY w dw (s : dir_state R) batch lengths dX' dw' r : r < batch -> r < length X -> length dX = length X -> nth r dX [] = zeros nI ->
  np_dir_bwd 0 nO nI X dX dY w dw s (batch :: lengths) = Ok (dX', dw') -> nth r dX' [] = zeros nI.
Proof.
  intros Hr HX LX Z. destruct w as [[Wx Wh] b], dw as [[dWx dWh] db]. unfold np_dir_bwd, back_order. cbn [order_ltr Nat.add]. destruct (rev ((0, batch) :: order_ltr batch lengths)) as [|[t3 s3] l] eqn:Er; [discriminate|]. cbn [bind fst snd].
  destruct (np_back_steps nO (length X) (m_rows Wh) s t3 s3 l _) as [a|er] eqn:E; [|discriminate]. cbn [bind]. intros H. injection H as <- _.
  apply np_back_out with (r := r) in E; [|rewrite <- Er, removelast_rev; intros p Hp; apply in_rev in Hp; left|apply repeat_length].
  - destruct E as [E L]. cbn [b_dG] in E. rewrite nth_zero_rows in E by exact HX. rewrite nth_add_rows; [|lia|rewrite map_length; lia]. rewrite Z, nth_map_rows by lia. rewrite E, times_t_zero. apply row_add_zeros.
  - assert (F : exists B, Forall (fun m => m <= B) lengths).
    { clear. exists (total lengths). induction lengths as [|m l IH]; [constructor|]. cbn [total fold_right]. fold (total l). constructor; [lia|]. eapply Forall_impl; [|exact IH]. cbv beta. intros a Ha. lia. }
    destruct F as [B F]. pose proof (order_ltr_bound B lengths batch F) as Fo. rewrite Forall_forall in Fo. specialize (Fo p Hp). lia.
Qed.
Lemma np_layers_last nO lengths (x : layer4) : forall l (dY : mat R) dX gs, np_layers_bwd 1 nO lengths dY (l ++ [x]) = Ok (dX, gs) ->
  exists dY', np_layers_bwd 1 nO lengths dY' [x] = Ok (dX, [last gs []]).
Proof.
  induction l as [|[[[X ws] dws] ss] l IH]; intros dY dX gs E.
  - exists dY. destruct x as [[[X ws] dws] ss]. cbn [app] in E. rewrite E. cbn [np_layers_bwd] in E. destruct (negb _); [discriminate|]. destruct (np_dirs_bwd _ _ _ _ _ _ _ _ _ _) as [r|er]; [|discriminate]. cbn [bind fst snd] in E. injection E as <- <-. reflexivity.
  - cbn [app np_layers_bwd] in E. destruct (negb _); [discriminate|]. destruct (np_dirs_bwd _ _ _ _ _ _ _ _ _ _) as [r|er]; [|discriminate]. cbn [bind] in E.
    destruct (np_layers_bwd 1 nO lengths _ (l ++ [x])) as [[dX' gs']|er] eqn:E2; [|discriminate]. cbn [bind fst snd] in E. injection E as <- <-. destruct (IH _ _ _ E2) as (dY' & E3). exists dY'. rewrite E3. do 3 f_equal.
    destruct gs' as [|g gs']; [|reflexivity]. exfalso. clear - E2. revert E2. generalize (mkM (m_cols X) (fst r)). destruct l as [|[[[X' ws'] dws'] ss'] l]; intros m E.
    + destruct x as [[[X' ws'] dws'] ss']. cbn [app np_layers_bwd] in E. destruct (negb _); [discriminate|]. destruct (np_dirs_bwd _ _ _ _ _ _ _ _ _ _) as [q|er]; [|discriminate]. discriminate.
    + cbn [app np_layers_bwd] in E. destruct (negb _); [discriminate|]. destruct (np_dirs_bwd _ _ _ _ _ _ _ _ _ _) as [q|er]; [|discriminate]. cbn [bind] in E. destruct (np_layers_bwd _ _ _ _ _); discriminate.
Qed.
Lemma np_first_step depth nO nI (params : list R) dY batch lengths states X dX d_params r : depth <> 0 -> nO <> 0 -> nI <> 0 -> length params = lstm_size depth 1 nO nI -> m_cols X = nI -> states_ok (length (m_rows X)) depth 1 states ->
  np_backprop_lstm depth 1 nO dY (batch :: lengths) params states X = Ok (dX, d_params) -> r < batch -> r < length (m_rows X) -> nth r (m_rows dX) [] = zeros nI.
Proof.
  intros Hd HO HI Lp Hc Hs E Hr HX. assert (HN : length (m_rows X) <> 0) by lia. destruct (join_back depth 1 nO nI params HO HI ltac:(lia) Lp) as (ps & ws & v & E1 & E2 & Sh & _). unfold np_backprop_lstm in E. rewrite Hc, E2 in E. cbn [bind] in E.
  destruct (layer_inputs_ok _ 1 nO HN states X eq_refl) as (Xs & EX & LX & FX & CX). rewrite EX in E. cbn [bind] in E.
  destruct (stack_ok (length (m_rows X)) 1 nO depth nI Xs ws ws states Sh Sh Hs) as [M1 M2]; [rewrite LX; apply Hs|exact FX|rewrite <- Hc; exact CX|].
  destruct (combine4 Xs ws ws states) as [|x l]; [contradiction|]. destruct M2 as [M2 M3]. cbn [rev] in E. destruct (np_layers_bwd 1 nO (batch :: lengths) dY (rev l ++ [x])) as [[dX1 gs]|er] eqn:E3; [|discriminate]. cbn [bind fst snd] in E.
  destruct (join_layers (rev gs)) as [d|er]; [|discriminate]. cbn [bind] in E. injection E as <- <-. destruct (np_layers_last _ _ _ _ _ _ _ E3) as (dY' & E4). destruct x as [[[X0 w0] dw0] s0]. destruct M2 as (C & L & L1 & L2 & L3 & F & _).
  cbn [np_layers_bwd] in E4. destruct (negb _); [discriminate|]. destruct w0 as [|w [|? ?]]; try discriminate. destruct dw0 as [|dw [|? ?]]; try discriminate. destruct s0 as [|s [|? ?]]; try discriminate. cbn [split_width seq map np_dirs_bwd] in E4. rewrite C in E4.
  destruct (np_dir_bwd 0 nO nI _ _ _ _ _ _ _) as [[dX' dw']|er] eqn:E5; [|discriminate]. cbn [bind fst snd] in E4. injection E4 as <- _. cbn [m_rows]. apply np_dir_first with (r := r) in E5; try assumption; [lia|apply repeat_length|]. rewrite L. now apply nth_zero_rows.
Qed.

(** ** The gates are differentiated correctly *)
Local Open Scope R_scope.
Lemma dot_vec n (f g : nat -> R) : dot (vec n f) (vec n g) = S_ n (fun i => f i * g i).
Proof. unfold dot, S_, vec. f_equal. generalize (seq 0 n). intros l. induction l as [|x l IH]; [reflexivity|]. cbn [map combine fst snd]. now rewrite IH. Qed.
Lemma dot_map n (f g : nat -> R) : dot (map f (seq 0 n)) (map g (seq 0 n)) = S_ n (fun i => f i * g i).
Proof. apply dot_vec. Qed.
Lemma dot_flat4 (f0 f1 f2 f3 : nat -> R) (g : nat -> R) : forall n s, dot (flat_map (fun o => [f0 o; f1 o; f2 o; f3 o]) (seq s n)) (map g (seq (4 * s) (4 * n))) =
  S_ n (fun o => f0 (s + o)%nat * g (4 * (s + o))%nat + f1 (s + o)%nat * g (4 * (s + o) + 1)%nat + f2 (s + o)%nat * g (4 * (s + o) + 2)%nat + f3 (s + o)%nat * g (4 * (s + o) + 3)%nat).
Proof.
  induction n as [|n IH]; intros s; [reflexivity|]. rewrite S_S, Nat.add_0_r. cbn [seq flat_map]. replace (4 * S n)%nat with (S (S (S (S (4 * n))))) by lia. cbn [seq map app]. unfold dot. cbn [combine map fst snd]. rewrite !msum_cons.
  replace (S (S (S (S (4 * s))))) with (4 * S s)%nat by lia. change (msum (map (fun p => fst p * snd p) (combine ?a ?b))) with (dot a b). rewrite (IH (S s)).
  replace (S (4 * s)) with (4 * s + 1)%nat by lia. replace (S (4 * s + 1)) with (4 * s + 2)%nat by lia. replace (S (4 * s + 2)) with (4 * s + 3)%nat by lia.
  rewrite (S_ext n _ (fun i => f0 (s + S i)%nat * g (4 * (s + S i))%nat + f1 (s + S i)%nat * g (4 * (s + S i) + 1)%nat + f2 (s + S i)%nat * g (4 * (s + S i) + 2)%nat + f3 (s + S i)%nat * g (4 * (s + S i) + 3)%nat)); [ring|].
  intros i _. now replace (S s + i)%nat with (s + S i)%nat by lia.
Qed.
Lemma gates_right nO (a c : nat -> R -> R) (da dc : nat -> R) (dy dc3 : list R) : length dy = nO -> length dc3 = nO ->
  (forall k, (k < 4 * nO)%nat -> derivable_pt_lim (a k) 0 (da k)) -> (forall o, (o < nO)%nat -> derivable_pt_lim (c o) 0 (dc o)) ->
  let g s := lstm_activate_fwd nO (map (fun k => a k s) (seq 0 (4 * nO))) in
  let r s := lstm_gates_fwd nO (g s) (map (fun o => c o s) (seq 0 nO)) in
  let b := lstm_gates_bwd nO dy dc3 (g 0) (snd (r 0)) (map (fun o => c o 0) (seq 0 nO)) in
  derivable_pt_lim (fun s => dot dy (fst (r s)) + dot dc3 (snd (r s))) 0 (dot (fst b) (map da (seq 0 (4 * nO))) + dot (snd b) (map dc (seq 0 nO))).
Proof.
  intros Ly Lc Da Dc g r b.
  assert (G : forall s o, (o < nO)%nat -> gate (g s) o 0 = logistic (a (4 * o)%nat s) /\ gate (g s) o 1 = logistic (a (4 * o + 1)%nat s) /\ gate (g s) o 2 = logistic (a (4 * o + 2)%nat s) /\ gate (g s) o 3 = tanh (a (4 * o + 3)%nat s)).
  { intros s o Ho. unfold g, lstm_activate_fwd. set (l := map _ (seq 0 (4 * nO))). assert (P : forall k, (k < 4)%nat -> gate l o k = a (4 * o + k)%nat s) by (intros k Hk; unfold gate, l; now rewrite (nth_map_seq (fun k => a k s)) by lia).
    destruct (gate_flat (fun o => logistic_c (gate l o 0)) (fun o => logistic_c (gate l o 1)) (fun o => logistic_c (gate l o 2)) (fun o => ntanh (gate l o 3)) nO o Ho) as (G0 & G1 & G2 & G3).
    rewrite G0, G1, G2, G3, !logistic_c_R, !P by lia. rewrite Nat.add_0_r. repeat split. }
  set (C := fun o s => logistic (a (4 * o)%nat s) * c o s + logistic (a (4 * o + 1)%nat s) * tanh (a (4 * o + 3)%nat s)).
  assert (R2 : forall s, snd (r s) = vec nO (fun o => C o s)).
  { intros s. unfold r, lstm_gates_fwd, vec. cbn [snd]. apply map_ext_in. intros o Ho. apply in_seq in Ho. destruct (G s o) as (G0 & G1 & G2 & G3); [lia|]. rewrite G0, G1, G3. rewrite (nth_map_seq (fun o => c o s)) by lia. reflexivity. }
  assert (R1 : forall s, fst (r s) = vec nO (fun o => tanh (C o s) * logistic (a (4 * o + 2)%nat s))).
  { intros s. pose proof (R2 s) as E. unfold r, lstm_gates_fwd, vec in *. cbn [fst snd] in *. rewrite E. apply map_ext_in. intros o Ho. apply in_seq in Ho. destruct (G s o) as (G0 & G1 & G2 & G3); [lia|]. rewrite G2. rewrite (nth_map_seq (fun o => C o s)) by lia. reflexivity. }
  set (p := fun o => nth o dy 0). set (q := fun o => nth o dc3 0). assert (Ey : dy = vec nO p) by (rewrite <- Ly; apply vec_of). assert (Ec : dc3 = vec nO q) by (rewrite <- Lc; apply vec_of).
  set (f := fun o s => p o * (tanh (C o s) * logistic (a (4 * o + 2)%nat s)) + q o * C o s).
  apply (der_local _ (fun s => S_ nO (fun o => f o s)) 0 (-1) 1); [lra| |].
  { intros s _. rewrite R1, R2, Ey, Ec. rewrite !dot_vec. unfold f. now rewrite S_plus. }
  set (L := fun k => logistic (a k 0)). set (TT := fun k => tanh (a k 0)).
  set (dC := fun o => L (4 * o)%nat * (1 - L (4 * o)%nat) * da (4 * o)%nat * c o 0 + L (4 * o)%nat * dc o + (L (4 * o + 1)%nat * (1 - L (4 * o + 1)%nat) * da (4 * o + 1)%nat * TT (4 * o + 3)%nat + L (4 * o + 1)%nat * ((1 - TT (4 * o + 3)%nat ^ 2) * da (4 * o + 3)%nat))).
  assert (Dl : forall k, (k < 4 * nO)%nat -> derivable_pt_lim (fun s => logistic (a k s)) 0 (L k * (1 - L k) * da k)).
  { intros k Hk. apply (derivable_pt_lim_comp (a k) logistic); [apply Da, Hk|apply der_logistic]. }
  assert (Dt : forall k, (k < 4 * nO)%nat -> derivable_pt_lim (fun s => tanh (a k s)) 0 ((1 - TT k ^ 2) * da k)).
  { intros k Hk. apply (derivable_pt_lim_comp (a k) tanh); [apply Da, Hk|apply der_tanh]. }
  assert (DC : forall o, (o < nO)%nat -> derivable_pt_lim (C o) 0 (dC o)).
  { intros o Ho. unfold C, dC. apply (derivable_pt_lim_plus (fun s => logistic (a (4 * o)%nat s) * c o s) (fun s => logistic (a (4 * o + 1)%nat s) * tanh (a (4 * o + 3)%nat s))).
    - apply (derivable_pt_lim_mult (fun s => logistic (a (4 * o)%nat s)) (c o)); [apply Dl; lia|apply Dc, Ho].
    - apply (derivable_pt_lim_mult (fun s => logistic (a (4 * o + 1)%nat s)) (fun s => tanh (a (4 * o + 3)%nat s))); [apply Dl; lia|apply Dt; lia]. }
  eapply der_eq; [apply (der_S nO f (fun o => p o * (((1 - tanh (C o 0) ^ 2) * dC o) * L (4 * o + 2)%nat + tanh (C o 0) * (L (4 * o + 2)%nat * (1 - L (4 * o + 2)%nat) * da (4 * o + 2)%nat)) + q o * dC o))|].
  - intros o Ho. unfold f. apply (derivable_pt_lim_plus (fun s => p o * (tanh (C o s) * logistic (a (4 * o + 2)%nat s))) (fun s => q o * C o s)); [|apply (derivable_pt_lim_scal (C o)), DC, Ho].
    apply (derivable_pt_lim_scal (fun s => tanh (C o s) * logistic (a (4 * o + 2)%nat s))). apply (derivable_pt_lim_mult (fun s => tanh (C o s)) (fun s => logistic (a (4 * o + 2)%nat s))); [|apply Dl; lia].
    apply (derivable_pt_lim_comp (C o) tanh); [apply DC, Ho|apply der_tanh].
  - unfold b, lstm_gates_bwd. cbn [fst snd]. pose proof (dot_flat4) as DF. change (seq 0 (4 * nO)) with (seq (4 * 0) (4 * nO)). rewrite DF. rewrite (dot_map nO _ dc). rewrite <- S_plus. apply S_ext. intros o Ho. cbn [Nat.add].
    destruct (G 0 o Ho) as (G0 & G1 & G2 & G3). rewrite G0, G1, G2, G3. rewrite (nth_map_seq (fun o => c o 0)) by exact Ho. pose proof (R2 0) as E. rewrite E. unfold vec. rewrite (nth_map_seq (fun o => C o 0)) by exact Ho.
    unfold dtanh, dsigmoid. cbn [nadd nmul nsub nZ ntanh npow num_R trans_R]. fold (p o) (q o). fold (L (4 * o)%nat) (L (4 * o + 1)%nat) (L (4 * o + 2)%nat) (TT (4 * o + 3)%nat). unfold dC. ring.
Qed.

(** ** A case in which the output depends on a parameter *)
Lemma logistic_0 : logistic 0 = / 2.
Proof. unfold logistic. rewrite Ropp_0, exp_0. lra. Qed.
Lemma tanh_0 : tanh 0 = 0.
Proof. unfold tanh, sinh. rewrite Ropp_0. unfold Rdiv, Rminus. rewrite Rplus_opp_r. ring. Qed.
Lemma der_wit : derivable_pt_lim wit_out 0 (/ 4).
Proof.
  unfold wit_out. eapply der_eq; [apply (derivable_pt_lim_mult (fun s => tanh (/ 2 * tanh s)) (fun _ => / 2)); [|apply derivable_pt_lim_const]|].
  - apply (derivable_pt_lim_comp (fun s => / 2 * tanh s) tanh); [apply (derivable_pt_lim_scal tanh), der_tanh|apply der_tanh].
  - rewrite tanh_0, Rmult_0_r, tanh_0. field.
Qed.
Lemma sigmoid_0 : sigmoid 0 = / 2.
Proof. rewrite sigmoid_mid by lra. apply logistic_0. Qed.
Ltac zero_args := repeat match goal with |- context [logistic_c ?x] => lazymatch x with 0 => fail | _ => replace x with 0 by ring end end; repeat match goal with |- context [sigmoid ?x] => lazymatch x with 0 => fail | _ => replace x with 0 by ring end end.
Lemma np_wit s : exists states, np_lstm 1 1 1 (wit_params s) [[[0]]] [[[0]]] wit_X [1%nat] = Ok (mkM 1 [[wit_out s]], states) /\ states_ok 1 1 1 states.
Proof.
  cbv -[Rplus Rmult Rdiv Ropp exp tanh IZR wit_out logistic_c Rinv states_ok].
  match goal with |- exists st, Ok (mkM 1 [[?e]], _) = _ /\ _ => assert (E : e = wit_out s) end.
  { unfold wit_out. zero_args. rewrite logistic_c_R, logistic_0. replace (0 + 0 * 0 + (0 + 0 * 0) + (s + 0)) with s by ring. f_equal. f_equal. ring. }
  rewrite E. eexists. split; [reflexivity|]. repeat split; repeat constructor.
Qed.
Lemma base_wit s : exists states, base_lstm_forward 1 1 1 (wit_params s) [[[0]]] [[[0]]] wit_X [1%nat] = Ok (mkM 1 [[wit_out s]], states) /\ states_ok 1 1 1 states.
Proof.
  cbv -[Rplus Rmult Rdiv Ropp exp tanh IZR wit_out sigmoid Rinv states_ok].
  match goal with |- exists st, Ok (mkM 1 [[?e]], _) = _ /\ _ => assert (E : e = wit_out s) end.
  { unfold wit_out. zero_args. pose proof sigmoid_0 as S0. cbv -[Rplus Rmult Rdiv Ropp exp tanh IZR sigmoid Rinv] in S0. rewrite !S0. replace (0 + 0 * 0 + (s + 0) + (0 + 0 * 0)) with s by ring. f_equal. f_equal. ring. }
  rewrite E. eexists. split; [reflexivity|]. repeat split; repeat constructor.
Qed.
Lemma zero_wit : wit_params 0 = zeros 16. Proof. reflexivity. Qed.
Lemma np_wit_back d states : states_ok 1 1 1 states -> np_backprop_lstm 1 1 1 (mkM 1 [[d]]) [1%nat] (wit_params 0) states wit_X = Ok (mkM 1 [[0]], zeros 16).
Proof.
  intros Hs. rewrite zero_wit. unfold np_backprop_lstm. change (m_cols wit_X) with 1%nat. destruct (join_zeros 1 1 1 1) as (dws & E3 & Sd & E4); try lia. change (lstm_size 1 1 1 1) with 16%nat in *. rewrite E3. cbn [bind].
  destruct (layer_inputs_ok 1 1 1 ltac:(lia) states wit_X eq_refl) as (Xs & EX & LX & FX & CX). rewrite EX. cbn [bind].
  destruct (stack_ok 1 1 1 1 1 Xs dws dws states Sd Sd Hs) as [M1 M2]; [rewrite LX; apply Hs|exact FX|exact CX|].
  destruct (combine4 Xs dws dws states) as [|x l]; [lia|]. destruct M2 as [M2 M3]. cbn [rev]. rewrite (np_layers_one 1 1 1 1 1 x M2 (rev l)); [|now apply Forall_rev|reflexivity].
  cbn [bind fst snd]. rewrite map_app, rev_app_distr, map_rev, rev_involutive. cbn [map rev app]. rewrite <- M1 in E4. cbn [map] in E4. match goal with |- context [join_layers ?a] => replace (join_layers a) with (Ok (zeros 16 : list R)) by (symmetry; exact E4) end. reflexivity.
Qed.
Lemma base_wit_back d states : states_ok 1 1 1 states -> base_backprop_lstm 1 1 1 (mkM 1 [[d]]) [1%nat] (wit_params 0) states wit_X = Ok (mkM 1 [[0]], zeros 16).
Proof. intros Hs. apply (base_zero 1 1 1 1 (wit_params 0) (mkM 1 [[d]]) 1 [] states wit_X); try lia; try reflexivity; [cbn; lia|exact Hs]. Qed.
Lemma np_refuted : exists (params : R -> list R) (out : R -> R) (X : mat R),
  (forall s, exists states, np_lstm 1 1 1 (params s) [[[0]]] [[[0]]] X [1%nat] = Ok (mkM 1 [[out s]], states)) /\ nth_error (params 0) 7 = Some 0 /\ (forall s, params s = repeat 0 7 ++ [s] ++ repeat 0 8) /\
  derivable_pt_lim out 0 (/ 4) /\
  exists Y states, np_lstm 1 1 1 (params 0) [[[0]]] [[[0]]] X [1%nat] = Ok (Y, states) /\ forall d, np_backprop_lstm 1 1 1 (mkM 1 [[d]]) [1%nat] (params 0) states X = Ok (mkM 1 [[0]], zeros 16).
Proof.
  exists wit_params, wit_out, wit_X. split; [intros s; destruct (np_wit s) as (st & E & _); now exists st|]. split; [reflexivity|]. split; [reflexivity|]. split; [apply der_wit|].
  destruct (np_wit 0) as (st & E & Hs). eexists. exists st. split; [exact E|]. intros d. now apply np_wit_back.
Qed.
Lemma base_refuted : exists (params : R -> list R) (out : R -> R) (X : mat R),
  (forall s, exists states, base_lstm_forward 1 1 1 (params s) [[[0]]] [[[0]]] X [1%nat] = Ok (mkM 1 [[out s]], states)) /\ nth_error (params 0) 7 = Some 0 /\ (forall s, params s = repeat 0 7 ++ [s] ++ repeat 0 8) /\
  derivable_pt_lim out 0 (/ 4) /\
  exists Y states, base_lstm_forward 1 1 1 (params 0) [[[0]]] [[[0]]] X [1%nat] = Ok (Y, states) /\ forall d, base_backprop_lstm 1 1 1 (mkM 1 [[d]]) [1%nat] (params 0) states X = Ok (mkM 1 [[0]], zeros 16).
Proof.
  exists wit_params, wit_out, wit_X. split; [intros s; destruct (base_wit s) as (st & E & _); now exists st|]. split; [reflexivity|]. split; [reflexivity|]. split; [apply der_wit|].
  destruct (base_wit 0) as (st & E & Hs). eexists. exists st. split; [exact E|]. intros d. now apply base_wit_back.
Qed.
