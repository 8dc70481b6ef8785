(** Proofs about the reduction layers. *)
From Coq Require Import Reals Lra Lia.
From Verif Require Import ReduceProofs ReduceFirstProofs ReduceMaxProofs.
From Verif Require Import CombModel CombSpec DenseModel DenseSpec ActModel ActSpec SoftModel SoftSpec.
From Verif Require Import MatProofs BaseFacts CombProofs CombDiffProofs CombBuiltProofs MkProofs LinearProofs ActLayerProofs DenseProofs ActProofs SoftProofs SoftSeqProofs MaxoutLayerProofs.
From Verif Require Import AttnModel AttnSpec AttnProofs.
Set Default Goal Selector "!".
Local Open Scope R_scope.
Local Notation nonneg := ReduceSpec.nonneg.
Local Notation positive := ReduceSpec.positive.

(** ** Layers that are linear, at least near their input *)
Lemma rag_linear (L : layer R) tr theta r c n lengths x F (len off : nat -> nat) (w : nat -> nat -> nat -> R) :
  let lin := fun y i j => S_ (len i) (fun p => w i j p * y (off i + p)%nat j) in
  (forall i p, (i < n)%nat -> (p < len i)%nat -> (off i + p < r)%nat) ->
  (forall th y, exists b, L tr th (Rag (mk r c y) c lengths) = Ok (Arr2 (mk n c (F y)), b)) ->
  (forall b, L tr theta (Rag (mk r c x) c lengths) = Ok (Arr2 (mk n c (F x)), b) -> forall d g, exists e, b (Arr2 (mk n c d)) g = Ok (Rag (mk r c e) c lengths, g) /\
     forall v, S_ r (fun k => S_ c (fun j => e k j * v k j)) = S_ n (fun i => S_ c (fun j => d i j * lin v i j))) ->
  (forall kx : nat -> nat -> jet, (forall k j, (k < r)%nat -> (j < c)%nat -> smooth (kx k j) /\ at_time 0 (kx k j) = x k j) -> forall i j, (i < n)%nat -> (j < c)%nat ->
     exists e, 0 < e /\ forall s, Rabs s < e -> F (fun a b => at_time s (kx a b)) i j = lin (fun a b => at_time s (kx a b)) i j) ->
  differentiates L tr theta (Rag (mk r c x) c lengths) (Arr2 (mk n c (F x))).
Proof.
  intros lin Hin Hf Hb Hl. destruct (Hf theta x) as (b & Eb). exists b. split; [exact Eb|]. split; [apply mk_wf|].
  intros dY g LdY Lg. apply like_mk_inv in LdY as (d & ->). destruct (Hb b Eb d g) as (e & Ee & He). exists (Rag (mk r c e) c lengths), g. split; [exact Ee|]. split; [apply like_rag|]. split; [exact Lg|].
  intros P K HP HK SP SK. apply curve_rag in HK as (kx & -> & Hk). rewrite smooth_rag in SK.
  exists (Arr2 (mk n c (fun i j => ((fun s => F (fun a b => at_time s (kx a b)) i j), lin (fun a b => velocity (kx a b)) i j) : jet))). split; [|split].
  - rewrite smooth_mk. intros i j Hi Hj. destruct (Hl kx (fun k j Hk' Hj' => conj (SK k j Hk' Hj') (Hk k j Hk' Hj')) i j Hi Hj) as (eps & Heps & HE).
    unfold smooth. cbn [fst snd]. apply (derivable_pt_lim_locally_ext (fun s => lin (fun a b => at_time s (kx a b)) i j) _ 0 (- eps) eps); [lra| |].
    + intros s Hs. symmetry. apply HE. apply Rabs_def1; lra.
    + unfold lin. apply (der_S (len i) (fun p s => w i j p * at_time s (kx (off i + p)%nat j)) (fun p => w i j p * velocity (kx (off i + p)%nat j))). intros p Hp.
      apply (derivable_pt_lim_scal (fst (kx (off i + p)%nat j))). apply SK; [now apply Hin | exact Hj].
  - intros s. rewrite vmap_rag, vmap_mk. destruct (Hf (map (at_time s) P) (fun i j => at_time s (kx i j))) as (b' & Eb'). exists b'. rewrite Eb'. reflexivity.
  - rewrite !vmap_mk, vmap_rag, inner_mk, inner_rag. rewrite Rminus_diag_eq by reflexivity. rewrite Rplus_0_r. cbn [velocity snd]. symmetry. apply (He (fun i j => velocity (kx i j))).
Qed.

(** ** The sequences of a matrix given by its entries *)
Definition len_at (lengths : list Z) (i : nat) : nat := Z.to_nat (nth i lengths 0%Z).
Definition off_at (lengths : list Z) (i : nat) : nat := Z.to_nat (zsum (firstn i lengths)).
Lemma zsum_cons a l : zsum (a :: l) = (a + zsum l)%Z. Proof. reflexivity. Qed.
Lemma zsum_nonneg l : nonneg l -> (0 <= zsum l)%Z.
Proof. induction 1; [cbn; lia|]. rewrite zsum_cons. lia. Qed.
Lemma nonneg_firstn l i : nonneg l -> nonneg (firstn i l).
Proof. intros Hn. revert i. induction Hn; intros [|i]; cbn [firstn]; constructor; auto. apply IHHn. Qed.
Lemma seqs_vec {A} lengths : nonneg lengths -> forall r (f : nat -> list A), zsum lengths = Z.of_nat r ->
  seqs_of lengths (vec r f) = vec (length lengths) (fun i => vec (len_at lengths i) (fun p => f (off_at lengths i + p)%nat)).
Proof.
  induction lengths as [|len l IH]; intros Hn r f E; [reflexivity|]. destruct (split_sum len l r Hn E) as (r' & Hn' & -> & E'). unfold seqs_of. cbn [map chop length]. rewrite firstn_vec, skipn_vec.
  fold (seqs_of l (vec r' (fun k => f (Z.to_nat len + k)%nat))). rewrite (IH Hn' r' _ E').
  change (vec (S (length l)) ?g) with (g 0%nat :: map g (seq 1 (length l))). rewrite <- seq_shift, map_map. f_equal. apply vec_ext. intros i Hi. unfold len_at, off_at. cbn [nth firstn]. rewrite zsum_cons.
  apply vec_ext. intros p Hp. f_equal. pose proof (zsum_nonneg _ (nonneg_firstn l i Hn')). inversion Hn; subst. lia.
Qed.
Lemma in_window lengths : nonneg lengths -> forall r i p, zsum lengths = Z.of_nat r -> (i < length lengths)%nat -> (p < len_at lengths i)%nat -> (off_at lengths i + p < r)%nat.
Proof.
  induction lengths as [|len l IH]; intros Hn r i p E Hi Hp; cbn [length] in Hi; [lia|]. destruct (split_sum len l r Hn E) as (r' & Hn' & -> & E'). inversion Hn; subst. unfold len_at, off_at in *. destruct i as [|i].
  - cbn [nth firstn] in *. change (zsum []) with 0%Z. lia.
  - cbn [nth firstn] in *. rewrite zsum_cons. pose proof (zsum_nonneg _ (nonneg_firstn l i Hn')). pose proof (IH Hn' r' i p E' ltac:(lia) Hp). lia.
Qed.
Lemma mdot_mk r c (f g : nat -> nat -> R) : mdot (m_rows (mk r c f)) (m_rows (mk r c g)) = S_ r (fun i => S_ c (fun j => f i j * g i j)).
Proof. rewrite <- inner_mk. unfold inner, leaves. now rewrite dot_concat by apply concat_vec_lens. Qed.
Lemma wf_like_mk (m : mat R) r c : wf_mat m -> m_cols m = c -> m_len m = r -> m = mk r c (ent m).
Proof. intros W <- <-. now apply mat_mk. Qed.
Lemma check_same r c (f g : nat -> nat -> R) : check_consistency (mk r c f) (mk r c g) = Ok tt.
Proof. unfold check_consistency. now rewrite mshape_mk, !Nat.eqb_refl. Qed.

(** ** Sum and mean, first and last *)
(** A reduction of one sequence that is a weighted sum of its rows *)
Definition by_weights (c : nat) (phi : list (list R) -> list R) (ok : nat -> Prop) (w : nat -> nat -> R) : Prop :=
  forall n (x : nat -> nat -> R), ok n -> phi (vec n (fun k => vec c (x k))) = vec c (fun j => S_ n (fun p => w n p * x p j)).
Lemma phi_rows c phi ok w lengths r x : by_weights c phi ok w -> nonneg lengths -> zsum lengths = Z.of_nat r -> (forall i, (i < length lengths)%nat -> ok (len_at lengths i)) ->
  map phi (seqs_of lengths (m_rows (mk r c x))) = m_rows (mk (length lengths) c (fun i j => S_ (len_at lengths i) (fun p => w (len_at lengths i) p * x (off_at lengths i + p)%nat j))).
Proof. intros HW Hn E Hok. rewrite !m_rows_mk, (seqs_vec lengths Hn r _ E), map_vec. apply vec_ext. intros i Hi. apply (HW _ (fun p j => x (off_at lengths i + p)%nat j)). now apply Hok. Qed.
Lemma weighted_layer (L : layer R) tr theta r c x lengths phi ok w :
  by_weights c phi ok w -> nonneg lengths -> zsum lengths = Z.of_nat r -> r <> 0%nat -> c <> 0%nat -> (forall i, (i < length lengths)%nat -> ok (len_at lengths i)) ->
  (forall th y, exists b, L tr th (Rag (mk r c y) c lengths) = Ok (Arr2 (mkM c (map phi (seqs_of lengths (m_rows (mk r c y))))), b) /\
     forall d g, exists dX, b (Arr2 (mk (length lengths) c d)) g = Ok (mk_rag dX lengths, g) /\ m_cols dX = c /\ wf_mat dX /\ m_len dX = r /\
       forall v, mdot (m_rows dX) (m_rows (mk r c v)) = mdot (m_rows (mk (length lengths) c d)) (map phi (seqs_of lengths (m_rows (mk r c v))))) ->
  differentiates L tr theta (Rag (mk r c x) c lengths) (Arr2 (mkM c (map phi (seqs_of lengths (m_rows (mk r c x)))))).
Proof.
  intros HW Hn E Hr Hc Hok HL.
  assert (EM : forall y, mkM c (map phi (seqs_of lengths (m_rows (mk r c y)))) = mk (length lengths) c (fun i j => S_ (len_at lengths i) (fun p => w (len_at lengths i) p * y (off_at lengths i + p)%nat j))).
  { intros y. apply mkM_eq. now rewrite (phi_rows c phi ok w lengths r y). }
  rewrite EM. apply (rag_linear L tr theta r c (length lengths) lengths x (fun y i j => S_ (len_at lengths i) (fun p => w (len_at lengths i) p * y (off_at lengths i + p)%nat j)) (len_at lengths) (off_at lengths) (fun i _ p => w (len_at lengths i) p)).
  - intros i p Hi Hp. now apply in_window.
  - intros th y. destruct (HL th y) as (b & Eb & _). exists b. now rewrite Eb, EM.
  - intros b Eb d g. destruct (HL theta x) as (b' & Eb' & HB). rewrite EM in Eb'. rewrite Eb' in Eb. injection Eb as <-. destruct (HB d g) as (dX & EdX & C1 & C2 & C3 & HD). exists (ent dX).
    rewrite (wf_like_mk dX r c C2 C1 C3) in EdX. rewrite mk_rag_mk in EdX by assumption. split; [exact EdX|]. intros v. specialize (HD v). rewrite (wf_like_mk dX r c C2 C1 C3) in HD. rewrite mdot_mk in HD. rewrite HD.
    rewrite (phi_rows c phi ok w lengths r v) by assumption. apply mdot_mk.
  - intros kx _ i j _ _. exists 1. split; [lra|]. reflexivity.
Qed.
Lemma weights_sum c : by_weights c (colsum c) (fun _ => True) (fun _ _ => 1).
Proof.
  intros n x _. unfold colsum. change (map ?f (seq 0 c)) with (vec c f). apply vec_ext. intros j Hj. unfold col, S_. rewrite map_vec. f_equal. apply vec_ext. intros k _. rewrite nth_vec by exact Hj. ring.
Qed.
Lemma weights_mean c : by_weights c (colmean c) (fun _ => True) (fun n _ => / INR n).
Proof.
  intros n x _. unfold colmean. rewrite (weights_sum c n x I), map_vec, vec_length. apply vec_ext. intros j _. unfold Rdiv. rewrite Rmult_comm, <- S_scale. apply S_ext. intros p _. ring.
Qed.
Lemma S_pick n w f : (w < n)%nat -> S_ n (fun p => (if (p =? w)%nat then 1 else 0) * f p) = f w.
Proof.
  intros Hw. rewrite <- (Rmult_1_l (f w)), <- (S_single n w 1 f Hw). apply S_ext. intros p _. f_equal. destruct (Nat.eqb_spec p w), (Z.eqb_spec (Z.of_nat p) (Z.of_nat w)); try reflexivity; lia.
Qed.
Lemma weights_first c : by_weights c (fun s => nth 0 s []) (fun n => (0 < n)%nat) (fun _ p => if (p =? 0)%nat then 1 else 0).
Proof. intros n x Hn. rewrite nth_vec by exact Hn. apply vec_ext. intros j _. symmetry. now apply (S_pick n 0 (fun p => x p j)). Qed.
Lemma last_vec {A} n (f : nat -> A) d : (0 < n)%nat -> last (vec n f) d = f (n - 1)%nat.
Proof. destruct n as [|n]; [lia|]. intros _. unfold vec. rewrite seq_S, map_app. cbn [map]. rewrite last_last. f_equal. lia. Qed.
Lemma weights_last c : by_weights c (fun s => last s []) (fun n => (0 < n)%nat) (fun n p => if (p =? n - 1)%nat then 1 else 0).
Proof. intros n x Hn. rewrite last_vec by exact Hn. apply vec_ext. intros j _. symmetry. apply (S_pick n (n - 1) (fun p => x p j)). lia. Qed.

Lemma rows_not_nil {A} r c (f : nat -> nat -> A) : r <> 0%nat -> m_rows (mk r c f) <> [].
Proof. rewrite m_rows_mk. now destruct r. Qed.
Lemma adjoint_mk back phi lengths r c d : adjoint_of back phi -> nonneg lengths -> zsum lengths = Z.of_nat r ->
  exists dX, back (mk (length lengths) c d) lengths = Ok dX /\ m_cols dX = c /\ wf_mat dX /\ m_len dX = r /\
    forall v, mdot (m_rows dX) (m_rows (mk r c v)) = mdot (m_rows (mk (length lengths) c d)) (map (phi c) (seqs_of lengths (m_rows (mk r c v)))).
Proof.
  intros HA Hn E. destruct (HA (mk (length lengths) c d) lengths Hn (mk_wf _ _ _) (mk_rows _ _ _)) as (dX & E1 & E2 & E3 & E4 & E5). exists dX. split; [exact E1|]. split; [exact E2|]. split; [exact E3|]. split; [lia|].
  intros v. apply (E5 (mk r c v)); [apply mk_wf | reflexivity | unfold m_len; rewrite mk_rows; lia].
Qed.
Lemma sum_mk_ok numpy tr theta r c x lengths : nonneg lengths -> zsum lengths = Z.of_nat r -> r <> 0%nat -> c <> 0%nat ->
  differentiates (reduce_sum_layer numpy) tr theta (Rag (mk r c x) c lengths) (Arr2 (mkM c (map (colsum c) (seqs_of lengths (m_rows (mk r c x)))))).
Proof.
  intros Hn E Hr Hc. eapply weighted_layer; [apply weights_sum | assumption.. | intros; exact I|]. intros th y.
  destruct (sum_ok (mk r c y) lengths (mk_wf _ _ _) Hn) as [E1 E2]; [unfold m_len; rewrite mk_rows; lia|]. rewrite mk_cols in E1, E2. specialize (E2 (rows_not_nil r c y Hr)).
  unfold reduce_sum_layer, reduce_layer, reduce_sum, backprop_reduce_sum. cbn [as_rag bind fst snd].
  assert (EE : (if numpy then np_reduce_sum else op_reduce_sum) (mk r c y) lengths = Ok (mkM c (map (colsum c) (seqs_of lengths (m_rows (mk r c y)))))) by (destruct numpy; assumption).
  rewrite EE. cbn [bind]. eexists. split; [reflexivity|]. intros d g. cbn [as_mat bind]. rewrite (mkM_eq (length lengths) c _ _ (phi_rows c _ _ _ lengths r y (weights_sum c) Hn E (fun _ _ => I))), check_same. cbn [bind].
  assert (HA : adjoint_of (if numpy then np_backprop_reduce_sum else op_backprop_reduce_sum) colsum) by (destruct numpy; [apply adjoint_np_sum | apply adjoint_op_sum]).
  destruct (adjoint_mk _ _ lengths r c d HA Hn E) as (dX & EX & HX). rewrite EX. cbn [bind]. exists dX. split; [reflexivity | exact HX].
Qed.
Lemma mean_mk_ok numpy tr theta r c x lengths : nonneg lengths -> zsum lengths = Z.of_nat r -> r <> 0%nat -> c <> 0%nat ->
  differentiates (reduce_mean_layer numpy) tr theta (Rag (mk r c x) c lengths) (Arr2 (mkM c (map (colmean c) (seqs_of lengths (m_rows (mk r c x)))))).
Proof.
  intros Hn E Hr Hc. eapply weighted_layer; [apply weights_mean | assumption.. | intros; exact I|]. intros th y.
  destruct (mean_ok (mk r c y) lengths (mk_wf _ _ _) Hn) as [E1 E2]; [unfold m_len; rewrite mk_rows; lia|]. rewrite mk_cols in E1, E2. specialize (E2 (rows_not_nil r c y Hr)).
  unfold reduce_mean_layer, reduce_layer, reduce_mean, backprop_reduce_mean. cbn [as_rag bind fst snd].
  assert (EE : (if numpy then np_reduce_mean else op_reduce_mean) (mk r c y) lengths = Ok (mkM c (map (colmean c) (seqs_of lengths (m_rows (mk r c y)))))) by (destruct numpy; assumption).
  rewrite EE. cbn [bind]. eexists. split; [reflexivity|]. intros d g. cbn [as_mat bind]. rewrite (mkM_eq (length lengths) c _ _ (phi_rows c _ _ _ lengths r y (weights_mean c) Hn E (fun _ _ => I))), check_same. cbn [bind].
  assert (HA : adjoint_of (if numpy then np_backprop_reduce_mean else op_backprop_reduce_mean) colmean) by (destruct numpy; [apply adjoint_np_mean | apply adjoint_op_mean]).
  destruct (adjoint_mk _ _ lengths r c d HA Hn E) as (dX & EX & HX). rewrite EX. cbn [bind]. exists dX. split; [reflexivity | exact HX].
Qed.
Lemma positive_nonneg l : positive l -> nonneg l. Proof. intros HP. eapply Forall_impl; [|exact HP]. intros a Ha. cbn in *. lia. Qed.
Lemma positive_at l i : positive l -> (i < length l)%nat -> (0 < len_at l i)%nat.
Proof. intros HP Hi. unfold len_at. unfold ReduceSpec.positive in HP. rewrite Forall_forall in HP. specialize (HP _ (nth_In l 0%Z Hi)). lia. Qed.
Lemma positive_ne l r : zsum l = Z.of_nat r -> r <> 0%nat -> l <> []. Proof. intros E Hr ->. cbn in E. lia. Qed.
Lemma first_mk_ok tr theta r c x lengths : positive lengths -> zsum lengths = Z.of_nat r -> r <> 0%nat -> c <> 0%nat ->
  differentiates reduce_first_layer tr theta (Rag (mk r c x) c lengths) (Arr2 (mkM c (map (fun s => nth 0 s []) (seqs_of lengths (m_rows (mk r c x)))))).
Proof.
  intros Hp E Hr Hc. pose proof (positive_nonneg _ Hp) as Hn. eapply weighted_layer; [apply weights_first | assumption.. | intros; now apply positive_at|]. intros th y.
  unfold reduce_first_layer, reduce_at_layer. cbn [as_rag bind fst snd]. rewrite op_first_ok; [|now apply (positive_ne _ r)|exact Hp|unfold m_len; rewrite mk_rows; lia]. cbn [bind fst snd]. rewrite mk_cols.
  eexists. split; [reflexivity|]. intros d g. cbn [as_mat bind].
  rewrite (mkM_eq (length lengths) c _ _ (phi_rows c _ _ _ lengths r y (weights_first c) Hn E (fun i Hi => positive_at _ _ Hp Hi))), check_same. cbn [bind].
  destruct (first_adjoint (mk (length lengths) c d) lengths (positive_ne _ r E Hr) Hp (mk_wf _ _ _) (mk_rows _ _ _)) as (dX & E1 & E2 & E3 & E4 & E5). rewrite E1. cbn [bind]. exists dX.
  split; [reflexivity|]. split; [exact E2|]. split; [exact E3|]. split; [lia|]. intros v. apply (E5 (mk r c v)); [apply mk_wf | reflexivity | unfold m_len; rewrite mk_rows; lia].
Qed.
Lemma last_mk_ok tr theta r c x lengths : positive lengths -> zsum lengths = Z.of_nat r -> r <> 0%nat -> c <> 0%nat ->
  differentiates reduce_last_layer tr theta (Rag (mk r c x) c lengths) (Arr2 (mkM c (map (fun s => last s []) (seqs_of lengths (m_rows (mk r c x)))))).
Proof.
  intros Hp E Hr Hc. pose proof (positive_nonneg _ Hp) as Hn. eapply weighted_layer; [apply weights_last | assumption.. | intros; now apply positive_at|]. intros th y.
  unfold reduce_last_layer, reduce_at_layer. cbn [as_rag bind fst snd]. rewrite op_last_ok; [|now apply (positive_ne _ r)|exact Hp|unfold m_len; rewrite mk_rows; lia]. cbn [bind fst snd]. rewrite mk_cols.
  eexists. split; [reflexivity|]. intros d g. cbn [as_mat bind].
  rewrite (mkM_eq (length lengths) c _ _ (phi_rows c _ _ _ lengths r y (weights_last c) Hn E (fun i Hi => positive_at _ _ Hp Hi))), check_same. cbn [bind].
  destruct (last_adjoint (mk (length lengths) c d) lengths (positive_ne _ r E Hr) Hp (mk_wf _ _ _) (mk_rows _ _ _)) as (dX & E1 & E2 & E3 & E4 & E5). rewrite E1. cbn [bind]. exists dX.
  split; [reflexivity|]. split; [exact E2|]. split; [exact E3|]. split; [lia|]. intros v. apply (E5 (mk r c v)); [apply mk_wf | reflexivity | unfold m_len; rewrite mk_rows; lia].
Qed.

(** ** Maximum *)
Lemma nth_error_seqs {A} lengths r (f : nat -> list A) i : nonneg lengths -> zsum lengths = Z.of_nat r -> (i < length lengths)%nat ->
  nth_error (seqs_of lengths (vec r f)) i = Some (vec (len_at lengths i) (fun p => f (off_at lengths i + p)%nat)).
Proof. intros Hn E Hi. rewrite (seqs_vec lengths Hn r f E). now rewrite nth_error_vec. Qed.
Lemma col_vec n c j (x : nat -> nat -> R) : (j < c)%nat -> col 0 j (vec n (fun p => vec c (x p))) = vec n (fun p => x p j).
Proof. intros Hj. unfold col. rewrite map_vec. apply vec_ext. intros p _. now rewrite nth_vec. Qed.
Definition max_F (lengths : list Z) (r c : nat) (y : nat -> nat -> R) (i j : nat) : R := match op_reduce_max (mk r c y) lengths with Ok (Y, _) => ent Y i j | Err _ => 0 end.
Definition max_at (lengths : list Z) (y : nat -> nat -> R) (i j : nat) (w : Z) (m : R) : Prop := first_max (vec (len_at lengths i) (fun p => y (off_at lengths i + p)%nat j)) w m.
Lemma max_fwd (numpy : bool) lengths r c y : positive lengths -> zsum lengths = Z.of_nat r -> r <> 0%nat -> c <> 0%nat ->
  exists which, (if numpy then np_reduce_max else op_reduce_max) (mk r c y) lengths = Ok (mk (length lengths) c (max_F lengths r c y), which) /\ in_seqs c which lengths /\
    forall i j, (i < length lengths)%nat -> (j < c)%nat -> max_at lengths y i j (nth j (nth i which []) 0%Z) (max_F lengths r c y i j).
Proof.
  intros Hp E Hr Hc. destruct (reduce_max_ok (mk r c y) lengths (mk_wf _ _ _) Hc (rows_not_nil r c y Hr) Hp) as (Y & which & E1 & E2 & C1 & C2 & C3 & C4 & C5 & HF); [unfold m_len; rewrite mk_rows; lia|].
  destruct (max_roundtrip (mk r c y) lengths Y which (mk_wf _ _ _) Hc (rows_not_nil r c y Hr) Hp) as [HI _]; [unfold m_len; rewrite mk_rows; lia | exact E1|].
  assert (EY : Y = mk (length lengths) c (max_F lengths r c y)). { rewrite (wf_like_mk Y _ _ C4 C1 C2) at 1. apply mk_ext. intros i j _ _. unfold max_F. now rewrite E2. }
  exists which. split; [rewrite <- EY; now destruct numpy|]. split; [exact HI|]. intros i j Hi Hj. unfold max_at, max_F. rewrite E2.
  specialize (HF i _ j (nth_error_seqs lengths r (fun i => vec c (y i)) i (positive_nonneg _ Hp) E Hi) Hj). rewrite (col_vec _ c j (fun p => y (off_at lengths i + p)%nat) Hj) in HF. exact HF.
Qed.
Lemma first_max_strict n (f : nat -> R) w : (w < n)%nat -> (forall p, (p < n)%nat -> p <> w -> f p < f w) -> first_max (vec n f) (Z.of_nat w) (f w).
Proof.
  intros Hw Hs. split; [lia|]. rewrite Nat2Z.id. split; [now apply nth_error_vec|]. intros k x Ek. assert (Hk : (k < n)%nat) by (rewrite <- (vec_length n f); apply nth_error_Some; rewrite Ek; discriminate).
  rewrite nth_error_vec in Ek by exact Hk. injection Ek as <-. destruct (Nat.eq_dec k w) as [-> | Hne]; [split; [lra|lia]|]. pose proof (Hs k Hk Hne). split; [lra|auto].
Qed.
Lemma select_mk lengths r c v which : positive lengths -> zsum lengths = Z.of_nat r -> in_seqs c which lengths ->
  select which (seqs_of lengths (m_rows (mk r c v))) = m_rows (mk (length lengths) c (fun i j => S_ (len_at lengths i) (fun p => (if (p =? Z.to_nat (nth j (nth i which []) 0%Z))%nat then 1 else 0) * v (off_at lengths i + p)%nat j))).
Proof.
  intros Hp E HI. rewrite !m_rows_mk, (seqs_vec lengths (positive_nonneg _ Hp) r _ E). unfold select. assert (EL : length which = length lengths) by (clear - HI; induction HI; cbn [length]; congruence). rewrite (vec_of_len [] (length lengths) which EL) at 1. rewrite combine_vec, map_vec. apply vec_ext. intros i Hi. cbn [fst snd].
  assert (HW : length (nth i which []) = c /\ Forall (fun k => (0 <= k < nth i lengths 0)%Z) (nth i which [])).
  { clear - HI Hi EL. revert i Hi. induction HI; intros [|i] Hi; cbn [nth length] in *; try lia; [assumption|]. apply IHHI; lia. }
  destruct HW as [HW1 HW2]. set (w := nth i which []) in *. rewrite HW1. change (seq 0 c) with (seq 0 c). replace (combine (seq 0 c) w) with (vec c (fun j => (j, nth j w 0%Z))).
  2: { transitivity (combine (vec c (fun j => j)) (vec c (fun j => nth j w 0%Z))); [now rewrite combine_vec|]. rewrite <- (vec_of_len 0%Z c w HW1). unfold vec. now rewrite map_id. }
  rewrite map_vec. apply vec_ext. intros j Hj. cbn [fst snd]. assert (Hr : (0 <= nth j w 0 < nth i lengths 0)%Z) by (rewrite Forall_forall in HW2; apply HW2, nth_In; lia).
  rewrite nth_vec by (unfold len_at; lia). rewrite nth_vec by exact Hj. symmetry. apply (S_pick (len_at lengths i) _ (fun p => v (off_at lengths i + p)%nat j)). unfold len_at. lia.
Qed.
Lemma local_first n (k : nat -> jet) w : (w < n)%nat -> (forall p, (p < n)%nat -> smooth (k p)) -> (forall p, (p < n)%nat -> p <> w -> at_time 0 (k p) < at_time 0 (k w)) ->
  exists e, 0 < e /\ forall s, Rabs s < e -> first_max (vec n (fun p => at_time s (k p))) (Z.of_nat w) (at_time s (k w)).
Proof.
  intros Hw Hsm Hs. destruct (local_all n (fun _ p => k p) 0 0 w Hw) as (e & He & HE).
  - intros p Hp. cbn. now apply Hsm.
  - intros p Hp Hne. cbn. now apply Hs.
  - exists e. split; [exact He|]. intros s Hs'. destruct (HE s Hs') as [_ HE']. apply (first_max_strict n (fun p => at_time s (k p)) w Hw). intros p Hp Hne. exact (HE' p Hp Hne).
Qed.
Lemma max_mk_ok numpy tr theta r c x lengths : positive lengths -> zsum lengths = Z.of_nat r -> r <> 0%nat -> c <> 0%nat -> clear_maxima lengths (mk r c x) ->
  differentiates (reduce_max_layer numpy) tr theta (Rag (mk r c x) c lengths) (Arr2 (mk (length lengths) c (max_F lengths r c x))).
Proof.
  intros Hp E Hr Hc HC. pose proof (positive_nonneg _ Hp) as Hn. destruct (max_fwd numpy lengths r c x Hp E Hr Hc) as (which & E0 & HI & HM).
  apply (rag_linear (reduce_max_layer numpy) tr theta r c (length lengths) lengths x (max_F lengths r c) (len_at lengths) (off_at lengths) (fun i j p => if (p =? Z.to_nat (nth j (nth i which []) 0%Z))%nat then 1 else 0)).
  - intros i p Hi Hp'. now apply in_window.
  - intros th y. unfold reduce_max_layer. cbn [as_rag bind fst snd]. destruct (max_fwd numpy lengths r c y Hp E Hr Hc) as (wy & Ey & _). rewrite Ey. cbn [bind fst snd]. eexists. reflexivity.
  - intros b Eb d g. unfold reduce_max_layer in Eb. cbn [as_rag bind fst snd] in Eb. rewrite E0 in Eb. cbn [bind fst snd] in Eb. injection Eb as <-. cbn [as_mat bind]. rewrite check_same. cbn [bind].
    destruct (back_max_adjoint (mk (length lengths) c d) which lengths Hp (mk_wf _ _ _) (mk_rows _ _ _) HI) as (dX & B1 & B2 & C1 & C2 & C3 & HD). rewrite mk_cols in C1.
    assert (C3' : m_len dX = r) by lia. exists (ent dX).
    assert (BB : (if numpy then np_backprop_reduce_max else op_backprop_reduce_max) (mk (length lengths) c d) which lengths = Ok dX) by (now destruct numpy). rewrite BB. cbn [bind].
    rewrite (wf_like_mk dX r c C2 C1 C3') at 1. rewrite mk_rag_mk by assumption. split; [reflexivity|]. intros v. specialize (HD (mk r c v) (mk_wf _ _ _) eq_refl ltac:(unfold m_len; rewrite mk_rows; lia)).
    rewrite (wf_like_mk dX r c C2 C1 C3') in HD. rewrite mdot_mk in HD. rewrite HD, (select_mk lengths r c v which Hp E HI). apply mdot_mk.
  - intros kx Hkx i j Hi Hj. pose proof (HM i j Hi Hj) as HF. unfold max_at in HF.
    unfold clear_maxima in HC. rewrite Forall_forall in HC. pose proof (HC _ (nth_error_In _ _ (nth_error_seqs lengths r (fun i => vec c (x i)) i Hn E Hi)) j Hj) as (w & m & Ew & Hs). rewrite (col_vec _ c j (fun p => x (off_at lengths i + p)%nat) Hj) in Ew, Hs.
    set (n := len_at lengths i) in *. assert (Hw : (w < n)%nat) by (rewrite <- (vec_length n (fun p => x (off_at lengths i + p)%nat j)); apply nth_error_Some; rewrite Ew; discriminate).
    rewrite nth_error_vec in Ew by exact Hw. injection Ew as <-. assert (Hst : forall p, (p < n)%nat -> p <> w -> x (off_at lengths i + p)%nat j < x (off_at lengths i + w)%nat j).
    { intros p Hp' Hne. apply (Hs p); [now apply (nth_error_vec n (fun p => x (off_at lengths i + p)%nat j)) | exact Hne]. }
    pose proof (first_max_unique _ _ _ _ _ HF (first_max_strict n (fun p => x (off_at lengths i + p)%nat j) w Hw Hst)) as [EW _]. rewrite EW, Nat2Z.id.
    assert (Hin : forall p, (p < n)%nat -> (off_at lengths i + p < r)%nat) by (intros p Hp'; now apply in_window).
    destruct (local_first n (fun p => kx (off_at lengths i + p)%nat j) w Hw) as (e & He & HE).
    + intros p Hp'. apply Hkx; [now apply Hin | exact Hj].
    + intros p Hp' Hne. rewrite !(fun k Hk => proj2 (Hkx k j Hk Hj)) by (now apply Hin). now apply Hst.
    + exists e. split; [exact He|]. intros s Hs'. destruct (max_fwd numpy lengths r c (fun a b => at_time s (kx a b)) Hp E Hr Hc) as (ws & _ & _ & HMs). specialize (HMs i j Hi Hj). unfold max_at in HMs. fold n in HMs.
      destruct (first_max_unique _ _ _ _ _ HMs (HE s Hs')) as [_ ->]. symmetry. apply (S_pick n w (fun p => at_time s (kx (off_at lengths i + p)%nat j)) Hw).
Qed.
