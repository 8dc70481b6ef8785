(** to_categorical. *)
From Coq Require Import Reals Lra Lia.
From Verif Require Import LossModel LossSpec MatProofs BaseFacts MkProofs ActLayerProofs SoftProofs.
Set Default Goal Selector "!".
Local Open Scope R_scope.

Lemma neqb_case (a b : R) : (neqb a b = true /\ a = b) \/ (neqb a b = false /\ a <> b).
Proof. cbn. destruct (Req_EM_T a b); [left|right]; now split. Qed.
Lemma index_row_ok {A} (f : nat -> A) n y : in_classes n y -> index_row (vec n f) y = Ok (f (class_of n y)).
Proof.
  intros [H1 H2]. unfold index_row, class_of. rewrite vec_length. rewrite (proj2 (Z.leb_le _ _) H1), (proj2 (Z.ltb_lt _ _) H2). cbn [andb]. unfold py_get.
  assert (E : forall i, (i < n)%nat -> nth_error (vec n f) i = Some (f i)).
  { intros i Hi. unfold vec. rewrite nth_error_map. rewrite (nth_error_nth' (seq 0 n) 0%nat) by (now rewrite seq_length). now rewrite seq_nth. }
  destruct (Z.ltb_spec y 0); rewrite E by lia; reflexivity.
Qed.
Lemma index_row_err {A} (l : list A) y : ~ in_classes (length l) y -> index_row l y = Err IndexError.
Proof.
  intros H. unfold index_row. destruct (Z.leb_spec (- Z.of_nat (length l)) y); [|reflexivity]. destruct (Z.ltb_spec y (Z.of_nat (length l))); [|reflexivity]. exfalso. apply H. split; assumption.
Qed.
Lemma mapM_err {A B} (f : A -> result B) e l : (forall x, In x l -> f x = Err e \/ exists y, f x = Ok y) -> (exists x, In x l /\ f x = Err e) -> mapM f l = Err e.
Proof.
  induction l as [|a l IH]; intros H (x & Hx & Ex); [destruct Hx|]. cbn. destruct (H a (or_introl eq_refl)) as [->|(y & Ey)]; [reflexivity|]. rewrite Ey. cbn [bind].
  destruct Hx as [->|Hx]; [congruence|]. rewrite IH; [reflexivity| |now exists x]. intros z Hz. apply H. now right.
Qed.

(** After the checks *)
Lemma cat_valid Y n s : valid_smoothing s n -> to_categorical Y (Some n) s =
  let* rows := mapM (index_row (vec (Z.to_nat n) (fun k => one_hot_row s (Z.to_nat n) k))) Y in Ok (mkM (Z.to_nat n) rows).
Proof.
  intros [Hn Hs]. unfold to_categorical. cbn [bind]. rewrite (proj2 (nltb_R_f s (nZ 0))) by (cbn; lra).
  assert (EN : forall k, map (fun i => map (fun j => if Nat.eqb i j then nsub (nZ 1) s else k) (seq 0 (Z.to_nat n))) (seq 0 (Z.to_nat n)) = vec (Z.to_nat n) (fun i => vec (Z.to_nat n) (fun j => if Nat.eqb i j then 1 - s else k))) by reflexivity.
  assert (EI : INR (Z.to_nat n) - 1 = IZR (n - 1)) by (rewrite minus_IZR, INR_IZR_INZ, Z2Nat.id by lia; reflexivity).
  assert (EO : forall k, (1 < n)%Z \/ k = 0 -> (s = 0 -> k = 0) -> (s <> 0 -> k = s / IZR (n - 1)) -> vec (Z.to_nat n) (fun i => vec (Z.to_nat n) (fun j => if Nat.eqb i j then 1 - s else k)) = vec (Z.to_nat n) (fun k => one_hot_row s (Z.to_nat n) k)).
  { intros k _ K0 K1. apply vec_ext. intros i _. apply vec_ext. intros j _. unfold smoothed. rewrite (Nat.eqb_sym j i). destruct (Nat.eqb i j); [reflexivity|]. rewrite EI.
    destruct (Req_dec s 0) as [E|E]; [rewrite K0 by exact E; rewrite E; unfold Rdiv; ring|now apply K1]. }
  destruct (neqb_case s (nZ 0)) as [[-> E]|[-> E]]; cbn [nZ num_R] in E.
  - rewrite (proj2 (Z.eqb_neq n 0)) by lia. cbn [bind]. replace ((1 <? n)%Z && negb (nltb s (ndiv (nZ (n - 1)) (nZ n))))%bool with false.
    + rewrite (proj2 (Z.ltb_ge n 0)) by lia. rewrite EN, EO; [reflexivity|now right|reflexivity|congruence].
    + destruct (Z.ltb_spec 1 n); [|reflexivity]. rewrite (proj2 (nltb_R s (ndiv (nZ (n - 1)) (nZ n)))); [reflexivity|]. cbn. rewrite E. apply Rdiv_lt_0_compat; apply (IZR_lt 0); lia.
  - destruct Hs as [Hs|[[Hs Hm] H1]]; [congruence|]. rewrite (proj2 (Z.ltb_lt 1 n)) by lia. cbn [bind andb]. rewrite (proj2 (nltb_R s (ndiv (nZ (n - 1)) (nZ n)))) by exact Hm. cbn [negb].
    rewrite (proj2 (Z.ltb_ge n 0)) by lia. rewrite EN, EO; [reflexivity|now left|congruence|reflexivity].
Qed.
Lemma cat_ok Y (n : nat) s : valid_smoothing s (Z.of_nat n) -> Forall (in_classes n) Y ->
  to_categorical Y (Some (Z.of_nat n)) s = Ok (mkM n (map (fun y => one_hot_row s n (class_of n y)) Y)).
Proof.
  intros Hv HY. rewrite cat_valid by exact Hv. rewrite Nat2Z.id. rewrite (mapM_ok _ (fun y => one_hot_row s n (class_of n y))); [reflexivity|].
  intros y Hy. rewrite Forall_forall in HY. apply (index_row_ok (fun k => one_hot_row s n k)). now apply HY.
Qed.
Lemma cat_none Y s : to_categorical Y None s = match Y with [] => Err ValueError | y :: Y' => to_categorical Y (Some (fold_left Z.max Y' y + 1)%Z) s end.
Proof. destruct Y; reflexivity. Qed.
Lemma fold_max l : forall a, (a <= fold_left Z.max l a)%Z /\ (forall y, In y l -> (y <= fold_left Z.max l a)%Z) /\ In (fold_left Z.max l a) (a :: l).
Proof.
  induction l as [|b l IH]; intros a; cbn [fold_left].
  - split; [lia|]. split; [intros y []|now left].
  - destruct (IH (Z.max a b)) as (H1 & H2 & H3). split; [lia|]. split.
    + intros y [<-|Hy]; [lia|now apply H2].
    + cbn [In] in *. destruct H3 as [H3|H3]; [|now right; right]. rewrite <- H3. destruct (Z.max_spec a b) as [[_ ->]|[_ ->]]; [now right; left|now left].
Qed.
Lemma cat_none_ok Y s m : In m Y -> (forall y, In y Y -> (0 <= y <= m)%Z) -> valid_smoothing s (m + 1) ->
  to_categorical Y None s = Ok (mkM (Z.to_nat (m + 1)) (map (fun y => one_hot_row s (Z.to_nat (m + 1)) (Z.to_nat y)) Y)).
Proof.
  intros Hm HY Hv. rewrite cat_none. destruct Y as [|y Y]; [destruct Hm|].
  assert (E : fold_left Z.max Y y = m).
  { destruct (fold_max Y y) as (H1 & H2 & H3). pose proof (HY _ H3) as [_ H4]. destruct Hm as [<-|Hm]; [lia|]. specialize (H2 m Hm). lia. }
  rewrite E. pose proof (HY m Hm) as Hm0. replace (m + 1)%Z with (Z.of_nat (Z.to_nat (m + 1))) at 1 by lia. rewrite cat_ok.
  - f_equal. f_equal. apply map_ext_in. intros z Hz. f_equal. specialize (HY z Hz). unfold class_of. destruct (Z.ltb_spec z 0); lia.
  - rewrite Z2Nat.id by lia. exact Hv.
  - apply Forall_forall. intros z Hz. specialize (HY z Hz). unfold in_classes. lia.
Qed.
Lemma cat_invalid Y n s : ~ valid_smoothing s n -> to_categorical Y (Some n) s = Err ValueError.
Proof.
  intros Hv. unfold to_categorical. cbn [bind]. destruct (nltb_case s (nZ 0)) as [[-> Hs]|[-> Hs]]; [reflexivity|]. cbn [nZ num_R] in Hs.
  destruct (neqb_case s (nZ 0)) as [[-> E]|[-> E]]; cbn [nZ num_R] in E.
  - destruct (Z.eqb_spec n 0) as [->|N0]; [reflexivity|]. cbn [bind]. destruct (Z.ltb_spec n 0).
    + destruct (Z.ltb_spec 1 n); [lia|reflexivity].
    + exfalso. apply Hv. split; [lia|now left].
  - destruct (Z.ltb_spec 1 n); [|reflexivity]. cbn [bind andb]. destruct (nltb_case s (ndiv (nZ (n - 1)) (nZ n))) as [[-> H']|[-> H']]; [|reflexivity]. exfalso. apply Hv. split; [lia|]. right. split; [|assumption]. split; [lra|exact H'].
Qed.
Lemma cat_index Y (n : nat) s : valid_smoothing s (Z.of_nat n) -> ~ Forall (in_classes n) Y -> to_categorical Y (Some (Z.of_nat n)) s = Err IndexError.
Proof.
  intros Hv HY. rewrite cat_valid by exact Hv. rewrite Nat2Z.id. rewrite (mapM_err _ IndexError); [reflexivity| |].
  - intros y _. assert (D : in_classes n y \/ ~ in_classes n y) by (unfold in_classes; lia). destruct D as [D|D].
    + right. eexists. now apply index_row_ok.
    + left. apply index_row_err. now rewrite vec_length.
  - assert (H : Exists (fun y => ~ in_classes n y) Y). { apply neg_Forall_Exists_neg; [|exact HY]. intros y. unfold in_classes. destruct (Z_le_dec (- Z.of_nat n) y); [|right; lia]. destruct (Z_lt_dec y (Z.of_nat n)); [left|right]; lia. }
    apply Exists_exists in H as (y & Hy & N). exists y. split; [exact Hy|]. apply index_row_err. now rewrite vec_length.
Qed.

(** The rows are distributions with the maximum at the class *)
Lemma S_one_hot n k s v : (k < n)%nat -> S_ n (fun j => if Nat.eqb j k then s else v) = s + (INR n - 1) * v.
Proof.
  revert k. induction n as [|n IH]; intros k Hk; [lia|]. rewrite S_S, S_INR. destruct k as [|k]; cbn [Nat.eqb].
  - rewrite S_const. ring.
  - rewrite IH by lia. ring.
Qed.
Lemma one_hot_dist s (n k : nat) : valid_smoothing s (Z.of_nat n) -> (k < n)%nat ->
  msum (one_hot_row s n k) = 1 /\ Forall (fun p => 0 <= p <= 1) (one_hot_row s n k) /\
  forall j, (j < n)%nat -> j <> k -> nth j (one_hot_row s n k) 0 < nth k (one_hot_row s n k) 0.
Proof.
  intros [Hn Hs] Hk. set (m := INR n - 1) in *.
  assert (D : s = 0 \/ (0 < s /\ 0 < m /\ s * (m + 1) < m)).
  { destruct Hs as [Hs|[[Hs1 Hs2] H1]]; [now left|right]. assert (E1 : IZR (Z.of_nat n - 1) = m) by (unfold m; rewrite minus_IZR, INR_IZR_INZ; reflexivity). assert (E2 : IZR (Z.of_nat n) = m + 1) by (unfold m; rewrite <- INR_IZR_INZ; ring).
    assert (P : 0 < m) by (rewrite <- E1; apply (IZR_lt 0); lia). rewrite E1, E2 in Hs2. repeat split; try assumption. apply (Rmult_lt_compat_r (m + 1)) in Hs2; [|lra]. unfold Rdiv in Hs2. rewrite Rmult_assoc, Rinv_l in Hs2 by lra. lra. }
  assert (B : s = 0 \/ (0 < s / m < 1 - s /\ 0 < m)).
  { destruct D as [D|(D1 & D2 & D3)]; [now left|right]. split; [|exact D2]. split; [now apply Rdiv_lt_0_compat|]. apply (Rmult_lt_reg_r m); [exact D2|]. unfold Rdiv. rewrite Rmult_assoc, Rinv_l by lra. lra. }
  assert (LT : s / m < 1 - s). { destruct B as [->|B]; [unfold Rdiv; rewrite Rmult_0_l; lra|apply B]. }
  assert (GE : 0 <= s / m). { destruct B as [->|B]; [unfold Rdiv; rewrite Rmult_0_l; lra|lra]. }
  assert (S0 : 0 <= s) by (destruct D as [->|D]; lra).
  split; [|split].
  - change (msum (one_hot_row s n k)) with (S_ n (fun j => if Nat.eqb j k then 1 - s else s / m)). rewrite S_one_hot by exact Hk. fold m.
    destruct B as [->|[_ B]]; [unfold Rdiv; ring|]. field. lra.
  - apply (Forall_vec (fun p => 0 <= p <= 1)). intros j _. unfold smoothed. fold m. destruct (Nat.eqb j k); lra.
  - intros j Hj Hjk. change (one_hot_row s n k) with (vec n (fun j => smoothed s n k j)). rewrite !nth_vec by assumption. unfold smoothed. fold m. rewrite Nat.eqb_refl. now rewrite (proj2 (Nat.eqb_neq j k) Hjk).
Qed.
