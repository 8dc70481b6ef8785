(** The losses. *)
From Coq Require Import String.
From Coq Require Import Reals Lra Lia.
From Verif Require Import CombModel CombSpec DenseModel DenseSpec ActSpec SoftModel SoftSpec LossModel LossSpec.
From Verif Require Import MatProofs BaseFacts CombProofs MkProofs DenseProofs ActLayerProofs ActProofs SoftProofs SoftSeqProofs CatProofs.
Local Open Scope list_scope.
Set Default Goal Selector "!".
Local Open Scope R_scope.

(** ** The gradient, given target and mask *)
Lemma outside_mk r n (x : nat -> nat -> R) : (forall i j, (i < r)%nat -> (j < n)%nat -> 0 <= x i j <= 1) -> outside (mk r n x) = false.
Proof.
  intros Hx. unfold outside. destruct (existsb _ _) eqn:E; [|reflexivity]. apply existsb_exists in E as (a & Ha & Eb). rewrite m_rows_mk in Ha. apply in_concat in Ha as (v & Hv & Ha).
  apply in_vec in Hv as (i & Hi & ->). apply in_vec in Ha as (j & Hj & ->). specialize (Hx i j Hi Hj). rewrite (proj2 (nltb_R_f (nZ 1) (x i j))) in Eb by (cbn; lra). rewrite (proj2 (nltb_R_f (x i j) (nZ 0))) in Eb by (cbn; lra). discriminate.
Qed.
Lemma outside_true (m : mat R) i j : (i < length (m_rows m))%nat -> (j < length (nth i (m_rows m) []))%nat -> ~ (0 <= ent m i j <= 1) -> outside m = true.
Proof.
  intros Hi Hj H. unfold outside. apply existsb_exists. exists (ent m i j). split.
  - apply in_concat. exists (nth i (m_rows m) []). split; [now apply nth_In|]. now apply nth_In.
  - apply Bool.orb_true_iff. destruct (nltb_case (nZ 1) (ent m i j)) as [[-> H1]|[-> H1]]; [now left|]. destruct (nltb_case (ent m i j) (nZ 0)) as [[-> H2]|[-> H2]]; [now right|]. cbn in H1, H2. lra.
Qed.
Lemma normed_if (b : bool) r n (d : nat -> nat -> R) : (if b then mmap (fun x => ndiv x (nnat r)) (mk r n d) else mk r n d) = mk r n (fun i j => normed b r (d i j)).
Proof. destruct b; [|reflexivity]. rewrite mmap_mk. apply mk_ext. intros i j _ _. unfold normed. cbn [ndiv num_R]. now rewrite LayerNormProofs.nnat_INR. Qed.
Lemma grad_mk c tr r n (g t m : nat -> nat -> R) : convert_truths c tr (mk r n g) = Ok (mk r n t, mk r n m) ->
  (forall i j, (i < r)%nat -> (j < n)%nat -> 0 <= g i j <= 1) -> (forall i j, (i < r)%nat -> (j < n)%nat -> 0 <= t i j <= 1) ->
  get_grad c (mk r n g) tr = Ok (mk r n (fun i j => normed (normalize c) r ((g i j - t i j) * m i j))).
Proof.
  intros E Hg Ht. unfold get_grad. rewrite E. cbn [bind]. rewrite mshape_mk, !Nat.eqb_refl. cbn [andb negb]. rewrite !outside_mk by assumption.
  rewrite mbin_same. cbn [bind]. unfold miop. rewrite mbin_same. cbn [bind]. rewrite mshape_mk, !Nat.eqb_refl. cbn [andb bind]. rewrite mk_rows. now rewrite normed_if.
Qed.

(** ** The masks *)
Definition flag (b : bool) : R := if b then 0 else 1.
Lemma positions_in l i : existsb (Nat.eqb i) (positions l) = nth i l false.
Proof.
  unfold positions. assert (G : forall l a i, existsb (Nat.eqb i) (map fst (filter snd (combine (seq a (length l)) l))) = (Nat.leb a i && nth (i - a) l false)%bool).
  { clear. induction l as [|b l IH]; intros a i; cbn [length seq combine filter].
    - cbn. destruct (i - a)%nat; now rewrite Bool.andb_false_r.
    - cbn [snd]. assert (E : existsb (Nat.eqb i) (map fst (filter snd (combine (seq (S a) (length l)) l))) = (Nat.leb a i && negb (Nat.eqb i a) && nth (i - S a) l false)%bool).
      { rewrite IH. f_equal. destruct (Nat.leb_spec (S a) i), (Nat.leb_spec a i), (Nat.eqb_spec i a); cbn; try reflexivity; lia. }
      destruct b; cbn [map existsb fst]; rewrite E; destruct (Nat.leb_spec a i), (Nat.eqb_spec i a); cbn [negb andb orb]; subst; rewrite ?Nat.sub_diag; try reflexivity; try lia; cbn [nth];
        replace (i - a)%nat with (S (i - S a)) by lia; reflexivity. }
  rewrite G. cbn [Nat.leb andb]. now rewrite Nat.sub_0_r.
Qed.
Lemma positions_small l r : length l = r -> existsb (Nat.leb r) (positions l) = false.
Proof.
  intros <-. destruct (existsb _ _) eqn:E; [|reflexivity]. apply existsb_exists in E as (i & Hi & Hl). unfold positions in Hi. apply in_map_iff in Hi as ((a & b) & <- & Hi). apply filter_In in Hi as [Hi _]. apply in_combine_l in Hi. apply in_seq in Hi. apply Nat.leb_le in Hl. cbn [fst] in Hl. lia.
Qed.
Lemma repeat_as_vec {A} (a : A) n : repeat a n = vec n (fun _ => a).
Proof. induction n; [reflexivity|]. rewrite vec_S. cbn. now f_equal. Qed.
Lemma make_mask_mk r n (g : nat -> nat -> R) l : length l = r -> make_mask (mk r n g) (positions l) = Ok (mk r n (fun i _ => flag (nth i l false))).
Proof.
  intros Hl. unfold make_mask. rewrite mk_rows. rewrite positions_small by exact Hl. cbn [m_cols mk]. f_equal. apply mkM_eq. apply vec_ext. intros i _. rewrite repeat_as_vec. apply vec_ext. intros j _. rewrite positions_in. destruct (nth i l false); reflexivity.
Qed.
Lemma ones_mk r n (g : nat -> nat -> R) : ones (mk r n g) = mk r n (fun _ _ => 1).
Proof. unfold ones. cbn [m_cols mk]. apply mkM_eq. rewrite m_rows_mk, map_vec. apply vec_ext. intros i _. apply repeat_as_vec. Qed.
Lemma mask_where_mk r n (g : nat -> nat -> R) l : length l = r -> mask_where (mk r n g) l = Ok (mk r n (fun i _ => flag (nth i l false))).
Proof.
  intros Hl. unfold mask_where. rewrite mk_rows, Hl, Nat.eqb_refl. f_equal. cbn [m_cols mk]. apply mkM_eq. rewrite (vec_of_len false r l Hl) at 1. rewrite map_vec. apply vec_ext. intros i _. rewrite repeat_as_vec. apply vec_ext. intros j _. now destruct (nth i l false).
Qed.

(** ** From targets and masks to the negations *)
Definition neg_at (m : mark) (j : nat) : R := match m with Negative k => if Nat.eqb j k then -1 else 0 | _ => 1 end.
Lemma finish_names (c : cc_t R) n r marks (t m : nat -> nat -> R) ns : names c = Some ns -> ns <> [] -> length ns = n -> length marks = r ->
  (match names c with
    | Some ((_ :: _) as ns) =>
        let neg := mkM (length ns) (map (negatives_row (length ns)) marks) in
        let* target := miop nmul (mk r n t) neg in
        let target := mmap (fun x => if neqb x (nZ (-1)) then nZ 0 else x) target in
        let neg := mmap (fun x => if neqb x (nZ (-1)) then nZ 1 else x) neg in
        let* mask := miop nmul (mk r n m) neg in
        Ok (target, mask)
    | _ => Ok (mk r n t, mk r n m)
    end) = Ok (mk r n (fun i j => let x := t i j * neg_at (nth i marks Plain) j in if neqb x (-1) then 0 else x),
               mk r n (fun i j => m i j * (let x := neg_at (nth i marks Plain) j in if neqb x (-1) then 1 else x))).
Proof.
  intros En Hne Hl Hm. rewrite En. destruct ns as [|a ns]; [congruence|]. cbv beta iota zeta. rewrite Hl.
  assert (EN : mkM n (map (negatives_row n) marks) = mk r n (fun i j => neg_at (nth i marks Plain) j)).
  { apply mkM_eq. rewrite (vec_of_len Plain r marks Hm) at 1. rewrite map_vec. reflexivity. }
  rewrite EN. unfold miop. rewrite !mbin_same. cbn [bind]. rewrite !mshape_mk, !Nat.eqb_refl. cbn [andb bind]. rewrite !mmap_mk. rewrite mbin_same. cbn [bind]. rewrite mshape_mk, !Nat.eqb_refl. reflexivity.
Qed.
Lemma finish_plain (c : cc_t R) n r {A} (l : list A) (t m : nat -> nat -> R) : plain_names (names c) n -> length l = r -> (forall i j, (i < r)%nat -> (j < n)%nat -> 0 <= t i j <= 1) ->
  (match names c with
    | Some ((_ :: _) as ns) =>
        let neg := mkM (length ns) (map (negatives_row (length ns)) (map (fun _ => Plain) l)) in
        let* target := miop nmul (mk r n t) neg in
        let target := mmap (fun x => if neqb x (nZ (-1)) then nZ 0 else x) target in
        let neg := mmap (fun x => if neqb x (nZ (-1)) then nZ 1 else x) neg in
        let* mask := miop nmul (mk r n m) neg in
        Ok (target, mask)
    | _ => Ok (mk r n t, mk r n m)
    end) = Ok (mk r n t, mk r n m).
Proof.
  intros Hp Hl Ht. assert (G : names c = None \/ names c = Some [] \/ exists a ns, names c = Some (a :: ns) /\ length (a :: ns) = n).
  { unfold plain_names in Hp. destruct (names c) as [[|a ns]|]; [now right; left|right; right; now exists a, ns|now left]. }
  destruct G as [->|[->|(a & ns & E & L)]]; [reflexivity|reflexivity|]. rewrite (finish_names c n r _ t m (a :: ns) E) by (try discriminate; try exact L; now rewrite map_length).
  assert (NP : forall i, nth i (map (fun _ : A => Plain) l) Plain = Plain).
  { clear. induction l as [|x l IH]; intros [|i]; cbn; try reflexivity. apply IH. }
  f_equal. f_equal; apply mk_ext; intros i j Hi Hj; rewrite NP; cbn [neg_at]; cbv zeta.
  - rewrite Rmult_1_r. specialize (Ht i j Hi Hj). destruct (neqb_case (t i j) (-1)) as [[-> H]|[-> H]]; lra.
  - destruct (neqb_case 1 (-1)) as [[-> H]|[-> H]]; lra.
Qed.

(** ** Integer labels *)
Lemma smoothed_01 s n k j : valid_smoothing s (Z.of_nat n) -> (k < n)%nat -> (j < n)%nat -> 0 <= smoothed s n k j <= 1.
Proof.
  intros Hv Hk Hj. destruct (one_hot_dist s n k Hv Hk) as (_ & F & _). rewrite Forall_forall in F. apply F. apply in_map. apply in_seq. lia.
Qed.
Lemma class_lt n y : in_classes n y -> (class_of n y < n)%nat.
Proof. unfold in_classes, class_of. destruct (Z.ltb_spec y 0); lia. Qed.
Lemma cat_mk r n l s : length l = r -> valid_smoothing s (Z.of_nat n) -> Forall (in_classes n) l ->
  to_categorical l (Some (Z.of_nat n)) s = Ok (mk r n (fun i j => smoothed s n (class_of n (nth i l 0%Z)) j)).
Proof.
  intros Hl Hv HY. rewrite cat_ok by assumption. f_equal. apply mkM_eq. rewrite (vec_of_len 0%Z r l Hl) at 1. rewrite map_vec. reflexivity.
Qed.
Lemma in_nth {A} (P : A -> Prop) l d i : Forall P l -> (i < length l)%nat -> P (nth i l d).
Proof. intros H Hi. rewrite Forall_forall in H. apply H. now apply nth_In. Qed.
Lemma note_at s n a (g : nat -> R) j : (j < n)%nat -> nth j (note_grad s n a (vec n g)) 0 = match a with Absent => 0 | Is k => g j - smoothed s n k j | IsNot k => if Nat.eqb j k then g j else 0 end.
Proof. intros Hj. unfold note_grad. fold (vec n (fun j => match a with Absent => 0 | Is k => nth j (vec n g) 0 - smoothed s n k j | IsNot k => if Nat.eqb j k then nth j (vec n g) 0 else 0 end)). rewrite nth_vec by exact Hj. now rewrite nth_vec. Qed.
Lemma grad_of_mk b s n (ns : list note) r (g : nat -> nat -> R) : length ns = r ->
  grad_of b s n ns (mk r n g) = mk r n (fun i j => normed b r (nth j (note_grad s n (nth i ns Absent) (vec n (g i))) 0)).
Proof.
  intros Hl. unfold grad_of. apply mkM_eq. rewrite m_rows_mk. rewrite (vec_of_len Absent r ns Hl) at 1. rewrite combine_vec, map_vec. apply vec_ext. intros i _. cbn [fst snd]. rewrite vec_length.
  etransitivity; [apply map_map|]. apply vec_ext. intros j Hj. f_equal. symmetry. rewrite note_at by exact Hj. rewrite nth_vec by exact Hj. reflexivity.
Qed.
Lemma nth_map_in {A B} (f : A -> B) l da db i : (i < length l)%nat -> nth i (map f l) db = f (nth i l da).
Proof. intros Hi. rewrite (nth_indep _ db (f da)) by (now rewrite map_length). apply map_nth. Qed.
Lemma labels_convert c l r n (g : nat -> nat -> R) tr : tr = ListInts l \/ tr = ArrInts l -> length l = r -> plain_names (names c) n -> valid_smoothing (label_smoothing c) (Z.of_nat n) -> Forall (in_classes n) l ->
  convert_truths c tr (mk r n g) = Ok (mk r n (fun i j => smoothed (label_smoothing c) n (class_of n (nth i l 0%Z)) j), mk r n (fun i _ => flag (is_missing_int (missing_value c) (nth i l 0%Z)))).
Proof.
  intros Htr Hl Hp Hv HY.
  assert (EM : forall i, (i < r)%nat -> nth i (map (is_missing_int (missing_value c)) l) false = is_missing_int (missing_value c) (nth i l 0%Z)).
  { intros i Hi. apply nth_map_in. lia. }
  assert (M1 : make_mask (mk r n g) (positions (map (is_missing_int (missing_value c)) l)) = Ok (mk r n (fun i _ => flag (is_missing_int (missing_value c) (nth i l 0%Z))))).
  { rewrite make_mask_mk by (now rewrite map_length). f_equal. apply mk_ext. intros i j Hi _. now rewrite EM. }
  assert (M2 : make_mask_by_value (inl l) (mk r n g) (missing_value c) = Ok (mk r n (fun i _ => flag (is_missing_int (missing_value c) (nth i l 0%Z))))).
  { unfold make_mask_by_value. destruct (missing_value c) as [|z|s]; cbn [is_missing_int flag]; [now rewrite ones_mk| |now rewrite ones_mk]. rewrite mask_where_mk by (now rewrite map_length). f_equal. apply mk_ext. intros i j Hi _. f_equal.
    apply (nth_map_in (fun y => (y =? z)%Z)). lia. }
  assert (G : forall m, m = mk r n (fun i _ => flag (is_missing_int (missing_value c) (nth i l 0%Z))) -> (let* p := Ok (inl l, map (fun _ : Z => Plain) l, m) in let '(labels, marks, mask) := p in
    let* target := match labels with inl l => to_categorical l (Some (Z.of_nat (m_cols (mk r n g)))) (label_smoothing c) | inr a => if neqb (label_smoothing c) (nZ 0) then Ok a else Err ValueError end in
    match names c with
    | Some ((_ :: _) as ns) =>
        let neg := mkM (length ns) (map (negatives_row (length ns)) marks) in
        let* target := miop nmul target neg in
        let target := mmap (fun x => if neqb x (nZ (-1)) then nZ 0 else x) target in
        let neg := mmap (fun x => if neqb x (nZ (-1)) then nZ 1 else x) neg in
        let* mask := miop nmul mask neg in
        Ok (target, mask)
    | _ => Ok (target, mask)
    end) = Ok (mk r n (fun i j => smoothed (label_smoothing c) n (class_of n (nth i l 0%Z)) j), mk r n (fun i _ => flag (is_missing_int (missing_value c) (nth i l 0%Z))))).
  { intros m ->. cbn [bind]. cbn [m_cols mk]. rewrite (cat_mk r n l) by assumption. cbn [bind]. apply (finish_plain c n r l); [exact Hp|exact Hl|].
    intros i j Hi Hj. apply smoothed_01; [exact Hv| |exact Hj]. apply class_lt. apply in_nth; [exact HY|lia]. }
  destruct Htr as [-> | ->]; unfold convert_truths.
  - rewrite M1. cbn [bind]. now apply G.
  - rewrite M2. cbn [bind]. now apply G.
Qed.
Lemma probs_ent n G : input_of n G -> probabilities G -> forall i j, (i < length (m_rows G))%nat -> (j < n)%nat -> 0 <= ent G i j <= 1.
Proof.
  intros [W C] HP i j Hi Hj. pose proof (in_nth _ _ [] i HP Hi) as Hr. apply (in_nth (fun x => 0 <= x <= 1) _ (nZ 0) j Hr).
  unfold wf_mat in W. rewrite Forall_forall in W. rewrite (W _ (nth_In _ _ Hi)), C. exact Hj.
Qed.
Lemma labels_grad c l n G tr : tr = ListInts l \/ tr = ArrInts l -> input_of n G -> length l = length (m_rows G) -> probabilities G -> plain_names (names c) n ->
  valid_smoothing (label_smoothing c) (Z.of_nat n) -> Forall (in_classes n) l ->
  get_grad c G tr = Ok (grad_of (normalize c) (label_smoothing c) n (map (label_note (missing_value c) n) l) G).
Proof.
  intros Htr HG Hl HP Hp Hv HY. set (r := length (m_rows G)) in *. assert (EG : G = mk r n (ent G)) by (apply as_mk; exact HG). pose proof (probs_ent n G HG HP) as HE. fold r in HE.
  set (g := ent G) in *. clearbody g. rewrite EG. rewrite (grad_mk c tr r n g _ _ (labels_convert c l r n g tr Htr Hl Hp Hv HY)).
  - rewrite grad_of_mk by (now rewrite map_length). f_equal. apply mk_ext. intros i j Hi Hj. f_equal. rewrite note_at by exact Hj.
    rewrite (nth_map_in _ l 0%Z) by lia. unfold label_note. destruct (is_missing_int _ _); cbn [flag]; ring.
  - intros i j Hi Hj. now apply HE.
  - intros i j Hi Hj. apply smoothed_01; [exact Hv| |exact Hj]. apply class_lt. apply in_nth; [exact HY|lia].
Qed.
(** ** Composed with the Softmax layer *)
Lemma by_row_softmax_probs nO t f X : nO <> 0%nat -> probabilities (by_row nO (fun x => softmax_at t (map (f x) (seq 0 nO))) X).
Proof.
  intros Hn. unfold probabilities, by_row. cbn [m_rows]. apply Forall_forall. intros row Hr. apply in_map_iff in Hr as (x & <- & _). apply Forall_forall. intros p Hp. apply in_map_iff in Hp as (j & <- & Hj).
  apply in_seq in Hj. unfold softmax_at. set (z := map (f x) (seq 0 nO)). assert (Hz : length z = nO) by (unfold z; now rewrite map_length, seq_length).
  pose proof (msum_exp_pos (map (fun a => a / t) z)) as P. rewrite map_map in P. specialize (P ltac:(destruct z; [cbn in Hz; lia|discriminate])).
  set (Z := msum _) in *. assert (LE : exp (nth j z 0 / t) <= Z).
  { unfold Z. assert (Hj' : (j < length z)%nat) by lia. clear -Hj'. revert j Hj'. induction z as [|a z IH]; intros j Hj; [cbn in Hj; lia|]. cbn [map]. rewrite msum_cons. destruct j as [|j]; cbn [nth].
    - assert (0 <= msum (map (fun a0 => exp (a0 / t)) z)); [|lra]. clear. induction z as [|b z IH]; [cbn; lra|]. cbn [map]. rewrite msum_cons. pose proof (exp_pos (b / t)). lra.
    - cbn in Hj. specialize (IH j ltac:(lia)). pose proof (exp_pos (a / t)). lra. }
  split; [left; apply Rdiv_lt_0_compat; [apply exp_pos|exact P]|]. apply (Rmult_le_reg_r Z); [exact P|]. unfold Rdiv at 1. rewrite Rmult_assoc, Rinv_l by lra. lra.
Qed.
Lemma labels_softmax c l tr nrm t nO nI wo bo is_train theta X : tr = ListInts l \/ tr = ArrInts l ->
  0 < t -> nO <> 0%nat -> (nrm || is_train)%bool = true -> input_of nI X -> room wo (nO * nI) theta -> room bo nO theta ->
  length l = length (m_rows X) -> plain_names (names c) nO -> valid_smoothing (label_smoothing c) (Z.of_nat nO) -> Forall (in_classes nO) l ->
  exists Y b dY, Softmax nrm t nO nI wo bo is_train theta (Arr2 X) = Ok (Arr2 Y, b) /\ get_grad c Y tr = Ok dY /\
  forall g, length g = length theta ->
  exists dX g', b (Arr2 dY) g = Ok (dX, g') /\ CombSpec.like dX (Arr2 X) /\ length g' = length theta /\
  forall (P : list jet) (K : value jet) (Ys : R -> mat R),
    map (at_time 0) P = theta -> vmap (at_time 0) K = Arr2 X -> Forall smooth P -> Forall smooth (leaves K) ->
    (forall s, exists b', Softmax nrm t nO nI wo bo is_train (map (at_time s) P) (vmap (at_time s) K) = Ok (Arr2 (Ys s), b')) ->
    derivable_pt_lim (fun s => weighted_cross_entropy (label_weights (normalize c) (missing_value c) l) (label_target (label_smoothing c) nO l) (Ys s)) 0
      (inner dX (vmap velocity K) + (dot g' (map velocity P) - dot g (map velocity P))).
Proof.
  intros Htr Ht Hn Hnt HX Hw Hb Hl Hp Hv HY. set (r := length (m_rows X)) in *. set (Y := by_row nO (fun x => softmax_at t (map (affine_at theta wo bo nI x) (seq 0 nO))) X).
  assert (HYi : input_of nO Y) by (unfold Y; rewrite by_row_mk; split; [apply mk_wf|reflexivity]). assert (LY : length (m_rows Y) = r) by (unfold Y; rewrite by_row_mk; apply mk_rows).
  pose proof (labels_grad c l nO Y tr Htr HYi ltac:(lia) (by_row_softmax_probs nO t (affine_at theta wo bo nI) X Hn) Hp Hv HY) as EG.
  rewrite (as_mk nO Y HYi) in EG at 2. rewrite LY in EG. rewrite grad_of_mk in EG by (now rewrite map_length).
  match type of EG with _ = Ok ?d => set (dY := d) in * end. exists Y.
  destruct (softmax_weighted nrm t nO nI wo bo is_train theta X (label_target (label_smoothing c) nO l) (label_weights (normalize c) (missing_value c) l) dY) as (b & E & D); try assumption.
  - split; [|reflexivity]. unfold wf_mat, label_target. cbn [m_rows m_cols]. apply Forall_forall. intros v Hv'. apply in_map_iff in Hv' as (y & <- & _). unfold one_hot_row. now rewrite map_length, seq_length.
  - unfold label_target. cbn [m_rows]. now rewrite map_length.
  - unfold label_target. cbn [m_rows]. apply Forall_forall. intros v Hv'. apply in_map_iff in Hv' as (y & <- & Hy). refine (proj1 (one_hot_dist _ nO _ Hv _)). apply class_lt. rewrite Forall_forall in HY. now apply HY.
  - unfold label_weights. now rewrite map_length.
  - split; [apply mk_wf|reflexivity].
  - apply mk_rows.
  - fold Y. intros i j Hi Hj. fold r in Hi. unfold dY. rewrite m_rows_mk, !nth_vec by assumption. rewrite note_at by exact Hj. rewrite (nth_map_in _ l 0%Z) by lia. unfold label_weights, label_target, label_note. cbn [m_rows].
    rewrite (nth_map_in _ l 0%Z) by lia. rewrite (nth_map_in (fun y => one_hot_row (label_smoothing c) nO (class_of nO y)) l 0%Z) by lia. unfold one_hot_row. fold (vec nO (smoothed (label_smoothing c) nO (class_of nO (nth i l 0%Z)))). rewrite nth_vec by exact Hj. rewrite Hl. fold r.
    destruct (is_missing_int _ _).
    + unfold normed. destruct (normalize c); unfold Rdiv; ring.
    + unfold ent, normed. cbn [nZ num_R]. destruct (normalize c); unfold Rdiv; ring.
  - exists b, dY. split; [exact E|]. split; [exact EG|]. exact D.
Qed.

(** ** 2d targets *)
Lemma floats_grad c n G T : input_of n G -> input_of n T -> length (m_rows T) = length (m_rows G) -> n <> 0%nat -> probabilities G -> probabilities T -> plain_names (names c) n -> label_smoothing c = 0 ->
  get_grad c G (ArrFloats T) = Ok (mkM n (map (fun p => map (fun q => normed (normalize c) (length (m_rows G)) (if float_missing (missing_value c) (snd p) then 0 else fst q - snd q)) (combine (fst p) (snd p))) (combine (m_rows G) (m_rows T)))).
Proof.
  intros HG HT Hl Hn HPG HPT Hp Hs. set (r := length (m_rows G)) in *. pose proof (probs_ent n G HG HPG) as HE. pose proof (probs_ent n T HT HPT) as HE'. rewrite Hl in HE'. fold r in HE, HE'.
  assert (EG : G = mk r n (ent G)) by (apply as_mk; exact HG). assert (ET : T = mk r n (ent T)) by (rewrite <- Hl; apply as_mk; exact HT).
  set (g := ent G) in *. set (t := ent T) in *. clearbody g t. rewrite EG, ET.
  assert (EC : convert_truths c (ArrFloats (mk r n t)) (mk r n g) = Ok (mk r n t, mk r n (fun i _ => flag (float_missing (missing_value c) (vec n (t i)))))).
  { unfold convert_truths. assert (EM : make_mask_by_value (inr (mk r n t)) (mk r n g) (missing_value c) = Ok (mk r n (fun i _ => flag (float_missing (missing_value c) (vec n (t i)))))).
    { unfold make_mask_by_value. cbn [m_cols mk]. rewrite (proj2 (Nat.eqb_neq n 0) Hn). destruct (missing_value c); cbn [float_missing flag]; [now rewrite ones_mk| |now rewrite ones_mk].
      rewrite mask_where_mk by (rewrite map_length; apply mk_rows). f_equal. apply mk_ext. intros i j Hi _. f_equal. rewrite m_rows_mk, map_vec. now rewrite nth_vec. }
    rewrite EM. cbn [bind]. destruct (neqb_case (label_smoothing c) (nZ 0)) as [[-> _]|[_ H]]; [|cbn in H; congruence]. cbn [bind]. apply (finish_plain c n r); [exact Hp|apply mk_rows|exact HE']. }
  rewrite (grad_mk c _ r n g _ _ EC HE HE'). f_equal. symmetry. apply mkM_eq. rewrite !m_rows_mk, combine_vec, map_vec. apply vec_ext. intros i _. cbn [fst snd]. rewrite combine_vec, map_vec. apply vec_ext. intros j _. cbn [fst snd]. f_equal.
  destruct (float_missing _ _); cbn [flag]; ring.
Qed.

(** ** Strings *)
Lemma Forall2_len {A B} (P : A -> B -> Prop) l m : Forall2 P l m -> length l = length m.
Proof. induction 1; cbn; congruence. Qed.
Lemma name_index ns : NoDup ns -> forall k i s, nth_error ns k = Some s -> name_to_i ns i s = Some (i + k)%nat.
Proof.
  induction ns as [|a ns IH]; intros ND k i s Hk; [destruct k; discriminate|]. inversion ND as [|? ? Hni ND']; subst. cbn [name_to_i]. destruct k as [|k]; cbn in Hk.
  - injection Hk as ->. assert (E : name_to_i ns (S i) s = None).
    { clear -Hni. revert i. induction ns as [|b ns IH]; intros i; [reflexivity|]. cbn. rewrite IH by (intros H; apply Hni; now right). destruct (String.eqb_spec b s) as [->|]; [|reflexivity]. exfalso. apply Hni. now left. }
    rewrite E, String.eqb_refl. f_equal. lia.
  - rewrite (IH ND' k (S i) s Hk). f_equal. lia.
Qed.
Lemma prefix_append p s : String.prefix p (p ++ s) = true.
Proof. induction p as [|c p IH]; [now destruct s|]. cbn. destruct (Ascii.ascii_dec c c); [exact IH|congruence]. Qed.
Lemma substring_append p : forall s, String.substring (String.length p) (String.length (p ++ s) - String.length p) (p ++ s) = s.
Proof.
  assert (Z : forall s, String.substring 0 (String.length s) s = s). { induction s as [|c s IH]; [reflexivity|]. cbn. now rewrite IH. }
  induction p as [|c p IH]; intros s; cbn [String.append String.length]; [rewrite Nat.sub_0_r; apply Z|]. cbn [String.substring Nat.sub]. apply IH.
Qed.
Definition kn (a : note) : nat := match a with Absent => 0%nat | Is k | IsNot k => k end.
Definition mark_of (a : note) : mark := match a with Absent => Missing | Is _ => Plain | IsNot k => Negative k end.
Lemma read_note c ns v a : ns <> [] -> NoDup ns -> annotates c ns v a -> exists t, read_str c ns v = Ok (t, mark_of a) /\ lookup ns t = Ok (Z.of_nat (kn a)) /\ (kn a < length ns)%nat.
Proof.
  intros Hne ND H. destruct ns as [|n0 ns]; [congruence|]. inversion H; subst; unfold read_str.
  - rewrite H0. cbn [is_missing_str]. exists (Some n0). split; [reflexivity|]. split; [|cbn; lia]. unfold lookup. now rewrite (name_index _ ND 0 0 n0 eq_refl).
  - rewrite H0. cbn [is_missing_str]. rewrite String.eqb_refl. exists (Some n0). split; [reflexivity|]. split; [|cbn; lia]. unfold lookup. now rewrite (name_index _ ND 0 0 n0 eq_refl).
  - assert (M : is_missing_str (missing_value c) (Some (p ++ name)%string) = false).
    { unfold is_missing_str. destruct (missing_value c); try reflexivity. destruct (String.eqb_spec (p ++ name) s); [subst; congruence|reflexivity]. }
    rewrite M, H0. rewrite prefix_append. rewrite (proj2 (String.eqb_neq p "") H1). rewrite (proj2 (String.eqb_neq (p ++ name) "")) by (destruct p; [congruence|discriminate]). cbn [negb andb].
    rewrite substring_append. rewrite (name_index _ ND k 0 name H3). cbn [Nat.add]. exists (Some name). split; [reflexivity|]. unfold lookup. rewrite (name_index _ ND k 0 name H3). split; [reflexivity|]. cbn [kn]. apply nth_error_Some. congruence.
  - assert (M : is_missing_str (missing_value c) (Some s) = false).
    { unfold is_missing_str. destruct (missing_value c) as [| |s']; try reflexivity. destruct (String.eqb_spec s s') as [->|]; [congruence|reflexivity]. }
    rewrite M. exists (Some s). assert (E : (match neg_prefix c with Some p => if (negb (String.eqb s "") && negb (String.eqb p "") && String.prefix p s)%bool
             then let t := String.substring (String.length p) (String.length s - String.length p) s in match name_to_i (n0 :: ns) 0 t with Some k => Ok (Some t, Negative k) | None => Err KeyError end
             else Ok (Some s, Plain) | None => Ok (Some s, Plain) end) = Ok (Some s, Plain)).
    { destruct (neg_prefix c) as [p|]; [|reflexivity]. destruct (String.eqb_spec s ""); [reflexivity|]. destruct (String.eqb_spec p ""); [reflexivity|]. cbn [negb andb]. now rewrite (H1 p eq_refl). }
    split; [exact E|]. unfold lookup. rewrite (name_index _ ND k 0 s H2). split; [reflexivity|]. cbn [kn]. apply nth_error_Some. congruence.
Qed.
Lemma read_notes c ns vs notes : ns <> [] -> NoDup ns -> Forall2 (annotates c ns) vs notes ->
  exists rs, mapM (read_str c ns) vs = Ok rs /\ mapM (fun v => lookup ns (fst v)) rs = Ok (map (fun a => Z.of_nat (kn a)) notes) /\ map snd rs = map mark_of notes /\ Forall (fun a => (kn a < length ns)%nat) notes.
Proof.
  intros Hne ND H. induction H as [|v a vs notes Hv _ (rs & E1 & E2 & E3 & E4)]; [exists []; repeat split; constructor|].
  destruct (read_note c ns v a Hne ND Hv) as (t & R1 & R2 & R3). exists ((t, mark_of a) :: rs). cbn [mapM]. rewrite R1, E1. cbn [bind fst]. rewrite R2, E2. cbn [bind map snd]. rewrite E3. repeat split. now constructor.
Qed.
Definition absent (a : note) : bool := match a with Absent => true | _ => false end.
Definition negated_target (s : R) (n : nat) (a : note) (j : nat) : R := match a with IsNot k => if Nat.eqb j k then (if Req_EM_T s 0 then 0 else - (1 - s)) else 0 | _ => smoothed s n (kn a) j end.
Definition negated_mask (a : note) (j : nat) : R := match a with Absent => 0 | Is _ => 1 | IsNot k => if Nat.eqb j k then 1 else 0 end.
Lemma strings_convert c ns vs notes r n (g : nat -> nat -> R) : names c = Some ns -> ns <> [] -> NoDup ns -> length ns = n -> Forall2 (annotates c ns) vs notes -> length vs = r -> valid_smoothing (label_smoothing c) (Z.of_nat n) ->
  convert_truths c (ListStrs vs) (mk r n g) = Ok (mk r n (fun i j => negated_target (label_smoothing c) n (nth i notes Absent) j), mk r n (fun i j => negated_mask (nth i notes Absent) j)).
Proof.
  intros En Hne ND Hn HF Hr Hv. destruct (read_notes c ns vs notes Hne ND HF) as (rs & E1 & E2 & E3 & E4). assert (Lv : length notes = r) by (rewrite <- Hr; symmetry; exact (Forall2_len _ _ _ HF)).
  set (s := label_smoothing c) in *.
  assert (S1 : s < 1). { destruct Hv as [H1 [H2|[[H2 H3] H4]]]; [lra|]. eapply Rlt_le_trans; [exact H3|]. apply (Rmult_le_reg_r (IZR (Z.of_nat n))); [apply (IZR_lt 0); lia|]. unfold Rdiv. rewrite Rmult_assoc, Rinv_l by (apply not_0_IZR; lia). rewrite Rmult_1_r, Rmult_1_l. apply IZR_le. lia. }
  assert (IN : Forall (in_classes n) (map (fun a => Z.of_nat (kn a)) notes)).
  { apply Forall_map. eapply Forall_impl; [|exact E4]. intros a Ha. unfold in_classes. cbv beta in Ha. lia. }
  assert (MM : make_mask (mk r n g) (positions (map (fun v : option string * mark => match snd v with Missing => true | _ => false end) rs)) = Ok (mk r n (fun i _ => flag (absent (nth i notes Absent))))).
  { assert (EP : map (fun v : option string * mark => match snd v with Missing => true | _ => false end) rs = map absent notes).
    { rewrite <- (map_map snd (fun m => match m with Missing => true | _ => false end)), E3, map_map. apply map_ext. now intros []. }
    rewrite EP. rewrite make_mask_mk by (now rewrite map_length). f_equal. apply mk_ext. intros i j Hi _. now rewrite (nth_map_in absent notes Absent) by lia. }
  assert (CF : forall t m, mk r n t = mk r n (fun i j => smoothed s n (kn (nth i notes Absent)) j) -> mk r n m = mk r n (fun i _ => flag (absent (nth i notes Absent))) ->
    (match names c with
    | Some ((_ :: _) as ns) =>
        let neg := mkM (length ns) (map (negatives_row (length ns)) (map snd rs)) in
        let* target := miop nmul (mk r n t) neg in
        let target := mmap (fun x => if neqb x (nZ (-1)) then nZ 0 else x) target in
        let neg := mmap (fun x => if neqb x (nZ (-1)) then nZ 1 else x) neg in
        let* mask := miop nmul (mk r n m) neg in
        Ok (target, mask)
    | _ => Ok (mk r n t, mk r n m)
    end) = Ok (mk r n (fun i j => negated_target s n (nth i notes Absent) j), mk r n (fun i j => negated_mask (nth i notes Absent) j))).
  { intros t m -> ->. rewrite E3. rewrite (finish_names c n r (map mark_of notes) _ _ ns En Hne Hn) by (now rewrite map_length). f_equal. f_equal; apply mk_ext; intros i j Hi Hj; cbv zeta; rewrite (nth_map_in mark_of notes Absent) by lia;
      pose proof (in_nth (fun a => (kn a < length ns)%nat) notes Absent i E4 ltac:(lia)) as Hk; rewrite Hn in Hk; set (a := nth i notes Absent) in *; pose proof (smoothed_01 s n (kn a) j Hv Hk Hj) as H01.
    - destruct a as [|k|k]; cbn [mark_of neg_at negated_target].
      + rewrite Rmult_1_r. destruct (neqb_case (smoothed s n (kn Absent) j) (-1)) as [[-> H]|[-> H]]; lra.
      + rewrite Rmult_1_r. destruct (neqb_case (smoothed s n (kn (Is k)) j) (-1)) as [[-> H]|[-> H]]; lra.
      + cbn [kn] in *. unfold smoothed in *. destruct (Nat.eqb j k).
        * destruct (neqb_case ((1 - s) * -1) (-1)) as [[-> H]|[-> H]]; destruct (Req_EM_T s 0); lra.
        * rewrite Rmult_0_r. destruct (neqb_case 0 (-1)) as [[-> H]|[-> H]]; lra.
    - destruct a as [|k|k]; cbn [mark_of neg_at negated_mask absent flag].
      + ring.
      + destruct (neqb_case 1 (-1)) as [[-> H]|[-> H]]; lra.
      + destruct (Nat.eqb j k); [destruct (neqb_case (-1) (-1)) as [[-> H]|[-> H]]|destruct (neqb_case 0 (-1)) as [[-> H]|[-> H]]]; lra. }
  assert (CT : to_categorical (map (fun a => Z.of_nat (kn a)) notes) (Some (Z.of_nat n)) s = Ok (mk r n (fun i j => smoothed s n (kn (nth i notes Absent)) j))).
  { rewrite (cat_mk r n) by (try assumption; now rewrite map_length). f_equal. apply mk_ext. intros i j Hi Hj. f_equal. rewrite (nth_map_in (fun a => Z.of_nat (kn a)) notes Absent) by lia. unfold class_of. destruct (Z.ltb_spec (Z.of_nat (kn (nth i notes Absent))) 0); lia. }
  unfold convert_truths. destruct vs as [|v vs].
  - cbn in Hr. subst r. cbn [mapM] in E1. injection E1 as <-. destruct notes; [|discriminate]. pose proof (make_mask_mk 0 n g [] eq_refl) as M0. change (positions []) with (@nil nat) in M0. rewrite M0. cbn [bind]. cbn [m_cols mk]. cbn [map] in CT. fold s. rewrite CT. cbn [bind]. now apply CF.
  - rewrite En. rewrite E1. cbn [bind]. rewrite E2. cbn [bind]. rewrite MM. cbn [bind]. cbn [m_cols mk]. fold s. rewrite CT. cbn [bind]. specialize (CF _ _ eq_refl eq_refl). rewrite En in CF. exact CF.
Qed.
Lemma strings_grad c ns vs notes n G : names c = Some ns -> ns <> [] -> NoDup ns -> length ns = n -> Forall2 (annotates c ns) vs notes -> length vs = length (m_rows G) -> valid_smoothing (label_smoothing c) (Z.of_nat n) ->
  input_of n G -> probabilities G -> label_smoothing c = 0 \/ Forall (fun a => forall k, a <> IsNot k) notes ->
  get_grad c G (ListStrs vs) = Ok (grad_of (normalize c) (label_smoothing c) n notes G).
Proof.
  intros En Hne ND Hn HF Hr Hv HG HP HS. set (r := length (m_rows G)) in *. assert (EG : G = mk r n (ent G)) by (apply as_mk; exact HG). pose proof (probs_ent n G HG HP) as HE. fold r in HE. assert (Lv : length notes = r) by (rewrite <- Hr; symmetry; exact (Forall2_len _ _ _ HF)).
  destruct (read_notes c ns vs notes Hne ND HF) as (_ & _ & _ & _ & HK). rewrite Hn in HK.
  set (g := ent G) in *. clearbody g. rewrite EG. rewrite (grad_mk c _ r n g _ _ (strings_convert c ns vs notes r n g En Hne ND Hn HF Hr Hv) HE).
  - rewrite grad_of_mk by exact Lv. f_equal. apply mk_ext. intros i j Hi Hj. f_equal. rewrite note_at by exact Hj. assert (HSi : label_smoothing c = 0 \/ forall k, nth i notes Absent <> IsNot k) by (destruct HS as [HS|HS]; [now left|right; apply (in_nth (fun a => forall k, a <> IsNot k)); [exact HS|lia]]).
    destruct (nth i notes Absent) as [|k|k]; cbn [negated_target negated_mask kn]; [ring|ring|]. destruct HSi as [HSi|HSi]; [|exfalso; now apply (HSi k)]. destruct (Nat.eqb j k); [|ring]. destruct (Req_EM_T (label_smoothing c) 0); [ring|congruence].
  - intros i j Hi Hj. assert (HSi : label_smoothing c = 0 \/ forall k, nth i notes Absent <> IsNot k) by (destruct HS as [HS|HS]; [now left|right; apply (in_nth (fun a => forall k, a <> IsNot k)); [exact HS|lia]]).
    pose proof (in_nth (fun a => (kn a < n)%nat) notes Absent i HK ltac:(lia)) as Hk. destruct (nth i notes Absent) as [|k|k]; cbn [negated_target]; [now apply smoothed_01|now apply smoothed_01|].
    destruct HSi as [HSi|HSi]; [|exfalso; now apply (HSi k)]. destruct (Nat.eqb j k); [|lra]. destruct (Req_EM_T (label_smoothing c) 0); [lra|congruence].
Qed.
Lemma strings_smoothed c ns vs notes n G k : names c = Some ns -> ns <> [] -> NoDup ns -> length ns = n -> Forall2 (annotates c ns) vs notes -> length vs = length (m_rows G) -> valid_smoothing (label_smoothing c) (Z.of_nat n) ->
  input_of n G -> label_smoothing c <> 0 -> In (IsNot k) notes -> get_grad c G (ListStrs vs) = Err ValueError.
Proof.
  intros En Hne ND Hn HF Hr Hv HG HS HI. set (r := length (m_rows G)) in *. assert (EG : G = mk r n (ent G)) by (apply as_mk; exact HG). assert (Lv : length notes = r) by (rewrite <- Hr; symmetry; exact (Forall2_len _ _ _ HF)).
  destruct (read_notes c ns vs notes Hne ND HF) as (_ & _ & _ & _ & HK). rewrite Hn in HK. set (g := ent G) in *. clearbody g. rewrite EG. unfold get_grad. rewrite (strings_convert c ns vs notes r n g En Hne ND Hn HF Hr Hv). cbn [bind].
  rewrite mshape_mk, !Nat.eqb_refl. cbn [andb negb]. destruct (outside (mk r n g)); [reflexivity|]. apply (In_nth _ _ Absent) in HI as (i & Hi & Ei). pose proof (in_nth (fun a => (kn a < n)%nat) notes Absent i HK Hi) as Hk. rewrite Ei in Hk. cbn [kn] in Hk.
  rewrite (outside_true _ i k); [reflexivity|rewrite mk_rows; lia|rewrite m_rows_mk, nth_vec by lia; now rewrite vec_length|]. rewrite ent_mk by lia. rewrite Ei. cbn [negated_target]. rewrite Nat.eqb_refl. destruct (Req_EM_T (label_smoothing c) 0); [congruence|].
  destruct Hv as [H1 [H2|[[H2 H3] H4]]]; [congruence|]. assert (label_smoothing c < 1). { eapply Rlt_le_trans; [exact H3|]. apply (Rmult_le_reg_r (IZR (Z.of_nat n))); [apply (IZR_lt 0); lia|]. unfold Rdiv. rewrite Rmult_assoc, Rinv_l by (apply not_0_IZR; lia). rewrite Rmult_1_r, Rmult_1_l. apply IZR_le. lia. }
  lra.
Qed.
Lemma strings_no_names c vs (G : mat R) : vs <> [] -> names c = None -> get_grad c G (ListStrs vs) = Err ValueError.
Proof. intros Hv Hn. unfold get_grad, convert_truths. destruct vs; [congruence|]. now rewrite Hn. Qed.

(** ** Loss values, sequences, L2 *)
Lemma sum_squares_R (d : mat R) : sum_squares d = sum_sq d.
Proof. unfold sum_squares, sum_sq. rewrite nsum_msum. reflexivity. Qed.
Lemma loss_value c (G : mat R) tr : get_loss c G tr = match get_grad c G tr with Ok d => Ok (sum_sq d) | Err e => Err e end.
Proof. unfold get_loss. destruct (get_grad c G tr); [|reflexivity]. cbn [bind]. now rewrite sum_squares_R. Qed.
Lemma sum_sq_normed b n (d : mat R) : sum_sq (mmap (normed b n) d) = sum_sq d / (if b then INR n * INR n else 1).
Proof.
  unfold sum_sq, mmap. cbn [m_rows]. rewrite <- concat_map, map_map. assert (E : forall l, msum (map (fun x => normed b n x * normed b n x) l) = msum (map (fun x => x * x) l) / (if b then INR n * INR n else 1)).
  { intros l. rewrite (map_ext (fun x => normed b n x * normed b n x) (fun x => / (if b then INR n * INR n else 1) * (x * x))).
    - rewrite msum_scale. unfold Rdiv. ring.
    - intros x. unfold normed, Rdiv. destruct b; [rewrite Rinv_mult; ring|rewrite Rinv_1; ring]. }
  apply E.
Qed.
Lemma seq_grad c Gs Ts ds : length Gs = length Ts -> mapM (fun p => get_grad (seq_cc c) (fst p) (snd p)) (combine Gs Ts) = Ok ds ->
  seq_get_grad c Gs Ts = Ok (map (mmap (normed (normalize c) (length Gs))) ds) /\
  seq_get_loss c Gs Ts = Ok (msum (map (fun d => sum_sq d / (if normalize c then INR (length Gs) * INR (length Gs) else 1)) ds)).
Proof.
  intros Hl E. assert (SG : seq_get_grad c Gs Ts = Ok (map (mmap (normed (normalize c) (length Gs))) ds)).
  { unfold seq_get_grad. rewrite Hl, Nat.eqb_refl. rewrite <- Hl. generalize (length Gs) as m. intros m. revert ds E. induction (combine Gs Ts) as [|p l IH]; intros ds E; cbn [mapM] in *; [now injection E as <-|].
    destruct (get_grad (seq_cc c) (fst p) (snd p)) as [d|]; cbn [bind] in *; [|discriminate]. destruct (mapM _ l) as [ds'|] eqn:El; cbn [bind] in *; [|discriminate]. injection E as <-. rewrite (IH ds' eq_refl). cbn [bind map]. f_equal. f_equal.
    unfold normed. destruct (normalize c); [unfold mmap; f_equal; apply map_ext; intros r; apply map_ext; intros x; cbn [ndiv num_R]; now rewrite LayerNormProofs.nnat_INR|]. unfold mmap. destruct d as [w rows]. cbn [m_cols m_rows]. f_equal. rewrite <- (map_id rows) at 1. apply map_ext. intros r. symmetry. apply map_id. }
  split; [exact SG|]. unfold seq_get_loss. rewrite SG. cbn [bind]. f_equal. rewrite (map_ext _ (fun d => sum_sq (mmap (normed (normalize c) (length Gs)) d))) by (intros d; now rewrite sum_sq_normed).
  rewrite <- (map_map (mmap (normed (normalize c) (length Gs))) sum_sq). generalize (map (mmap (normed (normalize c) (length Gs))) ds). intros l. rewrite <- nsum_msum. unfold nsum. generalize (nZ 0 : R). induction l as [|d l IH]; intros a; [reflexivity|]. cbn [fold_left map]. rewrite sum_squares_R. apply IH.
Qed.
Lemma seq_errors (c : cc_t R) Gs Ts : length Gs <> length Ts -> seq_get_grad c Gs Ts = Err ValueError /\ seq_get_loss c Gs Ts = Err ValueError.
Proof. intros H. unfold seq_get_loss, seq_get_grad. rewrite (proj2 (Nat.eqb_neq _ _) H). now split. Qed.

Lemma concat_vec_sum r n (f : nat -> nat -> R) : msum (map (fun x => x * x) (concat (vec r (fun i => vec n (fun j => f i j))))) = S_ r (fun i => S_ n (fun j => f i j * f i j)).
Proof.
  unfold S_ at 1. rewrite concat_map, map_vec. rewrite msum_concat, map_vec. apply S_ext. intros i _. now rewrite map_vec.
Qed.
Lemma l2_grad_mk b r n (g t : nat -> nat -> R) : l2_get_grad b (mk r n g) (mk r n t) = Ok (mk r n (fun i j => normed b r (g i j - t i j))).
Proof. unfold l2_get_grad. rewrite mshape_mk, !Nat.eqb_refl. cbn [andb negb]. rewrite mbin_same. cbn [bind]. rewrite mk_rows. now rewrite normed_if. Qed.
Lemma l2_loss_mk b r n (g t : nat -> nat -> R) : l2_get_loss b (mk r n g) (mk r n t) = Ok (S_ r (fun i => S_ n (fun j => normed b r (g i j - t i j) * normed b r (g i j - t i j)))).
Proof. unfold l2_get_loss. rewrite mshape_mk, !Nat.eqb_refl. cbn [andb negb]. rewrite l2_grad_mk. cbn [bind]. rewrite sum_squares_R. f_equal. unfold sum_sq. rewrite m_rows_mk. apply concat_vec_sum. Qed.
Lemma l2_ok b n G T : input_of n G -> input_of n T -> length (m_rows T) = length (m_rows G) ->
  exists D, l2_get_grad b G T = Ok D /\ l2_get_loss b G T = Ok (sum_sq D) /\
    D = mkM n (map (fun p => map (fun q => normed b (length (m_rows G)) (fst q - snd q)) (combine (fst p) (snd p))) (combine (m_rows G) (m_rows T))) /\
    loss_gradient (fun g => l2_get_loss b g T) (normed b (length (m_rows G)) 2) G D.
Proof.
  intros HG HT Hl. set (r := length (m_rows G)) in *. assert (EG : G = mk r n (ent G)) by (apply as_mk; exact HG). assert (ET : T = mk r n (ent T)) by (rewrite <- Hl; apply as_mk; exact HT).
  set (g := ent G) in *. set (t := ent T) in *. clearbody g t. rewrite EG, ET. exists (mk r n (fun i j => normed b r (g i j - t i j))). split; [apply l2_grad_mk|]. split; [rewrite l2_loss_mk; f_equal; unfold sum_sq; rewrite m_rows_mk; now rewrite concat_vec_sum|]. split.
  - symmetry. apply mkM_eq. rewrite !m_rows_mk, combine_vec, map_vec. apply vec_ext. intros i _. cbn [fst snd]. rewrite combine_vec, map_vec. reflexivity.
  - intros K Ls HK SK HL. apply curve_mk in HK as (k & -> & Hk). rewrite smooth_mk in SK.
    assert (EL : forall s, Ls s = S_ r (fun i => S_ n (fun j => normed b r (at_time s (k i j) - t i j) * normed b r (at_time s (k i j) - t i j)))).
    { intros s. destruct (HL s) as (m & Em & El). rewrite vmap_mk in Em. injection Em as <-. change (mkM n (vec r (fun i => vec n (fun j => at_time s (k i j))))) with (mk r n (fun i j => at_time s (k i j))) in El. rewrite l2_loss_mk in El. congruence. }
    apply (der_local _ (fun s => S_ r (fun i => S_ n (fun j => normed b r (at_time s (k i j) - t i j) * normed b r (at_time s (k i j) - t i j)))) 0 (-1) 1); [lra|intros s _; apply EL|].
    eapply der_eq; [apply (der_S r (fun i s => S_ n (fun j => normed b r (at_time s (k i j) - t i j) * normed b r (at_time s (k i j) - t i j))) (fun i => S_ n (fun j => normed b r 2 * (normed b r (g i j - t i j) * velocity (k i j)))))|].
    + intros i Hi. apply (der_S n (fun j s => normed b r (at_time s (k i j) - t i j) * normed b r (at_time s (k i j) - t i j)) (fun j => normed b r 2 * (normed b r (g i j - t i j) * velocity (k i j)))). intros j Hj.
      set (c := normed b r 1). assert (EN : forall x, normed b r x = c * x) by (intros x; unfold c, normed, Rdiv; destruct b; ring).
      apply (der_local _ (fun s => c * c * Rsqr (at_time s (k i j) - t i j)) 0 (-1) 1); [lra|intros s _; rewrite EN; unfold Rsqr; ring|].
      eapply der_eq; [apply (derivable_pt_lim_scal (fun s => Rsqr (at_time s (k i j) - t i j)) (c * c)); apply (derivable_pt_lim_comp (fun s => at_time s (k i j) - t i j) Rsqr); [apply (derivable_pt_lim_minus (fst (k i j)) (fun _ => t i j)); [apply SK; assumption|apply derivable_pt_lim_const]|apply derivable_pt_lim_Rsqr]|].
      cbv beta. rewrite Hk by assumption. rewrite !EN. change (snd (k i j)) with (velocity (k i j)). ring.
    + rewrite vmap_mk, inner_mk. rewrite <- S_scale. apply S_ext. intros i _. rewrite <- S_scale. reflexivity.
Qed.
Lemma mshape_false (G T : mat R) : length (m_rows G) <> length (m_rows T) \/ m_cols G <> m_cols T -> mshape_eq G T = false.
Proof. unfold mshape_eq. intros [H|H]; rewrite (proj2 (Nat.eqb_neq _ _) H); [reflexivity|apply Bool.andb_false_r]. Qed.
Lemma l2_errors b (G T : mat R) : length (m_rows G) <> length (m_rows T) \/ m_cols G <> m_cols T -> l2_get_grad b G T = Err ValueError /\ l2_get_loss b G T = Err ValueError.
Proof. intros H. unfold l2_get_loss, l2_get_grad. rewrite (mshape_false G T H). now split. Qed.
Lemma cc_errors c (G : mat R) tr t m : convert_truths c tr G = Ok (t, m) -> (length (m_rows G) <> length (m_rows t) \/ m_cols G <> m_cols t) \/ outside G = true \/ outside t = true -> get_grad c G tr = Err ValueError.
Proof.
  intros E H. unfold get_grad. rewrite E. cbn [bind]. destruct (mshape_eq G t) eqn:ES; [|reflexivity]. cbn [negb]. destruct H as [H|[H|H]].
  - rewrite (mshape_false G t H) in ES. discriminate.
  - now rewrite H.
  - rewrite H. now destruct (outside G).
Qed.

(** ** The class of a 2d target *)
Lemma argmax_from_ok (l : list R) : forall pre (m : R) i best, length pre = i -> (best < i)%nat -> nth best pre 0 = m -> (forall j, (j < i)%nat -> nth j pre 0 <= m) -> (forall j, (j < best)%nat -> nth j pre 0 < m) ->
  let k := LossModel.argmax_from l i best m in let t := pre ++ l in
  (k < length t)%nat /\ (forall j, (j < length t)%nat -> nth j t 0 <= nth k t 0) /\ (forall j, (j < k)%nat -> nth j t 0 < nth k t 0).
Proof.
  induction l as [|x l IH]; intros pre m i best Li Hb Hm H1 H2; cbv zeta.
  - cbn [LossModel.argmax_from]. rewrite app_nil_r, Hm. repeat split; [lia| |exact H2]. intros j Hj. apply H1. lia.
  - cbn [LossModel.argmax_from]. assert (A : forall j, (j < i)%nat -> nth j (pre ++ [x]) 0 = nth j pre 0) by (intros j Hj; apply app_nth1; lia).
    assert (B : nth i (pre ++ [x]) 0 = x) by (rewrite app_nth2 by lia; now rewrite Li, Nat.sub_diag).
    replace (pre ++ x :: l) with ((pre ++ [x]) ++ l) by (rewrite <- app_assoc; reflexivity).
    destruct (nltb_case m x) as [[-> H]|[-> H]]; apply IH; try (rewrite app_length; cbn; lia); try lia.
    + exact B.
    + intros j Hj. destruct (Nat.eq_dec j i) as [->|]; [rewrite B; lra|]. rewrite A by lia. specialize (H1 j ltac:(lia)). lra.
    + intros j Hj. rewrite A by lia. specialize (H1 j ltac:(lia)). lra.
    + rewrite A by lia. exact Hm.
    + intros j Hj. destruct (Nat.eq_dec j i) as [->|]; [rewrite B; lra|]. rewrite A by lia. apply H1. lia.
    + intros j Hj. rewrite A by lia. now apply H2.
Qed.
Lemma float_missing_iff z (t : list R) : t <> [] -> float_missing (MissingInt z) t = true <->
  exists k, z = Z.of_nat k /\ (k < length t)%nat /\ (forall j, (j < length t)%nat -> nth j t 0 <= nth k t 0) /\ (forall j, (j < k)%nat -> nth j t 0 < nth k t 0).
Proof.
  intros Ht. destruct t as [|x t]; [congruence|]. unfold float_missing, LossModel.argmax.
  destruct (argmax_from_ok t [x] x 1 0 eq_refl ltac:(lia) eq_refl) as (K1 & K2 & K3); [intros [|j] Hj; [cbn; lra|lia]|intros j Hj; lia|]. cbn [app] in *. set (a := LossModel.argmax_from t 1 0 x) in *. rewrite Z.eqb_eq. split.
  - intros <-. exists a. auto.
  - intros (k & -> & L1 & L2 & L3). f_equal. destruct (lt_eq_lt_dec a k) as [[H|H]|H]; [|exact H|].
    + specialize (L3 a H). specialize (K2 k L1). lra.
    + specialize (K3 k H). specialize (L2 a K1). lra.
Qed.

Lemma seq_config {T} (c : cc_t T) : normalize (seq_cc c) = false /\ names (seq_cc c) = names c /\ missing_value (seq_cc c) = missing_value c
  /\ neg_prefix (seq_cc c) = neg_prefix c /\ label_smoothing (seq_cc c) = label_smoothing c.
Proof. repeat split; reflexivity. Qed.
