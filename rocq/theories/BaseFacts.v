(** Facts about the shared vocabulary of [Base]. *)
From Verif Require Export Base.
Require Import ZifyBool ZifyNat.

Lemma bind_ok {A B} (r : result A) (f : A -> result B) b :
  bind r f = Ok b <-> exists a, r = Ok a /\ f a = Ok b.
Proof.
  destruct r as [a|e]; simpl; split.
  - intros H; exists a; auto.
  - intros (a' & Ha & Hf). inversion Ha; subst; exact Hf.
  - discriminate.
  - intros (a' & Ha & _); discriminate.
Qed.

Lemma mapM_app {A B} (f : A -> result B) l1 l2 :
  mapM f (l1 ++ l2) = let* a := mapM f l1 in let* b := mapM f l2 in Ok (a ++ b).
Proof.
  induction l1 as [|a l1 IH]; simpl.
  - destruct (mapM f l2); reflexivity.
  - destruct (f a) as [b|e]; simpl; [|reflexivity].
    rewrite IH. destruct (mapM f l1) as [bs|e]; simpl; [|reflexivity].
    destruct (mapM f l2); reflexivity.
Qed.

Lemma mapM_length {A B} (f : A -> result B) l bs : mapM f l = Ok bs -> length bs = length l.
Proof.
  revert bs; induction l as [|a l IH]; simpl; intros bs H.
  - inversion H; reflexivity.
  - destruct (f a) as [b|e]; simpl in H; [|discriminate].
    destruct (mapM f l) as [bs'|e]; simpl in H; [|discriminate].
    inversion H; subst; simpl. rewrite (IH bs' eq_refl); reflexivity.
Qed.

Lemma mapM_ok_map {A B} (f : A -> result B) (g : A -> B) l :
  (forall a, In a l -> f a = Ok (g a)) -> mapM f l = Ok (map g l).
Proof.
  induction l as [|a l IH]; simpl; intros H; [reflexivity|].
  rewrite (H a (or_introl eq_refl)); simpl.
  rewrite IH; [reflexivity|]. intros x Hx; apply H; right; exact Hx.
Qed.

Lemma mapM_nth_error {A B} (f : A -> result B) l bs i a :
  mapM f l = Ok bs -> nth_error l i = Some a -> exists b, f a = Ok b /\ nth_error bs i = Some b.
Proof.
  revert bs i; induction l as [|x l IH]; simpl; intros bs i H Hi.
  - destruct i; discriminate.
  - destruct (f x) as [b|e] eqn:Hx; simpl in H; [|discriminate].
    destruct (mapM f l) as [bs'|e] eqn:Hl; simpl in H; [|discriminate].
    inversion H; subst. destruct i as [|i]; simpl in Hi |- *.
    + inversion Hi; subst. exists b; auto.
    + apply (IH bs' i); auto.
Qed.

(** Reading a whole list by its index range. *)
Lemma mapM_py_get_seq_gen {A} (pre l : list A) :
  mapM (py_get (pre ++ l)) (seq (length pre) (length l)) = Ok l.
Proof.
  revert pre; induction l as [|a l IH]; intros pre; simpl; [reflexivity|].
  unfold py_get at 1. rewrite nth_error_app2 by lia. rewrite Nat.sub_diag; simpl.
  specialize (IH (pre ++ [a])). rewrite <- app_assoc in IH; simpl in IH.
  rewrite app_length in IH; simpl in IH. rewrite Nat.add_1_r in IH. rewrite IH. reflexivity.
Qed.

Lemma mapM_py_get_seq {A} (l : list A) : mapM (py_get l) (seq 0 (length l)) = Ok l.
Proof. exact (mapM_py_get_seq_gen [] l). Qed.

Lemma clamp_index_nonneg n i : (0 <= i)%Z -> clamp_index n i = Nat.min (Z.to_nat i) n.
Proof. intros H; unfold clamp_index. destruct (Z.ltb_spec i 0); [lia|reflexivity]. Qed.

Lemma py_slice_nonneg {A} (l : list A) i j :
  (0 <= i)%Z -> (i <= j)%Z ->
  py_slice l i j = firstn (Z.to_nat j - Z.to_nat i) (skipn (Z.to_nat i) l).
Proof.
  intros Hi Hj; unfold py_slice. rewrite !clamp_index_nonneg by lia.
  destruct (Nat.le_gt_cases (length l) (Z.to_nat i)) as [Hge|Hlt].
  - rewrite (Nat.min_r (Z.to_nat i)) by lia.
    rewrite (Nat.min_r (Z.to_nat j)) by lia.
    rewrite !skipn_all2 by lia. rewrite !firstn_nil. reflexivity.
  - rewrite (Nat.min_l (Z.to_nat i)) by lia.
    destruct (Nat.le_gt_cases (length l) (Z.to_nat j)) as [Hge2|Hlt2].
    + rewrite Nat.min_r by lia.
      rewrite !firstn_all2; [reflexivity| |]; rewrite skipn_length; lia.
    + rewrite Nat.min_l by lia. reflexivity.
Qed.

Lemma skipn_skipn {A} n m (l : list A) : skipn n (skipn m l) = skipn (m + n) l.
Proof.
  revert l; induction m as [|m IH]; intros l; simpl; [reflexivity|].
  destruct l as [|a l]; simpl; [apply skipn_nil|apply IH].
Qed.

Lemma set_nth_length {A} i (x : A) l : length (set_nth i x l) = length l.
Proof. revert i; induction l as [|a l IH]; intros [|i]; simpl; auto. Qed.

Lemma nth_error_set_nth_eq {A} i (x : A) l : i < length l -> nth_error (set_nth i x l) i = Some x.
Proof.
  revert i; induction l as [|a l IH]; intros [|i] H; simpl in *; try lia; auto.
  apply IH; lia.
Qed.

Lemma nth_error_set_nth_neq {A} i j (x : A) l : i <> j -> nth_error (set_nth i x l) j = nth_error l j.
Proof.
  revert i j; induction l as [|a l IH]; intros [|i] [|j] H; simpl in *; try lia; auto.
Qed.

Lemma mapM_exists {A B} (f : A -> result B) l :
  (forall a, In a l -> exists b, f a = Ok b) -> exists bs, mapM f l = Ok bs.
Proof.
  induction l as [|a l IH]; intros H; simpl; [exists []; reflexivity|].
  destruct (H a (or_introl eq_refl)) as [b Hb]. rewrite Hb; simpl.
  destruct IH as [bs Hbs]; [intros x Hx; apply H; right; exact Hx|].
  rewrite Hbs; simpl. exists (b :: bs); reflexivity.
Qed.

Lemma mapM_concat {A B} (f : A -> result B) ls bss :
  mapM (mapM f) ls = Ok bss -> mapM f (concat ls) = Ok (concat bss).
Proof.
  revert bss; induction ls as [|l ls IH]; simpl; intros bss H; [inversion H; reflexivity|].
  destruct (mapM f l) as [bs|e] eqn:Hl; simpl in H; [|discriminate].
  destruct (mapM (mapM f) ls) as [bss'|e] eqn:Hls; simpl in H; [|discriminate].
  inversion H; subst. rewrite mapM_app, Hl; simpl. rewrite (IH bss' eq_refl). reflexivity.
Qed.

Lemma mapM_ext {A B} (f g : A -> result B) l :
  (forall a, In a l -> f a = g a) -> mapM f l = mapM g l.
Proof.
  induction l as [|a l IH]; simpl; intros H; [reflexivity|].
  rewrite (H a (or_introl eq_refl)). rewrite IH; [reflexivity|].
  intros x Hx; apply H; right; exact Hx.
Qed.

Lemma mapM_map {A B C} (f : B -> result C) (g : A -> B) l :
  mapM f (map g l) = mapM (fun a => f (g a)) l.
Proof. induction l as [|a l IH]; simpl; [reflexivity|]. rewrite IH; reflexivity. Qed.

Lemma py_get_exists {A} (l : list A) i : i < length l -> exists a, py_get l i = Ok a.
Proof.
  intros H; unfold py_get. destruct (nth_error l i) as [a|] eqn:E; [eauto|].
  apply nth_error_None in E; lia.
Qed.

Lemma mapM_in {A B} (f : A -> result B) l bs b :
  mapM f l = Ok bs -> In b bs -> exists a, In a l /\ f a = Ok b.
Proof.
  revert bs; induction l as [|x l IH]; simpl; intros bs H Hb.
  - inversion H; subst; destruct Hb.
  - destruct (f x) as [y|e] eqn:Hx; simpl in H; [|discriminate].
    destruct (mapM f l) as [bs'|e] eqn:Hl; simpl in H; [|discriminate].
    inversion H; subst. destruct Hb as [->|Hb]; [exists x; auto|].
    destruct (IH bs' eq_refl Hb) as (a & Ha & Hf). exists a; auto.
Qed.

(** [mapM] preserves permutations. *)
From Coq Require Import Permutation.
Lemma mapM_perm {A B} (f : A -> result B) l1 l2 bs1 bs2 :
  Permutation l1 l2 -> mapM f l1 = Ok bs1 -> mapM f l2 = Ok bs2 -> Permutation bs1 bs2.
Proof.
  intros HP; revert bs1 bs2; induction HP as [|x l1 l2 HP IH|x y l|l1 l2 l3 HP1 IH1 HP2 IH2];
    simpl; intros bs1 bs2 H1 H2.
  - inversion H1; inversion H2; subst; constructor.
  - destruct (f x) as [b|e]; simpl in *; [|discriminate].
    destruct (mapM f l1) as [c1|e] eqn:E1; simpl in *; [|discriminate].
    destruct (mapM f l2) as [c2|e] eqn:E2; simpl in *; [|discriminate].
    inversion H1; inversion H2; subst. constructor. apply IH; reflexivity.
  - destruct (f x) as [b|e]; simpl in *; [|destruct (f y); discriminate].
    destruct (f y) as [c|e]; simpl in *; [|discriminate].
    destruct (mapM f l) as [d|e]; simpl in *; [|discriminate].
    inversion H1; inversion H2; subst. constructor.
  - assert (exists bs, mapM f l2 = Ok bs) as [bs Hbs].
    { apply mapM_exists. intros a Ha. apply (Permutation_in a (Permutation_sym HP1)) in Ha.
      destruct (In_nth_error _ _ Ha) as [i Hi].
      destruct (mapM_nth_error f l1 bs1 i a H1 Hi) as (b & Hb & _). eauto. }
    exact (Permutation_trans (IH1 _ _ H1 Hbs) (IH2 _ _ Hbs H2)).
Qed.

Lemma nth_error_ext {A} (l m : list A) : (forall i, nth_error l i = nth_error m i) -> l = m.
Proof.
  revert m. induction l as [|a l IH]; intros [|b m] He.
  - reflexivity.
  - discriminate (He 0).
  - discriminate (He 0).
  - f_equal.
    + specialize (He 0). cbn in He. congruence.
    + apply IH. intros i. exact (He (S i)).
Qed.

Lemma NoDup_app_intro {A} (l m : list A) :
  NoDup l -> NoDup m -> (forall x, In x l -> In x m -> False) -> NoDup (l ++ m).
Proof.
  induction l as [|a l IH]; intros Hl Hm Hd; cbn [app]; [exact Hm|].
  inversion Hl as [|? ? Ha Hl']; subst. constructor.
  - intros Hi. apply in_app_or in Hi. destruct Hi as [Hi|Hi]; [contradiction|].
    apply (Hd a); [now left|exact Hi].
  - apply IH; [exact Hl'|exact Hm|]. intros x Hx Hx'. apply (Hd x); [now right|exact Hx'].
Qed.

Lemma last_default {A} (l : list A) a b : l <> [] -> last l a = last l b.
Proof.
  induction l as [|x l IH]; intros Hne; [congruence|]. destruct l as [|y l]; [reflexivity|].
  change (last (y :: l) a = last (y :: l) b). apply IH. discriminate.
Qed.

Lemma nth_error_firstn {A} (l : list A) : forall n i, i < n -> nth_error (firstn n l) i = nth_error l i.
Proof.
  induction l as [|x l IH]; intros [|n] [|i] Hi; cbn; try reflexivity; try lia. apply IH. lia.
Qed.

Lemma nth_error_skipn {A} (l : list A) : forall n i, nth_error (skipn n l) i = nth_error l (n + i).
Proof.
  induction l as [|x l IH]; intros [|n] i; cbn; try reflexivity; [now destruct i | apply IH].
Qed.
