(** Lemmas about values, curves and the combinators. *)
From Verif Require Import CombModel CombSpec MatProofs BaseFacts.
From Coq Require Import Reals Lra Lia.
Set Default Goal Selector "!".
Local Open Scope R_scope.

(** ** Curves as scalars *)

#[export] Instance num_jet : Num jet := {
  nZ := fun z => (fun _ => IZR z, 0);
  nadd := fun j k => (fun s => fst j s + fst k s, snd j + snd k);
  nsub := fun j k => (fun s => fst j s - fst k s, snd j - snd k);
  nmul := fun j k => (fun s => fst j s * fst k s, snd j * fst k 0 + fst j 0 * snd k);
  ndiv := fun j k => (fun s => fst j s / fst k s, (snd j * fst k 0 - snd k * fst j 0) / Rsqr (fst k 0));
  nopp := fun j => (fun s => - fst j s, - snd j);
  nsqrt := fun j => (fun s => sqrt (fst j s), / (2 * sqrt (fst j 0)) * snd j);
  nltb := fun j k => if Rlt_dec (fst j 0) (fst k 0) then true else false;
  neqb := fun j k => if Req_EM_T (fst j 0) (fst k 0) then true else false
}.

Lemma at_add s j k : at_time s (nadd j k) = at_time s j + at_time s k. Proof. reflexivity. Qed.
Lemma velocity_add j k : velocity (nadd j k) = velocity j + velocity k. Proof. reflexivity. Qed.
Lemma smooth_add j k : smooth j -> smooth k -> smooth (nadd j k).
Proof. intros Hj Hk. exact (derivable_pt_lim_plus (fst j) (fst k) 0 _ _ Hj Hk). Qed.
Lemma smooth_mul j k : smooth j -> smooth k -> smooth (nmul j k).
Proof. intros Hj Hk. exact (derivable_pt_lim_mult (fst j) (fst k) 0 _ _ Hj Hk). Qed.
Lemma smooth_const z : smooth (nZ z).
Proof. exact (derivable_pt_lim_const (IZR z) 0). Qed.

(** ** Values *)

Lemma value_ind' {A} (P : value A -> Prop) :
  (forall x, P (Sc x)) -> (forall v, P (Arr1 v)) -> (forall m, P (Arr2 m)) -> (forall m w l, P (Rag m w l)) ->
  (forall w d s l i, P (Pad w d s l i)) -> (forall l, Forall P l -> P (PyList l)) -> (forall l, Forall P l -> P (PyTup l)) ->
  forall v, P v.
Proof.
  intros H1 H2 H3 H4 H5 H6 H7. fix IH 1. intros [x|v|m|m w l|w d s l i|l|l].
  - apply H1.
  - apply H2.
  - apply H3.
  - apply H4.
  - apply H5.
  - apply H6. induction l as [|x r IHr]; constructor; [apply IH|exact IHr].
  - apply H7. induction l as [|x r IHr]; constructor; [apply IH|exact IHr].
Qed.

Lemma map_ext_Forall' {A B} (f g : A -> B) l : Forall (fun x => f x = g x) l -> map f l = map g l.
Proof. induction 1 as [|x l Hx _ IH]; cbn; [reflexivity|now rewrite Hx, IH]. Qed.

Lemma vmap_vmap {A B C} (f : A -> B) (g : B -> C) v : vmap g (vmap f v) = vmap (fun x => g (f x)) v.
Proof.
  induction v as [x|v|m|m w l|w d s l i|l IH|l IH] using value_ind'; cbn.
  - reflexivity.
  - now rewrite map_map.
  - rewrite map_map. do 2 f_equal. apply map_ext. intros r. apply map_map.
  - rewrite map_map. do 2 f_equal. apply map_ext. intros r. apply map_map.
  - rewrite map_map. f_equal. apply map_ext. intros r. rewrite map_map. apply map_ext. intros q. apply map_map.
  - rewrite map_map. f_equal. apply map_ext_Forall'. exact IH.
  - rewrite map_map. f_equal. apply map_ext_Forall'. exact IH.
Qed.
Lemma leaves_vmap {A B} (f : A -> B) v : leaves (vmap f v) = map f (leaves v).
Proof.
  induction v as [x|v|m|m w l|w d s l i|l IH|l IH] using value_ind'; cbn.
  - reflexivity.
  - reflexivity.
  - now rewrite concat_map.
  - now rewrite concat_map.
  - rewrite concat_map, !map_map. f_equal. apply map_ext. intros r. now rewrite concat_map.
  - rewrite concat_map, !map_map. f_equal. apply map_ext_Forall'. exact IH.
  - rewrite concat_map, !map_map. f_equal. apply map_ext_Forall'. exact IH.
Qed.

Lemma like_refl {A} (v : value A) : like v v. Proof. reflexivity. Qed.
Lemma like_sym {A B} (v : value A) (w : value B) : like v w -> like w v. Proof. unfold like. congruence. Qed.
Lemma like_trans {A B C} (u : value A) (v : value B) (w : value C) : like u v -> like v w -> like u w.
Proof. unfold like. congruence. Qed.
Lemma like_vmap {A B} (f : A -> B) v : like (vmap f v) v.
Proof. unfold like. now rewrite vmap_vmap. Qed.
Lemma like_leaves {A B} (v : value A) (w : value B) : like v w -> length (leaves v) = length (leaves w).
Proof. intros E. apply (f_equal leaves) in E. rewrite !leaves_vmap in E. apply (f_equal (@length _)) in E. now rewrite !map_length in E. Qed.

Lemma units_eq {A B} (a : list A) (b : list B) : map (fun _ => tt) a = map (fun _ => tt) b <-> length a = length b.
Proof.
  split.
  - intros E. apply (f_equal (@length _)) in E. now rewrite !map_length in E.
  - revert b. induction a as [|x a IH]; intros [|y b]; cbn; try discriminate; [reflexivity|]. intros [= E]. now rewrite (IH b E).
Qed.
Lemma units2_eq {A B} (a : list (list A)) (b : list (list B)) :
  map (map (fun _ => tt)) a = map (map (fun _ => tt)) b <-> map (@length _) a = map (@length _) b.
Proof.
  split.
  - intros E. apply (f_equal (map (@length _))) in E. rewrite !map_map in E.
    erewrite map_ext in E; [|intros r; apply map_length]. symmetry in E.
    erewrite map_ext in E; [|intros r; apply map_length]. now symmetry in E.
  - revert b. induction a as [|x a IH]; intros [|y b]; cbn; try discriminate; [reflexivity|].
    intros [= E1 E2]. rewrite (IH b E2). f_equal. now apply units_eq.
Qed.
Lemma units3_eq {A B} (a : list (list (list A))) (b : list (list (list B))) :
  map (map (map (fun _ => tt))) a = map (map (map (fun _ => tt))) b <->
  map (map (@length _)) a = map (map (@length _)) b.
Proof.
  revert b. induction a as [|x a IH]; intros [|y b]; cbn; try (split; discriminate); [tauto|].
  split; intros [= E1 E2].
  - f_equal; [now apply units2_eq|now apply IH].
  - f_equal; [now apply units2_eq|now apply IH].
Qed.
Lemma lens_Forall {A B} (n : nat) (a : list (list A)) (b : list (list B)) :
  map (@length _) a = map (@length _) b -> Forall (fun r => length r = n) b -> Forall (fun r => length r = n) a.
Proof.
  revert b. induction a as [|x a IH]; intros [|y b] E Hb; cbn in E; try discriminate; [constructor|].
  injection E as E1 E2. apply Forall_cons_iff in Hb as [Hy Hb]. constructor; [congruence|now apply (IH b)].
Qed.
Lemma lens_length {A B} (a : list (list A)) (b : list (list B)) : map (@length _) a = map (@length _) b -> length a = length b.
Proof. intros E. apply (f_equal (@length _)) in E. now rewrite !map_length in E. Qed.

Lemma like_Arr1 {A B} (u : list A) (w : value B) : like (Arr1 u) w -> exists v, w = Arr1 v /\ length u = length v.
Proof. destruct w; cbn; intros E; unfold like in E; cbn in E; try discriminate. injection E as E. eexists. split; [reflexivity|]. now apply units_eq. Qed.
Lemma like_Arr2 {A B} (m : mat A) (w : value B) : like (Arr2 m) w ->
  exists n, w = Arr2 n /\ m_cols m = m_cols n /\ map (@length _) (m_rows m) = map (@length _) (m_rows n).
Proof.
  destruct w as [|?|n| | | |]; intros E; unfold like in E; cbn in E; try discriminate.
  injection E as E1 E2. exists n. repeat split; [exact E1|now apply units2_eq].
Qed.
Lemma like_Arr2_iff {A B} (m : mat A) (n : mat B) : m_cols m = m_cols n -> map (@length _) (m_rows m) = map (@length _) (m_rows n) ->
  like (Arr2 m) (Arr2 n).
Proof. intros E1 E2. unfold like. cbn. rewrite E1. do 2 f_equal. now apply units2_eq. Qed.
Lemma like_Rag {A B} (m : mat A) k lens (w : value B) : like (Rag m k lens) w ->
  exists n, w = Rag n k lens /\ m_cols m = m_cols n /\ map (@length _) (m_rows m) = map (@length _) (m_rows n).
Proof.
  destruct w as [| | |n k' lens'| | |]; intros E; unfold like in E; cbn in E; try discriminate.
  injection E as E1 E2 E3 E4. exists n. subst. repeat split; [exact E1|now apply units2_eq].
Qed.
Lemma like_Pad {A B} k (d : list (list (list A))) s l i (w : value B) : like (Pad k d s l i) w ->
  exists e, w = Pad k e s l i /\ map (map (@length _)) d = map (map (@length _)) e.
Proof.
  destruct w as [| | | |k' e s' l' i'| |]; intros E; unfold like in E; cbn in E; try discriminate.
  injection E as E1 E2 E3 E4 E5. exists e. subst. split; [reflexivity|]. now apply units3_eq.
Qed.
Lemma units_items {A B} (l : list (value A)) (l' : list (value B)) :
  map (vmap (fun _ => tt)) l = map (vmap (fun _ => tt)) l' <-> Forall2 like l l'.
Proof.
  split.
  - revert l'. induction l as [|x l IH]; intros [|y l'] E; cbn in E; try discriminate; constructor.
    + now injection E.
    + apply IH. now injection E.
  - induction 1 as [|x y l l' Hx _ IH]; cbn; [reflexivity|]. f_equal; [exact Hx|exact IH].
Qed.
Lemma like_PyList {A B} (l : list (value A)) (w : value B) : like (PyList l) w -> exists l', w = PyList l' /\ Forall2 like l l'.
Proof. destruct w; intros E; unfold like in E; cbn in E; try discriminate. injection E as E. eexists. split; [reflexivity|]. now apply units_items. Qed.
Lemma like_PyTup {A B} (l : list (value A)) (w : value B) : like (PyTup l) w -> exists l', w = PyTup l' /\ Forall2 like l l'.
Proof. destruct w; intros E; unfold like in E; cbn in E; try discriminate. injection E as E. eexists. split; [reflexivity|]. now apply units_items. Qed.
Lemma like_items_list {A B} (l : list (value A)) (l' : list (value B)) : Forall2 like l l' -> like (PyList l) (PyList l').
Proof. intros E. unfold like. cbn. f_equal. now apply units_items. Qed.
Lemma like_items_tup {A B} (l : list (value A)) (l' : list (value B)) : Forall2 like l l' -> like (PyTup l) (PyTup l').
Proof. intros E. unfold like. cbn. f_equal. now apply units_items. Qed.

Lemma wfv_items {A} (l : list (value A)) : fold_right and True (map wfv l) <-> Forall wfv l.
Proof. induction l as [|x l IH]; cbn; [split; auto|]. rewrite Forall_cons_iff, IH. tauto. Qed.

Lemma wf_mat_lens {A B} (m : mat A) (n : mat B) : m_cols m = m_cols n -> map (@length _) (m_rows m) = map (@length _) (m_rows n) ->
  wf_mat n -> wf_mat m.
Proof. intros E1 E2 Hn. unfold wf_mat in *. rewrite E1. now apply (lens_Forall _ _ _ E2). Qed.

Lemma wfv_like {A B} (w : value B) : forall (v : value A), like v w -> wfv w -> wfv v.
Proof.
  induction w as [x|v|m|m k l|k d s l i|l IH|l IH] using value_ind'; intros v' E Hw; apply like_sym in E.
  - destruct v'; unfold like in E; cbn in E; try discriminate. exact I.
  - destruct (like_Arr1 _ _ E) as (u & -> & _). exact I.
  - destruct (like_Arr2 _ _ E) as (n & -> & E1 & E2). cbn in *. now apply (wf_mat_lens n m).
  - destruct (like_Rag _ _ _ _ E) as (n & -> & E1 & E2). cbn in *. destruct Hw as [Hm Hk]. split; [now apply (wf_mat_lens n m)|].
    rewrite <- E1, <- (lens_length _ _ E2). destruct (Nat.eqb _ 0) eqn:Z; [|exact Hk].
    subst m. cbn in *. destruct n as [c rows]. cbn in *. subst c. destruct rows; [reflexivity|discriminate].
  - destruct (like_Pad _ _ _ _ _ _ E) as (e & -> & E1). cbn in *. clear -E1 Hw.
    revert d E1 Hw. induction e as [|x e IH]; intros [|y d] E Hw; cbn in E; try discriminate; [constructor|].
    injection E as E1 E2. apply Forall_cons_iff in Hw as [Hy Hw]. constructor; [now apply (lens_Forall _ _ y)|now apply (IH d)].
  - destruct (like_PyList _ _ E) as (l' & -> & E1). cbn in *. apply wfv_items in Hw. apply wfv_items.
    clear E. induction E1 as [|x y l l' Hx H1 IH']; [constructor|].
    apply Forall_cons_iff in IH as [I1 I2]. apply Forall_cons_iff in Hw as [W1 W2].
    constructor; [apply I1; [now apply like_sym|exact W1]|now apply IH'].
  - destruct (like_PyTup _ _ E) as (l' & -> & E1). cbn in *. apply wfv_items in Hw. apply wfv_items.
    clear E. induction E1 as [|x y l l' Hx H1 IH']; [constructor|].
    apply Forall_cons_iff in IH as [I1 I2]. apply Forall_cons_iff in Hw as [W1 W2].
    constructor; [apply I1; [now apply like_sym|exact W1]|now apply IH'].
Qed.

Lemma is_array_like {A B} (v : value A) (w : value B) : like v w -> is_array w -> is_array v.
Proof. destruct v, w; unfold like; cbn; intros E; try discriminate; tauto. Qed.
Lemma has_data_like {A B} (v : value A) (w : value B) : like v w -> has_data w -> has_data v.
Proof. destruct v, w; unfold like; cbn; intros E; try discriminate; tauto. Qed.
Lemma array_has_data {A} (v : value A) : is_array v -> has_data v.
Proof. destruct v; cbn; tauto. Qed.

(** ** Elementwise sums *)

Definition rows_add {T} `{Num T} (a b : list (list T)) : list (list T) := map (fun p => row_add (fst p) (snd p)) (combine a b).
Definition zadd {T} `{Num T} (a b : value T) : value T :=
  match a, b with
  | Arr1 u, Arr1 v => Arr1 (row_add u v)
  | Arr2 m, Arr2 n => Arr2 (mkM (m_cols m) (rows_add (m_rows m) (m_rows n)))
  | Rag m w l, Rag n _ _ => Rag (mkM (m_cols m) (rows_add (m_rows m) (m_rows n))) w l
  | Pad w d s l i, Pad _ e _ _ _ => Pad w (map (fun p => rows_add (fst p) (snd p)) (combine d e)) s l i
  | _, _ => a
  end.

Section Sums.
  Context {T : Type} `{Num T}.
  Lemma row_add_length (a b : list T) : length a = length b -> length (row_add a b) = length a.
  Proof. intros E. unfold row_add, vmap2. rewrite map_length, combine_length. lia. Qed.
  Lemma rows_add_lens (a : list (list T)) : forall b, map (@length _) a = map (@length _) b ->
    map (@length _) (rows_add a b) = map (@length _) a.
  Proof.
    induction a as [|x a IH]; intros [|y b] E; cbn in E; try discriminate; [reflexivity|].
    injection E as E1 E2. cbn. f_equal; [now apply row_add_length|now apply IH].
  Qed.
  Lemma rows_add_length (a b : list (list T)) : length a = length b -> length (rows_add a b) = length a.
  Proof. intros E. unfold rows_add. rewrite map_length, combine_length. lia. Qed.

  Lemma vmap2_app (f : T -> T -> T) a : forall b c d, length a = length c ->
    vmap2 f (a ++ b) (c ++ d) = vmap2 f a c ++ vmap2 f b d.
  Proof.
    induction a as [|x a IH]; intros b [|y c] d E; cbn in E; try discriminate; [reflexivity|].
    injection E as E. cbn. f_equal. now apply (IH b c d).
  Qed.
  Lemma vmap2_concat (a : list (list T)) : forall b, map (@length _) a = map (@length _) b ->
    concat (rows_add a b) = row_add (concat a) (concat b).
  Proof.
    induction a as [|x a IH]; intros [|y b] E; cbn in E; try discriminate; [reflexivity|].
    injection E as E1 E2. cbn [concat rows_add combine map fst snd]. change (concat (map _ (combine a b))) with (concat (rows_add a b)). rewrite IH by exact E2.
    unfold row_add. now rewrite vmap2_app by exact E1.
  Qed.
  Lemma lens_concat (d : list (list (list T))) : forall e, map (map (@length _)) d = map (map (@length _)) e ->
    map (@length _) (map (@concat T) d) = map (@length _) (map (@concat T) e).
  Proof.
    induction d as [|x d IH]; intros [|y e] E; cbn in E; try discriminate; [reflexivity|].
    injection E as E1 E2. cbn. f_equal; [|now apply IH]. clear -E1.
    revert y E1. induction x as [|r x IH]; intros [|r' y] E; cbn in E; try discriminate; [reflexivity|].
    injection E as E1 E2. cbn. rewrite !app_length, E1. f_equal. now apply IH.
  Qed.
  Lemma concat_pad (d : list (list (list T))) : forall e, map (map (@length _)) d = map (map (@length _)) e ->
    concat (map (@concat T) (map (fun p => rows_add (fst p) (snd p)) (combine d e)))
    = row_add (concat (map (@concat T) d)) (concat (map (@concat T) e)).
  Proof.
    intros e E. rewrite <- vmap2_concat by now apply lens_concat. f_equal. revert e E.
    induction d as [|x d IH]; intros [|y e] E; cbn in E; try discriminate; [reflexivity|].
    injection E as E1 E2. cbn. f_equal; [now apply vmap2_concat|now apply IH].
  Qed.

  Lemma zadd_leaves (a b : value T) : has_data a -> like a b -> leaves (zadd a b) = row_add (leaves a) (leaves b).
  Proof.
    intros Ha E. destruct a as [|u|m|m w l|w d s l i| |]; try contradiction.
    - destruct (like_Arr1 _ _ E) as (v & -> & _). reflexivity.
    - destruct (like_Arr2 _ _ E) as (n & -> & E1 & E2). cbn. now apply vmap2_concat.
    - destruct (like_Rag _ _ _ _ E) as (n & -> & E1 & E2). cbn. now apply vmap2_concat.
    - destruct (like_Pad _ _ _ _ _ _ E) as (e & -> & E1). cbn. now apply concat_pad.
  Qed.
  Lemma zadd_like (a b : value T) : has_data a -> like a b -> like (zadd a b) a.
  Proof.
    intros Ha E. destruct a as [|u|m|m w l|w d s l i| |]; try contradiction.
    - destruct (like_Arr1 _ _ E) as (v & -> & E1). unfold like. cbn. f_equal. apply units_eq. now apply row_add_length.
    - destruct (like_Arr2 _ _ E) as (n & -> & E1 & E2). unfold like. cbn. do 2 f_equal. apply units2_eq. now apply rows_add_lens.
    - destruct (like_Rag _ _ _ _ E) as (n & -> & E1 & E2). unfold like. cbn. do 2 f_equal. apply units2_eq. now apply rows_add_lens.
    - destruct (like_Pad _ _ _ _ _ _ E) as (e & -> & E1). unfold like. cbn. f_equal. apply units3_eq. clear E Ha.
      revert e E1. induction d as [|x d IH]; intros [|y e] E; cbn in E; try discriminate; [reflexivity|].
      injection E as E1 E2. cbn. f_equal; [now apply rows_add_lens|now apply IH].
  Qed.

  Lemma mshape_eq_lens (m n : mat T) : m_cols m = m_cols n -> map (@length _) (m_rows m) = map (@length _) (m_rows n) -> mshape_eq m n = true.
  Proof. intros E1 E2. unfold mshape_eq. rewrite E1, (lens_length _ _ E2), !Nat.eqb_refl. reflexivity. Qed.
  Lemma madd_ok (m n : mat T) : m_cols m = m_cols n -> map (@length _) (m_rows m) = map (@length _) (m_rows n) ->
    madd m n = Ok (mkM (m_cols m) (rows_add (m_rows m) (m_rows n))).
  Proof. intros E1 E2. unfold madd. now rewrite mshape_eq_lens. Qed.
  Lemma miadd_ok (m n : mat T) : m_cols m = m_cols n -> map (@length _) (m_rows m) = map (@length _) (m_rows n) ->
    miadd m n = Ok (mkM (m_cols m) (rows_add (m_rows m) (m_rows n))).
  Proof.
    intros E1 E2. unfold miadd. rewrite madd_ok by assumption. cbn.
    rewrite mshape_eq_lens; [reflexivity|reflexivity|now apply rows_add_lens].
  Qed.
  Lemma add3_ok w (d e : list (list (list T))) : map (map (@length _)) d = map (map (@length _)) e ->
    add3 w d w e = Ok (map (fun p => rows_add (fst p) (snd p)) (combine d e)).
  Proof.
    intros E. unfold add3. rewrite Nat.eqb_refl. destruct (list_eq_dec Nat.eq_dec (shape3 d) (shape3 e)) as [_|F].
    - reflexivity.
    - exfalso. apply F. apply (f_equal (map (@length _))) in E. rewrite !map_map in E. unfold shape3.
      erewrite map_ext in E; [|intros r; apply map_length]. symmetry in E.
      erewrite map_ext in E; [|intros r; apply map_length]. now symmetry in E.
  Qed.

  Lemma iadd_ok (a b : value T) : is_array a -> like a b -> iadd a b = Ok (zadd a b).
  Proof.
    intros Ha E. destruct a as [|u|m| | | |]; try contradiction.
    - destruct (like_Arr1 _ _ E) as (v & -> & E1). cbn. rewrite miadd_ok by (cbn; congruence). reflexivity.
    - destruct (like_Arr2 _ _ E) as (n & -> & E1 & E2). cbn. rewrite miadd_ok by assumption. reflexivity.
  Qed.
  Lemma vadd_ok (a b : value T) : is_array a -> like a b -> vadd a b = Ok (zadd a b).
  Proof.
    intros Ha E. destruct a as [|u|m| | | |]; try contradiction.
    - destruct (like_Arr1 _ _ E) as (v & -> & E1). cbn. rewrite madd_ok by (cbn; congruence). reflexivity.
    - destruct (like_Arr2 _ _ E) as (n & -> & E1 & E2). cbn. rewrite madd_ok by assumption. reflexivity.
  Qed.
  Lemma acc_grad_ok (a b : value T) : has_data a -> like a b -> acc_grad a b = Ok (zadd a b).
  Proof.
    intros Ha E. destruct a as [|u|m|m w l|w d s l i| |]; try contradiction.
    - rewrite <- iadd_ok; [reflexivity|exact I|exact E].
    - rewrite <- iadd_ok; [reflexivity|exact I|exact E].
    - destruct (like_Rag _ _ _ _ E) as (n & -> & E1 & E2). cbn. rewrite miadd_ok by assumption. reflexivity.
    - destruct (like_Pad _ _ _ _ _ _ E) as (e & -> & E1). cbn. rewrite add3_ok by assumption. reflexivity.
  Qed.
  Lemma zsum_like (l : list (value T)) : forall a, has_data a -> Forall (fun b => like b a) l -> like (fold_left zadd l a) a.
  Proof.
    induction l as [|b l IH]; intros a Ha Hl; cbn; [apply like_refl|].
    apply Forall_cons_iff in Hl as [Hb Hl]. pose proof (zadd_like a b Ha (like_sym _ _ Hb)) as L.
    eapply like_trans; [|exact L]. apply IH.
    - now apply (has_data_like _ a).
    - eapply Forall_impl; [|exact Hl]. intros c Hc. eapply like_trans; [exact Hc|]. now apply like_sym.
  Qed.
  Lemma iadd_all_ok (l : list (value T)) : forall a, is_array a -> Forall (fun b => like b a) l ->
    iadd_all a l = Ok (fold_left zadd l a).
  Proof.
    induction l as [|b l IH]; intros a Ha Hl; cbn; [reflexivity|].
    apply Forall_cons_iff in Hl as [Hb Hl]. rewrite iadd_ok by (try assumption; now apply like_sym). cbn.
    pose proof (zadd_like a b (array_has_data _ Ha) (like_sym _ _ Hb)) as L. apply IH.
    - now apply (is_array_like _ a).
    - eapply Forall_impl; [|exact Hl]. intros c Hc. eapply like_trans; [exact Hc|]. now apply like_sym.
  Qed.
End Sums.

Lemma row_add_map {A B} `{Num A} `{Num B} (h : A -> B) : (forall x y, h (nadd x y) = nadd (h x) (h y)) ->
  forall a b, map h (row_add a b) = row_add (map h a) (map h b).
Proof.
  intros Hh. induction a as [|x a IH]; intros [|y b]; try reflexivity. cbn. f_equal; [apply Hh|apply IH].
Qed.
Lemma rows_add_map {A B} `{Num A} `{Num B} (h : A -> B) : (forall x y, h (nadd x y) = nadd (h x) (h y)) ->
  forall a b, map (map h) (rows_add a b) = rows_add (map (map h) a) (map (map h) b).
Proof.
  intros Hh. induction a as [|x a IH]; intros [|y b]; try reflexivity. cbn. f_equal; [now apply row_add_map|apply IH].
Qed.
Lemma zadd_vmap {A B} `{Num A} `{Num B} (h : A -> B) : (forall x y, h (nadd x y) = nadd (h x) (h y)) ->
  forall a b, vmap h (zadd a b) = zadd (vmap h a) (vmap h b).
Proof.
  intros Hh a b. destruct a, b; try reflexivity; cbn.
  - f_equal. now apply row_add_map.
  - do 2 f_equal. now apply rows_add_map.
  - do 2 f_equal. now apply rows_add_map.
  - f_equal. revert d0. induction d as [|x d IH]; intros [|y e]; try reflexivity. cbn. f_equal; [now apply rows_add_map|apply IH].
Qed.
Lemma zsum_vmap {A B} `{Num A} `{Num B} (h : A -> B) : (forall x y, h (nadd x y) = nadd (h x) (h y)) ->
  forall l a, vmap h (fold_left zadd l a) = fold_left zadd (map (vmap h) l) (vmap h a).
Proof.
  intros Hh. induction l as [|b l IH]; intros a; cbn; [reflexivity|]. rewrite IH. now rewrite (zadd_vmap h Hh).
Qed.

Lemma dot_row_add_r d : forall a b, length a = length b -> dot d (row_add a b) = dot d a + dot d b.
Proof. intros a b E. rewrite dot_comm, (dot_comm d a), (dot_comm d b). now apply dot_plus_l. Qed.
Lemma inner_comm v w : inner v w = inner w v. Proof. apply dot_comm. Qed.
Lemma inner_zadd_r d a b : has_data a -> like a b -> inner d (zadd a b) = inner d a + inner d b.
Proof. intros Ha E. unfold inner. rewrite zadd_leaves by assumption. apply dot_row_add_r. now apply like_leaves. Qed.
Lemma inner_zadd_l a b d : has_data a -> like a b -> inner (zadd a b) d = inner a d + inner b d.
Proof. intros Ha E. rewrite inner_comm, inner_zadd_r by assumption. now rewrite (inner_comm d a), (inner_comm d b). Qed.
Lemma inner_zsum_r d l : forall a, has_data a -> Forall (fun b => like b a) l ->
  inner d (fold_left zadd l a) = inner d a + msum (map (inner d) l).
Proof.
  induction l as [|b l IH]; intros a Ha Hl; [cbn; ring|].
  apply Forall_cons_iff in Hl as [Hb Hl]. cbn [fold_left map]. rewrite msum_cons.
  pose proof (zadd_like a b Ha (like_sym _ _ Hb)) as L. rewrite IH.
  - rewrite inner_zadd_r; [ring|exact Ha|now apply like_sym].
  - now apply (has_data_like _ a).
  - eapply Forall_impl; [|exact Hl]. intros c Hc. eapply like_trans; [exact Hc|]. now apply like_sym.
Qed.
Lemma inner_zsum_l d l : forall a, has_data a -> Forall (fun b => like b a) l ->
  inner (fold_left zadd l a) d = inner a d + msum (map (fun b => inner b d) l).
Proof.
  intros a Ha Hl. rewrite inner_comm, inner_zsum_r by assumption. rewrite (inner_comm d a). f_equal. f_equal.
  apply map_ext. intros b. apply inner_comm.
Qed.

Lemma smooth_row_add (a : list jet) : forall b, Forall smooth a -> Forall smooth b -> Forall smooth (row_add a b).
Proof.
  induction a as [|x a IH]; intros [|y b] Ha Hb; cbn; try constructor.
  - apply Forall_inv in Ha, Hb. now apply smooth_add.
  - apply IH; eapply Forall_inv_tail; eassumption.
Qed.
Lemma smooth_zadd a b : has_data a -> like a b -> Forall smooth (leaves a) -> Forall smooth (leaves b) -> Forall smooth (leaves (zadd a b)).
Proof. intros Ha E Sa Sb. rewrite zadd_leaves by assumption. now apply smooth_row_add. Qed.
Lemma smooth_zsum l : forall a, has_data a -> Forall (fun b => like b a) l -> Forall smooth (leaves a) ->
  Forall (fun b => Forall smooth (leaves b)) l -> Forall smooth (leaves (fold_left zadd l a)).
Proof.
  induction l as [|b l IH]; intros a Ha Hl Sa Sl; cbn; [exact Sa|].
  apply Forall_cons_iff in Hl as [Hb Hl]. apply Forall_cons_iff in Sl as [Sb Sl].
  pose proof (zadd_like a b Ha (like_sym _ _ Hb)) as L. apply IH.
  - now apply (has_data_like _ a).
  - eapply Forall_impl; [|exact Hl]. intros c Hc. eapply like_trans; [exact Hc|]. now apply like_sym.
  - apply smooth_zadd; try assumption. now apply like_sym.
  - exact Sl.
Qed.
