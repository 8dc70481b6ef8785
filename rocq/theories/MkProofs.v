(** Matrices given by their entries. *)
From Verif Require Import KernelProofs.
From Verif Require Import CombModel CombSpec DenseModel MatProofs BaseFacts CombProofs CombBuiltProofs.
From Coq Require Import Reals Lra Lia.
Set Default Goal Selector "!".
Local Open Scope R_scope.

Definition mk {T} (r c : nat) (f : nat -> nat -> T) : mat T := mkM c (vec r (fun i => vec c (fun j => f i j))).
Definition ent {T} `{Num T} (m : mat T) (i j : nat) : T := nth j (nth i (m_rows m) []) (nZ 0).
(** Finite sums *)
Definition S_ (n : nat) (f : nat -> R) : R := msum (vec n f).

Lemma mk_ext {T} r c (f g : nat -> nat -> T) : (forall i j, (i < r)%nat -> (j < c)%nat -> f i j = g i j) -> mk r c f = mk r c g.
Proof. intros E. unfold mk. f_equal. apply vec_ext. intros i Hi. apply vec_ext. intros j Hj. now apply E. Qed.
Lemma mk_rows {T} r c (f : nat -> nat -> T) : length (m_rows (mk r c f)) = r. Proof. apply vec_length. Qed.
Lemma mk_cols {T} r c (f : nat -> nat -> T) : m_cols (mk r c f) = c. Proof. reflexivity. Qed.
Lemma m_rows_mk {T} r c (f : nat -> nat -> T) : m_rows (mk r c f) = vec r (fun i => vec c (fun j => f i j)). Proof. reflexivity. Qed.
Lemma mkM_eq {T} r c (f : nat -> nat -> T) rows : rows = vec r (fun i => vec c (fun j => f i j)) -> mkM c rows = mk r c f.
Proof. now intros ->. Qed.
Lemma in_vec {T} n (f : nat -> T) x : In x (vec n f) -> exists i, (i < n)%nat /\ x = f i.
Proof. unfold vec. rewrite in_map_iff. intros (i & <- & Hi). apply in_seq in Hi. exists i. split; [lia|reflexivity]. Qed.
Lemma Forall_vec {T} (Q : T -> Prop) n f : Forall Q (vec n f) <-> forall i, (i < n)%nat -> Q (f i).
Proof.
  rewrite Forall_forall. split.
  - intros HQ i Hi. apply HQ. unfold vec. apply in_map. apply in_seq. lia.
  - intros HQ x Hx. apply in_vec in Hx as (i & Hi & ->). now apply HQ.
Qed.
Lemma mk_wf {T} r c (f : nat -> nat -> T) : wf_mat (mk r c f).
Proof. unfold wf_mat. cbn. apply Forall_vec. intros i Hi. apply vec_length. Qed.
Lemma mat_mk {T} `{Num T} (m : mat T) : wf_mat m -> m = mk (length (m_rows m)) (m_cols m) (ent m).
Proof.
  intros W. destruct m as [c rows]. unfold mk, ent. cbn [m_cols m_rows]. f_equal.
  rewrite (vec_of [] rows) at 1. apply vec_ext. intros i Hi. apply vec_of_len.
  unfold wf_mat in W. cbn in W. rewrite Forall_forall in W. apply W. now apply nth_In.
Qed.
Lemma ent_mk {T} `{Num T} r c (f : nat -> nat -> T) i j : (i < r)%nat -> (j < c)%nat -> ent (mk r c f) i j = f i j.
Proof. intros Hi Hj. unfold ent. cbn. rewrite (nth_vec _ _ _ _ Hi). now rewrite (nth_vec _ _ _ _ Hj). Qed.
Lemma mk_inj {T} r c (f g : nat -> nat -> T) : mk r c f = mk r c g -> forall i j, (i < r)%nat -> (j < c)%nat -> f i j = g i j.
Proof.
  intros E i j Hi Hj. unfold mk in E. injection E as E. apply (f_equal (fun l => nth i l [])) in E.
  rewrite !nth_vec in E by exact Hi. apply (f_equal (fun l => nth j l (f i j))) in E. now rewrite !nth_vec in E by exact Hj.
Qed.

(** ** Values *)
Lemma vmap_mk {A B} (h : A -> B) r c f : vmap h (Arr2 (mk r c f)) = Arr2 (mk r c (fun i j => h (f i j))).
Proof. cbn. unfold mk. cbn. rewrite map_vec. do 2 f_equal. apply vec_ext. intros i _. apply map_vec. Qed.
Lemma like_mk {A B} r c (f : nat -> nat -> A) (g : nat -> nat -> B) : like (Arr2 (mk r c f)) (Arr2 (mk r c g)).
Proof. unfold like. now rewrite !vmap_mk. Qed.
Lemma like_mk_inv {A B} `{Num A} (v : value A) r c (g : nat -> nat -> B) : like v (Arr2 (mk r c g)) -> exists f, v = Arr2 (mk r c f).
Proof.
  intros L. apply like_sym, like_Arr2 in L as (m & -> & E1 & E2). exists (ent m). f_equal.
  assert (W : wf_mat m). { apply (wf_mat_lens m (mk r c g)); [now symmetry|now symmetry|apply mk_wf]. }
  rewrite (mat_mk m W) at 1. apply lens_length in E2. rewrite mk_rows in E2. now rewrite <- E1, <- E2.
Qed.
Lemma curve_mk (K : value jet) r c (x : nat -> nat -> R) : vmap (at_time 0) K = Arr2 (mk r c x) ->
  exists k, K = Arr2 (mk r c k) /\ forall i j, (i < r)%nat -> (j < c)%nat -> at_time 0 (k i j) = x i j.
Proof.
  intros E. destruct (like_mk_inv K r c x) as (k & ->).
  - rewrite <- E. apply like_sym, like_vmap.
  - exists k. split; [reflexivity|]. rewrite vmap_mk in E. injection E as E. intros i j Hi Hj.
    apply (mk_inj r c (fun i j => at_time 0 (k i j)) x); [|exact Hi|exact Hj]. unfold mk. now rewrite E.
Qed.
Lemma smooth_mk r c (k : nat -> nat -> jet) : Forall smooth (leaves (Arr2 (mk r c k))) <-> forall i j, (i < r)%nat -> (j < c)%nat -> smooth (k i j).
Proof.
  cbn. rewrite Forall_concat. rewrite Forall_vec. split.
  - intros E i j Hi Hj. specialize (E i Hi). rewrite Forall_vec in E. now apply E.
  - intros E i Hi. apply Forall_vec. intros j Hj. now apply E.
Qed.
Lemma S_ext n f g : (forall i, (i < n)%nat -> f i = g i) -> S_ n f = S_ n g.
Proof. intros E. unfold S_. f_equal. now apply vec_ext. Qed.
Lemma S_plus n f g : S_ n (fun i => f i + g i) = S_ n f + S_ n g. Proof. apply msum_plus. Qed.
Lemma S_scale n c f : S_ n (fun i => c * f i) = c * S_ n f. Proof. apply msum_scale. Qed.
Lemma S_scale_r n c f : S_ n (fun i => f i * c) = S_ n f * c.
Proof. rewrite Rmult_comm, <- S_scale. apply S_ext. intros. ring. Qed.
Lemma S_zero n : S_ n (fun _ => 0) = 0. Proof. apply msum_zero. Qed.
Lemma S_swap n m f : S_ n (fun i => S_ m (fun j => f i j)) = S_ m (fun j => S_ n (fun i => f i j)). Proof. apply msum_swap. Qed.
Lemma S_minus n f g : S_ n (fun i => f i - g i) = S_ n f - S_ n g.
Proof. replace (S_ n f - S_ n g) with (S_ n f + (-1) * S_ n g) by ring. rewrite <- S_scale, <- S_plus. apply S_ext. intros. ring. Qed.
Lemma S_const n c : S_ n (fun _ => c) = INR n * c.
Proof.
  unfold S_, vec. generalize 0%nat. induction n as [|n IH]; intros a.
  - cbn. ring.
  - cbn [seq map]. rewrite msum_cons, IH, S_INR. ring.
Qed.
Lemma dot_S n f g : dot (vec n f) (vec n g) = S_ n (fun j => f j * g j). Proof. apply dot_vec. Qed.
Lemma concat_vec_lens {A B} r c (f : nat -> nat -> A) (g : nat -> nat -> B) :
  map (@length _) (vec r (fun i => vec c (fun j => f i j))) = map (@length _) (vec r (fun i => vec c (fun j => g i j))).
Proof. rewrite !map_vec. apply vec_ext. intros. now rewrite !vec_length. Qed.
Lemma inner_mk r c f g : inner (Arr2 (mk r c f)) (Arr2 (mk r c g)) = S_ r (fun i => S_ c (fun j => f i j * g i j)).
Proof.
  unfold inner, leaves, mk. cbn [m_rows]. rewrite dot_concat by apply concat_vec_lens. unfold mdot. rewrite combine_vec, map_vec. unfold S_ at 1. f_equal.
  apply vec_ext. intros i _. cbn. apply dot_vec.
Qed.

(** ** Homomorphisms and sums *)
Lemma nsum_hom {A B} `{Num A} `{Num B} (h : A -> B) : (forall x y, h (nadd x y) = nadd (h x) (h y)) -> h (nZ 0) = nZ 0 ->
  forall l, h (nsum l) = nsum (map h l).
Proof.
  intros Ha Hz l. unfold nsum. rewrite <- Hz. generalize (nZ 0 : A). induction l as [|x l IH]; intros z; cbn; [reflexivity|].
  rewrite IH. now rewrite Ha.
Qed.
Lemma smooth_nsum l : Forall smooth l -> smooth (nsum l).
Proof.
  unfold nsum. assert (G : forall z, smooth z -> Forall smooth l -> smooth (fold_left nadd l z)).
  { induction l as [|x l IH]; intros z Hz HF; cbn; [exact Hz|]. apply Forall_cons_iff in HF as [Hx HF].
    apply IH; [now apply smooth_add|exact HF]. }
  apply G. apply smooth_const.
Qed.
Lemma nsum_S n f : nsum (vec n f) = S_ n f. Proof. apply nsum_msum. Qed.
Lemma velocity_nsum l : velocity (nsum l) = msum (map velocity l).
Proof. rewrite (@nsum_hom jet R num_jet num_R velocity velocity_add eq_refl). apply nsum_msum. Qed.
Lemma at_nsum s l : at_time s (nsum l) = msum (map (at_time s) l).
Proof. rewrite (@nsum_hom jet R num_jet num_R (at_time s) (at_add s) eq_refl). apply nsum_msum. Qed.

(** ** Operations on arrays *)
Section Ops.
  Context {T : Type} `{N : Num T}.
  Lemma col_mk r c (f : nat -> nat -> T) d j : (j < c)%nat -> col d j (m_rows (mk r c f)) = vec r (fun i => f i j).
  Proof. intros Hj. unfold col. cbn. rewrite map_vec. apply vec_ext. intros i _. now apply nth_vec. Qed.
  Lemma transpose_mk r c (f : nat -> nat -> T) : transpose (mk r c f) = mk c r (fun i j => f j i).
  Proof. unfold transpose. rewrite mk_rows, mk_cols. unfold mk at 2. f_equal. apply vec_ext. intros i Hi. now apply col_mk. Qed.
  Lemma matmul_mk r n c (f g : nat -> nat -> T) :
    matmul (mk r n f) (mk n c g) = Ok (mk r c (fun i j => nsum (vec n (fun k => nmul (f i k) (g k j))))).
  Proof.
    unfold matmul. rewrite mk_cols, mk_rows, Nat.eqb_refl. rewrite mk_cols. f_equal. apply mkM_eq. rewrite (m_rows_mk r n f), map_vec.
    apply vec_ext. intros i Hi. apply vec_ext. intros j Hj. f_equal.
    rewrite col_mk by exact Hj. apply vmap2_vec.
  Qed.
  Lemma sum0_mk r c (f : nat -> nat -> T) : sum0 (mk r c f) = vec c (fun j => nsum (vec r (fun i => f i j))).
  Proof. unfold sum0. rewrite mk_cols. apply vec_ext. intros j Hj. now rewrite col_mk. Qed.
  Lemma sum1_mk r c (f : nat -> nat -> T) : sum1 (mk r c f) = mk r 1 (fun i _ => nsum (vec c (fun j => f i j))).
  Proof. unfold sum1, mk. cbn. now rewrite map_vec. Qed.
  Lemma mean1_mk r c (f : nat -> nat -> T) : mean1 (mk r c f) = mk r 1 (fun i _ => ndiv (nsum (vec c (fun j => f i j))) (nnat c)).
  Proof. unfold mean1, mk. cbn. now rewrite map_vec. Qed.
  Lemma mmap_mk r c (f : nat -> nat -> T) h : mmap h (mk r c f) = mk r c (fun i j => h (f i j)).
  Proof. unfold mmap, mk. cbn. rewrite map_vec. f_equal. apply vec_ext. intros. apply map_vec. Qed.
  Lemma as_row_vec n (f : nat -> T) : as_row (vec n f) = mk 1 n (fun _ j => f j).
  Proof. unfold as_row, mk. now rewrite vec_length. Qed.
  Lemma mshape_mk r c r' c' (f g : nat -> nat -> T) : mshape_eq (mk r c f) (mk r' c' g) = Nat.eqb r r' && Nat.eqb c c'.
  Proof. unfold mshape_eq. now rewrite !mk_rows, !mk_cols. Qed.
  Lemma bget_mk r c (f : nat -> nat -> T) i j : (i < r \/ r = 1)%nat -> (j < c \/ c = 1)%nat ->
    bget (mk r c f) i j = f (if Nat.eqb r 1 then 0%nat else i) (if Nat.eqb c 1 then 0%nat else j).
  Proof.
    intros Hi Hj. unfold bget. rewrite mk_rows, mk_cols. cbn [mk m_rows].
    rewrite nth_vec by (destruct (Nat.eqb_spec r 1); lia). now rewrite nth_vec by (destruct (Nat.eqb_spec c 1); lia).
  Qed.
  Lemma mbin_same op r c (f g : nat -> nat -> T) : mbin op (mk r c f) (mk r c g) = Ok (mk r c (fun i j => op (f i j) (g i j))).
  Proof.
    unfold mbin. rewrite mshape_mk, !Nat.eqb_refl. cbn [andb]. f_equal. apply mkM_eq. rewrite !m_rows_mk, combine_vec, map_vec.
    apply vec_ext. intros i _. cbn. apply vmap2_vec.
  Qed.
  Lemma bdim_refl n : bdim n n = Some n. Proof. unfold bdim. now rewrite Nat.eqb_refl. Qed.
  Lemma bdim_one_r n : bdim n 1 = Some n.
  Proof. unfold bdim. destruct (Nat.eqb_spec n 1) as [->|]; reflexivity. Qed.
  Lemma mbin_row op r c (f : nat -> nat -> T) (g : nat -> T) : mbin op (mk r c f) (mk 1 c (fun _ j => g j)) = Ok (mk r c (fun i j => op (f i j) (g j))).
  Proof.
    unfold mbin. rewrite mshape_mk, Nat.eqb_refl. destruct (Nat.eqb_spec r 1) as [->|Hr]; cbn [andb].
    - pose proof (mbin_same op 1 c f (fun _ j => g j)) as E. unfold mbin in E. rewrite mshape_mk, !Nat.eqb_refl in E. exact E.
    - rewrite !mk_rows, !mk_cols, bdim_refl, bdim_one_r. f_equal. apply mkM_eq. apply vec_ext. intros i Hi. apply vec_ext. intros j Hj.
      rewrite !bget_mk by lia. destruct (Nat.eqb_spec r 1); [contradiction|]. destruct (Nat.eqb_spec c 1); [|reflexivity].
      now replace j with 0%nat by lia.
  Qed.
  Lemma mbin_col op r c (f : nat -> nat -> T) (g : nat -> T) : mbin op (mk r c f) (mk r 1 (fun i _ => g i)) = Ok (mk r c (fun i j => op (f i j) (g i))).
  Proof.
    unfold mbin. rewrite mshape_mk, Nat.eqb_refl. destruct (Nat.eqb_spec c 1) as [->|Hc]; cbn [andb].
    - pose proof (mbin_same op r 1 f (fun i _ => g i)) as E. unfold mbin in E. rewrite mshape_mk, !Nat.eqb_refl in E. exact E.
    - rewrite !mk_rows, !mk_cols, bdim_refl, bdim_one_r. f_equal. apply mkM_eq. apply vec_ext. intros i Hi. apply vec_ext. intros j Hj.
      rewrite !bget_mk by lia. destruct (Nat.eqb_spec c 1); [contradiction|]. destruct (Nat.eqb_spec r 1); [|reflexivity].
      now replace i with 0%nat by lia.
  Qed.
  Lemma madd_mbin (a b : mat T) : CombModel.madd a b = mbin nadd a b. Proof. reflexivity. Qed.
  Lemma miadd_row r c (f : nat -> nat -> T) (g : nat -> T) : miadd (mk r c f) (as_row (vec c g)) = Ok (mk r c (fun i j => nadd (f i j) (g j))).
  Proof. unfold miadd. rewrite as_row_vec, madd_mbin, mbin_row. cbn [bind]. now rewrite mshape_mk, !Nat.eqb_refl. Qed.

  (** ** Parameters *)
  Definition par (theta : list T) (k : nat) : T := nth k theta (nZ 0).
  Lemma seg_vec (theta : list T) off n : (off + n <= length theta)%nat -> firstn n (skipn off theta) = vec n (fun k => par theta (off + k)).
  Proof.
    intros Hn. apply nth_error_ext. intros i. destruct (Nat.lt_ge_cases i n) as [Hi|Hi].
    - unfold vec. rewrite nth_error_firstn by exact Hi. rewrite nth_error_skipn.
      rewrite (map_nth_error (fun k => par theta (off + k)) i (seq 0 n) (d := i)).
      + unfold par. apply nth_error_nth'. lia.
      + rewrite (nth_error_nth' _ 0%nat) by (rewrite seq_length; lia). now rewrite seq_nth.
    - rewrite !(proj2 (nth_error_None _ _)); [reflexivity| |]; [rewrite vec_length|rewrite firstn_length]; lia.
  Qed.
  Lemma get_param1_ok (theta : list T) off n : (off + n <= length theta)%nat -> get_param1 theta off n = Ok (vec n (fun k => par theta (off + k))).
  Proof. intros Hn. unfold get_param1. rewrite (proj2 (Nat.leb_le _ _) Hn). now rewrite seg_vec. Qed.
  Lemma seq_plus a b : map (Nat.add a) (seq 0 b) = seq a b.
  Proof.
    induction a as [|a IH]; [apply map_id|]. rewrite <- seq_shift, <- IH, map_map. reflexivity.
  Qed.
  Lemma vec_app {A} a b (f : nat -> A) : vec (a + b) f = vec a f ++ vec b (fun k => f (a + k)%nat).
  Proof. unfold vec. rewrite seq_app, map_app. f_equal. rewrite <- seq_plus, map_map. reflexivity. Qed.
  Lemma vec_concat {A} c r (f : nat -> A) : vec (r * c) f = concat (vec r (fun i => vec c (fun j => f (i * c + j)%nat))).
  Proof.
    induction r as [|r IH]; [reflexivity|]. replace (S r * c)%nat with (r * c + c)%nat by lia.
    rewrite vec_app, IH. replace (S r) with (r + 1)%nat by lia. rewrite vec_app, concat_app. f_equal. cbn. rewrite app_nil_r.
    apply vec_ext. intros j _. now rewrite Nat.add_0_r.
  Qed.
  Lemma cells_of_vec c r (f : nat -> T) : cells_of c r (vec (r * c) f) = vec r (fun i => vec c (fun j => f (i * c + j)%nat)).
  Proof.
    rewrite vec_concat. rewrite <- (vec_length r (fun i => vec c (fun j => f (i * c + j)%nat))) at 1. apply cells_of_concat1.
    apply Forall_vec. intros i _. apply vec_length.
  Qed.
  Lemma get_param2_ok (theta : list T) off r c : (off + r * c <= length theta)%nat ->
    get_param2 theta off r c = Ok (mk r c (fun i j => par theta (off + (i * c + j)))).
  Proof. intros Hn. unfold get_param2. rewrite get_param1_ok by exact Hn. cbn [bind]. unfold mk. do 2 f_equal. apply cells_of_vec. Qed.
  Lemma get_param1_short (theta : list T) off n : (length theta < off + n)%nat -> get_param1 theta off n = Err KeyError.
  Proof. intros Hn. unfold get_param1. now rewrite (proj2 (Nat.leb_gt _ _) Hn). Qed.
End Ops.

Lemma row_add_dot (a b q : list R) : length a = length b -> dot (row_add a b) q = dot a q + dot b q.
Proof. intros E. unfold row_add, vmap2. exact (dot_plus_l a b q E). Qed.
Lemma inc_grad_ok (g : list R) off n v : (off + n <= length g)%nat ->
  exists g', inc_grad g off (vec n v) = Ok g' /\ length g' = length g /\
  forall p : list R, length p = length g -> dot g' p - dot g p = S_ n (fun k => v k * par p (off + k)).
Proof.
  intros Hn. unfold inc_grad. rewrite vec_length, (proj2 (Nat.leb_le _ _) Hn). eexists. split; [reflexivity|].
  assert (L1 : length (firstn n (skipn off g)) = length (vec n v)) by (rewrite vec_length, firstn_length, skipn_length; lia).
  split.
  - rewrite !app_length, row_add_length by exact L1. rewrite firstn_length, firstn_length, !skipn_length. lia.
  - intros p Lp.
    assert (D : forall l : list R, l = firstn off l ++ firstn n (skipn off l) ++ skipn (off + n) l).
    { intros l. rewrite <- (firstn_skipn off l) at 1. f_equal. rewrite <- (firstn_skipn n (skipn off l)) at 1. now rewrite BaseFacts.skipn_skipn. }
    transitivity (dot (firstn off g ++ row_add (firstn n (skipn off g)) (vec n v) ++ skipn (off + n) g)
                      (firstn off p ++ firstn n (skipn off p) ++ skipn (off + n) p)
                  - dot (firstn off g ++ firstn n (skipn off g) ++ skipn (off + n) g)
                        (firstn off p ++ firstn n (skipn off p) ++ skipn (off + n) p)); [now rewrite <- !D|].
    rewrite !dot_app by (rewrite ?row_add_length by exact L1; rewrite !firstn_length, ?skipn_length; lia).
    rewrite row_add_dot by exact L1. rewrite (seg_vec p off n) by lia. rewrite (dot_S n v). lra.
Qed.
