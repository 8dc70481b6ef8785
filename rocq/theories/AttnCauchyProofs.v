(** Proofs about CauchySimilarity. *)
From Coq Require Import Reals Lra Lia.
From Verif Require Import ReduceProofs ReduceFirstProofs.
From Verif Require Import CombModel CombSpec DenseModel DenseSpec ActModel ActSpec SoftModel SoftSpec.
From Verif Require Import MatProofs BaseFacts CombProofs CombDiffProofs CombBuiltProofs MkProofs LinearProofs ActLayerProofs DenseProofs ActProofs SoftProofs SoftSeqProofs.
From Verif Require Import AttnModel AttnSpec AttnProofs.
Set Default Goal Selector "!".
Local Open Scope R_scope.

(** ** Broadcasting *)
Lemma mbin_bc {T} `{Num T} op r1 c1 r2 c2 r c (f g : nat -> nat -> T) : bdim r1 r2 = Some r -> bdim c1 c2 = Some c ->
  mbin op (mk r1 c1 f) (mk r2 c2 g) = Ok (mk r c (fun i j => op (f (if Nat.eqb r1 1 then 0%nat else i) (if Nat.eqb c1 1 then 0%nat else j)) (g (if Nat.eqb r2 1 then 0%nat else i) (if Nat.eqb c2 1 then 0%nat else j)))).
Proof.
  intros Hr Hc. assert (Cr : (r1 = r \/ r1 = 1%nat) /\ (r2 = r \/ r2 = 1%nat)).
  { unfold bdim in Hr. destruct (Nat.eqb_spec r1 r2), (Nat.eqb_spec r1 1), (Nat.eqb_spec r2 1); try discriminate; injection Hr as <-; lia. }
  assert (Cc : (c1 = c \/ c1 = 1%nat) /\ (c2 = c \/ c2 = 1%nat)).
  { unfold bdim in Hc. destruct (Nat.eqb_spec c1 c2), (Nat.eqb_spec c1 1), (Nat.eqb_spec c2 1); try discriminate; injection Hc as <-; lia. }
  unfold mbin. rewrite mshape_mk. destruct (Nat.eqb_spec r1 r2) as [-> |Hr12].
  - destruct (Nat.eqb_spec c1 c2) as [-> |Hc12]; cbn [andb].
    + pose proof (mbin_same op r2 c2 f g) as E. unfold mbin in E. rewrite mshape_mk, !Nat.eqb_refl in E. cbn [andb] in E. rewrite E. unfold bdim in Hr, Hc. rewrite Nat.eqb_refl in Hr, Hc. injection Hr as <-. injection Hc as <-.
      f_equal. apply mk_ext. intros i j Hi Hj. destruct (Nat.eqb_spec r2 1), (Nat.eqb_spec c2 1); try reflexivity; try (replace i with 0%nat by lia); try (replace j with 0%nat by lia); reflexivity.
    + rewrite !mk_rows, !mk_cols, Hr, Hc. f_equal. apply mkM_eq. apply vec_ext. intros i Hi. apply vec_ext. intros j Hj. rewrite !bget_mk by lia. reflexivity.
  - cbn [andb]. rewrite !mk_rows, !mk_cols, Hr, Hc. f_equal. apply mkM_eq. apply vec_ext. intros i Hi. apply vec_ext. intros j Hj. rewrite !bget_mk by lia. reflexivity.
Qed.
Lemma bdim_one_l n : bdim 1 n = Some n. Proof. unfold bdim. cbn [Nat.eqb]. destruct n as [|[|n]]; reflexivity. Qed.
Lemma mbin_row_l {T} `{Num T} op r c (w : nat -> T) (f : nat -> nat -> T) : mbin op (mk 1 c (fun _ j => w j)) (mk r c f) = Ok (mk r c (fun i j => op (w j) (f i j))).
Proof.
  rewrite (mbin_bc op 1 c r c r c) by (apply bdim_one_l || apply bdim_refl). f_equal. apply mk_ext. intros i j Hi Hj.
  destruct (Nat.eqb_spec c 1), (Nat.eqb_spec r 1); try (replace i with 0%nat by lia); try (replace j with 0%nat by lia); reflexivity.
Qed.
Lemma mbin_col_l {T} `{Num T} op r c (w : nat -> T) (f : nat -> nat -> T) : mbin op (mk r 1 (fun i _ => w i)) (mk r c f) = Ok (mk r c (fun i j => op (w i) (f i j))).
Proof.
  rewrite (mbin_bc op r 1 r c r c) by (apply bdim_one_l || apply bdim_refl). f_equal. apply mk_ext. intros i j Hi Hj.
  destruct (Nat.eqb_spec c 1), (Nat.eqb_spec r 1); try (replace i with 0%nat by lia); try (replace j with 0%nat by lia); reflexivity.
Qed.
Lemma mbin_row_col {T} `{Num T} op r c (w v : nat -> T) : mbin op (mk 1 c (fun _ j => w j)) (mk r 1 (fun i _ => v i)) = Ok (mk r c (fun i j => op (w j) (v i))).
Proof.
  rewrite (mbin_bc op 1 c r 1 r c) by (apply bdim_one_l || apply bdim_one_r). f_equal. apply mk_ext. intros i j Hi Hj.
  destruct (Nat.eqb_spec c 1), (Nat.eqb_spec r 1); try (replace i with 0%nat by lia); try (replace j with 0%nat by lia); reflexivity.
Qed.
Lemma vbin_vec {T} `{Num T} op n (f g : nat -> T) : vbin op (vec n f) (vec n g) = Ok (vec n (fun i => op (f i) (g i))).
Proof. unfold vbin. rewrite !as_row_vec, mbin_same. reflexivity. Qed.

(** ** Pairs of matrices, and 1d arrays *)
Lemma like_vec_inv {A B} (v : value A) n (g : nat -> B) (d : A) : like v (Arr1 (vec n g)) -> exists f, v = Arr1 (vec n f).
Proof. intros L. apply like_sym, like_Arr1 in L as (u & -> & E). rewrite vec_length in E. exists (fun i => nth i u d). f_equal. now apply vec_of_len. Qed.
Lemma inner_vec n f g : inner (Arr1 (vec n f)) (Arr1 (vec n g)) = S_ n (fun i => f i * g i). Proof. apply dot_vec. Qed.
Lemma smooth_vec n (k : nat -> jet) : Forall smooth (leaves (Arr1 (vec n k))) <-> forall i, (i < n)%nat -> smooth (k i). Proof. apply Forall_vec. Qed.
Lemma inner_pair (a b c d : value R) : length (leaves a) = length (leaves c) -> inner (PyTup [a; b]) (PyTup [c; d]) = inner a c + inner b d.
Proof. intros E. unfold inner. cbn [leaves map concat]. rewrite !app_nil_r. now apply dot_app. Qed.
Lemma leaves_mk {A B} r c (f : nat -> nat -> A) (g : nat -> nat -> B) : length (leaves (Arr2 (mk r c f))) = length (leaves (Arr2 (mk r c g))).
Proof. apply like_leaves, like_mk. Qed.
Lemma curve_pair (K : value jet) r c (x y : nat -> nat -> R) : vmap (at_time 0) K = PyTup [Arr2 (mk r c x); Arr2 (mk r c y)] ->
  exists k l, K = PyTup [Arr2 (mk r c k); Arr2 (mk r c l)] /\ forall i j, (i < r)%nat -> (j < c)%nat -> at_time 0 (k i j) = x i j /\ at_time 0 (l i j) = y i j.
Proof.
  intros E. destruct K as [| | | | | |[|K1 [|K2 [|]]]]; cbn in E; try discriminate. injection E as E1 E2. apply curve_mk in E1 as (k & -> & Hk). apply curve_mk in E2 as (l & -> & Hl).
  exists k, l. split; [reflexivity|]. intros i j Hi Hj. split; [now apply Hk | now apply Hl].
Qed.

(** ** The layer *)
Definition tot (nI : nat) (w : nat -> R) (x y : nat -> nat -> R) (i : nat) : R := S_ nI (fun j => w j * ((x i j - y i j) * (x i j - y i j))).
Lemma cauchy_fwd nI wo tr theta r x y : (wo + nI <= length theta)%nat ->
  let w := fun n => par theta (wo + n) in
  let dt := fun d i => d i * (-1 / ((tot nI w x y i + 1) * (tot nI w x y i + 1))) in
  exists b, CauchySimilarity nI wo tr theta (PyTup [Arr2 (mk r nI x); Arr2 (mk r nI y)]) = Ok (Arr1 (vec r (fun i => 1 / (1 + tot nI w x y i))), b) /\
  forall d g, b (Arr1 (vec r d)) g = (let* g := inc_grad g wo (vec nI (fun j => S_ r (fun i => dt d i * ((x i j - y i j) * (x i j - y i j))))) in
    Ok (PyTup [Arr2 (mk r nI (fun i j => 2 * (w j * dt d i) * (x i j - y i j))); Arr2 (mk r nI (fun i j => 0 - 2 * (w j * dt d i) * (x i j - y i j)))], g)).
Proof.
  intros Hw w dt. unfold CauchySimilarity. cbn [bind fst snd as_mat]. rewrite get_param1_ok by exact Hw. cbn [bind]. fold w. rewrite mbin_same. cbn [bind]. rewrite mmap_mk, as_row_vec, mbin_row_l. cbn [bind].
  rewrite m_rows_mk, !map_vec.
  assert (ET : vec r (fun i => nsum (vec nI (fun j => nmul (w j) (nmul (nsub (x i j) (y i j)) (nsub (x i j) (y i j)))))) = vec r (tot nI w x y)).
  { apply vec_ext. intros i _. now rewrite nsum_S. }
  eexists. split.
  - rewrite (vec_ext r _ (fun i => 1 / (1 + tot nI w x y i))); [reflexivity|]. intros i Hi. unfold inverse. cbn [ndiv nadd nZ num_R]. now rewrite nsum_S.
  - intros d g. cbn [as_arr1 bind]. change (fun t d => inverse_back t d) with (@inverse_back R num_R). rewrite ET, vbin_vec. cbn [bind]. rewrite column_vec, mbin_col_l. cbn [bind]. rewrite sum0_mk.
    rewrite mbin_row_col. cbn [bind]. rewrite !mmap_mk, mbin_same. cbn [bind]. rewrite mmap_mk.
    assert (EQ : vec nI (fun j => nsum (vec r (fun i => nmul (inverse_back (tot nI w x y i) (d i)) (nmul (nsub (x i j) (y i j)) (nsub (x i j) (y i j)))))) = vec nI (fun j => S_ r (fun i => dt d i * ((x i j - y i j) * (x i j - y i j))))).
    { apply vec_ext. intros j _. now rewrite nsum_S. }
    rewrite EQ. reflexivity.
Qed.
Lemma cauchy_mk_ok nI wo tr theta r x y : (wo + nI <= length theta)%nat -> let w := fun n => par theta (wo + n) in (forall i, (i < r)%nat -> 1 + tot nI w x y i <> 0) ->
  differentiates (CauchySimilarity nI wo) tr theta (PyTup [Arr2 (mk r nI x); Arr2 (mk r nI y)]) (Arr1 (vec r (fun i => 1 / (1 + tot nI w x y i)))).
Proof.
  intros Hw w Hnz. destruct (cauchy_fwd nI wo tr theta r x y Hw) as (b & Eb & HB). exists b. split; [exact Eb|]. split; [exact I|].
  intros dY g LdY Lg. apply (like_vec_inv _ _ _ 0) in LdY as (d & ->). rewrite HB. clear HB. cbv zeta. fold w.
  set (dt := fun i => d i * (-1 / ((tot nI w x y i + 1) * (tot nI w x y i + 1)))).
  destruct (inc_grad_ok g wo nI (fun j => S_ r (fun i => dt i * ((x i j - y i j) * (x i j - y i j))))) as (g' & Eg & Lg' & Dg); [lia|].
  unfold dt in Eg at 1. rewrite Eg. cbn [bind]. eexists _, g'. split; [reflexivity|]. split; [apply like_items_tup; constructor; [apply like_mk|constructor; [apply like_mk|constructor]]|]. split; [lia|].
  intros P K HP HK SP SK. apply curve_pair in HK as (k & l & -> & Hkl). cbn [leaves map concat] in SK. rewrite app_nil_r in SK. apply Forall_app in SK as [Sk Sl]. pose proof (proj1 (smooth_mk r nI k) Sk) as Sk'. pose proof (proj1 (smooth_mk r nI l) Sl) as Sl'.
  assert (LP : length P = length theta) by (rewrite <- HP; now rewrite map_length).
  set (wj := fun n => par P (wo + n)). assert (Hwj : forall n, at_time 0 (wj n) = w n) by (intros n; unfold wj, w; now rewrite <- par_at, HP).
  set (T := fun s i => tot nI (fun n => at_time s (wj n)) (fun i j => at_time s (k i j)) (fun i j => at_time s (l i j)) i).
  set (V := fun i => S_ nI (fun j => velocity (wj j) * ((x i j - y i j) * (x i j - y i j)) + w j * (2 * (x i j - y i j) * (velocity (k i j) - velocity (l i j))))).
  assert (DT : forall i, (i < r)%nat -> derivable_pt_lim (fun s => T s i) 0 (V i)).
  { intros i Hi. unfold T, tot, V. apply (der_S nI (fun j s => at_time s (wj j) * ((at_time s (k i j) - at_time s (l i j)) * (at_time s (k i j) - at_time s (l i j)))) (fun j => velocity (wj j) * ((x i j - y i j) * (x i j - y i j)) + w j * (2 * (x i j - y i j) * (velocity (k i j) - velocity (l i j))))).
    intros j Hj. destruct (Hkl i j Hi Hj) as [Ek El]. pose proof (derivable_pt_lim_minus (fst (k i j)) (fst (l i j)) 0 _ _ (Sk' i j Hi Hj) (Sl' i j Hi Hj)) as DD.
    eapply der_eq; [apply (derivable_pt_lim_mult (fst (wj j)) (fun s => (at_time s (k i j) - at_time s (l i j)) * (at_time s (k i j) - at_time s (l i j)))); [apply smooth_par, SP | apply (derivable_pt_lim_mult _ _ _ _ _ DD DD)]|].
    change (fst (wj j) 0) with (at_time 0 (wj j)). rewrite Hwj. unfold minus_fct. cbv beta. change (fst (k i j) 0) with (at_time 0 (k i j)). change (fst (l i j) 0) with (at_time 0 (l i j)). rewrite ?Ek, ?El. unfold wj, velocity. ring. }
  assert (T0 : forall i, (i < r)%nat -> T 0 i = tot nI w x y i). { intros i Hi. unfold T, tot. apply S_ext. intros j Hj. destruct (Hkl i j Hi Hj) as [-> ->]. now rewrite Hwj. }
  exists (Arr1 (vec r (fun i => ((fun s => 1 / (1 + T s i)), - V i / ((1 + tot nI w x y i) * (1 + tot nI w x y i))) : jet))). split; [|split].
  - rewrite smooth_vec. intros i Hi. unfold smooth. cbn [fst snd].
    assert (D1 : derivable_pt_lim (fun s => 1 + T s i) 0 (0 + V i)) by (apply (derivable_pt_lim_plus (fun _ => 1) (fun s => T s i)); [apply derivable_pt_lim_const | now apply DT]).
    eapply der_eq; [apply (derivable_pt_lim_div (fun _ => 1) (fun s => 1 + T s i) 0 0 (0 + V i)); [apply derivable_pt_lim_const | exact D1 | cbn; rewrite T0 by exact Hi; now apply Hnz]|].
    cbn. rewrite T0 by exact Hi. unfold Rsqr. field. now apply Hnz.
  - intros s. destruct (cauchy_fwd nI wo tr (map (at_time s) P) r (fun i j => at_time s (k i j)) (fun i j => at_time s (l i j)) ltac:(rewrite map_length; lia)) as (b' & Eb' & _). exists b'.
    cbn [vmap map]. pose proof (vmap_mk (at_time s) r nI k) as V1. pose proof (vmap_mk (at_time s) r nI l) as V2. cbn [vmap] in V1, V2. rewrite V1, V2, Eb', map_vec. apply ok_fst. f_equal. apply vec_ext. intros i Hi. cbn [at_time fst]. unfold T, tot.
    do 2 f_equal. apply S_ext. intros j _. now rewrite par_at.
  - assert (EV : vmap velocity (Arr1 (vec r (fun i => ((fun s => 1 / (1 + T s i)), - V i / ((1 + tot nI w x y i) * (1 + tot nI w x y i))) : jet))) = Arr1 (vec r (fun i => - V i / ((1 + tot nI w x y i) * (1 + tot nI w x y i))))) by (cbn [vmap]; now rewrite map_vec).
    rewrite EV, inner_vec. cbn [vmap map]. pose proof (vmap_mk velocity r nI k) as V1. pose proof (vmap_mk velocity r nI l) as V2. cbn [vmap] in V1, V2. rewrite V1, V2. rewrite inner_pair by apply leaves_mk. rewrite !inner_mk.
    rewrite Dg by (rewrite map_length; lia).
    rewrite (S_ext nI (fun k0 => S_ r _ * par (map velocity P) (wo + k0)) (fun j => S_ r (fun i => dt i * ((x i j - y i j) * (x i j - y i j)) * velocity (wj j)))).
    2: { intros j _. rewrite S_scale_r. unfold wj. now rewrite par_vel. }
    rewrite (S_swap nI r), <- !S_plus. apply S_ext. intros i Hi. rewrite <- !S_plus. fold (dt i).
    transitivity (dt i * V i). { unfold dt. replace (tot nI w x y i + 1) with (1 + tot nI w x y i) by ring. unfold Rdiv. ring. }
    unfold V. rewrite <- S_scale. apply S_ext. intros j Hj. unfold w. ring.
Qed.
