(** Floating point: sums, the rectifier, clipping, the optimizer, maxout. *)
From Coq Require Import ZArith Lia Bool List.
From Verif Require Import FloatModel FloatSpec FloatFacts FloatIntProofs DenseModel KernelModel ReduceModel OptModel ScalerModel BaseFacts.
From Coq.Floats Require Import SpecFloat.
Set Default Goal Selector "!".
Import ListNotations.
Local Open Scope Z_scope.

(** ** The order *)
Lemma compare_antisym : forall x y, SFcompare y x = option_map CompOpp (SFcompare x y).
Proof.
  intros [s|s| |s m e] [t|t| |t n f]; cbn; try reflexivity; try (now destruct s); try (now destruct t); try (now destruct s, t).
  rewrite (Z.compare_antisym e f). change (Pos.compare_cont Eq n m) with (n ?= m)%positive. change (Pos.compare_cont Eq m n) with (m ?= n)%positive.
  rewrite (Pos.compare_antisym m n).
  destruct s, t; try reflexivity; destruct (e ?= f); cbn; try reflexivity; destruct (m ?= n)%positive; reflexivity.
Qed.
Lemma ltb_irrefl : forall x, SFltb x x = false.
Proof.
  intros [s|s| |s m e]; try (now destruct s); try reflexivity. unfold SFltb. cbn. rewrite Z.compare_refl. change (Pos.compare_cont Eq m m) with (m ?= m)%positive. rewrite Pos.compare_refl. now destruct s.
Qed.
(** A number that orders the floats other than NaN: class, exponent, mantissa *)
Definition fkey (x : spec_float) : Z * Z * Z :=
  match x with
  | S754_zero _ => (0, 0, 0) | S754_nan => (0, 0, 0)
  | S754_infinity s => (if s then -2 else 2, 0, 0)
  | S754_finite true m e => (-1, - e, - Z.pos m)
  | S754_finite false m e => (1, e, Z.pos m)
  end.
Definition klt (a b : Z * Z * Z) : Prop :=
  let '(a1, a2, a3) := a in let '(b1, b2, b3) := b in a1 < b1 \/ a1 = b1 /\ (a2 < b2 \/ a2 = b2 /\ a3 < b3).
Lemma ltb_key : forall x y, f_nan x = false -> f_nan y = false -> SFltb x y = true <-> klt (fkey x) (fkey y).
Proof.
  intros x y Nx Ny. unfold SFltb.
  destruct x as [s|s| |s m e], y as [t|t| |t n f]; try discriminate; cbn;
    try (destruct s); try (destruct t); cbn; try (split; [discriminate|lia]); try (split; [lia|reflexivity]).
  - change (Pos.compare_cont Eq m n) with (m ?= n)%positive. destruct (Z.compare_spec e f) as [E|E|E].
    + destruct (Pos.compare_spec m n) as [G|G|G]; cbn; split; try discriminate; try reflexivity; intros; lia.
    + split; [discriminate|lia].
    + split; [lia|reflexivity].
  - change (Pos.compare_cont Eq m n) with (m ?= n)%positive. destruct (Z.compare_spec e f) as [E|E|E].
    + destruct (Pos.compare_spec m n) as [G|G|G]; cbn; split; try discriminate; try reflexivity; intros; lia.
    + split; [lia|reflexivity].
    + split; [discriminate|lia].
Qed.
Lemma klt_trans : forall a b c, klt a b -> klt b c -> klt a c.
Proof. intros [[a1 a2] a3] [[b1 b2] b3] [[c1 c2] c3]. unfold klt. lia. Qed.
Lemma klt_neg_trans : forall a b c, klt a c -> klt a b \/ klt b c.
Proof. intros [[a1 a2] a3] [[b1 b2] b3] [[c1 c2] c3]. unfold klt. lia. Qed.
Lemma ltb_trans : forall x y z, SFltb x y = true -> SFltb y z = true -> SFltb x z = true.
Proof.
  intros x y z A B.
  assert (N : forall u v, SFltb u v = true -> f_nan u = false /\ f_nan v = false).
  { intros u v E. destruct u as [s|s| |s m e], v as [t|t| |t n f]; split; try reflexivity; discriminate E || (destruct s; discriminate E) || idtac. }
  destruct (N _ _ A) as [Nx Ny]. destruct (N _ _ B) as [_ Nz].
  apply ltb_key in A; [|assumption..]. apply ltb_key in B; [|assumption..]. apply ltb_key; [assumption..|]. eapply klt_trans; eassumption.
Qed.
Lemma ltb_neg_trans : forall x y z, f_nan y = false -> SFltb x z = true -> SFltb x y = true \/ SFltb y z = true.
Proof.
  intros x y z Ny A.
  assert (N : f_nan x = false /\ f_nan z = false).
  { destruct x as [s|s| |s m e], z as [t|t| |t n f]; split; try reflexivity; discriminate A || (destruct s; discriminate A) || idtac. }
  destruct N as [Nx Nz]. apply ltb_key in A; [|assumption..]. destruct (klt_neg_trans _ (fkey y) _ A) as [B|B]; [left|right]; apply ltb_key; assumption.
Qed.

(** ** Classes of rounded results *)
Definition cls (s : bool) (x : spec_float) : Prop := match x with S754_zero t | S754_infinity t | S754_finite t _ _ => t = s | S754_nan => False end.
Lemma shr1_nonneg : forall r, 0 <= shr_m r -> 0 <= shr_m (shr_1 r).
Proof. intros [m r s] H. cbn in *. destruct m as [|[p|p|]|[p|p|]]; cbn; lia. Qed.
Lemma shr_nonneg : forall r e n, 0 <= shr_m r -> 0 <= shr_m (fst (shr r e n)).
Proof.
  intros r e n H. destruct n as [|p|p]; cbn; try exact H. rewrite iter_pos_nat. revert r H. induction (Pos.to_nat p) as [|k IH]; intros r H; cbn [iter_n]; [exact H|].
  apply IH. now apply shr1_nonneg.
Qed.
Lemma shr_fexp_nonneg : forall prec emax m e l, 0 <= m -> 0 <= shr_m (fst (shr_fexp prec emax m e l)).
Proof. intros prec emax m e l H. unfold shr_fexp. apply shr_nonneg. destruct l as [|[| |]]; cbn; exact H. Qed.
Lemma aux_cls : forall prec emax s m e l, 0 <= m -> cls s (binary_round_aux prec emax s m e l).
Proof.
  intros prec emax s m e l H. unfold binary_round_aux. pose proof (shr_fexp_nonneg prec emax m e l H) as H1.
  destruct (shr_fexp prec emax m e l) as [r1 e1]. cbn [fst] in H1.
  assert (H2 : 0 <= round_nearest_even (shr_m r1) (loc_of_shr_record r1)).
  { unfold round_nearest_even. destruct (loc_of_shr_record r1) as [|[| |]]; try lia. destruct (Z.even (shr_m r1)); lia. }
  pose proof (shr_fexp_nonneg prec emax _ e1 loc_Exact H2) as H3.
  destruct (shr_fexp prec emax (round_nearest_even (shr_m r1) (loc_of_shr_record r1)) e1 loc_Exact) as [r2 e2]. cbn [fst] in H3.
  destruct (shr_m r2) as [|p|p]; [reflexivity| |lia]. destruct (e2 <=? emax - prec); reflexivity.
Qed.
Lemma round_cls : forall prec emax s m e, cls s (binary_round prec emax s m e).
Proof. intros. unfold binary_round. destruct (shl_align m e _) as [mz ez]. apply aux_cls. lia. Qed.

Section Format.
  Variables prec emax : Z.
  Hypothesis F : format prec emax.
  Local Notation N := (num_sf prec emax).
  Local Notation "0f" := (binary_normalize prec emax 0 0 false).
  Local Notation "1f" := (binary_normalize prec emax 1 0 false).

  Lemma add_pos : forall x y, cls false x -> cls false y -> cls false (SFadd prec emax x y).
  Proof.
    intros [s|s| |s m e] [t|t| |t n f]; cbn; intros; subst; try reflexivity; try contradiction.
    cbn [binary_normalize]. apply round_cls.
  Qed.
  Lemma add_inf_r : forall x, cls false x -> SFadd prec emax x f_inf = f_inf.
  Proof. intros [s|s| |s m e]; cbn; intros; subst; try reflexivity; contradiction. Qed.
  Lemma add_inf_l : forall x, cls false x -> SFadd prec emax f_inf x = f_inf.
  Proof. intros [s|s| |s m e]; cbn; intros; subst; try reflexivity; contradiction. Qed.
  Lemma square_pos : forall x, f_nan x = false -> cls false (SFmul prec emax x x).
  Proof. intros [s|s| |s m e] Hn; try discriminate; cbn; rewrite ?xorb_nilpotent; try reflexivity. apply aux_cls. lia. Qed.

  (** ** Sums of integers *)
  Lemma int_valid : forall c, Z.abs c <= 2 ^ prec -> valid_binary prec emax (binary_normalize prec emax c 0 false) = true.
  Proof.
    intros c Hc. destruct (Z.eq_dec c 0) as [->|Nc]; [reflexivity|]. destruct (int_shape prec emax F c Hc Nc) as [m [e [-> [C [L1 [L2 _]]]]]].
    cbn [valid_binary]. apply bounded_canon. split; [exact C|]. pose proof (emax_gt _ _ F). lia.
  Qed.

  Lemma sum_from : forall l c, Z.abs c + fold_right (fun z a => Z.abs z + a) 0 l <= 2 ^ prec ->
    fold_left (SFadd prec emax) (map (fun z => binary_normalize prec emax z 0 false) l) (binary_normalize prec emax c 0 false) =
    binary_normalize prec emax (c + fold_right Z.add 0 l) 0 false.
  Proof.
    induction l as [|z l IH]; intros c Hb; cbn [map fold_left fold_right] in *; [now rewrite Z.add_0_r|].
    assert (P : 0 <= fold_right (fun z a => Z.abs z + a) 0 l) by (clear; induction l; cbn; lia).
    rewrite (add_int prec emax F) by lia. rewrite IH by lia. f_equal. lia.
  Qed.
  Lemma integer_sum : forall l, fold_right (fun z a => Z.abs z + a) 0 l <= 2 ^ prec ->
    @nsum _ N (map (@nZ _ N) l) = @nZ _ N (fold_right Z.add 0 l).
  Proof. intros l Hb. exact (sum_from l 0 Hb). Qed.

  Lemma count_from : forall n c, 0 <= c -> c <= 2 ^ prec ->
    fold_left (SFadd prec emax) (repeat 1f n) (binary_normalize prec emax c 0 false) = binary_normalize prec emax (Z.min (c + Z.of_nat n) (2 ^ prec)) 0 false.
  Proof.
    pose proof (prec_ge _ _ F) as Hp. assert (P : 2 ^ 2 <= 2 ^ prec) by (apply Z.pow_le_mono_r; lia). change (2 ^ 2) with 4 in P.
    induction n as [|n IH]; intros c H0 Hc; cbn [repeat fold_left]; [f_equal; lia|].
    destruct (Z.eq_dec c (2 ^ prec)) as [->|Ne].
    - rewrite (add_tie prec emax F). rewrite IH by lia. f_equal. lia.
    - rewrite (add_int prec emax F) by lia. rewrite IH by lia. f_equal. lia.
  Qed.
  Lemma count : forall n, @nsum _ N (repeat (@nZ _ N 1) n) = @nZ _ N (Z.min (Z.of_nat n) (2 ^ prec)).
  Proof. intro n. pose proof (Z.pow_nonneg 2 prec). exact (count_from n 0 ltac:(lia) ltac:(lia)). Qed.

  (** *** The kernel of reduce_sum *)
  Lemma vadd_one : forall acc row, Forall (fun y => valid_binary prec emax y = true) row ->
    @vec_add _ N acc row (@nZ _ N 1) = vmap2 (SFadd prec emax) acc row.
  Proof.
    intros acc row. revert acc. induction row as [|y row IH]; intros [|a acc] V; try reflexivity. inversion V; subst.
    unfold vec_add, vmap2 in *. cbn [combine map fst snd]. rewrite IH by assumption. f_equal. cbn [nadd nmul nZ num_sf]. now rewrite (one_mul _ _ F).
  Qed.
  Lemma add_rows_ones : forall n k c rest, 0 <= c -> c <= 2 ^ prec ->
    @add_rows _ N (@nZ _ N 1) n (repeat (@nZ _ N c) k) (repeat (repeat (@nZ _ N 1) k) n ++ rest) = Ok (repeat (@nZ _ N (Z.min (c + Z.of_nat n) (2 ^ prec))) k, rest).
  Proof.
    pose proof (prec_ge _ _ F) as Hp. assert (P : 2 ^ 2 <= 2 ^ prec) by (apply Z.pow_le_mono_r; lia). change (2 ^ 2) with 4 in P.
    induction n as [|n IH]; intros k c rest H0 Hc; cbn [add_rows repeat app]; [replace (Z.min (c + Z.of_nat 0) (2 ^ prec)) with c by lia; reflexivity|].
    rewrite vadd_one by (apply Forall_forall; intros y Hy; apply repeat_spec in Hy; subst; apply int_valid; lia).
    assert (E : vmap2 (SFadd prec emax) (repeat (@nZ _ N c) k) (repeat (@nZ _ N 1) k) = repeat (@nZ _ N (Z.min (c + 1) (2 ^ prec))) k).
    { assert (E1 : SFadd prec emax (@nZ _ N c) (@nZ _ N 1) = @nZ _ N (Z.min (c + 1) (2 ^ prec))).
      { cbn [nZ num_sf]. destruct (Z.eq_dec c (2 ^ prec)) as [->|Ne]; [rewrite (add_tie prec emax F)|rewrite (add_int prec emax F) by lia]; f_equal; lia. }
      unfold vmap2. induction k as [|k IHk]; [reflexivity|]. cbn [repeat combine map fst snd]. now rewrite E1, IHk. }
    rewrite E, IH by lia. replace (Z.min (Z.min (c + 1) (2 ^ prec) + Z.of_nat n) (2 ^ prec)) with (Z.min (c + Z.of_nat (S n)) (2 ^ prec)) by lia. reflexivity.
  Qed.
  Lemma reduce_sum_ones : forall n k, (0 < n)%nat -> (0 < k)%nat ->
    @np_reduce_sum _ N (mkM k (repeat (repeat (@nZ _ N 1) k) n)) [Z.of_nat n] = Ok (mkM k [repeat (@nZ _ N (Z.min (Z.of_nat n) (2 ^ prec))) k]).
  Proof.
    intros n k Hn Hk. unfold np_reduce_sum, np_reduce. cbn [length m_cols m_rows].
    destruct k as [|k']; [lia|]. cbn [Nat.eqb orb]. set (k := S k'). destruct (repeat (repeat (@nZ _ N 1) k) n) as [|r0 rs] eqn:Er; [destruct n; [lia|discriminate]|].
    rewrite <- Er. unfold m_len. cbn [m_rows cpu_reduce]. rewrite repeat_length. rewrite (proj2 (Z.ltb_ge (Z.of_nat n) 0)) by lia. rewrite Z.ltb_irrefl.
    rewrite Nat2Z.id. unfold zeros. rewrite <- (app_nil_r (repeat (repeat (@nZ _ N 1) k) n)) at 1. unfold scale1.
    pose proof (Z.pow_nonneg 2 prec). rewrite (add_rows_ones n k 0 []) by lia. cbn [bind fst snd]. reflexivity.
  Qed.

  (** ** relu *)
  Lemma relu_cpu : forall x, @cpu_relu _ N [x] = [if f_nan x then S754_nan else if @nltb _ N (@nZ _ N 0) x then x else S754_zero false].
  Proof. intros [s|s| |s m e]; try reflexivity; destruct s; reflexivity. Qed.
  Lemma cpu_relu_map : forall X, @cpu_relu _ N X = map (fun x => if f_nan x then S754_nan else if @nltb _ N (@nZ _ N 0) x then x else S754_zero false) X.
  Proof. intro X. apply map_ext. intro x. pose proof (relu_cpu x) as E. cbn [cpu_relu map] in E. now injection E. Qed.
  Lemma op_relu_elem : forall x, valid_binary prec emax x = true ->
    @nmul _ N x (if @nltb _ N (@nZ _ N 0) x then @nZ _ N 1 else @nZ _ N 0) =
    if f_nan x then S754_nan else if @nltb _ N (@nZ _ N 0) x then x else if f_finite x then S754_zero (f_sign x) else S754_nan.
  Proof.
    intros x V. destruct (@nltb _ N (@nZ _ N 0) x) eqn:E.
    - cbn [nmul nZ num_sf]. rewrite (mul_one _ _ F) by exact V. destruct x; try reflexivity; discriminate E.
    - destruct x as [s|s| |s m e]; cbn; try reflexivity; try now rewrite xorb_false_r.
  Qed.
  Lemma op_relu_map : forall O rows, Forall (Forall (fun x => valid_binary prec emax x = true)) rows ->
    @op_relu _ N (mkM O rows) = mkM O (map (map (fun x => if f_nan x then S754_nan else if @nltb _ N (@nZ _ N 0) x then x else if f_finite x then S754_zero (f_sign x) else S754_nan)) rows).
  Proof.
    intros O rows V. unfold op_relu, mmap. cbn [m_rows m_cols]. f_equal. apply map_ext_in. intros r Hr. apply map_ext_in. intros x Hx.
    rewrite Forall_forall in V. specialize (V r Hr). rewrite Forall_forall in V. apply op_relu_elem. now apply V.
  Qed.

  (** ** Clipping the gradient *)
  Lemma sum_pos : forall l a, cls false a -> Forall (cls false) l -> cls false (fold_left (SFadd prec emax) l a).
  Proof. induction l as [|x l IH]; intros a Ha Hl; cbn [fold_left]; [exact Ha|]. inversion Hl; subst. apply IH; [now apply add_pos|assumption]. Qed.
  Lemma sum_inf : forall l a, cls false a -> Forall (cls false) l -> a = f_inf \/ In f_inf l -> fold_left (SFadd prec emax) l a = f_inf.
  Proof.
    induction l as [|x l IH]; intros a Ha Hl Hi; cbn [fold_left]; [destruct Hi as [->|[]]; reflexivity|]. inversion Hl; subst.
    apply IH; [now apply add_pos|assumption|]. destruct Hi as [->|[->|Hi]]; [left; now apply add_inf_l|left; now apply add_inf_r|right; exact Hi].
  Qed.
  Lemma norm_overflow : forall g, forallb (fun x => negb (f_nan x)) g = true -> existsb (fun x => @neqb _ N (@nmul _ N x x) f_inf) g = true -> @fnorm _ N g = f_inf.
  Proof.
    intros g Nn Ex. unfold fnorm, nsum. rewrite forallb_forall in Nn. rewrite existsb_exists in Ex. destruct Ex as [x [Hx Ex]].
    assert (E : fold_left (@nadd _ N) (map (fun x => @nmul _ N x x) g) (@nZ _ N 0) = f_inf).
    { apply sum_inf; [reflexivity| |right].
      - apply Forall_forall. intros y Hy. apply in_map_iff in Hy. destruct Hy as [z [<- Hz]]. apply square_pos. specialize (Nn z Hz). now destruct (f_nan z).
      - apply in_map_iff. exists x. split; [|exact Hx]. cbn [neqb num_sf nmul] in *. destruct (SFmul prec emax x x) as [s|s| |s m e]; try discriminate Ex. destruct s; [discriminate Ex|reflexivity]. }
    rewrite E. reflexivity.
  Qed.
  Lemma clip_overflow : forall g t, forallb (fun x => negb (f_nan x)) g = true -> existsb (fun x => @neqb _ N (@nmul _ N x x) f_inf) g = true -> f_pos t = true ->
    @fclip_gradient _ N g t = map (fun x => if f_finite x then S754_zero (f_sign x) else S754_nan) g.
  Proof.
    intros g t Nn Ex Ht. unfold fclip_gradient. rewrite (norm_overflow g Nn Ex). destruct t as [s|s| |s m e]; try discriminate Ht. destruct s; [discriminate Ht|].
    cbn [fle nltb neqb num_sf SFltb SFeqb SFcompare orb f_inf]. apply map_ext_in. intros x Hx. cbn.
    destruct x as [t|t| |t n f]; cbn; try reflexivity; now rewrite xorb_false_r.
  Qed.
  Lemma sum_nan : forall l a, a = S754_nan \/ In S754_nan l -> fold_left (SFadd prec emax) l a = S754_nan.
  Proof.
    induction l as [|x l IH]; intros a Hi; cbn [fold_left]; [destruct Hi as [->|[]]; reflexivity|]. apply IH.
    destruct Hi as [->|[->|Hi]]; [left; reflexivity| |now right]. left. destruct a as [s|s| |s m e]; reflexivity.
  Qed.
  Lemma clip_nan : forall g t, In S754_nan g -> @fclip_gradient _ N g t = g.
  Proof.
    intros g t Hi. unfold fclip_gradient, fnorm, nsum.
    assert (E : fold_left (@nadd _ N) (map (fun x => @nmul _ N x x) g) (@nZ _ N 0) = S754_nan).
    { apply sum_nan. right. apply in_map_iff. now exists S754_nan. }
    rewrite E. cbn [nsqrt num_sf SFsqrt]. assert (L : @fle _ N t S754_nan = false) by (destruct t as [s|s| |s m e]; reflexivity).
    now rewrite L.
  Qed.

  (** ** Adam *)
  Lemma nth_vmap2 : forall (f : spec_float -> spec_float -> spec_float) a b i x y, nth_error a i = Some x -> nth_error b i = Some y -> nth_error (vmap2 f a b) i = Some (f x y).
  Proof.
    intros f a. induction a as [|u a IH]; intros [|v b] [|i] x y Ea Eb; cbn in *; try discriminate; [congruence|]. now apply IH.
  Qed.
  Lemma adam_frozen : forall weights gradient mom1 mom2 beta1 beta2 eps lr i w g m,
    nth_error weights i = Some w -> nth_error gradient i = Some g -> nth_error mom1 i = Some m -> nth_error mom2 i = Some f_inf ->
    f_pos beta2 = true -> f_pos (@nsub _ N (@nZ _ N 1) beta2) = true -> f_nan g = false -> f_finite eps = true -> f_finite lr = true ->
    f_finite (@nadd _ N (@nmul _ N m beta1) (@nmul _ N g (@nsub _ N (@nZ _ N 1) beta1))) = true -> f_finite w = true -> @neqb _ N w (@nZ _ N 0) = false ->
    let '(weights', _, _, mom2') := @base_adam _ N weights gradient mom1 mom2 beta1 beta2 eps lr in
    nth_error weights' i = Some w /\ nth_error mom2' i = Some f_inf.
  Proof.
    intros weights gradient mom1 mom2 beta1 beta2 eps lr i w g m Ew Eg Em1 Em2 B2 B2' Ng Fe Fl Fm Fw Zw. unfold base_adam, ops_adam.
    set (q := @nsub _ N (@nZ _ N 1) beta2) in *.
    assert (M2 : nth_error (vmap2 (fun m g => @nadd _ N m (@nmul _ N (@nmul _ N g g) q)) (map (fun m => @nmul _ N m beta2) mom2) gradient) i = Some f_inf).
    { rewrite (nth_vmap2 _ _ _ i (@nmul _ N f_inf beta2) g); [|now rewrite nth_error_map, Em2|exact Eg]. f_equal.
      assert (E1 : @nmul _ N f_inf beta2 = f_inf) by (destruct beta2 as [[]|[]| |[] ? ?]; try discriminate B2; reflexivity). rewrite E1. apply add_inf_l.
      pose proof (square_pos g Ng) as Sq. cbn [nmul num_sf] in *. destruct q as [[]|[]| |[] qm qe]; try discriminate B2'.
      destruct (SFmul prec emax g g) as [s|s| |s a b]; cbn in Sq; subst; try contradiction; cbn; try reflexivity. apply aux_cls. lia. }
    split; [|exact M2].
    set (m1 := @nadd _ N (@nmul _ N m beta1) (@nmul _ N g (@nsub _ N (@nZ _ N 1) beta1))) in *.
    assert (M1 : nth_error (vmap2 (fun m g => @nadd _ N m (@nmul _ N g (@nsub _ N (@nZ _ N 1) beta1))) (map (fun m => @nmul _ N m beta1) mom1) gradient) i = Some m1).
    { rewrite (nth_vmap2 _ _ _ i (@nmul _ N m beta1) g); [reflexivity|now rewrite nth_error_map, Em1|exact Eg]. }
    rewrite (nth_vmap2 _ _ _ i w (@ndiv _ N m1 (@nadd _ N (@nmul _ N (@nZ _ N 1) (@nsqrt _ N f_inf)) eps))); [|exact Ew|exact (nth_vmap2 (fun m1 m2 => @ndiv _ N m1 (@nadd _ N (@nmul _ N (@nZ _ N 1) (@nsqrt _ N m2)) eps)) _ _ i m1 f_inf M1 M2)].
    f_equal.
    assert (D : @nadd _ N (@nmul _ N (@nZ _ N 1) (@nsqrt _ N f_inf)) eps = f_inf).
    { cbn [nadd nmul nZ nsqrt num_sf SFsqrt f_inf]. rewrite (one_eq _ _ F). destruct eps as [s|s| |s a b]; try discriminate Fe; reflexivity. }
    rewrite D. destruct m1 as [s|s| |s a b]; try discriminate Fm; destruct lr as [l|l| |l c d]; try discriminate Fl; destruct w as [t|t| |t u v]; try discriminate Fw; try discriminate Zw; cbn; reflexivity.
  Qed.
  Lemma adam_poison : forall weights gradient mom1 mom2 beta1 beta2 eps lr i g m2,
    nth_error gradient i = Some g -> nth_error mom2 i = Some m2 -> f_finite m2 = true -> f_sign m2 = false -> f_pos beta2 = true ->
    f_pos (@nsub _ N (@nZ _ N 1) beta2) = true -> @nmul _ N g g = f_inf ->
    nth_error (snd (@base_adam _ N weights gradient mom1 mom2 beta1 beta2 eps lr)) i = Some f_inf.
  Proof.
    intros weights gradient mom1 mom2 beta1 beta2 eps lr i g m2 Eg Em2 Fm Sm B2 B2' Eq. unfold base_adam, ops_adam. cbn [snd].
    rewrite (nth_vmap2 _ _ _ i (@nmul _ N m2 beta2) g); [|now rewrite nth_error_map, Em2|exact Eg]. f_equal. rewrite Eq.
    set (q := @nsub _ N (@nZ _ N 1) beta2) in *.
    assert (E1 : @nmul _ N f_inf q = f_inf) by (destruct q as [[]|[]| |[] ? ?]; try discriminate B2'; reflexivity). rewrite E1. apply add_inf_r.
    destruct beta2 as [[]|[]| |[] bm be]; try discriminate B2. destruct m2 as [s|s| |s a b]; try discriminate Fm; cbn in Sm; subst; cbn; try reflexivity. apply aux_cls. lia.
  Qed.
End Format.
