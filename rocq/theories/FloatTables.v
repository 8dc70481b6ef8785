(** Floating point: the statements of C83 from the lemmas about single elements. *)
From Coq Require Import ZArith Lia Bool List.
From Verif Require Import FloatModel FloatSpec FloatFacts DenseModel KernelModel ReduceModel CudaActModel OptModel ScalerModel BaseFacts FloatProofs FloatMaxProofs.
From Coq.Floats Require Import SpecFloat.
Set Default Goal Selector "!".
Import ListNotations.
Local Open Scope Z_scope.

Lemma no_nan_forallb : forall l, no_nan l -> forallb (fun x => negb (f_nan x)) l = true.
Proof. intros l H. apply forallb_forall. intros x Hx. specialize (H x Hx). destruct x; [reflexivity|reflexivity|contradiction|reflexivity]. Qed.

Lemma zero_ltb : forall prec emax x, @nltb _ (num_sf prec emax) (@nZ _ (num_sf prec emax) 0) x = positive_f x.
Proof. intros prec emax [s|s| |s m e]; try reflexivity; destruct s; reflexivity. Qed.

Lemma relu_numpy : forall prec emax X, @cpu_relu _ (num_sf prec emax) X = map (fun x => if positive_f x then x else match x with S754_nan => S754_nan | _ => S754_zero false end) X.
Proof.
  intros prec emax X. rewrite cpu_relu_map. apply map_ext. intro x. rewrite zero_ltb. destruct x as [s|s| |s m e]; reflexivity.
Qed.
Lemma relu_xp : forall prec emax, format prec emax -> forall X, all_valid prec emax X ->
  @cupy_relu _ (num_sf prec emax) X = map (fun x => if positive_f x then x else times_zero x) X.
Proof.
  intros prec emax F X V. unfold cupy_relu. apply map_ext_in. intros x Hx. rewrite (op_relu_elem prec emax F) by now apply V. rewrite zero_ltb.
  destruct x as [s|s| |s m e]; try reflexivity; destruct s; reflexivity.
Qed.
Lemma relu_rows : forall prec emax, format prec emax -> forall O rows, Forall (all_valid prec emax) rows ->
  @op_relu _ (num_sf prec emax) (mkM O rows) = mkM O (map (map (fun x => if positive_f x then x else times_zero x)) rows).
Proof.
  intros prec emax F O rows V. unfold op_relu, mmap. cbn [m_rows m_cols]. f_equal. apply map_ext_in. intros r Hr. rewrite Forall_forall in V. exact (relu_xp prec emax F r (V r Hr)).
Qed.
Lemma relu_agree : forall prec emax, format prec emax -> forall X, all_valid prec emax X -> (forall x, In x X -> x <> S754_infinity true) ->
  Forall2 (fun a b => @neqb _ (num_sf prec emax) a b = true \/ a = S754_nan /\ b = S754_nan) (@cpu_relu _ (num_sf prec emax) X) (@cupy_relu _ (num_sf prec emax) X).
Proof.
  intros prec emax F X V Ni. rewrite relu_numpy, (relu_xp prec emax F) by exact V. clear V.
  assert (R : forall m e, SFeqb (S754_finite false m e) (S754_finite false m e) = true).
  { intros m e. unfold SFeqb. cbn. rewrite Z.compare_refl. change (Pos.compare_cont Eq m m) with (m ?= m)%positive. now rewrite Pos.compare_refl. }
  induction X as [|x X IH]; cbn [map]; constructor.
  - destruct x as [s|s| |s m e]; [left; now destruct s| |right; split; reflexivity|].
    + destruct s; [|left; reflexivity]. exfalso. apply (Ni (S754_infinity true)); [now left|reflexivity].
    + left. destruct s; [reflexivity|apply R].
  - apply IH. intros y Hy. apply Ni. now right.
Qed.
Lemma backprop_numpy : forall prec emax dY Y, @cpu_backprop_relu _ (num_sf prec emax) dY Y =
  map (fun p => if f_nan (snd p) || positive_f (snd p) then fst p else S754_zero false) (combine dY Y).
Proof.
  intros prec emax dY Y. unfold cpu_backprop_relu, vmap2. apply map_ext. intros [d y]. cbn [fst snd]. pose proof (cpu_backprop_relu_elem prec emax d y) as E.
  rewrite zero_ltb in E. unfold cpu_backprop_relu, vmap2 in E. cbn [combine map fst snd] in E. now injection E.
Qed.
Lemma backprop_xp : forall prec emax, format prec emax -> forall dY Y, all_valid prec emax dY -> length dY = length Y ->
  @cupy_backprop_relu _ (num_sf prec emax) dY Y = Ok (map (fun p => if positive_f (snd p) then fst p else times_zero (fst p)) (combine dY Y)).
Proof.
  intros prec emax F dY Y V L. unfold cupy_backprop_relu. rewrite L, Nat.eqb_refl. f_equal. unfold vmap2. apply map_ext_in. intros [d y] Hp. cbn [fst snd].
  rewrite (op_backprop_relu_elem prec emax F) by (apply V; eapply in_combine_l; exact Hp). rewrite zero_ltb. destruct (positive_f y); [reflexivity|]. now destruct d.
Qed.

Lemma clip_zero : forall prec emax g t, no_nan g -> (exists x, In x g /\ @nmul _ (num_sf prec emax) x x = f_inf) -> f_pos t = true ->
  @fclip_gradient _ (num_sf prec emax) g t = map times_zero g.
Proof.
  intros prec emax g t Nn [x [Hx Ex]] Ht. rewrite clip_overflow; [|now apply no_nan_forallb| |exact Ht].
  - apply map_ext. intros [s|s| |s m e]; reflexivity.
  - apply existsb_exists. exists x. split; [exact Hx|]. now rewrite Ex.
Qed.

Lemma maxout_ok : forall prec emax P l, no_nan l -> length l = P -> (0 < P)%nat ->
  exists v i, @maxout_cell _ (num_sf prec emax) P l = Ok (v, i) /\ 0 <= i < Z.of_nat P /\ nth_error l (Z.to_nat i) = Some v /\
  (forall x, In x l -> SFltb v x = false) /\ (forall j x, (j < Z.to_nat i)%nat -> nth_error l j = Some x -> SFltb x v = true).
Proof. intros prec emax P l Nn. apply maxout_spec. now apply no_nan_forallb. Qed.

Lemma clip_ok : forall prec emax lo hi x, no_nan [lo; hi; x] -> SFltb hi lo = false ->
  SFltb (@clip _ (num_sf prec emax) lo hi x) lo = false /\ SFltb hi (@clip _ (num_sf prec emax) lo hi x) = false /\
  (SFltb x lo = false -> SFltb hi x = false -> @clip _ (num_sf prec emax) lo hi x = x).
Proof.
  intros prec emax lo hi x Nn Le.
  assert (K : forall y, In y [lo; hi; x] -> f_nan y = false) by (intros y Hy; specialize (Nn y Hy); now destruct y).
  apply (clip_range prec emax); [apply K; cbn; tauto..|exact Le].
Qed.

(** ** Refutations *)
Lemma relu_refuted : ~ forall X, all_valid 24 128 X -> map f_nan (@cpu_relu _ f32 X) = map f_nan (@cupy_relu _ f32 X).
Proof. intro H. specialize (H [S754_infinity true]). discriminate H. intros x [<-|[]]. reflexivity. Qed.

Lemma clip_refuted : ~ forall g t, (forall x, In x g -> f_finite x = true) -> f_pos t = true -> (exists x, In x g /\ @neqb _ f32 x (@nZ _ f32 0) = false) ->
  exists x, In x (@fclip_gradient _ f32 g t) /\ @neqb _ f32 x (@nZ _ f32 0) = false.
Proof.
  intro H. destruct (H [@nZ _ f32 (10 ^ 20)] (@nZ _ f32 1)) as [x [Hx Ex]].
  - intros x [<-|[]]. reflexivity.
  - reflexivity.
  - eexists. split; [now left|]. reflexivity.
  - vm_compute in Hx. destruct Hx as [<-|[]]. discriminate Ex.
Qed.

Lemma mean_refuted : ~ forall n, (0 < n)%nat -> @np_reduce_mean _ f32 (mkM 1 (repeat [@nZ _ f32 1] n)) [Z.of_nat n] = Ok (mkM 1 [[@nZ _ f32 1]]).
Proof. intro H. specialize (H 10%nat ltac:(lia)). vm_compute in H. discriminate H. Qed.
Lemma mean_op_ten : @op_reduce_mean _ f32 (mkM 1 (repeat [@nZ _ f32 1] 10)) [10] = Ok (mkM 1 [[@nZ _ f32 1]]).
Proof. vm_compute. reflexivity. Qed.

Lemma maxout_refuted : ~ forall P l v i, length l = P -> @maxout_cell _ f32 P l = Ok (v, i) -> v = S754_nan \/ forall x, In x l -> @nltb _ f32 v x = false.
Proof.
  intro H. destruct (H 3%nat [@nZ _ f32 1; S754_nan; @nZ _ f32 100] (@nZ _ f32 1) 0 eq_refl) as [E|E].
  - vm_compute. reflexivity.
  - vm_compute in E. discriminate E.
  - specialize (E (@nZ _ f32 100)). assert (K : In (@nZ _ f32 100) [@nZ _ f32 1; S754_nan; @nZ _ f32 100]) by (right; right; now left). specialize (E K). vm_compute in E. discriminate E.
Qed.
