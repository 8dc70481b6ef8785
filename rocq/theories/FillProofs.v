(** Proofs about initializers. *)
From Coq Require Import Reals Lra Lia.
From Verif Require Import FillSpec BaseFacts.
Set Default Goal Selector "!".
Local Open Scope R_scope.

Lemma draws_length {T G} (step : G -> G * T) : forall n g, length (snd (draws step n g)) = n.
Proof. induction n as [|n IH]; intro g; cbn [draws]; [reflexivity|]. destruct (step g) as [g1 z]. specialize (IH g1). destruct (draws step n g1) as [g2 l]. cbn in *. rewrite IH. reflexivity. Qed.
Lemma draws_forall {T G} (P : T -> Prop) (step : G -> G * T) : (forall g, P (snd (step g))) -> forall n g, Forall P (snd (draws step n g)).
Proof.
  intro Hs. induction n as [|n IH]; intro g; cbn [draws]; [constructor|]. pose proof (Hs g) as Hg. destruct (step g) as [g1 z]. specialize (IH g1). destruct (draws step n g1) as [g2 l]. constructor; [exact Hg | exact IH].
Qed.

Section Fill.
  Context {G : Type} (gauss unit_draw : G -> G * R).
  Definition fan (s : scheme) (a b : nat) : nat := match s with Glorot => b + a | _ => b end.
  Definition numer (s : scheme) : R := match s with Lecun => 1 | _ => 2 end.
  Lemma variance_fan : forall s a b, variance s (INR b) (INR a) = numer s / INR (fan s a b).
  Proof. intros [] a b; cbn; rewrite ?plus_INR; reflexivity. Qed.
  Lemma variance_pos : forall s a b, fan s a b <> 0%nat -> 0 < variance s (INR b) (INR a).
  Proof. intros s a b Hf. rewrite variance_fan. apply Rmult_lt_0_compat; [destruct s; cbn; lra|]. apply Rinv_0_lt_compat. apply lt_0_INR. lia. Qed.
  Definition sd (l : law) (s : scheme) (a b : nat) : R := sqrt ((match l with Normal => 1 | Uniform => 3 end) * variance s (INR b) (INR a)).

  Lemma root_ok c n : n <> 0%nat -> root (T := R) c n = Ok (sqrt (IZR c / INR n)).
  Proof. intro Hn. unfold root. apply Nat.eqb_neq in Hn. rewrite Hn. unfold nnat. cbn [nZ num_R nsqrt ndiv]. rewrite <- INR_IZR_INZ. reflexivity. Qed.
  Definition drawn (l : law) : G -> G * R := match l with Normal => gauss | Uniform => unit_draw end.
  Definition scaled (l : law) (s : R) (z : R) : R := match l with Normal => 0 + s * z | Uniform => - s + (s - - s) * z end.
  Lemma init_ok : forall s l a b rest g, fan s a b <> 0%nat ->
    initializer gauss unit_draw s l (a :: b :: rest) g =
    (fst (draws (drawn l) (size (a :: b :: rest)) g), Ok (a :: b :: rest, map (scaled l (sd l s a b)) (snd (draws (drawn l) (size (a :: b :: rest)) g)))).
  Proof.
    intros s l a b rest g Hf. set (sh := a :: b :: rest).
    assert (Hn : forall x, normal gauss 0 (sqrt x) sh g = (fst (draws gauss (size sh) g), Ok (sh, map (fun z => 0 + sqrt x * z) (snd (draws gauss (size sh) g))))).
    { intro x. unfold normal. cbn [nltb num_R nZ]. destruct (Rlt_dec (sqrt x) 0) as [Hlt|_]; [pose proof (sqrt_pos x); lra|]. destruct (draws gauss (size sh) g). reflexivity. }
    assert (Hu : forall x, uniform unit_draw (- x) x sh g = (fst (draws unit_draw (size sh) g), Ok (sh, map (fun z => - x + (x - - x) * z) (snd (draws unit_draw (size sh) g))))).
    { intro x. unfold uniform. destruct (draws unit_draw (size sh) g). reflexivity. }
    unfold sd. rewrite variance_fan. destruct l, s; cbn [initializer drawn numer fan] in *;
      unfold lecun_normal_init, he_normal_init, glorot_normal_init, lecun_uniform_init, he_uniform_init, glorot_uniform_init, with_scale, sh; cbn [py_get nth_error bind];
      (rewrite root_ok by lia); fold sh; cbn [nZ num_R nopp]; rewrite ?Hn, ?Hu; unfold scaled; rewrite ?(Nat.add_comm a b);
      repeat match goal with |- context [sqrt ?x] => lazymatch goal with H : x = _ |- _ => fail | _ => idtac end end;
      match goal with |- (_, Ok (_, map ?f ?l)) = (_, Ok (_, map ?f' ?l)) => replace f with f' end; try reflexivity;
      match goal with |- context [sqrt (?c * (?x / ?y))] => replace (c * (x / y)) with (c * x / y) by (unfold Rdiv; ring) end;
      match goal with |- context [sqrt (?c * ?x / _)] => let v := eval compute in c in first [replace (c * x) with 1 by lra | replace (c * x) with 2 by lra | replace (c * x) with 3 by lra | replace (c * x) with 6 by lra] end; reflexivity.
  Qed.

  Lemma init_shapes : forall s l shape g,
    match shape with
    | a :: b :: _ =>
        if Nat.eqb (match s with Glorot => b + a | _ => b end) 0 then initializer gauss unit_draw s l shape g = (g, Err ZeroDivisionError)
        else exists g' data, initializer gauss unit_draw s l shape g = (g', Ok (shape, data)) /\ length data = size shape
    | _ => initializer gauss unit_draw s l shape g = (g, Err IndexError)
    end.
  Proof.
    intros s l [|a [|b rest]] g; [destruct s, l; reflexivity | destruct s, l; reflexivity|]. destruct (Nat.eqb _ 0) eqn:Ef.
    - apply Nat.eqb_eq in Ef. destruct s, l; cbn; unfold lecun_normal_init, he_normal_init, glorot_normal_init, lecun_uniform_init, he_uniform_init, glorot_uniform_init, with_scale, root; cbn [py_get nth_error bind]; rewrite ?(Nat.add_comm a b), Ef; reflexivity.
    - apply Nat.eqb_neq in Ef. do 2 eexists. split; [apply init_ok; exact Ef|]. rewrite map_length. apply draws_length.
  Qed.

  Lemma uniform_bounds : forall s shape g g' data, (forall g, 0 <= snd (unit_draw g) < 1) -> initializer gauss unit_draw s Uniform shape g = (g', Ok (shape, data)) ->
    match shape with a :: b :: _ => Forall (fun v => v * v <= 3 * variance s (INR b) (INR a)) data | _ => False end.
  Proof.
    intros s shape g g' data Hu E. pose proof (init_shapes s Uniform shape g) as Hs. destruct shape as [|a [|b rest]]; [rewrite Hs in E; discriminate | rewrite Hs in E; discriminate|].
    destruct (Nat.eqb _ 0) eqn:Ef; [rewrite Hs in E; discriminate|]. apply Nat.eqb_neq in Ef. rewrite init_ok in E by exact Ef. injection E as _ <-.
    pose proof (variance_pos s a b Ef) as Hv. apply Forall_forall. intros v Hin. apply in_map_iff in Hin. destruct Hin as [u [<- Hin]].
    pose proof (draws_forall (fun u => 0 <= u < 1) unit_draw Hu (size (a :: b :: rest)) g) as Hd. rewrite Forall_forall in Hd. specialize (Hd u Hin).
    unfold scaled, sd. set (q := 3 * variance s (INR b) (INR a)). assert (Hq : 0 <= q) by (unfold q; lra). pose proof (sqrt_sqrt q Hq) as Hsq. set (r := sqrt q) in *.
    replace ((- r + (r - - r) * u) * (- r + (r - - r) * u)) with (r * r * ((2 * u - 1) * (2 * u - 1))) by ring. rewrite Hsq. rewrite <- (Rmult_1_r q) at 2. apply Rmult_le_compat_l; [exact Hq | nra].
  Qed.

  (** Sums *)
  Notation sig l f := (fold_right Rplus 0 (map f l)).
  Lemma sig_ext {A} (l : list A) f g : (forall i, In i l -> f i = g i) -> sig l f = sig l g.
  Proof. intro Hfg. rewrite (map_ext_in f g); [reflexivity | exact Hfg]. Qed.
  Lemma sig_scale {A} (l : list A) c f : sig l (fun i => c * f i) = c * sig l f.
  Proof. induction l as [|i l IH]; cbn; [ring | rewrite IH; ring]. Qed.
  Lemma sig_square {A} (l : list A) f : sig l f * sig l f = sig l (fun i => sig l (fun j => f i * f j)).
  Proof. rewrite <- sig_scale. apply sig_ext. intros i _. rewrite sig_scale. ring. Qed.
  Lemma sig_delta : forall (l : list nat) i f, NoDup l -> In i l -> sig l (fun j => if Nat.eqb i j then f j else 0) = f i.
  Proof.
    induction l as [|k l IH]; intros i f Hnd Hin; [destruct Hin|]. cbn. inversion Hnd as [|? ? Hk Hl]; subst. destruct Hin as [-> | Hin].
    - rewrite Nat.eqb_refl. rewrite (sig_ext _ _ (fun _ => 0)).
      + clear. replace (sig l (fun _ => 0)) with 0; [ring|]. induction l as [|k l IHl]; cbn; [reflexivity | rewrite <- IHl; ring].
      + intros j Hj. destruct (Nat.eqb_spec i j) as [->|]; [contradiction | reflexivity].
    - destruct (Nat.eqb_spec i k) as [->|_]; [contradiction|]. rewrite IH by assumption. ring.
  Qed.
  Lemma E_sig {A} (E : (G -> R) -> R) (l : list A) (f : A -> G -> R) : expectation E -> E (fun g => sig l (fun i => f i g)) = sig l (fun i => E (f i)).
  Proof.
    intro HE. induction l as [|i l IH]; cbn.
    - rewrite (e_ext E HE _ (fun g => 0 * (fun _ : G => 0) g)) by (intro; ring). rewrite (e_scale E HE). ring.
    - rewrite (e_plus E HE). rewrite IH. reflexivity.
  Qed.
  Lemma squares_seq (x : list R) : squares x = sig (seq 0 (length x)) (fun i => nth i x 0 * nth i x 0).
  Proof.
    unfold squares. induction x as [|v x IH]; [reflexivity|]. cbn [map fold_right length seq]. rewrite IH. f_equal. rewrite <- seq_shift, map_map. reflexivity.
  Qed.

  Lemma init_variance : forall (E : (G -> R) -> R) s l a b rest k x,
    expectation E -> (match s with Glorot => b + a | _ => b end <> 0)%nat -> (k + length x <= size (a :: b :: rest))%nat ->
    match l with Normal => uncorrelated E gauss (size (a :: b :: rest)) 0 1 | Uniform => uncorrelated E unit_draw (size (a :: b :: rest)) (1 / 2) (1 / 12) end ->
    E (fun g => against k x (values (initializer gauss unit_draw s l (a :: b :: rest) g)) * against k x (values (initializer gauss unit_draw s l (a :: b :: rest) g))) = variance s (INR b) (INR a) * squares x.
  Proof.
    intros E s l a b rest k x HE Hf Hk Hun. set (sh := a :: b :: rest) in *. pose proof (variance_pos s a b Hf) as Hv. set (V := variance s (INR b) (INR a)) in *.
    set (mu := match l with Normal => 0 | Uniform => 1 / 2 end). set (va := match l with Normal => 1 | Uniform => 1 / 12 end). set (c := match l with Normal => sd l s a b | Uniform => 2 * sd l s a b end).
    assert (Hun' : uncorrelated E (drawn l) (size sh) mu va) by (unfold mu, va; destruct l; exact Hun).
    assert (Hc : c * c * va = V).
    { unfold c, va, sd. fold V. destruct l.
      - pose proof (sqrt_sqrt (1 * V) ltac:(lra)). nra.
      - pose proof (sqrt_sqrt (3 * V) ltac:(lra)). nra. }
    set (z := fun i g => nth i (snd (draws (drawn l) (size sh) g)) 0 - mu).
    assert (Ha : forall g, against k x (values (initializer gauss unit_draw s l sh g)) = sig (seq 0 (length x)) (fun i => nth i x 0 * c * z (k + i)%nat g)).
    { intro g. unfold against. apply sig_ext. intros i Hi. apply in_seq in Hi. pose proof (init_ok s l a b rest g Hf) as Hok. fold sh in Hok. rewrite Hok. unfold values. cbn [snd].
      rewrite (nth_indep (map _ _) 0 (scaled l (sd l s a b) 0)); [|rewrite map_length, draws_length; lia]. rewrite map_nth. unfold z, scaled, c, mu. destruct l; field. }
    rewrite (e_ext E HE _ (fun g => sig (seq 0 (length x)) (fun i => sig (seq 0 (length x)) (fun j => (nth i x 0 * c * (nth j x 0 * c)) * (z (k + i)%nat g * z (k + j)%nat g))))).
    - rewrite E_sig by exact HE. rewrite squares_seq, <- sig_scale. apply sig_ext. intros i Hi. rewrite E_sig by exact HE.
      rewrite (sig_ext _ _ (fun j => if Nat.eqb i j then nth i x 0 * c * (nth j x 0 * c) * va else 0)).
      + rewrite sig_delta; [|apply seq_NoDup | exact Hi]. rewrite <- Hc. ring.
      + intros j Hj. rewrite (e_scale E HE). apply in_seq in Hi, Hj. unfold z. rewrite (Hun' (k + i)%nat (k + j)%nat) by lia. replace (Nat.eqb (k + i) (k + j)) with (Nat.eqb i j); [destruct (Nat.eqb i j); ring|].
        destruct (Nat.eqb_spec i j), (Nat.eqb_spec (k + i) (k + j)); try reflexivity; lia.
    - intro g. rewrite Ha. rewrite sig_square. apply sig_ext. intros i _. apply sig_ext. intros j _. ring.
  Qed.

  Lemma uniform_init_ok : forall lo hi shape g, (forall g, 0 <= snd (unit_draw g) < 1) -> lo < hi ->
    exists g' data, uniform_init unit_draw lo hi shape g = (g', Ok (shape, data)) /\ length data = size shape /\ Forall (fun v => lo <= v < hi) data.
  Proof.
    intros lo hi shape g Hu Hlh. unfold uniform_init, uniform. pose proof (draws_forall (fun u => 0 <= u < 1) unit_draw Hu (size shape) g) as Hd. pose proof (draws_length unit_draw (size shape) g) as Hl.
    destruct (draws unit_draw (size shape) g) as [g' d]. do 2 eexists. split; [reflexivity|]. split; [rewrite map_length; exact Hl|]. cbn [snd] in Hd. apply Forall_forall. intros v Hin. apply in_map_iff in Hin. destruct Hin as [u [<- Hin]].
    rewrite Forall_forall in Hd. specialize (Hd u Hin). cbn. nra.
  Qed.
  Lemma normal_init_neg : forall mean shape g, mean < 0 -> normal_init gauss mean shape g = (g, Err ValueError).
  Proof. intros mean shape g Hm. unfold normal_init, normal. cbn. destruct (Rlt_dec mean 0); [reflexivity | contradiction]. Qed.
  Lemma normal_init_scale : forall mean shape g, 0 <= mean -> normal_init gauss mean shape g = (fst (draws gauss (size shape) g), Ok (shape, map (fun z => mean * z) (snd (draws gauss (size shape) g)))).
  Proof. intros mean shape g Hm. unfold normal_init, normal. cbn. destruct (Rlt_dec mean 0); [lra|]. destruct (draws gauss (size shape) g) as [g' d]. cbn. do 3 f_equal. apply map_ext. intro z. cbn. ring. Qed.
  Lemma normal_init_zero : forall shape g, exists g', normal_init gauss 0 shape g = (g', Ok (shape, repeat 0 (size shape))).
  Proof.
    intros shape g. eexists. rewrite normal_init_scale by lra. do 3 f_equal. pose proof (draws_length gauss (size shape) g) as Hl. rewrite <- Hl at 2. clear Hl. induction (snd (draws gauss (size shape) g)) as [|z l IH]; [reflexivity|]. cbn. rewrite IH. f_equal. ring.
  Qed.
  Lemma normal_init_mean : forall (E : (G -> R) -> R) mean shape i, expectation E -> 0 <= mean -> (i < size shape)%nat -> E (fun g => nth i (snd (draws gauss (size shape) g)) 0) = 0 ->
    E (fun g => nth i (values (normal_init gauss mean shape g)) 0) = 0.
  Proof.
    intros E mean shape i HE Hm Hi Hz. rewrite (e_ext E HE _ (fun g => mean * nth i (snd (draws gauss (size shape) g)) 0)).
    - rewrite (e_scale E HE), Hz. ring.
    - intro g. rewrite normal_init_scale by exact Hm. unfold values. cbn [snd]. rewrite (nth_indep _ 0 (mean * 0)); [apply (map_nth (fun z => mean * z))|]. rewrite map_length, draws_length. exact Hi.
  Qed.
End Fill.
