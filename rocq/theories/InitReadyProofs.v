(** Initialization makes a model ready: the widths of its layers fit together. *)
From Coq Require Import Reals Lra Lia String.
From Verif Require Import Base BaseFacts DictModel DictFacts NodeModel CombModel CombSpec DenseModel SoftModel ActSpec NumR MatProofs MkProofs LinearProofs.
From Verif Require Import ActLayerProofs MaxoutLayerProofs SoftProofs DenseProofs.
From Verif Require Import InitModel InitSpec InitProofs InitFrameProofs.
Set Default Goal Selector "!".
Local Open Scope string_scope.
Local Open Scope nat_scope.

Notation mkR := (@mk R).

(** ** Broadcasting, in terms of shapes *)
Lemma mbin_any op r c (f : nat -> nat -> R) r' c' (g : nat -> nat -> R) :
  match bdim r r', bdim c c' with
  | Some R', Some C => exists h, mbin op (mk r c f) (mk r' c' g) = Ok (mk R' C h)
  | _, _ => mbin op (mk r c f) (mk r' c' g) = Err ValueError
  end.
Proof.
  unfold mbin. rewrite mshape_mk. destruct (Nat.eqb r r' && Nat.eqb c c') eqn:E.
  - apply andb_prop in E as [E1 E2]. apply Nat.eqb_eq in E1 as <-. apply Nat.eqb_eq in E2 as <-. rewrite !bdim_refl.
    exists (fun i j => op (f i j) (g i j)). pose proof (mbin_same op r c f g) as M. unfold mbin in M. rewrite mshape_mk, !Nat.eqb_refl in M. exact M.
  - rewrite !mk_rows, !mk_cols. destruct (bdim r r') as [R'|]; [|destruct (bdim c c'); reflexivity]. destruct (bdim c c') as [C|]; [|reflexivity].
    eexists (fun i j => op (bget (mk r c f) i j) (bget (mk r' c' g) i j)). reflexivity.
Qed.
Lemma miadd_any r c (f : nat -> nat -> R) r' c' (g : nat -> nat -> R) :
  match bdim r r', bdim c c' with
  | Some R', Some C => if Nat.eqb R' r && Nat.eqb C c then exists h, miadd (mk r c f) (mk r' c' g) = Ok (mk r c h) else miadd (mk r c f) (mk r' c' g) = Err ValueError
  | _, _ => miadd (mk r c f) (mk r' c' g) = Err ValueError
  end.
Proof.
  unfold miadd. rewrite madd_mbin. pose proof (mbin_any nadd r c f r' c' g) as M.
  destruct (bdim r r') as [R'|]; [|rewrite M; reflexivity]. destruct (bdim c c') as [C|]; [|rewrite M; reflexivity].
  destruct M as [h ->]. cbn [bind]. rewrite mshape_mk. destruct (Nat.eqb R' r && Nat.eqb C c) eqn:E; [|reflexivity].
  apply andb_prop in E as [E1 E2]. apply Nat.eqb_eq in E1 as ->. apply Nat.eqb_eq in E2 as ->. eauto.
Qed.

(** ** Layers without sublayers, on a vector of parameters *)
Section Leafs.
  Variables (numpy : bool) (tr : bool).
  (** The layer maps width [w] to [w'] or refuses. *)
  Definition runs (L : layer R) (theta : list R) (w : nat) (o : option nat) : Prop :=
    forall N x, match o with
                | Some w' => exists y b, L tr theta (Arr2 (mkR N w x)) = Ok (Arr2 (mk N w' y), b)
                | None => exists e, L tr theta (Arr2 (mkR N w x)) = Err e
                end.
  Definition only (nI nO w : nat) : option nat := if Nat.eqb w nI then Some nO else None.
  Lemma affine_run nO nI (W : nat -> nat -> R) b N w x : w <> nI -> affine (mkR N w x) (mk nO nI W) (vec nO b) = Err ValueError.
  Proof. intros Hw. unfold affine. now rewrite gemm_wrong by exact Hw. Qed.
  Lemma run_linear nO nI theta w : length theta = nO * nI + nO -> runs (Linear nO nI 0 (nO * nI)) theta w (only nI nO w).
  Proof.
    intros Ht N x. unfold only. destruct (Nat.eqb_spec w nI) as [->|Hw].
    - rewrite linear_fwd by lia. eauto.
    - exists ValueError. unfold Linear. rewrite get_param2_ok by lia. cbn [bind]. rewrite get_param1_ok by lia. cbn [bind as_mat].
      now rewrite gemm_wrong by exact Hw.
  Qed.
  Lemma run_relu nO nI theta w : length theta = nO * nI + nO -> runs (Relu numpy nO nI 0 (nO * nI)) theta w (only nI nO w).
  Proof.
    intros Ht N x. unfold only, Relu. rewrite get_param2_ok by lia. cbn [bind]. rewrite get_param1_ok by lia. cbn [bind as_mat].
    destruct (Nat.eqb_spec w nI) as [->|Hw].
    - rewrite affine_mk. cbn [bind]. destruct numpy; unfold np_relu, op_relu; rewrite mmap_mk; eauto.
    - exists ValueError. now rewrite affine_run by exact Hw.
  Qed.
  Lemma run_softmax nO nI theta w : nO <> 0 -> length theta = nO * nI + nO -> runs (Softmax true (nZ 1) nO nI 0 (nO * nI)) theta w (only nI nO w).
  Proof.
    intros HO Ht N x. unfold only, Softmax. cbn [orb].
    assert (E : nltb (T := R) (nZ 0) (nZ 1) = true) by (cbn; destruct (Rlt_dec 0 1); [reflexivity|lra]).
    rewrite E. rewrite get_param2_ok by lia. cbn [bind]. rewrite get_param1_ok by lia. cbn [bind as_mat].
    destruct (Nat.eqb_spec w nI) as [->|Hw].
    - rewrite affine_mk. cbn [bind]. rewrite softmax_mk; [cbn [bind]; eauto| |exact HO]. cbn. lra.
    - exists ValueError. now rewrite affine_run by exact Hw.
  Qed.
  Lemma run_maxout nO nP nI theta w : nO <> 0 -> nP <> 0 -> length theta = nO * nP * nI + nO * nP ->
    runs (Maxout numpy nO nP nI 0 (nO * nP * nI)) theta w (only nI nO w).
  Proof.
    intros HO HP Ht N x. unfold only, Maxout. rewrite get_param1_ok by lia. cbn [bind]. rewrite get_param2_ok by lia. cbn [bind as_mat].
    destruct (Nat.eqb_spec w nI) as [->|Hw].
    - unfold gemm at 1. rewrite transpose_mk, matmul_mk. cbn [bind]. rewrite miadd_row. cbn [bind].
      rewrite maxact_which by assumption. cbn [bind fst]. eauto.
    - exists ValueError. now rewrite gemm_wrong by exact Hw.
  Qed.
  Definition norm_width (k w : nat) : option nat :=
    match bdim w k with Some c => match bdim c k with Some c' => if Nat.eqb c' c then Some c else None | None => None end | None => None end.
  Lemma run_layernorm k theta w : length theta = k + k -> runs (LayerNorm k 0 k) theta w (norm_width k w).
  Proof.
    intros Ht N x. unfold LayerNorm. cbn [as_mat bind]. unfold get_moments, var1. rewrite mean1_mk, mbin_col. cbn [bind]. rewrite mbin_same. cbn [bind].
    rewrite mean1_mk, mmap_mk. cbn [bind fst snd]. rewrite mbin_col. cbn [bind]. rewrite mmap_mk, mbin_col. cbn [bind].
    rewrite !get_param1_ok by lia. cbn [bind]. rewrite !as_row_vec. unfold norm_width.
    match goal with |- context [mbin nmul (mk N w ?F) (mk 1 k ?G)] => pose proof (mbin_any nmul N w F 1 k G) as M end.
    rewrite bdim_one_r in M. destruct (bdim w k) as [c|].
    - destruct M as [h ->]. cbn [bind].
      match goal with |- context [miadd (mk N c ?F) (mk 1 k ?G)] => pose proof (miadd_any N c F 1 k G) as M end.
      rewrite bdim_one_r, Nat.eqb_refl in M. cbn [andb] in M. destruct (bdim c k) as [c'|].
      + destruct (Nat.eqb c' c).
        * destruct M as [h' ->]. cbn [bind]. eauto.
        * rewrite M. cbn [bind]. eauto.
      + rewrite M. cbn [bind]. eauto.
    - rewrite M. cbn [bind]. eauto.
  Qed.
End Leafs.

(** ** Layers without sublayers, in the heap *)
Section Heap.
  Variables (numpy : bool) (tr : bool) (th : list R).
  Notation ist := (ist (T := R)).
  Notation inode := (inode (T := R)).
  Definition fit_ready (k : nat) (a : addr) (s : ist) : Prop :=
    match k with 4 => present a "G" s /\ present a "b" s | _ => ready_leaf k a s end.
  Definition leaf_fits (s : ist) (a : addr) (w w' : nat) : Prop := exists k, kind_at a k s /\ fit_ready k a s /\
    match k with
    | 0 | 1 | 2 | 3 => dim_at s a "nI" = Some (Z.of_nat w) /\ dim_at s a "nO" = Some (Z.of_nat w')
    | 4 => exists kk, dim_at s a "nI" = Some (Z.of_nat kk) /\ norm_width kk w = Some w'
    | _ => w = w'
    end.
  Lemma get_param_in (n : inode) name v : get_param n name = Ok v -> dget name (n_params n) = Some v /\ In name (dkeys (n_params n)) /\ In name (dkeys (n_has n)).
  Proof.
    unfold get_param. destruct (dget name (n_has n)) eqn:E1; [|discriminate]. destruct (dget name (n_params n)) eqn:E2; [|discriminate].
    intros [= ->]. split; [reflexivity|]. split; eapply dget_some_key; eauto.
  Qed.
  Lemma get_param_err (n : inode) name e : get_param n name = Err e -> ~ (In name (dkeys (n_params n)) /\ In name (dkeys (n_has n))).
  Proof.
    unfold get_param. intros E [H1 H2]. apply dget_key in H1 as [v H1]. apply dget_key in H2 as [u H2]. now rewrite H2, H1 in E.
  Qed.
  Lemma sized_param_at (s : ist) a n name names x : all_sized s -> nth_error (i_heap s) a = Some n -> get_param n name = Ok x ->
    shape_names (n_func n) name = Some names -> exists zs, Forall2 (fun d z => dim_at s a d = Some z) names zs /\ has_shape x zs.
  Proof.
    intros Ss E G Es. destruct (get_param_in _ _ _ G) as (D & _). pose proof (proj1 (Forall_forall _ _) Ss n (nth_error_In _ _ E)) as Sn.
    destruct (Sn _ _ _ D Es) as (zs & F & Hx). exists zs. split; [|exact Hx]. eapply Forall2_weak; [|exact F]. cbv beta.
    intros d z Dz. unfold dim_at, dim_of. now rewrite E, Dz.
  Qed.
  Lemma not_present (s : ist) a n name e : nth_error (i_heap s) a = Some n -> get_param n name = Err e -> ~ present a name s.
  Proof.
    intros E G (n' & E' & H1). rewrite E in E'. injection E' as <-. exact (get_param_err _ _ _ G H1).
  Qed.
  Lemma is_present (s : ist) a n name v : nth_error (i_heap s) a = Some n -> get_param n name = Ok v -> present a name s.
  Proof. intros E G. exists n. split; [exact E|apply (get_param_in _ _ _ G)]. Qed.
  Lemma kind_inj (s : ist) a n k : nth_error (i_heap s) a = Some n -> kind_at a k s -> k = n_func n.
  Proof. intros E (n' & E' & K). rewrite E in E'. now injection E' as <-. Qed.
  Definition leaf_ok (s : ist) (a : addr) (w : nat) (o : option nat) : Prop :=
    runs tr (leaf_layer numpy (i_heap s) a) th w o /\ forall w', o = Some w' <-> leaf_fits s a w w'.
  Lemma of_dim (z : Z) n : (0 < z)%Z -> Some z = Some (Z.of_nat n) <-> Z.to_nat z = n.
  Proof. intros Hz. split; [intros [= E]; lia|intros <-; f_equal; lia]. Qed.

  Lemma dense_total s a n w : all_sized s -> all_positive s -> nth_error (i_heap s) a = Some n -> n_func n <= 2 -> exists o, leaf_ok s a w o.
  Proof.
    intros Ss Hp E Hk.
    assert (EW : shape_names (n_func n) "W" = Some ["nO"; "nI"] /\ shape_names (n_func n) "b" = Some ["nO"]).
    { destruct (n_func n) as [|[|[|k]]]; try (split; reflexivity). lia. }
    destruct EW as [EW Eb].
    assert (LL : forall X, leaf_layer numpy (i_heap s) a tr th X = dense_layer numpy (n_func n) n tr th X).
    { intros X. unfold leaf_layer. rewrite E. destruct (n_func n) as [|[|[|k]]]; try reflexivity. lia. }
    assert (LF : forall w', leaf_fits s a w w' <-> (ready_leaf 0 a s /\ dim_at s a "nI" = Some (Z.of_nat w) /\ dim_at s a "nO" = Some (Z.of_nat w'))).
    { intros w'. split.
      - intros (k & K & Rk & M). pose proof (kind_inj _ _ _ _ E K) as Ek. destruct k as [|[|[|k]]]; try (split; [exact Rk|exact M]). lia.
      - intros (Rk & M). exists (n_func n). split; [exists n; auto|]. destruct (n_func n) as [|[|[|k]]]; try (split; [exact Rk|exact M]). lia. }
    destruct (get_param n "W") as [W|e] eqn:GW.
    2: { exists None. split.
         - intros N x. exists e. rewrite LL. unfold dense_layer, pair_params. now rewrite GW.
         - intros w'. rewrite LF. split; [discriminate|]. intros ((_ & PW & _) & _). destruct (not_present _ _ _ _ _ E GW PW). }
    destruct (get_param n "b") as [b|e] eqn:Gb.
    2: { exists None. split.
         - intros N x. exists e. rewrite LL. unfold dense_layer, pair_params. now rewrite GW, Gb.
         - intros w'. rewrite LF. split; [discriminate|]. intros ((_ & _ & Pb) & _). destruct (not_present _ _ _ _ _ E Gb Pb). }
    destruct (sized_param_at _ _ _ _ _ _ Ss E GW EW) as (zs & F & HW).
    destruct (sized_param_at _ _ _ _ _ _ Ss E Gb Eb) as (zs' & F' & Hb).
    inversion F as [|? zO ? ? DO F2]; subst. inversion F2 as [|? zI ? ? DI F3]; subst. inversion F3; subst.
    inversion F' as [|? zO' ? ? DO' F2']; subst. inversion F2'; subst. rewrite DO in DO'. injection DO' as <-.
    pose proof (Hp _ _ _ DO) as PO. pose proof (Hp _ _ _ DI) as PI.
    destruct HW as (_ & SW & LW). destruct Hb as (_ & Sb & Lb). cbn in SW, LW, Sb, Lb.
    exists (only (Z.to_nat zI) (Z.to_nat zO) w). split.
    - intros N x. pose proof (LL (Arr2 (mkR N w x))) as LX.
      assert (EX : dense_layer numpy (n_func n) n tr th (Arr2 (mkR N w x)) =
        let theta := (a_data W ++ a_data b)%list in
        match n_func n with
        | 0 => Linear (Z.to_nat zO) (Z.to_nat zI) 0 (Z.to_nat zO * Z.to_nat zI) tr theta (Arr2 (mkR N w x))
        | 1 => Relu numpy (Z.to_nat zO) (Z.to_nat zI) 0 (Z.to_nat zO * Z.to_nat zI) tr theta (Arr2 (mkR N w x))
        | _ => Softmax true (nZ 1) (Z.to_nat zO) (Z.to_nat zI) 0 (Z.to_nat zO * Z.to_nat zI) tr theta (Arr2 (mkR N w x))
        end).
      { unfold dense_layer, pair_params. rewrite GW. cbn [bind]. rewrite Gb. cbn [bind fst snd]. rewrite SW, Sb, Nat.eqb_refl. reflexivity. }
      rewrite LX, EX. cbv zeta.
      assert (Lt : length (a_data W ++ a_data b) = Z.to_nat zO * Z.to_nat zI + Z.to_nat zO) by (rewrite app_length; lia).
      destruct (n_func n) as [|[|k]].
      + exact (run_linear tr _ _ _ w Lt N x).
      + exact (run_relu numpy tr _ _ _ w Lt N x).
      + apply (run_softmax tr); [lia|exact Lt].
    - intros w'. rewrite LF, DI, DO, !of_dim by assumption. unfold only. destruct (Nat.eqb_spec w (Z.to_nat zI)) as [->|Hw].
      + split; [intros [= <-]|intros (_ & _ & ->); reflexivity]. split; [|auto].
        cbn. split; [split; eexists; eassumption|]. split; eapply is_present; eassumption.
      + split; [discriminate|]. intros (_ & E' & _). congruence.
  Qed.
  Lemma maxout_total s a n w : all_sized s -> all_positive s -> nth_error (i_heap s) a = Some n -> n_func n = 3 -> exists o, leaf_ok s a w o.
  Proof.
    intros Ss Hp E Ek.
    assert (LL : forall X, leaf_layer numpy (i_heap s) a tr th X = maxout_layer numpy n tr th X).
    { intros X. unfold leaf_layer. now rewrite E, Ek. }
    assert (LF : forall w', leaf_fits s a w w' <-> (ready_leaf 3 a s /\ dim_at s a "nI" = Some (Z.of_nat w) /\ dim_at s a "nO" = Some (Z.of_nat w'))).
    { intros w'. split.
      - intros (k & K & Rk & M). pose proof (kind_inj _ _ _ _ E K) as Ek'. rewrite Ek in Ek'. subst k. split; [exact Rk|exact M].
      - intros (Rk & M). exists 3. split; [exists n; auto|]. split; [exact Rk|exact M]. }
    assert (GD : forall d e, get_dim n d = Err e -> ~ some_dim a d s).
    { intros d e G (v & D). unfold dim_at, dim_of in D. rewrite E in D. unfold get_dim in G. destruct (dget d (n_dims n)) as [[u|]|]; discriminate. }
    assert (GV : forall d v, get_dim n d = Ok v -> dim_at s a d = Some v).
    { intros d v G. unfold dim_at, dim_of. rewrite E. unfold get_dim in G. destruct (dget d (n_dims n)) as [[u|]|]; congruence. }
    destruct (get_dim n "nO") as [zO|e] eqn:GO.
    2: { exists None. split; [intros N x; exists e; rewrite LL; unfold maxout_layer; now rewrite GO|].
         intros w'. rewrite LF. split; [discriminate|]. intros (((S1 & _) & _) & _). destruct (GD _ _ GO S1). }
    destruct (get_dim n "nP") as [zP|e] eqn:GP.
    2: { exists None. split; [intros N x; exists e; rewrite LL; unfold maxout_layer; now rewrite GO, GP|].
         intros w'. rewrite LF. split; [discriminate|]. intros (((_ & S1 & _) & _) & _). destruct (GD _ _ GP S1). }
    destruct (get_dim n "nI") as [zI|e] eqn:GI.
    2: { exists None. split; [intros N x; exists e; rewrite LL; unfold maxout_layer; now rewrite GO, GP, GI|].
         intros w'. rewrite LF. split; [discriminate|]. intros (((_ & _ & S1) & _) & _). destruct (GD _ _ GI S1). }
    destruct (get_param n "b") as [b|e] eqn:Gb.
    2: { exists None. split; [intros N x; exists e; rewrite LL; unfold maxout_layer, pair_params; now rewrite GO, GP, GI, Gb|].
         intros w'. rewrite LF. split; [discriminate|]. intros ((_ & _ & Pb) & _). destruct (not_present _ _ _ _ _ E Gb Pb). }
    destruct (get_param n "W") as [W|e] eqn:GW.
    2: { exists None. split; [intros N x; exists e; rewrite LL; unfold maxout_layer, pair_params; now rewrite GO, GP, GI, Gb, GW|].
         intros w'. rewrite LF. split; [discriminate|]. intros ((_ & Pb & _) & _). destruct (not_present _ _ _ _ _ E GW Pb). }
    apply GV in GO as DO; apply GV in GP as DP; apply GV in GI as DI.
    assert (EW : shape_names (n_func n) "W" = Some ["nO"; "nP"; "nI"] /\ shape_names (n_func n) "b" = Some ["nO"; "nP"]) by (rewrite Ek; split; reflexivity).
    destruct EW as [EW Eb].
    destruct (sized_param_at _ _ _ _ _ _ Ss E GW EW) as (zs & F & HW).
    destruct (sized_param_at _ _ _ _ _ _ Ss E Gb Eb) as (zs' & F' & Hb).
    inversion F as [|? z1 ? ? D1 F2]; subst. inversion F2 as [|? z2 ? ? D2 F3]; subst. inversion F3 as [|? z3 ? ? D3 F4]; subst. inversion F4; subst.
    inversion F' as [|? z4 ? ? D4 F2']; subst. inversion F2' as [|? z5 ? ? D5 F3']; subst. inversion F3'; subst.
    rewrite DO in D1, D4. rewrite DP in D2, D5. rewrite DI in D3. injection D1 as <-. injection D2 as <-. injection D3 as <-. injection D4 as <-. injection D5 as <-.
    pose proof (Hp _ _ _ DO) as PO. pose proof (Hp _ _ _ DI) as PI. pose proof (Hp _ _ _ DP) as PP.
    destruct HW as (_ & _ & LW). destruct Hb as (_ & _ & Lb). cbn in LW, Lb.
    exists (only (Z.to_nat zI) (Z.to_nat zO) w). split.
    - intros N x. rewrite LL.
      assert (EX : maxout_layer numpy n tr th (Arr2 (mkR N w x)) =
        Maxout numpy (Z.to_nat zO) (Z.to_nat zP) (Z.to_nat zI) 0 (Z.to_nat zO * Z.to_nat zP * Z.to_nat zI) tr (a_data W ++ a_data b)%list (Arr2 (mkR N w x))).
      { unfold maxout_layer, pair_params. rewrite GO, GP, GI. cbn [bind]. rewrite Gb. cbn [bind]. rewrite GW. cbn [bind fst snd].
        replace ((0 <=? zO) && (0 <=? zP) && (0 <=? zI))%Z with true
          by (symmetry; rewrite !Bool.andb_true_iff; repeat split; apply Z.leb_le; lia).
        cbv zeta. rewrite (proj2 (Nat.eqb_eq _ _)) by nia. rewrite (proj2 (Nat.eqb_eq (length (a_data b)) _)) by nia. reflexivity. }
      rewrite EX. apply run_maxout; [lia|lia|]. rewrite app_length. nia.
    - intros w'. rewrite LF, DI, DO, !of_dim by assumption. unfold only. destruct (Nat.eqb_spec w (Z.to_nat zI)) as [->|Hw].
      + split; [intros [= <-]|intros (_ & _ & ->); reflexivity]. split; [|auto].
        cbn. split; [split; [|split]; eexists; eassumption|]. split; eapply is_present; eassumption.
      + split; [discriminate|]. intros (_ & E' & _). congruence.
  Qed.
  Lemma layernorm_total s a n w : all_sized s -> all_positive s -> nth_error (i_heap s) a = Some n -> n_func n = 4 -> exists o, leaf_ok s a w o.
  Proof.
    intros Ss Hp E Ek.
    assert (LL : forall X, leaf_layer numpy (i_heap s) a tr th X = layernorm_layer n tr th X).
    { intros X. unfold leaf_layer. now rewrite E, Ek. }
    assert (LF : forall w', leaf_fits s a w w' <-> (fit_ready 4 a s /\ exists kk, dim_at s a "nI" = Some (Z.of_nat kk) /\ norm_width kk w = Some w')).
    { intros w'. split.
      - intros (k & K & Rk & M). pose proof (kind_inj _ _ _ _ E K) as Ek'. rewrite Ek in Ek'. subst k. split; [exact Rk|exact M].
      - intros (Rk & M). exists 4. split; [exists n; auto|]. split; [exact Rk|exact M]. }
    destruct (get_param n "G") as [G|e] eqn:GG.
    2: { exists None. split; [intros N x; exists e; rewrite LL; unfold layernorm_layer, pair_params; now rewrite GG|].
         intros w'. rewrite LF. split; [discriminate|]. intros ((Pb & _) & _). destruct (not_present _ _ _ _ _ E GG Pb). }
    destruct (get_param n "b") as [b|e] eqn:Gb.
    2: { exists None. split; [intros N x; exists e; rewrite LL; unfold layernorm_layer, pair_params; now rewrite GG, Gb|].
         intros w'. rewrite LF. split; [discriminate|]. intros ((_ & Pb) & _). destruct (not_present _ _ _ _ _ E Gb Pb). }
    assert (EW : shape_names (n_func n) "G" = Some ["nI"] /\ shape_names (n_func n) "b" = Some ["nI"]) by (rewrite Ek; split; reflexivity).
    destruct EW as [EW Eb].
    destruct (sized_param_at _ _ _ _ _ _ Ss E GG EW) as (zs & F & HW).
    destruct (sized_param_at _ _ _ _ _ _ Ss E Gb Eb) as (zs' & F' & Hb).
    inversion F as [|? zI ? ? DI F2]; subst. inversion F2; subst. inversion F' as [|? zI' ? ? DI' F2']; subst. inversion F2'; subst.
    rewrite DI in DI'. injection DI' as <-. pose proof (Hp _ _ _ DI) as PI.
    destruct HW as (_ & SG & LG). destruct Hb as (_ & Sb & Lb). cbn in SG, LG, Sb, Lb.
    exists (norm_width (Z.to_nat zI) w). split.
    - intros N x. rewrite LL.
      assert (EX : layernorm_layer n tr th (Arr2 (mkR N w x)) = LayerNorm (Z.to_nat zI) 0 (Z.to_nat zI) tr (a_data G ++ a_data b)%list (Arr2 (mkR N w x))).
      { unfold layernorm_layer, pair_params. rewrite GG. cbn [bind]. rewrite Gb. cbn [bind fst snd]. rewrite SG, Sb, Nat.eqb_refl. reflexivity. }
      rewrite EX. apply run_layernorm. rewrite app_length. lia.
    - intros w'. rewrite LF. split.
      + intros Hn. split.
        * split; eapply is_present; eassumption.
        * exists (Z.to_nat zI). split; [rewrite DI; f_equal; lia|exact Hn].
      + intros (_ & kk & D & Hn). rewrite DI in D. injection D as D. now replace (Z.to_nat zI) with kk by lia.
  Qed.
  Lemma leaf_total s a w : all_sized s -> all_positive s -> exists o, leaf_ok s a w o.
  Proof.
    intros Ss Hp. destruct (nth_error (i_heap s) a) as [n|] eqn:E.
    - destruct (n_func n) as [|[|[|[|[|k]]]]] eqn:Ek.
      + apply (dense_total s a n w); auto. lia.
      + apply (dense_total s a n w); auto. lia.
      + apply (dense_total s a n w); auto. lia.
      + apply (maxout_total s a n w); auto.
      + apply (layernorm_total s a n w); auto.
      + exists (Some w). split.
        * intros N x. unfold leaf_layer. rewrite E, Ek. unfold noop. eauto.
        * intros w'. split.
          -- intros [= ->]. exists (S (S (S (S (S k))))). split; [exists n; auto|]. split; [exact I|reflexivity].
          -- intros (k' & K & _ & M). pose proof (kind_inj _ _ _ _ E K) as Ek'. rewrite Ek in Ek'. subst k'. now rewrite M.
    - exists None. split.
      + intros N x. exists MemFault. unfold leaf_layer. now rewrite E.
      + intros w'. split; [discriminate|]. intros (k & (n & E' & _) & _). congruence.
  Qed.
  Lemma stable_ready k a : stable (fit_ready k a).
  Proof.
    intros s s' L. assert (SD : forall d, some_dim a d s -> some_dim a d s') by (intros d (v & D); exists v; exact (later_dim _ _ _ _ _ L D)).
    assert (SP : forall d, present a d s -> present a d s') by (intros d; exact (stable_present a d s s' L)).
    destruct k as [|[|[|[|[|k]]]]]; cbn; firstorder.
  Qed.
  Lemma leaf_fits_later s s' a w w' : later s s' -> leaf_fits s a w w' -> leaf_fits s' a w w'.
  Proof.
    intros L (k & K & Rk & M). exists k. split; [exact (stable_kind a k s s' L K)|]. split; [exact (stable_ready k a s s' L Rk)|].
    destruct k as [|[|[|[|[|k]]]]]; [..|exact M].
    1-4: destruct M as [D1 D2]; split; eapply later_dim; eauto.
    destruct M as (kk & D & M). exists kk. split; [eapply later_dim; eauto|exact M].
  Qed.

  (** ** Models *)
  Inductive fits (s : ist) : net -> nat -> nat -> Prop :=
  | fit_leaf a w w' : leaf_fits s a w w' -> fits s (NLeaf a) w w'
  | fit_chain a p ps w w' : fits_seq s (p :: ps) w w' -> fits s (NChain a (p :: ps)) w w'
  | fit_add0 a w : fits s (NAdd a []) w w
  | fit_add a p ps w w' vs : fits s p w w' -> fits_par s ps w vs -> Forall (fun v => bdim w' v = Some w') vs -> fits s (NAdd a (p :: ps)) w w'
  | fit_concat a p ps w vs : fits_par s (p :: ps) w vs -> fits s (NConcat a (p :: ps)) w (list_sum vs)
  | fit_residual a p w v w' : fits s p w v -> bdim w v = Some w' -> fits s (NResidual a p) w w'
  with fits_seq (s : ist) : list net -> nat -> nat -> Prop :=
  | seq_nil w : fits_seq s [] w w
  | seq_cons p ps w v w' : fits s p w v -> fits_seq s ps v w' -> fits_seq s (p :: ps) w w'
  with fits_par (s : ist) : list net -> nat -> list nat -> Prop :=
  | par_nil w : fits_par s [] w []
  | par_cons p ps w v vs : fits s p w v -> fits_par s ps w vs -> fits_par s (p :: ps) w (v :: vs).
  Scheme fits_mut := Induction for fits Sort Prop
    with seq_mut := Induction for fits_seq Sort Prop
    with par_mut := Induction for fits_par Sort Prop.
  Combined Scheme fits_all from fits_mut, seq_mut, par_mut.
  Lemma fits_later_all s s' : later s s' -> (forall p w w', fits s p w w' -> fits s' p w w') /\
    (forall ps w w', fits_seq s ps w w' -> fits_seq s' ps w w') /\ (forall ps w vs, fits_par s ps w vs -> fits_par s' ps w vs).
  Proof.
    intros L. apply (fits_all s (fun p w w' _ => fits s' p w w') (fun ps w w' _ => fits_seq s' ps w w') (fun ps w vs _ => fits_par s' ps w vs)); intros; try (econstructor; eauto; fail).
    constructor. eapply leaf_fits_later; eauto.
  Qed.
  Lemma fits_later s s' p w w' : later s s' -> fits s p w w' -> fits s' p w w'.
  Proof. intros L. apply (fits_later_all s s' L). Qed.

  (** Joining arrays side by side *)
  Definition outs (N : nat) (vs : list nat) (ys : list (nat -> nat -> R)) : list (mat R) := map (fun q => mkR N (fst q) (snd q)) (combine vs ys).
  Lemma hstack_outs N v vs y ys : length ys = length vs -> exists z, hstack (outs N (v :: vs) (y :: ys)) = Ok (mkR N (list_sum (v :: vs)) z).
  Proof.
    intros Hl. unfold outs. cbn [combine map fst snd].
    set (ms := mkR N v y :: map (fun q => mkR N (fst q) (snd q)) (combine vs ys)).
    assert (HR : forall m, In m ms -> length (m_rows m) = N).
    { intros m [<-|Hm]; [apply mk_rows|]. apply in_map_iff in Hm as (q & <- & _). apply mk_rows. }
    assert (EF : forallb (fun n => Nat.eqb (length (m_rows n)) (length (m_rows (mkR N v y)))) ms = true).
    { apply forallb_forall. intros m Hm. apply Nat.eqb_eq. rewrite (HR m Hm). symmetry. apply mk_rows. }
    assert (EH : hstack ms = Ok (mkM (list_sum (map m_cols ms)) (map (fun i => concat (map (fun n => nth i (m_rows n) []) ms)) (seq 0 (length (m_rows (mkR N v y))))))).
    { unfold hstack. unfold ms at 1. now rewrite EF. }
    rewrite EH. clear EH.
    assert (EC : map m_cols ms = v :: vs).
    { unfold ms. cbn [map]. f_equal. rewrite map_map. clear -Hl. revert ys Hl. induction vs as [|u vs IH]; intros [|z ys] Hl; try discriminate; [reflexivity|].
      cbn. f_equal. apply IH. now injection Hl. }
    rewrite EC, mk_rows.
    set (rows := map (fun i => concat (map (fun n => nth i (m_rows n) []) ms)) (seq 0 N)).
    assert (W : wf_mat (mkM (list_sum (v :: vs)) rows)).
    { apply Forall_forall. cbn [m_rows m_cols]. intros r Hr. apply in_map_iff in Hr as (i & <- & Hi). apply in_seq in Hi.
      rewrite <- EC. assert (WM : forall m, In m ms -> wf_mat m) by (intros m [<-|Hm]; [apply mk_wf|apply in_map_iff in Hm as (q & <- & _); apply mk_wf]).
      clear -HR WM Hi. induction ms as [|m ms IH]; [reflexivity|]. cbn [map concat list_sum fold_right]. rewrite app_length. 
      rewrite IH; [|intros; apply HR; now right|intros; apply WM; now right].
      f_equal. pose proof (WM m (or_introl eq_refl)) as Wm. apply (proj1 (Forall_forall _ _) Wm). apply nth_In. rewrite (HR m (or_introl eq_refl)). lia. }
    exists (ent (mkM (list_sum (v :: vs)) rows)). f_equal. rewrite (mat_mk _ W) at 1. cbn [m_rows m_cols]. f_equal. unfold rows. now rewrite map_length, seq_length.
  Qed.
  Lemma as_mats (ms : list (mat R)) : mapM as_mat (map Arr2 ms) = Ok ms.
  Proof. induction ms as [|m ms IHm]; [reflexivity|]. cbn. now rewrite IHm. Qed.
  Lemma iadd_run N w v (y z : nat -> nat -> R) : bdim w v = Some w -> exists u, iadd (Arr2 (mkR N w y)) (Arr2 (mkR N v z)) = Ok (Arr2 (mkR N w u)).
  Proof.
    intros B. pose proof (miadd_any N w y N v z) as M. rewrite bdim_refl, B, !Nat.eqb_refl in M. destruct M as [h E].
    exists h. cbn. now rewrite E.
  Qed.
  Lemma iadd_inv N w v (y z : nat -> nat -> R) Y : iadd (Arr2 (mkR N w y)) (Arr2 (mkR N v z)) = Ok Y -> bdim w v = Some w /\ exists u, Y = Arr2 (mkR N w u).
  Proof.
    pose proof (miadd_any N w y N v z) as M. cbn. rewrite bdim_refl in M. destruct (bdim w v) as [c|]; [|rewrite M; discriminate].
    rewrite Nat.eqb_refl in M. cbn [andb] in M. destruct (Nat.eqb c w) eqn:Ec; [apply Nat.eqb_eq in Ec; subst c|rewrite M; discriminate].
    destruct M as [h ->]. cbn. intros [= <-]. eauto.
  Qed.
  Notation NL s := (net_layer numpy (i_heap s)).
  Lemma fits_run_all s : all_sized s -> all_positive s ->
    (forall p w w', fits s p w w' -> forall N x, exists y b, NL s p tr th (Arr2 (mkR N w x)) = Ok (Arr2 (mk N w' y), b)) /\
    (forall ps w w', fits_seq s ps w w' -> forall N x, exists y b, chain_loop (map (NL s) ps) tr th (Arr2 (mkR N w x)) = Ok (Arr2 (mk N w' y), b)) /\
    (forall ps w vs, fits_par s ps w vs -> (forall N x, exists ybs ys, call_all (map (NL s) ps) tr th (Arr2 (mkR N w x)) = Ok ybs /\
       length ys = length vs /\ map fst ybs = map Arr2 (outs N vs ys)) /\
       forall u, Forall (fun v => bdim u v = Some u) vs -> forall N x y, exists z b, add_loop (map (NL s) ps) tr th (Arr2 (mkR N w x)) (Arr2 (mkR N u y)) = Ok (Arr2 (mkR N u z), b)).
  Proof.
    intros Ss Hp.
    apply (fits_all s
      (fun p w w' _ => forall N x, exists y b, NL s p tr th (Arr2 (mkR N w x)) = Ok (Arr2 (mk N w' y), b))
      (fun ps w w' _ => forall N x, exists y b, chain_loop (map (NL s) ps) tr th (Arr2 (mkR N w x)) = Ok (Arr2 (mk N w' y), b))
      (fun ps w vs _ => (forall N x, exists ybs ys, call_all (map (NL s) ps) tr th (Arr2 (mkR N w x)) = Ok ybs /\
         length ys = length vs /\ map fst ybs = map Arr2 (outs N vs ys)) /\
         forall u, Forall (fun v => bdim u v = Some u) vs -> forall N x y, exists z b, add_loop (map (NL s) ps) tr th (Arr2 (mkR N w x)) (Arr2 (mkR N u y)) = Ok (Arr2 (mkR N u z), b))).
    - intros a w w' Hf N x. destruct (leaf_total s a w Ss Hp) as (o & Hr & Ho). apply Ho in Hf. subst o. exact (Hr N x).
    - intros a p ps w w' _ IH N x. destruct (IH N x) as (y & b & E). cbn [net_layer map] in *. unfold chain. rewrite E. cbn [bind fst]. eauto.
    - intros a w N x. cbn. eauto.
    - intros a p ps w w' vs _ IH _ [_ IHp] HB N x. destruct (IH N x) as (y & b & E). cbn [net_layer map]. unfold add. rewrite E. cbn [bind fst].
      destruct (IHp w' HB N x y) as (z & bs & Ez). rewrite Ez. cbn [bind fst]. eauto.
    - intros a p ps w vs _ [IH _] N x. destruct (IH N x) as (ybs & ys & E & Hl & Ey). cbn [net_layer]. unfold concatenation. rewrite E. cbn [bind].
      rewrite Ey. destruct vs as [|v vs].
      { exfalso. cbn [call_all map mapM] in E. unfold call_all in E. cbn [map mapM] in E. destruct (NL s p tr th (Arr2 (mkR N w x))) as [yb|]; [|discriminate].
        cbn [bind] in E. destruct (mapM _ (map (NL s) ps)) as [r|]; [|discriminate]. cbn [bind] in E. injection E as <-. discriminate. }
      destruct ys as [|y ys]; [discriminate|]. injection Hl as Hl. destruct (hstack_outs N v vs y ys Hl) as [z Ez].
      assert (EM : mapM as_mat (map Arr2 (outs N (v :: vs) (y :: ys))) = Ok (outs N (v :: vs) (y :: ys))) by apply as_mats.
      set (Ys := outs N (v :: vs) (y :: ys)) in *. assert (EYs : exists m ms, Ys = m :: ms) by (unfold Ys, outs; cbn; eauto).
      destruct EYs as (m & ms & EYs). assert (EA : array_forward (map Arr2 Ys) (map snd ybs) = match map Arr2 Ys with [] => Err ValueError | PyList _ :: _ => list_forward (Arr2 (mkR N w x)) (map Arr2 Ys) (map snd ybs) | Rag _ _ _ :: _ => ragged_forward (map Arr2 Ys) (map snd ybs) | _ => array_forward (map Arr2 Ys) (map snd ybs) end) by (now rewrite EYs).
      rewrite <- EA. unfold array_forward. rewrite EM. cbn [bind]. rewrite Ez. cbn [bind]. eauto.
    - intros a p w v w' _ IH B N x. destruct (IH N x) as (y & b & E). cbn [net_layer]. unfold residual. rewrite E. cbn [bind fst snd].
      pose proof (mbin_any nadd N w x N v y) as M. rewrite bdim_refl, B in M. destruct M as [h Em]. cbn [vadd].
      rewrite madd_mbin, Em. cbn [bind]. eauto.
    - intros w N x. cbn. eauto.
    - intros p ps w v w' _ IH _ IHs N x. destruct (IH N x) as (y & b & E). cbn [map chain_loop]. rewrite E. cbn [bind fst snd].
      destruct (IHs N y) as (z & bs & Ez). rewrite Ez. cbn [bind fst snd]. eauto.
    - intros w. split.
      + intros N x. exists [], []. split; [reflexivity|split; reflexivity].
      + intros u _ N x y. cbn. eauto.
    - intros p ps w v vs _ IH _ [IHp IHa]. split.
      + intros N x. destruct (IH N x) as (y & b & E). destruct (IHp N x) as (ybs & ys & Es & Hl & Ey).
        exists ((Arr2 (mk N v y), b) :: ybs), (y :: ys). unfold call_all in *. cbn [map mapM]. rewrite E. cbn [bind]. rewrite Es. cbn [bind].
        split; [reflexivity|]. split; [cbn; now rewrite Hl|]. cbn. unfold outs in Ey. now rewrite Ey.
      + intros u HB N x y. apply Forall_cons_iff in HB as [B HB]. destruct (IH N x) as (z & b & E). cbn [map add_loop]. rewrite E. cbn [bind fst].
        destruct (iadd_run N u v y z B) as [q Eq]. rewrite Eq. cbn [bind]. destruct (IHa u HB N x q) as (z' & bs & Ez). rewrite Ez. cbn [bind fst snd]. eauto.
  Qed.
  Lemma fits_run s p w w' : all_sized s -> all_positive s -> fits s p w w' -> forall N x, exists y b, NL s p tr th (Arr2 (mkR N w x)) = Ok (Arr2 (mk N w' y), b).
  Proof. intros Ss Hp. apply (fits_run_all s Ss Hp). Qed.

  (** What ran once, fits. *)
  Definition learned s p : Prop := forall w N x Y b, NL s p tr th (Arr2 (mkR N w x)) = Ok (Y, b) -> exists w' y, Y = Arr2 (mkR N w' y) /\ fits s p w w'.
  Lemma learn_seq s ps : Forall (learned s) ps -> forall w N x Y b, chain_loop (map (NL s) ps) tr th (Arr2 (mkR N w x)) = Ok (Y, b) ->
    exists w' y, Y = Arr2 (mkR N w' y) /\ fits_seq s ps w w'.
  Proof.
    induction 1 as [|p ps Hp _ IH]; intros w N x Y b E.
    - injection E as <- <-. exists w, x. split; [reflexivity|constructor].
    - cbn [map chain_loop] in E. destruct (NL s p tr th (Arr2 (mkR N w x))) as [[Y1 b1]|] eqn:E1; [|discriminate]. cbn [bind fst snd] in E.
      destruct (Hp _ _ _ _ _ E1) as (v & y & -> & F1). destruct (chain_loop (map (NL s) ps) tr th (Arr2 (mk N v y))) as [[Y2 b2]|] eqn:E2; [|discriminate].
      cbn [bind fst snd] in E. injection E as <- <-. destruct (IH _ _ _ _ _ E2) as (w' & z & -> & F2). exists w', z. split; [reflexivity|]. econstructor; eauto.
  Qed.
  Lemma learn_par s ps : Forall (learned s) ps -> forall w N x ybs, call_all (map (NL s) ps) tr th (Arr2 (mkR N w x)) = Ok ybs ->
    exists vs ys, length ys = length vs /\ map fst ybs = map Arr2 (outs N vs ys) /\ fits_par s ps w vs.
  Proof.
    induction 1 as [|p ps Hp _ IH]; intros w N x ybs E; unfold call_all in *; cbn [map mapM] in E.
    - injection E as <-. exists [], []. repeat split. constructor.
    - destruct (NL s p tr th (Arr2 (mkR N w x))) as [[Y1 b1]|] eqn:E1; [|discriminate]. cbn [bind] in E.
      destruct (mapM _ (map (NL s) ps)) as [r|] eqn:E2; [|discriminate]. cbn [bind] in E. injection E as <-.
      destruct (Hp _ _ _ _ _ E1) as (v & y & -> & F1). destruct (IH _ _ _ _ E2) as (vs & ys & Hl & Ey & F2).
      exists (v :: vs), (y :: ys). split; [cbn; now rewrite Hl|]. split; [cbn; unfold outs in Ey; now rewrite Ey|]. constructor; assumption.
  Qed.
  Lemma learn_add s ps : Forall (learned s) ps -> forall w N x u y Y b, add_loop (map (NL s) ps) tr th (Arr2 (mkR N w x)) (Arr2 (mkR N u y)) = Ok (Y, b) ->
    (exists z, Y = Arr2 (mkR N u z)) /\ exists vs, fits_par s ps w vs /\ Forall (fun v => bdim u v = Some u) vs.
  Proof.
    induction 1 as [|p ps Hp _ IH]; intros w N x u y Y b E.
    - injection E as <- <-. split; [eauto|]. exists []. split; constructor.
    - cbn [map add_loop] in E. destruct (NL s p tr th (Arr2 (mkR N w x))) as [[Y1 b1]|] eqn:E1; [|discriminate]. cbn [bind fst snd] in E.
      destruct (Hp _ _ _ _ _ E1) as (v & z & -> & F1). destruct (iadd (Arr2 (mkR N u y)) (Arr2 (mkR N v z))) as [Y2|] eqn:E2; [|discriminate]. cbn [bind] in E.
      destruct (iadd_inv _ _ _ _ _ _ E2) as [B (q & ->)].
      destruct (add_loop (map (NL s) ps) tr th (Arr2 (mkR N w x)) (Arr2 (mkR N u q))) as [[Y3 b3]|] eqn:E3; [|discriminate]. cbn [bind fst snd] in E. injection E as <- <-.
      destruct (IH _ _ _ _ _ _ _ E3) as ((z' & ->) & vs & F2 & HB). split; [eauto|]. exists (v :: vs). split; [constructor; assumption|constructor; assumption].
  Qed.
  Lemma plain_all (ps : list net) : fold_right and True (map plain ps) -> Forall plain ps.
  Proof. induction ps as [|p ps IH]; cbn; [constructor|]. intros [H1 H2]. constructor; auto. Qed.
  Lemma run_fits s : all_sized s -> all_positive s -> forall p, plain p -> learned s p.
  Proof.
    intros Ss Hp. induction p as [a|a ps IH|a ps IH|a ps IH|a p IH|a ps IH] using net_ind'; intros Pl w N x Y b E; cbn [plain] in Pl.
    - destruct (leaf_total s a w Ss Hp) as (o & Hr & Ho). specialize (Hr N x). cbn [net_layer] in E. destruct o as [w'|].
      + destruct Hr as (y & b' & E'). rewrite E in E'. injection E' as -> ->. exists w', y. split; [reflexivity|]. constructor. now apply Ho.
      + destruct Hr as (e & E'). congruence.
    - assert (L : Forall (learned s) ps) by (apply plain_all in Pl; clear -IH Pl; induction Pl; constructor; inversion IH; subst; auto).
      cbn [net_layer] in E. unfold chain in E. destruct ps as [|p ps]; [discriminate|]. cbn [map] in E.
      destruct (chain_loop (NL s p :: map (NL s) ps) tr th (Arr2 (mkR N w x))) as [[Y1 b1]|] eqn:E1; [|discriminate]. cbn [bind fst] in E. injection E as <- <-.
      destruct (learn_seq s (p :: ps) L w N x Y1 b1 E1) as (w' & y & -> & F). exists w', y. split; [reflexivity|]. now constructor.
    - assert (L : Forall (learned s) ps) by (apply plain_all in Pl; clear -IH Pl; induction Pl; constructor; inversion IH; subst; auto).
      cbn [net_layer] in E. destruct ps as [|p ps].
      + cbn in E. injection E as <- <-. exists w, x. split; [reflexivity|constructor].
      + apply Forall_cons_iff in L as [L1 L2]. cbn [map] in E. unfold add in E. destruct (NL s p tr th (Arr2 (mkR N w x))) as [[Y1 b1]|] eqn:E1; [|discriminate]. cbn [bind fst snd] in E.
        destruct (L1 _ _ _ _ _ E1) as (v & y & -> & F1). destruct (add_loop (map (NL s) ps) tr th (Arr2 (mkR N w x)) (Arr2 (mk N v y))) as [[Y2 b2]|] eqn:E2; [|discriminate].
        cbn [bind fst snd] in E. injection E as <- <-. destruct (learn_add s ps L2 _ _ _ _ _ _ _ E2) as ((z & ->) & vs & F2 & HB). exists v, z. split; [reflexivity|]. econstructor; eauto.
    - assert (L : Forall (learned s) ps) by (apply plain_all in Pl; clear -IH Pl; induction Pl; constructor; inversion IH; subst; auto).
      cbn [net_layer] in E. unfold concatenation in E. destruct (call_all (map (NL s) ps) tr th (Arr2 (mkR N w x))) as [ybs|] eqn:E1; [|discriminate]. cbn [bind] in E.
      destruct (learn_par s ps L _ _ _ _ E1) as (vs & ys & Hl & Ey & F). rewrite Ey in E. destruct F as [|p ps w v vs F1 F2]; [discriminate|].
      destruct ys as [|y ys]; [discriminate|]. injection Hl as Hl. destruct (hstack_outs N v vs y ys Hl) as [z Ez].
      assert (EM : mapM as_mat (map Arr2 (outs N (v :: vs) (y :: ys))) = Ok (outs N (v :: vs) (y :: ys))) by apply as_mats.
      set (Ys := outs N (v :: vs) (y :: ys)) in *. assert (EYs : exists m ms, Ys = m :: ms) by (unfold Ys, outs; cbn; eauto).
      destruct EYs as (m & ms & EYs). 
      assert (EA : array_forward (map Arr2 Ys) (map snd ybs) = match map Arr2 Ys with [] => Err ValueError | PyList _ :: _ => list_forward (Arr2 (mkR N w x)) (map Arr2 Ys) (map snd ybs) | Rag _ _ _ :: _ => ragged_forward (map Arr2 Ys) (map snd ybs) | _ => array_forward (map Arr2 Ys) (map snd ybs) end) by (now rewrite EYs).
      rewrite <- EA in E. unfold array_forward in E. rewrite EM in E. cbn [bind] in E. rewrite Ez in E. cbn [bind] in E. injection E as <- <-. exists (list_sum (v :: vs)), z. split; [reflexivity|].
      constructor. constructor; assumption.
    - cbn [net_layer] in E. unfold residual in E. destruct (NL s p tr th (Arr2 (mkR N w x))) as [[Y1 b1]|] eqn:E1; [|discriminate]. cbn [bind fst snd] in E.
      destruct (IH Pl _ _ _ _ _ E1) as (v & y & -> & F1). cbn [vadd] in E. pose proof (mbin_any nadd N w x N v y) as M. rewrite bdim_refl in M.
      rewrite madd_mbin in E.
      destruct (bdim w v) as [c|] eqn:B.
      + destruct M as [h Eh]. rewrite Eh in E. cbn [bind] in E. injection E as <- <-. exists c, h. split; [reflexivity|]. econstructor; eauto.
      + rewrite M in E. discriminate.
    - destruct Pl.
  Qed.
End Heap.

(** ** Initialization *)
Section Ready.
  Variable draw : nat -> list Z -> result (arr R).
  Variable to_int : R -> Z.
  Variable numpy : bool.
  Hypothesis HD : shape_ok draw.
  Notation ist := (ist (T := R)).
  Notation init := (initialize draw to_int numpy).
  Notation as_sub := (fun q => mkSub (addr_of q) (init q) (predict numpy q)).

  Lemma positive_before (s s' : ist) : later s s' -> all_positive s' -> all_positive s.
  Proof. intros L Hp a name z D. apply (Hp a name). eapply later_dim; eauto. Qed.
  Lemma safe_seqa {A B} (m : act A) (k : A -> act B) : safe m -> (forall x, safe (k x)) -> safe (T := R) (seqa m k).
  Proof. intros Hm Hk. eapply tri_seq; [exact Hm|exact Hk]. Qed.
  Lemma safe_lift {A} (x : result A) : safe (T := R) (lift x). Proof. eapply tri_post; [apply tri_lift|auto]. Qed.
  Lemma safe_pure {A} (x : A) : safe (T := R) (pure x). Proof. exact (safe_lift (Ok x)). Qed.
  Lemma safe_self a : safe (T := R) (self a). Proof. eapply tri_post; [apply tri_self|auto]. Qed.
  Lemma safe_has a d : safe (T := R) (node_has_dim a d). Proof. apply safe_seqa; [apply safe_self|intros; apply safe_pure]. Qed.
  Lemma safe_get a d : safe (T := R) (node_get_dim a d). Proof. apply safe_seqa; [apply safe_self|intros; apply safe_lift]. Qed.
  Lemma safe_set a d v : safe (T := R) (node_set_dim a d v). Proof. eapply tri_post; [apply tri_set_dim, stable_true|auto]. Qed.
  Create HintDb sf.
  Hint Resolve @safe_lift @safe_pure safe_self safe_has safe_get safe_set : sf.
  Lemma safe_offer a d w : safe (T := R) (offer_dim a d w).
  Proof. apply safe_seqa; [auto with sf|intros h]. destruct (not_false h); auto with sf. Qed.
  Lemma safe_copy a d l : safe (T := R) (copy_dim a d l).
  Proof. apply safe_seqa; [auto with sf|intros h]. destruct (truthy h); [|auto with sf]. apply safe_seqa; auto with sf. Qed.
  Lemma safe_each {A} (f : A -> act unit) l : (forall x, safe (T := R) (f x)) -> safe (each f l).
  Proof. intros Hf. induction l as [|x l IH]; cbn; [auto with sf|apply safe_seqa; auto]. Qed.
  Lemma safe_head ls : safe (T := R) (head_of ls). Proof. apply safe_lift. Qed.
  Lemma safe_last ls : safe (T := R) (last_of ls). Proof. apply safe_lift. Qed.
  Hint Resolve safe_offer safe_copy safe_head safe_last : sf.
  Lemma safe_all_have d ls : safe (T := R) (all_have d ls).
  Proof. induction ls as [|l ls IH]; cbn; [auto with sf|]. apply safe_seqa; [auto with sf|intros ?]. apply safe_seqa; [exact IH|auto with sf]. Qed.
  Lemma safe_sum d ls : safe (T := R) (sum_dims d ls).
  Proof. induction ls as [|l ls IH]; cbn; [auto with sf|]. apply safe_seqa; [auto with sf|intros ?]. apply safe_seqa; [exact IH|auto with sf]. Qed.
  Lemma safe_go {A} (m : act A) s s' r : safe (T := R) m -> all_sized s -> m s = (s', r) -> all_sized s' /\ later s s'.
  Proof. intros Hm Ss E. destruct (Hm s Ss I) as (S' & L & _). rewrite E in *. auto. Qed.
  Lemma safe_catch (m k : act unit) : safe (T := R) m -> safe k -> safe (fun s => match m s with (s', Err ValueError) => k s' | r => r end).
  Proof. exact (tri_catch m k). Qed.
  Lemma init_safe p X Y : safe (init p X Y). Proof. exact (safe_init draw to_int numpy HD p X Y). Qed.

  (** A leaf *)
  Lemma leaf_init_fits a (m : mat R) Y s s' : leaf_init draw to_int a (Some (Arr2 m)) Y s = (s', Ok tt) -> all_sized s -> all_positive s' -> exists w', leaf_fits s' a (m_cols m) w'.
  Proof.
    intros E Ss Hp. destruct (tri_leaf draw to_int HD a (Some (Arr2 m)) Y s Ss I) as (_ & _ & Q). rewrite E in Q. destruct (Q tt eq_refl) as (k & K & Rk & TX & _).
    cbn [fst] in *. clear Q.
    assert (NN : forall d v, dim_at s' a d = Some v -> dim_at s' a d = Some (Z.of_nat (Z.to_nat v))) by (intros d v D; pose proof (Hp _ _ _ D); rewrite D; f_equal; lia).
    assert (TI : (k <= 4)%nat -> dim_at s' a "nI" = Some (Z.of_nat (m_cols m))) by (intros Hk; apply (TX Hk (Arr2 m)); reflexivity).
    destruct k as [|[|[|[|[|k]]]]].
    1-4: assert (DO : some_dim a "nO" s') by (cbn in Rk; tauto); destruct DO as [v Dv]; exists (Z.to_nat v); eexists; split; [exact K|]; split; [exact Rk|]; split; [apply TI; lia|now apply NN].
    - exists (m_cols m), 4. split; [exact K|]. split; [cbn in *; tauto|]. exists (m_cols m). split; [apply TI; lia|]. unfold norm_width. now rewrite bdim_refl, bdim_refl, Nat.eqb_refl.
    - exists (m_cols m), (S (S (S (S (S k))))). split; [exact K|]. split; [exact I|reflexivity].
  Qed.

  (** A chain *)
  Lemma walk_later ps X Y s s' r : chain_walk (map as_sub ps) X Y s = (s', r) -> later s s'.
  Proof.
    intros E. assert (G : grows (chain_walk (map as_sub ps) X Y)).
    { clear E. revert X. induction ps as [|p ps IH]; intros X; cbn; [apply grows_pure|].
      apply grows_seqa; [apply grows_has_dim|intros h]. apply grows_seqa; [destruct h; apply grows_init|intros _].
      apply grows_seqa; [|intros; apply IH]. destruct X; [apply grows_seqa; [apply grows_predict|intros; apply grows_pure]|apply grows_pure]. }
    specialize (G s). now rewrite E in G.
  Qed.
  Definition batch (m : mat R) : Prop := exists N w x, m = mkR N w x.
  Lemma walk_fits : forall ps, Forall plain ps -> forall w N x Y s s' out, chain_walk (map as_sub ps) (Some (Arr2 (mkR N w x))) Y s = (s', Ok out) -> all_sized s -> all_positive s' ->
    all_sized s' /\ later s s' /\ exists w' y, out = Some (Arr2 (mkR N w' y)) /\ fits_seq s' ps w w'.
  Proof.
    induction 1 as [|p ps Pl _ IH]; intros w N x Y s s' out E Ss Hp.
    - injection E as <- <-. split; [exact Ss|]. split; [apply later_refl|]. exists w, x. split; [reflexivity|constructor].
    - cbn [map chain_walk s_addr s_init s_predict] in E. apply seqa_inv in E as (s0 & h & E0 & E).
      destruct (safe_go _ _ _ _ (safe_has _ _) Ss E0) as [S0 L0].
      apply seqa_inv in E as (s1 & [] & E1 & E). assert (SL : all_sized s1 /\ later s0 s1) by (destruct h; eapply safe_go; eauto; apply init_safe). destruct SL as [S1 L1]. clear E1.
      apply seqa_inv in E as (s2 & nx & E2 & E). apply seqa_inv in E2 as (s3 & y3 & E3 & E2). injection E2 as <- <-.
      unfold predict in E3. destruct (net_layer numpy (i_heap s1) p false [] (Arr2 (mkR N w x))) as [[y b]|] eqn:EN; [|discriminate]. cbn [bind fst] in E3. injection E3 as <- <-.
      assert (S' : later s1 s') by (eapply walk_later; eauto).
      assert (P1 : all_positive s1) by (eapply positive_before; eauto).
      destruct (run_fits numpy false [] s1 S1 P1 p Pl w N x y b EN) as (w1 & y1 & -> & F1).
      destruct (IH _ _ _ _ _ _ _ E S1 Hp) as (S2 & L2 & w' & z & -> & F2).
      split; [exact S2|]. split; [eapply later_trans; [exact L0|eapply later_trans; eauto]|]. exists w', z. split; [reflexivity|]. econstructor; [|exact F2]. eapply fits_later; eauto.
  Qed.
  Lemma chain_fits a ps (m : mat R) Y s s' : Forall plain ps -> wf_mat m -> init (NChain a ps) (Some (Arr2 m)) Y s = (s', Ok tt) -> all_sized s -> all_positive s' ->
    exists s1 w' y, chain_walk (map as_sub ps) (Some (Arr2 m)) Y s = (s1, Ok (Some (Arr2 (mkR (length (m_rows m)) w' y)))) /\ later s1 s' /\ fits s' (NChain a ps) (m_cols m) w'.
  Proof.
    intros Pl Wm E Ss Hp. cbn [initialize] in E. unfold chain_init in E. apply seqa_inv in E as (s0 & [] & E0 & E).
    assert (E0' : (s, Ok tt) = (s0, Ok tt)) by (destruct Y; exact E0). injection E0' as <-. clear E0.
    apply seqa_inv in E as (s1 & out & E1 & E). apply seqa_inv in E as (s2 & first & E2 & E).
    assert (L1 : later s s1) by (eapply walk_later; eauto).
    assert (S1 : all_sized s1).
    { assert (SW : safe (chain_walk (map as_sub ps) (Some (Arr2 m)) Y)).
      { generalize (Some (Arr2 m)). clear -HD. induction ps as [|p ps IH]; intros X; cbn; [auto with sf|].
        apply safe_seqa; [auto with sf|intros h]. apply safe_seqa; [destruct h; apply init_safe|intros _].
        apply safe_seqa; [|intros; apply IH]. destruct X; [|auto with sf]. apply safe_seqa; [|auto with sf].
        intros s Ss _. cbn. repeat split; auto using later_refl. }
      exact (proj1 (safe_go _ _ _ _ SW Ss E1)). }
    assert (PS : ps <> []) by (intros ->; discriminate E2).
    destruct (safe_go _ _ _ _ (safe_head _) S1 E2) as [S2 L2].
    assert (L3 : later s2 s').
    { revert E. match goal with |- ?k s2 = _ -> _ => assert (SK : safe k); [|intros E; exact (proj2 (safe_go _ _ _ _ SK S2 E))] end.
      apply safe_seqa; [auto with sf|intros _]. apply safe_seqa; [auto with sf|intros h]. destruct h; [auto with sf|].
      apply (safe_catch (seqa (lift _) (fun w => node_set_dim a "nO" w)) (seqa (last_of _) (fun l => copy_dim a "nO" l))); apply safe_seqa; auto with sf. }
    assert (P1 : all_positive s1) by (eapply positive_before; [|exact Hp]; eapply later_trans; eauto).
    rewrite (mat_mk m Wm) in E1 at 1.
    destruct (walk_fits ps Pl (m_cols m) (length (m_rows m)) (ent m) Y s s1 out E1 Ss P1) as (_ & _ & w' & y & -> & F).
    exists s1, w', y. split; [rewrite (mat_mk m Wm) at 1; exact E1|]. split; [eapply later_trans; eauto|].
    destruct ps as [|p ps]; [congruence|]. constructor. apply (fits_later_all s1 s'); [eapply later_trans; eauto|exact F].
  Qed.

  (** Everything that is tried out *)
  Lemma init_fits : forall p, tried p -> forall (m : mat R) Y s s', wf_mat m -> init p (Some (Arr2 m)) Y s = (s', Ok tt) -> all_sized s -> all_positive s' -> exists w', fits s' p (m_cols m) w'.
  Proof.
    induction p as [a|a ps IH|a ps IH|a ps IH|a q IHp|a ps IH] using net_ind'; cbn [tried]; intros Tr m Y s s' Wm E Ss Hp; try contradiction.
    - destruct (leaf_init_fits a m Y s s' E Ss Hp) as [w' F]. exists w'. now constructor.
    - destruct (chain_fits a ps m Y s s' (plain_all ps Tr) Wm E Ss Hp) as (s1 & w' & y & _ & _ & F). eauto.
    - destruct Tr as [PS Tr]. cbn [initialize] in E. unfold concat_init in E. apply seqa_inv in E as (s0 & [] & E0 & E).
      assert (SO : safe (with_width to_int (Some (Arr2 m)) (fun w => seqa (offer_dim a "nI" w) (fun _ => each (fun l => offer_dim (s_addr l) "nI" w) (map as_sub ps))))).
      { cbn. apply safe_seqa; [auto with sf|intros w]. apply safe_seqa; [auto with sf|intros _]. apply safe_each. auto with sf. }
      destruct (safe_go _ _ _ _ SO Ss E0) as [S0 L0]. clear SO E0.
      apply seqa_inv in E as (s1 & [] & E1 & E).
      assert (L1 : later s1 s').
      { assert (S1 : all_sized s1) by (refine (proj1 (safe_go _ _ _ _ _ S0 E1)); clear -HD; induction ps as [|q ps IH]; cbn; [auto with sf|apply safe_seqa; [apply init_safe|intros; exact IH]]).
        revert E. match goal with |- ?k s1 = _ -> _ => assert (SK : safe k); [|intros E; exact (proj2 (safe_go _ _ _ _ SK S1 E))] end.
        apply safe_seqa; [apply safe_all_have|intros b]. destruct b; [|auto with sf]. apply safe_seqa; [apply safe_sum|auto with sf]. }
      assert (FP : exists vs, fits_par s1 ps (m_cols m) vs).
      { assert (P1 : all_positive s1) by (eapply positive_before; eauto). clear E L0 L1 Hp Ss PS. revert s0 S0 E1. induction IH as [|q qs Hq _ IHq]; intros s0 S0 E1.
        - exists []. constructor.
        - cbn [map each] in E1. apply seqa_inv in E1 as (s2 & [] & E2 & E3). destruct Tr as [T1 T2]. cbn [s_init] in E2.
          destruct (safe_go _ _ _ _ (init_safe _ _ _) S0 E2) as [S2 L2].
          assert (L3 : later s2 s1).
          { refine (proj2 (safe_go _ _ _ _ _ S2 E3)). clear -HD. induction qs as [|q' ps IH]; cbn; [auto with sf|apply safe_seqa; [apply init_safe|intros; exact IH]]. }
          destruct (Hq T1 m Y s0 s2 Wm E2 S0 (positive_before _ _ L3 P1)) as [v F]. destruct (IHq T2 s2 S2 E3) as [vs Fs]. exists (v :: vs). constructor; [eapply fits_later; eauto|exact Fs]. }
      destruct FP as [vs F]. destruct ps as [|q qs]; [congruence|]. exists (list_sum vs). constructor. apply (fits_later_all s1 s' L1). exact F.
  Qed.
  Lemma fits_maps s p w w' : all_sized s -> all_positive s -> fits s p w w' -> maps_widths numpy s p w w'.
  Proof.
    intros Ss Hp F m Wm <-. destruct (fits_run numpy false [] s p _ w' Ss Hp F (length (m_rows m)) (ent m)) as (y & b & E).
    exists (mkR (length (m_rows m)) w' y). rewrite <- (mat_mk m Wm) in E. unfold predict. rewrite E. cbn [bind fst]. repeat split; [apply mk_wf|apply mk_rows].
  Qed.
  Lemma init_ready p m Y s s' : tried p -> wf_mat m -> all_sized s -> init p (Some (Arr2 m)) Y s = (s', Ok tt) -> all_positive s' -> exists w', maps_widths numpy s' p (m_cols m) w'.
  Proof.
    intros Tr Wm Ss E Hp. destruct (init_fits p Tr m Y s s' Wm E Ss Hp) as [w' F]. exists w'. apply fits_maps; auto.
    exact (proj1 (safe_go _ _ _ _ (init_safe _ _ _) Ss E)).
  Qed.
  Lemma shape_only p m y s : plain p -> all_sized s -> all_positive s -> wf_mat m -> predict numpy p (Arr2 m) s = (s, Ok y) ->
    exists Y, y = Arr2 Y /\ maps_widths numpy s p (m_cols m) (m_cols Y).
  Proof.
    intros Pl Ss Hp Wm E. unfold predict in E. destruct (net_layer numpy (i_heap s) p false [] (Arr2 m)) as [[Y b]|] eqn:EN; [|discriminate]. cbn [bind fst] in E. injection E as <-.
    rewrite (mat_mk m Wm) in EN. destruct (run_fits numpy false [] s Ss Hp p Pl _ _ _ _ _ EN) as (w' & y & -> & F).
    exists (mkR (length (m_rows m)) w' y). split; [reflexivity|]. now apply fits_maps.
  Qed.
  Lemma chain_width a ps m Y s s' n : plain (NChain a ps) -> wf_mat m -> all_sized s -> init (NChain a ps) (Some (Arr2 m)) Y s = (s', Ok tt) -> all_positive s' ->
    nth_error (i_heap s) a = Some n -> has_dim n "nO" = None -> ~ In a (flat_map addrs ps) ->
    exists w', maps_widths numpy s' (NChain a ps) (m_cols m) w' /\ dim_at s' a "nO" = Some (Z.of_nat w').
  Proof.
    intros Pl Wm Ss E Hp En Hn Ha. destruct (chain_fits a ps m Y s s' (plain_all ps Pl) Wm E Ss Hp) as (s1 & w' & y & E1 & L1 & F).
    exists w'. split; [apply fits_maps; auto; exact (proj1 (safe_go _ _ _ _ (init_safe _ _ _) Ss E))|].
    cbn [initialize] in E. unfold chain_init in E. apply seqa_inv in E as (s0 & [] & E0 & E).
    assert (E0' : (s, Ok tt) = (s0, Ok tt)) by (destruct Y; exact E0). injection E0' as <-. clear E0.
    apply seqa_inv in E as (s1' & out & E1' & E). rewrite E1 in E1'. injection E1' as <- <-.
    apply seqa_inv in E as (s2 & first & E2 & E). assert (S2 : s1 = s2) by (unfold head_of, lift in E2; now injection E2). subst s2.
    assert (K1 : nth_error (i_heap s1) a = Some n).
    { assert (KW : keeps (fun b => In b (flat_map addrs ps)) (chain_walk (map as_sub ps) (Some (Arr2 m)) Y)).
      { assert (KA : forall qs, incl (flat_map addrs qs) (flat_map addrs ps) -> forall X, keeps (fun b => In b (flat_map addrs ps)) (chain_walk (map as_sub qs) X Y)); [|apply KA, incl_refl].
        induction qs as [|q qs IH]; intros Hi X; cbn; [apply keeps_pure|]. cbn in Hi. apply incl_app_inv in Hi as [H1 H2].
        apply keeps_seqa; [apply keeps_has_dim|intros h]. apply keeps_seqa; [destruct h; now apply keeps_init|intros _].
        apply keeps_seqa; [|intros; now apply IH]. destruct X; [apply keeps_seqa; [apply keeps_predict|intros; apply keeps_pure]|apply keeps_pure]. }
      specialize (KW s a Ha). rewrite E1 in KW. cbn in KW. congruence. }
    apply seqa_inv in E as (s3 & [] & E3 & E).
    assert (K3 : exists n3, nth_error (i_heap s3) a = Some n3 /\ dget "nO" (n_dims n3) = Some None).
    { assert (Dn : dget "nO" (n_dims n) = Some None) by (unfold has_dim in Hn; destruct (dget "nO" (n_dims n)) as [[v|]|]; congruence).
      unfold copy_dim in E3. apply seqa_inv in E3 as (s4 & h & E4 & E3). assert (s1 = s4) as <- by (unfold node_has_dim in E4; apply seqa_inv in E4 as (s5 & n5 & E5 & E4); unfold self in E5; injection E5 as <- _; now injection E4).
      destruct (truthy h); [|injection E3 as <-; eauto].
      apply seqa_inv in E3 as (s5 & v & E5 & E3). assert (s1 = s5) as <- by (unfold node_get_dim in E5; apply seqa_inv in E5 as (s6 & n6 & E6 & E5); unfold self in E6; injection E6 as <- _; now injection E5).
      rewrite set_dim_run, K1 in E3. injection E3 as <- E3. cbn [i_heap]. exists (fst (set_dim n "nI" v false)). split; [apply nth_error_set_nth_eq, nth_error_Some; congruence|].
      unfold set_dim. destruct (dget "nI" (n_dims n)) as [old|]; [|exact Dn]. cbn [negb andb].
      match goal with |- dget "nO" (n_dims (fst (if ?b then _ else _))) = _ => destruct b end; [exact Dn|]. cbn [fst n_dims with_dims]. rewrite dget_dset. destruct (eqd "nO" "nI") as [X|]; [discriminate X|exact Dn]. }
    destruct K3 as (n3 & K3 & D3). apply seqa_inv in E as (s4 & h & E4 & E).
    unfold node_has_dim in E4. apply seqa_inv in E4 as (s5 & n5 & E5 & E4). unfold self in E5. rewrite K3 in E5. injection E5 as <- <-. injection E4 as <- <-.
    unfold has_dim in E. rewrite D3 in E.
    unfold seqa at 1 in E. unfold lift in E. cbn [get_width m_cols mk] in E. rewrite set_dim_run, K3 in E. unfold set_dim in E. rewrite D3 in E. cbn [negb andb fst snd] in E.
    injection E as <-. unfold dim_at. cbn [i_heap]. rewrite nth_error_set_nth_eq by (apply nth_error_Some; congruence). unfold dim_of. cbn [n_dims with_dims]. rewrite dget_dset. destruct (eqd "nO" "nO"); [reflexivity|congruence].
  Qed.
End Ready.
