(** The combinators satisfy the chain rule. *)
From Verif Require Import CombModel CombSpec CombProofs MatProofs BaseFacts ReduceMaxProofs.
From Coq Require Import Reals Lra Lia.
Set Default Goal Selector "!".
Local Open Scope R_scope.

(** ** Several layers side by side *)

Inductive all3 {A B C} (Q : A -> B -> C -> Prop) : list A -> list B -> list C -> Prop :=
| all3_nil : all3 Q [] [] []
| all3_cons a b c la lb lc : Q a b c -> all3 Q la lb lc -> all3 Q (a :: la) (b :: lb) (c :: lc).

Definition calls (ls : list (layer R)) (tr : bool) (theta : list R) (Xs : list (value R)) :=
  mapM (fun p => fst p tr theta (snd p)) (combine ls Xs).
Definition isum (ds : list (value R)) (Ks : list (value jet)) : R :=
  msum (map (fun p => inner (fst p) (vmap velocity (snd p))) (combine ds Ks)).
Definition all_smooth (Ks : list (value jet)) : Prop := Forall (fun K => Forall smooth (leaves K)) Ks.

Lemma pars_ok tr theta ls Xs Ys : all3 (fun l X Y => differentiates l tr theta X Y) ls Xs Ys ->
  exists cbs, length cbs = length Ys /\ calls ls tr theta Xs = Ok (combine Ys cbs) /\ Forall wfv Ys /\
  forall dYs g, Forall2 like dYs Ys -> length g = length theta ->
  exists dXs g', call_back cbs dYs g = Ok (dXs, g') /\ Forall2 like dXs Xs /\ length g' = length theta /\
  forall P Ks, map (at_time 0) P = theta -> map (vmap (at_time 0)) Ks = Xs -> Forall smooth P -> all_smooth Ks ->
  exists Ks', length Ks' = length Ys /\ all_smooth Ks' /\
    (forall s, exists cbs', length cbs' = length Ys /\
       calls ls tr (map (at_time s) P) (map (vmap (at_time s)) Ks) = Ok (combine (map (vmap (at_time s)) Ks') cbs')) /\
    isum dYs Ks' = isum dXs Ks + (dot g' (map velocity P) - dot g (map velocity P)).
Proof.
  induction 1 as [|l X Y ls Xs Ys H1 _ IH].
  - exists []. repeat split; [constructor|]. intros dYs g HdY Hg. inversion HdY; subst.
    exists [], g. repeat split; [constructor|exact Hg|]. intros P Ks _ HK _ _.
    destruct Ks; [|discriminate]. exists []. repeat split; [constructor| |unfold isum; cbn; lra].
    intros s. exists []. split; reflexivity.
  - destruct IH as (cbs & Lc & Ec & Wc & Bc). destruct H1 as (b & Eb & Wb & Bb).
    exists (b :: cbs). split; [cbn; congruence|]. split.
    { unfold calls in *. cbn. rewrite Eb. cbn. rewrite Ec. reflexivity. }
    split; [now constructor|].
    intros dYs g HdY Hg. inversion HdY as [|dY ? dYs' ? H0 HdYs]; subst.
    destruct (Bb dY g H0 Hg) as (dX & g1 & E1 & LX & Lg1 & C1).
    destruct (Bc dYs' g1 HdYs Lg1) as (dXs & g2 & E2 & LXs & Lg2 & C2).
    exists (dX :: dXs), g2. split; [cbn; rewrite E1; cbn; rewrite E2; reflexivity|].
    split; [now constructor|]. split; [exact Lg2|].
    intros P Ks HP HK SP SK. destruct Ks as [|K Ks]; [discriminate|]. injection HK as HK HKs.
    apply Forall_cons_iff in SK as [SK SKs].
    destruct (C1 P K HP HK SP SK) as (K' & SK' & F1 & A1).
    destruct (C2 P Ks HP HKs SP SKs) as (Ks' & LK' & SKs' & F2 & A2).
    exists (K' :: Ks'). split; [cbn; congruence|]. split; [now constructor|]. split.
    + intros s. destruct (F1 s) as (b' & Eb'). destruct (F2 s) as (cbs' & Lc' & Ec').
      exists (b' :: cbs'). split; [cbn; congruence|]. unfold calls in *. cbn. rewrite Eb'. cbn. rewrite Ec'. reflexivity.
    + unfold isum in *. cbn [combine map fst snd]. rewrite !msum_cons, A1, A2. ring.
Qed.

Lemma calls_same ls tr theta X : calls ls tr theta (repeat X (length ls)) = call_all ls tr theta X.
Proof. unfold calls, call_all. induction ls as [|l ls IH]; cbn; [reflexivity|]. now rewrite IH. Qed.
Lemma map_repeat' {A B} (f : A -> B) x n : map f (repeat x n) = repeat (f x) n.
Proof. induction n; cbn; congruence. Qed.
Lemma all3_same Q ls X Ys : Forall2 (fun l Y => Q l X Y) ls Ys -> @all3 (layer R) (value R) (value R) Q ls (repeat X (length ls)) Ys.
Proof. induction 1; cbn; constructor; assumption. Qed.
Lemma Forall2_same {A B} (Q : A -> B -> Prop) l x n : Forall2 Q l (repeat x n) -> Forall (fun a => Q a x) l /\ length l = n.
Proof. revert l. induction n as [|n IH]; cbn; intros l H; inversion H; subst; [split; [constructor|reflexivity]|]. destruct (IH _ H4). split; [now constructor|cbn; congruence]. Qed.
Lemma Forall_repeat' {A} (Q : A -> Prop) x n : Q x -> Forall Q (repeat x n).
Proof. intros Hx. induction n; cbn; constructor; assumption. Qed.
Lemma isum_same ds : forall K n, length ds = n -> isum ds (repeat K n) = msum (map (fun d => inner d (vmap velocity K)) ds).
Proof.
  induction ds as [|d ds IH]; intros K n E; subst; [reflexivity|]. cbn [length repeat].
  unfold isum in *. cbn [combine map fst snd]. rewrite !msum_cons. now rewrite IH.
Qed.
Lemma isum_same_l d : forall Ks n, length Ks = n -> isum (repeat d n) Ks = msum (map (fun K => inner d (vmap velocity K)) Ks).
Proof.
  induction Ks as [|K Ks IH]; intros n E; subst; [reflexivity|]. cbn [length repeat].
  unfold isum in *. cbn [combine map fst snd]. rewrite !msum_cons. now rewrite IH.
Qed.
Lemma Forall2_len {A B} (Q : A -> B -> Prop) l l' : Forall2 Q l l' -> length l = length l'.
Proof. induction 1; cbn; congruence. Qed.

(** The same input for every layer. *)
Lemma fan_ok tr theta ls X Ys : Forall2 (fun l Y => differentiates l tr theta X Y) ls Ys ->
  exists cbs, length cbs = length Ys /\ call_all ls tr theta X = Ok (combine Ys cbs) /\ Forall wfv Ys /\
  forall dYs g, Forall2 like dYs Ys -> length g = length theta ->
  exists dXs g', call_back cbs dYs g = Ok (dXs, g') /\ Forall (fun d => like d X) dXs /\ length dXs = length Ys /\ length g' = length theta /\
  forall P K, map (at_time 0) P = theta -> vmap (at_time 0) K = X -> Forall smooth P -> Forall smooth (leaves K) ->
  exists Ks', length Ks' = length Ys /\ all_smooth Ks' /\
    (forall s, exists cbs', length cbs' = length Ys /\
       call_all ls tr (map (at_time s) P) (vmap (at_time s) K) = Ok (combine (map (vmap (at_time s)) Ks') cbs')) /\
    isum dYs Ks' = msum (map (fun d => inner d (vmap velocity K)) dXs) + (dot g' (map velocity P) - dot g (map velocity P)).
Proof.
  intros F. pose proof (Forall2_len _ _ _ F) as Ll. apply (all3_same (fun l X Y => differentiates l tr theta X Y)) in F.
  destruct (pars_ok _ _ _ _ _ F) as (cbs & Lc & Ec & Wc & Bc). rewrite calls_same in Ec.
  exists cbs. repeat split; try assumption. intros dYs g HdY Hg.
  destruct (Bc dYs g HdY Hg) as (dXs & g' & Ed & Ld & Lg & C). apply Forall2_same in Ld as [Ld Ln].
  exists dXs, g'. repeat split; try assumption; [congruence|]. intros P K HP HK SP SK.
  destruct (C P (repeat K (length ls)) HP) as (Ks' & LK & SK' & FK & AK).
  - now rewrite map_repeat', HK.
  - exact SP.
  - now apply Forall_repeat'.
  - exists Ks'. repeat split; try assumption.
    + intros s. destruct (FK s) as (cbs' & L' & E'). exists cbs'. split; [exact L'|].
      rewrite map_repeat', calls_same in E'. exact E'.
    + rewrite AK. rewrite isum_same by congruence. reflexivity.
Qed.
Lemma map_fst_combine {A B} (a : list A) : forall (b : list B), length b = length a -> map fst (combine a b) = a.
Proof. induction a as [|x a IH]; intros [|y b] E; cbn in *; try discriminate; [reflexivity|]. f_equal. apply IH. congruence. Qed.
Lemma map_snd_combine {A B} (a : list A) : forall (b : list B), length b = length a -> map snd (combine a b) = b.
Proof. induction a as [|x a IH]; intros [|y b] E; cbn in *; try discriminate; [reflexivity|]. f_equal. apply IH. congruence. Qed.

(** ** chain *)

Lemma chain_back_app (a b : list (callback R)) dY g :
  chain_back (a ++ b) dY g = let* p := chain_back a dY g in chain_back b (fst p) (snd p).
Proof.
  revert dY g. induction a as [|c a IH]; intros dY g; cbn; [reflexivity|].
  destruct (c dY g) as [p|e]; cbn; [apply IH|reflexivity].
Qed.
Lemma chain_loop_ok tr theta ls X Z : chained (fun l X Y => differentiates l tr theta X Y) ls X Z ->
  exists cbs, chain_loop ls tr theta X = Ok (Z, cbs) /\ wfv Z /\
  forall dY g, like dY Z -> length g = length theta ->
  exists dX g', chain_back (rev cbs) dY g = Ok (dX, g') /\ like dX X /\ length g' = length theta /\
  forall P K, map (at_time 0) P = theta -> vmap (at_time 0) K = X -> Forall smooth P -> Forall smooth (leaves K) ->
  exists K', Forall smooth (leaves K') /\
    (forall s, exists cbs', chain_loop ls tr (map (at_time s) P) (vmap (at_time s) K) = Ok (vmap (at_time s) K', cbs')) /\
    inner dY (vmap velocity K') = inner dX (vmap velocity K) + (dot g' (map velocity P) - dot g (map velocity P)).
Proof.
  induction 1 as [l X Y (b & Eb & Wb & Bb)|l ls X Y Z (b & Eb & Wb & Bb) _ (cbs & Ec & Wc & Bc)].
  - exists [b]. cbn. rewrite Eb. split; [reflexivity|]. split; [exact Wb|]. intros dY g H1 H2.
    destruct (Bb dY g H1 H2) as (dX & g' & E & L & Lg & C). exists dX, g'. rewrite E. repeat split; try assumption.
    intros P K HP HK SP SK. destruct (C P K HP HK SP SK) as (K' & S' & F & A). exists K'. repeat split; try assumption.
    intros s. destruct (F s) as (b' & E'). rewrite E'. eexists. reflexivity.
  - exists (b :: cbs). cbn. rewrite Eb. cbn. rewrite Ec. split; [reflexivity|]. split; [exact Wc|]. intros dY g H1 H2.
    destruct (Bc dY g H1 H2) as (dY1 & g1 & E1 & L1 & Lg1 & C1).
    destruct (Bb dY1 g1 L1 Lg1) as (dX & g' & E & L & Lg & C). exists dX, g'.
    rewrite chain_back_app, E1. cbn. rewrite E. repeat split; try assumption.
    intros P K HP HK SP SK. destruct (C P K HP HK SP SK) as (K1 & S1 & F1 & A1).
    assert (HK1 : vmap (at_time 0) K1 = Y).
    { destruct (F1 0) as (b' & E'). rewrite HP, HK, Eb in E'. now injection E'. }
    destruct (C1 P K1 HP HK1 SP S1) as (K2 & S2 & F2 & A2). exists K2. split; [exact S2|]. split.
    + intros s. destruct (F1 s) as (b1 & E1'). destruct (F2 s) as (b2 & E2'). rewrite E1'. cbn. rewrite E2'. eexists. reflexivity.
    + rewrite A2, A1. ring.
Qed.
Lemma chain_ok tr theta ls X Z : chained (fun l X Y => differentiates l tr theta X Y) ls X Z ->
  differentiates (chain ls) tr theta X Z.
Proof.
  intros H. destruct (chain_loop_ok _ _ _ _ _ H) as (cbs & E & W & B).
  assert (Hne : ls <> []) by (inversion H; discriminate).
  destruct ls as [|l ls]; [contradiction|]. unfold differentiates, chain. rewrite E. cbn [bind fst snd].
  eexists. split; [reflexivity|]. split; [exact W|]. intros dY g H1 H2.
  destruct (B dY g H1 H2) as (dX & g' & E' & L & Lg & C). exists dX, g'. repeat split; try assumption.
  intros P K HP HK SP SK. destruct (C P K HP HK SP SK) as (K' & S' & F & A). exists K'. repeat split; try assumption.
  intros s. destruct (F s) as (b' & Eb). rewrite Eb. eexists. reflexivity.
Qed.

Lemma noop_ok tr theta X : wfv X -> differentiates noop tr theta X X.
Proof.
  intros W. eexists. split; [reflexivity|]. split; [exact W|]. intros dY g H1 H2. exists dY, g.
  repeat split; try assumption. intros P K HP HK SP SK. exists K. repeat split; [exact SK| |lra].
  intros s. eexists. reflexivity.
Qed.

(** ** add *)

Lemma add_loop_split ls tr theta X : forall Y Ys (cbs : list (callback R)) Z, call_all ls tr theta X = Ok (combine Ys cbs) -> length cbs = length Ys ->
  iadd_all Y Ys = Ok Z -> add_loop ls tr theta X Y = Ok (Z, cbs).
Proof.
  unfold call_all. induction ls as [|l ls IH]; intros Y Ys cbs Z E L EZ.
  - cbn in E. destruct Ys as [|y Ys], cbs as [|c cbs]; try discriminate. cbn in *. now injection EZ as ->.
  - cbn in E. destruct (l tr theta X) as [yb|e] eqn:El; [|discriminate]. cbn in E.
    destruct (mapM _ ls) as [r|e] eqn:Er; [|discriminate]. cbn in E.
    destruct Ys as [|y Ys], cbs as [|c cbs]; try discriminate. cbn in E. injection E as -> ->.
    cbn in EZ. destruct (iadd Y y) as [Y'|e] eqn:Ey; [|discriminate]. cbn in EZ.
    cbn. rewrite El. cbn. rewrite Ey. cbn. rewrite (IH Y' Ys cbs Z eq_refl); [reflexivity|cbn in L; congruence|exact EZ].
Qed.
Lemma add_back_split (cbs : list (callback R)) dY : forall dX g dXs g' Z, call_back cbs (repeat dY (length cbs)) g = Ok (dXs, g') ->
  iadd_all dX dXs = Ok Z -> add_back cbs dY dX g = Ok (Z, g').
Proof.
  induction cbs as [|c cbs IH]; intros dX g dXs g' Z E EZ; cbn in E.
  - injection E as <- <-. cbn in *. now injection EZ as ->.
  - destruct (c dY g) as [p|e] eqn:Ec; [|discriminate]. cbn in E.
    destruct (call_back cbs (repeat dY (length cbs)) (snd p)) as [[ds g1]|e] eqn:Er; [|discriminate].
    cbn in E. injection E as <- <-. cbn in EZ. destruct (iadd dX (fst p)) as [d|e] eqn:Ed; [|discriminate].
    cbn in *. rewrite Ec. cbn. rewrite Ed. cbn. now apply (IH d (snd p) ds g1 Z).
Qed.
Lemma Forall2_repeat_l {A B} (Q : A -> B -> Prop) x l : Forall (Q x) l -> Forall2 Q (repeat x (length l)) l.
Proof. induction 1; cbn; constructor; assumption. Qed.

Lemma like_like_l {A B C} (Z : value C) (d : value A) (v : value B) : like d Z -> like v Z -> like d v.
Proof. intros H1 H2. eapply like_trans; [exact H1|now apply like_sym]. Qed.

Lemma combine_inj {A B} (a : list A) : forall (b : list B) a' b', length b = length a -> length b' = length a' -> combine a b = combine a' b' -> a = a' /\ b = b'.
Proof.
  intros b a' b' L L' E. split.
  - rewrite <- (map_fst_combine a b L), <- (map_fst_combine a' b' L'). now rewrite E.
  - rewrite <- (map_snd_combine a b L), <- (map_snd_combine a' b' L'). now rewrite E.
Qed.

(** The outputs at time 0 are the given ones. *)
Lemma at_zero_all ls tr theta X Ys (cbs : list (callback R)) P K Ks' :
  call_all ls tr theta X = Ok (combine Ys cbs) -> length cbs = length Ys ->
  map (at_time 0) P = theta -> vmap (at_time 0) K = X -> length Ks' = length Ys ->
  (forall s, exists cbs', length cbs' = length Ys /\
     call_all ls tr (map (at_time s) P) (vmap (at_time s) K) = Ok (combine (map (vmap (at_time s)) Ks') cbs')) ->
  map (vmap (at_time 0)) Ks' = Ys.
Proof.
  intros E L HP HK LK F. destruct (F 0) as (cbs' & L' & E'). rewrite HP, HK, E in E'. injection E' as E'.
  symmetry. refine (proj1 (combine_inj _ _ _ _ L _ E')). now rewrite map_length, LK.
Qed.
Lemma like_bases (Ks : list (value jet)) Ys (Z : value R) : map (vmap (at_time 0)) Ks = Ys -> Forall (fun Y => like Y Z) Ys ->
  Forall (fun K => like K Z) Ks.
Proof.
  intros <- H. rewrite Forall_map in H. eapply Forall_impl; [|exact H]. intros K HK. cbn in HK.
  eapply like_trans; [apply like_sym, (like_vmap (at_time 0))|exact HK].
Qed.

Lemma sum_curve (K : value jet) Ks s : has_data K -> Forall (fun k => like k K) Ks ->
  vmap (at_time s) (fold_left zadd Ks K) = fold_left zadd (map (vmap (at_time s)) Ks) (vmap (at_time s) K).
Proof. intros _ _. now apply zsum_vmap. Qed.

Lemma add_ok tr theta l ls X Y Ys : is_array X -> is_array Y ->
  differentiates l tr theta X Y -> Forall2 (fun l Y => differentiates l tr theta X Y) ls Ys ->
  Forall (fun Y' => like Y' Y) Ys ->
  differentiates (add (l :: ls)) tr theta X (fold_left zadd Ys Y).
Proof.
  intros HX HY H1 HF HL. destruct (fan_ok tr theta ls X Ys HF) as (cbs & Lc & Ec & Wc & Bc).
  destruct H1 as (b & Eb & Wb & Bb).
  pose proof (array_has_data _ HX) as DX. pose proof (array_has_data _ HY) as DY.
  unfold differentiates, add. rewrite Eb. cbn [bind fst snd].
  rewrite (add_loop_split ls tr theta X Y Ys cbs (fold_left zadd Ys Y) Ec Lc (iadd_all_ok Ys Y HY HL)). cbn [bind fst snd].
  eexists. split; [reflexivity|].
  pose proof (zsum_like Ys Y DY HL) as LZ.
  split; [now apply (wfv_like Y)|]. intros dY g HdY Hg.
  assert (HdY' : like dY Y) by (eapply like_trans; [exact HdY|exact LZ]).
  destruct (Bb dY g HdY' Hg) as (dX & g1 & E1 & L1 & Lg1 & C1).
  assert (HF2 : Forall2 like (repeat dY (length Ys)) Ys).
  { apply Forall2_repeat_l. eapply Forall_impl; [|exact HL]. intros y Hy. eapply like_trans; [exact HdY'|now apply like_sym]. }
  destruct (Bc (repeat dY (length Ys)) g1 HF2 Lg1) as (dXs & g' & E2 & L2 & Ln & Lg & C2).
  rewrite <- Lc in E2.
  assert (HdXs : Forall (fun d => like d dX) dXs).
  { eapply Forall_impl; [|exact L2]. intros d Hd. eapply like_trans; [exact Hd|now apply like_sym]. }
  assert (AdX : is_array dX) by now apply (is_array_like _ X).
  assert (DdX : has_data dX) by now apply array_has_data.
  exists (fold_left zadd dXs dX), g'. split.
  { rewrite E1. cbn. apply (add_back_split cbs dY dX g1 dXs g' _ E2). now apply iadd_all_ok. }
  split; [eapply like_trans; [now apply zsum_like|exact L1]|]. split; [exact Lg|].
  intros P K HP HK SP SK.
  destruct (C1 P K HP HK SP SK) as (K1 & S1 & F1 & A1).
  destruct (C2 P K HP HK SP SK) as (Ks & LK & SKs & FK & AK).
  assert (B1 : vmap (at_time 0) K1 = Y).
  { destruct (F1 0) as (b' & E'). rewrite HP, HK, Eb in E'. now injection E'. }
  assert (Bs : map (vmap (at_time 0)) Ks = Ys) by exact (at_zero_all _ _ _ _ _ _ _ _ _ Ec Lc HP HK LK FK).
  assert (LK1 : like K1 Y) by (rewrite <- B1; apply like_sym, like_vmap).
  assert (LKs : Forall (fun k => like k K1) Ks).
  { eapply Forall_impl; [|exact (like_bases Ks Ys Y Bs HL)]. intros k Hk. eapply like_trans; [exact Hk|now apply like_sym]. }
  assert (DK1 : has_data K1) by now apply (has_data_like _ Y).
  exists (fold_left zadd Ks K1). split; [now apply smooth_zsum|]. split.
  - intros s. destruct (F1 s) as (b1 & Eb1). destruct (FK s) as (cbs' & L' & Ec'). rewrite Eb1. cbn [bind fst snd].
    rewrite (add_loop_split ls tr _ _ (vmap (at_time s) K1) (map (vmap (at_time s)) Ks) cbs'
               (fold_left zadd (map (vmap (at_time s)) Ks) (vmap (at_time s) K1)) Ec').
    + cbn [bind fst snd]. rewrite (sum_curve K1 Ks s DK1 LKs). eexists. reflexivity.
    + rewrite map_length. congruence.
    + apply iadd_all_ok.
      * apply (is_array_like _ Y); [|exact HY]. eapply like_trans; [apply like_vmap|exact LK1].
      * rewrite Forall_map. eapply Forall_impl; [|exact LKs]. intros k Hk.
        eapply like_trans; [apply like_vmap|]. eapply like_trans; [exact Hk|]. apply like_sym, like_vmap.
  - rewrite (@zsum_vmap jet R num_jet num_R velocity velocity_add).
    rewrite inner_zsum_r.
    + rewrite inner_zsum_l by assumption. rewrite A1. rewrite map_map.
      rewrite isum_same_l in AK by exact LK. rewrite AK. ring.
    + apply (has_data_like _ K1); [apply like_vmap|exact DK1].
    + rewrite Forall_map. eapply Forall_impl; [|exact LKs]. intros k Hk.
      eapply like_trans; [apply like_vmap|]. eapply like_trans; [exact Hk|]. apply like_sym, like_vmap.
Qed.

(** ** tuplify and map_list *)

Lemma tuple_leaves_sum ds : forall (Ks : list (value jet)), Forall2 like ds Ks -> inner (PyTup ds) (vmap velocity (PyTup Ks)) = isum ds Ks.
Proof.
  induction ds as [|d ds IH]; intros Ks H; inversion H as [|? K ? Ks' H1 H2]; subst; [reflexivity|].
  unfold inner, isum in *. cbn [leaves map concat vmap combine fst snd]. rewrite msum_cons.
  rewrite dot_app.
  - cbn [leaves map concat vmap] in IH. now rewrite (IH Ks' H2).
  - apply like_leaves. eapply like_trans; [exact H1|]. apply like_sym, like_vmap.
Qed.
Lemma list_leaves_sum ds (Ks : list (value jet)) : Forall2 like ds Ks -> inner (PyList ds) (vmap velocity (PyList Ks)) = isum ds Ks.
Proof. exact (tuple_leaves_sum ds Ks). Qed.
Lemma smooth_items Ks : all_smooth Ks -> Forall smooth (concat (map leaves Ks)).
Proof. induction 1; cbn; [constructor|]. apply Forall_app. now split. Qed.
Lemma smooth_items_inv Ks : Forall smooth (concat (map leaves Ks)) -> all_smooth Ks.
Proof. induction Ks as [|K Ks IH]; cbn; intros H; constructor; apply Forall_app in H; [tauto|]. apply IH. tauto. Qed.
Lemma Forall2_bases (ds : list (value R)) (Ks : list (value jet)) : forall Ys, Forall2 like ds Ys -> map (vmap (at_time 0)) Ks = Ys -> Forall2 like ds Ks.
Proof.
  revert Ks. induction ds as [|d ds IH]; intros Ks Ys H E.
  - inversion H as [Ea Eb|]. rewrite <- Eb in E. destruct Ks; [constructor|discriminate].
  - inversion H as [|? Y ? Ys' H1 H2 Ea Eb]; clear H Ea. rewrite <- Eb in E. destruct Ks as [|K Ks]; [discriminate|]. cbn in E. injection E as H3 H4.
    constructor; [|eapply IH; [exact H2|exact H4]]. eapply like_trans; [exact H1|]. rewrite <- H3. apply like_vmap.
Qed.

Lemma tuplify_ok tr theta ls X Ys : is_array X -> ls <> [] -> Forall2 (fun l Y => differentiates l tr theta X Y) ls Ys ->
  differentiates (tuplify ls) tr theta X (PyTup Ys).
Proof.
  intros HX Hne HF. destruct (fan_ok tr theta ls X Ys HF) as (cbs & Lc & Ec & Wc & Bc).
  unfold differentiates, tuplify. rewrite Ec. cbn [bind]. rewrite map_fst_combine, map_snd_combine by exact Lc.
  eexists. split; [reflexivity|]. split; [now apply wfv_items|]. intros dY g HdY Hg.
  apply like_sym in HdY. destruct (like_PyTup _ _ HdY) as (dYs & -> & HdYs).
  assert (HdYs' : Forall2 like dYs Ys).
  { clear -HdYs. induction HdYs; constructor; [now apply like_sym|assumption]. }
  destruct (Bc dYs g HdYs' Hg) as (dXs & g' & E2 & L2 & Ln & Lg & C2). cbn [as_seq bind]. rewrite E2. cbn [bind fst snd].
  destruct dXs as [|dX dXs].
  { exfalso. apply Hne. apply Forall2_len in HF. destruct ls; [reflexivity|]. cbn in *. lia. }
  apply Forall_cons_iff in L2 as [L1 L2].
  assert (HdXs : Forall (fun d => like d dX) dXs).
  { eapply Forall_impl; [|exact L2]. intros d Hd. eapply like_trans; [exact Hd|now apply like_sym]. }
  assert (AdX : is_array dX) by now apply (is_array_like _ X).
  rewrite iadd_all_ok by assumption. cbn [bind]. eexists _, g'. split; [reflexivity|].
  pose proof (array_has_data _ AdX) as DdX.
  split; [eapply like_trans; [now apply zsum_like|exact L1]|]. split; [exact Lg|].
  intros P K HP HK SP SK. destruct (C2 P K HP HK SP SK) as (Ks & LK & SKs & FK & AK).
  assert (Bs : map (vmap (at_time 0)) Ks = Ys) by exact (at_zero_all _ _ _ _ _ _ _ _ _ Ec Lc HP HK LK FK).
  exists (PyTup Ks). split; [now apply smooth_items|]. split.
  - intros s. destruct (FK s) as (cbs' & L' & Ec'). rewrite Ec'. cbn [bind].
    rewrite map_fst_combine by (rewrite map_length; congruence). eexists. reflexivity.
  - rewrite tuple_leaves_sum by exact (Forall2_bases _ _ _ HdYs' Bs). rewrite AK. rewrite inner_zsum_l by assumption.
    cbn [map]. rewrite msum_cons. ring.
Qed.

Lemma calls_one l tr theta Xs : calls (repeat l (length Xs)) tr theta Xs = mapM (fun x => l tr theta x) Xs.
Proof. unfold calls. induction Xs as [|x Xs IH]; cbn; [reflexivity|]. now rewrite IH. Qed.
Lemma map_list_ok tr theta l Xs Ys : Forall2 (fun X Y => differentiates l tr theta X Y) Xs Ys ->
  differentiates (map_list l) tr theta (PyList Xs) (PyList Ys).
Proof.
  intros HF. pose proof (Forall2_len _ _ _ HF) as Ll.
  assert (H3 : all3 (fun l X Y => differentiates l tr theta X Y) (repeat l (length Xs)) Xs Ys).
  { clear Ll. induction HF; cbn; constructor; assumption. }
  destruct (pars_ok _ _ _ _ _ H3) as (cbs & Lc & Ec & Wc & Bc). rewrite calls_one in Ec.
  unfold differentiates, map_list. cbn [as_seq bind]. rewrite Ec. cbn [bind].
  rewrite map_fst_combine, map_snd_combine by exact Lc.
  eexists. split; [reflexivity|]. split; [now apply wfv_items|]. intros dY g HdY Hg.
  apply like_sym in HdY. destruct (like_PyList _ _ HdY) as (dYs & -> & HdYs).
  assert (HdYs' : Forall2 like dYs Ys).
  { clear -HdYs. induction HdYs; constructor; [now apply like_sym|assumption]. }
  destruct (Bc dYs g HdYs' Hg) as (dXs & g' & E2 & L2 & Lg & C2). cbn [as_seq bind]. rewrite E2. cbn [bind fst snd].
  eexists _, g'. split; [reflexivity|]. split; [now apply like_items_list|]. split; [exact Lg|].
  intros P K HP HK SP SK. destruct K as [| | | | |Ks|]; cbn in HK; try discriminate. injection HK as HK.
  destruct (C2 P Ks HP HK SP (smooth_items_inv _ SK)) as (Ks' & LK & SKs & FK & AK).
  assert (Bs : map (vmap (at_time 0)) Ks' = Ys).
  { destruct (FK 0) as (cbs' & L' & E'). rewrite HP, HK, calls_one, Ec in E'. injection E' as E'.
    symmetry. refine (proj1 (combine_inj _ _ _ _ Lc _ E')). now rewrite map_length, LK. }
  exists (PyList Ks'). split; [now apply smooth_items|]. split.
  - intros s. destruct (FK s) as (cbs' & L' & Ec'). cbn [vmap as_seq bind].
    rewrite <- HK, map_length, <- (map_length (vmap (at_time s)) Ks), calls_one in Ec'. rewrite Ec'. cbn [bind].
    rewrite map_fst_combine by (rewrite map_length; congruence). eexists. reflexivity.
  - rewrite list_leaves_sum by exact (Forall2_bases _ _ _ HdYs' Bs). rewrite AK.
    rewrite list_leaves_sum by exact (Forall2_bases _ _ _ L2 HK). reflexivity.
Qed.
Lemma add_items_short {T} {N : Num T} (xs : list (value T)) : forall ys, (length ys < length xs)%nat -> Forall (fun p => exists z, vadd (fst p) (snd p) = Ok z) (combine xs ys) -> add_items xs ys = Err IndexError.
Proof.
  induction xs as [|x xs IH]; intros [|y ys] L F; cbn in L; try lia; [reflexivity|]. cbn [add_items]. inversion F as [|? ? [z Ez] F']; subst. cbn [fst snd] in Ez. rewrite Ez. cbn [bind].
  rewrite IH; [reflexivity|lia|exact F'].
Qed.
Lemma residual_short {T} {N : Num T} (l : layer T) tr theta xs ys b : l tr theta (PyList xs) = Ok (PyList ys, b) -> (length ys < length xs)%nat ->
  Forall (fun p => exists z, vadd (fst p) (snd p) = Ok z) (combine xs ys) -> residual l tr theta (PyList xs) = Err IndexError.
Proof. intros E L F. unfold residual. rewrite E. cbn [bind fst as_seq]. now rewrite add_items_short. Qed.
Lemma add_lists {T} {N : Num T} (l1 l2 : layer T) tr theta X ys1 b1 ys2 b2 : l1 tr theta X = Ok (PyList ys1, b1) -> l2 tr theta X = Ok (PyList ys2, b2) ->
  exists b, add [l1; l2] tr theta X = Ok (PyList (ys1 ++ ys2), b).
Proof. intros E1 E2. cbn [add add_loop]. rewrite E1. cbn [bind fst snd]. rewrite E2. cbn [bind fst snd iadd]. eexists. reflexivity. Qed.
Lemma add_tuples {T} {N : Num T} (l1 l2 : layer T) tr theta X ys1 b1 ys2 b2 : l1 tr theta X = Ok (PyTup ys1, b1) -> l2 tr theta X = Ok (PyTup ys2, b2) ->
  exists b, add [l1; l2] tr theta X = Ok (PyTup (ys1 ++ ys2), b).
Proof. intros E1 E2. cbn [add add_loop]. rewrite E1. cbn [bind fst snd]. rewrite E2. cbn [bind fst snd iadd]. eexists. reflexivity. Qed.
Lemma concat_mixed {T} {N : Num T} (l1 l2 : layer T) tr theta X m w lens b1 Y b2 : l1 tr theta X = Ok (Rag m w lens, b1) -> l2 tr theta X = Ok (Y, b2) -> (forall m' w' lens', Y <> Rag m' w' lens') ->
  concatenation [l1; l2] tr theta X = Err TypeError.
Proof. intros E1 E2 H. unfold concatenation, call_all. cbn [mapM]. rewrite E1. cbn [bind]. rewrite E2. cbn [bind map fst snd]. unfold ragged_forward. cbn [mapM as_rag bind]. destruct Y; try reflexivity. exfalso. eapply H. reflexivity. Qed.
