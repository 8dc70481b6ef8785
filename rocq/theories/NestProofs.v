(** Proofs about recursive conversion. *)
From Coq Require Import String.
From Verif Require Export NestSpec.
Set Default Goal Selector "!".

Scheme filled_mut := Induction for filled Sort Prop
  with filled_all_mut := Induction for filled_all Sort Prop
  with filled_entries_mut := Induction for filled_entries Sort Prop
  with filled_values_mut := Induction for filled_values Sort Prop.
Combined Scheme filled_ind4 from filled_mut, filled_all_mut, filled_entries_mut, filled_values_mut.

Lemma each_app : forall S X Y (f : X -> eff S Y) l1 l2 s, each f (l1 ++ l2) s = andthen (each f l1) (fun a => andthen (each f l2) (fun b => done (a ++ b))) s.
Proof.
  induction l1 as [|x l1 IH]; intros l2 s; cbn [each app].
  - unfold andthen, done. destruct (each f l2 s) as [s' [b|e]]; reflexivity.
  - unfold andthen at 1 3. unfold andthen at 2. destruct (f x s) as [s1 [y|e]]; [|reflexivity].
    unfold andthen at 1. rewrite IH. unfold andthen, done. destruct (each f l1 s1) as [s2 [b|e]]; [|reflexivity]. destruct (each f l2 s2) as [s3 [c|e]]; reflexivity.
Qed.
Lemma each_len : forall S X Y (f : X -> eff S Y) l s s' vs, each f l s = (s', Ok vs) -> length vs = length l.
Proof.
  induction l as [|x l IH]; intros s s' vs; cbn [each]; unfold andthen, done.
  - intro E. injection E as _ <-. reflexivity.
  - destruct (f x s) as [s1 [y|e]]; [|discriminate]. destruct (each f l s1) as [s2 [ys|e]] eqn:E1; [|discriminate].
    intro E. injection E as _ <-. cbn. f_equal. exact (IH _ _ _ E1).
Qed.
Lemma each_split : forall S X Y (f : X -> eff S Y) l1 l2 s s' v1 v2, length l1 = length v1 -> each f (l1 ++ l2) s = (s', Ok (v1 ++ v2)) ->
  exists s1, each f l1 s = (s1, Ok v1) /\ each f l2 s1 = (s', Ok v2).
Proof.
  intros S X Y f l1 l2 s s' v1 v2 Hl E. rewrite each_app in E. unfold andthen, done in E.
  destruct (each f l1 s) as [s1 [a|e]] eqn:E1; [|discriminate]. destruct (each f l2 s1) as [s2 [b|e]] eqn:E2; [|discriminate].
  injection E as <- E. pose proof (each_len _ _ _ _ _ _ _ _ E1) as La.
  assert (H : a = v1 /\ b = v2). { clear - E La Hl. revert v1 Hl La E. generalize (length l1) as n. induction a as [|x a IH]; intros n v1 Hl La E; destruct v1 as [|y v1]; cbn in *; subst n; try discriminate.
    - split; [reflexivity | exact E].
    - injection E as <- E. destruct (IH (length a) v1) as [-> ->]; [congruence | reflexivity | exact E |]. split; reflexivity. }
  destruct H as [-> ->]. exists s1. split; [reflexivity | exact E2].
Qed.
Lemma list_max_cons : forall a l, list_max (a :: l) = Nat.max a (list_max l).
Proof. reflexivity. Qed.
Lemma depth_pos : forall A (o : obj A), 1 <= depth o.
Proof. destruct o; cbn; lia. Qed.

Section Conv.
  Context {A S : Type} (keq : obj A -> obj A -> bool) (hashable : obj A -> bool) (other_int : A -> bool) (iter_other : obj A -> result (list (obj A))).
  Context (m : obj A -> bool) (conv : obj A -> eff S (obj A)).
  Hypothesis Hm : arrays_only m.
  Notation cr := (convert_recursive keq hashable other_int iter_other m conv).
  Notation it := (iterate_recursive m).
  Notation fl := (filled keq hashable m).

  Lemma m_container : forall o, container o = true -> m o = false.
  Proof. intros o Ho. destruct (m o) eqn:E; [|reflexivity]. destruct (Hm _ E) as [a ->]. discriminate. Qed.
  Lemma m_int : forall i, m (OInt i) = false.
  Proof. intros i. destruct (m (OInt i)) eqn:E; [|reflexivity]. destruct (Hm _ E) as [a H]. discriminate. Qed.
  Lemma m_str : forall s, m (OStr s) = false.
  Proof. intros i. destruct (m (OStr i)) eqn:E; [|reflexivity]. destruct (Hm _ E) as [a H]. discriminate. Qed.

  (** Pairs with an unconverted key, as in the items of an ArgsKwargs *)
  Definition quiet (k : obj A) : Prop := (exists i, k = OInt i) \/ (exists s, k = OStr s).
  Lemma quiet_cr : forall k f s, quiet k -> 1 <= f -> cr f k s = (s, Ok k).
  Proof. intros k [|f] s H Hf; [lia|]. destruct H as [[i ->]|[x ->]]; cbn [convert_recursive]; [rewrite m_int | rewrite m_str]; reflexivity. Qed.
  Lemma quiet_it : forall k f, quiet k -> 1 <= f -> it f k = Ok [].
  Proof. intros k [|f] H Hf; [lia|]. destruct H as [[i ->]|[x ->]]; cbn [iterate_recursive]; [rewrite m_int | rewrite m_str]; reflexivity. Qed.
  Definition pair_up (p : obj A * obj A) : obj A := OTuple [fst p; snd p].
  Lemma pairs_it : forall f (ps : list (obj A * obj A)), Forall (fun p => quiet (fst p)) ps -> (ps = [] \/ 1 <= f) ->
    mapM (it (Datatypes.S f)) (map pair_up ps) = mapM (it f) (map snd ps).
  Proof.
    intros f ps Hq Hf. induction Hq as [|[k v] ps Hk Hq IH]; [reflexivity|]. destruct Hf as [Hf|Hf]; [discriminate|].
    cbn [map mapM pair_up fst snd]. rewrite IH by (right; exact Hf). cbn [iterate_recursive]. rewrite m_container by reflexivity.
    change (quiet k) in Hk. unfold pair_up. cbn [mapM fst snd]. rewrite (quiet_it k f Hk Hf). cbn [bind]. destruct (it f v) as [L|e]; cbn [bind concat app]; [|reflexivity]. rewrite app_nil_r. reflexivity.
  Qed.
  Lemma pairs_cr : forall f (ps : list (obj A * obj A)) s, Forall (fun p => quiet (fst p)) ps -> (ps = [] \/ 1 <= f) ->
    each (cr (Datatypes.S f)) (map pair_up ps) s = match each (cr f) (map snd ps) s with (s', Ok vs) => (s', Ok (map pair_up (combine (map fst ps) vs))) | (s', Err e) => (s', Err e) end.
  Proof.
    intros f ps s Hq Hf. revert s. induction Hq as [|[k v] ps Hk Hq IH]; intro s; [reflexivity|]. destruct Hf as [Hf|Hf]; [discriminate|].
    change (pair_up (k, v)) with (OTuple [k; v]). cbn [map each fst snd]. change (pair_up (k, v)) with (OTuple [k; v]). unfold andthen at 1. cbn [convert_recursive]. rewrite m_container by reflexivity.
    change (quiet k) in Hk. cbn [each]. unfold andthen, done. rewrite (quiet_cr k f _ Hk Hf). destruct (cr f v s) as [s1 [v'|e]]; [|reflexivity].
    rewrite IH by (right; exact Hf). destruct (each (cr f) (map snd ps) s1) as [s2 [vs|e]]; reflexivity.
  Qed.
  (** The items of an ArgsKwargs as such pairs *)
  Definition ak_pairs (args : list (obj A)) (kwargs : list (obj A * obj A)) : list (obj A * obj A) :=
    combine (map (fun i => OInt (Z.of_nat i)) (seq 0 (length args))) args ++ kwargs.
  Lemma items_pairs : forall args kwargs, ak_items args kwargs = map pair_up (ak_pairs args kwargs).
  Proof.
    intros args kwargs. unfold ak_items, ak_pairs. rewrite map_app. f_equal. generalize 0 as i. induction args as [|a args IH]; intro i; [reflexivity|].
    cbn [length seq combine map]. rewrite IH. reflexivity.
  Qed.
  Lemma ak_snd : forall args kwargs, map snd (ak_pairs args kwargs) = args ++ map snd kwargs.
  Proof.
    intros args kwargs. unfold ak_pairs. rewrite map_app. f_equal. generalize 0 as i. induction args as [|a args IH]; intro i; [reflexivity|].
    cbn [length seq combine map snd]. rewrite IH. reflexivity.
  Qed.
  Lemma ak_fst : forall args kwargs, map fst (ak_pairs args kwargs) = map (fun i => OInt (Z.of_nat i)) (seq 0 (length args)) ++ map fst kwargs.
  Proof.
    intros args kwargs. unfold ak_pairs. rewrite map_app. f_equal. generalize 0 as i. induction args as [|a args IH]; intro i; [reflexivity|].
    cbn [length seq combine map fst]. rewrite IH. reflexivity.
  Qed.
  Lemma ak_quiet : forall args kwargs, Forall (fun p => exists s, fst p = OStr s) kwargs -> Forall (fun p => quiet (fst p)) (ak_pairs args kwargs).
  Proof.
    intros args kwargs H. unfold ak_pairs. apply Forall_app. split.
    - generalize 0 as i. induction args as [|a args IH]; intro i; [constructor|]. cbn [length seq combine map]. constructor; [left; eexists; reflexivity | apply IH].
    - eapply Forall_impl; [|exact H]. intros p Hp. right. exact Hp.
  Qed.

  Lemma put_new : forall d k v, Forall (fun k' => keq k' k = false) (map fst d) -> put keq d k v = d ++ [(k, v)].
  Proof. induction d as [|[k' v'] d IH]; intros k v H; [reflexivity|]. cbn in *. inversion H as [|? ? H1 H2]. rewrite H1, IH by exact H2. reflexivity. Qed.
  Lemma pairs_last : forall (R : obj A -> obj A -> Prop) l x, ForallOrdPairs R (l ++ [x]) -> Forall (fun a => R a x) l.
  Proof.
    induction l as [|a l IH]; intros x H; [constructor|]. inversion H as [|? ? H1 H2]. constructor; [|exact (IH _ H2)].
    apply Forall_app in H1. destruct H1 as [_ H1]. inversion H1. assumption.
  Qed.
  Lemma pairs_front : forall (R : obj A -> obj A -> Prop) l x, ForallOrdPairs R (l ++ x) -> ForallOrdPairs R l.
  Proof. induction l as [|a l IH]; intros x H; [constructor|]. inversion H as [|? ? H1 H2]. constructor; [apply Forall_app in H1; tauto | exact (IH _ H2)]. Qed.
  Lemma setitem_new : forall d k v d', keys_ok keq hashable (map fst (d ++ (k, v) :: d')) -> setitem keq hashable d k v = Ok (d ++ [(k, v)]).
  Proof.
    intros d k v d' [H1 H2]. rewrite map_app in H1, H2. cbn [map fst] in H1, H2. apply Forall_app in H1. destruct H1 as [_ H1]. inversion H1 as [|? ? Hk _].
    unfold setitem. rewrite Hk. rewrite put_new; [reflexivity|]. apply (pairs_last (fun a b => keq a b = false)). replace (map fst d ++ k :: map fst d') with ((map fst d ++ [k]) ++ map fst d') in H2 by (rewrite <- app_assoc; reflexivity).
    exact (pairs_front _ _ _ H2).
  Qed.

  (** from_items gives the ArgsKwargs back *)
  Lemma from_kw : forall kw args acc, Forall (fun p => is_int other_int (fst p) = false) kw -> keys_ok keq hashable (map fst (acc ++ kw)) ->
    from_items_loop keq hashable other_int iter_other (map pair_up kw) args acc = Ok (OArgs args (acc ++ kw)).
  Proof.
    induction kw as [|[k v] kw IH]; intros args acc Hs Hk; [cbn; rewrite app_nil_r; reflexivity|]. inversion Hs as [|? ? Hx Hs']. cbn [fst] in Hx.
    cbn [map from_items_loop]. unfold pair_up at 1, unpack2. cbn [fst snd py_iter bind]. rewrite Hx. rewrite (setitem_new _ _ _ kw) by exact Hk. cbn [bind].
    rewrite IH; [rewrite <- app_assoc; reflexivity | exact Hs' | rewrite <- app_assoc; exact Hk].
  Qed.
  Lemma from_args : forall l i rest acc, from_items_loop keq hashable other_int iter_other (map pair_up (combine (map (fun i => OInt (Z.of_nat i)) (seq i (length l))) l) ++ rest) acc [] =
    from_items_loop keq hashable other_int iter_other rest (acc ++ l) [].
  Proof.
    induction l as [|a l IH]; intros i rest acc; [cbn; rewrite app_nil_r; reflexivity|]. cbn [length seq map combine app from_items_loop]. unfold pair_up at 1, unpack2. cbn [fst snd py_iter bind is_int].
    rewrite IH, <- app_assoc. reflexivity.
  Qed.
  Lemma from_items_items : forall args kwargs, Forall (fun p => is_int other_int (fst p) = false) kwargs -> keys_ok keq hashable (map fst kwargs) ->
    from_items keq hashable other_int iter_other (OList (ak_items args kwargs)) = Ok (OArgs args kwargs).
  Proof.
    intros args kwargs H1 H2. unfold from_items. cbn [py_iter bind]. rewrite items_pairs. unfold ak_pairs. rewrite map_app, from_args. cbn [app]. apply from_kw; assumption.
  Qed.
  Lemma str_not_int : forall (kw : list (obj A * obj A)), Forall (fun p => exists s, fst p = OStr s) kw -> Forall (fun p => is_int other_int (fst p) = false) kw.
  Proof. intros kw H. eapply Forall_impl; [|exact H]. intros p [s ->]. reflexivity. Qed.

  (** The loop over the entries of a dict *)
  Definition dloop (f : nat) : list (obj A * obj A) -> list (obj A * obj A) -> eff S (list (obj A * obj A)) :=
    fix loop (d : list (obj A * obj A)) (converted : list (obj A * obj A)) : eff S (list (obj A * obj A)) :=
      match d with
      | [] => done converted
      | (k, v) :: d => andthen (cr f k) (fun k' => andthen (cr f v) (fun v' => andthen (lift (setitem keq hashable converted k' v')) (fun c => loop d c)))
      end.
  Lemma dloop_cons : forall f k v d c s, dloop f ((k, v) :: d) c s = andthen (cr f k) (fun k' => andthen (cr f v) (fun v' => andthen (lift (setitem keq hashable c k' v')) (fun c => dloop f d c))) s.
  Proof. reflexivity. Qed.
  Lemma cr_dict : forall f d s, m (ODict d) = false -> cr (Datatypes.S f) (ODict d) s = andthen (dloop f d []) (fun c => done (ODict c)) s.
  Proof. intros f d s H. cbn [convert_recursive]. rewrite H. reflexivity. Qed.
  Definition both (f : nat) (p : obj A * obj A) : result (list (obj A)) := let* a := it f (fst p) in let* b := it f (snd p) in Ok (a ++ b).
  Lemma it_dict : forall f d, m (ODict d) = false -> it (Datatypes.S f) (ODict d) = let* ls := mapM (both f) d in Ok (concat ls).
  Proof. intros f d H. cbn [iterate_recursive]. rewrite H. reflexivity. Qed.

  Definition good (f : nat) (o : obj A) (vs : list (obj A)) (o' : obj A) : Prop :=
    exists L, it f o = Ok L /\ length L = length vs /\ forall s s', each conv L s = (s', Ok vs) -> cr f o s = (s', Ok o').
  Definition good_all (f : nat) (l vs l' : list (obj A)) : Prop :=
    exists Ls, mapM (it f) l = Ok Ls /\ length (concat Ls) = length vs /\ forall s s', each conv (concat Ls) s = (s', Ok vs) -> each (cr f) l s = (s', Ok l').
  Definition good_entries (f : nat) (d : list (obj A * obj A)) (vs : list (obj A)) (d' : list (obj A * obj A)) : Prop :=
    exists Ls, mapM (both f) d = Ok Ls /\ length (concat Ls) = length vs /\
      forall s s' acc, keys_ok keq hashable (map fst (acc ++ d')) -> each conv (concat Ls) s = (s', Ok vs) -> dloop f d acc s = (s', Ok (acc ++ d')).

  Lemma good_app : forall f l1 l2 vs1 vs2 l1' l2', good_all f l1 vs1 l1' -> good_all f l2 vs2 l2' -> good_all f (l1 ++ l2) (vs1 ++ vs2) (l1' ++ l2').
  Proof.
    intros f l1 l2 vs1 vs2 l1' l2' [L1 [I1 [N1 C1]]] [L2 [I2 [N2 C2]]]. exists (L1 ++ L2). split; [|split].
    - clear - I1 I2. revert L1 I1. induction l1 as [|a l1 IH]; intros L1 I1; cbn [mapM app] in *.
      + injection I1 as <-. exact I2.
      + destruct (it f a) as [x|]; [|discriminate]. cbn [bind] in *. destruct (mapM (it f) l1) as [y|]; [|discriminate]. injection I1 as <-. rewrite (IH y eq_refl). reflexivity.
    - rewrite concat_app, !app_length. lia.
    - intros s s' E. rewrite concat_app in E. apply each_split in E; [|exact N1]. destruct E as [s1 [E1 E2]]. rewrite each_app. unfold andthen, done. rewrite (C1 _ _ E1), (C2 _ _ E2). reflexivity.
  Qed.
  Lemma values_all : forall kw vs kw', filled_values keq hashable m kw vs kw' -> filled_all keq hashable m (map snd kw) vs (map snd kw') /\ map fst kw' = map fst kw /\ Forall (fun p => exists s, fst p = OStr s) kw.
  Proof.
    induction 1 as [|s v b v' l vs l' Hv Hl IH]; [split; [constructor | split; [reflexivity | constructor]]|]. destruct IH as [I1 [I2 I3]].
    cbn. split; [constructor; assumption | split; [congruence | constructor; [exists s; reflexivity | assumption]]].
  Qed.
  Lemma max_app : forall l1 l2, list_max (l1 ++ l2) = Nat.max (list_max l1) (list_max l2).
  Proof. exact list_max_app. Qed.
  Lemma all_len : forall l vs l', filled_all keq hashable m l vs l' -> length l' = length l.
  Proof. induction 1; cbn; congruence. Qed.
  Lemma combine_fst_snd : forall X Y (l : list (X * Y)), combine (map fst l) (map snd l) = l.
  Proof. induction l as [|[x y] l IH]; [reflexivity|]. cbn. rewrite IH. reflexivity. Qed.

  Lemma all_from : forall f, (forall o vs o', depth o <= f -> fl o vs o' -> good f o vs o') ->
    forall l vs l', filled_all keq hashable m l vs l' -> list_max (map depth l) <= f -> good_all f l vs l'.
  Proof.
    intros f IH. induction 1 as [|o1 v1 o1' l vs1 l' Ho Hl IHl]; intro Hle.
    - exists []. split; [reflexivity | split; [reflexivity|]]. intros s s' E. cbn in *. injection E as <-. reflexivity.
    - cbn [map] in Hle. rewrite list_max_cons in Hle. destruct (IH o1 v1 o1' ltac:(lia) Ho) as [L [I1 [N1 C1]]]. destruct (IHl ltac:(lia)) as [Ls [I2 [N2 C2]]].
      exists (L :: Ls). split; [cbn [mapM]; rewrite I1, I2; reflexivity|]. split; [cbn [concat]; rewrite !app_length; lia|].
      intros s s' E. cbn [concat] in E. apply each_split in E; [|exact N1]. destruct E as [s1 [E1 E2]]. cbn [each]. unfold andthen, done. rewrite (C1 _ _ E1), (C2 _ _ E2). reflexivity.
  Qed.
  Lemma entries_from : forall f, (forall o vs o', depth o <= f -> fl o vs o' -> good f o vs o') ->
    forall d vs d', filled_entries keq hashable m d vs d' -> list_max (map (fun p => Nat.max (depth (fst p)) (depth (snd p))) d) <= f -> good_entries f d vs d'.
  Proof.
    intros f IH. induction 1 as [|k v a b k' v' l vs1 l' Hk Hv Hl IHl]; intro Hle.
    - exists []. split; [reflexivity | split; [reflexivity|]]. intros s s' acc _ E. cbn in *. injection E as <-. rewrite app_nil_r. reflexivity.
    - cbn [map fst snd] in Hle. rewrite list_max_cons in Hle. destruct (IH k a k' ltac:(lia) Hk) as [L1 [I1 [N1 C1]]]. destruct (IH v b v' ltac:(lia) Hv) as [L2 [I2 [N2 C2]]]. destruct (IHl ltac:(lia)) as [Ls [I3 [N3 C3]]].
      exists ((L1 ++ L2) :: Ls). split; [cbn [mapM]; unfold both at 1; cbn [fst snd]; rewrite I1; cbn [bind]; rewrite I2; cbn [bind]; rewrite I3; reflexivity|].
      split; [cbn [concat]; rewrite !app_length; lia|]. intros s s' acc Hok E. cbn [concat] in E. rewrite <- app_assoc in E.
      apply each_split in E; [|exact N1]. destruct E as [s1 [E1 E]]. apply each_split in E; [|exact N2]. destruct E as [s2 [E2 E3]].
      rewrite dloop_cons. unfold andthen at 1. rewrite (C1 _ _ E1). unfold andthen at 1. rewrite (C2 _ _ E2). unfold andthen, lift. rewrite (setitem_new _ _ _ l') by exact Hok.
      rewrite (C3 s2 s'); [rewrite <- app_assoc; reflexivity | rewrite <- app_assoc; exact Hok | exact E3].
  Qed.
  (** An ArgsKwargs is its arguments and keyword values, in order *)
  Lemma it_list : forall f l, it (Datatypes.S f) (OList l) = let* ls := mapM (it f) l in Ok (concat ls).
  Proof. intros f l. cbn [iterate_recursive]. rewrite m_container by reflexivity. reflexivity. Qed.
  Lemma it_args : forall f a k, it (Datatypes.S f) (OArgs a k) = it f (OList (ak_items a k)).
  Proof. intros f a k. cbn [iterate_recursive]. rewrite m_container by reflexivity. reflexivity. Qed.
  Lemma cr_list : forall f l s, cr (Datatypes.S f) (OList l) s = andthen (each (cr f) l) (fun l' => done (OList l')) s.
  Proof. intros f l s. cbn [convert_recursive]. rewrite m_container by reflexivity. reflexivity. Qed.
  Lemma cr_tuple : forall f l s, cr (Datatypes.S f) (OTuple l) s = andthen (each (cr f) l) (fun l' => done (OTuple l')) s.
  Proof. intros f l s. cbn [convert_recursive]. rewrite m_container by reflexivity. reflexivity. Qed.
  Lemma it_tuple : forall f l, it (Datatypes.S f) (OTuple l) = let* ls := mapM (it f) l in Ok (concat ls).
  Proof. intros f l. cbn [iterate_recursive]. rewrite m_container by reflexivity. reflexivity. Qed.
  Lemma cr_args : forall f a k s, cr (Datatypes.S f) (OArgs a k) s = andthen (cr f (OList (ak_items a k))) (fun c => lift (from_items keq hashable other_int iter_other c)) s.
  Proof. intros f a k s. cbn [convert_recursive]. rewrite m_container by reflexivity. reflexivity. Qed.
  Lemma args_it : forall f args kwargs, Forall (fun p => exists s, fst p = OStr s) kwargs -> (args ++ map snd kwargs = [] \/ 1 <= f) -> m (OArgs args kwargs) = false ->
    it (3 + f) (OArgs args kwargs) = let* ls := mapM (it f) (args ++ map snd kwargs) in Ok (concat ls).
  Proof.
    intros f args kwargs Hs Hf Hmo. cbn [plus]. rewrite it_args, it_list, items_pairs, pairs_it, ak_snd; [reflexivity | apply ak_quiet; exact Hs|].
    destruct Hf as [Hf|Hf]; [left | right; exact Hf]. rewrite <- ak_snd in Hf. destruct (ak_pairs args kwargs); [reflexivity | discriminate].
  Qed.
  Lemma each_length : forall f l s s' vs, each (cr f) l s = (s', Ok vs) -> length vs = length l.
  Proof. intros f l s s' vs. apply each_len. Qed.
  Lemma args_cr : forall f args kwargs s, Forall (fun p => exists s, fst p = OStr s) kwargs -> (args ++ map snd kwargs = [] \/ 1 <= f) -> m (OArgs args kwargs) = false -> keys_ok keq hashable (map fst kwargs) ->
    cr (3 + f) (OArgs args kwargs) s = match each (cr f) (args ++ map snd kwargs) s with (s', Ok vs) => (s', Ok (OArgs (firstn (length args) vs) (combine (map fst kwargs) (skipn (length args) vs)))) | (s', Err e) => (s', Err e) end.
  Proof.
    intros f args kwargs s Hs Hf Hmo Hk. cbn [plus]. rewrite cr_args. unfold andthen. rewrite cr_list. unfold andthen. rewrite items_pairs. rewrite pairs_cr, ak_snd; [| apply ak_quiet; exact Hs|].
    2:{ destruct Hf as [Hf|Hf]; [left | right; exact Hf]. rewrite <- ak_snd in Hf. destruct (ak_pairs args kwargs); [reflexivity | discriminate]. }
    destruct (each (cr f) (args ++ map snd kwargs) s) as [s' [vs|e]] eqn:E; [|reflexivity]. cbn [done]. unfold done, lift. f_equal.
    apply each_length in E. rewrite app_length, map_length in E. rewrite ak_fst.
    rewrite <- (from_items_items (firstn (length args) vs) (combine (map fst kwargs) (skipn (length args) vs))).
    - f_equal. f_equal. rewrite items_pairs. f_equal. unfold ak_pairs. rewrite firstn_length_le by lia.
      rewrite <- (firstn_skipn (length args) vs) at 1. generalize (firstn_length_le vs (n := length args) ltac:(lia)). generalize (firstn (length args) vs) as v1. intros v1 L1.
      generalize (skipn (length args) vs) as v2. intro v2. clear - L1. revert L1. generalize 0 as i. revert v1. induction (length args) as [|n IH]; intros v1 i L1; destruct v1 as [|x v1]; try discriminate; [reflexivity|].
      cbn [seq map app combine]. f_equal. apply IH. cbn in L1. congruence.
    - apply str_not_int. apply Forall_forall. intros [k v] Hin. apply in_combine_l in Hin. rewrite Forall_forall in Hs. apply in_map_iff in Hin. destruct Hin as [p [<- Hp]]. exact (Hs _ Hp).
    - replace (map fst (combine (map fst kwargs) (skipn (length args) vs))) with (map fst kwargs); [exact Hk|].
      assert (L2 : length (skipn (length args) vs) = length (map fst kwargs)) by (rewrite skipn_length, map_length; lia).
      revert L2. generalize (skipn (length args) vs) as v2. generalize (map fst kwargs) as ks. clear. induction ks as [|k ks IH]; intros [|v v2] L2; try discriminate; [reflexivity|]. cbn. f_equal. apply IH. cbn in L2. congruence.
  Qed.

  Lemma cr_filled : forall f o vs o', depth o <= f -> fl o vs o' -> good f o vs o'.
  Proof.
    intro f. induction f as [f IH] using (well_founded_induction lt_wf). intros o vs o' Hd Hf.
    destruct f as [|f]; [pose proof (depth_pos _ o); lia|].
    unfold good. destruct Hf as [o v Hmo | o Hmo Hc | l vs l' Hmo Hl | l vs l' Hmo Hl | d vs d' Hmo Hl Hk | args kwargs vs ws args' kwargs' Hmo Hl Hw Hk].
    - exists [o]. cbn [iterate_recursive convert_recursive]. rewrite Hmo. split; [reflexivity | split; [reflexivity|]]. intros s s' E. cbn [each] in E. unfold andthen, done in E. destruct (conv o s) as [s1 [y|e]]; [|discriminate]. injection E as <- <-. reflexivity.
    - exists []. cbn [iterate_recursive convert_recursive]. rewrite Hmo. split; [destruct o; try reflexivity; discriminate|]. split; [reflexivity|]. intros s s' E. injection E as <-. destruct o; try reflexivity; discriminate.
    - cbn [depth] in Hd. destruct (all_from f (IH f ltac:(lia)) _ _ _ Hl ltac:(lia)) as [Ls [I [N C]]]. exists (concat Ls). cbn [iterate_recursive convert_recursive]. rewrite Hmo, I.
      split; [reflexivity | split; [exact N|]]. intros s s' E. unfold andthen. rewrite (C _ _ E). reflexivity.
    - cbn [depth] in Hd. destruct (all_from f (IH f ltac:(lia)) _ _ _ Hl ltac:(lia)) as [Ls [I [N C]]]. exists (concat Ls). cbn [iterate_recursive convert_recursive]. rewrite Hmo, I.
      split; [reflexivity | split; [exact N|]]. intros s s' E. unfold andthen. rewrite (C _ _ E). reflexivity.
    - cbn [depth] in Hd. destruct (entries_from f (IH f ltac:(lia)) _ _ _ Hl ltac:(lia)) as [Ls [I [N C]]]. exists (concat Ls). rewrite it_dict by exact Hmo. rewrite I.
      split; [reflexivity | split; [exact N|]]. intros s s' E. rewrite cr_dict by exact Hmo. unfold andthen. rewrite (C s s' [] Hk E). reflexivity.
    - cbn [depth] in Hd. destruct (values_all _ _ _ Hw) as [Hv [Hf' Hstr]].
      destruct f as [|[|f]]; [lia | lia|]. change (Datatypes.S (Datatypes.S (Datatypes.S f))) with (3 + f) in *.
      assert (Hg : good_all f (args ++ map snd kwargs) (vs ++ ws) (args' ++ map snd kwargs')).
      { apply good_app; apply all_from; [apply IH; lia | exact Hl | lia | apply IH; lia | exact Hv | rewrite map_map; lia]. }
      assert (Hpos : args ++ map snd kwargs = [] \/ 1 <= f).
      { destruct args as [|a args]; [destruct kwargs as [|p kwargs]; [left; reflexivity|]|]; right; cbn [map] in Hd; rewrite list_max_cons in Hd; [pose proof (depth_pos _ (snd p)) | pose proof (depth_pos _ a)]; lia. }
      destruct Hg as [Ls [I [N C]]]. exists (concat Ls). rewrite args_it by assumption. rewrite I. split; [reflexivity | split; [exact N|]]. intros s s' E.
      rewrite args_cr by assumption. rewrite (C _ _ E). f_equal. f_equal. f_equal.
      + rewrite firstn_app, (all_len _ _ _ Hl), Nat.sub_diag, <- (all_len _ _ _ Hl), firstn_all. cbn. apply app_nil_r.
      + rewrite skipn_app, <- (all_len _ _ _ Hl), Nat.sub_diag, skipn_all. cbn [app skipn]. rewrite <- Hf'. apply combine_fst_snd.
  Qed.

  (** Values with nothing to convert in dict keys *)
  Notation pr := (proper keq hashable m).
  Definition run_all (f : nat) (l : list (obj A)) : Prop :=
    exists Ls, mapM (it f) l = Ok Ls /\ Forall (fun x => m x = true) (concat Ls) /\ filled_all keq hashable m l (concat Ls) l /\
      forall s, match each conv (concat Ls) s with
                | (s', Ok vs) => exists l', filled_all keq hashable m l vs l' /\ each (cr f) l s = (s', Ok l')
                | (s', Err e) => each (cr f) l s = (s', Err e)
                end.
  Definition run (f : nat) (o : obj A) : Prop :=
    exists L, it f o = Ok L /\ Forall (fun x => m x = true) L /\ fl o L o /\
      forall s, match each conv L s with
                | (s', Ok vs) => exists o', fl o vs o' /\ cr f o s = (s', Ok o')
                | (s', Err e) => cr f o s = (s', Err e)
                end.
  Lemma run_all_from : forall f l, (forall o, In o l -> run f o) -> run_all f l.
  Proof.
    intros f. induction l as [|o l IH]; intro H.
    - exists []. split; [reflexivity | split; [constructor | split; [constructor|]]]. intro s. cbn. exists []. split; [constructor | reflexivity].
    - destruct (H o (or_introl eq_refl)) as [L [I1 [M1 [F1 C1]]]]. destruct (IH (fun o Ho => H o (or_intror Ho))) as [Ls [I2 [M2 [F2 C2]]]].
      exists (L :: Ls). split; [cbn [mapM]; rewrite I1; cbn [bind]; rewrite I2; reflexivity|]. split; [cbn [concat]; apply Forall_app; split; assumption|].
      split; [cbn [concat]; constructor; assumption|]. intro s. cbn [concat]. rewrite each_app. cbn [each]. unfold andthen, done. specialize (C1 s).
      destruct (each conv L s) as [s1 [v1|e]]; [|rewrite C1; reflexivity]. destruct C1 as [o' [Fo ->]]. specialize (C2 s1).
      destruct (each conv (concat Ls) s1) as [s2 [v2|e]]; [|rewrite C2; reflexivity]. destruct C2 as [l' [Fl ->]]. exists (o' :: l'). split; [constructor; assumption | reflexivity].
  Qed.
  Lemma max_in : forall X (g : X -> nat) l x n, In x l -> list_max (map g l) <= n -> g x <= n.
  Proof. intros X g l x n Hin Hle. apply list_max_le in Hle. rewrite Forall_forall in Hle. apply Hle. apply in_map. exact Hin. Qed.
  Definition quiet_at (f : nat) (k : obj A) : Prop := it f k = Ok [] /\ fl k [] k /\ forall s, cr f k s = (s, Ok k).
  Lemma key_run : forall f k, depth k <= f -> key_like m k -> quiet_at f k.
  Proof.
    induction f as [|f IH]; intros k Hd Hk; [pose proof (depth_pos _ k); lia|]. inversion Hk as [o Hc Hmo | l Hl]; subst k.
    - split; [cbn [iterate_recursive]; rewrite Hmo; destruct o; try reflexivity; discriminate|]. split; [constructor; assumption|].
      intro s. cbn [convert_recursive]. rewrite Hmo. destruct o; try reflexivity; discriminate.
    - cbn [depth] in Hd.
      assert (Hq : forall x, In x l -> quiet_at f x). { intros x Hx. apply IH; [eapply max_in; [exact Hx | lia] | rewrite Forall_forall in Hl; auto]. }
      clear - Hm Hq. assert (H3 : (exists n, mapM (it f) l = Ok (repeat [] n)) /\ filled_all keq hashable m l [] l /\ forall s, each (cr f) l s = (s, Ok l)).
      { induction l as [|x l IHl]; [split; [exists 0; reflexivity | split; [constructor | reflexivity]]|].
        destruct (Hq x (or_introl eq_refl)) as [Q1 [Q2 Q3]]. destruct (IHl (fun y Hy => Hq y (or_intror Hy))) as [[n I1] [I2 I3]].
        split; [exists (Datatypes.S n); cbn [mapM]; rewrite Q1; cbn [bind]; rewrite I1; reflexivity|]. split; [apply (all_cons _ _ _ x [] x l [] l); assumption|].
        intro s. cbn [each]. unfold andthen, done. rewrite Q3, I3. reflexivity. }
      destruct H3 as [[n I1] [I2 I3]]. split; [rewrite it_tuple, I1; cbn [bind]; f_equal; clear; induction n; [reflexivity | exact IHn]|]. split; [constructor; [apply m_container; reflexivity | exact I2]|].
      intro s. rewrite cr_tuple. unfold andthen. rewrite I3. reflexivity.
  Qed.
  Lemma filled_all_app : forall l1 l2 vs l', filled_all keq hashable m (l1 ++ l2) vs l' -> exists v1 v2 l1' l2', vs = v1 ++ v2 /\ l' = l1' ++ l2' /\ filled_all keq hashable m l1 v1 l1' /\ filled_all keq hashable m l2 v2 l2'.
  Proof.
    induction l1 as [|o l1 IH]; intros l2 vs l' H; cbn [app] in H.
    - exists [], vs, [], l'. repeat split; [constructor | exact H].
    - inversion H as [|? v o' ? vs' l'' Ho Hl]. subst. destruct (IH _ _ _ Hl) as [v1 [v2 [l1' [l2' [-> [-> [F1 F2]]]]]]].
      exists (v ++ v1), v2, (o' :: l1'), l2'. split; [apply app_assoc|]. split; [reflexivity|]. split; [constructor; assumption | exact F2].
  Qed.
  Lemma values_of : forall kw ws l', Forall (fun p => exists s, fst p = OStr s) kw -> filled_all keq hashable m (map snd kw) ws l' -> filled_values keq hashable m kw ws (combine (map fst kw) l').
  Proof.
    induction kw as [|[k v] kw IH]; intros ws l' Hs H; cbn [map snd] in H; inversion H as [|? b v' ? vs l'' Hv Hl]; subst; [constructor|].
    inversion Hs as [|? ? [s Hx] Hs']. cbn [fst] in Hx. subst. cbn [map fst combine]. constructor; [exact Hv | apply IH; assumption].
  Qed.
  Lemma args_pos : forall (args : list (obj A)) (kwargs : list (obj A * obj A)) f, Nat.max (list_max (map depth args)) (list_max (map (fun p => depth (snd p)) kwargs)) <= f -> args ++ map snd kwargs = [] \/ 1 <= f.
  Proof.
    intros args kwargs f Hd. destruct args as [|a args]; [destruct kwargs as [|p kwargs]; [left; reflexivity|]|]; right; cbn [map] in Hd; rewrite list_max_cons in Hd; [pose proof (depth_pos _ (snd p)) | pose proof (depth_pos _ a)]; lia.
  Qed.

  Lemma proper_run : forall f o, depth o <= f -> pr o -> run f o.
  Proof.
    intro f. induction f as [f IH] using (well_founded_induction lt_wf). intros o Hd Hp.
    destruct f as [|f]; [pose proof (depth_pos _ o); lia|].
    inversion Hp as [x Hc | l Hl | l Hl | d Hl Hk | args kwargs Ha Hw Hk]; subst o.
    - destruct (m x) eqn:Hmx.
      + exists [x]. cbn [iterate_recursive convert_recursive]. rewrite Hmx. split; [reflexivity|]. split; [constructor; [exact Hmx | constructor]|]. split; [constructor; exact Hmx|].
        intro s. cbn [each]. unfold andthen, done. destruct (conv x s) as [s1 [y|e]]; [|reflexivity]. exists y. split; [constructor; exact Hmx | reflexivity].
      + exists []. cbn [iterate_recursive convert_recursive]. rewrite Hmx. split; [destruct x; try reflexivity; discriminate|]. split; [constructor|]. split; [constructor; assumption|].
        intro s. cbn. exists x. split; [constructor; assumption|]. destruct x; try reflexivity; discriminate.
    - cbn [depth] in Hd. assert (Hr : run_all f l). { apply run_all_from. intros x Hx. apply IH; [lia | eapply max_in; [exact Hx | lia] | rewrite Forall_forall in Hl; auto]. }
      destruct Hr as [Ls [I [M [F C]]]]. exists (concat Ls). split; [rewrite it_list, I; reflexivity|]. split; [exact M|]. split; [constructor; [apply m_container; reflexivity | exact F]|].
      intro s. specialize (C s). rewrite cr_list. unfold andthen. destruct (each conv (concat Ls) s) as [s' [vs|e]]; [|rewrite C; reflexivity].
      destruct C as [l' [Fl ->]]. exists (OList l'). split; [constructor; [apply m_container; reflexivity | exact Fl] | reflexivity].
    - cbn [depth] in Hd. assert (Hr : run_all f l). { apply run_all_from. intros x Hx. apply IH; [lia | eapply max_in; [exact Hx | lia] | rewrite Forall_forall in Hl; auto]. }
      destruct Hr as [Ls [I [M [F C]]]]. exists (concat Ls). split; [rewrite it_tuple, I; reflexivity|]. split; [exact M|]. split; [constructor; [apply m_container; reflexivity | exact F]|].
      intro s. specialize (C s). rewrite cr_tuple. unfold andthen. destruct (each conv (concat Ls) s) as [s' [vs|e]]; [|rewrite C; reflexivity].
      destruct C as [l' [Fl ->]]. exists (OTuple l'). split; [constructor; [apply m_container; reflexivity | exact Fl] | reflexivity].
    - cbn [depth] in Hd.
      assert (Hr : exists Ls, mapM (both f) d = Ok Ls /\ Forall (fun x => m x = true) (concat Ls) /\ filled_entries keq hashable m d (concat Ls) d /\
        forall s acc, keys_ok keq hashable (map fst (acc ++ d)) -> match each conv (concat Ls) s with
          | (s', Ok vs) => exists d', filled_entries keq hashable m d vs d' /\ map fst d' = map fst d /\ dloop f d acc s = (s', Ok (acc ++ d'))
          | (s', Err e) => dloop f d acc s = (s', Err e) end).
      { clear Hk Hp. induction d as [|[k v] d IHd].
        - exists []. split; [reflexivity | split; [constructor | split; [constructor|]]]. intros s acc _. cbn. exists []. split; [constructor | split; [reflexivity | rewrite app_nil_r; reflexivity]].
        - inversion Hl as [|? ? [Hkk Hv] Hl']. cbn [fst snd] in Hkk, Hv. cbn [map fst snd] in Hd. rewrite list_max_cons in Hd.
          destruct (key_run f k ltac:(lia) Hkk) as [Q1 [Q2 Q3]]. destruct (IH f ltac:(lia) v ltac:(lia) Hv) as [L [I1 [M1 [F1 C1]]]].
          destruct (IHd ltac:(lia) Hl') as [Ls [I2 [M2 [F2 C2]]]]. exists (L :: Ls). split; [cbn [mapM]; unfold both at 1; cbn [fst snd]; rewrite Q1; cbn [bind]; rewrite I1; cbn [bind app]; rewrite I2; reflexivity|].
          split; [cbn [concat]; apply Forall_app; split; assumption|]. split; [cbn [concat]; apply (entries_cons _ _ _ k v [] L k v); assumption|].
          intros s acc Hok. cbn [concat]. rewrite each_app. rewrite dloop_cons. unfold andthen, done, lift. rewrite Q3. specialize (C1 s).
          destruct (each conv L s) as [s1 [v1|e]]; [|rewrite C1; reflexivity]. destruct C1 as [v' [Fv ->]].
          rewrite (setitem_new acc k v' d) by (rewrite map_app in Hok |- *; exact Hok).
          specialize (C2 s1 (acc ++ [(k, v')])). rewrite <- app_assoc in C2. cbn [app] in C2. specialize (C2 ltac:(rewrite map_app in Hok |- *; exact Hok)).
          destruct (each conv (concat Ls) s1) as [s2 [v2|e]]; [|exact C2]. destruct C2 as [d' [Fd [Kd ->]]]. exists ((k, v') :: d'). split; [apply (entries_cons _ _ _ k v [] v1 k v'); assumption|].
          split; [cbn; congruence | rewrite <- app_assoc; reflexivity]. }
      destruct Hr as [Ls [I [M [F C]]]]. assert (Hmo : m (ODict d) = false) by (apply m_container; reflexivity). exists (concat Ls). split; [rewrite it_dict, I by exact Hmo; reflexivity|]. split; [exact M|]. split; [constructor; assumption|].
      intro s. specialize (C s [] Hk). rewrite cr_dict by exact Hmo. unfold andthen. destruct (each conv (concat Ls) s) as [s' [vs|e]]; [|rewrite C; reflexivity].
      destruct C as [d' [Fd [Kd ->]]]. exists (ODict d'). split; [constructor; [exact Hmo | exact Fd | rewrite Kd; exact Hk] | reflexivity].
    - cbn [depth] in Hd. destruct f as [|[|f]]; [lia | lia|]. change (Datatypes.S (Datatypes.S (Datatypes.S f))) with (3 + f) in *.
      assert (Hstr : Forall (fun p : obj A * obj A => exists s, fst p = OStr s) kwargs) by (eapply Forall_impl; [|exact Hw]; intros p [Hp1 _]; exact Hp1).
      assert (Hmo : m (OArgs args kwargs) = false) by (apply m_container; reflexivity).
      pose proof (args_pos args kwargs f ltac:(lia)) as Hpos.
      assert (Hr : run_all f (args ++ map snd kwargs)).
      { apply run_all_from. intros x Hx. apply in_app_or in Hx. destruct Hx as [Hx|Hx].
        - apply IH; [lia | eapply max_in; [exact Hx | lia] | rewrite Forall_forall in Ha; auto].
        - apply in_map_iff in Hx. destruct Hx as [p [<- Hx]]. apply IH; [lia | apply (max_in _ (fun p => depth (snd p)) kwargs p f Hx); lia | rewrite Forall_forall in Hw; apply Hw; exact Hx]. }
      destruct Hr as [Ls [I [M [F C]]]]. exists (concat Ls). split; [rewrite args_it by assumption; rewrite I; reflexivity|]. split; [exact M|].
      assert (Hgo : forall vs l', filled_all keq hashable m (args ++ map snd kwargs) vs l' -> fl (OArgs args kwargs) vs (OArgs (firstn (length args) l') (combine (map fst kwargs) (skipn (length args) l')))).
      { intros vs l' Hfl. destruct (filled_all_app _ _ _ _ Hfl) as [v1 [v2 [l1' [l2' [-> [-> [Fa Fb]]]]]]].
        rewrite firstn_app, (all_len _ _ _ Fa), Nat.sub_diag, <- (all_len _ _ _ Fa), firstn_all. rewrite skipn_app, Nat.sub_diag, skipn_all. cbn [firstn skipn app]. rewrite app_nil_r.
        constructor; [exact Hmo | exact Fa | apply values_of; assumption | exact Hk]. }
      split.
      + pose proof (Hgo _ _ F) as G. rewrite firstn_app, Nat.sub_diag, firstn_all, skipn_app, Nat.sub_diag, skipn_all in G. cbn [firstn skipn app] in G. rewrite app_nil_r, combine_fst_snd in G. exact G.
      + intro s. specialize (C s). rewrite args_cr by assumption. destruct (each conv (concat Ls) s) as [s' [vs|e]]; [|rewrite C; reflexivity].
        destruct C as [l' [Fl ->]]. eexists. split; [exact (Hgo _ _ Fl) | reflexivity].
  Qed.
End Conv.

Section Self.
  Context {A : Type} (keq : obj A -> obj A -> bool) (hashable : obj A -> bool) (m : obj A -> bool).
  Hypothesis Hm : arrays_only m.
  Notation it := (iterate_recursive m).
  (** Filled with itself: the values are what iterate_recursive yields *)
  Lemma self_it :
    (forall o vs o', filled keq hashable m o vs o' -> o' = o -> forall f, depth o <= f -> it f o = Ok vs) /\
    (forall l vs l', filled_all keq hashable m l vs l' -> l' = l -> forall f, list_max (map depth l) <= f -> exists Ls, mapM (it f) l = Ok Ls /\ concat Ls = vs) /\
    (forall d vs d', filled_entries keq hashable m d vs d' -> d' = d -> forall f, list_max (map (fun p => Nat.max (depth (fst p)) (depth (snd p))) d) <= f -> exists Ls, mapM (both m f) d = Ok Ls /\ concat Ls = vs) /\
    (forall d vs d', filled_values keq hashable m d vs d' -> d' = d -> Forall (fun p => exists s, fst p = OStr s) d /\ forall f, list_max (map (fun p => depth (snd p)) d) <= f -> exists Ls, mapM (it f) (map snd d) = Ok Ls /\ concat Ls = vs).
  Proof.
    apply filled_ind4.
    - intros o v Ho E [|f] Hf; [pose proof (depth_pos _ o); lia|]. subst v. cbn [iterate_recursive]. rewrite Ho. reflexivity.
    - intros o Ho Hc _ [|f] Hf; [pose proof (depth_pos _ o); lia|]. cbn [iterate_recursive]. rewrite Ho. destruct o; try reflexivity; discriminate.
    - intros l vs l' Hmo Hl IH E [|f] Hf; cbn [depth] in Hf; [lia|]. injection E as ->. destruct (IH eq_refl f ltac:(lia)) as [Ls [I <-]]. rewrite it_list, I by exact Hm. reflexivity.
    - intros l vs l' Hmo Hl IH E [|f] Hf; cbn [depth] in Hf; [lia|]. injection E as ->. destruct (IH eq_refl f ltac:(lia)) as [Ls [I <-]]. rewrite it_tuple, I by exact Hm. reflexivity.
    - intros d vs d' Hmo Hl IH Hk E [|f] Hf; cbn [depth] in Hf; [lia|]. injection E as ->. destruct (IH eq_refl f ltac:(lia)) as [Ls [I <-]]. rewrite it_dict, I by assumption. reflexivity.
    - intros args kwargs vs ws args' kwargs' Hmo Hl IH Hw IH2 Hk E f Hf. injection E as -> ->. cbn [depth] in Hf. destruct f as [|[|[|f]]]; try lia.
      destruct (IH2 eq_refl) as [Hs IH2']. destruct (IH eq_refl f ltac:(lia)) as [L1 [I1 <-]]. destruct (IH2' f ltac:(lia)) as [L2 [I2 <-]].
      change (Datatypes.S (Datatypes.S (Datatypes.S f))) with (3 + f). rewrite args_it; [| exact Hm | exact Hs | apply args_pos; lia | exact Hmo].
      assert (I : mapM (it f) (args ++ map snd kwargs) = Ok (L1 ++ L2)).
      { revert I1 I2. clear. revert L1. induction args as [|a args IH]; intros L1 I1 I2; cbn [mapM app] in *; [injection I1 as <-; exact I2|].
        destruct (it f a) as [x|]; [|discriminate]. cbn [bind] in *. destruct (mapM (it f) args) as [y|]; [|discriminate]. injection I1 as <-. rewrite (IH y eq_refl I2). reflexivity. }
      rewrite I. cbn [bind]. rewrite concat_app. reflexivity.
    - intros _ f Hf. exists []. split; reflexivity.
    - intros o v o' l vs l' Ho IHo Hl IHl E f Hf. injection E as -> ->. cbn [map] in Hf. rewrite list_max_cons in Hf. destruct (IHl eq_refl f ltac:(lia)) as [Ls [I <-]].
      exists (v :: Ls). split; [cbn [mapM]; rewrite (IHo eq_refl f ltac:(lia)); cbn [bind]; rewrite I; reflexivity | reflexivity].
    - intros _ f Hf. exists []. split; reflexivity.
    - intros k v a b k' v' l vs l' Hk IHk Hv IHv Hl IHl E f Hf. injection E as -> -> ->. cbn [map fst snd] in Hf. rewrite list_max_cons in Hf. destruct (IHl eq_refl f ltac:(lia)) as [Ls [I <-]].
      exists ((a ++ b) :: Ls). split; [cbn [mapM]; unfold both at 1; cbn [fst snd]; rewrite (IHk eq_refl f ltac:(lia)); cbn [bind]; rewrite (IHv eq_refl f ltac:(lia)); cbn [bind]; rewrite I; reflexivity|].
      cbn [concat]. rewrite app_assoc. reflexivity.
    - intros _. split; [constructor|]. intros f Hf. exists []. split; reflexivity.
    - intros s v b v' l vs l' Hv IHv Hl IHl E. injection E as -> ->. destruct (IHl eq_refl) as [Hs IHl']. split; [constructor; [exists s; reflexivity | exact Hs]|].
      intros f Hf. cbn [map snd] in Hf. rewrite list_max_cons in Hf. destruct (IHl' f ltac:(lia)) as [Ls [I <-]].
      exists (b :: Ls). split; [cbn [map snd mapM]; rewrite (IHv eq_refl f ltac:(lia)); cbn [bind]; rewrite I; reflexivity | reflexivity].
  Qed.
  (** As many values as matching leaves *)
  Lemma filled_len :
    (forall o vs o', filled keq hashable m o vs o' -> forall ws o'', filled keq hashable m o ws o'' -> length ws = length vs) /\
    (forall l vs l', filled_all keq hashable m l vs l' -> forall ws l'', filled_all keq hashable m l ws l'' -> length ws = length vs) /\
    (forall l vs l', filled_entries keq hashable m l vs l' -> forall ws l'', filled_entries keq hashable m l ws l'' -> length ws = length vs) /\
    (forall l vs l', filled_values keq hashable m l vs l' -> forall ws l'', filled_values keq hashable m l ws l'' -> length ws = length vs).
  Proof.
    apply filled_ind4.
    - intros o v Ho ws o'' H. inversion H; subst; try congruence; try (rewrite m_container in Ho by (exact Hm || reflexivity); discriminate); reflexivity.
    - intros o Ho Hc ws o'' H. inversion H; subst; try discriminate; try congruence; reflexivity.
    - intros l vs l' Hmo Hl IH ws o'' H. inversion H; subst; try discriminate; try congruence; eauto.
    - intros l vs l' Hmo Hl IH ws o'' H. inversion H; subst; try discriminate; try congruence; eauto.
    - intros l vs l' Hmo Hl IH Hk ws o'' H. inversion H; subst; try discriminate; try congruence; eauto.
    - intros args kwargs vs ws args' kwargs' Hmo Hl IH Hw IH2 Hk xs o'' H. inversion H; subst; try discriminate; try congruence. rewrite !app_length. f_equal; eauto.
    - intros ws l'' H. inversion H. reflexivity.
    - intros o v o' l vs l' Ho IHo Hl IHl ws l'' H. inversion H; subst. rewrite !app_length. f_equal; eauto.
    - intros ws l'' H. inversion H. reflexivity.
    - intros k v a b k' v' l vs l' Hk IHk Hv IHv Hl IHl ws l'' H. inversion H; subst. rewrite !app_length. f_equal; [eauto | f_equal; eauto].
    - intros ws l'' H. inversion H. reflexivity.
    - intros s v b v' l vs l' Hv IHv Hl IHl ws l'' H. inversion H; subst. rewrite !app_length. f_equal; eauto.
  Qed.
End Self.

Lemma map_app_eq : forall X Y (f : X -> Y) a b l1 l2, a ++ b = map f (l1 ++ l2) -> length a = length l1 -> a = map f l1 /\ b = map f l2.
Proof.
  intros X Y f. induction a as [|x a IH]; intros b l1 l2 E L; destruct l1 as [|y l1]; try discriminate; [split; [reflexivity | exact E]|].
  cbn in E. injection E as -> E. destruct (IH b l1 l2 E ltac:(cbn in L; congruence)) as [-> ->]. split; reflexivity.
Qed.

Section Back.
  Context {A : Type} (keq : obj A -> obj A -> bool) (hashable : obj A -> bool) (m1 m2 : obj A -> bool) (f g : obj A -> obj A).
  Hypothesis H1 : arrays_only m1.
  Hypothesis H2 : arrays_only m2.
  Hypothesis Hfg : forall x, m1 x = true -> m2 (f x) = true /\ g (f x) = x.
  Notation F1 := (filled keq hashable m1).
  Notation F2 := (filled keq hashable m2).
  Lemma back_filled :
    (forall o vs o', F1 o vs o' -> forall L, F1 o L o -> vs = map f L -> F2 o [] o -> F2 o' L o /\ F2 o' vs o' /\ depth o' = depth o) /\
    (forall l vs l', filled_all keq hashable m1 l vs l' -> forall L, filled_all keq hashable m1 l L l -> vs = map f L -> filled_all keq hashable m2 l [] l -> filled_all keq hashable m2 l' L l /\ filled_all keq hashable m2 l' vs l' /\ map depth l' = map depth l) /\
    (forall l vs l', filled_entries keq hashable m1 l vs l' -> forall L, filled_entries keq hashable m1 l L l -> vs = map f L -> filled_entries keq hashable m2 l [] l -> filled_entries keq hashable m2 l' L l /\ filled_entries keq hashable m2 l' vs l' /\ map (fun p => Nat.max (depth (fst p)) (depth (snd p))) l' = map (fun p => Nat.max (depth (fst p)) (depth (snd p))) l) /\
    (forall l vs l', filled_values keq hashable m1 l vs l' -> forall L, filled_values keq hashable m1 l L l -> vs = map f L -> filled_values keq hashable m2 l [] l -> filled_values keq hashable m2 l' L l /\ filled_values keq hashable m2 l' vs l' /\ map fst l' = map fst l /\ map (fun p => depth (snd p)) l' = map (fun p => depth (snd p)) l).
  Proof.
    apply filled_ind4.
    - intros o v Ho L HL E HN. destruct (H1 _ Ho) as [a ->]. inversion HL; subst; try congruence. cbn in E. injection E as ->.
      destruct (Hfg _ Ho) as [Hf2 _]. split; [constructor; exact Hf2|]. split; [constructor; exact Hf2|]. destruct (H2 _ Hf2) as [b ->]. reflexivity.
    - intros o Ho Hc L HL E HN. destruct L; [|discriminate]. split; [exact HN | split; [exact HN | reflexivity]].
    - intros l vs l' Hmo Hl IH L HL E HN. inversion HL; subst; try congruence; try discriminate. inversion HN; subst; try discriminate.
      destruct (IH L ltac:(assumption) eq_refl ltac:(assumption)) as [P [Q D]]. assert (Hc : m2 (OList l') = false) by (apply m_container; [exact H2 | reflexivity]).
      split; [constructor; assumption|]. split; [constructor; assumption | cbn; rewrite D; reflexivity].
    - intros l vs l' Hmo Hl IH L HL E HN. inversion HL; subst; try congruence; try discriminate. inversion HN; subst; try discriminate.
      destruct (IH L ltac:(assumption) eq_refl ltac:(assumption)) as [P [Q D]]. assert (Hc : m2 (OTuple l') = false) by (apply m_container; [exact H2 | reflexivity]).
      split; [constructor; assumption|]. split; [constructor; assumption | cbn; rewrite D; reflexivity].
    - intros l vs l' Hmo Hl IH Hk L HL E HN. inversion HL; subst; try congruence; try discriminate. inversion HN; subst; try discriminate.
      destruct (IH L ltac:(assumption) eq_refl ltac:(assumption)) as [P [Q D]]. assert (Hc : m2 (ODict l') = false) by (apply m_container; [exact H2 | reflexivity]).
      split; [constructor; assumption|]. split; [constructor; assumption | cbn; rewrite D; reflexivity].
    - intros args kwargs vs ws args' kwargs' Hmo Hl IH Hw IH2 Hk L HL E HN. inversion HL as [| | | | |? ? La Lw ? ? Hx Hla Hlw Hlk]; subst; try congruence; try discriminate. inversion HN as [| | | | |? ? Na Nw ? ? Hx' Hna Hnw Hnk EN]; subst; try discriminate.
      match goal with HE : _ ++ _ = [] |- _ => apply app_eq_nil in HE; destruct HE as [-> ->] end.
      destruct (map_app_eq _ _ f _ _ _ _ E ltac:(symmetry; eapply (proj1 (proj2 (filled_len keq hashable m1))); eassumption)) as [E1 E2].
      destruct (IH La Hla E1 Hna) as [P [Q D]]. destruct (IH2 Lw Hlw E2 Hnw) as [P' [Q' [K' D']]]. assert (Hc : m2 (OArgs args' kwargs') = false) by (apply m_container; [exact H2 | reflexivity]).
      split; [apply (fill_args _ _ _ args' kwargs' La Lw); [exact Hc | exact P | exact P' | rewrite K'; exact Hk]|]. split; [apply (fill_args _ _ _ args' kwargs' vs ws); [exact Hc | exact Q | exact Q' | rewrite K'; exact Hk]|].
      cbn [depth]. rewrite D, D'. reflexivity.
    - intros L HL E HN. destruct L; [|discriminate]. split; [constructor | split; [constructor | reflexivity]].
    - intros o v o' l vs l' Ho IHo Hl IHl L HL E HN. inversion HL as [|? La ? ? Lw ? Hla Hlw]; subst. inversion HN as [|? Na ? ? Nw ? Hna Hnw EN]; subst.
      match goal with HE : _ ++ _ = [] |- _ => apply app_eq_nil in HE; destruct HE as [-> ->] end.
      destruct (map_app_eq _ _ f _ _ _ _ E ltac:(symmetry; eapply (proj1 (filled_len keq hashable m1)); eassumption)) as [E1 E2].
      destruct (IHo La Hla E1 Hna) as [P [Q D]]. destruct (IHl Lw Hlw E2 Hnw) as [P' [Q' D']]. split; [constructor; assumption|]. split; [constructor; assumption|]. cbn. congruence.
    - intros L HL E HN. destruct L; [|discriminate]. split; [constructor | split; [constructor | reflexivity]].
    - intros k v a b k' v' l vs l' Hk IHk Hv IHv Hl IHl L HL E HN. inversion HL as [|? ? La Lb ? ? ? Lw ? Hla Hlb Hlw]; subst. inversion HN as [|? ? Na Nb ? ? ? Nw ? Hna Hnb Hnw EN]; subst.
      match goal with HE : _ ++ _ = [] |- _ => apply app_eq_nil in HE; destruct HE as [-> HE]; apply app_eq_nil in HE; destruct HE as [-> ->] end.
      destruct (map_app_eq _ _ f _ _ _ _ E ltac:(symmetry; eapply (proj1 (filled_len keq hashable m1)); eassumption)) as [E1 E2].
      destruct (map_app_eq _ _ f _ _ _ _ E2 ltac:(symmetry; eapply (proj1 (filled_len keq hashable m1)); eassumption)) as [E3 E4].
      destruct (IHk La Hla E1 Hna) as [P [Q D]]. destruct (IHv Lb Hlb E3 Hnb) as [P1 [Q1 D1]]. destruct (IHl Lw Hlw E4 Hnw) as [P' [Q' D']]. split; [constructor; assumption|]. split; [constructor; assumption|]. cbn. congruence.
    - intros L HL E HN. destruct L; [|discriminate]. split; [constructor | split; [constructor | split; reflexivity]].
    - intros s v b v' l vs l' Hv IHv Hl IHl L HL E HN. inversion HL as [|? ? La ? ? Lw ? Hla Hlw]; subst. inversion HN as [|? ? Na ? ? Nw ? Hna Hnw EN]; subst.
      match goal with HE : _ ++ _ = [] |- _ => apply app_eq_nil in HE; destruct HE as [-> ->] end.
      destruct (map_app_eq _ _ f _ _ _ _ E ltac:(symmetry; eapply (proj1 (filled_len keq hashable m1)); eassumption)) as [E1 E2].
      destruct (IHv La Hla E1 Hna) as [P [Q D]]. destruct (IHl Lw Hlw E2 Hnw) as [P' [Q' [K' D']]]. split; [constructor; assumption|]. split; [constructor; assumption|]. cbn. split; congruence.
  Qed.
End Back.

Lemma each_pure : forall A S (f : obj A -> obj A) L (s : S), each (pure_conv f) L s = (s, Ok (map f L)).
Proof. induction L as [|x L IH]; intro s; [reflexivity|]. cbn [each map]. unfold andthen, pure_conv, done in *. rewrite IH. reflexivity. Qed.
Lemma map_id_on : forall X Y (f : X -> Y) (g : Y -> X) (P : X -> Prop) l, (forall x, P x -> g (f x) = x) -> Forall P l -> map g (map f l) = l.
Proof. intros X Y f g P l H Hl. induction Hl as [|x l Hx Hl IH]; [reflexivity|]. cbn. rewrite H, IH by exact Hx. reflexivity. Qed.

(** The theorems *)
Lemma convert_iterate : forall A S keq hashable other_int iter_other m (conv : obj A -> eff S (obj A)) fuel o vs o', arrays_only m -> filled keq hashable m o vs o' -> depth o <= fuel ->
  exists L, iterate_recursive m fuel o = Ok L /\ length L = length vs /\ forall s s', each conv L s = (s', Ok vs) -> convert_recursive keq hashable other_int iter_other m conv fuel o s = (s', Ok o').
Proof. intros A S keq hashable other_int iter_other m conv fuel o vs o' Hm Hf Hd. exact (cr_filled keq hashable other_int iter_other m conv Hm fuel o vs o' Hd Hf). Qed.
Lemma convert_proper : forall A S keq hashable other_int iter_other m (conv : obj A -> eff S (obj A)) fuel o, arrays_only m -> proper keq hashable m o -> depth o <= fuel ->
  exists L, iterate_recursive m fuel o = Ok L /\ Forall (fun x => m x = true) L /\ filled keq hashable m o L o /\
    forall s, match each conv L s with
              | (s', Ok vs) => exists o', filled keq hashable m o vs o' /\ convert_recursive keq hashable other_int iter_other m conv fuel o s = (s', Ok o')
              | (s', Err e) => convert_recursive keq hashable other_int iter_other m conv fuel o s = (s', Err e)
              end.
Proof. intros A S keq hashable other_int iter_other m conv fuel o Hm Hp Hd. exact (proper_run keq hashable other_int iter_other m conv Hm fuel o Hd Hp). Qed.
Lemma convert_there_back : forall A S keq hashable other_int iter_other (m1 m2 : obj A -> bool) f g fuel o (s : S), arrays_only m1 -> arrays_only m2 -> (forall x, m1 x = true -> m2 (f x) = true /\ g (f x) = x) ->
  proper keq hashable m1 o -> proper keq hashable m2 o -> depth o <= fuel -> iterate_recursive m2 fuel o = Ok [] ->
  exists o', convert_recursive keq hashable other_int iter_other m1 (pure_conv f) fuel o s = (s, Ok o') /\ convert_recursive keq hashable other_int iter_other m2 (pure_conv g) fuel o' s = (s, Ok o).
Proof.
  intros A S keq hashable other_int iter_other m1 m2 f g fuel o s H1 H2 Hfg P1 P2 Hd HN.
  destruct (proper_run (S := S) keq hashable other_int iter_other m1 (pure_conv f) H1 fuel o Hd P1) as [L [I1 [M1 [S1 C1]]]]. specialize (C1 s). rewrite each_pure in C1. destruct C1 as [o' [F1 E1]].
  destruct (proper_run (S := S) keq hashable other_int iter_other m2 (pure_conv g) H2 fuel o Hd P2) as [L2 [I2 [_ [S2 _]]]]. rewrite HN in I2. injection I2 as <-.
  destruct (proj1 (back_filled keq hashable m1 m2 f g H1 H2 Hfg) o (map f L) o' F1 L S1 eq_refl S2) as [B1 [B2 D]].
  exists o'. split; [exact E1|].
  destruct (cr_filled (S := S) keq hashable other_int iter_other m2 (pure_conv g) H2 fuel o' L o ltac:(lia) B1) as [L' [I' [N' C']]].
  rewrite (proj1 (self_it keq hashable m2 H2) _ _ _ B2 eq_refl fuel ltac:(lia)) in I'. injection I' as <-.
  apply C'. rewrite each_pure. rewrite (map_id_on _ _ f g (fun x => m1 x = true)); [reflexivity | intros x Hx; apply Hfg; exact Hx | exact M1].
Qed.
Lemma convert_nothing : forall A S keq hashable other_int iter_other m (conv : obj A -> eff S (obj A)) fuel o (s : S), arrays_only m -> proper keq hashable m o -> depth o <= fuel ->
  iterate_recursive m fuel o = Ok [] -> convert_recursive keq hashable other_int iter_other m conv fuel o s = (s, Ok o).
Proof.
  intros A S keq hashable other_int iter_other m conv fuel o s Hm Hp Hd HN.
  destruct (proper_run keq hashable other_int iter_other m conv Hm fuel o Hd Hp) as [L [I [M [F _]]]]. rewrite HN in I. injection I as <-.
  destruct (cr_filled keq hashable other_int iter_other m conv Hm fuel o [] o Hd F) as [L' [I' [_ C']]]. rewrite HN in I'. injection I' as <-. apply C'. reflexivity.
Qed.
Lemma argskwargs_back : forall A keq hashable other_int iter_other (args : list (obj A)) kwargs, Forall (fun p => exists s, fst p = OStr s) kwargs -> keys_ok keq hashable (map fst kwargs) ->
  from_items keq hashable other_int iter_other (OList (ak_items args kwargs)) = Ok (OArgs args kwargs) /\
  ak_items args kwargs = map (fun p => OTuple [fst p; snd p]) (combine (ak_keys args kwargs) (ak_values args kwargs)).
Proof.
  intros A keq hashable other_int iter_other args kwargs Hs Hk. split; [apply (from_items_items (S := unit) keq hashable other_int iter_other (fun o => done o)); [apply str_not_int; exact Hs | exact Hk]|].
  rewrite items_pairs. change (fun p : obj A * obj A => OTuple [fst p; snd p]) with (@pair_up A). f_equal. unfold ak_keys, ak_values. rewrite <- ak_fst, <- ak_snd. symmetry. apply combine_fst_snd.
Qed.
