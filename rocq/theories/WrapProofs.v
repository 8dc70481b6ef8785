(** Proofs about wrapped models. *)
From Coq Require Import String.
From Verif Require Import NestModel NestSpec NestProofs WrapModel WrapSpec BaseFacts.
Set Default Goal Selector "!".

Section Leaves.
  Context {A : Type} (keq : obj A -> obj A -> bool) (hashable : obj A -> bool).
  Variable p : A -> bool.
  Notation m := (leaf p).
  Notation fl := (filled keq hashable m).
  Notation pr := (proper keq hashable m).
  Lemma arrays_leaf : arrays_only m.
  Proof. intros [| |a| | | |] H; try discriminate. exists a. reflexivity. Qed.
  Definition sel (g : A -> A) (l : list A) : list (obj A) := map (fun a => OOther (g a)) (filter p l).
  Lemma sel_app : forall g a b, sel g (a ++ b) = sel g a ++ sel g b.
  Proof. intros g a b. unfold sel. rewrite filter_app, map_app. reflexivity. Qed.

  Lemma key_filled : forall k, key_like m k -> fl k [] k.
  Proof.
    intros k H. destruct (key_run (S := unit) keq hashable (fun _ => false) (fun _ => Err TypeError) m (fun o => done o) arrays_leaf (depth k) k (le_n _) H) as [_ [F _]]. exact F.
  Qed.
  Lemma filled_replaced_n : forall n g o, depth o <= n -> pr o -> fl o (sel g (leaves o)) (replaced (only p g) o).
  Proof.
    induction n as [|n IH]; intros g o Hd Hp; [pose proof (depth_pos _ o); lia|].
    assert (IHl : forall l, list_max (map depth l) <= n -> Forall pr l -> filled_all keq hashable m l (sel g (concat (map leaves l))) (map (replaced (only p g)) l)).
    { induction l as [|x l IHl]; intros Hl Hf; [constructor|]. inversion Hf. cbn [map concat]. rewrite sel_app. cbn [map] in Hl. rewrite list_max_cons in Hl. constructor; [apply IH; [lia | assumption] | apply IHl; [lia | assumption]]. }
    inversion Hp as [o' Hc | l Hl | l Hl | d Hdd Hk | args kwargs Ha Hkw Hk]; subst o; cbn [depth] in Hd.
    - destruct o' as [i|s|a| | | |]; try discriminate.
      + cbn. constructor; reflexivity.
      + cbn. constructor; reflexivity.
      + cbn [leaves replaced]. unfold sel, only. cbn [filter]. destruct (p a) eqn:E.
        * cbn. apply fill_match. exact E.
        * cbn. apply fill_atom; [exact E | reflexivity].
    - cbn [leaves replaced]. apply fill_list; [reflexivity|]. apply IHl; [lia | exact Hl].
    - cbn [leaves replaced]. apply fill_tuple; [reflexivity|]. apply IHl; [lia | exact Hl].
    - cbn [leaves replaced]. apply fill_dict; [reflexivity | | rewrite map_map; exact Hk].
      assert (Hd' : list_max (map (fun q => Nat.max (depth (fst q)) (depth (snd q))) d) <= n) by lia. clear Hd Hk Hp. induction Hdd as [|[k v] d [Hkey Hv] Hdd IHd]; [constructor|].
      cbn [map fst snd] in *. rewrite list_max_cons in Hd'. cbn [concat]. rewrite sel_app. change (sel g (leaves v) ++ sel g (concat (map (fun q => leaves (snd q)) d))) with ([] ++ sel g (leaves v) ++ sel g (concat (map (fun q => leaves (snd q)) d))).
      constructor; [exact (key_filled k Hkey) | apply IH; [lia | exact Hv] | apply IHd; lia].
    - cbn [leaves replaced]. rewrite sel_app. apply fill_args; [reflexivity | apply IHl; [lia | exact Ha] | | exact Hk].
      assert (Hd' : list_max (map (fun q => depth (snd q)) kwargs) <= n) by lia. clear - IH Hd' Hkw. induction Hkw as [|[k v] d [[s Hs] Hv] Hdd IHd]; [constructor|].
      cbn [map fst snd] in *. subst k. rewrite list_max_cons in Hd'. cbn [concat]. rewrite sel_app. constructor; [apply IH; [lia | exact Hv] | apply IHd; lia].
  Qed.
  Lemma filled_replaced : forall g o, pr o -> fl o (sel g (leaves o)) (replaced (only p g) o).
  Proof. intros g o. apply (filled_replaced_n (depth o)). lia. Qed.
  Lemma replaced_id : forall n g (o : obj A), depth o <= n -> (forall a, In a (leaves o) -> g a = a) -> replaced g o = o.
  Proof.
    induction n as [|n IH]; intros g o Hd Hg; [pose proof (depth_pos _ o); lia|].
    assert (IHl : forall l, list_max (map depth l) <= n -> (forall a, In a (concat (map leaves l)) -> g a = a) -> map (replaced g) l = l).
    { induction l as [|x l IHl]; intros Hl Hf; [reflexivity|]. cbn [map concat] in *. rewrite list_max_cons in Hl. rewrite IH, IHl; try lia; [reflexivity | |]; intros a Ha; apply Hf; apply in_or_app; tauto. }
    assert (IHd : forall d, list_max (map (fun q => depth (snd q)) d) <= n -> (forall a, In a (concat (map (fun q => leaves (snd q)) d)) -> g a = a) -> map (fun q : obj A * obj A => (fst q, replaced g (snd q))) d = d).
    { induction d as [|[k v] l IHd]; intros Hl Hf; [reflexivity|]. cbn [map concat fst snd] in *. rewrite list_max_cons in Hl. rewrite IH, IHd; try lia; [reflexivity | |]; intros a Ha; apply Hf; apply in_or_app; tauto. }
    destruct o as [i|s|a|l|l|d|args kw]; cbn [replaced leaves depth] in *; try reflexivity.
    - rewrite Hg by (left; reflexivity). reflexivity.
    - rewrite IHl; [reflexivity | lia | exact Hg].
    - rewrite IHl; [reflexivity | lia | exact Hg].
    - rewrite IHd; [reflexivity | | exact Hg]. apply le_S_n in Hd. apply list_max_le. apply list_max_le in Hd. rewrite Forall_forall in *. intros x Hx. apply in_map_iff in Hx. destruct Hx as [q [<- Hq]]. specialize (Hd _ (in_map (fun q => Nat.max (depth (fst q)) (depth (snd q))) _ _ Hq)). cbv beta in Hd. lia.
    - rewrite IHl, IHd; try lia; [reflexivity | |]; intros a Ha; apply Hg; apply in_or_app; tauto.
  Qed.
  Lemma iterate_leaves : forall o fuel, pr o -> depth o <= fuel -> iterate_recursive m fuel o = Ok (sel (fun a => a) (leaves o)).
  Proof.
    intros o fuel Hp Hd. pose proof (filled_replaced (fun a => a) o Hp) as F. rewrite (replaced_id (depth o)) in F; [|lia | intros a _; unfold only; destruct (p a); reflexivity].
    exact (proj1 (self_it keq hashable m arrays_leaf) o _ o F eq_refl fuel Hd).
  Qed.

  Context {St : Type} (other_int : A -> bool) (iter_other : obj A -> result (list (obj A))).
  Lemma convert_leaves : forall (conv : obj A -> eff St (obj A)) g s o fuel, pr o -> depth o <= fuel -> (forall a, In a (leaves o) -> p a = true -> conv (OOther a) s = (s, Ok (OOther (g a)))) ->
    convert_recursive keq hashable other_int iter_other m conv fuel o s = (s, Ok (replaced (only p g) o)).
  Proof.
    intros conv g s o fuel Hp Hd Hc. destruct (convert_iterate A St keq hashable other_int iter_other m conv fuel o _ _ arrays_leaf (filled_replaced g o Hp) Hd) as [L [HL [_ H]]].
    apply H. rewrite (iterate_leaves o fuel Hp Hd) in HL. injection HL as <-. unfold sel. assert (Hc' : Forall (fun a => p a = true -> conv (OOther a) s = (s, Ok (OOther (g a)))) (leaves o)) by (apply Forall_forall; exact Hc).
    clear - Hc'. induction Hc' as [|a l Ha Hl IH]; [reflexivity|]. cbn [filter]. destruct (p a) eqn:E; [|exact IH]. cbn [map each]. unfold andthen, done in *. rewrite Ha by reflexivity. rewrite IH. reflexivity.
  Qed.
  (** The first leaf whose conversion fails *)
  Lemma convert_fails : forall (conv : obj A -> eff St (obj A)) s e o fuel, pr o -> depth o <= fuel ->
    (forall a, In a (leaves o) -> p a = true -> (exists b, conv (OOther a) s = (s, Ok b)) \/ conv (OOther a) s = (s, Err e)) -> (exists a, In a (leaves o) /\ p a = true /\ conv (OOther a) s = (s, Err e)) ->
    convert_recursive keq hashable other_int iter_other m conv fuel o s = (s, Err e).
  Proof.
    intros conv s e o fuel Hp Hd Hc Hex. destruct (convert_proper A St keq hashable other_int iter_other m conv fuel o arrays_leaf Hp Hd) as [L [HL [_ [_ H]]]].
    rewrite (iterate_leaves o fuel Hp Hd) in HL. injection HL as <-. specialize (H s). assert (E : each conv (sel (fun a => a) (leaves o)) s = (s, Err e)).
    { unfold sel. clear - Hc Hex. revert Hc Hex. generalize (leaves o). induction l as [|a l IH]; intros Hc Hex.
      - destruct Hex as [a [[] _]].
      - cbn [filter]. destruct (p a) eqn:E.
        + cbn [map each]. unfold andthen, done. destruct (Hc a (or_introl eq_refl) E) as [[b Hb]|Hb]; rewrite Hb; [|reflexivity].
          rewrite IH; [reflexivity | intros x Hx; apply Hc; right; exact Hx |]. destruct Hex as [x [[<-|Hx] [Hpx Hx2]]]; [congruence | exists x; tauto].
        + apply IH; [intros x Hx; apply Hc; right; exact Hx |]. destruct Hex as [x [[<-|Hx] [Hpx Hx2]]]; [congruence | exists x; tauto]. }
    rewrite E in H. exact H.
  Qed.
End Leaves.

Section Replaced.
  Context {A : Type}.
  Lemma obj_ind_depth : forall P : obj A -> Prop, (forall o, (forall o', depth o' < depth o -> P o') -> P o) -> forall o, P o.
  Proof. intros P H o. assert (G : forall n o, depth o <= n -> P o). { induction n as [|n IH]; intros x Hx; [pose proof (depth_pos _ x); lia|]. apply H. intros y Hy. apply IH. lia. } exact (G _ o (le_n _)). Qed.
  Lemma in_depth : forall (x : obj A) l, In x l -> depth x <= list_max (map depth l).
  Proof. intros x l H. assert (G := proj1 (list_max_le (map depth l) (list_max (map depth l))) (le_n _)). rewrite Forall_forall in G. apply G. apply in_map. exact H. Qed.
  Lemma in_depth_f : forall X (f : X -> nat) x l, In x l -> f x <= list_max (map f l).
  Proof. intros X f x l H. assert (G := proj1 (list_max_le (map f l) (list_max (map f l))) (le_n _)). rewrite Forall_forall in G. apply G. apply in_map. exact H. Qed.
  Ltac obj_cases o := destruct o as [i|s|a|l|l|d|args kw]; cbn [replaced leaves depth]; try reflexivity.
  Ltac go H := intros ? ?; apply H; cbn [depth].
  Lemma replaced_ext : forall (f g : A -> A) o, (forall a, In a (leaves o) -> f a = g a) -> replaced f o = replaced g o.
  Proof.
    intros f g o. induction o as [o IH] using obj_ind_depth. intro Hfg. destruct o as [i|s|a|l|l|d|args kw]; cbn [replaced leaves depth] in *; try reflexivity.
    - rewrite Hfg by (left; reflexivity). reflexivity.
    - f_equal. apply map_ext_in. intros x Hx. apply IH; [pose proof (in_depth x l Hx); lia|]. intros a Ha. apply Hfg. apply in_concat. exists (leaves x). split; [apply in_map; exact Hx | exact Ha].
    - f_equal. apply map_ext_in. intros x Hx. apply IH; [pose proof (in_depth x l Hx); lia|]. intros a Ha. apply Hfg. apply in_concat. exists (leaves x). split; [apply in_map; exact Hx | exact Ha].
    - f_equal. apply map_ext_in. intros x Hx. f_equal. apply IH; [pose proof (in_depth_f _ (fun p => Nat.max (depth (fst p)) (depth (snd p))) x d Hx); cbv beta in *; lia|]. intros a Ha. apply Hfg. apply in_concat. exists (leaves (snd x)). split; [apply (in_map (fun p => leaves (snd p))); exact Hx | exact Ha].
    - f_equal; apply map_ext_in; intros x Hx.
      + apply IH; [pose proof (in_depth x args Hx); lia|]. intros a Ha. apply Hfg. apply in_or_app. left. apply in_concat. exists (leaves x). split; [apply in_map; exact Hx | exact Ha].
      + f_equal. apply IH; [pose proof (in_depth_f _ (fun p => depth (snd p)) x kw Hx); cbv beta in *; lia|]. intros a Ha. apply Hfg. apply in_or_app. right. apply in_concat. exists (leaves (snd x)). split; [apply (in_map (fun p => leaves (snd p))); exact Hx | exact Ha].
  Qed.
  Lemma replaced_twice : forall (f g : A -> A) o, replaced g (replaced f o) = replaced (fun a => g (f a)) o.
  Proof.
    intros f g o. induction o as [o IH] using obj_ind_depth. destruct o as [i|s|a|l|l|d|args kw]; cbn [replaced depth] in *; try reflexivity.
    - f_equal. rewrite map_map. apply map_ext_in. intros x Hx. apply IH. pose proof (in_depth x l Hx); lia.
    - f_equal. rewrite map_map. apply map_ext_in. intros x Hx. apply IH. pose proof (in_depth x l Hx); lia.
    - f_equal. rewrite map_map. apply map_ext_in. intros x Hx. cbn. f_equal. apply IH. pose proof (in_depth_f _ (fun p => Nat.max (depth (fst p)) (depth (snd p))) x d Hx); cbv beta in *; lia.
    - f_equal; rewrite map_map; apply map_ext_in; intros x Hx.
      + apply IH. pose proof (in_depth x args Hx); lia.
      + cbn. f_equal. apply IH. pose proof (in_depth_f _ (fun p => depth (snd p)) x kw Hx); cbv beta in *; lia.
  Qed.
  Lemma depth_replaced : forall (f : A -> A) o, depth (replaced f o) = depth o.
  Proof.
    intros f o. induction o as [o IH] using obj_ind_depth. destruct o as [i|s|a|l|l|d|args kw]; cbn [replaced depth] in *; try reflexivity.
    - f_equal. f_equal. rewrite map_map. apply map_ext_in. intros x Hx. apply IH. pose proof (in_depth x l Hx); lia.
    - f_equal. f_equal. rewrite map_map. apply map_ext_in. intros x Hx. apply IH. pose proof (in_depth x l Hx); lia.
    - f_equal. f_equal. rewrite map_map. apply map_ext_in. intros x Hx. cbn. f_equal. apply IH. pose proof (in_depth_f _ (fun p => Nat.max (depth (fst p)) (depth (snd p))) x d Hx); cbv beta in *; lia.
    - rewrite !map_map. rewrite (map_ext_in _ depth args), (map_ext_in _ (fun p => depth (snd p)) kw); [reflexivity | |]; intros x Hx.
      + cbn. apply IH. pose proof (in_depth_f _ (fun p => depth (snd p)) x kw Hx); cbv beta in *; lia.
      + apply IH. pose proof (in_depth x args Hx); lia.
  Qed.
  Lemma leaves_replaced : forall (f : A -> A) o, leaves (replaced f o) = map f (leaves o).
  Proof.
    intros f o. induction o as [o IH] using obj_ind_depth. destruct o as [i|s|a|l|l|d|args kw]; cbn [replaced depth leaves] in *; try reflexivity.
    - rewrite concat_map, !map_map. f_equal. apply map_ext_in. intros x Hx. apply IH. pose proof (in_depth x l Hx); lia.
    - rewrite concat_map, !map_map. f_equal. apply map_ext_in. intros x Hx. apply IH. pose proof (in_depth x l Hx); lia.
    - rewrite concat_map, !map_map. f_equal. apply map_ext_in. intros x Hx. cbn. apply IH. pose proof (in_depth_f _ (fun p => Nat.max (depth (fst p)) (depth (snd p))) x d Hx); cbv beta in *; lia.
    - rewrite map_app, !concat_map, !map_map. f_equal; f_equal; apply map_ext_in; intros x Hx.
      + apply IH. pose proof (in_depth x args Hx); lia.
      + cbn. apply IH. pose proof (in_depth_f _ (fun p => depth (snd p)) x kw Hx); cbv beta in *; lia.
  Qed.
  Lemma proper_replaced : forall keq hashable (m : obj A -> bool) (f : A -> A) o, proper keq hashable m o -> proper keq hashable m (replaced f o).
  Proof.
    intros keq hashable m f o. induction o as [o IH] using obj_ind_depth. intro Hp. inversion Hp as [o' Hc | l Hl | l Hl | d Hdd Hk | args kwargs Ha Hkw Hk]; subst o; cbn [depth] in IH.
    - destruct o'; try discriminate; cbn; apply proper_atom; reflexivity.
    - cbn [replaced]. apply proper_list. apply Forall_forall. intros x Hx. apply in_map_iff in Hx. destruct Hx as [y [<- Hy]]. rewrite Forall_forall in Hl. apply IH; [pose proof (in_depth y l Hy); lia | apply Hl; exact Hy].
    - cbn [replaced]. apply proper_tuple. apply Forall_forall. intros x Hx. apply in_map_iff in Hx. destruct Hx as [y [<- Hy]]. rewrite Forall_forall in Hl. apply IH; [pose proof (in_depth y l Hy); lia | apply Hl; exact Hy].
    - cbn [replaced]. apply proper_dict; [|rewrite map_map; exact Hk]. apply Forall_forall. intros x Hx. apply in_map_iff in Hx. destruct Hx as [y [<- Hy]]. rewrite Forall_forall in Hdd. destruct (Hdd y Hy) as [H1 H2]. cbn. split; [exact H1|].
      apply IH; [pose proof (in_depth_f _ (fun p => Nat.max (depth (fst p)) (depth (snd p))) y d Hy); cbv beta in *; lia | exact H2].
    - cbn [replaced]. apply proper_args; [| |rewrite map_map; exact Hk]; apply Forall_forall; intros x Hx; apply in_map_iff in Hx; destruct Hx as [y [<- Hy]].
      + rewrite Forall_forall in Ha. apply IH; [pose proof (in_depth y args Hy); lia | apply Ha; exact Hy].
      + rewrite Forall_forall in Hkw. destruct (Hkw y Hy) as [H1 H2]. cbn. split; [exact H1|]. apply IH; [pose proof (in_depth_f _ (fun p => depth (snd p)) y kwargs Hy); cbv beta in *; lia | exact H2].
  Qed.
End Replaced.

(** ** What the shim and the conversions refuse *)
Lemma names_refused A W is_torch keq hashable other_int iter_other fuel none ellipsis net autograd (grad_of : A -> W -> option A) args kwargs w :
  Exists (fun p => forall s, fst p <> OStr s) kwargs ->
  shim_call keq hashable other_int iter_other fuel is_torch none ellipsis net autograd grad_of (OArgs args kwargs) true w = (mkWorld true (w_rest w), Err TypeError) /\
  shim_call keq hashable other_int iter_other fuel is_torch none ellipsis net autograd grad_of (OArgs args kwargs) false w = (mkWorld false (w_rest w), Err TypeError).
Proof.
  intros H. assert (F : forallb (fun p : obj A * obj A => match fst p with OStr _ => true | _ => false end) kwargs = false).
  { induction H as [[k v] l H|p l H IH]; cbn.
    - destruct k; try reflexivity. exfalso. apply (H s). reflexivity.
    - rewrite IH. apply Bool.andb_false_r. }
  unfold shim_call, andthen, predict, call_net. rewrite F. split; reflexivity.
Qed.
Lemma shim_others A W is_torch keq hashable other_int iter_other fuel none ellipsis net autograd (grad_of : A -> W -> option A) o w :
  (forall args kwargs, o <> OArgs args kwargs) ->
  shim_call keq hashable other_int iter_other fuel is_torch none ellipsis net autograd grad_of o true w = (mkWorld true (w_rest w), Err AttributeError) /\
  shim_call keq hashable other_int iter_other fuel is_torch none ellipsis net autograd grad_of o false w = (mkWorld false (w_rest w), Err AttributeError).
Proof.
  intros H. unfold shim_call, andthen, predict, call_net. destruct o; try (split; reflexivity). exfalso. apply (H args kwargs). reflexivity.
Qed.
