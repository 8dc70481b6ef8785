(** Proofs about TensorFlow and MXNet models. *)
From Coq Require Import String Reals Lra Lia.
From Verif Require Import ForeignSpec BaseFacts.
Set Default Goal Selector "!".
Local Open Scope nat_scope.

Section Finish.
  Context {T : Type} `{Num T} {S : Type} (optimizer : list T -> list T -> S -> S * result (list T * list T)).
  Definition total (shapes : list (list nat)) : nat := list_sum (map count shapes).
  Lemma split_back_ok : forall shapes (flat : list T), length flat = total shapes -> exists vs : list (arr T), split_back flat shapes = Ok vs /\ map a_shape vs = shapes /\ concat (map a_data vs) = flat /\ Forall whole vs.
  Proof.
    induction shapes as [|sh shapes IH]; intros flat Hl; cbn [split_back].
    - exists []. split; [reflexivity|]. split; [reflexivity|]. split; [destruct flat; [reflexivity | discriminate] | constructor].
    - unfold total in *. cbn [map list_sum fold_right] in Hl. fold (list_sum (map count shapes)) in Hl. unfold reshape. assert (Hf : length (firstn (count sh) flat) = count sh) by (rewrite firstn_length; lia). rewrite Hf, Nat.eqb_refl. cbn [bind].
      destruct (IH (skipn (count sh) flat)) as [vs [E1 [E2 [E3 E4]]]]; [rewrite skipn_length; lia|]. rewrite E1. cbn [bind]. eexists. split; [reflexivity|]. cbn [map a_shape a_data concat]. rewrite E2, E3, firstn_skipn. split; [reflexivity|]. split; [reflexivity|]. constructor; [exact Hf | exact E4].
  Qed.
  Lemma split_back_short : forall shapes (flat : list T), length flat < total shapes -> split_back flat shapes = Err ValueError.
  Proof.
    induction shapes as [|sh shapes IH]; intros flat Hl; unfold total in *; cbn [map list_sum fold_right] in Hl; [lia|]. fold (list_sum (map count shapes)) in Hl. cbn [split_back]. unfold reshape. destruct (Nat.eqb_spec (length (firstn (count sh) flat)) (count sh)) as [E|E]; cbn [bind]; [|reflexivity].
    rewrite firstn_length in E. rewrite IH; [reflexivity|]. rewrite skipn_length. lia.
  Qed.
  Lemma assign_layer_ok : forall (l : list (weight T)) vs, length (filter w_trainable l) <= length vs -> map (fun w => a_shape (w_value w)) (filter w_trainable l) = map a_shape (firstn (length (filter w_trainable l)) vs) ->
    exists l', assign_layer l vs = (l', skipn (length (filter w_trainable l)) vs) /\ Forall2 (fun v w => same_weight v w /\ (w_trainable v = false -> v = w)) l l' /\ map w_value (filter w_trainable l') = firstn (length (filter w_trainable l)) vs.
  Proof.
    induction l as [|w l IH]; intros vs Hl Hs; cbn [assign_layer filter] in *.
    - exists []. repeat split. constructor.
    - destruct (w_trainable w) eqn:Ew.
      + cbn [length map] in *. destruct vs as [|v vs]; [cbn in Hl; lia|]. cbn [length firstn map skipn] in *. injection Hs as Hsw Hs. destruct (IH vs) as [l' [E1 [E2 E3]]]; [lia | exact Hs |]. rewrite E1. exists (mkWeight (w_name w) true v :: l'). split; [reflexivity|]. split.
        * constructor; [|exact E2]. split; [repeat split; [cbn; exact Ew | cbn; exact Hsw]|]. intro Hf. rewrite Hf in Ew. discriminate.
        * cbn [filter w_trainable map w_value]. rewrite E3. reflexivity.
      + destruct (IH vs Hl Hs) as [l' [E1 [E2 E3]]]. rewrite E1. exists (w :: l'). split; [reflexivity|]. split; [constructor; [repeat split; reflexivity | exact E2]|]. cbn [filter]. rewrite Ew. exact E3.
  Qed.
  Lemma assign_all_ok : forall (m : keras T) vs, map (fun w => a_shape (w_value w)) (trainable m) = map a_shape vs -> same_fixed m (assign_all m vs) /\ trained (assign_all m vs) = vs.
  Proof.
    unfold trainable, trained, same_fixed. induction m as [|l m IH]; intros vs Hs; cbn [assign_all concat filter map] in *.
    - split; [constructor|]. destruct vs; [reflexivity | discriminate].
    - rewrite filter_app, map_app in Hs. set (n := length (filter w_trainable l)). assert (Hn : n = length (map (fun w => a_shape (w_value w)) (filter w_trainable l))) by (rewrite map_length; reflexivity).
      pose proof (f_equal (@length (list nat)) Hs) as HL. rewrite app_length, !map_length in HL. fold n in HL.
      assert (H1 : map (fun w => a_shape (w_value w)) (filter w_trainable l) = map a_shape (firstn n vs)) by (rewrite <- firstn_map, <- Hs, Hn, firstn_app, firstn_all, Nat.sub_diag, app_nil_r; reflexivity).
      assert (H2 : map (fun w => a_shape (w_value w)) (filter w_trainable (concat m)) = map a_shape (skipn n vs)) by (rewrite <- skipn_map, <- Hs, Hn, skipn_app, skipn_all, Nat.sub_diag; reflexivity).
      destruct (assign_layer_ok l vs) as [l' [E1 [E2 E3]]]; [fold n; lia | exact H1 |]. fold n in E1, E3. rewrite E1. destruct (IH _ H2) as [E4 E5]. split; [constructor; assumption|]. cbn [concat]. rewrite filter_app, map_app, E3, E5. apply firstn_skipn.
  Qed.
  Lemma total_trainable : forall (ws : list (weight T)), (forall w, In w ws -> whole (w_value w)) -> total (map (fun w => a_shape (w_value w)) ws) = length (concat (map (fun w => a_data (w_value w)) ws)).
  Proof.
    induction ws as [|w ws IH]; intro Hw; [reflexivity|]. unfold total in *. cbn [map list_sum fold_right concat]. rewrite app_length. fold (list_sum (map count (map (fun w => a_shape (w_value w)) ws))). rewrite IH by (intros x Hx; apply Hw; right; exact Hx). f_equal. symmetry. apply (Hw w). left. reflexivity.
  Qed.

  Lemma tf_finish_ok : forall (m : keras T) gs s s' flat extra, (forall w, In w (concat m) -> whole (w_value w)) -> length gs = length (trained m) -> trained m <> [] ->
    optimizer (concat (map a_data (trained m))) (concat (map a_data gs)) s = (s', Ok (flat, extra)) -> length flat = length (concat (map a_data (trained m))) ->
    exists m', tf_finish_update optimizer m (Some gs) s = (s', Ok (m', None)) /\ same_fixed m m' /\ concat (map a_data (trained m')) = flat.
  Proof.
    intros m gs s s' flat extra Hw Hl Hne Ho Hf. unfold trained in *. rewrite map_length in Hl. rewrite map_map in Ho, Hf. unfold tf_finish_update, trainable. rewrite Hl, Nat.eqb_refl. cbn [negb].
    destruct (split_back_ok (map (fun w => a_shape (w_value w)) (filter w_trainable (concat m))) flat) as [vs [E1 [E2 [E3 E4]]]].
    { rewrite total_trainable; [exact Hf|]. intros w Hin. apply filter_In in Hin. apply Hw, Hin. }
    destruct (assign_all_ok m vs) as [A1 A2]; [unfold trainable; rewrite E2; reflexivity|]. unfold trained in A2.
    destruct (filter w_trainable (concat m)) as [|w ws] eqn:Ew; [exfalso; apply Hne; reflexivity|]. rewrite Ho. cbn [bind]. rewrite E1. cbn [bind]. eexists. split; [reflexivity|]. split; [exact A1|]. rewrite A2. exact E3.
  Qed.
  Lemma tf_finish_errors : forall (m : keras T) s,
    tf_finish_update optimizer m None s = (s, Err ValueError) /\
    (forall gs, length gs <> length (trained m) -> tf_finish_update optimizer m (Some gs) s = (s, Err AssertionError)) /\
    (trained m = [] -> tf_finish_update optimizer m (Some []) s = (s, Err IndexError)).
  Proof.
    intros m s. split; [reflexivity|]. unfold trained, tf_finish_update, trainable. split.
    - intros gs Hl. rewrite map_length in Hl. apply Nat.eqb_neq in Hl. rewrite Hl. reflexivity.
    - intro E. apply map_eq_nil in E. rewrite E. reflexivity.
  Qed.
  Lemma mx_finish_ok : forall (params : list (weight T * arr T)) s s' flat extra, (forall w g, In (w, g) params -> whole (w_value w)) -> params <> [] ->
    optimizer (concat (map (fun p => a_data (w_value (fst p))) params)) (concat (map (fun p => a_data (snd p)) params)) s = (s', Ok (flat, extra)) -> length flat = length (concat (map (fun p => a_data (w_value (fst p))) params)) ->
    exists params', mx_finish_update optimizer params s = (s', Ok params') /\
      Forall2 (fun p q => same_weight (fst p) (fst q) /\ a_shape (snd q) = a_shape (snd p) /\ a_data (snd q) = repeat (nZ 0) (length (a_data (snd p)))) params params' /\
      concat (map (fun p => a_data (w_value (fst p))) params') = flat.
  Proof.
    intros params s s' flat extra Hw Hne Ho Hf. unfold mx_finish_update. destruct params as [|p0 ps0] eqn:Ep; [contradiction|]. rewrite <- Ep in *. rewrite Ho.
    destruct (split_back_ok (map (fun p => a_shape (w_value (fst p))) params) flat) as [vs [E1 [E2 [E3 E4]]]].
    { rewrite Hf. rewrite <- !(map_map fst (fun w : weight T => a_data (w_value w))), <- !(map_map fst (fun w : weight T => a_shape (w_value w))). symmetry. apply total_trainable. intros w Hin. apply in_map_iff in Hin. destruct Hin as [[w' g] [E Hin]]. cbn in E. subst w'. exact (Hw w g Hin). }
    cbn [bind]. rewrite E1. cbn [bind]. eexists. split; [reflexivity|]. split.
    - clear - E2. revert vs E2. induction params as [|p params IH]; intros [|v vs] E2; try discriminate; cbn [combine map]; [constructor|]. cbn in E2. injection E2 as Ev E2. constructor; [|apply IH; exact E2]. cbn. split; [split; [reflexivity | split; [reflexivity | symmetry; exact Ev]]|]. split; [reflexivity|].
      induction (a_data (snd p)) as [|x l IHl]; [reflexivity | cbn; rewrite IHl; reflexivity].
    - rewrite <- E3. rewrite map_map. cbn [fst snd w_value]. f_equal. clear - E2. revert vs E2. induction params as [|p params IH]; intros [|v vs] E2; try discriminate; cbn [combine map]; [reflexivity|]. cbn in E2. injection E2 as _ E2. rewrite (IH vs E2). reflexivity.
  Qed.
End Finish.

Lemma Forall2_length {A B} (P : A -> B -> Prop) l k : Forall2 P l k -> length l = length k.
Proof. induction 1 as [|a b l k _ _ IH]; [reflexivity | cbn; rewrite IH; reflexivity]. Qed.
Section Names.
  Context {T : Type} `{Num T}.
  Implicit Type m : keras T.
  Lemma set_weight_ok (w : weight T) a : a_shape a = a_shape (w_value w) -> set_weight w a = Ok (mkWeight (w_name w) (w_trainable w) a).
  Proof. intro E. unfold set_weight. destruct (list_eq_dec Nat.eq_dec (a_shape (w_value w)) (a_shape a)) as [_|N]; [reflexivity | congruence]. Qed.
  Lemma load_layer_ok : forall d (val : string -> arr T) l, (forall w, In w l -> lookup_name d (w_name w) = Ok (val (w_name w)) /\ a_shape (val (w_name w)) = a_shape (w_value w)) ->
    load_layer d l = Ok (map (fun w => mkWeight (w_name w) (w_trainable w) (val (w_name w))) l).
  Proof.
    intros d val l Hw. unfold load_layer. rewrite (mapM_ok_map _ (fun w => (w, val (w_name w)))) by (intros w Hin; rewrite (proj1 (Hw w Hin)); reflexivity). cbn [bind].
    rewrite mapM_map. apply mapM_ok_map. intros w Hin. cbn [fst snd]. apply set_weight_ok, Hw. exact Hin.
  Qed.
  Lemma load_ok : forall d (val : string -> arr T) m, (forall w, In w (concat m) -> lookup_name d (w_name w) = Ok (val (w_name w)) /\ a_shape (val (w_name w)) = a_shape (w_value w)) -> load_weights d m = (with_values val m, Ok tt).
  Proof.
    intros d val. induction m as [|l m IH]; intro Hw; [reflexivity|]. cbn [load_weights]. rewrite (load_layer_ok d val l) by (intros w Hin; apply Hw; apply in_or_app; left; exact Hin). rewrite IH by (intros w Hin; apply Hw; apply in_or_app; right; exact Hin). reflexivity.
  Qed.
  Lemma find_unique : forall (ws : list (weight T)) w, NoDup (map w_name ws) -> In w ws -> find (fun p => String.eqb (fst p) (w_name w)) (rev (map (fun w => (w_name w, w_value w)) ws)) = Some (w_name w, w_value w).
  Proof.
    intros ws w Hnd Hin. destruct (find _ _) as [[n a]|] eqn:E.
    - apply find_some in E. destruct E as [Hin' En]. cbn in En. apply String.eqb_eq in En. subst n. apply in_rev in Hin'. apply in_map_iff in Hin'. destruct Hin' as [w' [E Hin']]. injection E as En Ea. assert (w' = w); [|subst; reflexivity].
      clear - Hnd Hin Hin' En. induction ws as [|x ws IH]; [destruct Hin|]. cbn in Hnd. inversion Hnd as [|? ? Hx Hnd']; subst. destruct Hin as [-> | Hin], Hin' as [-> | Hin'].
      + reflexivity.
      + exfalso. apply Hx. rewrite <- En. apply in_map. exact Hin'.
      + exfalso. apply Hx. rewrite En. apply in_map. exact Hin.
      + apply IH; assumption.
    - pose proof (find_none _ _ E (w_name w, w_value w)) as Hno. cbn in Hno. rewrite String.eqb_refl in Hno. discriminate Hno. apply in_rev. rewrite rev_involutive. apply in_map_iff. exists w. split; [reflexivity | exact Hin].
  Qed.
  Lemma lookup_state m w : NoDup (names m) -> In w (concat m) -> lookup_name (state_dict m) (w_name w) = Ok (w_value w).
  Proof. intros Hnd Hin. unfold lookup_name, state_dict. rewrite find_unique by assumption. reflexivity. Qed.
  Lemma same_form_names : forall m n, same_form m n -> names n = names m.
  Proof.
    unfold names. induction 1 as [|l k m n Hl Hm IH]; [reflexivity|]. cbn [concat]. rewrite !map_app, IH. f_equal. induction Hl as [|v w l k [E _] Hl IHl]; [reflexivity|]. cbn. rewrite IHl, E. reflexivity.
  Qed.
  Lemma load_state : forall m n, NoDup (names m) -> same_form m n -> load_weights (state_dict m) n = (m, Ok tt).
  Proof.
    intros m n Hnd Hs. set (d := state_dict m). assert (Hlook : forall w, In w (concat m) -> lookup_name d (w_name w) = Ok (w_value w)) by (intros w Hin; apply lookup_state; assumption). clearbody d. clear Hnd.
    induction Hs as [|l k m n Hl Hm IH]; [reflexivity|]. cbn [load_weights].
    replace (load_layer d k) with (Ok l).
    - rewrite IH; [reflexivity|]. intros w Hin. apply Hlook. cbn [concat]. apply in_or_app. right. exact Hin.
    - symmetry. assert (Hlook' : forall w, In w l -> lookup_name d (w_name w) = Ok (w_value w)) by (intros w Hin; apply Hlook; cbn [concat]; apply in_or_app; left; exact Hin). clear - Hl Hlook'. unfold load_layer. replace (mapM _ k) with (Ok (combine k (map w_value l))).
      + cbn [bind]. induction Hl as [|v w l k [En [Et Es]] Hl IHl]; [reflexivity|]. cbn [map combine mapM fst snd]. rewrite set_weight_ok by exact Es. cbn [bind]. rewrite IHl by (intros x Hx; apply Hlook'; right; exact Hx). cbn [bind]. rewrite <- En, <- Et. destruct v. reflexivity.
      + symmetry. induction Hl as [|v w l k [En [Et Es]] Hl IHl]; [reflexivity|]. cbn [map combine mapM]. rewrite <- En, (Hlook' v) by (left; reflexivity). cbn [bind]. rewrite IHl by (intros x Hx; apply Hlook'; right; exact Hx). reflexivity.
  Qed.
  Lemma same_form_refl : forall m, same_form m m.
  Proof. intro m. unfold same_form. induction m as [|l m IH]; constructor; [|exact IH]. induction l as [|w l IHl]; constructor; [repeat split | exact IHl]. Qed.

  Lemma use_params_ok : forall X prefix params (body : keras T -> keras T * result X) m (val : string -> arr T) n x,
    NoDup (names m) -> own_params prefix params <> [] -> (forall w, In w (concat m) -> lookup_name (rev (own_params prefix params)) (w_name w) = Ok (val (w_name w)) /\ a_shape (val (w_name w)) = a_shape (w_value w)) ->
    body (with_values val m) = (n, Ok x) -> same_form m n -> use_params prefix params body m = (m, Ok x).
  Proof.
    intros X prefix params body m val n x Hnd Hne Hl Hb Hs. unfold use_params. destruct (own_params prefix params) as [|p d] eqn:Ed; [contradiction|]. rewrite (load_ok _ val m Hl). rewrite Hb. rewrite load_state by assumption. reflexivity.
  Qed.
  Lemma use_params_raise : forall X prefix params (body : keras T -> keras T * result X) m (val : string -> arr T) n e,
    own_params prefix params <> [] -> (forall w, In w (concat m) -> lookup_name (rev (own_params prefix params)) (w_name w) = Ok (val (w_name w)) /\ a_shape (val (w_name w)) = a_shape (w_value w)) ->
    body (with_values val m) = (n, Err e) -> use_params prefix params body m = (n, Err e).
  Proof. intros X prefix params body m val n e Hne Hl Hb. unfold use_params. destruct (own_params prefix params) as [|p d] eqn:Ed; [contradiction|]. rewrite (load_ok _ val m Hl). rewrite Hb. reflexivity. Qed.
  Lemma own_pairs : forall prefix (params : list (pkey * arr T)), (forall k a, In (k, a) params -> exists i s, k = KPair i s) -> own_params prefix params = [].
  Proof. intros prefix params Hp. unfold own_params. induction params as [|[k a] params IH]; [reflexivity|]. destruct (Hp k a (or_introl eq_refl)) as [i [s ->]]. cbn. apply IH. intros k a' Hin. exact (Hp k a' (or_intror Hin)). Qed.
  Lemma use_params_pairs : forall X prefix params (body : keras T -> keras T * result X) m, (forall k a, In (k, a) params -> exists i s, k = KPair i s) -> use_params prefix params body m = body m.
  Proof. intros X prefix params body m Hp. unfold use_params. rewrite own_pairs by exact Hp. reflexivity. Qed.

  Lemma clone_fresh : forall from_json m, NoDup (names (from_json m)) -> tf_clone from_json m = (from_json m, Ok tt).
  Proof. intros from_json m Hnd. unfold tf_clone. apply load_state; [exact Hnd | apply same_form_refl]. Qed.
  Lemma copy_fresh : forall from_json m g, NoDup (names (from_json m)) ->
    tf_copy from_json (mkTf (Some m) g) = (mkTf None g, Ok (mkTf (Some (from_json m)) g)) /\
    forall X (f : keras T -> result X), tf_call (fst (tf_copy from_json (mkTf (Some m) g))) f = Err TypeError.
  Proof. intros from_json m g Hnd. unfold tf_copy. cbn [t_model t_gradients]. rewrite load_state; [split; reflexivity | exact Hnd | apply same_form_refl]. Qed.

  Lemma from_weights_none : forall g ws, tf_from_weights (mkTf (T := T) None g) ws = (mkTf None g, Err AttributeError).
  Proof. reflexivity. Qed.
  Lemma from_weights_ok : forall m n g, same_form m n -> tf_from_weights (mkTf (Some n) g) (map w_value (concat m)) = (mkTf (Some m) g, Ok tt).
  Proof.
    intros m n g Hs. unfold tf_from_weights. cbn [t_model t_gradients]. assert (Hc : Forall2 same_weight (concat m) (concat n)) by (induction Hs; [constructor | cbn; apply Forall2_app; assumption]).
    rewrite map_length, (Forall2_length _ _ _ Hc), Nat.eqb_refl. replace (mapM _ _) with (Ok (concat m)).
    - do 3 f_equal. clear Hc. induction Hs as [|l k m n Hl Hm IH]; [reflexivity|]. cbn [concat]. rewrite <- (Forall2_length _ _ _ Hl). rewrite firstn_app, firstn_all, Nat.sub_diag, app_nil_r, skipn_app, skipn_all, Nat.sub_diag. cbn [app skipn]. rewrite IH. reflexivity.
    - symmetry. clear Hs. induction Hc as [|v w l k [En [Et Es]] Hc IH]; [reflexivity|]. cbn [map combine mapM fst snd]. rewrite set_weight_ok by exact Es. cbn [bind]. rewrite IH. cbn [bind]. rewrite <- En, <- Et. destruct v. reflexivity.
  Qed.
End Names.

Section Tape.
  Local Open Scope R_scope.
  Lemma accumulate_ok : forall (vs gs : list (arr R)), Forall2 (fun v g => a_shape v = a_shape g) vs gs ->
    accumulate vs (map Some gs) = (map (fun p => mkArr (a_shape (fst p)) (vmap2 Rplus (a_data (fst p)) (a_data (snd p)))) (combine vs gs), Ok tt).
  Proof. induction 1 as [|v g vs gs Hs Hf IH]; [reflexivity|]. cbn [map accumulate assign_add combine fst snd]. destruct (list_eq_dec Nat.eq_dec (a_shape v) (a_shape g)) as [_|N]; [|contradiction]. rewrite IH. reflexivity. Qed.

  Lemma backprop_one : forall (tape : wrt -> option (arr R)) rows nv (shape : nat -> list nat) (g : nat -> list R) acc, (forall i, (i < nv)%nat -> tape (WVar i) = Some (mkArr (shape i) (g i))) ->
    tf_backprop tape 1 rows nv None = (Some (map (fun i => mkArr (shape i) (g i)) (seq 0 nv)), Ok [tape (WArg 0)]) /\
    tf_backprop tape 1 rows nv (Some (map (fun i => mkArr (shape i) (acc i)) (seq 0 nv))) = (Some (map (fun i => mkArr (shape i) (vmap2 Rplus (acc i) (g i))) (seq 0 nv)), Ok [tape (WArg 0)]).
  Proof.
    intros tape rows nv shape g acc Ht. unfold tf_backprop. cbn [Nat.eqb app map skipn firstn]. replace (map tape (map WVar (seq 0 nv))) with (map Some (map (fun i => mkArr (shape i) (g i)) (seq 0 nv))).
    - split.
      + rewrite mapM_map. rewrite (mapM_ok_map _ (fun a => a)) by (intros a _; reflexivity). rewrite map_id. reflexivity.
      + rewrite !map_length, Nat.eqb_refl. rewrite accumulate_ok.
        * do 3 f_equal. generalize (seq 0 nv). intro l. induction l as [|i l IH]; [reflexivity|]. cbn [map combine fst snd a_shape a_data]. rewrite IH. reflexivity.
        * generalize (seq 0 nv). intro l. induction l as [|i l IH]; constructor; [reflexivity | exact IH].
    - rewrite !map_map. apply map_ext_in. intros i Hi. apply in_seq in Hi. symmetry. apply Ht. lia.
  Qed.
  Lemma vmap2_nth : forall (a b : list R) j, length a = length b -> nth j (vmap2 Rplus a b) 0 = nth j a 0 + nth j b 0.
  Proof. unfold vmap2. induction a as [|x a IH]; intros [|y b] j Hl; try discriminate; [destruct j; cbn; lra|]. destruct j; [reflexivity|]. cbn [combine map nth fst snd]. apply IH. cbn in Hl. lia. Qed.
  Lemma vmap2_length : forall (a b : list R), length a = length b -> length (vmap2 Rplus a b) = length a.
  Proof. intros a b Hl. unfold vmap2. rewrite map_length, combine_length. lia. Qed.

  Lemma callbacks_sum : forall (tapes : list (wrt -> option (arr R))) nv (shape : nat -> list nat) (size : nat -> nat) (g : nat -> nat -> list R), tapes <> [] ->
    (forall k tape, nth_error tapes k = Some tape -> forall i, (i < nv)%nat -> tape (WVar i) = Some (mkArr (shape i) (g k i)) /\ length (g k i) = size i) ->
    exists total, callbacks tapes nv None = Some (map (fun i => mkArr (shape i) (total i)) (seq 0 nv)) /\
      forall i j, (i < nv)%nat -> length (total i) = size i /\ nth j (total i) 0 = fold_right Rplus 0 (map (fun k => nth j (g k i) 0) (seq 0 (length tapes))).
  Proof.
    intros tapes nv shape size g. induction tapes as [|tape tapes IH] using rev_ind; intros Hne Ht; [contradiction|]. unfold callbacks. rewrite fold_left_app. cbn [fold_left]. fold (callbacks tapes nv None).
    assert (Hlast : forall i, (i < nv)%nat -> tape (WVar i) = Some (mkArr (shape i) (g (length tapes) i)) /\ length (g (length tapes) i) = size i).
    { intros i Hi. apply Ht; [|exact Hi]. rewrite nth_error_app2 by lia. rewrite Nat.sub_diag. reflexivity. }
    destruct tapes as [|t0 ts] eqn:Ets.
    - cbn [callbacks fold_left]. rewrite (proj1 (backprop_one tape 0 nv shape (g 0%nat) (fun _ => []) (fun i Hi => proj1 (Hlast i Hi)))). cbn [fst]. exists (g 0%nat). split; [reflexivity|]. intros i j Hi. split; [apply Hlast; exact Hi|]. cbn. lra.
    - rewrite <- Ets in *. destruct IH as [tot [E1 E2]].
      + subst tapes. discriminate.
      + intros k tp Hk. apply Ht. rewrite nth_error_app1; [exact Hk|]. apply nth_error_Some. congruence.
      + rewrite E1. rewrite (proj2 (backprop_one tape 0 nv shape (g (length tapes)) tot (fun i Hi => proj1 (Hlast i Hi)))). cbn [fst]. exists (fun i => vmap2 Rplus (tot i) (g (length tapes) i)). split; [reflexivity|]. intros i j Hi.
        destruct (E2 i j Hi) as [E3 E4]. destruct (Hlast i Hi) as [_ E5]. assert (HL : length (tot i) = length (g (length tapes) i)) by congruence. split; [rewrite vmap2_length by exact HL; exact E3|]. rewrite vmap2_nth by exact HL. rewrite E4. rewrite app_length. cbn [length]. rewrite Nat.add_1_r, seq_S, map_app. cbn [map Nat.add].
        rewrite fold_right_app. cbn [fold_right]. generalize (seq 0 (length tapes)). intro l. induction l as [|k l IHl]; cbn; lra.
  Qed.

  Lemma backprop_many : forall (tape : wrt -> option (arr R)) n rows nv gs dX, (2 <= n)%nat -> (n <= rows)%nat -> tf_backprop tape n rows nv None = (Some gs, Ok dX) ->
    dX = map (fun i => tape (WRow i)) (seq 0 n) /\ length gs = (rows - 1 + nv)%nat.
  Proof.
    intros tape n rows nv gs dX Hn Hr E. unfold tf_backprop in E. destruct n as [|[|n]]; [lia | lia|]. cbn [Nat.eqb] in E. set (all := map tape (map WRow (seq 0 rows) ++ map WVar (seq 0 nv))) in *. destruct (mapM new_variable (skipn 1 all)) as [vs|e] eqn:Ev; [|discriminate]. assert (Ed : firstn (S (S n)) all = dX) by congruence. injection E as <- _.
    split.
    - rewrite <- Ed. unfold all. replace rows with (S (S n) + (rows - S (S n)))%nat by lia. rewrite seq_app, !map_app, !map_map, <- !app_assoc. rewrite firstn_app, map_length, seq_length, Nat.sub_diag. rewrite firstn_O. rewrite app_nil_r. apply firstn_all2. rewrite map_length, seq_length. lia.
    - apply mapM_length in Ev. rewrite Ev, skipn_length. unfold all. rewrite map_length, app_length, !map_length, !seq_length. lia.
  Qed.
  Lemma many_finish : forall (tape : wrt -> option (arr R)) (S : Type) (optimizer : list R -> list R -> S -> S * result (list R * list R)) n rows (m : keras R) gs dX s, (2 <= n)%nat -> (n <= rows)%nat -> tf_backprop tape n rows (length (trained m)) None = (Some gs, Ok dX) ->
    tf_finish_update optimizer m (Some gs) s = (s, Err AssertionError).
  Proof. intros tape S optimizer n rows m gs dX s Hn Hr E. destruct (backprop_many tape n rows _ gs dX Hn Hr E) as [_ Hl]. apply tf_finish_errors. lia. Qed.
End Tape.

Lemma backprop_none : forall (tape : wrt -> option (arr R)) rows nv gs, tf_backprop tape 0 rows nv gs = (gs, Err IndexError).
Proof. reflexivity. Qed.

Lemma predict_callback : forall X Y D (begin_update : X -> result (Y * (D -> result X))) predict x y, predict x = Ok y ->
  exists bp, tf_forward begin_update predict false x = Ok (y, bp) /\ forall d, bp d = Err NameError.
Proof. intros X Y D b p x y E. unfold tf_forward. rewrite E. eexists. split; reflexivity. Qed.

Lemma mx_modes : forall Y D X (block : mx_flags -> result Y) (backward : D -> result X) f,
  mx_predict block f = (mkMx (match block (mkMx false false) with Ok _ => true | Err _ => false end) (m_recording f), block (mkMx false false)) /\
  (forall y, block (mkMx true true) = Ok y -> exists bp, mx_begin_update block backward f = (mkMx true true, Ok (y, bp)) /\ forall d f', bp d f' = (mkMx (m_training f') false, backward d)) /\
  (forall e, block (mkMx true true) = Err e -> mx_begin_update block backward f = (mkMx true true, Err e)).
Proof.
  intros Y D X block backward f. unfold mx_predict, mx_begin_update. split; [destruct (block (mkMx false false)); reflexivity|]. split; [intros y E; rewrite E; eexists; split; reflexivity | intros e E; rewrite E; reflexivity].
Qed.

Lemma mx_moved : forall B (copy_block : B -> B) b, exists m, mx_to_device copy_block "cpu" (Block b) = (m, Ok tt) /\ mx_block m = Err AttributeError /\ mx_to_device copy_block "gpu" m = (m, Err AttributeError).
Proof. intros B copy_block b. eexists. split; [reflexivity|]. split; reflexivity. Qed.

Lemma load_shape : forall T (d : list (string * arr T)) (m : keras T) l w a, lookup_name d (w_name w) = Ok a -> a_shape a <> a_shape (w_value w) ->
  load_weights d (([w] :: l) ++ m)%list = ([w] :: l ++ m, Err ValueError)%list.
Proof.
  intros T d m l w a E N. cbn [app load_weights]. unfold load_layer. cbn [mapM bind]. rewrite E. cbn [bind mapM fst snd]. unfold set_weight.
  destruct (list_eq_dec Nat.eq_dec (a_shape (w_value w)) (a_shape a)) as [e|_]; [now destruct N|]. reflexivity.
Qed.
