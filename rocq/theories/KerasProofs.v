(** Proofs about Keras and MXNet models. *)
From Coq Require Import String ZArith List Bool Lia.
From Verif Require Import DictFacts KerasModel KerasSpec.
Import ListNotations.
Local Open Scope string_scope.
Set Default Goal Selector "!".

Section K.
  Context {V A W B M : Type}.
  Variable init : nat -> A -> result M.
  Variable json_ok : A -> bool.
  Variable get_config : @kinst A M -> result unit.
  Variable call : @kcall V -> M -> M * result unit.
  Variable save_h5 : @kinst A M -> result B.
  Variable load_h5 : B -> result (@kinst A M).
  Variable get_weights : M -> W.
  Variable set_weights : M -> W -> M * result unit.
  Variable no_args : A.

  Lemma set_class_same : forall (l : list (@kclass V)) i c, i < length l -> nth_error (set_class l i c) i = Some c.
  Proof. induction l as [|x l IH]; cbn; intros [|i] c H; try lia; [reflexivity|]. cbn. apply IH. lia. Qed.
  Lemma set_class_other : forall (l : list (@kclass V)) i j c, i <> j -> nth_error (set_class l i c) j = nth_error l j.
  Proof. induction l as [|x l IH]; intros [|i] [|j] c H; cbn; try reflexivity; [destruct (H eq_refl)|]. apply IH. lia. Qed.
  Lemma set_class_length : forall (l : list (@kclass V)) i c, length (set_class l i c) = length l.
  Proof. induction l as [|x l IH]; intros [|i] c; cbn; try reflexivity. rewrite IH. reflexivity. Qed.
  Lemma fold_dset : forall (a : dict string string) d key, NoDup (dkeys a) ->
    dget key (fold_left (fun d p => dset (fst p) (snd p) d) a d) = match dget key a with Some v => Some v | None => dget key d end.
  Proof.
    induction a as [|[k v] a IH]; intros d key Hn; [reflexivity|]. cbn. inversion Hn as [|? ? Hk Hn']. subst. rewrite IH by exact Hn'. destruct (eqd key k) as [->|Hne].
    - destruct (dget k a) eqn:E; [exfalso; apply Hk; exact (dget_some_key _ _ _ E)|]. apply dget_dset_same.
    - destruct (dget key a); [reflexivity|]. apply dget_dset_other. exact Hne.
  Qed.

  Lemma subclass_ok : forall name (X Y shape : V) args c s, c < length (k_classes s) -> (forall a, args = Some a -> NoDup (dkeys a)) ->
    exists k d, nth_error (k_classes (keras_subclass name X Y shape args c s)) c = Some k /\ kc_name k = Some name /\ kc_x k = Some X /\ kc_y k = Some Y /\ kc_shape k = Some shape /\ kc_compile k = Some d /\ 0 < kc_inits k /\
      (forall key, dget key d = match args with Some a => match dget key a with Some v => Some v | None => dget key [("optimizer", "adam"); ("loss", "mse")] end | None => dget key [("optimizer", "adam"); ("loss", "mse")] end) /\
      dget name (k_registry (keras_subclass name X Y shape args c s)) = Some c /\
      (forall n, n <> name -> dget n (k_registry (keras_subclass name X Y shape args c s)) = dget n (k_registry s)) /\
      (forall j, j <> c -> nth_error (k_classes (keras_subclass name X Y shape args c s)) j = nth_error (k_classes s) j).
  Proof.
    intros name X Y shape args c s Hc Hn. unfold keras_subclass. destruct (nth_error (k_classes s) c) as [k|] eqn:E; [|apply nth_error_None in E; lia].
    eexists. exists (compile_with args). cbn [k_classes k_registry]. split; [apply set_class_same; exact Hc|]. cbn. split; [reflexivity|]. split; [reflexivity|]. split; [reflexivity|]. split; [reflexivity|]. split; [reflexivity|]. split; [lia|].
    split; [|split; [apply dget_dset_same|split; [intros n Hne; apply dget_dset_other; exact Hne | intros j Hj; apply set_class_other; congruence]]].
    intro key. destruct args as [a|]; [|reflexivity]. unfold compile_with. rewrite fold_dset by (apply Hn; reflexivity). reflexivity.
  Qed.
  Lemma wrapped_ok : forall n c args, wrapped_init init json_ok n c args =
    match init c args with Err e => Err e | Ok m => match n with 0 => Ok (m, None) | S _ => if json_ok args then Ok (m, Some args) else Err ValueError end end.
  Proof.
    induction n as [|n IH]; intros c args; cbn; [destruct (init c args); reflexivity|]. rewrite IH. destruct (init c args) as [m|e]; [|reflexivity]. cbn. destruct n; cbn; destruct (json_ok args); reflexivity.
  Qed.
  Lemma create_ok : forall name (X Y shape : V) cargs c s args, c < length (k_classes s) ->
    create init json_ok (keras_subclass name X Y shape cargs c s) name args =
      match init c args with Err e => Err e | Ok m => if json_ok args then Ok (mkKi c m (Some args)) else Err ValueError end.
  Proof.
    intros name X Y shape cargs c s args Hc. unfold create, keras_subclass. destruct (nth_error (k_classes s) c) as [k|] eqn:E; [|apply nth_error_None in E; lia]. cbn [k_registry]. rewrite dget_dset_same.
    unfold construct. cbn [k_classes]. rewrite set_class_same by exact Hc. cbn [kc_inits]. rewrite wrapped_ok. destruct (init c args); [|reflexivity]. destruct (json_ok args); reflexivity.
  Qed.
  Lemma create_unknown : forall (s : @kstate V) name args, dget name (k_registry s) = None -> create init json_ok s name args = Err ValueError.
  Proof. intros s name args H. unfold create. rewrite H. reflexivity. Qed.
  Lemma name_taken : forall name (X Y shape X' Y' shape' : V) cargs cargs' c c' s args m, c < length (k_classes s) -> c' < length (k_classes s) -> c <> c' -> init c' args = Ok m -> json_ok args = true ->
    (exists k, nth_error (k_classes (keras_subclass name X' Y' shape' cargs' c' (keras_subclass name X Y shape cargs c s))) c = Some k /\ kc_name k = Some name) /\
    create init json_ok (keras_subclass name X' Y' shape' cargs' c' (keras_subclass name X Y shape cargs c s)) name args = Ok (mkKi c' m (Some args)).
  Proof.
    intros name X Y shape X' Y' shape' cargs cargs' c c' s args m Hc Hc' Hne Hi Hj. assert (L : length (k_classes (keras_subclass name X Y shape cargs c s)) = length (k_classes s)).
    { unfold keras_subclass. destruct (nth_error (k_classes s) c); [|reflexivity]. apply set_class_length. }
    split; [|rewrite create_ok by (rewrite L; exact Hc'); rewrite Hi, Hj; reflexivity].
    unfold keras_subclass at 1. destruct (nth_error (k_classes (keras_subclass name X Y shape cargs c s)) c') as [k'|] eqn:E; [|apply nth_error_None in E; lia]. cbn [k_classes]. rewrite set_class_other by congruence.
    unfold keras_subclass. destruct (nth_error (k_classes s) c) as [k|] eqn:E'; [|apply nth_error_None in E'; lia]. cbn [k_classes]. rewrite set_class_same by exact Hc. eexists. split; reflexivity.
  Qed.

  (** ** Handshake *)
  Lemma do_calls_ok : forall l m m', do_calls call l m = (m', Ok tt) <-> all_ok call l m m'.
  Proof.
    induction l as [|c l IH]; intros m m'; cbn.
    - split; [intro H; injection H as <-; constructor | intro H; inversion H; reflexivity].
    - split.
      + destruct (call c m) as [m1 [[]|e]] eqn:E; [|discriminate]. intro H. econstructor; [exact E|]. apply IH. exact H.
      + intro H. inversion H as [|? ? ? m1 ? H1 H2]. subst. rewrite H1. apply IH. exact H2.
  Qed.
  Lemma handshake_plain : forall s i, get_config i = Ok tt -> handshake get_config call s i = (i, Ok tt).
  Proof. intros s i H. unfold handshake. rewrite H. reflexivity. Qed.
  Lemma handshake_iff : forall (s : @kstate V) i i' k name X Y shape args, subclassed get_config i -> nth_error (k_classes s) (ki_class i) = Some k -> k = mkKc (Some name) (Some shape) (Some args) (Some X) (Some Y) (kc_inits k) ->
    (handshake get_config call s i = (i', Ok tt) <-> exists m', all_ok call [KCompile args; KBuild shape; KPredict X; KTrain] (ki_model i) m' /\ i' = mkKi (ki_class i) m' (ki_args i)).
  Proof.
    intros s i i' k name X Y shape args Hs Hk Ek. unfold handshake. cbv zeta. rewrite Hk, Ek. cbn [kc_name kc_x kc_y kc_shape kc_compile].
    assert (E : (let (m, r) := do_calls call [KCompile args; KBuild shape; KPredict X; KTrain] (ki_model i) in (mkKi (ki_class i) m (ki_args i), r)) = (i', Ok tt) <->
      exists m', all_ok call [KCompile args; KBuild shape; KPredict X; KTrain] (ki_model i) m' /\ i' = mkKi (ki_class i) m' (ki_args i)).
    { destruct (do_calls call [KCompile args; KBuild shape; KPredict X; KTrain] (ki_model i)) as [m r] eqn:D. split.
      - intro H. injection H as <- ->. exists m. split; [apply do_calls_ok; exact D | reflexivity].
      - intros [m' [H ->]]. apply do_calls_ok in H. rewrite D in H. injection H as -> ->. reflexivity. }
    destruct Hs as [-> | ->]; exact E.
  Qed.
  Lemma handshake_missing : forall (s : @kstate V) i k, subclassed get_config i -> nth_error (k_classes s) (ki_class i) = Some k ->
    (kc_name k = None \/ kc_x k = None \/ kc_y k = None \/ kc_shape k = None -> handshake get_config call s i = (i, Err ValueError)) /\
    (kc_name k <> None -> kc_x k <> None -> kc_y k <> None -> kc_shape k <> None -> kc_compile k = None -> handshake get_config call s i = (i, Err AttributeError)).
  Proof.
    intros s i k Hs Hk. unfold handshake. cbv zeta. rewrite Hk. destruct k as [n sh c x y ni]. cbn [kc_name kc_x kc_y kc_shape kc_compile]. split.
    - intro H. destruct Hs as [-> | ->]; destruct n, x, y, sh; try reflexivity; destruct H as [H|[H|[H|H]]]; discriminate.
    - intros H1 H2 H3 H4 ->. destruct n; [|destruct (H1 eq_refl)]. destruct x; [|destruct (H2 eq_refl)]. destruct y; [|destruct (H3 eq_refl)]. destruct sh; [|destruct (H4 eq_refl)]. destruct Hs as [-> | ->]; reflexivity.
  Qed.
  Lemma handshake_error : forall (s : @kstate V) i e, get_config i = Err e -> e <> AttributeError -> e <> NotImplementedError -> handshake get_config call s i = (i, Err e).
  Proof. intros s i e H H1 H2. unfold handshake. rewrite H. destruct e; try reflexivity; congruence. Qed.

  Lemma layer_iff : forall installed s model ci co optimizer name model' l, tensorflow_layer get_config call installed s model ci co optimizer name = (model', Ok l) <->
    exists i i', installed = true /\ model = Some i /\ handshake get_config call s i = (i', Ok tt) /\ model' = Some i' /\
      l = mkLayer match name with Some n => n | None => "tensorflow" end match ci with Some f => f | None => ByDefault end match co with Some f => f | None => ByDefault end i' optimizer [].
  Proof.
    intros installed s model ci co optimizer name model' l. unfold tensorflow_layer. destruct installed; cbn [negb].
    - destruct model as [i|].
      + destruct (handshake get_config call s i) as [i' [[]|e]] eqn:E.
        * split; [intro H; injection H as <- <-; exists i, i'; repeat split; exact E|]. intros [j [j' [_ [Hj [Hh [-> ->]]]]]]. injection Hj as <-. rewrite E in Hh. injection Hh as ->. reflexivity.
        * split; [discriminate|]. intros [j [j' [_ [Hj [Hh _]]]]]. injection Hj as <-. rewrite E in Hh. discriminate.
      + split; [discriminate|]. intros [j [j' [_ [Hj _]]]]. discriminate.
    - split; [discriminate|]. intros [j [j' [Hj _]]]. discriminate.
  Qed.
  Lemma layer_errors : forall s model ci co optimizer name, tensorflow_layer get_config call false s model ci co optimizer name = (model, Err ImportError) /\
    tensorflow_layer get_config call true s None ci co optimizer name = (None, Err ValueError).
  Proof. intros. split; reflexivity. Qed.

  (** ** Bytes *)
  Lemma tf_saved : forall (s : @kstate V) i k, nth_error (k_classes s) (ki_class i) = Some k ->
    tf_to_bytes save_h5 get_weights s (Some i) =
      match save_h5 i with
      | Ok b => Ok (H5 b)
      | Err NotImplementedError => match kc_name k with
                                   | Some n => match dget n (k_registry s) with Some _ => Ok (ByName n (get_weights (ki_model i))) | None => Err ValueError end
                                   | None => Err ValueError
                                   end
      | Err e => Err e
      end.
  Proof. intros s i k Hk. unfold tf_to_bytes. rewrite Hk. destruct (save_h5 i) as [b|[]]; try reflexivity. destruct (kc_name k) as [n|]; [|reflexivity]. unfold dmem. destruct (dget n (k_registry s)); reflexivity. Qed.
  Lemma tf_round_h5 : forall (s s' : @kstate V) i b i' model, save_h5 i = Ok b -> load_h5 b = Ok i' ->
    exists data, tf_to_bytes save_h5 get_weights s (Some i) = Ok data /\ tf_from_bytes init json_ok get_config call load_h5 set_weights no_args s' model data = (Some i', Ok tt).
  Proof. intros s s' i b i' model H1 H2. exists (H5 b). unfold tf_to_bytes. rewrite H1. split; [reflexivity|]. cbn. rewrite H2. reflexivity. Qed.
  Lemma tf_round_name : forall (s s' : @kstate V) i k n i2 m2, save_h5 i = Err NotImplementedError -> nth_error (k_classes s) (ki_class i) = Some k -> kc_name k = Some n -> dget n (k_registry s) <> None ->
    set_weights (ki_model i2) (get_weights (ki_model i)) = (m2, Ok tt) ->
    exists data, tf_to_bytes save_h5 get_weights s (Some i) = Ok data /\ tf_from_bytes init json_ok get_config call load_h5 set_weights no_args s' (Some i2) data = (Some (mkKi (ki_class i2) m2 (ki_args i2)), Ok tt).
  Proof.
    intros s s' i k n i2 m2 H1 H2 H3 H4 H5. exists (ByName n (get_weights (ki_model i))). split.
    - unfold tf_to_bytes. rewrite H1, H2, H3. unfold dmem. destruct (dget n (k_registry s)); [reflexivity | destruct (H4 eq_refl)].
    - cbn. rewrite H5. reflexivity.
  Qed.
  Lemma tf_name_ignored : forall (s : @kstate V) i n n' w, tf_from_bytes init json_ok get_config call load_h5 set_weights no_args s (Some i) (ByName n w) = tf_from_bytes init json_ok get_config call load_h5 set_weights no_args s (Some i) (ByName n' w).
  Proof. reflexivity. Qed.
  Lemma tf_never_new : forall (s : @kstate V) n w, exists e, tf_from_bytes init json_ok get_config call load_h5 set_weights no_args s None (ByName n w) = (None, Err e).
  Proof.
    intros s n w. unfold tf_from_bytes. destruct (create init json_ok s n no_args) as [i|e]; [|exists e; reflexivity]. destruct (handshake get_config call s i) as [i' [u|e]]; [exists AttributeError; reflexivity | exists e; reflexivity].
  Qed.
  Lemma tf_empty : forall (s : @kstate V), tf_to_bytes save_h5 get_weights s (None : option (@kinst A M)) = Err AttributeError.
  Proof. reflexivity. Qed.
End K.

Section X.
  Context {M : Type}.
  Variable bufsize : nat.
  Variable fresh : fs -> string.
  Variable save_parameters : M -> result bytes.
  Variable load_parameters : M -> bytes -> M * result unit.
  Hypothesis fresh_new : forall f, dget (fresh f) f = None.
  Lemma ddel_dset_new : forall name (x : bytes) (f : fs), dget name f = None -> ddel name (dset name x f) = f.
  Proof.
    intros name x. induction f as [|[k v] f IH]; cbn; intro H.
    - destruct (eqd name name) as [_|N]; [reflexivity | destruct (N eq_refl)].
    - destruct (eqd name k) as [->|Hne]; [discriminate|]. cbn. destruct (eqd name k) as [->|_]; [destruct (Hne eq_refl)|]. rewrite IH by exact H. reflexivity.
  Qed.
  Lemma mx_saved : forall sh f data, save_parameters (mxs_model sh) = Ok data -> mx_to_bytes fresh save_parameters sh f = (f, Ok (mkMx (mxs_cfg sh) data)).
  Proof.
    intros sh f data H. unfold mx_to_bytes. rewrite H, dget_dset_same, dset_dset_same, ddel_dset_new by apply fresh_new. reflexivity.
  Qed.
  Lemma mx_save_leaks : forall sh f e, save_parameters (mxs_model sh) = Err e -> exists f', mx_to_bytes fresh save_parameters sh f = (f', Err e) /\ dget (fresh f) f = None /\ dget (fresh f) f' = Some [].
  Proof. intros sh f e H. unfold mx_to_bytes. rewrite H. eexists. split; [reflexivity|]. split; [apply fresh_new | apply dget_dset_same]. Qed.
  Lemma mx_round : forall sh sh2 f f2 data m3, save_parameters (mxs_model sh) = Ok data -> bufsize < length data -> load_parameters (mxs_model sh2) data = (m3, Ok tt) ->
    exists msg, mx_to_bytes fresh save_parameters sh f = (f, Ok msg) /\ mx_from_bytes bufsize fresh load_parameters sh2 msg f2 = (mkMxs (mxs_cfg sh) m3, f2, Ok tt).
  Proof.
    intros sh sh2 f f2 data m3 H1 H2 H3. eexists. split; [exact (mx_saved _ _ _ H1)|]. unfold mx_from_bytes, written. cbn [mx_state mx_config]. destruct (Nat.leb_spec (length data) bufsize); [lia|].
    rewrite dget_dset_same, H3, dset_dset_same, ddel_dset_new by apply fresh_new. reflexivity.
  Qed.
  Lemma mx_small : forall sh sh2 f f2 data m3 e, save_parameters (mxs_model sh) = Ok data -> length data <= bufsize -> load_parameters (mxs_model sh2) [] = (m3, Err e) ->
    exists msg f3, mx_to_bytes fresh save_parameters sh f = (f, Ok msg) /\ mx_from_bytes bufsize fresh load_parameters sh2 msg f2 = (mkMxs (mxs_cfg sh) m3, f3, Err e) /\ dget (fresh f2) f2 = None /\ dget (fresh f2) f3 = Some [].
  Proof.
    intros sh sh2 f f2 data m3 e H1 H2 H3. eexists. eexists. split; [exact (mx_saved _ _ _ H1)|]. unfold mx_from_bytes, written. cbn [mx_state mx_config]. destruct (Nat.leb_spec (length data) bufsize); [|lia].
    rewrite dget_dset_same, H3. split; [reflexivity|]. split; [apply fresh_new | apply dget_dset_same].
  Qed.
  Lemma mx_layer : forall (model : M) ci co name, mxnet_layer model ci co name =
    mkLayer match name with Some n => n | None => "mxnet" end match ci with Some f => f | None => ByDefault end match co with Some f => f | None => ByDefault end model None [].
  Proof. reflexivity. Qed.
End X.

Lemma append_length : forall a b, String.length (a ++ b) = String.length a + String.length b.
Proof. induction a as [|c a IH]; intro b; cbn; [reflexivity | rewrite IH; reflexivity]. Qed.
Lemma kwit_fresh_pos : forall f, 0 < String.length (kwit_fresh f).
Proof. induction f as [|[k v] f IH]; cbn [kwit_fresh]; [cbn; lia|]. rewrite append_length. lia. Qed.
Lemma kwit_fresh_long : forall f k, In k (dkeys f) -> String.length k < String.length (kwit_fresh f).
Proof.
  induction f as [|[k v] f IH]; intros k' H; [destruct H|]. cbn [kwit_fresh]. rewrite append_length. destruct H as [<-|H]; [pose proof (kwit_fresh_pos f); cbn; lia | specialize (IH k' H); lia].
Qed.
Lemma kwit_fresh_new : forall f, dget (kwit_fresh f) f = None.
Proof. intro f. apply dget_none. intro H. apply kwit_fresh_long in H. lia. Qed.
