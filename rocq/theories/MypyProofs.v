(** Proofs about the mypy plugin. *)
From Coq Require Import String Lia.
From Verif Require Import MypyModel MypySpec.
Set Default Goal Selector "!".
Local Open Scope string_scope.

Lemma mapM_models types : mapM model_args (map model_of types) = Ok types.
Proof. induction types as [|[i o] l IH]; [reflexivity|]. cbn [map mapM]. change (model_args (model_of (i, o))) with (@Ok (ty * ty) (i, o)). cbn [bind]. now rewrite IH. Qed.
Lemma model_args_inv t p : model_args t = Ok p -> t = model_of p.
Proof.
  unfold model_args. destruct t as [c args| |]; [|discriminate..]. cbn [instance bind]. destruct (String.eqb_spec c model_fullname) as [->|]; [|discriminate].
  cbn [check bind]. destruct args as [|i [|o [|]]]; try discriminate. now intros [= <-].
Qed.
Lemma models_inv l types : mapM model_args l = Ok types -> l = map model_of types.
Proof.
  revert types. induction l as [|t l IH]; intros types.
  - now intros [= <-].
  - cbn [mapM]. destruct (model_args t) as [p|] eqn:E; [|discriminate]. cbn [bind]. destruct (mapM model_args l) as [ps|]; [|discriminate].
    intros [= <-]. cbn [map]. now rewrite <- (IH ps eq_refl), <- (model_args_inv t p E).
Qed.

(** ** Neighbours *)
Lemma nth_removelast {A} (l : list A) k : nth_error (removelast l) k = if (S k <? length l)%nat then nth_error l k else None.
Proof.
  revert k. induction l as [|x l IH]; intros k; [now destruct k|]. destruct l as [|y l]; [now destruct k|].
  change (removelast (x :: y :: l)) with (x :: removelast (y :: l)). destruct k as [|k]; [reflexivity|]. cbn [nth_error]. rewrite IH. reflexivity.
Qed.
Lemma nth_combine {A B} (l : list A) (r : list B) k : nth_error (combine l r) k = match nth_error l k, nth_error r k with Some a, Some b => Some (a, b) | _, _ => None end.
Proof. revert r k. induction l as [|a l IH]; intros [|b r] [|k]; cbn; try reflexivity; [now destruct (nth_error l k)|apply IH]. Qed.
Lemma nth_tl {A} (l : list A) k : nth_error (tl l) k = nth_error l (S k).
Proof. destruct l; [now destruct k|reflexivity]. Qed.
Lemma nth_neighbours {A} (l : list A) k : nth_error (neighbours l) k = match nth_error l k, nth_error l (S k) with Some a, Some b => Some (a, b) | _, _ => None end.
Proof.
  unfold neighbours. rewrite nth_combine, nth_removelast, nth_tl. destruct (Nat.ltb_spec (S k) (length l)) as [H|H]; [reflexivity|].
  apply nth_error_None in H. rewrite H. now destruct (nth_error l k).
Qed.
Lemma in_pairs f args types x : In x (check_pairs f args types) <->
  exists k e1 t1 e2 t2, nth_error args k = Some e1 /\ nth_error types k = Some t1 /\ nth_error args (S k) = Some e2 /\ nth_error types (S k) = Some t2 /\ In x (f e1 t1 e2 t2).
Proof.
  unfold check_pairs. rewrite in_flat_map. split.
  - intros ([[e1 e2] [t1 t2]] & Hp & Hx). apply In_nth_error in Hp as (k & Hk). rewrite nth_combine, !nth_neighbours in Hk. exists k, e1, t1, e2, t2.
    destruct (nth_error args k), (nth_error args (S k)), (nth_error types k), (nth_error types (S k)); try discriminate. injection Hk as -> -> -> ->. auto.
  - intros (k & e1 & t1 & e2 & t2 & A1 & T1 & A2 & T2 & Hx). exists ((e1, e2), (t1, t2)). split; [|exact Hx].
    apply nth_error_In with (n := k). now rewrite nth_combine, !nth_neighbours, A1, A2, T1, T2.
Qed.

Section Mypy.
  Variables (is_subtype type_eq : ty -> ty -> bool).
  Notation hook := (function_hook is_subtype type_eq).

  Lemma special_run ctx var class types : calls_with ctx var class types -> var = "thinc.types.XY_YZ_OutT" \/ var = "thinc.types.XY_XY_OutT" ->
    get_reducers_type is_subtype type_eq ctx =
      if String.eqb var chained_fullname then
        (check_pairs (check_chained is_subtype) (concat (x_args ctx)) types,
         let* first := first_of types in let* last := last_of types in Ok (Inst class [fst first; snd last]))
      else (check_pairs (check_intoin_outtoout type_eq) (concat (x_args ctx)) types, let* first := first_of types in Ok (Inst class [fst first; snd first])).
  Proof.
    intros [(C & (ds & D) & (i & S)) M] Hv. unfold get_reducers_type, special_call. rewrite C, D, S, M, mapM_models. destruct Hv as [-> | ->]; reflexivity.
  Qed.
  Lemma hook_of ctx fails t : get_reducers_type is_subtype type_eq ctx = (fails, Ok t) -> hook ctx = (fails, Ok t).
  Proof. intros E. unfold function_hook. now rewrite E. Qed.

  Lemma chained_ok ctx class first rest : calls_with ctx "thinc.types.XY_YZ_OutT" class (first :: rest) ->
    exists fails, hook ctx = (fails, Ok (Inst class [fst first; snd (last rest first)])) /\
      forall f, In f fails <-> exists e1 t1 e2 t2, adjacent ctx (first :: rest) e1 t1 e2 t2 /\ is_subtype (snd t1) (fst t2) = false /\
        (f = mkFailure LayerOutput e1 (snd t1) (fst t2) \/ f = mkFailure LayerInput e2 (fst t2) (snd t1)).
  Proof.
    intros HC. pose proof (special_run _ _ _ _ HC (or_introl eq_refl)) as E. rewrite String.eqb_refl in E. eexists. split.
    - apply hook_of. rewrite E. f_equal. cbn [first_of bind].
      assert (L : last_of (first :: rest) = Ok (last rest first)).
      { unfold last_of. destruct rest as [|r rest] using rev_ind; [reflexivity|]. rewrite last_last, app_comm_cons, rev_unit. reflexivity. }
      rewrite L. reflexivity.
    - intros f. rewrite in_pairs. split.
      + intros (k & e1 & t1 & e2 & t2 & A1 & T1 & A2 & T2 & Hf). exists e1, t1, e2, t2. split; [now exists k|]. unfold check_chained in Hf.
        destruct (is_subtype (snd t1) (fst t2)); [destruct Hf|]. split; [reflexivity|]. destruct Hf as [<-|[<-|[]]]; auto.
      + intros (e1 & t1 & e2 & t2 & (k & A1 & T1 & A2 & T2) & N & Hf). exists k, e1, t1, e2, t2. repeat split; [assumption..|]. unfold check_chained. rewrite N.
        destruct Hf as [-> | ->]; cbn; auto.
  Qed.
  Lemma no_members {A} (l : list A) : l = [] <-> forall x, ~ In x l.
  Proof. split; [intros -> x []|]. destruct l as [|x l]; [reflexivity|]. intros H. destruct (H x). now left. Qed.
  Lemma args_at ctx (types : list (ty * ty)) k t : length (concat (x_args ctx)) = length types -> nth_error types k = Some t -> exists e, nth_error (concat (x_args ctx)) k = Some e.
  Proof.
    intros L E. destruct (nth_error (concat (x_args ctx)) k) as [e|] eqn:N; [now exists e|]. apply nth_error_None in N. assert (k < length types)%nat by (apply nth_error_Some; congruence). lia.
  Qed.
  Lemma chained_quiet ctx class types : calls_with ctx "thinc.types.XY_YZ_OutT" class types -> types <> [] -> length (concat (x_args ctx)) = length types ->
    fst (hook ctx) = [] <-> forall t1 t2, next_to types t1 t2 -> is_subtype (snd t1) (fst t2) = true.
  Proof.
    intros HC N L. destruct types as [|first rest]; [contradiction|]. destruct (chained_ok _ _ _ _ HC) as (fails & E & F). rewrite E. cbn [fst]. rewrite no_members. split.
    - intros H t1 t2 (k & T1 & T2). destruct (is_subtype (snd t1) (fst t2)) eqn:S; [reflexivity|].
      destruct (args_at ctx _ k _ L T1) as (e1 & A1), (args_at ctx _ (Datatypes.S k) _ L T2) as (e2 & A2). destruct (H (mkFailure LayerOutput e1 (snd t1) (fst t2))).
      apply F. exists e1, t1, e2, t2. split; [now exists k|]. auto.
    - intros H f Hf. apply F in Hf as (e1 & t1 & e2 & t2 & (k & A1 & T1 & A2 & T2) & N' & _). rewrite (H t1 t2) in N'; [discriminate|]. now exists k.
  Qed.

  (** Types that fit give layers that fit. *)
  Lemma run_typed {V} (has : ty -> V -> Prop) : (forall a b, is_subtype a b = true -> forall x, has a x -> has b x) ->
    forall rest first fs f, (forall t1 t2, next_to (first :: rest) t1 t2 -> is_subtype (snd t1) (fst t2) = true) ->
    layer_has has first f -> Forall2 (layer_has has) rest fs -> forall x, has (fst first) x -> has (snd (last rest first)) (run_layers fs (f x)).
  Proof.
    intros Hs rest. induction rest as [|t rest IH]; intros first fs f Hn Hf HF x Hx; inversion HF as [|? g ? gs Hg HG]; subst; [cbn; now apply Hf|].
    cbn [run_layers fold_left]. replace (last (t :: rest) first) with (last rest t).
    - apply (IH t gs g); [|exact Hg|exact HG|].
      + intros t1 t2 (k & T1 & T2). apply Hn. now exists (S k).
      + apply (Hs (snd first)); [|now apply Hf]. apply Hn. now exists 0.
    - clear. assert (G : forall l (u a b : ty * ty), last (u :: l) a = last (u :: l) b) by (induction l as [|v l IH]; intros u a b; [reflexivity|exact (IH v a b)]).
      destruct rest as [|u rest]; [reflexivity|exact (G rest u t first)].
  Qed.
  Lemma chained_safe {V} (has : ty -> V -> Prop) : (forall a b, is_subtype a b = true -> forall x, has a x -> has b x) ->
    forall ctx class types fs i o, calls_with ctx "thinc.types.XY_YZ_OutT" class types -> length (concat (x_args ctx)) = length types ->
    hook ctx = ([], Ok (Inst class [i; o])) -> Forall2 (layer_has has) types fs -> forall x, has i x -> has o (run_layers fs x).
  Proof.
    intros Hs ctx class types fs i o HC L E HF x Hx. destruct types as [|first rest].
    - pose proof (special_run _ _ _ _ HC (or_introl eq_refl)) as G. unfold function_hook in E. rewrite G in E. discriminate E.
    - pose proof (proj1 (chained_quiet _ _ _ HC ltac:(discriminate) L)) as Q. rewrite E in Q. specialize (Q eq_refl).
      destruct (chained_ok _ _ _ _ HC) as (fails & E' & _). rewrite E in E'. injection E' as _ -> ->.
      inversion HF as [|? f ? gs Hf HG]; subst. cbn [run_layers fold_left]. eapply (run_typed has Hs); eassumption.
  Qed.

  Lemma homogeneous_ok ctx class first rest : calls_with ctx "thinc.types.XY_XY_OutT" class (first :: rest) ->
    exists fails, hook ctx = (fails, Ok (Inst class [fst first; snd first])) /\
      forall f, In f fails <-> exists e1 t1 e2 t2, adjacent ctx (first :: rest) e1 t1 e2 t2 /\
        (type_eq (fst t1) (fst t2) = false /\ (f = mkFailure LayerInput e1 (fst t1) (fst t2) \/ f = mkFailure LayerInput e2 (fst t2) (fst t1)) \/
         type_eq (snd t1) (snd t2) = false /\ (f = mkFailure LayerOutput e1 (snd t1) (snd t2) \/ f = mkFailure LayerOutput e2 (snd t2) (snd t1))).
  Proof.
    intros HC. pose proof (special_run _ _ _ _ HC (or_intror eq_refl)) as E. change (String.eqb "thinc.types.XY_XY_OutT" chained_fullname) with false in E. cbn [first_of bind] in E.
    eexists. split; [apply hook_of, E|]. intros f. rewrite in_pairs. split.
    - intros (k & e1 & t1 & e2 & t2 & A1 & T1 & A2 & T2 & Hf). exists e1, t1, e2, t2. split; [now exists k|]. unfold check_intoin_outtoout in Hf. apply in_app_or in Hf.
      destruct Hf as [Hf|Hf]; [left|right].
      + destruct (type_eq (fst t1) (fst t2)); [destruct Hf|]. split; [reflexivity|]. destruct Hf as [<-|[<-|[]]]; auto.
      + destruct (type_eq (snd t1) (snd t2)); [destruct Hf|]. split; [reflexivity|]. destruct Hf as [<-|[<-|[]]]; auto.
    - intros (e1 & t1 & e2 & t2 & (k & A1 & T1 & A2 & T2) & Hf). exists k, e1, t1, e2, t2. repeat split; [assumption..|]. unfold check_intoin_outtoout. apply in_or_app.
      destruct Hf as [[N Hf]|[N Hf]]; [left|right]; rewrite N; destruct Hf as [-> | ->]; cbn; auto.
  Qed.
  Lemma homogeneous_quiet ctx class first rest : calls_with ctx "thinc.types.XY_XY_OutT" class (first :: rest) -> length (concat (x_args ctx)) = length (first :: rest) ->
    (forall a, type_eq a a = true) -> (forall a b c, type_eq a b = true -> type_eq b c = true -> type_eq a c = true) -> (forall a b, type_eq a b = true -> type_eq b a = true) ->
    fst (hook ctx) = [] <-> forall t, In t rest -> type_eq (fst first) (fst t) = true /\ type_eq (snd first) (snd t) = true.
  Proof.
    intros HC L Er Et Es. destruct (homogeneous_ok _ _ _ _ HC) as (fails & E & F). rewrite E. cbn [fst]. rewrite no_members. split.
    - intros H. assert (P : forall t1 t2, next_to (first :: rest) t1 t2 -> type_eq (fst t1) (fst t2) = true /\ type_eq (snd t1) (snd t2) = true).
      { intros t1 t2 (k & T1 & T2). destruct (args_at ctx _ k _ L T1) as (e1 & A1), (args_at ctx _ (Datatypes.S k) _ L T2) as (e2 & A2). split.
        - destruct (type_eq (fst t1) (fst t2)) eqn:S; [reflexivity|]. destruct (H (mkFailure LayerInput e1 (fst t1) (fst t2))). apply F. exists e1, t1, e2, t2. split; [now exists k|]. auto.
        - destruct (type_eq (snd t1) (snd t2)) eqn:S; [reflexivity|]. destruct (H (mkFailure LayerOutput e1 (snd t1) (snd t2))). apply F. exists e1, t1, e2, t2. split; [now exists k|]. auto. }
      clear - P Er Et. assert (G : forall k t, nth_error (first :: rest) k = Some t -> type_eq (fst first) (fst t) = true /\ type_eq (snd first) (snd t) = true).
      { induction k as [|k IH]; intros t E; [injection E as <-; auto|]. destruct (nth_error (first :: rest) k) as [u|] eqn:U.
        - destruct (IH u eq_refl) as [I O], (P u t) as [I' O']; [now exists k|]. eauto.
        - apply nth_error_None in U. assert (Datatypes.S k < length (first :: rest))%nat by (apply nth_error_Some; congruence). lia. }
      intros t Ht. apply In_nth_error in Ht as (k & Hk). now apply (G (S k)).
    - intros H f Hf. apply F in Hf as (e1 & t1 & e2 & t2 & (k & A1 & T1 & A2 & T2) & Hf).
      assert (G : forall k t, nth_error (first :: rest) k = Some t -> type_eq (fst first) (fst t) = true /\ type_eq (snd first) (snd t) = true).
      { intros [|j] t E'; [injection E' as <-; auto|]. apply H. now apply nth_error_In with (n := j). }
      destruct (G _ _ T1) as [I1 O1], (G _ _ T2) as [I2 O2]. destruct Hf as [[N _]|[N _]].
      + rewrite (Et (fst t1) (fst first) (fst t2)) in N; [discriminate|auto..].
      + rewrite (Et (snd t1) (snd first) (snd t2)) in N; [discriminate|auto..].
  Qed.

  Lemma hook_cases ctx : hook ctx = ([], Ok (x_default ctx)) \/
    exists var class types, (var = "thinc.types.XY_YZ_OutT" \/ var = "thinc.types.XY_XY_OutT") /\ calls_with ctx var class types.
  Proof.
    destruct ctx as [ck d sx args tys]. unfold function_hook, get_reducers_type, special_call. cbn [x_checker x_default x_syntax x_args x_arg_types].
    destruct ck; [|now left]. cbn [check bind]. destruct d as [class ds| |]; [|now left..]. cbn [instance bind].
    destruct sx as [[[[ret|]|]|]|]; try now left. cbn [bind].
    destruct (model_args ret) as [[i out]|e] eqn:R; [|left].
    2:{ cbn [bind]. destruct ret as [c as_| |]; [|injection R as <-; reflexivity..]. unfold model_args in R. cbn [instance bind] in R. destruct (String.eqb c model_fullname); [|injection R as <-; reflexivity].
        cbn [check bind] in R. destruct as_ as [|? [|? [|]]]; try discriminate; injection R as <-; reflexivity. }
    cbn [bind]. destruct out as [| fullname |]; [now left| |now left]. cbn [bind]. destruct (String.eqb fullname ""); [now left|]. cbn [negb check bind].
    destruct (String.eqb_spec fullname homogeneous_fullname) as [Hh|Hh]; [|destruct (String.eqb_spec fullname chained_fullname) as [Hc|Hc]; [|now left]].
    all: cbn [orb negb]; destruct (mapM model_args (concat tys)) as [types|e] eqn:M.
    1,3: right; exists fullname, class, types; split; [tauto|]; split; [|now apply models_inv]; split; [reflexivity|]; split; [now exists ds|]; exists i; cbn [x_syntax];
         now rewrite (model_args_inv _ _ R); subst fullname.
    all: left; cbn [bind]; assert (e = AssertionError) as ->; [|reflexivity]; clear - M; revert M; induction (concat tys) as [|t l IH]; [discriminate|]; cbn [mapM];
      destruct (model_args t) as [p|e'] eqn:E; cbn [bind]; [destruct (mapM model_args l); [discriminate|exact IH]|]; intros [= ->]; unfold model_args in E;
      destruct t as [c as_| |]; [|now injection E..]; cbn [instance bind] in E; destruct (String.eqb c model_fullname); [|now injection E]; cbn [check bind] in E;
      destruct as_ as [|? [|? [|]]]; try discriminate; now injection E.
  Qed.
  Lemma hook_raises ctx fails e : hook ctx = (fails, Err e) <->
    fails = [] /\ e = IndexError /\ concat (x_arg_types ctx) = [] /\ exists var class, (var = "thinc.types.XY_YZ_OutT" \/ var = "thinc.types.XY_XY_OutT") /\ calls ctx var class.
  Proof.
    split.
    - intros E. destruct (hook_cases ctx) as [H|(var & class & types & Hv & HC)]; [rewrite H in E; discriminate|].
      destruct types as [|first rest].
      + pose proof (special_run _ _ _ _ HC Hv) as G. unfold function_hook in E. rewrite G in E. destruct HC as [HC M]. destruct Hv as [-> | ->]; cbn in E; injection E as <- <-.
        all: split; [now destruct (concat (x_args ctx)) as [|? [|]]|].
        all: split; [reflexivity|]; split; [exact M|]; eexists; eexists; split; [|exact HC]; tauto.
      + destruct Hv as [-> | ->]; [destruct (chained_ok _ _ _ _ HC) as (f & G & _)|destruct (homogeneous_ok _ _ _ _ HC) as (f & G & _)]; rewrite G in E; discriminate.
    - intros (-> & -> & M & var & class & Hv & HC). assert (HW : calls_with ctx var class []) by now split.
      pose proof (special_run _ _ _ _ HW Hv) as G. unfold function_hook. rewrite G. destruct Hv as [-> | ->]; cbn; f_equal; unfold check_pairs.
      all: now destruct (neighbours (concat (x_args ctx))).
  Qed.
  Lemma hook_opaque ctx t : In t (concat (x_arg_types ctx)) -> (forall p, t <> model_of p) -> hook ctx = ([], Ok (x_default ctx)).
  Proof.
    intros Ht N. destruct (hook_cases ctx) as [H|(var & class & types & _ & _ & M)]; [exact H|]. rewrite M in Ht. apply in_map_iff in Ht as (p & <- & _). now destruct (N p).
  Qed.
  Lemma hook_other ctx var class : calls ctx var class -> var <> "thinc.types.XY_YZ_OutT" -> var <> "thinc.types.XY_XY_OutT" -> hook ctx = ([], Ok (x_default ctx)).
  Proof.
    intros (_ & _ & (i & S)) N1 N2. destruct (hook_cases ctx) as [H|(var' & class' & types & Hv & (_ & _ & (i' & S')) & _)]; [exact H|].
    rewrite S in S'. injection S' as _ <-. destruct Hv; contradiction.
  Qed.
End Mypy.

Lemma no_arguments is_subtype type_eq : exists ctx, calls_with ctx "thinc.types.XY_XY_OutT" "thinc.model.Model" [] /\ function_hook is_subtype type_eq ctx = ([], Err IndexError).
Proof.
  exists (mkContext true (Inst "thinc.model.Model" [TOther 0; TOther 0])
    (CallExpr (NameExpr (FunctionNode (Some (Inst "thinc.model.Model" [TVar "InT"; TVar "thinc.types.XY_XY_OutT"]))))) [[]] [[]]).
  split; [|reflexivity]. split; [|reflexivity]. split; [reflexivity|]. split; eexists; reflexivity.
Qed.
