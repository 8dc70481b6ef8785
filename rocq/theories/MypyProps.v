(** C76: the mypy plugin. *)
From Coq Require Import String.
From Verif Require Import MypyModel MypySpec MypyProofs.
Local Open Scope string_scope.

(** A call whose output is [XY_YZ_OutT], such as one of [chain], with at least one model: the type is from the inputs of the
    first model to the outputs of the last one, and what is reported are the neighbours that do not fit, once at each of both. *)
Theorem C76_chained : forall is_subtype type_eq ctx class first rest, calls_with ctx "thinc.types.XY_YZ_OutT" class (first :: rest) ->
  exists fails, function_hook is_subtype type_eq ctx = (fails, Ok (Inst class [fst first; snd (last rest first)])) /\
    forall f, In f fails <-> exists e1 t1 e2 t2, adjacent ctx (first :: rest) e1 t1 e2 t2 /\ is_subtype (snd t1) (fst t2) = false /\
      (f = mkFailure LayerOutput e1 (snd t1) (fst t2) \/ f = mkFailure LayerInput e2 (fst t2) (snd t1)).
Proof. exact chained_ok. Qed.
Print Assumptions C76_chained.
(** Nothing is reported exactly if the outputs of every model are a subtype of the inputs of the next one. *)
Theorem C76_chained_quiet : forall is_subtype type_eq ctx class types, calls_with ctx "thinc.types.XY_YZ_OutT" class types -> types <> [] -> length (concat (x_args ctx)) = length types ->
  fst (function_hook is_subtype type_eq ctx) = [] <-> forall t1 t2, next_to types t1 t2 -> is_subtype (snd t1) (fst t2) = true.
Proof. exact chained_quiet. Qed.
Print Assumptions C76_chained_quiet.
(** A chain for which nothing is reported does what its type says: if subtyping is sound for a meaning of types, and every layer
    takes inputs of its type to outputs of its type, then so do the layers run one after the other. *)
Theorem C76_chained_safe : forall is_subtype type_eq {V} (has : ty -> V -> Prop), (forall a b, is_subtype a b = true -> forall x, has a x -> has b x) ->
  forall ctx class types fs i o, calls_with ctx "thinc.types.XY_YZ_OutT" class types -> length (concat (x_args ctx)) = length types ->
  function_hook is_subtype type_eq ctx = ([], Ok (Inst class [i; o])) -> Forall2 (layer_has has) types fs -> forall x, has i x -> has o (run_layers fs x).
Proof. exact @chained_safe. Qed.
Print Assumptions C76_chained_safe.

(** A call whose output is [XY_XY_OutT], such as one of [add] or [concatenate]: the type is that of the first model, and what is
    reported are the neighbours whose inputs or outputs differ. *)
Theorem C76_homogeneous : forall is_subtype type_eq ctx class first rest, calls_with ctx "thinc.types.XY_XY_OutT" class (first :: rest) ->
  exists fails, function_hook is_subtype type_eq ctx = (fails, Ok (Inst class [fst first; snd first])) /\
    forall f, In f fails <-> exists e1 t1 e2 t2, adjacent ctx (first :: rest) e1 t1 e2 t2 /\
      (type_eq (fst t1) (fst t2) = false /\ (f = mkFailure LayerInput e1 (fst t1) (fst t2) \/ f = mkFailure LayerInput e2 (fst t2) (fst t1)) \/
       type_eq (snd t1) (snd t2) = false /\ (f = mkFailure LayerOutput e1 (snd t1) (snd t2) \/ f = mkFailure LayerOutput e2 (snd t2) (snd t1))).
Proof. exact homogeneous_ok. Qed.
Print Assumptions C76_homogeneous.
(** Comparing neighbours is enough: nothing is reported exactly if all models have the inputs and the outputs of the first one. *)
Theorem C76_homogeneous_quiet : forall is_subtype type_eq ctx class first rest, calls_with ctx "thinc.types.XY_XY_OutT" class (first :: rest) -> length (concat (x_args ctx)) = length (first :: rest) ->
  (forall a, type_eq a a = true) -> (forall a b c, type_eq a b = true -> type_eq b c = true -> type_eq a c = true) -> (forall a b, type_eq a b = true -> type_eq b a = true) ->
  fst (function_hook is_subtype type_eq ctx) = [] <-> forall t, In t rest -> type_eq (fst first) (fst t) = true /\ type_eq (snd first) (snd t) = true.
Proof. exact homogeneous_quiet. Qed.
Print Assumptions C76_homogeneous_quiet.

(** All other calls keep the default type and nothing is reported. *)
Theorem C76_otherwise : forall is_subtype type_eq ctx, function_hook is_subtype type_eq ctx = ([], Ok (x_default ctx)) \/
  exists var class types, (var = "thinc.types.XY_YZ_OutT" \/ var = "thinc.types.XY_XY_OutT") /\ calls_with ctx var class types.
Proof. exact hook_cases. Qed.
Print Assumptions C76_otherwise.
Theorem C76_other_function : forall is_subtype type_eq ctx var class, calls ctx var class -> var <> "thinc.types.XY_YZ_OutT" -> var <> "thinc.types.XY_XY_OutT" ->
  function_hook is_subtype type_eq ctx = ([], Ok (x_default ctx)).
Proof. exact hook_other. Qed.
Print Assumptions C76_other_function.
(** Finding: one argument that is not exactly a [Model], such as an instance of a subclass, turns the check off for the whole call. *)
Theorem C76_subclass_refuted : forall is_subtype type_eq ctx t, In t (concat (x_arg_types ctx)) -> (forall p, t <> model_of p) ->
  function_hook is_subtype type_eq ctx = ([], Ok (x_default ctx)).
Proof. exact hook_opaque. Qed.
Print Assumptions C76_subclass_refuted.

(** Finding: the plugin raises an error exactly for special calls without arguments. [concatenate()] is such a call and is valid. *)
Theorem C76_raises : forall is_subtype type_eq ctx fails e, function_hook is_subtype type_eq ctx = (fails, Err e) <->
  fails = [] /\ e = IndexError /\ concat (x_arg_types ctx) = [] /\ exists var class, (var = "thinc.types.XY_YZ_OutT" \/ var = "thinc.types.XY_XY_OutT") /\ calls ctx var class.
Proof. exact hook_raises. Qed.
Print Assumptions C76_raises.
Theorem C76_no_arguments_refuted : forall is_subtype type_eq, exists ctx, calls_with ctx "thinc.types.XY_XY_OutT" "thinc.model.Model" [] /\
  function_hook is_subtype type_eq ctx = ([], Err IndexError).
Proof. exact no_arguments. Qed.
Print Assumptions C76_no_arguments_refuted.

(** [chain] of models from floats to ints and from floats to lists: both arguments are reported, and the type is still that of the
    chain; with a subtype in between, nothing is reported. *)
Example C76_ex : let chain_of t := mkContext true (Inst "thinc.model.Model" [TOther 9; TOther 9])
      (CallExpr (NameExpr (FunctionNode (Some (Inst "thinc.model.Model" [TVar "InT"; TVar "thinc.types.XY_YZ_OutT"])))))
      [[0]; [1]; [2]] [[model_of (TOther 0, TOther 1)]; [model_of (TOther 1, t)]; [model_of (TOther 2, TOther 3)]] in
  let sub a b := match a, b with TOther i, TOther j => Nat.leb i j | _, _ => false end in
  function_hook sub sub (chain_of (TOther 5)) =
    ([mkFailure LayerOutput 1 (TOther 5) (TOther 2); mkFailure LayerInput 2 (TOther 2) (TOther 5)], Ok (Inst "thinc.model.Model" [TOther 0; TOther 3])) /\
  function_hook sub sub (chain_of (TOther 1)) = ([], Ok (Inst "thinc.model.Model" [TOther 0; TOther 3])) /\
  calls_with (chain_of (TOther 5)) "thinc.types.XY_YZ_OutT" "thinc.model.Model" [(TOther 0, TOther 1); (TOther 1, TOther 5); (TOther 2, TOther 3)] /\
  length (concat (x_args (chain_of (TOther 5)))) = 3.
Proof. cbn zeta. split; [reflexivity|]. split; [reflexivity|]. split; [|reflexivity]. split; [|reflexivity]. split; [reflexivity|]. split; eexists; reflexivity. Qed.
Example C76_homogeneous_ex : let add_of t := mkContext true (Inst "thinc.model.Model" [TOther 9; TOther 9])
      (CallExpr (NameExpr (FunctionNode (Some (Inst "thinc.model.Model" [TVar "InT"; TVar "thinc.types.XY_XY_OutT"])))))
      [[0]; [1]; []] [[model_of (TOther 0, TOther 1)]; [model_of (TOther 0, t)]; []] in
  let eq a b := match a, b with TOther i, TOther j => Nat.eqb i j | _, _ => false end in
  function_hook eq eq (add_of (TOther 5)) =
    ([mkFailure LayerOutput 0 (TOther 1) (TOther 5); mkFailure LayerOutput 1 (TOther 5) (TOther 1)], Ok (Inst "thinc.model.Model" [TOther 0; TOther 1])) /\
  function_hook eq eq (add_of (TOther 1)) = ([], Ok (Inst "thinc.model.Model" [TOther 0; TOther 1])).
Proof. cbn zeta. split; reflexivity. Qed.
