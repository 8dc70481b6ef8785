(** The plugin for the type checker mypy: thinc/mypy.py. *)
From Coq Require Import String.
From Verif Require Export Base.
Local Open Scope string_scope.

(** The types of mypy, as far as the plugin looks at them: instances of classes, type variables, and all others, which it does
    not look into. *)
Inductive ty := Inst (class : string) (args : list ty) | TVar (fullname : string) | TOther (tag : nat).
(** Expressions, as far as messages point to them. *)
Definition expr := nat.
(** What a name in a call refers to, and what is called. [FunctionNode] is a [FuncDef] or [Decorator] with its type, if it is a
    [CallableType]; the plugin only uses the type it returns. *)
Inductive symbol := FunctionNode (ret_type : option ty) | OtherNode.
Inductive callee := NameExpr (node : symbol) | OtherCallee.
Inductive syntax := CallExpr (c : callee) | OtherSyntax.
(** [FunctionContext]; [x_checker]: the api is a [TypeChecker]. *)
Record context := mkContext {
  x_checker : bool; x_default : ty; x_syntax : syntax; x_args : list (list expr); x_arg_types : list (list ty) }.

(** mypy.py 248-249 *)
Inductive code := LayerInput | LayerOutput.
(** A call of [api.fail]: the code, the expression, and the two types in the message. The wording is not modelled. *)
Record failure := mkFailure { f_code : code; f_at : expr; f_first : ty; f_second : ty }.

(** mypy.py 13-15 *)
Definition model_fullname : string := "thinc.model.Model".
Definition chained_fullname : string := "thinc.types.XY_YZ_OutT".
Definition homogeneous_fullname : string := "thinc.types.XY_XY_OutT".

(** [assert] *)
Definition check (b : bool) : result unit := if b then Ok tt else Err AssertionError.
(** [assert isinstance(t, Instance)] and what the class and arguments are *)
Definition instance (t : ty) : result (string * list ty) := match t with Inst c args => Ok (c, args) | _ => Err AssertionError end.
(** mypy.py 122-126, 145-149: the inputs and outputs of a type that is exactly [Model] *)
Definition model_args (t : ty) : result (ty * ty) :=
  let* (c, args) := instance t in
  let* _ := check (String.eqb c model_fullname) in
  match args with [i; o] => Ok (i, o) | _ => Err AssertionError end.
(** [xs[0]] and [xs[-1]] of the arguments' types *)
Definition first_of {A} (l : list A) : result A := match l with x :: _ => Ok x | [] => Err IndexError end.
Definition last_of {A} (l : list A) : result A := first_of (rev l).
(** [list(zip(xs[:-1], xs[1:]))] *)
Definition neighbours {A} (l : list A) : list (A * A) := combine (removelast l) (tl l).

Section Mypy.
  (** mypy's [is_subtype], and [==] of types *)
  Variables (is_subtype type_eq : ty -> ty -> bool).

  (** mypy.py 195-213 [check_chained] *)
  Definition check_chained (l1_arg : expr) (l1 : ty * ty) (l2_arg : expr) (l2 : ty * ty) : list failure :=
    if is_subtype (snd l1) (fst l2) then []
    else [mkFailure LayerOutput l1_arg (snd l1) (fst l2); mkFailure LayerInput l2_arg (fst l2) (snd l1)].
  (** mypy.py 216-245 [check_intoin_outtoout] *)
  Definition check_intoin_outtoout (l1_arg : expr) (l1 : ty * ty) (l2_arg : expr) (l2 : ty * ty) : list failure :=
    (if type_eq (fst l1) (fst l2) then []
     else [mkFailure LayerInput l1_arg (fst l1) (fst l2); mkFailure LayerInput l2_arg (fst l2) (fst l1)]) ++
    (if type_eq (snd l1) (snd l2) then []
     else [mkFailure LayerOutput l1_arg (snd l1) (snd l2); mkFailure LayerOutput l2_arg (snd l2) (snd l1)]).
  (** mypy.py 151-153, 160-167, 177-184: the loops over neighbours. The assertions in them repeat those of lines 146-148. *)
  Definition check_pairs (f : expr -> ty * ty -> expr -> ty * ty -> list failure) (args : list expr) (types : list (ty * ty)) : list failure :=
    flat_map (fun p => f (fst (fst p)) (fst (snd p)) (snd (fst p)) (snd (snd p))) (combine (neighbours args) (neighbours types)).

  (** mypy.py 105-149: the class of the default type, the special type variable, and the arguments' inputs and outputs; nothing
      if the variable is not special *)
  Definition special_call (ctx : context) : result (option (string * string * list (ty * ty))) :=
    let* _ := check (x_checker ctx) in
    let* (class, _) := instance (x_default ctx) in
    let* node := match x_syntax ctx with CallExpr (NameExpr node) => Ok node | _ => Err AssertionError end in
    let* ret := match node with FunctionNode (Some ret) => Ok ret | _ => Err AssertionError end in
    let* (_, out) := model_args ret in
    let* fullname := match out with TVar fullname => Ok fullname | _ => Err AssertionError end in
    let* _ := check (negb (String.eqb fullname "")) in
    if negb (String.eqb fullname homogeneous_fullname || String.eqb fullname chained_fullname) then Ok None
    else let* types := mapM model_args (concat (x_arg_types ctx)) in Ok (Some (class, fullname, types)).
  (** mypy.py 38-192 [get_reducers_type]: what it reports, and the type or exception. Nothing has been reported when an
      assertion fails. *)
  Definition get_reducers_type (ctx : context) : list failure * result ty :=
    match special_call ctx with
    | Err e => ([], Err e)
    | Ok None => ([], Ok (x_default ctx))
    | Ok (Some (class, fullname, types)) =>
        let args := concat (x_args ctx) in
        if String.eqb fullname chained_fullname then
          (check_pairs check_chained args types,
           let* first := first_of types in let* last := last_of types in Ok (Inst class [fst first; snd last]))
        else
          (check_pairs check_intoin_outtoout args types,
           let* first := first_of types in Ok (Inst class [fst first; snd first]))
    end.
  (** mypy.py 30-36 [function_hook], which [get_function_hook] (26-27) gives for every function *)
  Definition function_hook (ctx : context) : list failure * result ty :=
    match get_reducers_type ctx with
    | (fails, Err AssertionError) => (fails, Ok (x_default ctx))
    | other => other
    end.
End Mypy.
