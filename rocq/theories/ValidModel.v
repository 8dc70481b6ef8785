(** Runtime validation of data in [Model.initialize]: util.py 552-592 and types.py 1305-1322 with the validators of the
    array types (types.py 134-137, 391-393, 457-460, 507-510, 554-557, 617-620, 668-671, 713-716, 767-770, 826-829,
    883-886, 929-932, 999-1002). pydantic is modelled for the annotations below; others are an oracle. *)
From Coq Require Import String.
From Verif Require Export Base.
Local Open Scope string_scope.

(** Python objects, as far as validation sees them: arrays by their number of axes and the name of their dtype. *)
Inductive obj :=
| ONone
| OArr (ndim : nat) (dtype : string)
| OList (l : list obj)
| OTup (l : list obj)
| OFunc
| OOther (k : nat).

(** [isinstance(obj, xp.ndarray)] and util.py 80-91 [get_array_module] *)
Definition is_array (o : obj) : bool := match o with OArr _ _ => true | _ => false end.
Definition get_array_module (o : obj) : result unit := if is_array o then Ok tt else Err ValueError.

(** types.py 1313: [dtype_mapping.get(dtype, [])] *)
Definition expected_types (dtype : string) : list string :=
  if string_dec dtype "f" then ["float32"]
  else if string_dec dtype "i" then ["int32"; "int64"; "uint32"; "uint64"]
  else [].
(** What is wrong with an array, in the order in which it is reported (1310-1318). *)
Inductive complaint := WrongDimensions (expected got : nat) | WrongType (expected : list string) (got : string).
Definition complaints (o : obj) (ndim : option nat) (dtype : option string) : list complaint :=
  match o with
  | OArr nd dt =>
    (match ndim with Some n => if Nat.eqb nd n then [] else [WrongDimensions n nd] | None => [] end) ++
    (match dtype with
     | Some d => if existsb (fun x => if string_dec dt x then true else false) (expected_types d) then [] else [WrongType (expected_types d) dt]
     | None => []
     end)
  | _ => []
  end.
(** types.py 1305-1322 [validate_array] *)
Definition validate_array (o : obj) (ndim : option nat) (dtype : option string) : result obj :=
  let* _ := get_array_module o in
  if negb (is_array o) then Err TypeError
  else match complaints o ndim dtype with [] => Ok o | _ => Err ValueError end.

(** Annotations: [Any]; the array types; [List[t]]; [Tuple[t1, ..., tn]]; [Union[t1, ..., tn]] (and a type variable with
    constraints); [Callable]; and others. *)
Inductive ann :=
| TAny
| TArray (ndim : option nat) (dtype : option string)
| TList (t : ann)
| TTuple (ts : list ann)
| TUnion (ts : list ann)
| TCallable
| TOther (k : nat).
(** types.py: Floats2d and so on *)
Definition Floats (ndim : nat) : ann := TArray (Some ndim) (Some "f").
Definition Ints (ndim : nat) : ann := TArray (Some ndim) (Some "i").
Definition ArrayNd (ndim : nat) : ann := TArray (Some ndim) None.

Section Valid.
  (** Whether pydantic accepts an object for other annotations (dataclasses, models, forward references). *)
  Variable other : nat -> obj -> bool.

  (** Whether pydantic accepts the object. It takes a tuple for a list and a list for a tuple. *)
  Fixpoint accepts (t : ann) (o : obj) : bool :=
    match t with
    | TAny => true
    | TArray nd dt => match validate_array o nd dt with Ok _ => true | Err _ => false end
    | TList t => match o with OList l | OTup l => forallb (accepts t) l | _ => false end
    | TTuple ts =>
      match o with
      | OList l | OTup l =>
        (fix zip (ts : list ann) (l : list obj) : bool :=
           match ts, l with [], [] => true | t :: ts, o :: l => accepts t o && zip ts l | _, _ => false end) ts l
      | _ => false
      end
    | TUnion ts => existsb (fun t => accepts t o) ts
    | TCallable => match o with OFunc => true | _ => false end
    | TOther k => other k o
    end.

  (** The signature of a forward function: the annotations of its parameters and of what it returns. *)
  Record signature := mkSig { sig_params : list (option ann); sig_return : option ann }.
  (** [if isinstance(X, list) and len(X) > 5: X = X[:5]] *)
  Definition first_five (o : obj) : obj := match o with OList l => if Nat.ltb 5 (length l) then OList (firstn 5 l) else o | _ => o end.
  (** util.py 557-592 [validate_fwd_input_output]; DataValidationError is a ValueError. [None] is an argument that was not
      given. *)
  Definition validate_fwd_input_output (s : signature) (X Y : option obj) : result unit :=
    match sig_params s with
    | [_; annot_x; _] =>
      let good_x := match X, annot_x with Some X, Some t => accepts t (first_five X) | _, _ => true end in
      let good_y := match Y, sig_return s with Some Y, Some t => accepts t (OTup [first_five Y; OFunc]) | _, _ => true end in
      if good_x && good_y then Ok tt else Err ValueError
    | _ => Err ValueError
    end.
  (** model.py 312-320 [initialize], for any state that initialization changes *)
  Definition initialize {S} (data_validation : bool) (s : signature) (init : option (option obj -> option obj -> S -> S * result unit))
    (X Y : option obj) (st : S) : S * result unit :=
    match (if data_validation then validate_fwd_input_output s X Y else Ok tt) with
    | Err e => (st, Err e)
    | Ok _ => match init with Some f => f X Y st | None => (st, Ok tt) end
    end.
End Valid.
