(** Vocabulary of the theorems about the mypy plugin. *)
From Coq Require Import String.
From Verif Require Export MypyModel.
Local Open Scope string_scope.

(** The type of models from [fst t] to [snd t]. *)
Definition model_of (t : ty * ty) : ty := Inst "thinc.model.Model" [fst t; snd t].
(** A call, by name, of a function that returns [Model[_, var]] and for which mypy found an instance of [class]. *)
Definition calls (ctx : context) (var class : string) : Prop :=
  x_checker ctx = true /\ (exists ds, x_default ctx = Inst class ds) /\
  exists i, x_syntax ctx = CallExpr (NameExpr (FunctionNode (Some (Inst "thinc.model.Model" [i; TVar var])))).
(** ... with models of these types. *)
Definition calls_with (ctx : context) (var class : string) (types : list (ty * ty)) : Prop :=
  calls ctx var class /\ concat (x_arg_types ctx) = map model_of types.
(** The neighbours in a list. *)
Definition next_to {A} (l : list A) (x y : A) : Prop := exists k, nth_error l k = Some x /\ nth_error l (S k) = Some y.
(** Two neighbouring arguments with their types. *)
Definition adjacent (ctx : context) (types : list (ty * ty)) (e1 : expr) (t1 : ty * ty) (e2 : expr) (t2 : ty * ty) : Prop :=
  exists k, nth_error (concat (x_args ctx)) k = Some e1 /\ nth_error types k = Some t1 /\
            nth_error (concat (x_args ctx)) (S k) = Some e2 /\ nth_error types (S k) = Some t2.
(** Layers run one after the other. *)
Definition run_layers {V} (fs : list (V -> V)) (x : V) : V := fold_left (fun x f => f x) fs x.
(** A layer that takes values of the one type to values of the other, for a meaning [has] of types. *)
Definition layer_has {V} (has : ty -> V -> Prop) (t : ty * ty) (f : V -> V) : Prop := forall x, has (fst t) x -> has (snd t) (f x).
