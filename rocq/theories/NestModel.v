(** Nested values: util.py convert_recursive 342-367 and iterate_recursive 370-385; types.py ArgsKwargs 1255-1297. No proofs here.
    A value is an integer, a string, a list, a tuple, a dict (entries in order), an ArgsKwargs, or something else ([OOther]: an array,
    a float, a bool...). Subclasses of list, tuple and dict are not told apart from them: the code rebuilds the plain type.
    Python's recursion limit is the fuel. The functions passed in may have effects: [convert_item] reads and writes a state. *)
From Coq Require Import String.
From Verif Require Export Base.

Inductive obj (A : Type) : Type :=
| OInt (i : Z)
| OStr (s : string)
| OOther (a : A)
| OList (l : list (obj A))
| OTuple (l : list (obj A))
| ODict (d : list (obj A * obj A))
| OArgs (args : list (obj A)) (kwargs : list (obj A * obj A)).
Arguments OInt {A}. Arguments OStr {A}. Arguments OOther {A}. Arguments OList {A}. Arguments OTuple {A}. Arguments ODict {A}. Arguments OArgs {A}.

(** A computation that reads and writes a state and may raise *)
Definition eff (S X : Type) : Type := S -> S * result X.
Definition done {S X} (x : X) : eff S X := fun s => (s, Ok x).
Definition raising {S X} (e : err) : eff S X := fun s => (s, Err e).
Definition andthen {S X Y} (m : eff S X) (f : X -> eff S Y) : eff S Y :=
  fun s => match m s with (s', Ok x) => f x s' | (s', Err e) => (s', Err e) end.
Definition lift {S X} (r : result X) : eff S X := fun s => (s, r).
(** Run over a list, left to right, stopping at the first exception *)
Fixpoint each {S X Y} (f : X -> eff S Y) (l : list X) : eff S (list Y) :=
  match l with
  | [] => done []
  | x :: l => andthen (f x) (fun y => andthen (each f l) (fun ys => done (y :: ys)))
  end.

Section Nest.
  Context {A : Type}.
  (** Python's [==] on dict keys, [hash] not raising, [isinstance(x, int)] of other values (True for bools), and the elements that
      iterating over other values gives *)
  Variable keq : obj A -> obj A -> bool.
  Variable hashable : obj A -> bool.
  Variable other_int : A -> bool.
  Variable iter_other : obj A -> result (list (obj A)).

  (** [d[key] = value]: an equal key keeps its place; unhashable keys raise *)
  Fixpoint put (d : list (obj A * obj A)) (k v : obj A) : list (obj A * obj A) :=
    match d with
    | [] => [(k, v)]
    | (k', v') :: d => if keq k' k then (k', v) :: d else (k', v') :: put d k v
    end.
  Definition setitem (d : list (obj A * obj A)) (k v : obj A) : result (list (obj A * obj A)) :=
    if hashable k then Ok (put d k v) else Err TypeError.

  (** Iterating over a value: lists and tuples give their elements, dicts their keys; an ArgsKwargs is not iterable *)
  Definition py_iter (o : obj A) : result (list (obj A)) :=
    match o with
    | OList l | OTuple l => Ok l
    | ODict d => Ok (map fst d)
    | OArgs _ _ | OInt _ => Err TypeError
    | _ => iter_other o
    end.
  (** [key, value = item] *)
  Definition unpack2 (o : obj A) : result (obj A * obj A) :=
    let* l := py_iter o in match l with [k; v] => Ok (k, v) | _ => Err ValueError end.
  Definition is_int (o : obj A) : bool :=
    match o with OInt _ => true | OOther a => other_int a | _ => false end.

  (** types.py 1293-1296: enumerate(args), then the entries of kwargs *)
  Definition ak_items (args : list (obj A)) (kwargs : list (obj A * obj A)) : list (obj A) :=
    map (fun p => OTuple [OInt (Z.of_nat (fst p)); snd p]) (combine (seq 0 (length args)) args) ++ map (fun p => OTuple [fst p; snd p]) kwargs.
  (** 1283-1286, 1288-1291 *)
  Definition ak_keys (args : list (obj A)) (kwargs : list (obj A * obj A)) : list (obj A) :=
    map (fun i => OInt (Z.of_nat i)) (seq 0 (length args)) ++ map fst kwargs.
  Definition ak_values (args : list (obj A)) (kwargs : list (obj A * obj A)) : list (obj A) := args ++ map snd kwargs.
  (** 1265-1281: the loop over the items, with the lists built so far *)
  Fixpoint from_items_loop (items : list (obj A)) (args : list (obj A)) (kwargs : list (obj A * obj A)) : result (obj A) :=
    match items with
    | [] => Ok (OArgs args kwargs)
    | it :: items =>
        let* (k, v) := unpack2 it in
        if is_int k then from_items_loop items (args ++ [v]) kwargs
        else let* kw := setitem kwargs k v in from_items_loop items args kw
    end.
  Definition from_items (items : obj A) : result (obj A) := let* l := py_iter items in from_items_loop l [] [].

  Context {S : Type}.
  Variable is_match : obj A -> bool.
  Variable convert_item : obj A -> eff S (obj A).

  (** util.py 342-367 *)
  Fixpoint convert_recursive (fuel : nat) (o : obj A) : eff S (obj A) :=
    match fuel with
    | O => raising OutOfFuel
    | Datatypes.S fuel =>
        if is_match o then convert_item o
        else match o with
        | OArgs args kwargs => andthen (convert_recursive fuel (OList (ak_items args kwargs))) (fun c => lift (from_items c))
        | ODict d =>
            andthen ((fix loop (d : list (obj A * obj A)) (converted : list (obj A * obj A)) : eff S (list (obj A * obj A)) :=
                        match d with
                        | [] => done converted
                        | (k, v) :: d => andthen (convert_recursive fuel k) (fun k' => andthen (convert_recursive fuel v) (fun v' =>
                                         andthen (lift (setitem converted k' v')) (fun c => loop d c)))
                        end) d []) (fun c => done (ODict c))
        | OList l => andthen (each (convert_recursive fuel) l) (fun l' => done (OList l'))
        | OTuple l => andthen (each (convert_recursive fuel) l) (fun l' => done (OTuple l'))
        | _ => done o
        end
    end.

  (** 370-385: everything the generator yields *)
  Fixpoint iterate_recursive (fuel : nat) (o : obj A) : result (list (obj A)) :=
    match fuel with
    | O => Err OutOfFuel
    | Datatypes.S fuel =>
        if is_match o then Ok [o]
        else match o with
        | OArgs args kwargs => iterate_recursive fuel (OList (ak_items args kwargs))
        | ODict d => let* ls := mapM (fun p => let* a := iterate_recursive fuel (fst p) in let* b := iterate_recursive fuel (snd p) in Ok (a ++ b)) d in Ok (concat ls)
        | OList l | OTuple l => let* ls := mapM (iterate_recursive fuel) l in Ok (concat ls)
        | _ => Ok []
        end
    end.
End Nest.
