(** Layers that map ids and strings to ids: layers/remap_ids.py, layers/premap_ids.pyx and layers/strings2arrays.py. No proofs here.
    Keys of mapping tables are of a type [K] with Python's equality; numbers of arrays are keys too ([int_key]). Arrays are on the CPU.
    An output is a list of rows. preshed's PreshMap is outside: a type of maps with its operations. *)
From Verif Require Export Base.
Local Open Scope Z_scope.

Inductive int_type := Int32 | Int64 | UInt64.
(** Inputs: a sequence of keys, or an array with one or two dimensions *)
Inductive ids (K : Type) :=
| Keys (l : list K)
| Ids1 (dt : int_type) (l : list Z)
| Ids2 (dt : int_type) (width : nat) (rows : list (list Z)).
Arguments Keys {K}. Arguments Ids1 {K}. Arguments Ids2 {K}.
(** What callbacks give back: an empty list, memory as it was found, or zeros *)
Inductive grad_ids := NoGrad | Uninitialised (shape : list nat) | Zeros (shape : list nat).

Section Mapper.
  Context {K : Type}.
  Variable keq : K -> K -> bool.
  Variable int_key : Z -> K.

  (** [table.get(x, default)] *)
  Fixpoint table_get (table : list (K * Z)) (x : K) (default : Z) : Z :=
    match table with
    | [] => default
    | (k, v) :: table => if keq k x then v else table_get table x default
    end.
  (** A Python int as int32: NumPy 2 refuses ints outside *)
  Definition int32 (v : Z) : result Z := if (- 2 ^ 31 <=? v) && (v <? 2 ^ 31) then Ok v else Err OverflowError.
  (** An int64 array as int32: keeps the low 32 bits *)
  Definition wrap32 (v : Z) : Z := (v + 2 ^ 31) mod 2 ^ 32 - 2 ^ 31.
  (** [reshape2i(arr, -1, 1)] *)
  Definition column_of (l : list Z) : list (list Z) := map (fun v => [v]) l.
  (** [X[:, column]] *)
  Definition take_column (width : nat) (rows : list (list Z)) (column : Z) : result (list Z) :=
    let w := Z.of_nat width in
    if (- w <=? column) && (column <? w) then Ok (map (fun row => nth (Z.to_nat (if column <? 0 then column + w else column)) row 0) rows)
    else Err IndexError.

  (** ** remap_ids.py 31-44 [forward] with dtype "i": iterating over a matrix gives rows, which are not hashable *)
  Definition remap_forward (table : list (K * Z)) (default : Z) (inputs : ids K) : result (list (list Z) * (list (list Z) -> grad_ids)) :=
    let* keys := match inputs with
                 | Keys l => Ok l
                 | Ids1 _ l => Ok (map int_key l)
                 | Ids2 _ _ [] => Ok []
                 | Ids2 _ _ (_ :: _) => Err TypeError
                 end in
    let* values := mapM (fun x => int32 (table_get table x default)) keys in
    Ok (column_of values, fun _ => NoGrad).
  (** 70-97 [forward_v2] *)
  Definition remap_forward_v2 (table : option (list (K * Z))) (default : Z) (column : option Z) (inputs : ids K) : result (list (list Z) * (list (list Z) -> grad_ids)) :=
    match table with
    | None => Err ValueError
    | Some table =>
        let* (keys, xp_input) := match inputs, column with
                     | Keys l, _ => Ok (l, false)
                     | Ids1 _ l, None => Ok (map int_key l, true)
                     | Ids2 _ _ rows, None => match rows with [] => Ok ([], true) | _ :: _ => Err TypeError end
                     | Ids1 _ _, Some _ => Err IndexError
                     | Ids2 _ w rows, Some c => let* l := take_column w rows c in Ok (map int_key l, true)
                     end in
        let* values := mapM (fun x => int32 (table_get table x default)) keys in
        Ok (column_of values, fun dY => if xp_input then Uninitialised [length dY; match dY with row :: _ => length row | [] => 1%nat end] else NoGrad)
    end.

  (** ** premap_ids.pyx *)
  Context {P : Type}.
  Variable presh_empty : P.
  Variable presh_set : P -> Z -> Z -> result P.
  Variable presh_get : P -> Z -> result (option Z).
  (** 36-58: building the map from the items of a mapping, which are pairs of ints or something else *)
  Fixpoint presh_fill (items : list (option (Z * Z))) (m : P) : result P :=
    match items with
    | [] => Ok m
    | None :: _ => Err ValueError
    | Some (k, v) :: items => let* m := presh_set m k v in presh_fill items m
    end.
  Definition premap_ids (items : list (option (Z * Z))) : result P := presh_fill items presh_empty.
  Definition int64 (v : Z) : result Z := if (- 2 ^ 63 <=? v) && (v <? 2 ^ 63) then Ok v else Err OverflowError.
  (** 17-31 [lookup]: keys are a vector of int64 *)
  Definition lookup (m : P) (keys : list Z) (default : Z) : result (list Z) :=
    let* default := int64 default in
    mapM (fun k => let* v := presh_get m k in match v with None => Ok default | Some v => int64 v end) keys.
  (** 61-85 [forward]; sequences are outside its type (they raise one exception or another) *)
  Definition premap_forward (m : P) (default : Z) (column : option Z) (inputs : ids K) : result (list (list Z) * (list (list Z) -> grad_ids)) :=
    let* (keys, shape) := match inputs, column with
                          | Ids1 Int64 l, None => Ok (l, [length l])
                          | Ids1 _ _, None => Err ValueError
                          | Ids1 _ _, Some _ => Err IndexError
                          | Ids2 _ _ _, None => Err ValueError
                          | Ids2 dt w rows, Some c => let* l := take_column w rows c in match dt with Int64 => Ok (l, [length rows; w]) | _ => Err ValueError end
                          | Keys _, None => Err ValueError
                          | Keys _, Some _ => Err TypeError
                          end in
    let* values := lookup m keys default in
    Ok (column_of (map wrap32 values), fun _ => Zeros shape).
End Mapper.

(** ** remap_ids.py 15-28 (and 47-67, the layer with [forward_v2]): layers hold references to their table. The default argument is one table, made when the module is loaded: at 0 *)
Section Share.
  Context {K : Type} (keq : K -> K -> bool).
  Definition tables := list (list (K * Z)).
  Record remap_layer := mkRemap { r_table : nat; r_default : Z }.
  Definition remap_ids (mapping_table : option nat) (default : Z) : remap_layer := mkRemap (match mapping_table with Some r => r | None => 0%nat end) default.
  (** [layer.attrs["mapping_table"][k] = v] *)
  Definition add_entry (layer : remap_layer) (k : K) (v : Z) (h : tables) : tables := set_nth (r_table layer) ((k, v) :: nth (r_table layer) h []) h.
  Definition remap_call (int_key : Z -> K) (layer : remap_layer) (inputs : ids K) (h : tables) : result (list (list Z) * (list (list Z) -> grad_ids)) :=
    remap_forward keq int_key (nth (r_table layer) h []) (r_default layer) inputs.
End Share.

(** ** strings2arrays.py 20-30: [hash_unicode] is outside *)
Section Strings.
  Context {Str : Type} (hash_unicode : Str -> Z).
  Definition strings_forward (Xs : list (list Str)) : list (list (list Z)) * (list (list (list Z)) -> grad_ids) :=
    (map (fun X => column_of (map (fun word => hash_unicode word mod 2 ^ 64) X)) Xs, fun _ => NoGrad).
End Strings.
