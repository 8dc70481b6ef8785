(** Vocabulary of the theorems about mapping ids, without the functions of the model that look up. *)
From Verif Require Export MapperModel.
Local Open Scope Z_scope.

(** A value of a table for a key, or the default *)
Definition mapped {K} (keq : K -> K -> bool) (table : list (K * Z)) (default : Z) (x : K) (v : Z) : Prop :=
  (exists k, In (k, v) table /\ keq k x = true) \/ ((forall k w, In (k, w) table -> keq k x = false) /\ v = default).
(** No key has two values *)
Definition functional {K} (keq : K -> K -> bool) (table : list (K * Z)) : Prop :=
  forall x k v k' v', In (k, v) table -> In (k', v') table -> keq k x = true -> keq k' x = true -> v = v'.
Definition in_int32 (v : Z) : Prop := - 2 ^ 31 <= v < 2 ^ 31.
Definition fits {K} (table : list (K * Z)) (default : Z) : Prop := in_int32 default /\ forall k v, In (k, v) table -> in_int32 v.

(** The keys that an input stands for, and whether it is an array *)
Inductive selected {K} (int_key : Z -> K) : ids K -> option Z -> list K -> bool -> Prop :=
| sel_keys l c : selected int_key (Keys l) c l false
| sel_vector dt l : selected int_key (Ids1 dt l) None (map int_key l) true
| sel_column dt w rows c i l : (if c <? 0 then c + Z.of_nat w else c) = Z.of_nat i -> (i < w)%nat -> Forall2 (fun row v => nth_error row i = Some v) rows l ->
    selected int_key (Ids2 dt w rows) (Some c) (map int_key l) true.
(** preshed's maps behave like dicts, for keys and values that are not negative and below 2^64 *)
Record presh_laws {P} (empty : P) (set : P -> Z -> Z -> result P) (get : P -> Z -> result (option Z)) : Prop := mkPresh {
  presh_none : forall k, 0 <= k < 2 ^ 64 -> get empty k = Ok None;
  presh_put : forall m k v, 0 <= k < 2 ^ 64 -> 0 <= v < 2 ^ 64 ->
    exists m', set m k v = Ok m' /\ get m' k = Ok (Some v) /\ forall j, 0 <= j < 2 ^ 64 -> j <> k -> get m' j = get m j
}.
