(** Vocabulary for the properties of making arrays (MakeModel.v). *)
From Coq Require Import String.
From Verif Require Import Base MakeModel.
Local Open Scope string_scope.

(** The shape has a given dimension wherever a non-negative one is asked for. *)
Definition fits (asked : list Z) (sh : list nat) : Prop := Forall2 (fun d n => (d < 0)%Z \/ d = Z.of_nat n) asked sh.
Definition at_most_one_negative (asked : list Z) : Prop :=
  forall i j d e, nth_error asked i = Some d -> nth_error asked j = Some e -> (d < 0)%Z -> (e < 0)%Z -> i = j.

(** As many items as the shape says. *)
Definition whole {T} (a : arr T) : Prop := length (a_data a) = count (a_shape a).
(** Casting the items to the array's own dtype changes nothing. *)
Definition typed {T} (cast : string -> T -> T) (a : arr T) : Prop := Forall (fun x => cast (d_kind (a_dtype a)) x = x) (a_data a).
Definition idempotent {T} (cast : string -> T -> T) : Prop := forall k x, cast k (cast k x) = cast k x.
(** Same numbers of the same kind in the same shape, wherever and in whatever byte order they are stored. *)
Definition same_numbers {T} (a b : arr T) : Prop := d_kind (a_dtype a) = d_kind (a_dtype b) /\ a_shape a = a_shape b /\ a_data a = a_data b.

(** Nested sequences of a given shape; their numbers from left to right; the number at an index. *)
Inductive regular {T} : list nat -> nested T -> Prop :=
| regular_leaf x : regular [] (Leaf x)
| regular_nil : regular [0] (Nest [])
| regular_nest sh t l : regular sh t -> Forall (regular sh) l -> regular (S (length l) :: sh) (Nest (t :: l)).
Fixpoint leaves {T} (t : nested T) : list T := match t with Leaf x => [x] | Nest l => flat_map leaves l end.
Fixpoint lookup {T} (t : nested T) (idx : list nat) : option T :=
  match t, idx with
  | Leaf x, [] => Some x
  | Nest l, i :: idx => match nth_error l i with Some t => lookup t idx | None => None end
  | _, _ => None
  end.
(** The place of an index in row-major order. *)
Fixpoint ravel (sh idx : list nat) : nat :=
  match sh, idx with _ :: sh, i :: idx => i * count sh + ravel sh idx | _, _ => 0 end.
Definition in_range (sh idx : list nat) : Prop := Forall2 (fun n i => i < n) sh idx.

(** Bytes can be read back. *)
Definition codec {T B} (cast : string -> T -> T) (enc : string -> T -> list B) (dec : string -> list B -> T) (size : string -> nat) : Prop :=
  forall k x, length (enc k x) = size k /\ (cast k x = x -> dec k (enc k x) = x).

(** Numbers up to 65535 in two bytes, to show that there are codecs. *)
Definition enc16 (_ : string) (n : nat) : list nat := [n mod 256; n / 256].
Definition dec16 (_ : string) (l : list nat) : nat := match l with [a; b] => a + 256 * b | _ => 0 end.
Definition no_cast (_ : string) (n : nat) : nat := n.
