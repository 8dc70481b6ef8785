(** What the names of the registered functions are and what they resolve to. *)
From Coq Require Import String Ascii List Bool Permutation.
From Verif Require Export RegModel.
Import ListNotations.
Local Open Scope string_scope.
Local Open Scope list_scope.

(** The name of version [n] of a function; [n] is at most 9 *)
Definition version_name (base : string) (n : nat) : string :=
  (base ++ ".v" ++ String (ascii_of_nat (48 + n)) EmptyString)%string.
(** The registration is one of thinc's *)
Definition registered (reg name f : string) : Prop := exists rs, In (reg, rs) registrations /\ In (name, f) rs.
(** What importing thinc leaves in the registry: the registrations may come in any order, and modules of the user may register
    other names in between *)
Definition imported (reg : string) (d : dict string string) : Prop :=
  exists rs others order,
    In (reg, rs) registrations /\ Permutation order (rs ++ others) /\
    (forall name f g, In (name, f) rs -> ~ In (name, g) others) /\
    d = import_all order.
Definition no_entry_points : string -> option string := fun _ => None.
Definition plugin_entry_points : string -> option string :=
  fun name => if String.eqb name "Adam.v1" then Some "plugin_Adam" else None.
(** The registrations of the layers in reverse, with two of the user's *)
Definition example_order : list (string * string) :=
  [("my_layer.v1", "my_layer")] ++ rev registered_layers ++ [("my_other.v1", "my_other")].

(** The base and the digit of a name of the form [base.vD] *)
Fixpoint split_version (s : string) : option (string * Ascii.ascii) :=
  match s with
  | EmptyString => None
  | String a (String b (String d EmptyString)) =>
      if (Ascii.eqb a "." && Ascii.eqb b "v")%bool then Some (EmptyString, d) else None
  | String c r => match split_version r with Some (b, d) => Some (String c b, d) | None => None end
  end.
