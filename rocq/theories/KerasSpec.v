(** Vocabulary for Keras and MXNet models: C80. *)
From Coq Require Import String ZArith List Bool.
From Verif Require Export KerasModel.
Import ListNotations.
Local Open Scope string_scope.

(** All of these calls succeed, one after the other *)
Inductive all_ok {C M} (call : C -> M -> M * result unit) : list C -> M -> M -> Prop :=
| ok_nil m : all_ok call [] m m
| ok_cons c l m m1 m2 : call c m = (m1, Ok tt) -> all_ok call l m1 m2 -> all_ok call (c :: l) m m2.
(** A model that Keras cannot describe by itself *)
Definition subclassed {M A} (get_config : @kinst A M -> result unit) (i : kinst) : Prop := get_config i = Err AttributeError \/ get_config i = Err NotImplementedError.

(** Two classes; models whose weights are numbers, that count how often they were called *)
Definition kwit_state : @kstate nat := mkKs [mkKc None None None None None 0; mkKc None None None None None 0] [].
Definition kwit_call (c : @kcall nat) (m : nat * list nat) : (nat * list nat) * result unit := ((fst m, length (snd m) :: snd m), Ok tt).
Definition kwit_set (m : nat * list nat) (w : nat) : (nat * list nat) * result unit := ((w, snd m), Ok tt).
(** A name that is not in use: longer than all names *)
Fixpoint kwit_fresh (f : fs) : string := match f with [] => "x" | (k, _) :: f => k ++ kwit_fresh f end.
