(** What gradient accumulation should compute: no arrays, no sharing, only values. *)
From Coq Require Import String.
From Verif Require Import Base DictModel NodeModel GradModel.

Section GradSpec.
  Context {E : Type} (add : E -> E -> E).

  (** The caller's arrays by value, and for each name the contributions (the last set value and the
      increments after it) in order. *)
  Record gspec := mkGS { sp_user : list (list E); sp_contrib : dict string (list (list E)) }.

  Definition total (l : list (list E)) : option (list E) :=
    match l with [] => None | v :: vs => Some (fold_left (vadd add) vs v) end.

  Definition contributions (s : gspec) (name : string) : list (list E) :=
    match dget name (sp_contrib s) with Some l => l | None => [] end.

  (** An increment is accepted when it has the shape of what is there already. *)
  Definition compatible (l : list (list E)) (v : list E) : bool :=
    match l with [] => true | w :: _ => Nat.eqb (length w) (length v) end.

  Definition spec_step (s : gspec) (o : grad_op E) : gspec * result unit :=
    match o with
    | UNew v => (mkGS (sp_user s ++ [v]) (sp_contrib s), Ok tt)
    | UWrite u v => if Nat.ltb u (length (sp_user s))
                    then (mkGS (set_nth u v (sp_user s)) (sp_contrib s), Ok tt) else (s, Err NameError)
    | GInc name u =>
      match nth_error (sp_user s) u with
      | None => (s, Err NameError)
      | Some v =>
        if compatible (contributions s name) v
        then (mkGS (sp_user s) (dset name (contributions s name ++ [v]) (sp_contrib s)), Ok tt)
        else (s, Err ValueError)
      end
    | GSet name u =>
      match nth_error (sp_user s) u with
      | None => (s, Err NameError)
      | Some v => (mkGS (sp_user s) (dset name [v] (sp_contrib s)), Ok tt)
      end
    end.

  Fixpoint spec_run (s : gspec) (ops : list (grad_op E)) : gspec * list (result unit) :=
    match ops with
    | [] => (s, [])
    | o :: ops' =>
      let (s1, r) := spec_step s o in
      let (s2, rs) := spec_run s1 ops' in (s2, r :: rs)
    end.

  Definition spec_init : gspec := mkGS [] [].

  (** The handle an operation uses, and the discipline "an array given to set_grad is not used
      again by the caller". *)
  Definition uses (o : grad_op E) : option nat :=
    match o with UNew _ => None | UWrite u _ => Some u | GInc _ u => Some u | GSet _ u => Some u end.

  Fixpoint handed_over (ops : list (grad_op E)) : Prop :=
    match ops with
    | [] => True
    | o :: ops' =>
      match o with
      | GSet _ u => forall o', In o' ops' -> uses o' <> Some u
      | _ => True
      end /\ handed_over ops'
    end.

  (** The caller's arrays that were never given to set_grad. *)
  Definition never_set (ops : list (grad_op E)) (u : nat) : Prop := forall name, ~ In (GSet name u) ops.
End GradSpec.
Arguments gspec : clear implicits.
