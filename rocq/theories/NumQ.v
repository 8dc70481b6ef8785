(** Rational numbers as scalars, to run the model on examples. There is no rational square root:
    the instance uses the identity, so it is only used where that does not matter. *)
From Coq Require Export QArith Qreduction.
From Verif Require Export NumModel.

#[export] Instance num_Q : Num Q := {
  nZ := inject_Z;
  nadd := fun x y => Qred (x + y);
  nsub := fun x y => Qred (x - y);
  nmul := fun x y => Qred (x * y);
  ndiv := fun x y => Qred (x / y);
  nopp := Qopp;
  nsqrt := fun x => x;
  nltb := fun x y => match Qcompare x y with Lt => true | _ => false end;
  neqb := Qeq_bool
}.
