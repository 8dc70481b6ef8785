(** The real numbers as scalars. *)
From Coq Require Export Reals Lra.
From Verif Require Export NumModel.

#[export] Instance num_R : Num R := {
  nZ := IZR;
  nadd := Rplus;
  nsub := Rminus;
  nmul := Rmult;
  ndiv := Rdiv;
  nopp := Ropp;
  nsqrt := sqrt;
  nltb := fun x y => if Rlt_dec x y then true else false;
  neqb := fun x y => if Req_EM_T x y then true else false
}.
