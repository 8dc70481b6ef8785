(** Floating point scalars. The other models compute with scalars of any type with the operations of [Num]; here these are the
    binary floats of IEEE 754 as the standard library specifies them (Coq.Floats.SpecFloat: rounding to nearest, ties to even;
    signed zeros, infinities, subnormal numbers, one NaN), with [prec] bits of precision and exponents below [emax]: (24, 128) is
    float32, the type of thinc's arrays, (53, 1024) is float64, (11, 16) is float16. No proofs here.
    Written out again are the functions whose comparisons treat NaN in a way [NumModel] does not distinguish. A sum or product
    is rounded after each operation: fused operations, extended registers and flushing of subnormal numbers to zero are left out. *)
From Coq Require Import ZArith.
From Coq.Floats Require Export SpecFloat.
From Verif Require Export NumModel.

(** The scalars: [nZ] is the conversion of an integer, rounded once *)
Definition num_sf (prec emax : Z) : Num spec_float := {|
  nZ := fun z => binary_normalize prec emax z 0 false;
  nadd := SFadd prec emax;
  nsub := SFsub prec emax;
  nmul := SFmul prec emax;
  ndiv := SFdiv prec emax;
  nopp := SFopp;
  nsqrt := SFsqrt prec emax;
  nltb := SFltb;
  neqb := SFeqb
|}.

Section Float.
  Context {T : Type} `{Num T}.
  Local Open Scope num_scope.

  (** [a <= b]: false if one of them is NaN *)
  Definition fle (a b : T) : bool := (a <? b) || (a =? b).

  (** cpu_kernels.hh 341-352 [cpu_relu] *)
  Definition cpu_relu (X : list T) : list T := map (fun x => if fle x (nZ 0) then nZ 0 else x) X.
  (** numpy_ops.pyx 142-157 [backprop_relu] on float32 arrays of one shape *)
  Definition cpu_backprop_relu (dY Y : list T) : list T := vmap2 (fun d y => if fle y (nZ 0) then nZ 0 else d) dY Y.

  (** ops.py 1207-1213 [clip_gradient]; the norm of [xp.linalg.norm] is the root of the sum of the squares *)
  Definition fnorm (g : list T) : T := nsqrt (nsum (map (fun x => x * x) g)).
  Definition fclip_gradient (g : list T) (threshold : T) : list T :=
    let grad_norm := fnorm g in
    if fle threshold grad_norm then map (fun x => x * (threshold / grad_norm)) g else g.

  (** [xp.max] and [xp.argmax] along an axis (ops.py 888-890): the first NaN, if there is one, is the maximum *)
  Fixpoint xp_argmax_from (best : T) (w i : Z) (l : list T) : T * Z :=
    match l with
    | [] => (best, w)
    | x :: l' =>
      if negb (best =? best) then (best, w)
      else if (best <? x) || negb (x =? x) then xp_argmax_from x i (i + 1)%Z l'
      else xp_argmax_from best w (i + 1)%Z l'
    end.
End Float.
