(** Vocabulary of the statements about floats *)
From Coq Require Import ZArith.
From Verif Require Export FloatModel.

(** A binary format of IEEE 754: at least two bits of precision, and the largest exponent above the precision *)
Definition format (prec emax : Z) : Prop := (2 <= prec /\ prec < emax)%Z.
(** The float 2^k *)
Definition pow2 (prec emax k : Z) : spec_float := binary_normalize prec emax 1 k false.
Definition f_nan (x : spec_float) : bool := match x with S754_nan => true | _ => false end.
(** Neither infinite nor NaN *)
Definition f_finite (x : spec_float) : bool := match x with S754_zero _ | S754_finite _ _ _ => true | _ => false end.
Definition f_sign (x : spec_float) : bool := match x with S754_zero s | S754_infinity s | S754_finite s _ _ => s | S754_nan => false end.
Definition f_inf : spec_float := S754_infinity false.
(** A positive finite float *)
Definition f_pos (x : spec_float) : bool := match x with S754_finite false _ _ => true | _ => false end.
(** The formats of numpy *)
Definition f32 : Num spec_float := num_sf 24 128.
Definition f16 : Num spec_float := num_sf 11 16.
(** A decimal number with [d] in the denominator, rounded to float32 *)
Definition q32 (n d : Z) : spec_float := @ndiv _ f32 (@nZ _ f32 n) (@nZ _ f32 d).

(** The sums of the columns of a matrix of integers with [O] columns *)
Definition col_sums (O : nat) (rows : list (list Z)) : list Z := map (fun j => fold_right Z.add 0%Z (map (fun r => nth j r 0%Z) rows)) (seq 0 O).
Definition positive_f (x : spec_float) : bool := match x with S754_finite false _ _ | S754_infinity false => true | _ => false end.
Definition no_nan (l : list spec_float) : Prop := forall x, In x l -> x <> S754_nan.
(** A float multiplied by +0 *)
Definition times_zero (x : spec_float) : spec_float := match x with S754_zero s | S754_finite s _ _ => S754_zero s | _ => S754_nan end.
Definition all_valid (prec emax : Z) (l : list spec_float) : Prop := forall x, In x l -> valid_binary prec emax x = true.
