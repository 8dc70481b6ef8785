(** Position encodings: thinc/backends/numpy_ops.pyx 548-557 and 570-585, thinc/backends/ops.py 1369-1376. No proofs here.
    float32 rounding is not modelled; [out] has the type float32. *)
From Coq Require Import ZArith List.
From Verif Require Export ViewModel.
Import ListNotations.

Section Pos.
  Context {T : Type} `{Num T}.
  (** sinf, cosf and powf of the C library *)
  Variables (sinf cosf : T -> T) (powf : T -> T -> T).
  Local Open Scope num_scope.

  (** numpy_ops.pyx 576-582: [while (j+1) < D], with what has been written of the row, j and d *)
  Fixpoint pairs (fuel : nat) (pos period dimensions : T) (D j : nat) (d : T) (written : list T) : list T * nat * T :=
    match fuel with
    | O => (written, j, d)
    | S fuel =>
      if Nat.ltb (j + 1) D then
        let d := nnat j in
        pairs fuel pos period dimensions D (j + 2) d
              (written ++ [sinf (pos / powf period (nZ 2 * d / dimensions)); cosf (pos / powf period (nZ 2 * d / dimensions))])
      else (written, j, d)
    end.
  (** 574-584: one row. j grows by 2, so D iterations are enough. *)
  Definition encode_row (pos period : T) (D : nat) : list T :=
    let dimensions := nnat D in
    let '(row, j, d) := pairs D pos period dimensions D 0 (nZ 0) [] in
    if Nat.ltb j D then row ++ [sinf (pos / powf period (nZ 2 * d / dimensions))] else row.
  (** 570-585: rows one after the other, from the pointer on *)
  Definition cpu_position_encode (period : T) (N D : nat) : list T := concat (map (fun i => encode_row (nnat i) period D) (seq 0 N)).
  (** 548-557. [junk] is what [numpy.empty] finds; a negative dimension cannot be allocated. *)
  Definition position_encode (junk : T) (h : heap T) (N D : Z) (period : T) (out : option view) : result (heap T * view) :=
    let* (h, out) := match out with
                     | None => if ((N <? 0) || (D <? 0))%Z%bool then Err ValueError
                               else let r := Z.to_nat N in let c := Z.to_nat D in Ok (new_c h r c (mkM c (repeat (repeat junk c) r)))
                     | Some out => Ok (h, out)
                     end in
    if negb (Z.of_nat (v_rows out) =? N)%Z then Err AssertionError
    else if negb (Z.of_nat (v_cols out) =? D)%Z then Err AssertionError
    else
      let* h := store_run h (v_buf out) (v_off out) (cpu_position_encode period (Z.to_nat N) (Z.to_nat D)) in
      Ok (h, out).
End Pos.
