(** C68: position encodings. *)
From Coq Require Import Reals Lra Lia ZArith List QArith.
From Verif Require Import PosModel PosSpec ViewSpec PosProofs NumQ.
Import ListNotations.
Local Open Scope R_scope.

(** A new array, or a contiguous [out] of the right shape, is filled with the rows, and nothing else changes; other shapes raise. *)
Theorem C68_new : forall T (NT : Num T) sinf cosf (powf : T -> T -> T) junk h N D period, exists h' z, position_encode sinf cosf powf junk h (Z.of_nat N) (Z.of_nat D) period None = Ok (h', z) /\
  elements h' z = Ok (mkM D (map (fun i => encode_row sinf cosf powf (nnat i) period D) (seq 0 N))) /\ v_buf z = length h /\ forall b p, (b < length h)%nat -> load h' b p = load h b p.
Proof. exact @encode_new. Qed.
Print Assumptions C68_new.
Theorem C68_out : forall T (NT : Num T) sinf cosf (powf : T -> T -> T) junk h N D period o O, elements h o = Ok O -> v_rows o = N -> v_cols o = D -> contiguous o = true ->
  exists h', position_encode sinf cosf powf junk h (Z.of_nat N) (Z.of_nat D) period (Some o) = Ok (h', o) /\ elements h' o = Ok (mkM D (map (fun i => encode_row sinf cosf powf (nnat i) period D) (seq 0 N))) /\ untouched o h h'.
Proof. exact @encode_out. Qed.
Print Assumptions C68_out.
Theorem C68_errors : forall T (NT : Num T) sinf cosf (powf : T -> T -> T) junk h N D period, (N < 0 \/ D < 0 -> position_encode sinf cosf powf junk h N D period None = Err ValueError)%Z /\
  (forall o, Z.of_nat (v_rows o) <> N \/ Z.of_nat (v_cols o) <> D -> position_encode sinf cosf powf junk h N D period (Some o) = Err AssertionError).
Proof. exact @encode_errors. Qed.
Print Assumptions C68_errors.
(** Finding: an [out] with gaps: the elements between are overwritten, and the last stays. *)
Theorem C68_gaps_refuted : forall T (NT : Num T) sinf cosf (powf : T -> T -> T) junk (a b c period : T), let o := mkView 0 0 1 2 4 2 in exists x y, position_encode sinf cosf powf junk [[a; b; c]] 1 2 period (Some o) = Ok ([[x; y; c]], o).
Proof. exact @encode_gaps. Qed.
Print Assumptions C68_gaps_refuted.

(** Over the reals: columns 2k and 2k+1 are the sine and cosine of the position times the speed of the pair. *)
Theorem C68_columns : forall period D i k, (2 * k + 1 < D)%nat -> nth (2 * k) (row_R period D i) 0 = sin (INR i * speed period D k) /\ nth (2 * k + 1) (row_R period D i) 0 = cos (INR i * speed period D k).
Proof. exact row_columns. Qed.
Print Assumptions C68_columns.
(** Going m positions on turns every pair by the same angle, wherever one starts. *)
Theorem C68_relative : forall period D i m k, (2 * k + 1 < D)%nat ->
  nth (2 * k) (row_R period D (i + m)) 0 = cos (INR m * speed period D k) * nth (2 * k) (row_R period D i) 0 + sin (INR m * speed period D k) * nth (2 * k + 1) (row_R period D i) 0 /\
  nth (2 * k + 1) (row_R period D (i + m)) 0 = cos (INR m * speed period D k) * nth (2 * k + 1) (row_R period D i) 0 - sin (INR m * speed period D k) * nth (2 * k) (row_R period D i) 0.
Proof. exact shift_rotates. Qed.
Print Assumptions C68_relative.
(** For even D the product of two rows only depends on the distance of the positions; every row has the same norm; elements are
    between -1 and 1. *)
Theorem C68_distance : forall period m i j, dot_R (row_R period (2 * m) i) (row_R period (2 * m) j) = fold_right Rplus 0 (map (fun k => cos ((INR i - INR j) * speed period (2 * m) k)) (seq 0 m)).
Proof. exact dot_distance. Qed.
Print Assumptions C68_distance.
Theorem C68_norm : forall period m i, dot_R (row_R period (2 * m) i) (row_R period (2 * m) i) = INR m.
Proof. exact row_norm. Qed.
Print Assumptions C68_norm.
Theorem C68_bounded : forall period D i j, (j < D)%nat -> -1 <= nth j (row_R period D i) 0 <= 1.
Proof. exact row_bounded. Qed.
Print Assumptions C68_bounded.

(** Finding: the exponent doubles the number of the column, which already is twice the number of the pair: the speeds are those of
    the paper for the square of the period. *)
Theorem C68_period_refuted : nth 2 (row_R 10000 4 1) 0 <> sin (INR 1 * paper_speed 10000 4 1).
Proof. exact not_paper. Qed.
Print Assumptions C68_period_refuted.
Theorem C68_period : forall period D k, 0 < period -> speed period D k = paper_speed (period * period) D k.
Proof. exact speed_paper. Qed.
Print Assumptions C68_period.
(** Finding: for odd D the last column repeats column D - 3. *)
Theorem C68_odd_refuted : forall period m i, (1 <= m)%nat -> nth (2 * m) (row_R period (2 * m + 1) i) 0 = nth (2 * (m - 1)) (row_R period (2 * m + 1) i) 0.
Proof. exact last_repeats. Qed.
Print Assumptions C68_odd_refuted.

(** ** Examples *)
(** With the identity for sine, a constant for cosine and a constant power: the layout *)
Example C68_layout_ex : (let* (h, z) := position_encode (fun x => x) (fun _ => 7%Q) (fun _ _ => 1%Q) 9%Q [] 3 3 1%Q None in elements h z) = Ok (mkM 3 [[0; 7; 0]; [1; 7; 1]; [2; 7; 2]]%Q).
Proof. vm_compute. reflexivity. Qed.
Example C68_first_ex : nth 0 (row_R 10000 4 3) 0 = sin 3 /\ nth 1 (row_R 10000 4 3) 0 = cos 3.
Proof.
  destruct (C68_columns 10000 4 3 0 ltac:(lia)) as [E1 E2]. change (2 * 0)%nat with 0%nat in *. cbn [Nat.add] in E2. rewrite E1, E2. unfold speed, Rpower. cbn [INR]. replace (4 * 0 / (1 + 1 + 1 + 1)) with 0 by field. rewrite Rmult_0_l, exp_0. split; f_equal; lra.
Qed.
Example C68_out_ex : contiguous (mkView 1 4 2 4 4 1) = true /\ v_rows (mkView 1 4 2 4 4 1) = 2%nat. Proof. split; reflexivity. Qed.
