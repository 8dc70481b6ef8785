(** Property C75: matrix products through BLAS. *)
From Verif Require Import DenseModel BlasModel BlasSpec BlasProofs NumQ.
From Coq Require Import QArith.
Local Open Scope nat_scope.

(** sgemm, given room for the operands, computes every entry of op(A) op(B) + beta C, and changes nothing else. *)
Theorem C75_sgemm : forall {T} {N : Num T} tA tB M Nn K A lda B ldb beta C ldc,
  (forall i l, i < M -> l < K -> pos tA lda i l < length A) -> (forall l j, l < K -> j < Nn -> pos tB ldb l j < length B) ->
  Nn <= ldc -> (forall i j, i < M -> j < Nn -> i * ldc + j < length C) ->
  exists C', sgemm tA tB M Nn K A lda B ldb beta C ldc = Ok C' /\ length C' = length C /\
    (forall i j, i < M -> j < Nn -> nth (i * ldc + j) C' (nZ 0) =
      let s := nsum (map (fun l => nmul (nth (pos tA lda i l) A (nZ 0)) (nth (pos tB ldb l j) B (nZ 0))) (seq 0 K)) in
      match beta with None => s | Some b => nadd s (nmul b (nth (i * ldc + j) C (nZ 0))) end) /\
    (forall p, (forall i j, i < M -> j < Nn -> p <> i * ldc + j) -> nth p C' (nZ 0) = nth p C (nZ 0)).
Proof. exact @sgemm_ok. Qed.
Print Assumptions C75_sgemm.
(** gemm of AppleOps and NumpyOps passes the right sizes and strides for any transpositions, so that they multiply. *)
Theorem C75_apple : forall {T} {N : Num T} (junk : T) A B t1 t2 out, full A -> full B -> f_ok A = true -> f_ok B = true -> op_cols t1 A = op_rows t2 B -> op_cols t1 A <> 0 ->
  match out with None => True | Some C => full C /\ f_ok C = true /\ f_rows C = op_rows t1 A /\ f_cols C = op_cols t2 B end ->
  exists R, apple_gemm junk A B t1 t2 out = Ok R /\ holds R (op_rows t1 A) (op_cols t2 B) (product t1 t2 A B).
Proof. exact @apple_product. Qed.
Print Assumptions C75_apple.
Theorem C75_blis : forall {T} {N : Num T} (junk : T) A B t1 t2 out, full A -> full B -> op_cols t1 A = op_rows t2 B ->
  match out with None => True | Some C => full C /\ f_rows C = op_rows t1 A /\ f_cols C = op_cols t2 B end ->
  exists R, blis_gemm junk A B t1 t2 out = Ok R /\ holds R (op_rows t1 A) (op_cols t2 B) (product t1 t2 A B).
Proof. exact @blis_product. Qed.
Print Assumptions C75_blis.
(** They agree, and with the product that the layers' theorems are about. *)
Theorem C75_agree : forall {T} {N : Num T} (junk : T) A B t1 t2, full A -> full B -> f_ok A = true -> f_ok B = true -> op_cols t1 A = op_rows t2 B -> op_cols t1 A <> 0 ->
  exists R, apple_gemm junk A B t1 t2 None = Ok R /\ blis_gemm junk A B t1 t2 None = Ok R /\ gemm (as_mat A) (as_mat B) t1 t2 = Ok (as_mat R).
Proof. exact @apple_dense. Qed.
Print Assumptions C75_agree.
(** gemm of AppleOps raises ValueError if an array is of another type or layout or the shapes do not fit, and only then;
    it never leaves a buffer. *)
Theorem C75_apple_errors : forall {T} {N : Num T} (junk : T) A B t1 t2 out e, full A -> full B -> match out with None => True | Some C => full C end -> apple_gemm junk A B t1 t2 out = Err e ->
  e = ValueError /\ (f_ok A = false \/ f_ok B = false \/ op_cols t1 A <> op_rows t2 B \/
    exists C, out = Some C /\ (f_ok C = false \/ f_rows C <> op_rows t1 A \/ f_cols C <> op_cols t2 B)).
Proof. exact @apple_errors. Qed.
Print Assumptions C75_apple_errors.

(** Refuted: gemm of AppleOps multiplies. Without inner dimension it returns uninitialized memory instead of zeros. *)
Theorem C75_inner_refuted : forall {T} {N : Num T} (junk : T) r c, 0 < r -> 0 < c -> let A := mkF true r 0 [] in let B := mkF true 0 c [] in
  apple_gemm junk A B false false None = Ok (mkF true r c (repeat junk (r * c))) /\
  blis_gemm junk A B false false None = Ok (mkF true r c (repeat (nZ 0) (r * c))).
Proof. exact @apple_inner_refuted. Qed.
Print Assumptions C75_inner_refuted.
(** Refuted: gemm of NumpyOps stays inside its buffers. The shape of the output is not checked. *)
Theorem C75_out_refuted : exists (A B C : arr2 nat) (NN : Num nat), full A /\ full B /\ full C /\ op_cols false A = op_rows false B /\
  blis_gemm 0 A B false false (Some C) = Err MemFault.
Proof. exact blis_out_refuted. Qed.
Print Assumptions C75_out_refuted.

(** ** The hypotheses can be met *)
Example C75_ex : let A := mkF true 2 3 [1; 2; 3; 4; 5; 6]%Q in
  full A /\ op_cols false A = op_rows true A /\ op_cols false A <> 0 /\
  apple_gemm 0%Q A A false true None = Ok (mkF true 2 2 [14; 32; 32; 77]%Q) /\ apple_gemm 0%Q A A false false None = Err ValueError.
Proof. repeat split; vm_compute; congruence. Qed.
Example C75_cblas_ex : apple_cblas = mkFuncs Blis Accelerate Accelerate Blis Blis Blis.
Proof. reflexivity. Qed.

(** AppleOps takes two functions from Accelerate and leaves the others as they are. *)
Theorem C75_cblas : forall f,
  apple_cblas = f -> saxpy f = Accelerate /\ sgemm_of f = Accelerate /\
  daxpy f = daxpy cblas_new /\ dgemm_of f = dgemm_of cblas_new /\ sscal f = sscal cblas_new /\ dscal f = dscal cblas_new /\
  cblas_new = mkFuncs Blis Blis Blis Blis Blis Blis.
Proof. exact @cblas_functions. Qed.
Print Assumptions C75_cblas.
