(** Matrix products through BLAS: _accelerate.pyx 7-75, apple_ops.pyx 15-39, numpy_ops.pyx 81-126 and cblas.pyx 15-73, with
    buffers as flat arrays and BLAS as its reference implementation. No proofs here. Leaving a buffer is [MemFault]. *)
From Verif Require Export DenseModel.
Local Open Scope nat_scope.

Section Blas.
  Context {T : Type} `{Num T}.
  Definition ld (m : list T) (p : nat) : result T := match nth_error m p with Some x => Ok x | None => Err MemFault end.
  Definition st (m : list T) (p : nat) (x : T) : result (list T) := if Nat.ltb p (length m) then Ok (set_nth p x m) else Err MemFault.
  Fixpoint loop {S} (f : nat -> S -> result S) (l : list nat) (s : S) : result S :=
    match l with [] => Ok s | i :: l => let* s := f i s in loop f l s end.

  (** Where op(A)[i, l] is in row-major order: rows are [lda] apart *)
  Definition pos (trans : bool) (lda i l : nat) : nat := if trans then l * lda + i else i * lda + l.
  (** cblas_sgemm(CblasRowMajor, ...) of the reference implementation with alpha = 1: C = op(A) op(B) + beta C, where C
      is not read if beta is zero ([None]). *)
  Definition sgemm (transA transB : bool) (M N K : nat) (A : list T) (lda : nat) (B : list T) (ldb : nat) (beta : option T)
    (C : list T) (ldc : nat) : result (list T) :=
    loop (fun i C => loop (fun j C =>
        let* s := loop (fun l s => let* a := ld A (pos transA lda i l) in let* b := ld B (pos transB ldb l j) in Ok (nadd s (nmul a b))) (seq 0 K) (nZ 0) in
        let* s := match beta with None => Ok s | Some b => let* c := ld C (i * ldc + j) in Ok (nadd s (nmul b c)) end in
        st C (i * ldc + j) s) (seq 0 N) C) (seq 0 M) C.

  (** A 2d array: whether it is of type float32 and C-contiguous, its shape and items *)
  Record arr2 := mkF { f_ok : bool; f_rows : nat; f_cols : nat; f_data : list T }.
  (** [cdef float[:, ::1] A = x] *)
  Definition float_view (a : arr2) : result arr2 := if f_ok a then Ok a else Err ValueError.
  (** [numpy.empty]; [junk] is what it finds *)
  Definition empty (junk : T) (r c : nat) : arr2 := mkF true r c (repeat junk (r * c)).

  (** _accelerate.pyx 7-49 [gemm]; apple_ops.pyx 28-39 passes its arguments on. The output is not one of the inputs. *)
  Definition apple_gemm (junk : T) (A B : arr2) (trans1 trans2 : bool) (out : option arr2) : result arr2 :=
    let* A := float_view A in
    let* B := float_view B in
    let nM := if trans1 then f_cols A else f_rows A in
    let nK := if trans1 then f_rows A else f_cols A in
    let nK_b := if trans2 then f_cols B else f_rows B in
    let nN := if trans2 then f_rows B else f_cols B in
    let* C := match out with
              | None => Ok (empty junk nM nN)
              | Some out => let* C := float_view out in
                            if negb (Nat.eqb (f_rows C) nM) || negb (Nat.eqb (f_cols C) nN) then Err ValueError else Ok C
              end in
    if negb (Nat.eqb nK nK_b) then Err ValueError
    else if Nat.eqb nM 0 || Nat.eqb nK 0 || Nat.eqb nN 0 then Ok C
    else
      let* data := sgemm trans1 trans2 nM nN nK (f_data A) (f_cols A) (f_data B) (f_cols B) None (f_data C) (f_cols C) in
      Ok (mkF true (f_rows C) (f_cols C) data).
  (** numpy_ops.pyx 81-126 [gemm] with blis, of contiguous float32 arrays *)
  Definition blis_gemm (junk : T) (x y : arr2) (trans1 trans2 : bool) (out : option arr2) : result arr2 :=
    let nM := if trans1 then f_cols x else f_rows x in
    let nK := if trans1 then f_rows x else f_cols x in
    let nK_b := if trans2 then f_cols y else f_rows y in
    let nN := if trans2 then f_rows y else f_cols y in
    if negb (Nat.eqb nK nK_b) then Err ValueError
    else
      let C := match out with None => empty junk nM nN | Some out => out end in
      let* data := sgemm trans1 trans2 nM nN nK (f_data x) (f_cols x) (f_data y) (f_cols y) None (f_data C) (f_cols C) in
      Ok (mkF true (f_rows C) (f_cols C) data).
End Blas.
Arguments arr2 : clear implicits.

(** cblas.pyx 15-21: which library a function is taken from *)
Inductive library := Blis | Accelerate.
Record funcs := mkFuncs { daxpy : library; saxpy : library; sgemm_of : library; dgemm_of : library; sscal : library; dscal : library }.
(** cblas.pyx 27-36 [CBlas()] *)
Definition cblas_new : funcs := mkFuncs Blis Blis Blis Blis Blis Blis.
(** cblas.pyx 59-63 [set_saxpy], [set_sgemm] *)
Definition set_saxpy (f : funcs) (l : library) : funcs := mkFuncs (daxpy f) l (sgemm_of f) (dgemm_of f) (sscal f) (dscal f).
Definition set_sgemm (f : funcs) (l : library) : funcs := mkFuncs (daxpy f) (saxpy f) l (dgemm_of f) (sscal f) (dscal f).
(** apple_ops.pyx 22-26 [cblas] *)
Definition apple_cblas : funcs := set_sgemm (set_saxpy cblas_new Accelerate) Accelerate.
