(** NumPy arrays as views of memory, and the methods of NumpyOps that pass pointers to C: thinc/backends/numpy_ops.pyx 81-157, 189-192
    (the types of memoryviews), 222-250, 521-535 and 1114-1124, thinc/backends/ops.py 763-771 and thinc/backends/cpu_kernels.hh 257-290
    and 341-352. No proofs here. Arrays have at most two dimensions; a 1d array is a view of one row. Strides are counted in elements.
    The element type is fixed: casts between types of other sizes are not modelled. *)
From Coq Require Import ZArith List.
From Verif Require Export DenseModel OptModel.
Import ListNotations.
Local Open Scope Z_scope.

(** ** Memory *)

(** A view: the buffer, the position of its first element ([data]), rows, columns and strides *)
Record view := mkView { v_buf : nat; v_off : Z; v_rows : nat; v_cols : nat; v_s0 : Z; v_s1 : Z }.
(** The types of elements that the methods distinguish *)
Inductive dtype := Float32 | Float64 | OtherType.

Section View.
  Context {T : Type} `{Num T}.

  (** All buffers. Reading and writing outside of them is a fault of the program, not an exception. *)
  Definition heap := list (list T).
  Definition load (h : heap) (b : nat) (p : Z) : result T :=
    if p <? 0 then Err MemFault
    else match nth_error h b with
         | None => Err MemFault
         | Some m => match nth_error m (Z.to_nat p) with Some x => Ok x | None => Err MemFault end
         end.
  Definition store (h : heap) (b : nat) (p : Z) (x : T) : result heap :=
    let* _ := load h b p in
    match nth_error h b with Some m => Ok (set_nth b (set_nth (Z.to_nat p) x m) h) | None => Err MemFault end.

  Definition addr (v : view) (i j : nat) : Z := v_off v + Z.of_nat i * v_s0 v + Z.of_nat j * v_s1 v.
  (** The array as Python shows it *)
  Definition elements (h : heap) (v : view) : result (mat T) :=
    let* rows := mapM (fun i => mapM (fun j => load h (v_buf v) (addr v i j)) (seq 0 (v_cols v))) (seq 0 (v_rows v)) in
    Ok (mkM (v_cols v) rows).
  Definition size (v : view) : nat := (v_rows v * v_cols v)%nat.
  (** [flags["C_CONTIGUOUS"]]: strides of dimensions of one element do not matter *)
  Definition contiguous (v : view) : bool :=
    (Nat.eqb (size v) 0 || ((Nat.eqb (v_rows v) 1 || (v_s0 v =? Z.of_nat (v_cols v))) && (Nat.eqb (v_cols v) 1 || (v_s1 v =? 1))))%bool.
  (** A new array in rows, and in columns *)
  Definition new_c (h : heap) (r c : nat) (m : mat T) : heap * view := (h ++ [concat (m_rows m)], mkView (length h) 0 r c (Z.of_nat c) 1).
  Definition new_f (h : heap) (r c : nat) (m : mat T) : heap * view := (h ++ [concat (m_rows (transpose m))], mkView (length h) 0 r c 1 (Z.of_nat r)).
  (** [numpy.array(X)]: the copy keeps the order of the axes *)
  Definition numpy_array (h : heap) (v : view) : result (heap * view) :=
    let* m := elements h v in
    Ok (if Z.abs (v_s0 v) <? Z.abs (v_s1 v) then new_f h (v_rows v) (v_cols v) m else new_c h (v_rows v) (v_cols v) m).
  (** ops.py 763-771, for the same type *)
  Definition as_contig (h : heap) (v : view) : result (heap * view) :=
    if contiguous v then Ok (h, v) else let* m := elements h v in Ok (new_c h (v_rows v) (v_cols v) m).
  (** numpy_ops.pyx 1120-1124 *)
  Definition inplace_or_copy (h : heap) (v : view) (inplace : bool) : result (heap * view) :=
    if inplace then Ok (h, v) else numpy_array h v.
  (** numpy_ops.pyx 1114-1117 *)
  Definition check_compatible_shape (u v : view) : result unit :=
    if (Nat.eqb (v_rows u) (v_rows v) && Nat.eqb (v_cols u) (v_cols v))%bool then Ok tt else Err ValueError.

  (** ** Loops over pointers *)

  (** cpu_kernels.hh 257-268 and 341-352: [for i in range(n): p[i] = f(p[i])] *)
  Fixpoint each (f : T -> T) (h : heap) (b : nat) (p : Z) (n : nat) : result heap :=
    match n with
    | O => Ok h
    | S n => let* x := load h b p in let* h := store h b p (f x) in each f h b (p + 1) n
    end.
  (** cpu_kernels.hh 271-290, numpy_ops.pyx 150-153: [p[i] = f(p[i], q[i])] *)
  Fixpoint each2 (f : T -> T -> T) (h : heap) (b : nat) (p : Z) (b' : nat) (q : Z) (n : nat) : result heap :=
    match n with
    | O => Ok h
    | S n => let* y := load h b' q in let* x := load h b p in let* h := store h b p (f x y) in each2 f h b (p + 1) b' (q + 1) n
    end.
  (** n elements from p on *)
  Fixpoint load_run (h : heap) (b : nat) (p : Z) (n : nat) : result (list T) :=
    match n with
    | O => Ok []
    | S n => let* x := load h b p in let* l := load_run h b (p + 1) n in Ok (x :: l)
    end.
  Fixpoint store_run (h : heap) (b : nat) (p : Z) (l : list T) : result heap :=
    match l with
    | [] => Ok h
    | x :: l => let* h := store h b p x in store_run h b (p + 1) l
    end.

  (** ** Methods *)

  (** numpy_ops.pyx 128-139 [relu] and 222-234 [mish]; f is the kernel, [super] the base class *)
  Definition np_unary (super : heap -> view -> bool -> result (heap * view)) (f : T -> T) (t : dtype) (h : heap) (X : view) (inplace : bool) : result (heap * view) :=
    match t with
    | Float32 | Float64 => let* (h, Y) := inplace_or_copy h X inplace in let* h := each f h (v_buf Y) (v_off Y) (size Y) in Ok (h, Y)
    | OtherType => super h X inplace
    end.
  (** 222-234 again: the base class gets no threshold, whose default is 20 *)
  Definition np_mish (super : T -> heap -> view -> bool -> result (heap * view)) (cpu_mish : T -> T -> T) (t : dtype) (threshold : T) :=
    np_unary (super (nZ 20)) (cpu_mish threshold) t.
  (** numpy_ops.pyx 141-157 [backprop_relu], where [doubles] is false, and 236-250 [backprop_mish], where it is true *)
  Definition np_binary (super : heap -> view -> view -> bool -> result (heap * view)) (doubles : bool) (f : T -> T -> T) (td tx : dtype) (h : heap) (dY X : view) (inplace : bool) : result (heap * view) :=
    let* _ := check_compatible_shape dY X in
    match td, tx, doubles with
    | Float32, Float32, _ | Float64, Float64, true =>
      let* (h, dX) := inplace_or_copy h dY inplace in
      let* h := each2 f h (v_buf dX) (v_off dX) (v_buf X) (v_off X) (size X) in Ok (h, dX)
    | _, _, _ => super h dY X inplace
    end.
  (** What a kernel finds at the pointer of an array of r rows and c columns *)
  Definition at_pointer (h : heap) (v : view) : result (mat T) :=
    let* l := load_run h (v_buf v) (v_off v) (size v) in Ok (mkM (v_cols v) (cells_of (v_cols v) (v_rows v) l)).
  (** Parameters declared as memoryviews ([reals2d_ft], [int[:, ::1]]: maxout, reductions, gather_add): C order is required *)
  Definition memoryview (h : heap) (v : view) : result (mat T) :=
    if contiguous v then at_pointer h v else Err ValueError.
  (** The rows of a result, [width] apart *)
  Fixpoint store_rows (h : heap) (b : nat) (p width : Z) (rows : list (list T)) : result heap :=
    match rows with
    | [] => Ok h
    | r :: rows => let* h := store_run h b p r in store_rows h b (p + width) width rows
    end.
  (** numpy_ops.pyx 81-126 [gemm] with blis. [junk] is what [numpy.empty] finds. The product is computed before it is stored: an [out] that
      overlaps an input is not modelled. All arrays have the same type, [supported] if it is float32 or float64. *)
  Definition np_gemm (junk : T) (supported : bool) (h : heap) (x y : view) (out : option view) (trans1 trans2 : bool) : result (heap * view) :=
    let* (h, x) := as_contig h x in
    let* (h, y) := as_contig h y in
    let nM := if trans1 then v_cols x else v_rows x in
    let nK := if trans1 then v_rows x else v_cols x in
    let nK_b := if trans2 then v_cols y else v_rows y in
    let nN := if trans2 then v_rows y else v_cols y in
    if negb (Nat.eqb nK nK_b) then Err ValueError
    else
      let* (h, out) := match out with
                       | Some out => as_contig h out
                       | None => Ok (new_c h nM nN (mkM nN (repeat (repeat junk nN) nM)))
                       end in
      if supported then
        let* X := at_pointer h x in
        let* Y := at_pointer h y in
        let* R := gemm X Y trans1 trans2 in
        let* h := store_rows h (v_buf out) (v_off out) (Z.of_nat (v_cols out)) (m_rows R) in
        Ok (h, out)
      else Err ValueError.
  (** numpy_ops.pyx 521-535 [adam]: 1d arrays of any stride; the kernels (OptModel) get pointers. *)
  Definition np_adam (h : heap) (weights gradient mom1 mom2 : view) (beta1 beta2 eps lr : T) : result heap :=
    let* _ := check_compatible_shape weights gradient in
    let* _ := check_compatible_shape weights mom1 in
    let* _ := check_compatible_shape weights mom2 in
    let n := v_cols weights in
    let* w := load_run h (v_buf weights) (v_off weights) n in
    let* g := load_run h (v_buf gradient) (v_off gradient) n in
    let* m1 := load_run h (v_buf mom1) (v_off mom1) n in
    let* m2 := load_run h (v_buf mom2) (v_off mom2) n in
    let '(w, g, m1, m2) := numpy_adam w g m1 m2 beta1 beta2 eps lr in
    let* h := store_run h (v_buf mom1) (v_off mom1) m1 in
    let* h := store_run h (v_buf mom2) (v_off mom2) m2 in
    let* h := store_run h (v_buf weights) (v_off weights) w in
    store_run h (v_buf gradient) (v_off gradient) g.
End View.
Arguments heap : clear implicits.
