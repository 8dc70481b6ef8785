(** C67: NumPy kernels on views of memory. *)
From Coq Require Import Lia ZArith List QArith Qreduction.
From Verif Require Import ViewModel ViewSpec ViewProofs ViewGemmProofs NumQ.
Import ListNotations.
Local Open Scope Z_scope.

(** relu and mish on any view, not in place: a new array with f of every element; nothing else changes. *)
Theorem C67_unary_copy : forall T (NT : Num T) super (f : T -> T) t h X M, elements h X = Ok M -> t <> OtherType ->
  exists h' Y, np_unary super f t h X false = Ok (h', Y) /\ elements h' Y = Ok (mmap f M) /\ v_buf Y = length h /\ forall b p, (b < length h)%nat -> load h' b p = load h b p.
Proof. exact @unary_copy. Qed.
Print Assumptions C67_unary_copy.
(** In place, on an array without gaps, in rows or in columns: f of every element, and nothing else changes. *)
Theorem C67_unary_inplace : forall T (NT : Num T) super (f : T -> T) t h X M, elements h X = Ok M -> dense X -> t <> OtherType ->
  exists h', np_unary super f t h X true = Ok (h', X) /\ elements h' X = Ok (mmap f M) /\ untouched X h h'.
Proof. exact @unary_inplace. Qed.
Print Assumptions C67_unary_inplace.
(** Finding: in place on an array with gaps (every second element) the kernel changes an element that is not of the array, and not
    the last of the array; on a reversed array it leaves the buffer. *)
Theorem C67_unary_strided_refuted : forall T (NT : Num T) super (f : T -> T) (a b c : T), let X := mkView 0 0 1 2 4 2 in
  elements [[a; b; c]] X = Ok (mkM 2 [[a; c]]) /\ np_unary super f Float32 [[a; b; c]] X true = Ok ([[f a; f b; c]], X) /\ elements [[f a; f b; c]] X = Ok (mkM 2 [[f a; c]]).
Proof. exact @unary_strided. Qed.
Print Assumptions C67_unary_strided_refuted.
Theorem C67_unary_reversed_refuted : forall T (NT : Num T) super (f : T -> T) (a b : T), let X := mkView 0 1 1 2 2 (-1) in
  elements [[a; b]] X = Ok (mkM 2 [[b; a]]) /\ np_unary super f Float32 [[a; b]] X true = Err MemFault.
Proof. exact @unary_reversed. Qed.
Print Assumptions C67_unary_reversed_refuted.

(** The backward passes of relu and mish combine every element of the gradient with that of the array when both orders agree. *)
Theorem C67_binary_copy : forall T (NT : Num T) super (f : T -> T -> T) td tx (doubles : bool) h dY X D M, elements h dY = Ok D -> elements h X = Ok M -> same_shape dY X -> (td = Float32 /\ tx = Float32 \/ doubles = true /\ td = Float64 /\ tx = Float64) ->
  (contiguous X = true /\ Z.abs (v_s1 dY) <= Z.abs (v_s0 dY) \/ contiguous (flip X) = true /\ Z.abs (v_s0 dY) < Z.abs (v_s1 dY)) ->
  exists h' dX, np_binary super doubles f td tx h dY X false = Ok (h', dX) /\ elements h' dX = mbin f D M /\ v_buf dX = length h /\ forall b p, (b < length h)%nat -> load h' b p = load h b p.
Proof. exact @binary_copy. Qed.
Print Assumptions C67_binary_copy.
Theorem C67_binary_inplace : forall T (NT : Num T) super (f : T -> T -> T) td tx (doubles : bool) h dY X D M, elements h dY = Ok D -> elements h X = Ok M -> same_shape dY X -> (td = Float32 /\ tx = Float32 \/ doubles = true /\ td = Float64 /\ tx = Float64) -> v_buf dY <> v_buf X ->
  (contiguous dY = true /\ contiguous X = true \/ contiguous (flip dY) = true /\ contiguous (flip X) = true) ->
  exists h', np_binary super doubles f td tx h dY X true = Ok (h', dY) /\ elements h' dY = mbin f D M /\ untouched dY h h'.
Proof. exact @binary_inplace. Qed.
Print Assumptions C67_binary_inplace.
Theorem C67_binary_shape : forall T (NT : Num T) super (f : T -> T -> T) td tx doubles h dY X inplace, ~ same_shape dY X -> np_binary super doubles f td tx h dY X inplace = Err ValueError.
Proof. exact @binary_shape. Qed.
Print Assumptions C67_binary_shape.
(** Finding: when the gradient is in columns (a transposed array) and the array in rows, elements are combined with the wrong
    partners; an array with gaps is read where it has none. *)
Theorem C67_binary_order_refuted : forall T (NT : Num T) super (f : T -> T -> T) (d00 d01 d10 d11 x00 x01 x10 x11 : T),
  let h := [[d00; d10; d01; d11]; [x00; x01; x10; x11]] in let dY := mkView 0 0 2 2 1 2 in let X := mkView 1 0 2 2 2 1 in
  elements h dY = Ok (mkM 2 [[d00; d01]; [d10; d11]]) /\ elements h X = Ok (mkM 2 [[x00; x01]; [x10; x11]]) /\
  exists h' dX, np_binary super false f Float32 Float32 h dY X false = Ok (h', dX) /\ elements h' dX = Ok (mkM 2 [[f d00 x00; f d01 x10]; [f d10 x01; f d11 x11]]).
Proof. exact @binary_order. Qed.
Print Assumptions C67_binary_order_refuted.
Theorem C67_binary_gaps_refuted : forall T (NT : Num T) super (f : T -> T -> T) (d0 d1 x0 other x1 : T),
  let h := [[d0; d1]; [x0; other; x1]] in let dY := mkView 0 0 1 2 2 1 in let X := mkView 1 0 1 2 4 2 in
  elements h X = Ok (mkM 2 [[x0; x1]]) /\ exists h' dX, np_binary super false f Float32 Float32 h dY X false = Ok (h', dX) /\ elements h' dX = Ok (mkM 2 [[f d0 x0; f d1 other]]).
Proof. exact @binary_gaps. Qed.
Print Assumptions C67_binary_gaps_refuted.
(** Finding: mish of other types than float32 and float64 ignores the threshold. *)
Theorem C67_mish_threshold_refuted : forall T (NT : Num T) super (cpu_mish : T -> T -> T) threshold h X inplace, np_mish super cpu_mish OtherType threshold h X inplace = super (nZ 20) h X inplace.
Proof. exact @mish_other. Qed.
Print Assumptions C67_mish_threshold_refuted.

(** Methods that take memoryviews (maxout, reductions, gather_add) read the elements of arrays in rows without gaps, and raise for others. *)
Theorem C67_memoryview : forall T (NT : Num T) (h : heap T) v, (forall M, contiguous v = true -> elements h v = Ok M -> memoryview h v = Ok M) /\ (contiguous v = false -> memoryview h v = Err ValueError).
Proof. exact @memoryview_ok. Qed.
Print Assumptions C67_memoryview.

(** gemm multiplies any views. *)
Theorem C67_gemm : forall T (NT : Num T) junk (h : heap T) x y X Y R t1 t2, elements h x = Ok X -> elements h y = Ok Y -> gemm X Y t1 t2 = Ok R ->
  exists h' z, np_gemm junk true h x y None t1 t2 = Ok (h', z) /\ elements h' z = Ok R /\ (length h <= v_buf z)%nat /\ forall b p, (b < length h)%nat -> load h' b p = load h b p.
Proof. exact @gemm_new. Qed.
Print Assumptions C67_gemm.
Theorem C67_gemm_out : forall T (NT : Num T) junk (h : heap T) x y o X Y R O t1 t2, elements h x = Ok X -> elements h y = Ok Y -> gemm X Y t1 t2 = Ok R -> elements h o = Ok O -> v_rows o = length (m_rows R) -> v_cols o = m_cols R ->
  v_buf o <> v_buf x -> v_buf o <> v_buf y -> contiguous o = true ->
  exists h', np_gemm junk true h x y (Some o) t1 t2 = Ok (h', o) /\ elements h' o = Ok R /\ forall b p, (b < length h)%nat -> (b <> v_buf o \/ p < v_off o \/ v_off o + Z.of_nat (size o) <= p) -> load h' b p = load h b p.
Proof. exact @gemm_out. Qed.
Print Assumptions C67_gemm_out.
(** Finding: an [out] with gaps, or in columns, is not filled: the product is in a copy. *)
Theorem C67_gemm_out_refuted : forall T (NT : Num T) junk (h : heap T) x y o X Y R O t1 t2, elements h x = Ok X -> elements h y = Ok Y -> gemm X Y t1 t2 = Ok R -> elements h o = Ok O -> v_rows o = length (m_rows R) -> v_cols o = m_cols R -> contiguous o = false ->
  exists h' z, np_gemm junk true h x y (Some o) t1 t2 = Ok (h', z) /\ elements h' z = Ok R /\ elements h' o = Ok O.
Proof. exact @gemm_out_strided. Qed.
Print Assumptions C67_gemm_out_refuted.
(** Finding: the shape of [out] is not checked; a smaller one is overrun. *)
Theorem C67_gemm_small_refuted : forall T (NT : Num T) junk (a b o : T), np_gemm junk true [[a]; [b; b]; [o]] (mkView 0 0 1 1 1 1) (mkView 1 0 1 2 2 1) (Some (mkView 2 0 1 1 1 1)) false false = Err MemFault.
Proof. exact @gemm_small. Qed.
Print Assumptions C67_gemm_small_refuted.
Theorem C67_gemm_errors : forall T (NT : Num T) junk (h : heap T) x y out X Y (t1 t2 : bool), elements h x = Ok X -> elements h y = Ok Y -> (if t1 then v_rows x else v_cols x) <> (if t2 then v_cols y else v_rows y) -> forall supported, np_gemm junk supported h x y out t1 t2 = Err ValueError.
Proof. exact @gemm_errors. Qed.
Print Assumptions C67_gemm_errors.

(** adam on arrays without gaps, in different buffers, computes the [numpy_adam] of OptModel. *)
Theorem C67_adam : forall T (NT : Num T) (h : heap T) w g m1 m2 n lw lg l1 l2 b1 b2 eps lr w' g' m1' m2', NoDup [v_buf w; v_buf g; v_buf m1; v_buf m2] -> plain1 w n -> plain1 g n -> plain1 m1 n -> plain1 m2 n ->
  elements h w = Ok (mkM n [lw]) -> elements h g = Ok (mkM n [lg]) -> elements h m1 = Ok (mkM n [l1]) -> elements h m2 = Ok (mkM n [l2]) -> numpy_adam lw lg l1 l2 b1 b2 eps lr = (w', g', m1', m2') ->
  exists h', np_adam h w g m1 m2 b1 b2 eps lr = Ok h' /\ elements h' w = Ok (mkM n [w']) /\ elements h' g = Ok (mkM n [g']) /\ elements h' m1 = Ok (mkM n [m1']) /\ elements h' m2 = Ok (mkM n [m2']).
Proof. exact @adam_ok. Qed.
Print Assumptions C67_adam.
(** Finding: for a 1d array with gaps (they are accepted) adam reads and updates the elements between: here the update of the arrays
    [w0; w2], [g0; g2] … is that of [w0; w1], [g0; g1] …, and w2 stays. *)
Theorem C67_adam_strided_refuted : forall T (NT : Num T) (w0 w1 w2 g0 g1 g2 m0 m1 m2 v0 v1 v2 b1 b2 eps lr : T), let at_ b := mkView b 0 1 2 4 2 in
  let '(w, g, m, v) := numpy_adam [w0; w1] [g0; g1] [m0; m1] [v0; v1] b1 b2 eps lr in
  np_adam [[w0; w1; w2]; [g0; g1; g2]; [m0; m1; m2]; [v0; v1; v2]] (at_ 0%nat) (at_ 1%nat) (at_ 2%nat) (at_ 3%nat) b1 b2 eps lr = Ok [w ++ [w2]; g ++ [g2]; m ++ [m2]; v ++ [v2]] /\
  elements [[w0; w1; w2]; [g0; g1; g2]; [m0; m1; m2]; [v0; v1; v2]] (at_ 0%nat) = Ok (mkM 2 [[w0; w2]]).
Proof. exact @adam_strided. Qed.
Print Assumptions C67_adam_strided_refuted.

(** ** Examples *)
(** A slice of every second column of two rows: relu of a copy, and the product with itself transposed *)
Definition ex_h : heap Q := [[-1; 9; 2; 9; 3; 9; -4; 9]%Q].
Definition ex_v : view := mkView 0 0 2 2 4 2.
Example C67_unary_ex : elements ex_h ex_v = Ok (mkM 2 [[-1; 2]; [3; -4]]%Q) /\ ~ dense ex_v /\
  (let* (h, y) := np_unary (fun _ _ _ => Err ValueError) (fun x => if Qle_bool x 0 then 0 else x)%Q Float32 ex_h ex_v false in elements h y) = Ok (mkM 2 [[0; 2]; [3; 0]]%Q).
Proof. split; [reflexivity|]. split; [intros [C|C]; discriminate C | reflexivity]. Qed.
Example C67_gemm_ex : (let* (h, y) := np_gemm 7%Q true ex_h ex_v ex_v None false true in elements h y) = Ok (mkM 2 [[5; -11]; [-11; 25]]%Q).
Proof. vm_compute. reflexivity. Qed.
Example C67_binary_ex : dense (mkView 0 2 2 2 1 2) /\ contiguous (flip (mkView 0 2 2 2 1 2)) = true /\ contiguous (mkView 0 2 2 2 2 1) = true /\ Z.abs (v_s1 ex_v) <= Z.abs (v_s0 ex_v).
Proof. split; [now right|]. split; [reflexivity|]. split; [reflexivity | cbn; lia]. Qed.
Example C67_adam_ex : plain1 (mkView 2 5 1 3 7 1) 3 /\ NoDup [0; 1; 2; 3]%nat.
Proof. split; [repeat split | repeat constructor; cbn; intuition discriminate]. Qed.
