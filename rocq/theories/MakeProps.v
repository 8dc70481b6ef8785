(** Property C74: making, casting, reshaping and sending arrays. *)
From Coq Require Import String.
From Verif Require Import Base MakeModel MakeSpec MakeProofs.
Local Open Scope string_scope.

(** alloc gives the shape asked for (an integer is a single axis), as many items, the dtype, and zeros if asked for. *)
Theorem C74_alloc : forall {T} (zero : T) garbage native fresh gpu s dt zeros a, alloc zero garbage native fresh gpu s dt zeros = Ok a ->
  map Z.of_nat (a_shape a) = as_tuple s /\ whole a /\ a_buf a = fresh /\ a_gpu a = gpu /\
  a_dtype a = mkD (match dt with Some k => k | None => "float64" end) native /\ (zeros = true -> Forall (eq zero) (a_data a)).
Proof. exact @alloc_exact. Qed.
Print Assumptions C74_alloc.
(** It fails exactly for negative dimensions. *)
Theorem C74_alloc_error : forall {T} (zero : T) garbage native fresh gpu s dt zeros e, alloc zero garbage native fresh gpu s dt zeros = Err e <->
  e = ValueError /\ Exists (fun d => (d < 0)%Z) (as_tuple s).
Proof. exact @alloc_error. Qed.
Print Assumptions C74_alloc_error.

(** reshape keeps the items in order, and gives the only shape that has the dimensions asked for and room for exactly the
    items; it fails if there is none or more than one. *)
Theorem C74_reshape : forall {T} (a b : arr T) s, reshape a s = Ok b <->
  a_buf b = a_buf a /\ a_gpu b = a_gpu a /\ a_dtype b = a_dtype a /\ a_data b = a_data a /\
  at_most_one_negative (as_tuple s) /\ fits (as_tuple s) (a_shape b) /\ whole b /\
  (forall sh, fits (as_tuple s) sh -> count sh = length (a_data a) -> sh = a_shape b).
Proof. exact @reshape_exact. Qed.
Print Assumptions C74_reshape.
Theorem C74_reshape_error : forall {T} (a : arr T) s e, reshape a s = Err e -> e = ValueError.
Proof. exact @reshape_error. Qed.
Print Assumptions C74_reshape_error.
Theorem C74_reshape_back : forall {T} (a b : arr T) s, whole a -> reshape a s = Ok b -> reshape b (ShTup (map Z.of_nat (a_shape a))) = Ok a.
Proof. exact @reshape_back. Qed.
Print Assumptions C74_reshape_back.

(** asarray of NumpyOps and CupyOps gives arrays of the dtype asked for, on their device. *)
Theorem C74_np_dtype : forall {T} (cast : string -> T -> T) infer native fresh data dt a, np_asarray cast infer native fresh data dt = Ok a ->
  a_gpu a = false /\ forall k, dt = Some k -> a_dtype a = mkD k native.
Proof. exact @np_dtype. Qed.
Print Assumptions C74_np_dtype.
Theorem C74_cupy_dtype : forall {T} (cast : string -> T -> T) infer native fresh data dt a, cupy_asarray cast infer native fresh data dt = Ok a ->
  a_gpu a = true /\ forall k, dt = Some k -> a_dtype a = mkD k native.
Proof. exact @cupy_dtype. Qed.
Print Assumptions C74_cupy_dtype.
(** Arrays and tensors that already are on the device and of the dtype are returned themselves. *)
Theorem C74_as_is : forall {T} (cast : string -> T -> T) infer native fresh a dt, (forall k, dt = Some k -> a_dtype a = mkD k native) ->
  (a_gpu a = false -> ops_asarray cast infer native fresh (SArray a) dt = Ok a /\ np_asarray cast infer native fresh (SArray a) dt = Ok a /\
                      np_asarray cast infer native fresh (STensor a) dt = Ok a) /\
  (a_gpu a = true -> cupy_asarray cast infer native fresh (SArray a) dt = Ok a /\ cupy_asarray cast infer native fresh (STensor a) dt = Ok a).
Proof. exact @as_is. Qed.
Print Assumptions C74_as_is.
(** Other arrays are cast item by item, in both backends alike. *)
Theorem C74_cast : forall {T} (cast : string -> T -> T) infer native fresh a dt, idempotent cast -> typed cast a -> exists b c,
  np_asarray cast infer native fresh (SArray a) dt = Ok b /\ cupy_asarray cast infer native fresh (SArray a) dt = Ok c /\
  a_shape b = a_shape a /\ a_shape c = a_shape a /\
  a_data b = match dt with Some k => map (cast k) (a_data a) | None => a_data a end /\ a_data c = a_data b.
Proof. exact @array_total. Qed.
Print Assumptions C74_cast.
(** Nested sequences of a regular shape give an array with each number at its index. *)
Theorem C74_nested : forall {T} (cast : string -> T -> T) infer native sh t, regular sh t -> idempotent cast -> forall fresh dt, exists a, a_shape a = sh /\
  ops_asarray cast infer native fresh (SNested t) dt = Ok a /\ np_asarray cast infer native fresh (SNested t) dt = Ok a /\
  (exists b, cupy_asarray cast infer native fresh (SNested t) dt = Ok b /\ a_shape b = sh /\ a_data b = a_data a) /\
  exists k, a_dtype a = mkD k native /\ (forall k', dt = Some k' -> k = k') /\
  forall idx, in_range sh idx -> exists x, lookup t idx = Some x /\ nth_error (a_data a) (ravel sh idx) = Some (cast k x).
Proof. exact @nested_value. Qed.
Print Assumptions C74_nested.
(** Others are refused. *)
Theorem C74_ragged : forall {T} (cast : string -> T -> T) infer native fresh t dt, (forall sh, ~ regular sh t) ->
  ops_asarray cast infer native fresh (SNested t) dt = Err ValueError /\ np_asarray cast infer native fresh (SNested t) dt = Err ValueError /\
  cupy_asarray cast infer native fresh (SNested t) dt = Err ValueError.
Proof. exact @nested_total. Qed.
Print Assumptions C74_ragged.

(** to_numpy changes the byte order only. *)
Theorem C74_byte_order : forall {T} (cast : string -> T -> T) native fresh (a : arr T) b, typed cast a -> same_numbers (ordered cast native fresh a b) a.
Proof. exact @order_kept. Qed.
Print Assumptions C74_byte_order.
(** Equal arrays are sent as the same bytes from the CPU and the GPU of any two machines. *)
Theorem C74_portable : forall {T B} (cast : string -> T -> T) (enc : string -> T -> list B) n1 n2 f1 f2 (a b : arr T), typed cast a -> typed cast b -> same_numbers a b ->
  a_gpu a = false -> np_send cast n1 enc f1 a = Ok (cupy_send cast n2 enc f2 b).
Proof. exact @portable. Qed.
Print Assumptions C74_portable.
(** They are received as the same numbers on the CPU and the GPU of any machine. *)
Theorem C74_received : forall {T B} (cast : string -> T -> T) infer (enc : string -> T -> list B) dec size n1 n2 f1 f2 (a : arr T) s, codec cast enc dec size -> typed cast a -> whole a ->
  s = cupy_send cast n1 enc f1 a -> exists b c, np_receive cast infer n2 dec size f2 s = Ok b /\ cupy_receive cast infer n2 dec size f2 s = Ok c /\
    same_numbers b a /\ same_numbers c a /\ a_gpu b = false /\ a_gpu c = true /\ d_order (a_dtype b) = Little.
Proof. exact @sent_back. Qed.
Print Assumptions C74_received.

(** insert_into puts every array into its row and leaves zeros elsewhere. *)
Theorem C74_insert : forall {T} (zero : T) n m w Xs, Xs <> [] -> length Xs <= n -> Forall (fun x => length x <= m) Xs -> exists out, insert_into zero n m w Xs = Ok out /\ length out = n /\
  forall i j, i < n -> j < m -> exists r, nth_error out i = Some r /\ length r = m /\
    nth_error r j = Some (if Nat.ltb j (length (nth i Xs [])) then nth j (nth i Xs []) [] else repeat zero w).
Proof. exact @insert_ok. Qed.
Print Assumptions C74_insert.
Theorem C74_insert_many : forall {T} (zero : T) n m w Xs, n < length Xs -> Forall (fun x => length x <= m) Xs -> insert_into zero n m w Xs = Err IndexError.
Proof. exact @insert_many. Qed.
Print Assumptions C74_insert_many.

(** Refuted: asarray of Ops gives the dtype asked for. It ignores it for tensors. *)
Theorem C74_base_dtype_refuted : exists (a b : arr nat) k, ops_asarray no_cast (fun _ => "int64") Little 0 (STensor a) (Some k) = Ok b /\ a_dtype b <> mkD k Little.
Proof. exact base_dtype_refuted. Qed.
Print Assumptions C74_base_dtype_refuted.
(** Refuted: an array sent and received has the same dtype. On big-endian machines it stays little-endian. *)
Theorem C74_order_refuted : exists (a b : arr nat) s, a_dtype a = mkD "int16" Big /\ np_send no_cast Big enc16 0 a = Ok s /\
  np_receive no_cast (fun _ => "int64") Big dec16 (fun _ => 2) 0 s = Ok b /\ a_dtype b <> a_dtype a.
Proof. exact byte_order_refuted. Qed.
Print Assumptions C74_order_refuted.

(** ** The hypotheses can be met *)
Example C74_alloc_ex : alloc 0 (fun i => i) Little 7 false (ShInt 3) None true = Ok (mkA 7 false (mkD "float64" Little) [3] [0; 0; 0]) /\
  alloc2f 0 (fun i => i) Little 7 true 2 1 false = Ok (mkA 7 true (mkD "float32" Little) [2; 1] [0; 1]).
Proof. split; reflexivity. Qed.
Example C74_reshape_ex : reshape2 (mkA 7 false (mkD "int32" Little) [6] [1; 2; 3; 4; 5; 6]) 2 (-1) = Ok (mkA 7 false (mkD "int32" Little) [2; 3] [1; 2; 3; 4; 5; 6]) /\
  reshape2 (mkA 7 false (mkD "int32" Little) [0] ([] : list nat)) (-1) 0 = Err ValueError /\ reshape2 (mkA 7 false (mkD "int32" Little) [3] [1; 2; 3]) 2 (-1) = Err ValueError.
Proof. repeat split. Qed.
Example C74_nested_ex : regular [2; 2] (Nest [Nest [Leaf 1; Leaf 2]; Nest [Leaf 3; Leaf 4]]) /\ in_range [2; 2] [1; 0] /\ ravel [2; 2] [1; 0] = 2 /\ idempotent no_cast.
Proof. split; [now apply (flat_exact _ [2; 2] [1; 2; 3; 4])|]. split; [repeat constructor|]. split; [reflexivity|]. now intros k x. Qed.
Example C74_ragged_ex : forall sh, ~ regular sh (Nest [Nest [Leaf 1; Leaf 2]; Nest [Leaf 3]]).
Proof. intros sh H. pose proof (proj2 (flat_exact _ sh _) (conj H eq_refl)) as E. discriminate E. Qed.
Example C74_codec_ex : codec no_cast enc16 dec16 (fun _ => 2) /\ typed no_cast (mkA 0 true (mkD "int16" Big) [2] [258; 3]) /\ whole (mkA 0 true (mkD "int16" Big) [2] [258; 3]) /\
  cupy_send no_cast Big enc16 0 (mkA 0 true (mkD "int16" Big) [2] [258; 3]) = mkStored (mkD "int16" Little) [2] [2; 1; 3; 0].
Proof. split; [exact codec16|]. split; [repeat constructor|]. split; reflexivity. Qed.
Example C74_insert_ex : insert_into 0 3 2 1 [[[1]; [2]]; [[3]]] = Ok [[[1]; [2]]; [[3]; [0]]; [[0]; [0]]] /\ insert_into 0 1 2 1 [[[1]]; [[3]]] = Err IndexError.
Proof. split; reflexivity. Qed.

(** Arrays and tensors on the GPU: Ops raises for both, NumpyOps for tensors. *)
Theorem C74_gpu_refused : forall {T : Type} (cast : string -> T -> T) (infer : list T -> string) (native : order) fresh (a : arr T) dt b,
  a_gpu a = true ->
  ops_asarray cast infer native fresh (SArray a) dt = Err TypeError /\ ops_asarray cast infer native fresh (STensor a) dt = Err TypeError /\
  np_asarray cast infer native fresh (STensor a) dt = Err TypeError /\ ops_to_numpy cast native fresh (SArray a) b = Err ValueError /\
  util_to_numpy cast infer native fresh (STensor a) = Err TypeError.
Proof. exact @gpu_refused. Qed.
Print Assumptions C74_gpu_refused.

(** Ops.to_numpy takes arrays only. *)
Theorem C74_to_numpy_refused : forall {T : Type} (cast : string -> T -> T) (native : order) fresh (d : source T) b,
  (forall a, d <> SArray a) -> ops_to_numpy cast native fresh d b = Err ValueError.
Proof. exact @to_numpy_arrays. Qed.
Print Assumptions C74_to_numpy_refused.

(** util.to_numpy gives arrays on the CPU with the same contents, a new one except for arrays that are there already. *)
Theorem C74_util_to_numpy : forall {T : Type} (cast : string -> T -> T) (infer : list T -> string) (native : order) fresh (d : source T) a,
  util_to_numpy cast infer native fresh d = Ok a -> a_gpu a = false /\
  forall x, d = SArray x \/ d = STensor x -> a_dtype a = a_dtype x /\ a_shape a = a_shape x /\ a_data a = a_data x /\
    (a_buf a = fresh \/ (a = x /\ d = SArray x /\ a_gpu x = false)).
Proof. exact @util_to_numpy_ok. Qed.
Print Assumptions C74_util_to_numpy.
Example C74_util_ex : util_to_numpy no_cast (fun _ => "int64") Little 7 (SArray (mkA 3 true (mkD "f" Little) [1] [5])) = Ok (mkA 7 false (mkD "f" Little) [1] [5]).
Proof. reflexivity. Qed.

(** insert_into raises for no arrays at all, for too many, and for arrays with too many rows. *)
Theorem C74_insert_errors : forall {T : Type} (zero : T) n m w (Xs : list (list (list T))),
  insert_into zero n m w [] = Err IndexError /\
  forall e, insert_into zero n m w Xs = Err e -> e = IndexError \/ (e = ValueError /\ Exists (fun x => m < length x /\ length x <> 1) Xs).
Proof. exact @insert_long. Qed.
Print Assumptions C74_insert_errors.
Example C74_insert_errors_ex : insert_into 0 1 1 1 [[[1]; [2]]] = Err ValueError.
Proof. reflexivity. Qed.

(** Messages with too few or too many bytes for their shape are refused. *)
Theorem C74_load_refused : forall {T : Type} (cast : string -> T -> T) (infer : list T -> string) (native : order) {B : Type} (dec : string -> list B -> T) (size : string -> nat) fresh s,
  length (st_bytes s) <> count (st_shape s) * size (d_kind (st_dtype s)) ->
  np_receive cast infer native dec size fresh s = Err ValueError /\ cupy_receive cast infer native dec size fresh s = Err ValueError.
Proof. exact @load_refused. Qed.
Print Assumptions C74_load_refused.
