(** Making, casting and reshaping arrays, and their bytes: ops.py 75-82, 499-771, 1386-1391; numpy_ops.pyx 55-76;
    cupy_ops.py 32-38, 86-102; util.py 182-188; how [to_bytes] and [from_bytes] treat arrays (model.py 550-562, 628-638).
    No proofs here. Arrays are contiguous. *)
From Coq Require Import String.
From Verif Require Export Base.
Local Open Scope string_scope.

(** The order of the bytes of an item *)
Inductive order := Little | Big.
(** A dtype: its name ("float32") and byte order *)
Record dtype := mkD { d_kind : string; d_order : order }.
Definition order_eqb (a b : order) : bool := match a, b with Little, Little | Big, Big => true | _, _ => false end.
Definition dtype_eqb (a b : dtype) : bool := (if string_dec (d_kind a) (d_kind b) then true else false) && order_eqb (d_order a) (d_order b).

(** An array: which buffer it is stored in, whether that is on a GPU, its dtype, shape and items in row-major order *)
Record arr (T : Type) := mkA { a_buf : nat; a_gpu : bool; a_dtype : dtype; a_shape : list nat; a_data : list T }.
Arguments mkA {T}. Arguments a_buf {T}. Arguments a_gpu {T}. Arguments a_dtype {T}. Arguments a_shape {T}. Arguments a_data {T}.

(** Nested sequences of numbers *)
Inductive nested (T : Type) := Leaf (x : T) | Nest (l : list (nested T)).
Arguments Leaf {T}. Arguments Nest {T}.

(** What [asarray] may be given: a NumPy or CuPy array, a PyTorch tensor (which does not require gradients) as an array
    that shares its memory, or nested sequences *)
Inductive source (T : Type) := SArray (a : arr T) | STensor (a : arr T) | SNested (t : nested T).
Arguments SArray {T}. Arguments STensor {T}. Arguments SNested {T}.

Definition count (sh : list nat) : nat := fold_right Nat.mul 1 sh.

(** A shape as it is passed: an integer, or a tuple of integers *)
Inductive shape_arg := ShInt (d : Z) | ShTup (l : list Z).
Definition as_tuple (s : shape_arg) : list Z := match s with ShInt d => [d] | ShTup l => l end.
(** numpy refuses negative dimensions *)
Fixpoint dims (l : list Z) : result (list nat) :=
  match l with
  | [] => Ok []
  | d :: l => if Z.ltb d 0 then Err ValueError else let* r := dims l in Ok (Z.to_nat d :: r)
  end.

(** numpy's inference of an unknown dimension in [reshape]: at most one dimension may be negative *)
Definition is_known (d : Z) : bool := Z.leb 0 d.
Definition known (l : list Z) : nat := count (map Z.to_nat (filter is_known l)).
Definition fill_in (n : nat) (l : list Z) : list nat := map (fun d => if is_known d then Z.to_nat d else n) l.
Definition complete (size : nat) (l : list Z) : result (list nat) :=
  match length (filter (fun d => negb (is_known d)) l) with
  | 0 => if Nat.eqb (known l) size then Ok (fill_in 0 l) else Err ValueError
  | 1 => if Nat.eqb (known l) 0 then Err ValueError
         else if Nat.eqb (size mod known l) 0 then Ok (fill_in (size / known l) l) else Err ValueError
  | _ => Err ValueError
  end.

Section Make.
  Context {T : Type}.
  Variable zero : T.
  (** What uninitialized memory holds *)
  Variable garbage : nat -> T.
  (** Conversion of a number to a dtype, and the dtype numpy takes for numbers if none is given *)
  Variable cast : string -> T -> T.
  Variable infer : list T -> string.
  (** The machine's byte order *)
  Variable native : order.

  (** The dtype named by a string is of the machine's byte order *)
  Definition named (k : string) : dtype := mkD k native.
  (** [a.astype(dtype, copy=False)], [xp.asarray(a, dtype)]; [fresh] is the buffer of a new array *)
  Definition astype (fresh : nat) (a : arr T) (d : dtype) : arr T :=
    if dtype_eqb (a_dtype a) d then a else mkA fresh (a_gpu a) d (a_shape a) (map (cast (d_kind d)) (a_data a)).
  Definition astype_opt (fresh : nat) (a : arr T) (d : option string) : arr T := match d with Some k => astype fresh a (named k) | None => a end.

  (** ops.py 589-604 and numpy_ops.pyx 72-76 [alloc]; without a dtype numpy takes float64 *)
  Definition alloc (fresh : nat) (gpu : bool) (shape : shape_arg) (dt : option string) (zeros : bool) : result (arr T) :=
    let* sh := dims (as_tuple shape) in
    let d := named (match dt with Some k => k | None => "float64" end) in
    Ok (mkA fresh gpu d sh (if zeros then repeat zero (count sh) else map garbage (seq 0 (count sh)))).
  (** ops.py 499-599: the variants fix the number of axes and the default dtype *)
  Definition alloc1f fresh gpu d0 := alloc fresh gpu (ShTup [d0]) (Some "float32").
  Definition alloc2f fresh gpu d0 d1 := alloc fresh gpu (ShTup [d0; d1]) (Some "float32").
  Definition alloc3f fresh gpu d0 d1 d2 := alloc fresh gpu (ShTup [d0; d1; d2]) (Some "float32").
  Definition alloc4f fresh gpu d0 d1 d2 d3 := alloc fresh gpu (ShTup [d0; d1; d2; d3]) (Some "float32").
  Definition alloc_f fresh gpu shape := alloc fresh gpu shape (Some "float32").
  Definition alloc1i fresh gpu d0 := alloc fresh gpu (ShTup [d0]) (Some "int32").
  Definition alloc2i fresh gpu d0 d1 := alloc fresh gpu (ShTup [d0; d1]) (Some "int32").
  Definition alloc3i fresh gpu d0 d1 d2 := alloc fresh gpu (ShTup [d0; d1; d2]) (Some "int32").
  Definition alloc4i fresh gpu d0 d1 d2 d3 := alloc fresh gpu (ShTup [d0; d1; d2; d3]) (Some "int32").
  Definition alloc_i fresh gpu shape := alloc fresh gpu shape (Some "int32").

  (** ops.py 661-665 [reshape]: a view of the same buffer *)
  Definition reshape (a : arr T) (shape : shape_arg) : result (arr T) :=
    let* sh := complete (length (a_data a)) (as_tuple shape) in
    Ok (mkA (a_buf a) (a_gpu a) (a_dtype a) sh (a_data a)).
  (** ops.py 606-651: the variants for floats, integers and all arrays are the same *)
  Definition reshape1 a d0 := reshape a (ShTup [d0]).
  Definition reshape2 a d0 d1 := reshape a (ShTup [d0; d1]).
  Definition reshape3 a d0 d1 d2 := reshape a (ShTup [d0; d1; d2]).
  Definition reshape4 a d0 d1 d2 d3 := reshape a (ShTup [d0; d1; d2; d3]).

  (** [xp.array(data, dtype)] of nested sequences: their shapes must agree *)
  Fixpoint shape_eqb (a b : list nat) : bool :=
    match a, b with [], [] => true | x :: a, y :: b => Nat.eqb x y && shape_eqb a b | _, _ => false end.
  Fixpoint flat (t : nested T) : result (list nat * list T) :=
    match t with
    | Leaf x => Ok ([], [x])
    | Nest l =>
      let* rs := (fix go (l : list (nested T)) : result (list (list nat * list T)) :=
                    match l with [] => Ok [] | t :: l => let* r := flat t in let* rs := go l in Ok (r :: rs) end) l in
      match rs with
      | [] => Ok ([0], [])
      | (sh, _) :: _ => if forallb (fun r => shape_eqb (fst r) sh) rs then Ok (length rs :: sh, concat (map snd rs)) else Err ValueError
      end
    end.
  Definition new_array (fresh : nat) (gpu : bool) (t : nested T) (dt : option string) : result (arr T) :=
    let* r := flat t in
    let k := match dt with Some k => k | None => infer (snd r) end in
    Ok (mkA fresh gpu (named k) (fst r) (map (cast k) (snd r))).
  (** [data.numpy()]: shares the memory of a tensor on the CPU; tensors on a GPU raise *)
  Definition tensor_numpy (a : arr T) : result (arr T) := if a_gpu a then Err TypeError else Ok a.
  (** [data.get()] *)
  Definition get (fresh : nat) (a : arr T) : arr T := mkA fresh false (a_dtype a) (a_shape a) (a_data a).

  (** ops.py 735-757 [asarray], xp being numpy; numpy does not convert GPU arrays implicitly *)
  Definition ops_asarray (fresh : nat) (data : source T) (dt : option string) : result (arr T) :=
    match data with
    | SArray a => if a_gpu a then Err TypeError else Ok (astype_opt fresh a dt)
    | STensor a => tensor_numpy a
    | SNested t => new_array fresh false t dt
    end.
  (** numpy_ops.pyx 55-69 [asarray] *)
  Definition np_asarray (fresh : nat) (data : source T) (dt : option string) : result (arr T) :=
    let* a := match data with
              | SArray a => if a_gpu a then Ok (get fresh a) else Ok a
              | STensor a => tensor_numpy a
              | SNested t => new_array fresh false t dt
              end in
    Ok (astype_opt fresh a dt).
  (** cupy_ops.py 86-102 [asarray]; TensorFlow and MXNet tensors are like PyTorch's *)
  Definition cupy_asarray (fresh : nat) (data : source T) (dt : option string) : result (arr T) :=
    let to_gpu a := mkA fresh true (a_dtype (astype_opt fresh a dt)) (a_shape a) (a_data (astype_opt fresh a dt)) in
    let* a := match data with
              | SArray a => if a_gpu a then Ok (astype_opt fresh a dt) else Ok (to_gpu a)
              | STensor a => if a_gpu a then Ok a else Ok (to_gpu a)
              | SNested t => new_array fresh true t dt
              end in
    Ok (astype_opt fresh a dt).

  (** [dtype.newbyteorder] *)
  Inductive byte_order := BLittle | BBig | BNative | BSwap.
  Definition swap (o : order) : order := match o with Little => Big | Big => Little end.
  Definition newbyteorder (d : dtype) (b : byte_order) : dtype :=
    mkD (d_kind d) (match b with BLittle => Little | BBig => Big | BNative => native | BSwap => swap (d_order d) end).
  Definition ordered (fresh : nat) (a : arr T) (b : option byte_order) : arr T :=
    match b with Some b => astype fresh a (newbyteorder (a_dtype a) b) | None => a end.
  (** ops.py 75-82 and cupy_ops.py 32-38 [to_numpy] *)
  Definition ops_to_numpy (fresh : nat) (data : source T) (b : option byte_order) : result (arr T) :=
    match data with
    | SArray a => if a_gpu a then Err ValueError else Ok (ordered fresh a b)
    | _ => Err ValueError
    end.
  Definition cupy_to_numpy (fresh : nat) (a : arr T) (b : option byte_order) : arr T :=
    ordered fresh (if a_gpu a then get fresh a else a) b.
  (** util.py 182-188 [to_numpy], of arrays and nested sequences *)
  Definition util_to_numpy (fresh : nat) (data : source T) : result (arr T) :=
    match data with
    | SArray a => if a_gpu a then Ok (get fresh a) else Ok a
    | STensor a => let* a := tensor_numpy a in Ok (mkA fresh false (a_dtype a) (a_shape a) (a_data a))
    | SNested t => new_array fresh false t None
    end.

  (** ops.py 1386-1391 [insert_into], of arrays with [w] columns into the zeros of shape (n, m, w): [output[i, :len(x)] = x].
      An array with more rows than fit does not broadcast, unless it is a single row and there are no rows at all. *)
  Definition insert_row (w m : nat) (x : list (list T)) : result (list (list T)) :=
    if Nat.leb (length x) m then Ok (x ++ repeat (repeat zero w) (m - length x))%list
    else if Nat.eqb (length x) 1 then Ok [] else Err ValueError.
  Fixpoint insert_rows (w m n : nat) (Xs : list (list (list T))) : result (list (list (list T))) :=
    match Xs, n with
    | [], _ => Ok (repeat (repeat (repeat zero w) m) n)
    | _ :: _, 0 => Err IndexError
    | x :: Xs, S n => let* r := insert_row w m x in let* rs := insert_rows w m n Xs in Ok (r :: rs)
    end.
  Definition insert_into (n m w : nat) (Xs : list (list (list T))) : result (list (list (list T))) :=
    match Xs with [] => Err IndexError | _ => insert_rows w m n Xs end.

  (** What msgpack stores of an array: its dtype, shape and bytes; [enc] gives the bytes of a number, the least
      significant first, and [dec] reads them. *)
  Context {B : Type}.
  Variable enc : string -> T -> list B.
  Variable dec : string -> list B -> T.
  Variable size : string -> nat.
  Definition item_bytes (d : dtype) (x : T) : list B := match d_order d with Little => enc (d_kind d) x | Big => rev (enc (d_kind d) x) end.
  Definition tobytes (a : arr T) : list B := flat_map (item_bytes (a_dtype a)) (a_data a).
  Record stored := mkStored { st_dtype : dtype; st_shape : list nat; st_bytes : list B }.
  Definition store (a : arr T) : stored := mkStored (a_dtype a) (a_shape a) (tobytes a).
  Fixpoint chunks (n w : nat) (l : list B) : list (list B) := match n with 0 => [] | S n => firstn w l :: chunks n w (skipn w l) end.
  Definition item_of (d : dtype) (l : list B) : T := match d_order d with Little => dec (d_kind d) l | Big => dec (d_kind d) (rev l) end.
  (** [numpy.ndarray(buffer=bytes, dtype, shape)] *)
  Definition load (fresh : nat) (s : stored) : result (arr T) :=
    if Nat.eqb (length (st_bytes s)) (count (st_shape s) * size (d_kind (st_dtype s))) then
      Ok (mkA fresh false (st_dtype s) (st_shape s) (map (item_of (st_dtype s)) (chunks (count (st_shape s)) (size (d_kind (st_dtype s))) (st_bytes s))))
    else Err ValueError.
  (** model.py 550-561 [to_bytes]: each array of the message as it is sent, with NumpyOps and CupyOps *)
  Definition np_send (fresh : nat) (a : arr T) : result stored := let* x := ops_to_numpy fresh (SArray a) (Some BLittle) in Ok (store x).
  Definition cupy_send (fresh : nat) (a : arr T) : stored := store (cupy_to_numpy fresh a (Some BLittle)).
  (** model.py 628-638 [from_bytes]: each array as it is received *)
  Definition np_receive (fresh : nat) (s : stored) : result (arr T) := let* a := load fresh s in np_asarray fresh (SArray a) None.
  Definition cupy_receive (fresh : nat) (s : stored) : result (arr T) := let* a := load fresh s in cupy_asarray fresh (SArray a) None.
End Make.
