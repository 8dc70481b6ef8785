(** Minibatching: /repo/thinc/backends/ops.py 84-192, /repo/thinc/types.py 1093-1106. *)
From Coq Require Import QArith.
From Verif Require Export Base.

(** A batch-size source. Python accepts an int (repeated forever) or any iterator of
    numbers; schedules produce floats, so sizes are rationals. [None] = iterator exhausted. *)
Definition size_source := nat -> option Q.

(** ops.py 108-110: [itertools.repeat(size) if isinstance(size, int) else size]. *)
Definition repeat_size (n : Z) : size_source := fun _ => Some (inject_Z n).

(** A source that yields the integers [s 0, s 1, ...]; [repeat_size n = int_sizes (fun _ => n)]. *)
Definition int_sizes (s : nat -> Z) : size_source := fun k => Some (inject_Z (s k)).

(** Python [int(x)] on a number: truncation toward zero. *)
Definition py_int (q : Q) : Z := Z.quot (Qnum q) (Zpos (Qden q)).

(** ops.py 186-192 Ops._get_batch_sizes. [fuel] bounds the number of loop tests. *)
Fixpoint get_batch_sizes (fuel : nat) (len : Z) (sizes : size_source) (k : nat) (i : Q)
         (output : list Q) : result (list Q) :=
  match fuel with
  | O => Err OutOfFuel
  | S fuel' =>
      if negb (Qle_bool (inject_Z len) i)                     (* while i < length *)
      then match sizes k with
           | None => Err StopIteration                        (* next(sizes) *)
           | Some s => get_batch_sizes fuel' len sizes (S k) (i + s)%Q (output ++ [s])
           end
      else Ok output
  end.

(** ops.py 175-184 Ops._get_batch: the items at the given positions (IndexError when a
    position is out of range). Arrays, lists and tuples all behave this way; contiguity is not modelled. *)
Definition get_batch {A} (sequence : list A) (indices : list nat) : result (list A) :=
  mapM (py_get sequence) indices.

(** ops.py 118-130: the generator body [_iter_items], for a batch-building function [mk]
    (line 123 for minibatch, 159-162 for multibatch). [indices] is the index array after the
    optional shuffle. [yielded] accumulates what the generator has yielded so far. *)
Fixpoint iter_items {B} (mk : list nat -> result B) (indices : list nat) (buffer : Z)
         (sizes : list Q) (i : Z) (queue yielded : list B) : result (list B) :=
  match sizes with
  | [] => Ok (yielded ++ queue)                               (* yield from queue *)
  | s :: sizes' =>
      let size := py_int s in
      let* b := mk (py_slice indices i (i + size)) in
      let queue' := queue ++ [b] in
      if (buffer <=? Z.of_nat (length queue'))%Z
      then iter_items mk indices buffer sizes' (i + size) [] (yielded ++ queue')
      else iter_items mk indices buffer sizes' (i + size) queue' yielded
  end.

(** types.py 1093-1106 SizedGenerator: advertised length and the items one iteration yields. *)
Record sized_generator (B : Type) := SizedGen { sg_len : nat; sg_items : result (list B) }.
Arguments SizedGen {B} _ _.
Arguments sg_len {B} _.
Arguments sg_items {B} _.

(** ops.py 84-131 Ops.minibatch. [indices] stands for [numpy.arange(len(sequence))] after the
    shuffle: the identity when [shuffle=False], an arbitrary permutation otherwise (oracle). *)
Definition minibatch {A} (fuel : nat) (size : size_source) (sequence : list A)
           (indices : list nat) (buffer : Z) : result (sized_generator (list A)) :=
  let* sizes := get_batch_sizes fuel (Z.of_nat (length sequence)) size 0 0%Q [] in
  Ok (SizedGen (length sizes) (iter_items (get_batch sequence) indices buffer sizes 0 [] [])).

(** ops.py 133-173 Ops.multibatch: sizes come from the first sequence only; no check that
    the other sequences have the same length. *)
Definition multibatch {A} (fuel : nat) (size : size_source) (sequence : list A)
           (others : list (list A)) (indices : list nat) (buffer : Z)
  : result (sized_generator (list (list A))) :=
  let* sizes := get_batch_sizes fuel (Z.of_nat (length sequence)) size 0 0%Q [] in
  Ok (SizedGen (length sizes)
        (iter_items (fun idx => mapM (fun s => get_batch s idx) (sequence :: others))
                    indices buffer sizes 0 [] [])).
