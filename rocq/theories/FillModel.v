(** Initial values of parameters: initializers.py. No proofs here.
    The random number generator is outside: a state [G] and its two kinds of draws, from the standard normal distribution and from the unit
    interval. numpy.random.normal and uniform scale and shift them. An array is its shape and its values in row-major order; the conversion
    to float32 is left out. *)
From Verif Require Export NumModel.

Definition size (shape : list nat) : nat := fold_right Nat.mul 1 shape.

Section Fill.
  Context {T G : Type} `{Num T}.
  Variables gauss unit_draw : G -> G * T.
  Local Open Scope num_scope.

  (** n draws in a row *)
  Fixpoint draws (step : G -> G * T) (n : nat) (g : G) : G * list T :=
    match n with
    | O => (g, [])
    | S n => let (g, z) := step g in let (g, l) := draws step n g in (g, z :: l)
    end.
  (** numpy.random.normal(loc, scale, shape): refuses a negative scale *)
  Definition normal (loc scale : T) (shape : list nat) (g : G) : G * result (list nat * list T) :=
    if scale <? nZ 0 then (g, Err ValueError)
    else let (g, l) := draws gauss (size shape) g in (g, Ok (shape, map (fun z => loc + scale * z) l)).
  (** numpy.random.uniform(low, high, shape) *)
  Definition uniform (low high : T) (shape : list nat) (g : G) : G * result (list nat * list T) :=
    let (g, l) := draws unit_draw (size shape) g in (g, Ok (shape, map (fun u => low + (high - low) * u) l)).

  (** [numpy.sqrt(c / n)] for a float c and an int n *)
  Definition root (c : Z) (n : nat) : result T := if Nat.eqb n 0 then Err ZeroDivisionError else Ok (nsqrt (nZ c / nnat n)).
  Definition with_scale (s : result T) (f : T -> G -> G * result (list nat * list T)) (g : G) : G * result (list nat * list T) :=
    match s with Ok s => f s g | Err e => (g, Err e) end.
  (** 18-20 *)
  Definition lecun_normal_init (shape : list nat) : G -> G * result (list nat * list T) :=
    with_scale (let* b := py_get shape 1 in root 1 b) (fun scale => normal (nZ 0) scale shape).
  (** 28-30 *)
  Definition he_normal_init (shape : list nat) : G -> G * result (list nat * list T) :=
    with_scale (let* b := py_get shape 1 in root 2 b) (fun scale => normal (nZ 0) scale shape).
  (** 38-40 *)
  Definition glorot_normal_init (shape : list nat) : G -> G * result (list nat * list T) :=
    with_scale (let* b := py_get shape 1 in let* a := py_get shape 0 in root 2 (b + a)) (fun scale => normal (nZ 0) scale shape).
  (** 48-50 *)
  Definition he_uniform_init (shape : list nat) : G -> G * result (list nat * list T) :=
    with_scale (let* b := py_get shape 1 in root 6 b) (fun scale => uniform (- scale) scale shape).
  (** 58-60 *)
  Definition lecun_uniform_init (shape : list nat) : G -> G * result (list nat * list T) :=
    with_scale (let* b := py_get shape 1 in root 3 b) (fun scale => uniform (- scale) scale shape).
  (** 68-70 *)
  Definition glorot_uniform_init (shape : list nat) : G -> G * result (list nat * list T) :=
    with_scale (let* a := py_get shape 0 in let* b := py_get shape 1 in root 6 (a + b)) (fun scale => uniform (- scale) scale shape).
  (** 78-79 *)
  Definition zero_init (shape : list nat) (g : G) : G * result (list nat * list T) := (g, Ok (shape, repeat (nZ 0) (size shape))).
  (** 87-91 *)
  Definition uniform_init (lo hi : T) (shape : list nat) : G -> G * result (list nat * list T) := uniform lo hi shape.
  (** 101-105: mean is passed as the scale *)
  Definition normal_init (mean : T) (shape : list nat) : G -> G * result (list nat * list T) := normal (nZ 0) mean shape.
End Fill.
