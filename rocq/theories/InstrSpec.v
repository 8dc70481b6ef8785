(** Vocabulary of the theorems about instrumented layers. *)
From Coq Require Import String.
From Verif Require Export InstrModel.

Section InstrSpec.
  Context {V P : Type}.
  Notation bcode := (bcode (V := V)).
  Notation onode := (onode (P := P)).
  Notation world := (world (V := V) (P := P)).

  (** Worlds that differ in instrumentation: layers were wrapped, in place, any number of times and in any order. *)
  Inductive wrapped (has_os_signpost : bool) : world -> world -> Prop :=
  | wrapped_none w : wrapped has_os_signpost w w
  | wrapped_debug w w1 w2 a h r : wrapped has_os_signpost w w1 -> with_debug a h w1 = (w2, r) -> wrapped has_os_signpost w w2
  | wrapped_range w w1 w2 a s r : wrapped has_os_signpost w w1 -> with_nvtx_range a s w1 = (w2, r) -> wrapped has_os_signpost w w2
  | wrapped_signpost w w1 w2 a s r : wrapped has_os_signpost w w1 -> with_signpost_interval has_os_signpost a s w1 = (w2, r) -> wrapped has_os_signpost w w2.

  (** The second callback is the first one with hooks and ranges added, perhaps also inside. *)
  Inductive bsim : bcode -> bcode -> Prop :=
  | bs_plain k m saved l1 l2 : Forall2 bsim l1 l2 -> bsim (BPlain k m saved l1) (BPlain k m saved l2)
  | bs_debug h b1 b2 : bsim b1 b2 -> bsim (BDebug h b1) (BDebug h b2)
  | bs_range s b1 b2 : bsim b1 b2 -> bsim (BRange s b1) (BRange s b2)
  | bs_signpost s b1 b2 : bsim b1 b2 -> bsim (BSignpost s b1) (BSignpost s b2)
  | bs_more_debug h b1 b2 : bsim b1 b2 -> bsim b1 (BDebug h b2)
  | bs_more_range s b1 b2 : bsim b1 b2 -> bsim b1 (BRange s b2)
  | bs_more_signpost s b1 b2 : bsim b1 b2 -> bsim b1 (BSignpost s b2).
  Definition rsim {A} (R : A -> A -> Prop) (r1 r2 : result A) : Prop :=
    match r1, r2 with Ok x1, Ok x2 => R x1 x2 | Err e1, Err e2 => e1 = e2 | _, _ => False end.
  Definition ysim (x1 x2 : V * bcode) : Prop := fst x1 = fst x2 /\ bsim (snd x1) (snd x2).

  (** Programs that do the same as long as what they get from other layers is the same up to instrumentation of callbacks. *)
  Inductive psim {A} (R : A -> A -> Prop) : prog (V := V) (P := P) A -> prog (V := V) (P := P) A -> Prop :=
  | ps_done r1 r2 : rsim R r1 r2 -> psim R (Done r1) (Done r2)
  | ps_look a k1 k2 : (forall x, psim R (k1 x) (k2 x)) -> psim R (Look a k1) (Look a k2)
  | ps_store a p k1 k2 : psim R k1 k2 -> psim R (Store a p k1) (Store a p k2)
  | ps_call a X t k1 k2 : (forall r1 r2, rsim ysim r1 r2 -> psim R (k1 r1) (k2 r2)) -> psim R (Call a X t k1) (Call a X t k2)
  | ps_back b1 b2 d k1 k2 : bsim b1 b2 -> (forall r, psim R (k1 r) (k2 r)) -> psim R (Back b1 d k1) (Back b2 d k2)
  | ps_init a X Y k1 k2 : (forall r, psim R (k1 r) (k2 r)) -> psim R (Init a X Y k1) (Init a X Y k2).
  (** Plain functions can call callbacks but not look into them. *)
  Definition opaque (fwd : nat -> addr -> V -> bool -> prog (V * bcode)) (bwd : nat -> addr -> list V -> list bcode -> V -> prog V)
    (ini : nat -> addr -> option V -> option V -> prog (V := V) (P := P) unit) : Prop :=
    (forall k a X t, psim ysim (fwd k a X t) (fwd k a X t)) /\
    (forall k a saved l1 l2 d, Forall2 bsim l1 l2 -> psim eq (bwd k a saved l1 d) (bwd k a saved l2 d)) /\
    (forall k a X Y, psim eq (ini k a X Y) (ini k a X Y)).

  (** Programs that let exceptions through. *)
  Fixpoint strict {A} (p : prog (V := V) (P := P) A) : Prop :=
    match p with
    | Done _ => True
    | Look _ k => forall x, strict (k x)
    | Store _ _ k => strict k
    | Call _ _ _ k => (forall x, strict (k (Ok x))) /\ (forall e, k (Err e) = Done (Err e))
    | Back _ _ k => (forall x, strict (k (Ok x))) /\ (forall e, k (Err e) = Done (Err e))
    | Init _ _ _ k => (forall x, strict (k (Ok x))) /\ (forall e, k (Err e) = Done (Err e))
    end.
  Definition all_strict (fwd : nat -> addr -> V -> bool -> prog (V * bcode)) (bwd : nat -> addr -> list V -> list bcode -> V -> prog V)
    (ini : nat -> addr -> option V -> option V -> prog (V := V) (P := P) unit) : Prop :=
    (forall k a X t, strict (fwd k a X t)) /\ (forall k a saved l d, strict (bwd k a saved l d)) /\ (forall k a X Y, strict (ini k a X Y)).

  (** Worlds with the same names, data and layers of nodes, whatever their functions, ranges and logs. *)
  Definition same_data (w1 w2 : world) : Prop :=
    map (fun n : onode => (o_name n, o_layers n, o_data n)) (w_heap w1) = map (fun n => (o_name n, o_layers n, o_data n)) (w_heap w2).
  (** An init that one of the three wrappers made for the layer [a]. *)
  Definition made_for (a : addr) (i : icode) : Prop :=
    match i with IPlain _ => False | IDebug l _ _ | IRange l _ | ISignpost l _ _ => l = a end.
End InstrSpec.

(** ** A layer to try things on: it multiplies with a number, keeps the gradient of that number, and a chain of two layers. *)
Definition toy_fwd (k : nat) (a : addr) (X : Z) (t : bool) : prog (V := Z) (P := Z * Z) (Z * bcode) :=
  match k with
  | 0 => Look a (fun n => match n with Some (_, (w, _)) => Done (Ok (w * X, BPlain 0 a [X] []))%Z | None => Done (Err MemFault) end)
  | 1 => Look a (fun n => match n with
         | Some ([l1; l2], _) =>
           Call l1 X t (fun r => match r with
           | Ok (Y, b1) => Call l2 Y t (fun r => match r with Ok (Z, b2) => Done (Ok (Z, BPlain 1 a [] [b1; b2])) | Err e => Done (Err e) end)
           | Err e => Done (Err e) end)
         | _ => Done (Err ValueError) end)
  | _ => Done (Err NotImplementedError)
  end.
Definition toy_bwd (k : nat) (a : addr) (saved : list Z) (subs : list bcode) (d : Z) : prog (V := Z) (P := Z * Z) Z :=
  match k, saved, subs with
  | 0, [X], _ => Look a (fun n => match n with Some (_, (w, g)) => Store a (w, g + d * X)%Z (Done (Ok (w * d)%Z)) | None => Done (Err MemFault) end)
  | 1, _, [b1; b2] => Back b2 d (fun r => match r with Ok d => Back b1 d (fun r => Done r) | Err e => Done (Err e) end)
  | _, _, _ => Done (Err NotImplementedError)
  end.
Definition toy_ini (k : nat) (a : addr) (X Y : option Z) : prog (V := Z) (P := Z * Z) unit :=
  match k with
  | 0 => Store a (7, 0)%Z (Done (Ok tt))
  | _ => Look a (fun n => match n with
         | Some ([l1; l2], _) => Init l1 X None (fun r => match r with Ok _ => Init l2 None Y (fun r => Done r) | Err e => Done (Err e) end)
         | _ => Done (Err ValueError) end)
  end.
Definition no_hook {V} (ev : event (V := V)) : result unit := Ok tt.
Definition toy_world : world (V := Z) (P := Z * Z) :=
  mkW [mkO "chain" (FPlain 1) (Some (IPlain 1)) [1; 2] (0, 0)%Z; mkO "mul" (FPlain 0) (Some (IPlain 0)) [] (2, 0)%Z; mkO "mul" (FPlain 0) (Some (IPlain 0)) [] (3, 0)%Z] [] [].
