(** Vocabulary of the theorems about the gradient scaler and the PyTorch shim. *)
From Coq Require Import String Reals.
From Verif Require Import NumR.
From Verif Require Export ScalerModel.
Local Open Scope nat_scope.

Section Spec.
  Context {T : Type} `{Num T} (finite : T -> bool).
  (** One step of training: whether an overflow was seen, then the update. A history: true for each step that overflowed. *)
  Definition step (s : scaler T) (overflow : bool) : scaler T :=
    update finite (mkScaler (sc_enabled s) (sc_growth s) (sc_backoff s) (sc_interval s) (sc_tracker s) (sc_scale s) overflow).
  Definition history (s : scaler T) (h : list bool) : scaler T := fold_left step h s.
  (** Growing the scale, unless it would overflow *)
  Definition grow (g x : T) : T := if finite (nmul x g) then nmul x g else x.

  (** Some gradient has a value that is not finite. *)
  Definition overflowed (ps : list (tparam T)) : Prop := exists p g x, In p ps /\ tp_grad p = Some g /\ In x g /\ finite x = false.
  Definition zeros (g : list T) : Prop := Forall (fun x => x = nZ 0) g.
  Definition zeroed (p : tparam T) : Prop := forall g, tp_grad p = Some g -> zeros g.
  (** What a parameter keeps while gradients change *)
  Definition same_data (p q : tparam T) : Prop := tp_name p = tp_name q /\ tp_data p = tp_data q.

  (** A call of the callback: whether mixed precision is available, what autograd adds, the inputs and the gradients *)
  Record call := mkCall { c_amp : bool; c_autograd : scalable T -> list (option (list T)) * list (option (list T)); c_inputs : list (tparam T); c_grads : scalable T }.
  (** autograd gives something for every parameter and every input *)
  Definition fits (sh : shim T) (c : call) : Prop := forall x, length (fst (c_autograd c x)) = length (sh_params sh) /\ length (snd (c_autograd c x)) = length (c_inputs c).
  Fixpoint calls (l : list call) (sh : shim T) : result (shim T) :=
    match l with [] => Ok sh | c :: l => let* (_, sh) := backprop finite (c_amp c) (c_autograd c) (c_inputs c) (c_grads c) sh in calls l sh end.

  (** The optimizer is called for every parameter with a gradient, in order; parameters take its result. *)
  Inductive updates {O} (optimizer : nat * string -> list T -> list T -> O -> list T * list T * O) (id : nat) : list (tparam T) -> O -> list (tparam T) -> O -> Prop :=
  | upd_nil o : updates optimizer id [] o [] o
  | upd_none p ps ps' o o' : tp_grad p = None -> updates optimizer id ps o ps' o' -> updates optimizer id (p :: ps) o (p :: ps') o'
  | upd_some p g d g' z ps ps' o o1 o' : tp_grad p = Some g -> optimizer (id, tp_name p) (tp_data p) g o = (d, g', o1) -> zeros z -> length z = length g ->
      updates optimizer id ps o1 ps' o' -> updates optimizer id (p :: ps) o (mkTP (tp_name p) d (Some z) :: ps') o'.

  Definition contains (s old : string) : Prop := exists a b, s = (a ++ old ++ b)%string.
End Spec.

(** The steps that grow the scale, one run of finite steps after the other: [run] steps so far *)
Fixpoint growths (interval run : nat) (h : list bool) : nat :=
  match h with
  | [] => run / interval
  | true :: h => run / interval + growths interval 0 h
  | false :: h => growths interval (S run) h
  end.
(** All numbers are finite. *)
Definition always (x : R) : bool := true.
Definition scaled (c : R) (x : scalable R) : scalable R :=
  let f t := mkT (t_cuda t) (map (fun x => (x * c)%R) (t_data t)) in
  match x with OneTensor t => OneTensor (f t) | Iter l => Iter (map (option_map f) l) | Other => Other end.
(** Tensors that can be scaled *)
Definition on_gpu (x : scalable R) : Prop :=
  match x with OneTensor t => t_cuda t = true | Iter l => Forall (fun o => exists t, o = Some t /\ t_cuda t = true) l | Other => False end.
(** A gradient scaler for the examples over the rationals: values above 1000 are infinite. *)
From Coq Require Import QArith Qabs.
From Verif Require Import NumQ.
Definition small (x : Q) : bool := Qle_bool (Qabs x) (1000 # 1).
