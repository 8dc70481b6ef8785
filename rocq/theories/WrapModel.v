(** Wrapping models of other frameworks: layers/pytorchwrapper.py, layers/mxnetwrapper.py (39-116: the same functions for MXNet), layers/tensorflowwrapper.py, layers/with_cpu.py and
    the parts of shims/pytorch.py and util.py they use. No proofs here.
    Nested values are those of NestModel; its leaves [A] are arrays, tensors, None, Ellipsis and anything else. The framework is outside: what
    the wrapped module computes ([net], which sees whether it is in training mode), what [torch.autograd.backward] does to the
    state of the framework ([autograd]), and the gradient attribute of a tensor ([grad_of]) are parameters; the copies between
    frameworks are functions on leaves. Devices are left out, and mixed precision too (its gradient scaler is in ScalerModel; without it
    scaling does nothing). *)
From Coq Require Import String.
From Verif Require Export NestModel.
Local Open Scope string_scope.

(** The module's training flag and the rest of the framework's state *)
Record world (W : Type) := mkWorld { w_training : bool; w_rest : W }.
Arguments mkWorld {W}. Arguments w_training {W}. Arguments w_rest {W}.
(** types.py Padded: the data and the three arrays that go with it *)
Record padded (A : Type) := mkPadded { p_data : A; p_size_at_t : A; p_lengths : A; p_indices : A }.
Arguments mkPadded {A}. Arguments p_data {A}. Arguments p_size_at_t {A}. Arguments p_lengths {A}. Arguments p_indices {A}.

Section Wrap.
  Context {A W : Type}.
  (** As in NestModel *)
  Variable keq : obj A -> obj A -> bool.
  Variable hashable : obj A -> bool.
  Variable other_int : A -> bool.
  Variable iter_other : obj A -> result (list (obj A)).
  Variable fuel : nat.
  (** util.py is_xp_array 109-111 and is_torch_array 132-138 on leaves; whether the values are floating point; the copies *)
  Variables is_xp is_torch is_float : A -> bool.
  Variables tensor_of array_of : A -> A.
  Variables none ellipsis : A.
  Variable net : bool -> list (obj A) -> list (obj A * obj A) -> W -> W * result (obj A).
  Variable autograd : list A -> list A -> W -> W * result unit.
  Variable grad_of : A -> W -> option A.

  Definition leaf (p : A -> bool) (o : obj A) : bool := match o with OOther a => p a | _ => false end.
  (** util.py 388-413: [requires_grad_] accepts floating point tensors only *)
  Definition xp2torch (requires_grad : bool) (o : obj A) : eff (world W) (obj A) :=
    lift match o with
         | OOther a => if (requires_grad && negb (is_float a))%bool then Err RuntimeError else Ok (OOther (tensor_of a))
         | _ => Err TypeError
         end.
  (** util.py 416-436 *)
  Definition torch2xp (o : obj A) : eff (world W) (obj A) :=
    lift match o with OOther a => Ok (OOther (array_of a)) | _ => Err AttributeError end.
  Definition to_xp (o : obj A) : eff (world W) (obj A) := convert_recursive keq hashable other_int iter_other (leaf is_torch) torch2xp fuel o.
  Definition to_torch (requires_grad : bool) (o : obj A) : eff (world W) (obj A) := convert_recursive keq hashable other_int iter_other (leaf is_xp) (xp2torch requires_grad) fuel o.

  (** ** shims/pytorch.py *)
  Definition set_training (b : bool) (w : world W) : world W := mkWorld b (w_rest w).
  (** [self._model( *args, **kwargs)]: names have to be strings *)
  Definition call_net (inputs : obj A) : eff (world W) (obj A) := fun w =>
    match inputs with
    | OArgs args kwargs =>
        if forallb (fun p => match fst p with OStr _ => true | _ => false end) kwargs then
          let (s, r) := net (w_training w) args kwargs (w_rest w) in (mkWorld (w_training w) s, r)
        else (w, Err TypeError)
    | _ => (w, Err AttributeError)
    end.
  (** 104-114 [predict]: an exception leaves the module in evaluation mode *)
  Definition predict (inputs : obj A) : eff (world W) (obj A) := fun w =>
    match call_net inputs (set_training false w) with
    | (w, Ok Y) => (set_training true w, Ok Y)
    | (w, Err e) => (w, Err e)
    end.
  (** [torch.autograd.backward] takes a tensor or a sequence of tensors, and as many gradients. It rejects others with
      exceptions that vary with its version: TypeError and RuntimeError here. *)
  Definition tensors (o : obj A) : result (list A) :=
    let one o := match o with OOther a => if is_torch a then Ok a else Err TypeError | _ => Err TypeError end in
    match o with
    | OTuple l | OList l => mapM one l
    | _ => let* a := one o in Ok [a]
    end.
  Definition backward (ts gs : obj A) : eff (world W) unit := fun w =>
    match tensors ts, tensors gs with
    | Ok ts, Ok gs => if Nat.eqb (length ts) (length gs) then let (s, r) := autograd ts gs (w_rest w) in (mkWorld (w_training w) s, r) else (w, Err RuntimeError)
    | Err e, _ | _, Err e => (w, Err e)
    end.
  (** [x.grad] of every tensor in the inputs *)
  Definition grad_get (o : obj A) : eff (world W) (obj A) := fun w =>
    match o with
    | OOther a => (w, Ok (OOther match grad_of a (w_rest w) with Some g => g | None => none end))
    | _ => (w, Err AttributeError)
    end.
  (** 124-162: the callback. Other arguments for [backward] than the tensors and their gradients are left out. *)
  Definition shim_backprop (inputs grads : obj A) : eff (world W) (obj A) :=
    match grads with
    | OArgs [ts] [(OStr "grad_tensors", gs)] =>
        andthen (backward ts gs) (fun _ => convert_recursive keq hashable other_int iter_other (leaf is_torch) grad_get fuel inputs)
    | OArgs _ _ => raising TypeError
    | _ => raising AttributeError
    end.
  (** 90-94 [__call__], 116-162 [begin_update] *)
  Definition shim_call (inputs : obj A) (is_train : bool) : eff (world W) (obj A * (obj A -> eff (world W) (obj A))) :=
    if is_train then fun w => andthen (call_net inputs) (fun Y => done (Y, shim_backprop inputs)) (set_training true w)
    else andthen (predict inputs) (fun Y => done (Y, fun _ => done (OOther ellipsis))).

  (** ** layers/pytorchwrapper.py 213-230 [forward], for any conversions *)
  Definition forward {X Y : Type} (convert_inputs : X -> bool -> eff (world W) (obj A * (obj A -> eff (world W) X)))
      (convert_outputs : X * obj A -> bool -> eff (world W) (Y * (Y -> eff (world W) (obj A)))) (x : X) (is_train : bool) : eff (world W) (Y * (Y -> eff (world W) X)) :=
    andthen (convert_inputs x is_train) (fun '(Xtorch, get_dX) =>
    andthen (shim_call Xtorch is_train) (fun '(Ytorch, torch_backprop) =>
    andthen (convert_outputs (x, Ytorch) is_train) (fun '(y, get_dYtorch) =>
    done (y, fun dY => andthen (get_dYtorch dY) (fun dYtorch => andthen (torch_backprop dYtorch) get_dX))))).

  (** 236-267: the default conversion of the inputs. Attributes of what the framework gave back *)
  Definition args_of (o : obj A) : eff (world W) (obj A) := match o with OArgs a _ => done (OTuple a) | _ => raising AttributeError end.
  Definition kwargs_of (o : obj A) : eff (world W) (obj A) := match o with OArgs _ k => done (ODict k) | _ => raising AttributeError end.
  Definition arg0_of (o : obj A) : eff (world W) (obj A) := match o with OArgs (a :: _) _ => done a | OArgs [] _ => raising IndexError | _ => raising AttributeError end.
  Definition default_inputs (X : obj A) (is_train : bool) : eff (world W) (obj A * (obj A -> eff (world W) (obj A))) :=
    andthen (to_torch is_train X) (fun converted =>
      done match converted with
           | OArgs _ _ => (converted, to_xp)
           | ODict d => (OArgs [] d, fun dX => andthen (to_xp dX) kwargs_of)
           | OTuple l | OList l => (OArgs l [], fun dX => andthen (to_xp dX) args_of)
           | _ => (OArgs [converted] [], fun dX => andthen (to_xp dX) arg0_of)
           end).
  (** 270-281: of the outputs *)
  Definition default_outputs (X_Y : obj A * obj A) (is_train : bool) : eff (world W) (obj A * (obj A -> eff (world W) (obj A))) :=
    let (X, Ytorch) := X_Y in
    andthen (to_xp Ytorch) (fun Y => done (Y, fun dY => andthen (to_torch false dY) (fun dYtorch => done (OArgs [OTuple [Ytorch]] [(OStr "grad_tensors", dYtorch)])))).
  (** 37-76: the layer with its default conversions *)
  Definition pytorch_wrapper : obj A -> bool -> eff (world W) (obj A * (obj A -> eff (world W) (obj A))) := forward default_inputs default_outputs.

  (** 287-303: RNN inputs *)
  Definition rnn_inputs (Xp : padded A) (is_train : bool) : eff (world W) (obj A * (obj A -> eff (world W) (padded A))) :=
    let back (d_inputs : obj A) : eff (world W) (padded A) :=
      andthen (arg0_of d_inputs) (fun d => andthen (torch2xp d) (fun dX =>
        match dX with OOther dX => done (mkPadded dX (p_size_at_t Xp) (p_lengths Xp) (p_indices Xp)) | _ => raising TypeError end)) in
    andthen (xp2torch true (OOther (p_data Xp))) (fun x => done (OArgs [x; OOther none] [], back)).
  (** 306-318: the module returns a pair *)
  Definition rnn_outputs (inputs_outputs : padded A * obj A) (is_train : bool) : eff (world W) (padded A * (padded A -> eff (world W) (obj A))) :=
    let (Xp, out) := inputs_outputs in
    match out with
    | OTuple [Ytorch; _] | OList [Ytorch; _] =>
        let back (dYp : padded A) : eff (world W) (obj A) :=
          andthen (xp2torch true (OOther (p_data dYp))) (fun dY => done (OArgs [Ytorch] [(OStr "grad_tensors", dY)])) in
        andthen (torch2xp Ytorch) (fun Y =>
          match Y with OOther Y => done (mkPadded Y (p_size_at_t Xp) (p_lengths Xp) (p_indices Xp), back) | _ => raising TypeError end)
    | OTuple _ | OList _ => raising ValueError
    | _ => raising TypeError
    end.
  (** 19-34 *)
  Definition rnn_wrapper : padded A -> bool -> eff (world W) (padded A * (padded A -> eff (world W) (padded A))) := forward rnn_inputs rnn_outputs.
End Wrap.

(** ** layers/tensorflowwrapper.py. The shim (shims/tensorflow.py, its arithmetic is in ForeignModel) is a parameter: [begin_update] gives the output
    and a callback, [tf_predict] the output only. *)
Section TfWrap.
  Context {A W : Type}.
  Variable keq : obj A -> obj A -> bool.
  Variable hashable : obj A -> bool.
  Variable other_int : A -> bool.
  Variable iter_other : obj A -> result (list (obj A)).
  Variable fuel : nat.
  Variables is_xp is_tf : A -> bool.
  Variables tensor_of array_of : A -> A.
  Variable begin_update : obj A -> eff (world W) (obj A * (obj A -> eff (world W) (obj A))).
  Variable tf_predict : obj A -> eff (world W) (obj A).

  (** util.py 436-461 [xp2tensorflow]: integers are accepted, whether or not a gradient is required *)
  Definition to_tf (o : obj A) : eff (world W) (obj A) := to_torch keq hashable other_int iter_other fuel is_xp (fun _ => true) tensor_of false o.
  (** 145-174 [_convert_inputs] *)
  Definition tf_inputs (X : obj A) (is_train : bool) : eff (world W) (obj A * (obj A -> eff (world W) (obj A))) :=
    default_inputs keq hashable other_int iter_other fuel is_xp is_tf (fun _ => true) tensor_of array_of X is_train.
  (** 177-183 [_convert_outputs]; util.py 464-483 [tensorflow2xp]: the gradients go to the shim as they are, not as arguments *)
  Definition tf_outputs (Ytf : obj A) : eff (world W) (obj A * (obj A -> eff (world W) (obj A))) :=
    andthen (to_xp keq hashable other_int iter_other fuel is_tf array_of Ytf) (fun Y => done (Y, to_tf)).
  (** 88-136 with the default conversions: after a prediction the callback converts the gradient and names a variable that is not bound *)
  Definition tensorflow_wrapper (X : obj A) (is_train : bool) : eff (world W) (obj A * (obj A -> eff (world W) (obj A))) :=
    andthen (tf_inputs X is_train) (fun '(X_tf, get_dX) =>
    if is_train then
      andthen (begin_update X_tf) (fun '(Y_tf, tf_backprop) =>
      andthen (tf_outputs Y_tf) (fun '(Y, get_dY) => done (Y, fun dY => andthen (get_dY dY) (fun d => andthen (tf_backprop d) get_dX))))
    else
      andthen (tf_predict X_tf) (fun Y_tf =>
      andthen (tf_outputs Y_tf) (fun '(Y, get_dY) => done (Y, fun dY => andthen (get_dY dY) (fun _ => raising NameError))))).
End TfWrap.

(** ** layers/with_cpu.py: where the arrays of a value are. [get]: copying an array to the CPU; [asarray]: the [asarray] method of the wrapper's ops *)
Inductive place := Cpu | Gpu | NotArray.
Section Cpu.
  Context {A : Type}.
  Variable where_is : A -> place.
  Variable get : A -> A.
  Variable asarray : obj A -> result (obj A).

  (** 39-49 [_to_cpu]: dicts have a [get] method too, which needs an argument *)
  Fixpoint to_cpu (X : obj A) : result (obj A) :=
    let each := fix each (l : list (obj A)) : result (list (obj A)) := match l with [] => Ok [] | x :: l => let* x := to_cpu x in let* l := each l in Ok (x :: l) end in
    match X with
    | OTuple l => let* l := each l in Ok (OTuple l)
    | OList l => let* l := each l in Ok (OList l)
    | ODict _ => Err TypeError
    | OOther a => match where_is a with Cpu => Ok X | Gpu => Ok (OOther (get a)) | NotArray => Ok X end
    | _ => Ok X
    end.
  (** 52-58 [_to_device] *)
  Fixpoint to_device (X : obj A) : result (obj A) :=
    let each := fix each (l : list (obj A)) : result (list (obj A)) := match l with [] => Ok [] | x :: l => let* x := to_device x in let* l := each l in Ok (x :: l) end in
    match X with
    | OTuple l => let* l := each l in Ok (OTuple l)
    | OList l => let* l := each l in Ok (OList l)
    | _ => asarray X
    end.
  (** 24-33 [forward]: [layer] takes is_train and the input; begin_update calls it for training *)
  Definition with_cpu (layer : bool -> obj A -> result (obj A * (obj A -> result (obj A)))) (is_train : bool) (X : obj A) : result (obj A * (obj A -> result (obj A))) :=
    let* X := to_cpu X in
    let* (cpu_outputs, backprop) := layer true X in
    let* gpu_outputs := to_device cpu_outputs in
    Ok (gpu_outputs, fun d_outputs => let* d := to_cpu d_outputs in backprop d).
End Cpu.
