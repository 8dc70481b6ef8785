(** C63: models of other frameworks as layers. *)
From Coq Require Import String.
From Verif Require Import NestModel NestSpec WrapModel WrapSpec WrapProofs WrapMainProofs BaseFacts.
Local Open Scope string_scope.

(** In training mode the wrapper passes copies of the arrays as tensors, in the same structure, and gives back the module's
    output with its tensors as arrays. The callback for an output of one tensor gives back the gradient of every array of the
    input after autograd ran from that output, in the place of that array (or None); a list comes back as a tuple. For outputs
    of several tensors the callback raises. *)
Theorem C63_training : forall A W keq hashable other_int iter_other fuel is_xp is_torch is_float (tensor_of array_of : A -> A) none ellipsis net autograd (grad_of : A -> W -> option A) X b s s1 Yt,
  frameworks is_xp is_torch tensor_of none -> proper keq hashable (leaf is_xp) X -> proper keq hashable (leaf is_torch) X -> named X -> depth X <= fuel -> depth (OArgs (fst (spread X)) (snd (spread X))) <= fuel ->
  (forall a, In a (leaves X) -> is_torch a = false /\ (is_xp a = true -> is_float a = true)) ->
  (let f := only is_xp tensor_of in net true (fst (spread (replaced f X))) (snd (spread (replaced f X))) s = (s1, Ok Yt)) -> proper keq hashable (leaf is_torch) Yt -> depth Yt <= fuel ->
  exists bp, pytorch_wrapper keq hashable other_int iter_other fuel is_xp is_torch is_float tensor_of array_of none ellipsis net autograd grad_of X true (mkWorld b s) = (mkWorld true s1, Ok (replaced (only is_torch array_of) Yt, bp)) /\
    (forall y d t s2 s3, Yt = OOther y -> is_torch y = true -> is_xp d = true -> autograd [y] [tensor_of d] s2 = (s3, Ok tt) -> (forall a g, grad_of a s3 = Some g -> is_torch g = true) ->
      bp (OOther d) (mkWorld t s2) = (mkWorld t s3, Ok (tupled (replaced (only is_xp (fun a => grad_array array_of none (grad_of (tensor_of a) s3))) X)))) /\
    (forall l dY w, (Yt = OTuple l \/ Yt = OList l) -> proper keq hashable (leaf is_xp) dY -> depth dY <= fuel -> bp dY w = (w, Err TypeError)).
Proof. exact @wrapper_training. Qed.
Print Assumptions C63_training.

(** In prediction mode the module is in evaluation mode while it computes and in training mode after it, unless it raises: then
    it stays in evaluation mode. The callback gives back Ellipsis for ArgsKwargs and raises for other inputs. *)
Theorem C63_prediction : forall A W keq hashable other_int iter_other fuel is_xp is_torch is_float (tensor_of array_of : A -> A) none ellipsis net autograd (grad_of : A -> W -> option A) X b s s1 Yt,
  proper keq hashable (leaf is_xp) X -> proper keq hashable (leaf is_torch) X -> named X -> depth X <= fuel -> depth (OArgs (fst (spread X)) (snd (spread X))) <= fuel ->
  (let f := only is_xp tensor_of in net false (fst (spread (replaced f X))) (snd (spread (replaced f X))) s = (s1, Yt)) ->
  match Yt with
  | Err e => pytorch_wrapper keq hashable other_int iter_other fuel is_xp is_torch is_float tensor_of array_of none ellipsis net autograd grad_of X false (mkWorld b s) = (mkWorld false s1, Err e)
  | Ok Yt => proper keq hashable (leaf is_torch) Yt -> depth Yt <= fuel -> is_torch ellipsis = false ->
      exists bp, pytorch_wrapper keq hashable other_int iter_other fuel is_xp is_torch is_float tensor_of array_of none ellipsis net autograd grad_of X false (mkWorld b s) = (mkWorld true s1, Ok (replaced (only is_torch array_of) Yt, bp)) /\
        forall dY w, proper keq hashable (leaf is_xp) dY -> depth dY <= fuel -> bp dY w = (w, match X with OArgs _ _ => Ok (OOther ellipsis) | _ => Err AttributeError end)
  end.
Proof. exact @wrapper_predict. Qed.
Print Assumptions C63_prediction.

(** Finding: in training mode every array of the input has to be floating point; with one that is not, for instance the ids of
    tokens, the wrapper raises before the module runs, while prediction accepts it. *)
Theorem C63_integers : forall A W keq hashable other_int iter_other fuel is_xp is_torch is_float (tensor_of array_of : A -> A) none ellipsis net autograd (grad_of : A -> W -> option A) X b s,
  proper keq hashable (leaf is_xp) X -> depth X <= fuel -> (exists a, In a (leaves X) /\ is_xp a = true /\ is_float a = false) ->
  pytorch_wrapper keq hashable other_int iter_other fuel is_xp is_torch is_float tensor_of array_of none ellipsis net autograd grad_of X true (mkWorld b s) = (mkWorld b s, Err RuntimeError).
Proof. exact @wrapper_integers. Qed.
Print Assumptions C63_integers.

(** TensorFlow: in training mode the shim gets copies of the arrays as tensors, in the same structure, whatever their type. Its
    callback gets the gradients as tensors in the structure they came in, for one output or several; what it gives back for the arguments
    comes back as arrays in the structure of the input (a list as a tuple), and its exceptions come through. *)
Theorem C63_tensorflow_training : forall A W keq hashable other_int iter_other fuel is_xp is_tf (tensor_of array_of : A -> A) (begin_update : obj A -> eff (world W) (obj A * (obj A -> eff (world W) (obj A)))) tf_predict X w w1 Yt bp0,
  proper keq hashable (leaf is_xp) X -> proper keq hashable (leaf is_tf) X -> named X -> depth X <= fuel -> depth (OArgs (fst (spread X)) (snd (spread X))) <= fuel ->
  begin_update (replaced (only is_xp tensor_of) (OArgs (fst (spread X)) (snd (spread X)))) w = (w1, Ok (Yt, bp0)) -> proper keq hashable (leaf is_tf) Yt -> depth Yt <= fuel ->
  exists bp, tensorflow_wrapper keq hashable other_int iter_other fuel is_xp is_tf tensor_of array_of begin_update tf_predict X true w = (w1, Ok (replaced (only is_tf array_of) Yt, bp)) /\
    forall dY w2 w3, proper keq hashable (leaf is_xp) dY -> depth dY <= fuel ->
      (forall e, bp0 (replaced (only is_xp tensor_of) dY) w2 = (w3, Err e) -> bp dY w2 = (w3, Err e)) /\
      (forall h, bp0 (replaced (only is_xp tensor_of) dY) w2 = (w3, Ok (replaced h (OArgs (fst (spread X)) (snd (spread X))))) ->
        bp dY w2 = (w3, Ok (tupled (replaced (fun a => only is_tf array_of (h a)) X)))).
Proof. exact @tf_training. Qed.
Print Assumptions C63_tensorflow_training.
(** Finding: the callback of a prediction raises NameError for every gradient. *)
Theorem C63_tensorflow_prediction : forall A W keq hashable other_int iter_other fuel is_xp is_tf (tensor_of array_of : A -> A) begin_update (tf_predict : obj A -> eff (world W) (obj A)) X w w1 Yt,
  proper keq hashable (leaf is_xp) X -> proper keq hashable (leaf is_tf) X -> named X -> depth X <= fuel -> depth (OArgs (fst (spread X)) (snd (spread X))) <= fuel ->
  tf_predict (replaced (only is_xp tensor_of) (OArgs (fst (spread X)) (snd (spread X)))) w = (w1, Yt) ->
  match Yt with
  | Err e => tensorflow_wrapper keq hashable other_int iter_other fuel is_xp is_tf tensor_of array_of begin_update tf_predict X false w = (w1, Err e)
  | Ok Yt => proper keq hashable (leaf is_tf) Yt -> depth Yt <= fuel ->
      exists bp, tensorflow_wrapper keq hashable other_int iter_other fuel is_xp is_tf tensor_of array_of begin_update tf_predict X false w = (w1, Ok (replaced (only is_tf array_of) Yt, bp)) /\
        forall dY w2, proper keq hashable (leaf is_xp) dY -> depth dY <= fuel -> bp dY w2 = (w2, Err NameError)
  end.
Proof. exact @tf_prediction. Qed.
Print Assumptions C63_tensorflow_prediction.

(** The RNN wrapper keeps the arrays that describe the batch, forward and back; the module gets the data and no state. *)
Theorem C63_rnn : forall A W keq hashable other_int iter_other fuel (is_torch is_float : A -> bool) (tensor_of array_of : A -> A) none ellipsis net autograd (grad_of : A -> W -> option A) Xp b s s1 y h,
  is_float (p_data Xp) = true -> is_torch (tensor_of (p_data Xp)) = true -> is_torch none = false -> 5 <= fuel ->
  net true [OOther (tensor_of (p_data Xp)); OOther none] [] s = (s1, Ok (OTuple [OOther y; h])) ->
  exists bp, rnn_wrapper keq hashable other_int iter_other fuel is_torch is_float tensor_of array_of none ellipsis net autograd grad_of Xp true (mkWorld b s) =
               (mkWorld true s1, Ok (mkPadded (array_of y) (p_size_at_t Xp) (p_lengths Xp) (p_indices Xp), bp)) /\
    forall dYp t s2 s3 g, is_torch y = true -> is_float (p_data dYp) = true -> is_torch (tensor_of (p_data dYp)) = true -> autograd [y] [tensor_of (p_data dYp)] s2 = (s3, Ok tt) -> grad_of (tensor_of (p_data Xp)) s3 = Some g ->
      bp dYp (mkWorld t s2) = (mkWorld t s3, Ok (mkPadded (array_of g) (p_size_at_t Xp) (p_lengths Xp) (p_indices Xp))).
Proof. exact (fun A W k h o i f => @rnn_ok A W k h o i f (fun _ => false)). Qed.
Print Assumptions C63_rnn.

(** [with_cpu]: the layer sees the arrays of nested lists and tuples on the CPU, its outputs go back to the device, and its
    callback sees gradients on the CPU. The gradient it gives back stays where the layer left it, on the CPU. *)
Theorem C63_with_cpu : forall A where_is (get : A -> A) asarray (to_gpu : A -> A) layer tr X Y bp,
  (forall a, asarray (OOther a) = Ok (OOther (to_gpu a))) -> plain X -> layer true (replaced (moved where_is get) X) = Ok (Y, bp) -> arrays Y ->
  exists bp', with_cpu where_is get asarray layer tr X = Ok (replaced to_gpu Y, bp') /\ forall dY, plain dY -> bp' dY = bp (replaced (moved where_is get) dY).
Proof. exact @cpu_ok. Qed.
Print Assumptions C63_with_cpu.
(** Finding: a dict anywhere in the input raises (dicts have a method called [get], which is taken for that of GPU arrays). *)
Theorem C63_with_cpu_dict : forall A where_is (get : A -> A) asarray layer tr X, dict_inside X -> with_cpu where_is get asarray layer tr X = Err TypeError.
Proof. exact @cpu_dict. Qed.
Print Assumptions C63_with_cpu_dict.

(** ** A toy framework: numbered arrays and tensors; a state that holds the gradients of tensors *)
Inductive toy := Np (n : nat) | Ids (n : nat) | Ten (n : nat) | TNone | TDots.
Definition toy_xp (a : toy) : bool := match a with Np _ | Ids _ => true | _ => false end.
Definition toy_torch (a : toy) : bool := match a with Ten _ => true | _ => false end.
Definition toy_float (a : toy) : bool := match a with Ids _ => false | _ => true end.
Definition toy_tensor (a : toy) : toy := match a with Np n | Ids n => Ten n | _ => a end.
Definition toy_array (a : toy) : toy := match a with Ten n => Np n | _ => a end.
Definition toy_keq (a b : obj toy) : bool := match a, b with OStr x, OStr y => String.eqb x y | _, _ => false end.
Definition toy_hash (o : obj toy) : bool := match o with OStr _ => true | _ => false end.
Definition toy_state := list (nat * nat).
(** the sum of the numbers of the tensors among the arguments, plus 100 in training *)
Definition toy_net (tr : bool) (args : list (obj toy)) (kw : list (obj toy * obj toy)) (s : toy_state) : toy_state * result (obj toy) :=
  (s, Ok (OOther (Ten (list_sum (map (fun o => match o with OOther (Ten n) => n | _ => 0 end) (args ++ map snd kw)%list) + if tr then 100 else 0)))).
(** tensor 1 gets 7 times the gradient *)
Definition toy_autograd (ts gs : list toy) (s : toy_state) : toy_state * result unit := match gs with [Ten g] => ((1, 7 * g) :: s, Ok tt) | _ => (s, Err RuntimeError) end.
Definition toy_grad (a : toy) (s : toy_state) : option toy := match a with Ten n => match find (fun p => Nat.eqb (fst p) n) s with Some (_, g) => Some (Ten g) | None => None end | _ => None end.
Notation toy_wrapper := (pytorch_wrapper toy_keq toy_hash (fun _ => false) (fun _ => Err TypeError) 9 toy_xp toy_torch toy_float toy_tensor toy_array TNone TDots toy_net toy_autograd toy_grad).
Definition toy_x : obj toy := OList [OOther (Np 1); OOther (Np 2); OInt 4].

Example C63_training_ex : frameworks toy_xp toy_torch toy_tensor TNone /\ proper toy_keq toy_hash (leaf toy_xp) toy_x /\ proper toy_keq toy_hash (leaf toy_torch) toy_x /\ named toy_x /\
  depth (OArgs (fst (spread toy_x)) (snd (spread toy_x))) <= 9 /\ (forall a, In a (leaves toy_x) -> toy_torch a = false /\ (toy_xp a = true -> toy_float a = true)) /\
  match toy_wrapper toy_x true (mkWorld false []) with
  | (w, Ok (Y, bp)) => w = mkWorld true [] /\ Y = OOther (Np 103) /\ bp (OOther (Np 5)) w = (mkWorld true [(1, 35)], Ok (OTuple [OOther (Np 35); OOther TNone; OInt 4]))
  | _ => False
  end.
Proof.
  split; [split; [intros [| | | |]; intros; try discriminate; reflexivity | intros [| | | |]; intros; try discriminate; reflexivity | reflexivity]|].
  split; [apply proper_list; repeat (constructor; [apply proper_atom; reflexivity|]); constructor|]. split; [apply proper_list; repeat (constructor; [apply proper_atom; reflexivity|]); constructor|].
  split; [constructor|]. split; [vm_compute; lia|]. split; [intros a [<- | [<- | []]]; split; reflexivity|].
  vm_compute. repeat split.
Qed.
(** Finding: the gradient of a list is a tuple. *)
Theorem C63_list_refuted : match toy_wrapper (OList [OOther (Np 1)]) true (mkWorld true []) with
  | (w, Ok (Y, bp)) => Y = OOther (Np 101) /\ bp (OOther (Np 5)) w = (mkWorld true [(1, 35)], Ok (OTuple [OOther (Np 35)]))
  | _ => False
  end.
Proof. vm_compute. repeat split. Qed.
Print Assumptions C63_list_refuted.
(** Finding: a module that raises during prediction stays in evaluation mode. *)
Theorem C63_eval_refuted : match pytorch_wrapper toy_keq toy_hash (fun _ => false) (fun _ => Err TypeError) 9 toy_xp toy_torch toy_float toy_tensor toy_array TNone TDots (fun _ _ _ s => (s, Err ValueError)) toy_autograd toy_grad
  toy_x false (mkWorld true []) with (w, Err e) => e = ValueError /\ w_training w = false | _ => False end.
Proof. vm_compute. repeat split. Qed.
Print Assumptions C63_eval_refuted.
Example C63_prediction_ex : match toy_wrapper (ODict [(OStr "a", OOther (Np 1)); (OStr "b", OOther (Ids 2))]) false (mkWorld false []) with
  | (w, Ok (Y, bp)) => w = mkWorld true [] /\ Y = OOther (Np 3) /\ bp (OOther (Np 5)) w = (w, Err AttributeError)
  | _ => False
  end.
Proof. vm_compute. repeat split. Qed.
(** A shim that passes its first argument on, and doubles the gradient *)
Definition toy_begin (X : obj toy) : eff (world toy_state) (obj toy * (obj toy -> eff (world toy_state) (obj toy))) := fun w =>
  match X with
  | OArgs [x; _] [] => (w, Ok (OTuple [x; x], fun d w => match d with OTuple [OOther (Ten a); OOther (Ten b)] => (w, Ok (OArgs [OOther (Ten (a + b)); OOther TNone] [])) | _ => (w, Err ValueError) end))
  | _ => (w, Err IndexError)
  end.
Notation toy_tf := (tensorflow_wrapper toy_keq toy_hash (fun _ => false) (fun _ => Err TypeError) 9 toy_xp toy_torch toy_tensor toy_array toy_begin (fun X w => (w, Ok X))).
Example C63_tensorflow_ex : match toy_tf (OList [OOther (Np 1); OOther (Ids 2)]) true (mkWorld false []) with
  | (w, Ok (Y, bp)) => Y = OTuple [OOther (Np 1); OOther (Np 1)] /\ bp (OTuple [OOther (Np 5); OOther (Np 6)]) w = (w, Ok (OTuple [OOther (Np 11); OOther TNone])) /\ bp (OOther (Np 5)) w = (w, Err ValueError)
  | _ => False
  end /\ match toy_tf (OOther (Np 1)) false (mkWorld false []) with (w, Ok (Y, bp)) => Y = OArgs [OOther (Np 1)] [] /\ bp (OOther (Np 2)) w = (w, Err NameError) | _ => False end.
Proof. vm_compute. repeat split. Qed.
Example C63_integers_ex : toy_wrapper (OTuple [OOther (Np 1); OOther (Ids 2)]) true (mkWorld false []) = (mkWorld false [], Err RuntimeError).
Proof. vm_compute. reflexivity. Qed.
Example C63_rnn_ex : match rnn_wrapper toy_keq toy_hash (fun _ => false) (fun _ => Err TypeError) 9 toy_torch toy_float toy_tensor toy_array TNone TDots (fun _ _ _ s => (s, Ok (OTuple [OOther (Ten 8); OInt 0]))) toy_autograd toy_grad
    (mkPadded (Np 1) (Ids 2) (Ids 3) (Ids 4)) true (mkWorld false []) with
  | (w, Ok (Y, bp)) => w = mkWorld true [] /\ Y = mkPadded (Np 8) (Ids 2) (Ids 3) (Ids 4) /\
      bp (mkPadded (Np 5) (Ids 6) (Ids 6) (Ids 6)) w = (mkWorld true [(1, 35)], Ok (mkPadded (Np 35) (Ids 2) (Ids 3) (Ids 4)))
  | _ => False
  end.
Proof. vm_compute. repeat split. Qed.
(** Arrays below 10 are on the GPU. *)
Definition toy_where (a : toy) : place := match a with Np n => if Nat.ltb n 10 then Gpu else Cpu | _ => NotArray end.
Definition toy_get (a : toy) : toy := match a with Np n => Np (n + 10) | _ => a end.
Definition toy_asarray (o : obj toy) : result (obj toy) := match o with OOther (Np n) => Ok (OOther (Np (n - 10))) | OOther a => Ok (OOther a) | _ => Err TypeError end.
Definition toy_layer (tr : bool) (X : obj toy) : result (obj toy * (obj toy -> result (obj toy))) := match X with OList [OOther (Np a); OOther (Np b)] => Ok (OOther (Np (if tr then b else a)), fun d => Ok (OList [d; d])) | _ => Err TypeError end.
Example C63_with_cpu_ex : exists bp, with_cpu toy_where toy_get toy_asarray toy_layer true (OList [OOther (Np 1); OOther (Np 12)]) = Ok (OOther (Np 2), bp) /\ bp (OOther (Np 3)) = Ok (OList [OOther (Np 13); OOther (Np 13)]).
Proof. eexists. split; vm_compute; reflexivity. Qed.
(** Finding: the wrapped layer always runs in training mode, also for predictions. *)
Theorem C63_with_cpu_refuted : (forall A where_is (get : A -> A) asarray layer X, with_cpu where_is get asarray layer false X = with_cpu where_is get asarray layer true X) /\
  exists layer X Y Y' b b', layer false X = Ok (Y, b) /\ with_cpu (fun _ : toy => Cpu) (fun a => a) Ok layer false X = Ok (Y', b') /\ Y <> Y'.
Proof.
  split; [reflexivity|]. exists toy_layer, (OList [OOther (Np 1); OOther (Np 2)]). do 4 eexists. split; [vm_compute; reflexivity|]. split; [vm_compute; reflexivity|]. discriminate.
Qed.
Print Assumptions C63_with_cpu_refuted.
Example C63_with_cpu_dict_ex : with_cpu toy_where toy_get toy_asarray toy_layer true (OTuple [OOther (Np 1); ODict []]) = Err TypeError.
Proof. vm_compute. reflexivity. Qed.

(** Keyword arguments have to have names that are strings. The module is left in the mode of the call. *)
Theorem C63_names : forall A W is_torch keq hashable other_int iter_other fuel none ellipsis net autograd (grad_of : A -> W -> option A) args kwargs w,
  Exists (fun p => forall s, fst p <> OStr s) kwargs ->
  shim_call keq hashable other_int iter_other fuel is_torch none ellipsis net autograd grad_of (OArgs args kwargs) true w = (mkWorld true (w_rest w), Err TypeError) /\
  shim_call keq hashable other_int iter_other fuel is_torch none ellipsis net autograd grad_of (OArgs args kwargs) false w = (mkWorld false (w_rest w), Err TypeError).
Proof. exact @names_refused. Qed.
Print Assumptions C63_names.

(** The shim raises for inputs that are no ArgsKwargs. *)
Theorem C63_not_arguments : forall A W is_torch keq hashable other_int iter_other fuel none ellipsis net autograd (grad_of : A -> W -> option A) o w,
  (forall args kwargs, o <> OArgs args kwargs) ->
  shim_call keq hashable other_int iter_other fuel is_torch none ellipsis net autograd grad_of o true w = (mkWorld true (w_rest w), Err AttributeError) /\
  shim_call keq hashable other_int iter_other fuel is_torch none ellipsis net autograd grad_of o false w = (mkWorld false (w_rest w), Err AttributeError).
Proof. exact @shim_others. Qed.
Print Assumptions C63_not_arguments.

(** The RNN wrapper raises for integers, for modules that do not return a pair that begins with a tensor, and for gradients of integers; as it requires gradients of its inputs in predictions too, integers raise there as well. *)
Theorem C63_rnn_refuses : forall A W keq hashable other_int iter_other fuel (is_torch is_float : A -> bool) (tensor_of array_of : A -> A) none ellipsis net autograd (grad_of : A -> W -> option A),
  forall Xp,
  (is_float (p_data Xp) = false -> forall tr w, rnn_wrapper keq hashable other_int iter_other fuel is_torch is_float tensor_of array_of none ellipsis net autograd grad_of Xp tr w = (w, Err RuntimeError)) /\
  forall b s s1 out, is_float (p_data Xp) = true -> net true [OOther (tensor_of (p_data Xp)); OOther none] [] s = (s1, Ok out) ->
    (forall y h, out = OTuple [y; h] \/ out = OList [y; h] -> (forall a, y <> OOther a) -> rnn_wrapper keq hashable other_int iter_other fuel is_torch is_float tensor_of array_of none ellipsis net autograd grad_of Xp true (mkWorld b s) = (mkWorld true s1, Err AttributeError)) /\
    (forall l, out = OTuple l \/ out = OList l -> length l <> 2 -> rnn_wrapper keq hashable other_int iter_other fuel is_torch is_float tensor_of array_of none ellipsis net autograd grad_of Xp true (mkWorld b s) = (mkWorld true s1, Err ValueError)) /\
    (forall y h w w2 Y bp, out = OTuple [OOther y; h] -> rnn_wrapper keq hashable other_int iter_other fuel is_torch is_float tensor_of array_of none ellipsis net autograd grad_of Xp true (mkWorld b s) = (w, Ok (Y, bp)) ->
      forall dYp, is_float (p_data dYp) = false -> bp dYp w2 = (w2, Err RuntimeError)).
Proof. exact @rnn_refuses. Qed.
Print Assumptions C63_rnn_refuses.
