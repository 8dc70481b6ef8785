(** Instrumented layers: with_debug.py, with_nvtx_range.py, with_signpost_interval.py, [use_nvtx_range], and how calls,
    backward passes and initialization run through them. Function objects are data, since the wrappers replace the
    function objects of a node in place and keep the old ones in closures; [Model.copy] copies the references. *)
From Coq Require Import String.
From Verif Require Export Base NodeModel.

Section Instr.
  (** values that layers take and give, and what a node holds besides functions and sublayers (params, grads, dims, attrs) *)
  Context {V P : Type}.

  (** Function objects for forward: a plain function of the library; [forward] of with_debug.py 27-35, which holds [layer],
      the hooks and [orig_forward]; of with_nvtx_range.py 27-35; of with_signpost_interval.py 31-39. *)
  Inductive fcode :=
  | FPlain (k : nat)
  | FDebug (layer : addr) (hooks : nat) (orig : fcode)
  | FRange (name : string) (orig : fcode)
  | FSignpost (name : string) (orig : fcode).
  (** Function objects for init: plain; with_debug.py 37-40; with_nvtx_range.py 37-41; with_signpost_interval.py 41-46 *)
  Inductive icode :=
  | IPlain (k : nat)
  | IDebug (layer : addr) (hooks : nat) (orig : option icode)
  | IRange (layer : addr) (orig : option icode)
  | ISignpost (layer : addr) (name : string) (orig : option icode).
  (** Callbacks for the backward pass: a plain closure, which holds its model, values and callbacks of sublayers; and
      [backprop] of with_debug.py 31-33, with_nvtx_range.py 31-33, with_signpost_interval.py 35-37. *)
  Inductive bcode :=
  | BPlain (k : nat) (model : addr) (saved : list V) (subs : list bcode)
  | BDebug (hooks : nat) (b : bcode)
  | BRange (name : string) (b : bcode)
  | BSignpost (name : string) (b : bcode).

  (** A node: [_func], [init], [layers] and the rest. *)
  Record onode := mkO { o_name : string; o_func : fcode; o_init : option icode; o_layers : list addr; o_data : P }.

  (** What plain functions do: look at nodes, change what they hold, call sublayers, run their callbacks, initialize them,
      and return or raise. They cannot see the code of functions. *)
  Inductive prog (A : Type) :=
  | Done (r : result A)
  | Look (a : addr) (k : option (list addr * P) -> prog A)
  | Store (a : addr) (p : P) (k : prog A)
  | Call (a : addr) (X : V) (train : bool) (k : result (V * bcode) -> prog A)
  | Back (b : bcode) (d : V) (k : result V -> prog A)
  | Init (a : addr) (X Y : option V) (k : result unit -> prog A).
  Global Arguments Done {A}. Global Arguments Look {A}. Global Arguments Store {A}.
  Global Arguments Call {A}. Global Arguments Back {A}. Global Arguments Init {A}.

  (** What the hooks of with_debug are called with. *)
  Inductive event :=
  | OnForward (hooks : nat) (model : addr) (X : V) (train : bool)
  | OnBackprop (hooks : nat) (d : V)
  | OnInit (hooks : nat) (model : addr) (X Y : option V).

  (** The nodes, the NVTX ranges that are open (innermost first) and the calls of hooks (last first). *)
  Record world := mkW { w_heap : list onode; w_open : list string; w_log : list event }.

  (** The plain functions, the hooks (which observe, or raise), and [has_cupy]. *)
  Variable fwd : nat -> addr -> V -> bool -> prog (V * bcode).
  Variable bwd : nat -> addr -> list V -> list bcode -> V -> prog V.
  Variable ini : nat -> addr -> option V -> option V -> prog unit.
  Variable hook : event -> result unit.
  Variable has_cupy : bool.

  (** What a running function can ask of other models. *)
  Record engine := mkE {
    e_call : addr -> V -> bool -> world -> world * result (V * bcode);
    e_back : bcode -> V -> world -> world * result V;
    e_init : addr -> option V -> option V -> world -> world * result unit }.

  Definition store (a : addr) (p : P) (w : world) : world :=
    match nth_error (w_heap w) a with
    | Some n => mkW (set_nth a (mkO (o_name n) (o_func n) (o_init n) (o_layers n) p) (w_heap w)) (w_open w) (w_log w)
    | None => w
    end.
  Fixpoint run {A} (e : engine) (p : prog A) (w : world) : world * result A :=
    match p with
    | Done r => (w, r)
    | Look a k => run e (k (option_map (fun n => (o_layers n, o_data n)) (nth_error (w_heap w) a))) w
    | Store a p k => run e k (store a p w)
    | Call a X t k => let (w, r) := e_call e a X t w in run e (k r) w
    | Back b d k => let (w, r) := e_back e b d w in run e (k r) w
    | Init a X Y k => let (w, r) := e_init e a X Y w in run e (k r) w
    end.
  (** A call of a hook. *)
  Definition observe (ev : event) (w : world) : world * result unit := (mkW (w_heap w) (w_open w) (ev :: w_log w), hook ev).
  Definition with_open (w : world) (o : list string) : world := mkW (w_heap w) o (w_log w).
  (** util.py 612-621 [use_nvtx_range]: without [try], so an exception in the body skips [RangePop] *)
  Definition in_range {A} (name : string) (body : world -> world * result A) (w : world) : world * result A :=
    if has_cupy then
      match body (with_open w (name :: w_open w)) with
      | (w, Ok x) => (with_open w (tl (w_open w)), Ok x)
      | (w, Err e) => (w, Err e)
      end
    else body w.

  (** [self._func(self, X, is_train)] *)
  Fixpoint apply_f (e : engine) (c : fcode) (model : addr) (X : V) (t : bool) (w : world) : world * result (V * bcode) :=
    match c with
    | FPlain k => run e (fwd k model X t) w
    | FDebug layer h orig =>
      match observe (OnForward h model X t) w with
      | (w, Err x) => (w, Err x)
      | (w, Ok _) =>
        match apply_f e orig layer X t w with
        | (w, Ok (Y, b)) => (w, Ok (Y, BDebug h b))
        | (w, Err x) => (w, Err x)
        end
      end
    | FRange name orig =>
      match in_range (name ++ " forward")%string (apply_f e orig model X t) w with
      | (w, Ok (Y, b)) => (w, Ok (Y, BRange name b))
      | (w, Err x) => (w, Err x)
      end
    | FSignpost name orig =>
      match apply_f e orig model X t w with
      | (w, Ok (Y, b)) => (w, Ok (Y, BSignpost name b))
      | (w, Err x) => (w, Err x)
      end
    end.
  (** A callback applied to a gradient *)
  Fixpoint apply_b (e : engine) (b : bcode) (d : V) (w : world) : world * result V :=
    match b with
    | BPlain k model saved subs => run e (bwd k model saved subs d) w
    | BDebug h b =>
      match observe (OnBackprop h d) w with
      | (w, Err x) => (w, Err x)
      | (w, Ok _) => apply_b e b d w
      end
    | BRange name b => in_range (name ++ " backprop")%string (apply_b e b d) w
    | BSignpost name b => apply_b e b d w
    end.
  (** [self.init(self, X, Y)]; the values that inits return are not used *)
  Fixpoint apply_i (e : engine) (c : icode) (model : addr) (X Y : option V) (w : world) : world * result unit :=
    match c with
    | IPlain k => run e (ini k model X Y) w
    | IDebug layer h orig =>
      match observe (OnInit h model X Y) w with
      | (w, Err x) => (w, Err x)
      | (w, Ok _) => match orig with Some c => apply_i e c layer X Y w | None => (w, Ok tt) end
      end
    | IRange layer orig | ISignpost layer _ orig => match orig with Some c => apply_i e c layer X Y w | None => (w, Ok tt) end
    end.

  (** model.py 307-310 [__call__] and 312-319 [initialize] without data validation *)
  Definition step (e : engine) : engine := mkE
    (fun a X t w => match nth_error (w_heap w) a with Some n => apply_f e (o_func n) a X t w | None => (w, Err MemFault) end)
    (apply_b e)
    (fun a X Y w =>
      match nth_error (w_heap w) a with
      | Some n => match o_init n with Some c => apply_i e c a X Y w | None => (w, Ok tt) end
      | None => (w, Err MemFault)
      end).
  (** Models nested to depth [fuel]. *)
  Fixpoint engine_of (fuel : nat) : engine :=
    match fuel with
    | 0 => mkE (fun _ _ _ w => (w, Err OutOfFuel)) (fun _ _ w => (w, Err OutOfFuel)) (fun _ _ _ w => (w, Err OutOfFuel))
    | S fuel => step (engine_of fuel)
    end.
  (** model.py 330-334 [predict] *)
  Definition predict (fuel : nat) (a : addr) (X : V) (w : world) : world * result V :=
    match e_call (engine_of fuel) a X false w with
    | (w, Ok (Y, _)) => (w, Ok Y)
    | (w, Err x) => (w, Err x)
    end.

  (** ** The wrappers *)

  (** model.py 439-443 [replace_callbacks] *)
  Definition replace_callbacks (a : addr) (f : fcode) (i : option icode) (w : world) : world :=
    match nth_error (w_heap w) a with
    | Some n => mkW (set_nth a (mkO (o_name n) f i (o_layers n) (o_data n)) (w_heap w)) (w_open w) (w_log w)
    | None => w
    end.
  (** with_debug.py 10-44; the wrapper is the layer itself *)
  Definition with_debug (a : addr) (hooks : nat) (w : world) : world * result addr :=
    match nth_error (w_heap w) a with
    | Some n => (replace_callbacks a (FDebug a hooks (o_func n)) (Some (IDebug a hooks (o_init n))) w, Ok a)
    | None => (w, Err MemFault)
    end.
  (** with_nvtx_range.py 9-45 *)
  Definition with_nvtx_range (a : addr) (name : option string) (w : world) : world * result addr :=
    match nth_error (w_heap w) a with
    | Some n => (replace_callbacks a (FRange (match name with Some s => s | None => o_name n end) (o_func n)) (Some (IRange a (o_init n))) w, Ok a)
    | None => (w, Err MemFault)
    end.
  (** with_signpost_interval.py 9-50; the intervals of the os_signpost library are not modelled *)
  Definition with_signpost_interval (has_os_signpost : bool) (a : addr) (name : option string) (w : world) : world * result addr :=
    if has_os_signpost then
      match nth_error (w_heap w) a with
      | Some n => let name := match name with Some s => s | None => o_name n end in
                  (replace_callbacks a (FSignpost name (o_func n)) (Some (ISignpost a name (o_init n))) w, Ok a)
      | None => (w, Err MemFault)
      end
    else (w, Err ValueError).
  (** model.py 478-525 [copy] of a node, given the copies of its layers: [self._func] and [self.init] are passed on. The
      copy is at the end of the heap. *)
  Definition copy_node (a : addr) (layers : list addr) (w : world) : world * result addr :=
    match nth_error (w_heap w) a with
    | Some n => (mkW (w_heap w ++ [mkO (o_name n) (o_func n) (o_init n) layers (o_data n)]) (w_open w) (w_log w), Ok (length (w_heap w)))
    | None => (w, Err MemFault)
    end.
End Instr.
