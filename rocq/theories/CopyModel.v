(** [Model.copy] (thinc/model.py 478-525) with object identity. No proofs here.
    Node parameters and gradients are addresses of array objects; shims are objects too.
    Attribute values and dims are treated as immutable values, so their deep copy is themselves. *)
From Coq Require Import String.
From Verif Require Export NodeModel.

Section Copy.
  Context {E A B : Type}.
  Notation node := (node addr A).

  (** [c_arrays]: contents of the array objects. [c_shims]: shim objects, [(id, state)].
      [c_next]: [Model.global_id]. *)
  Record cstate := mkC {
    c_nodes : heap addr A;
    c_arrays : list E;
    c_shims : list (Z * B);
    c_next : Z
  }.

  (** Copy an object unless the memo has a copy already. Used for [copy.deepcopy]'s memo (arrays
      within one dictionary) and for the shims recorded in [seen]. *)
  Definition copy_once {X} (objs : list X) (memo : dict addr addr) (x : addr)
    : result (list X * dict addr addr * addr) :=
    match dget x memo with
    | Some y => Ok (objs, memo, y)
    | None =>
      match nth_error objs x with
      | None => Err KeyError                            (* dangling: impossible *)
      | Some v => Ok (objs ++ [v], dset x (length objs) memo, length objs)
      end
    end.

  (** thinc/model.py 493-495: collect the parameters, None for unallocated ones. *)
  Definition collect_params (n : node) : result (list (string * option addr)) :=
    mapM (fun nm => match has_param n nm with
                    | Some true => let* p := get_param n nm in Ok (nm, Some p)
                    | _ => Ok (nm, None)
                    end) (param_names n).

  (** [copy.deepcopy(params)]: arrays are copied, an array occurring twice is copied once. *)
  Fixpoint deepcopy_params (arrs : list E) (memo : dict addr addr) (ps : list (string * option addr))
    : result (list E * list (string * option addr)) :=
    match ps with
    | [] => Ok (arrs, [])
    | (nm, None) :: ps' =>
      let* r := deepcopy_params arrs memo ps' in Ok (fst r, (nm, None) :: snd r)
    | (nm, Some x) :: ps' =>
      let* c := copy_once arrs memo x in
      let '(arrs1, memo1, y) := c in
      let* r := deepcopy_params arrs1 memo1 ps' in Ok (fst r, (nm, Some y) :: snd r)
    end.

  (** thinc/model.py 506-513: the shims. *)
  Fixpoint copy_shims (shims : list (Z * B)) (seen : dict addr addr) (ss : list addr)
    : result (list (Z * B) * dict addr addr * list addr) :=
    match ss with
    | [] => Ok (shims, seen, [])
    | s :: ss' =>
      let* c := copy_once shims seen s in
      let '(shims1, seen1, y) := c in
      let* r := copy_shims shims1 seen1 ss' in
      let '(shims2, seen2, ys) := r in Ok (shims2, seen2, y :: ys)
    end.

  (** thinc/model.py 85-122 [__init__] as called by [_copy]; the id is the incremented counter. *)
  Definition new_node (id : Z) (n : node) (params : list (string * option addr)) (layers shims : list addr) : node :=
    fold_left (fun n p => match snd p with
                          | None => with_params n (dset (fst p) false (n_has n)) (n_params n)
                          | Some v => set_param n (fst p) (Some v)
                          end) params
      (mkNode id (n_name n) (n_func n) layers shims (n_dims n) [] [] [] [] (n_attrs n)).

  (** thinc/model.py 523-524: copy the gradients. *)
  Fixpoint copy_grads (arrs : list E) (n : node) (names : list string) (c : node) : result (list E * node) :=
    match names with
    | [] => Ok (arrs, c)
    | nm :: names' =>
      let* x := get_grad n nm in
      match nth_error arrs x with
      | None => Err KeyError                            (* dangling: impossible *)
      | Some v => copy_grads (arrs ++ [v]) n names' (set_grad c nm (length arrs))
      end
    end.

  (** thinc/model.py 514-525: build the new object. *)
  Definition build (st : cstate) (n : node) (params : list (string * option addr)) (layers shims : list addr)
    : result (cstate * addr) :=
    let* r := deepcopy_params (c_arrays st) [] params in
    let id := (c_next st + 1)%Z in
    let c := new_node id n (snd r) layers shims in
    let* g := copy_grads (fst r) n (grad_names n) c in
    Ok (mkC (c_nodes st ++ [snd g]) (fst g) (c_shims st) id, length (c_nodes st)).

  (** thinc/model.py 486-525 [_copy]. [seen] maps layer objects, [sseen] shim objects to their
      copies (one dictionary keyed by [id(...)] in the source). [fuel] bounds the recursion depth. *)
  Fixpoint copy_node (fuel : nat) (st : cstate) (seen sseen : dict addr addr) (a : addr)
    : result (cstate * dict addr addr * dict addr addr * addr) :=
    match fuel with
    | O => Err OutOfFuel
    | S f =>
      match nth_error (c_nodes st) a with
      | None => Err KeyError                            (* dangling: impossible *)
      | Some n =>
        let* params := collect_params n in
        let* ls :=
          (fix layers (st : cstate) (seen sseen : dict addr addr) (ls : list addr)
             : result (cstate * dict addr addr * dict addr addr * list addr) :=
             match ls with
             | [] => Ok (st, seen, sseen, [])
             | l :: ls' =>
               match dget l seen with
               | Some c =>
                 let* r := layers st seen sseen ls' in
                 let '(st2, seen2, sseen2, cs) := r in Ok (st2, seen2, sseen2, c :: cs)
               | None =>
                 let* k := copy_node f st seen sseen l in
                 let '(st1, seen1, sseen1, c) := k in
                 let* r := layers st1 (dset l c seen1) sseen1 ls' in
                 let '(st2, seen2, sseen2, cs) := r in Ok (st2, seen2, sseen2, c :: cs)
               end
             end) st seen sseen (n_layers n) in
        let '(st1, seen1, sseen1, cs) := ls in
        let* sh := copy_shims (c_shims st1) sseen1 (n_shims n) in
        let '(shims2, sseen2, css) := sh in
        let* b := build (mkC (c_nodes st1) (c_arrays st1) shims2 (c_next st1)) n params cs css in
        Ok (fst b, seen1, sseen2, snd b)
      end
    end.

  (** thinc/model.py 478-484 [copy]. *)
  Definition copy (fuel : nat) (st : cstate) (a : addr) : result (cstate * addr) :=
    let* r := copy_node fuel st [] [] a in
    let '(st', _, _, c) := r in Ok (st', c).

  (** Writing into an array object. *)
  Definition write_array (st : cstate) (x : addr) (v : E) : cstate :=
    mkC (c_nodes st) (set_nth x v (c_arrays st)) (c_shims st) (c_next st).
  (** What [get_param]/[get_grad] of the node at [a] show. *)
  Definition read_param (st : cstate) (a : addr) (nm : string) : option E :=
    match nth_error (c_nodes st) a with
    | Some n => match get_param n nm with Ok x => nth_error (c_arrays st) x | Err _ => None end
    | None => None
    end.
  Definition read_grad (st : cstate) (a : addr) (nm : string) : option E :=
    match nth_error (c_nodes st) a with
    | Some n => match get_grad n nm with Ok x => nth_error (c_arrays st) x | Err _ => None end
    | None => None
    end.
End Copy.
Arguments cstate : clear implicits.
