(** [to_dict], [from_dict], [can_from_dict] (thinc/model.py 571-626, 649-677, 702-747). No proofs here.
    The msgpack layer ([to_bytes], [to_disk], ...) is not modelled. *)
From Coq Require Import String.
From Verif Require Export NodeModel.

Section Serial.
  Context {V A Y S : Type} `{EqD Y}.
  Notation node := (node V A).
  Notation heap := (heap V A).

  (** [serialize_attr] (None: raises TypeError) and [deserialize_attr], dispatched on the value the
      node has so far (thinc/model.py 834-849). Custom functions may also look at the attribute name
      and the model; that is not modelled. *)
  Variable ser : A -> option Y.
  Variable deser : option A -> Y -> A.
  (** [shim.to_bytes()] and [shim.from_bytes(data)] as functions on the state of a shim. *)
  Variable shim_to : S -> Y.
  Variable shim_from : S -> Y -> S.
  (** [array.shape] *)
  Variable shape : V -> list nat.

  Record sstate := mkS { s_nodes : heap; s_shims : list S }.

  (** The message. The ["index"] entries are written but never read, and omitted. *)
  Record info := mkInfo {
    i_name : string;
    i_dims : dict string (option Z);
    i_refs : dict string (option nat)
  }.
  Record message := mkMsg {
    m_nodes : list info;
    m_attrs : list (dict string Y);
    m_params : list (dict string (option V));
    m_shims : list (list Y)
  }.

  (** thinc/model.py 586-587: [{node.id: i for i, node in enumerate(nodes)}] *)
  Definition node_index (h : heap) (nodes : list addr) : dict Z nat :=
    fold_left (fun d p => match nth_error h (snd p) with
                          | Some n => dset (n_id n) (fst p) d
                          | None => d
                          end)
      (combine (seq 0 (length nodes)) nodes) [].

  (** thinc/model.py 591-599: one reference; [None] if it cannot be expressed. *)
  Definition ser_ref (h : heap) (idx : dict Z nat) (n : node) (nm : string) : option (option nat) :=
    match get_ref n nm with
    | Err _ => Some None                                 (* has_ref is None *)
    | Ok b =>
      match nth_error h b with
      | None => None
      | Some nb => match dget (n_id nb) idx with Some i => Some (Some i) | None => None end
      end
    end.

  (** thinc/model.py 588-607 *)
  Definition ser_info (h : heap) (idx : dict Z nat) (n : node) : result info :=
    let refs := map (fun nm => (nm, ser_ref h idx n nm)) (dkeys (n_refs n)) in
    if existsb (fun p => match snd p with None => true | Some _ => false end) refs then Err ValueError
    else Ok (mkInfo (n_name n)
               (map (fun d => (d, match has_dim n d with
                                  | Some true => match get_dim n d with Ok v => Some v | Err _ => None end
                                  | _ => None
                                  end)) (dkeys (n_dims n)))
               (map (fun p => (fst p, match snd p with Some r => r | None => None end)) refs)).

  (** thinc/model.py 608-615 *)
  Definition ser_attrs (n : node) : dict string Y :=
    flat_map (fun p => match ser (snd p) with Some y => [(fst p, y)] | None => [] end) (n_attrs n).

  (** thinc/model.py 618-625 *)
  Definition ser_params (n : node) : result (dict string (option V)) :=
    mapM (fun nm => match has_param n nm with
                    | Some true => let* p := get_param n nm in Ok (nm, Some p)
                    | _ => Ok (nm, None)
                    end) (param_names n).

  (** thinc/model.py 616-617 *)
  Definition ser_shims (s : sstate) (n : node) : result (list Y) :=
    mapM (fun x => match nth_error (s_shims s) x with Some v => Ok (shim_to v) | None => Err KeyError end) (n_shims n).

  (** thinc/model.py 571-626 [to_dict] *)
  Definition to_dict (s : sstate) (root : addr) : result message :=
    let h := s_nodes s in
    let nodes := walk (graph_of h) Bfs root in
    let idx := node_index h nodes in
    let* ns := mapM (fun a => match nth_error h a with Some n => Ok n | None => Err KeyError end) nodes in
    let* infos := mapM (ser_info h idx) ns in
    let* shims := mapM (ser_shims s) ns in
    let* params := mapM ser_params ns in
    Ok (mkMsg infos (map ser_attrs ns) params shims).

  (** Run a node method on the object at [a]. *)
  Definition on_node (h : heap) (a : addr) (f : node -> node * result unit) : heap * result unit :=
    match nth_error h a with
    | None => (h, Err KeyError)                          (* dangling: impossible *)
    | Some n => let (n1, r) := f n in (set_nth a n1 h, r)
    end.

  (** Sequencing of mutators: stop at the first exception. *)
  Definition andthen {X} (p : X * result unit) (k : X -> X * result unit) : X * result unit :=
    match p with
    | (x, Ok _) => k x
    | (x, Err e) => (x, Err e)
    end.

  (** thinc/model.py 659-661 *)
  Fixpoint load_dims (h : heap) (a : addr) (dims : dict string (option Z)) : heap * result unit :=
    match dims with
    | [] => (h, Ok tt)
    | (_, None) :: dims' => load_dims h a dims'
    | (d, Some v) :: dims' =>
      andthen (on_node h a (fun n => set_dim n d v false)) (fun h1 => load_dims h1 a dims')
    end.

  (** thinc/model.py 662-666. [ref_index] is a non-negative index. *)
  Fixpoint load_refs (h : heap) (a : addr) (nodes : list addr) (refs : dict string (option nat)) : heap * result unit :=
    match refs with
    | [] => (h, Ok tt)
    | (nm, None) :: refs' => andthen (set_ref h a nm None) (fun h1 => load_refs h1 a nodes refs')
    | (nm, Some i) :: refs' =>
      match nth_error nodes i with
      | None => (h, Err IndexError)
      | Some b => andthen (set_ref h a nm (Some b)) (fun h1 => load_refs h1 a nodes refs')
      end
    end.

  (** thinc/model.py 667-670 *)
  Definition load_attrs (n : node) (attrs : dict string Y) : node :=
    fold_left (fun n p => with_attrs n (dset (fst p) (deser (dget (fst p) (n_attrs n)) (snd p)) (n_attrs n))) attrs n.

  (** thinc/model.py 671-674 (the array copy is invisible at the level of values) *)
  Definition load_params (n : node) (params : dict string (option V)) : node :=
    fold_left (fun n p => set_param n (fst p) (snd p)) params n.

  (** thinc/model.py 675-676: [node.shims[i].from_bytes(shim_bytes)] *)
  Fixpoint load_shims (shims : list S) (own : list addr) (i : nat) (data : list Y) : list S * result unit :=
    match data with
    | [] => (shims, Ok tt)
    | y :: data' =>
      match nth_error own i with
      | None => (shims, Err IndexError)
      | Some x =>
        match nth_error shims x with
        | None => (shims, Err KeyError)                  (* dangling: impossible *)
        | Some v => load_shims (set_nth x (shim_from v y) shims) own (i + 1) data'
        end
      end
    end.

  (** thinc/model.py 657-676: one iteration of the loop. *)
  Definition load_node (s : sstate) (nodes : list addr) (msg : message) (i : nat) (a : addr) : sstate * result unit :=
    match nth_error (m_nodes msg) i with
    | None => (s, Err IndexError)
    | Some inf =>
      let h := upd (s_nodes s) a (fun n => with_name n (i_name inf)) in
      let (h, r) := andthen (load_dims h a (i_dims inf)) (fun h => load_refs h a nodes (i_refs inf)) in
      match r with
      | Err e => (mkS h (s_shims s), Err e)
      | Ok _ =>
        match nth_error (m_attrs msg) i with
        | None => (mkS h (s_shims s), Err IndexError)
        | Some attrs =>
          let h := upd h a (fun n => load_attrs n attrs) in
          match nth_error (m_params msg) i with
          | None => (mkS h (s_shims s), Err IndexError)
          | Some params =>
            let h := upd h a (fun n => load_params n params) in
            match nth_error (m_shims msg) i, nth_error h a with
            | Some data, Some n =>
              let (shims, r) := load_shims (s_shims s) (n_shims n) 0 data in (mkS h shims, r)
            | _, _ => (mkS h (s_shims s), Err IndexError)
            end
          end
        end
      end
    end.

  Fixpoint load_nodes (s : sstate) (nodes : list addr) (msg : message) (i : nat) (todo : list addr) : sstate * result unit :=
    match todo with
    | [] => (s, Ok tt)
    | a :: todo' => andthen (load_node s nodes msg i a) (fun s1 => load_nodes s1 nodes msg (i + 1) todo')
    end.

  (** thinc/model.py 649-677 [from_dict] on a message that has all four entries. *)
  Definition from_dict (s : sstate) (root : addr) (msg : message) : sstate * result unit :=
    let nodes := walk (graph_of (s_nodes s)) Bfs root in
    if Nat.eqb (length (m_nodes msg)) (length nodes)
    then load_nodes s nodes msg 0 nodes
    else (s, Err ValueError).

  (** thinc/model.py 722-746: one iteration of the loop in [can_from_dict]. *)
  Definition can_dims (n : node) (dims : dict string (option Z)) : bool :=
    forallb (fun p => match has_dim n (fst p) with
                      | Some false => false
                      | Some true =>
                        match get_dim n (fst p), snd p with
                        | Ok v, Some w => Z.eqb v w
                        | _, _ => false                  (* a set dim never equals None *)
                        end
                      | None => true
                      end) dims.
  Definition can_params (n : node) (params : dict string (option V)) : bool :=
    forallb (fun p => match has_param n (fst p), snd p with
                      | Some false, _ => false
                      | Some true, Some v =>
                        match get_param n (fst p) with
                        | Ok w => if list_eq_dec Nat.eq_dec (shape w) (shape v) then true else false
                        | Err _ => false                 (* allocated but not stored: impossible *)
                        end
                      | _, _ => true
                      end) params.
  Definition can_attrs (n : node) (attrs : dict string Y) : bool :=
    forallb (fun p => match dget (fst p) (n_attrs n) with
                      | None => true
                      | Some v => match ser v with
                                  | None => true
                                  | Some y => if eqd y (snd p) then true else false
                                  end
                      end) attrs.
  Definition can_node (strict : bool) (n : node) (msg : message) (i : nat) : result bool :=
    match nth_error (m_nodes msg) i with
    | None => Err IndexError
    | Some inf =>
      if strict && negb (String.eqb (i_name inf) (n_name n)) then Ok false
      else match nth_error (m_shims msg) i with
           | None => Err IndexError
           | Some data =>
             if negb (Nat.eqb (length data) (length (n_shims n))) then Ok false
             else if negb (can_dims n (i_dims inf)) then Ok false
             else match nth_error (m_params msg) i with
                  | None => Err IndexError
                  | Some params =>
                    if negb (can_params n params) then Ok false
                    else if strict then
                           match nth_error (m_attrs msg) i with
                           | None => Err IndexError
                           | Some attrs => Ok (can_attrs n attrs)
                           end
                         else Ok true
                  end
           end
    end.
  Fixpoint can_nodes (strict : bool) (h : heap) (msg : message) (i : nat) (todo : list addr) : result bool :=
    match todo with
    | [] => Ok true
    | a :: todo' =>
      match nth_error h a with
      | None => Err KeyError                             (* dangling: impossible *)
      | Some n =>
        let* b := can_node strict n msg i in
        if b then can_nodes strict h msg (i + 1) todo' else Ok false
      end
    end.

  (** thinc/model.py 702-747 [can_from_dict] *)
  Definition can_from_dict (strict : bool) (s : sstate) (root : addr) (msg : message) : result bool :=
    let nodes := walk (graph_of (s_nodes s)) Bfs root in
    if Nat.eqb (length (m_nodes msg)) (length nodes)
    then can_nodes strict (s_nodes s) msg 0 nodes
    else Ok false.
End Serial.
Arguments sstate : clear implicits.
Arguments message : clear implicits.
