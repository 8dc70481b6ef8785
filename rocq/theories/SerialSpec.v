(** Vocabulary for serialization. *)
From Coq Require Import String.
From Verif Require Import GraphModel GraphSpec NodeModel SerialModel.

(** [f] is an isomorphism from the model at [r1] to the model at [r2]. *)
Record iso (g1 : graph) (r1 : addr) (g2 : graph) (r2 : addr) (f : addr -> addr) : Prop := {
  iso_root : f r1 = r2;
  iso_layers : forall a, reach g1 r1 a -> layers g2 (f a) = map f (layers g1 a);
  iso_inj : forall a b, reach g1 r1 a -> reach g1 r1 b -> f a = f b -> a = b
}.

Section SerialSpec.
  Context {V A Y S : Type} `{EqD Y}.
  Notation node := (node V A).
  Notation sstate := (sstate V A S).
  Notation message := (message V Y).
  Variable ser : A -> option Y.
  Variable deser : option A -> Y -> A.
  Variable shim_to : S -> Y.
  Variable shim_from : S -> Y -> S.

  (** [n'] is [n] after loading one entry of a message. *)
  Record loaded (nodes : list addr) (inf : info) (attrs : dict string Y) (params : dict string (option V))
      (n n' : node) : Prop := {
    ld_rest : n_id n' = n_id n /\ n_func n' = n_func n /\ n_layers n' = n_layers n /\ n_shims n' = n_shims n /\ n_grads n' = n_grads n;
    ld_name : n_name n' = i_name inf;
    ld_dims : forall d, dget d (n_dims n') = match dget d (i_dims inf) with Some (Some v) => Some (Some v) | _ => dget d (n_dims n) end;
    ld_refs : forall nm, dget nm (n_refs n') =
      match dget nm (i_refs inf) with
      | None => dget nm (n_refs n)
      | Some None => Some None
      | Some (Some i) => Some (nth_error nodes i)
      end;
    ld_attrs : forall k, dget k (n_attrs n') =
      match dget k attrs with None => dget k (n_attrs n) | Some y => Some (deser (dget k (n_attrs n)) y) end;
    ld_params : forall nm, dget nm (n_params n') =
      match dget nm params with Some (Some v) => Some v | _ => dget nm (n_params n) end;
    ld_has : forall nm, dget nm (n_has n') =
      match dget nm params with Some (Some _) => Some true | Some None => Some false | None => dget nm (n_has n) end;
    ld_dim_names : dkeys (n_dims n') = dkeys (n_dims n);
    ld_ref_names : incl (dkeys (i_refs inf)) (dkeys (n_refs n)) -> dkeys (n_refs n') = dkeys (n_refs n);
    ld_attr_names : incl (dkeys attrs) (dkeys (n_attrs n)) -> dkeys (n_attrs n') = dkeys (n_attrs n);
    ld_param_names : incl (dkeys params) (dkeys (n_has n)) -> dkeys (n_has n') = dkeys (n_has n)
  }.

  (** Entry [i] of a message can be loaded into node [n] at [a]. *)
  Record loadable (s : sstate) (nodes : list addr) (msg : message) (i : nat) (a : addr) (n : node)
     (inf : info) (attrs : dict string Y) (params : dict string (option V)) (data : list Y) : Prop := {
    lb_nodes : nth_error (m_nodes msg) i = Some inf;
    lb_attrs : nth_error (m_attrs msg) i = Some attrs;
    lb_params : nth_error (m_params msg) i = Some params;
    lb_shims : nth_error (m_shims msg) i = Some data;
    (* Python dictionaries have distinct keys *)
    lb_keys : NoDup (dkeys (i_dims inf)) /\ NoDup (dkeys (i_refs inf)) /\ NoDup (dkeys attrs) /\ NoDup (dkeys params);
    (* every given dimension is declared and unset or already equal *)
    lb_dims : forall d v, dget d (i_dims inf) = Some (Some v) -> dget d (n_dims n) = Some None \/ dget d (n_dims n) = Some (Some v);
    (* every reference is to a node below the owner *)
    lb_refs : forall nm j, dget nm (i_refs inf) = Some (Some j) ->
      exists b, nth_error nodes j = Some b /\ reach (graph_of (s_nodes s)) a b;
    lb_data : length data <= length (n_shims n);
    lb_own : forall x, In x (n_shims n) -> x < length (s_shims s)
  }.

  (** What is written to shim [x] by an entry, and by the whole message, in order. *)
  Definition shim_writes (own : list addr) (data : list Y) (x : addr) : list Y :=
    map snd (filter (fun p => Nat.eqb (fst p) x) (combine own data)).
  Definition msg_writes (s : sstate) (nodes : list addr) (msg : message) (x : addr) : list Y :=
    flat_map (fun p => match nth_error (s_nodes s) (fst p) with
                       | Some n => shim_writes (n_shims n) (snd p) x
                       | None => []
                       end) (combine nodes (m_shims msg)).

  (** Well-formed models: distinct dictionary keys, nothing dangling, allocated parameters stored,
      references inside the tree below their owner, distinct ids. *)
  Record wf_model (s : sstate) (root : addr) : Prop := {
    ws_root : root < length (s_nodes s);
    ws_closed : forall a n l, nth_error (s_nodes s) a = Some n -> In l (n_layers n) -> l < length (s_nodes s);
    ws_keys : forall a n, nth_error (s_nodes s) a = Some n ->
      NoDup (dkeys (n_dims n)) /\ NoDup (dkeys (n_refs n)) /\ NoDup (dkeys (n_attrs n)) /\ NoDup (dkeys (n_has n));
    ws_alloc : forall a n nm, nth_error (s_nodes s) a = Some n -> dget nm (n_has n) = Some true ->
      exists v, dget nm (n_params n) = Some v;
    ws_refs : forall a n nm b, nth_error (s_nodes s) a = Some n -> dget nm (n_refs n) = Some (Some b) ->
      reach (graph_of (s_nodes s)) a b;
    ws_ids : forall a b na nb, nth_error (s_nodes s) a = Some na -> nth_error (s_nodes s) b = Some nb ->
      n_id na = n_id nb -> a = b;
    ws_shims : forall a n x, nth_error (s_nodes s) a = Some n -> In x (n_shims n) -> x < length (s_shims s)
  }.

  (** [n2] declares the same things as [n1] and has nothing set that contradicts it; [gs] sends its
      shims to those of [n1]. *)
  Record compatible (gs : addr -> addr) (n1 n2 : node) : Prop := {
    cm_dims : dkeys (n_dims n2) = dkeys (n_dims n1) /\
      forall d, dget d (n_dims n2) = Some None \/ dget d (n_dims n2) = dget d (n_dims n1);
    cm_refs : dkeys (n_refs n2) = dkeys (n_refs n1);
    cm_params : param_names n2 = param_names n1;
    cm_attrs : dkeys (n_attrs n2) = dkeys (n_attrs n1) /\
      forall k v w, dget k (n_attrs n1) = Some v -> dget k (n_attrs n2) = Some w ->
        match ser v with Some y => deser (Some w) y = v | None => ser w = None end;
    cm_shims : n_shims n1 = map gs (n_shims n2)
  }.

  (** [n'] shows the same data as [n1], references moved along [f]. *)
  Record same_data (f : addr -> addr) (n1 n' : node) : Prop := {
    sd_name : n_name n' = n_name n1;
    sd_dims : n_dims n' = n_dims n1;
    sd_refs : n_refs n' = map (fun p => (fst p, option_map f (snd p))) (n_refs n1);
    sd_attrs : forall k v, dget k (n_attrs n1) = Some v -> ser v <> None -> dget k (n_attrs n') = Some v;
    sd_has : forall nm, has_param n' nm = has_param n1 nm;
    sd_params : forall nm, has_param n1 nm = Some true -> get_param n' nm = get_param n1 nm
  }.
End SerialSpec.

(** ** Compatibility *)
Section Accepts.
  Context {V A Y S : Type} `{EqD Y}.
  Notation node := (node V A).
  Notation sstate := (sstate V A S).
  Notation message := (message V Y).
  Variable ser : A -> option Y.
  Variable shape : V -> list nat.

  (** All parts of the message have an entry for each node, and dictionaries have distinct keys. *)
  Record wf_message (msg : message) : Prop := {
    wm_attrs : length (m_attrs msg) = length (m_nodes msg);
    wm_params : length (m_params msg) = length (m_nodes msg);
    wm_shims : length (m_shims msg) = length (m_nodes msg);
    wm_info_keys : forall inf, In inf (m_nodes msg) -> NoDup (dkeys (i_dims inf)) /\ NoDup (dkeys (i_refs inf));
    wm_attr_keys : forall d, In d (m_attrs msg) -> NoDup (dkeys d);
    wm_param_keys : forall d, In d (m_params msg) -> NoDup (dkeys d)
  }.

  (** What [can_from_dict] looks at, for one node. *)
  Record accepts (strict : bool) (n : node) (inf : info) (attrs : dict string Y) (params : dict string (option V)) (data : list Y) : Prop := {
    ac_name : strict = true -> i_name inf = n_name n;
    ac_shims : length data = length (n_shims n);
    ac_dims : forall d o, In (d, o) (i_dims inf) -> dget d (n_dims n) = Some None \/ (exists v, dget d (n_dims n) = Some (Some v) /\ o = Some v);
    ac_params : forall nm o, In (nm, o) params ->
      dget nm (n_has n) = Some false \/
      (dget nm (n_has n) = Some true /\ forall v, o = Some v -> exists w, dget nm (n_params n) = Some w /\ shape w = shape v);
    ac_attrs : strict = true -> forall k y v z, In (k, y) attrs -> dget k (n_attrs n) = Some v -> ser v = Some z -> z = y
  }.

  (** Node [a], at position [i] of the walk, and its entry. *)
  Definition entry (s : sstate) (root : addr) (msg : message) i a n inf attrs params data : Prop :=
    nth_error (walk (graph_of (s_nodes s)) Bfs root) i = Some a /\ nth_error (s_nodes s) a = Some n /\
    nth_error (m_nodes msg) i = Some inf /\ nth_error (m_attrs msg) i = Some attrs /\
    nth_error (m_params msg) i = Some params /\ nth_error (m_shims msg) i = Some data.
End Accepts.
