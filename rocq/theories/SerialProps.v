(** [to_dict], [from_dict], [can_from_dict]: C12, C13. *)
From Coq Require Import String.
From Verif Require Import GraphModel GraphSpec NodeModel NodeSpec SerialModel SerialSpec SerialProofs RoundTripProofs SerialCheckProofs.
Open Scope string_scope.

(** C12. Let model 1 be well-formed, and model 2 be well-formed, of the same shape (along [f]) and
    compatible. Then serializing model 1 succeeds, loading the message into model 2 succeeds, and
    afterwards model 2 serializes to the same message, shows the same names, dims, references,
    attributes and parameters, and has shims that serialize like those of model 1; identities,
    functions, structure, gradients and every node outside model 2 are unchanged. *)
Theorem C12_round_trip :
  forall (V A Y S : Type) (ser : A -> option Y) (deser : option A -> Y -> A) (shim_to : S -> Y) (shim_from : S -> Y -> S)
    (s1 s2 : sstate V A S) r1 r2 (f gs : nat -> nat),
    wf_model s1 r1 -> wf_model s2 r2 ->
    iso (graph_of (s_nodes s1)) r1 (graph_of (s_nodes s2)) r2 f ->
    (forall a n1 n2, reach (graph_of (s_nodes s1)) r1 a ->
      nth_error (s_nodes s1) a = Some n1 -> nth_error (s_nodes s2) (f a) = Some n2 -> compatible ser deser gs n1 n2) ->
    (forall v w, shim_to (shim_from v (shim_to w)) = shim_to w) ->
    exists msg s2', to_dict ser shim_to s1 r1 = Ok msg /\ from_dict deser shim_from s2 r2 msg = (s2', Ok tt) /\
      to_dict ser shim_to s2' r2 = Ok msg /\
      (forall a n1 n2, reach (graph_of (s_nodes s1)) r1 a -> nth_error (s_nodes s1) a = Some n1 -> nth_error (s_nodes s2) (f a) = Some n2 ->
         exists n', nth_error (s_nodes s2') (f a) = Some n' /\ same_data ser f n1 n' /\
           n_id n' = n_id n2 /\ n_func n' = n_func n2 /\ n_layers n' = n_layers n2 /\ n_shims n' = n_shims n2 /\ n_grads n' = n_grads n2 /\
           forall x, In x (n_shims n2) -> exists v v',
             nth_error (s_shims s1) (gs x) = Some v /\ nth_error (s_shims s2') x = Some v' /\ shim_to v' = shim_to v) /\
      (forall b, ~ reach (graph_of (s_nodes s2)) r2 b -> nth_error (s_nodes s2') b = nth_error (s_nodes s2) b).
Proof. exact (fun V A Y S => @round_trip V A Y S). Qed.
Print Assumptions C12_round_trip.

(** C12. What loading does, whatever the message: if every entry can be loaded then [from_dict]
    succeeds, every node of the model becomes its loaded version, every shim receives exactly the
    data written for it, in order, and nothing else changes. *)
Theorem C12_from_dict_effect :
  forall (V A Y S : Type) (deser : option A -> Y -> A) (shim_to : S -> Y) (shim_from : S -> Y -> S) (s : sstate V A S) root (msg : message V Y),
    let nodes := walk (graph_of (s_nodes s)) Bfs root in
    length (m_nodes msg) = length nodes ->
    (forall i a, nth_error nodes i = Some a -> exists n inf attrs params data,
       nth_error (s_nodes s) a = Some n /\ loadable s nodes msg i a n inf attrs params data) ->
    exists s', from_dict deser shim_from s root msg = (s', Ok tt) /\
      length (s_nodes s') = length (s_nodes s) /\ graph_of (s_nodes s') = graph_of (s_nodes s) /\
      length (s_shims s') = length (s_shims s) /\
      (forall a, ~ reach (graph_of (s_nodes s)) root a -> nth_error (s_nodes s') a = nth_error (s_nodes s) a) /\
      (forall i a n inf attrs params data, nth_error nodes i = Some a -> nth_error (s_nodes s) a = Some n ->
         loadable s nodes msg i a n inf attrs params data ->
         exists n', nth_error (s_nodes s') a = Some n' /\ loaded deser nodes inf attrs params n n') /\
      (forall x, nth_error (s_shims s') x =
         option_map (fun v => fold_left shim_from (msg_writes s nodes msg x) v) (nth_error (s_shims s) x)).
Proof. exact (fun V A Y S => @from_dict_ok V A Y S). Qed.
Print Assumptions C12_from_dict_effect.

(** Model 1: 0 -> 1, 2; 2 -> 1 with a shared shim, an allocated and an unset parameter, an
    unserializable attribute (negative), a set and an unset reference. Model 2 has the same shape at
    other addresses (3; 2, 0), with nothing set. *)
Definition ex_ser (v : Z) : option Z := if (v <? 0)%Z then None else Some v.
Definition ex_s1 : sstate Z Z Z :=
  mkS [mkNode 1%Z "top" 0 [1; 2] [1] [("nO", Some 3%Z); ("nI", None)] [] [] [] [("out", Some 1); ("none", None)] [("k", 9%Z); ("f", (-5)%Z)];
       mkNode 2%Z "leaf" 1 [] [0] [] [("W", true); ("b", false)] [("W", 40%Z)] [] [] [];
       mkNode 3%Z "mid" 1 [1] [1] [] [] [] [] [("self", Some 2)] []] [70%Z; 80%Z].
Definition ex_s2 : sstate Z Z Z :=
  mkS [mkNode 6%Z "x" 1 [2] [0] [] [] [] [] [("self", None)] [];
       mkNode 4%Z "other" 1 [] [] [("nO", Some 1%Z)] [] [] [] [] [];
       mkNode 5%Z "y" 1 [] [1] [] [("W", false); ("b", true)] [("b", 3%Z)] [("W", 1%Z)] [] [];
       mkNode 7%Z "z" 0 [2; 0] [0] [("nO", None); ("nI", None)] [] [] [] [("out", Some 0); ("none", Some 2)] [("k", 0%Z); ("f", (-1)%Z)]] [0%Z; 0%Z].
Definition ex_f (a : nat) : nat := match a with 0 => 3 | 1 => 2 | 2 => 0 | n => n end.
Definition ex_gs (x : nat) : nat := match x with 0 => 1 | 1 => 0 | n => n end.
Example C12_ex :
  wf_model ex_s1 0 /\ wf_model ex_s2 3 /\
  iso (graph_of (s_nodes ex_s1)) 0 (graph_of (s_nodes ex_s2)) 3 ex_f /\
  (forall a n1 n2, reach (graph_of (s_nodes ex_s1)) 0 a ->
      nth_error (s_nodes ex_s1) a = Some n1 -> nth_error (s_nodes ex_s2) (ex_f a) = Some n2 -> compatible ex_ser (fun _ y => y) ex_gs n1 n2) /\
  exists msg, to_dict ex_ser (fun v => v) ex_s1 0 = Ok msg /\
    from_dict (fun _ y => y) (fun _ y => y) ex_s2 3 msg =
    (mkS [mkNode 6%Z "mid" 1 [2] [0] [] [] [] [] [("self", Some 0)] [];
       mkNode 4%Z "other" 1 [] [] [("nO", Some 1%Z)] [] [] [] [] [];
       mkNode 5%Z "leaf" 1 [] [1] [] [("W", true); ("b", false)] [("b", 3%Z); ("W", 40%Z)] [("W", 1%Z)] [] [];
       mkNode 7%Z "top" 0 [2; 0] [0] [("nO", Some 3%Z); ("nI", None)] [] [] [] [("out", Some 2); ("none", None)] [("k", 9%Z); ("f", (-1)%Z)]]
     [80%Z; 70%Z], Ok tt).
Proof.
  split; [ex_wf 3|]. split; [ex_wf 4|]. split; [|split].
  - assert (Hlt : forall a, reach (graph_of (s_nodes ex_s1)) 0 a -> a < 3).
    { intros a Ha. apply (proj2 (GraphProofs.walk_exact _ Bfs 0)) in Ha. vm_compute in Ha. lia. }
    split; [reflexivity| |].
    + intros a Ha. apply Hlt in Ha. do 3 (destruct a as [|a]; [reflexivity|]). lia.
    + intros a b Ha Hb. apply Hlt in Ha. apply Hlt in Hb. do 3 (destruct a as [|a]; [do 3 (destruct b as [|b]; [cbn; lia|]); lia|]). lia.
  - intros a n1 n2 Ha H1 H2.
    do 3 (destruct a as [|a]; [injection H1 as <-; injection H2 as <-; split; cbn;
      [split; [reflexivity|]; intros d; repeat (match goal with |- context [eqd ?x ?y] => destruct (eqd x y) end); auto
      |reflexivity|reflexivity
      |split; [reflexivity|]; intros k v w; repeat (match goal with |- context [eqd ?x ?y] => destruct (eqd x y) end);
         try discriminate; intros Hv Hw; injection Hv as <-; injection Hw as <-; reflexivity
      |reflexivity]|]).
    destruct a; discriminate.
  - eexists. split; vm_compute; reflexivity.
Qed.

(** C12, finding: the constructor accepts references to nodes of the tree that are not below their
    owner. Such a model serializes, but the message cannot be loaded, not even into the same model;
    and [can_from_dict] says it can. *)
Theorem C12_refs_refuted :
  exists (s : sstate Z Z Z) msg s', to_dict Some (fun v => v) s 0 = Ok msg /\
    from_dict (fun _ y => y) (fun _ y => y) s 0 msg = (s', Err ValueError) /\
    can_from_dict Some (fun _ => []) true s 0 msg = Ok true.
Proof. exact serial_refs_witness. Qed.
Print Assumptions C12_refs_refuted.

(** C13. [from_dict] succeeds exactly when the number of nodes agrees and for each node: every given
    dim is declared and unset or equal, every reference is a position in the walk of a node below
    the owner, and there are not more shim entries than shims. (Names, attributes, parameter names
    and shapes are not checked.) *)
Theorem C13_from_dict_succeeds_iff :
  forall (V A Y S : Type) (deser : option A -> Y -> A) (shim_to : S -> Y) (shim_from : S -> Y -> S) (s : sstate V A S) root (msg : message V Y),
    wf_model s root -> wf_message msg ->
    (snd (from_dict deser shim_from s root msg) = Ok tt <->
     length (m_nodes msg) = length (walk (graph_of (s_nodes s)) Bfs root) /\
     forall i a n inf attrs params data, entry s root msg i a n inf attrs params data ->
       (forall d v, dget d (i_dims inf) = Some (Some v) -> dget d (n_dims n) = Some None \/ dget d (n_dims n) = Some (Some v)) /\
       (forall nm j, dget nm (i_refs inf) = Some (Some j) ->
          exists b, nth_error (walk (graph_of (s_nodes s)) Bfs root) j = Some b /\ reach (graph_of (s_nodes s)) a b) /\
       length data <= length (n_shims n)).
Proof. exact (fun V A Y S => @from_dict_iff V A Y S). Qed.
Print Assumptions C13_from_dict_succeeds_iff.

(** C13. [can_from_dict] never raises, and returns True exactly when the number of nodes agrees and
    every entry is acceptable: names (strict), shim counts, declared and set dims, declared
    parameters and their shapes, and serializable attributes (strict). *)
Theorem C13_can_from_dict_iff :
  forall (V A Y S : Type) (EY : EqD Y) (ser : A -> option Y) (shape : V -> list nat) strict (s : sstate V A S) root (msg : message V Y),
    wf_model s root -> wf_message msg ->
    exists b, can_from_dict ser shape strict s root msg = Ok b /\
      (b = true <-> length (m_nodes msg) = length (walk (graph_of (s_nodes s)) Bfs root) /\
         forall i a n inf attrs params data, entry s root msg i a n inf attrs params data ->
           accepts ser shape strict n inf attrs params data).
Proof. exact (fun V A Y S => @can_from_dict_iff V A Y S). Qed.
Print Assumptions C13_can_from_dict_iff.

(** C13. If [can_from_dict] returns True and every reference in the message is to a node below its
    owner, [from_dict] succeeds. *)
Theorem C13_accepted_loads :
  forall (V A Y S : Type) (EY : EqD Y) (ser : A -> option Y) (deser : option A -> Y -> A) (shim_to : S -> Y) (shim_from : S -> Y -> S)
    (shape : V -> list nat) strict (s : sstate V A S) root (msg : message V Y),
    wf_model s root -> wf_message msg ->
    can_from_dict ser shape strict s root msg = Ok true ->
    (forall i a n inf attrs params data, entry s root msg i a n inf attrs params data ->
       forall nm j, dget nm (i_refs inf) = Some (Some j) ->
          exists b, nth_error (walk (graph_of (s_nodes s)) Bfs root) j = Some b /\ reach (graph_of (s_nodes s)) a b) ->
    snd (from_dict deser shim_from s root msg) = Ok tt.
Proof. exact (fun V A Y S => @accepted_loads V A Y S). Qed.
Print Assumptions C13_accepted_loads.

(** C12. A reference to a node outside the model cannot be written. *)
Theorem C12_dangling_reference :
  forall (V A Y S : Type) (ser : A -> option Y) (shim_to : S -> Y) (s : sstate V A S) root a n nm b nb,
    (forall x, In x (walk (graph_of (s_nodes s)) Bfs root) -> nth_error (s_nodes s) x <> None) ->
    In a (walk (graph_of (s_nodes s)) Bfs root) -> nth_error (s_nodes s) a = Some n -> In nm (dkeys (n_refs n)) -> get_ref n nm = Ok b -> nth_error (s_nodes s) b = Some nb ->
    (forall x m, In x (walk (graph_of (s_nodes s)) Bfs root) -> nth_error (s_nodes s) x = Some m -> n_id m <> n_id nb) ->
    to_dict ser shim_to s root = Err ValueError.
Proof. exact (fun V A Y S => @to_dict_dangling V A Y S). Qed.
Print Assumptions C12_dangling_reference.

(** C13. A different number of nodes: ValueError, nothing changed, and [can_from_dict] is False. *)
Theorem C13_length_mismatch :
  forall (V A Y S : Type) (EY : EqD Y) (ser : A -> option Y) (deser : option A -> Y -> A) (shim_from : S -> Y -> S)
    (shape : V -> list nat) strict (s : sstate V A S) root (msg : message V Y),
    length (m_nodes msg) <> length (walk (graph_of (s_nodes s)) Bfs root) ->
    from_dict deser shim_from s root msg = (s, Err ValueError) /\ can_from_dict ser shape strict s root msg = Ok false.
Proof. exact (fun V A Y S => @length_mismatch V A Y S). Qed.
Print Assumptions C13_length_mismatch.

Example C13_ex :
  wf_model ex_s1 0 /\
  (exists msg, to_dict ex_ser (fun v => v) ex_s1 0 = Ok msg /\ wf_message msg /\
     can_from_dict ex_ser (fun _ => []) true ex_s1 0 msg = Ok true /\
     can_from_dict ex_ser (fun _ => []) true ex_s2 3 msg = Ok false /\
     can_from_dict ex_ser (fun _ => []) false ex_s2 3 msg = Ok true /\
     can_from_dict ex_ser (fun _ => []) false ex_s2 0 msg = Ok false).
Proof.
  split; [ex_wf 3|]. eexists. split; [vm_compute; reflexivity|]. split.
  - split; try reflexivity.
    + intros inf [<-|[<-|[<-|[]]]]; cbn; split; repeat constructor; cbn; intuition congruence.
    + intros d [<-|[<-|[<-|[]]]]; cbn; repeat constructor; cbn; intuition congruence.
    + intros d [<-|[<-|[<-|[]]]]; cbn; repeat constructor; cbn; intuition congruence.
  - repeat split; vm_compute; reflexivity.
Qed.

(** C13, finding: a failing [from_dict] leaves the model partially modified. *)
Theorem C13_partial_update_refuted :
  exists (s : sstate Z Z Z) msg s' e, from_dict (fun _ y => y) (fun _ y => y) s 0 msg = (s', Err e) /\
    map n_name (s_nodes s') <> map n_name (s_nodes s).
Proof. exact serial_partial_witness. Qed.
Print Assumptions C13_partial_update_refuted.
