(** Property C78: bytes and files. *)
From Coq Require Import String Lia.
From Verif Require Import SerialCheckProofs DiskSpec DiskProofs.
Local Open Scope string_scope.

(** Writing a model to a file and reading the file into a compatible model of the same structure: both succeed, the second model shows the
    data of the first, and serializes to the same bytes. *)
Theorem C78_round_trip : forall {V S B : Type} (shim_to : S -> pyval) (shim_from : S -> pyval -> S) (dumps : message V pyval -> B) (loads : B -> result (loaded_obj (message V pyval))) (empty : B) (s1 s2 : sstate V pyval S) r1 r2 (f gs : nat -> nat) path (fs : dict string (dirent B)),
  wf_model s1 r1 -> wf_model s2 r2 -> iso (graph_of (s_nodes s1)) r1 (graph_of (s_nodes s2)) r2 f ->
    (forall a n1 n2, reach (graph_of (s_nodes s1)) r1 a -> nth_error (s_nodes s1) a = Some n1 -> nth_error (s_nodes s2) (f a) = Some n2 -> compatible serialize_attr deserialize_attr gs n1 n2) ->
    (forall v w, shim_to (shim_from v (shim_to w)) = shim_to w) -> (forall msg, loads (dumps msg) = Ok (LMsg msg)) -> dget path fs <> Some Dir ->
    exists fs' s2', to_disk shim_to dumps empty s1 r1 path fs = (fs', None) /\ from_disk shim_from loads s2 r2 path fs' = (s2', None) /\ to_bytes shim_to dumps s2' r2 = to_bytes shim_to dumps s1 r1 /\
    forall a n1, reach (graph_of (s_nodes s1)) r1 a -> nth_error (s_nodes s1) a = Some n1 -> exists n', nth_error (s_nodes s2') (f a) = Some n' /\ same_data serialize_attr f n1 n'.
Proof. exact @disk_round_trip. Qed.
Print Assumptions C78_round_trip.

(** [to_disk] writes this file and no other. *)
Theorem C78_to_disk : forall {V S B : Type} (shim_to : S -> pyval) (dumps : message V pyval -> B) (empty : B) (s : sstate V pyval S) root path (fs : dict string (dirent B)) msg,
  dget path fs <> Some Dir -> to_dict serialize_attr shim_to s root = Ok msg ->
    exists fs', to_disk shim_to dumps empty s root path fs = (fs', None) /\ dget path fs' = Some (File (dumps msg)) /\ forall p, p <> path -> dget p fs' = dget p fs.
Proof. exact @to_disk_ok. Qed.
Print Assumptions C78_to_disk.

(** Refuted: if a model cannot be serialized, the file that was there is kept. It is emptied first, and stays empty. *)
Theorem C78_to_disk_erases_refuted : forall {V S B : Type} (shim_to : S -> pyval) (dumps : message V pyval -> B) (empty : B) (s : sstate V pyval S) root path (fs : dict string (dirent B)) e,
  dget path fs <> Some Dir -> to_dict serialize_attr shim_to s root = Err e ->
    exists fs', to_disk shim_to dumps empty s root path fs = (fs', Some (Raised e)) /\ dget path fs' = Some (File empty).
Proof. exact @to_disk_erases. Qed.
Print Assumptions C78_to_disk_erases_refuted.

(** A directory is not touched. *)
Theorem C78_to_disk_directory : forall {V S B : Type} (shim_to : S -> pyval) (dumps : message V pyval -> B) (empty : B) (s : sstate V pyval S) root path (fs : dict string (dirent B)),
  dget path fs = Some Dir -> to_disk shim_to dumps empty s root path fs = (fs, Some IsADirectory).
Proof. exact @to_disk_dir. Qed.
Print Assumptions C78_to_disk_directory.

(** What [from_disk] can do. *)
Theorem C78_from_disk : forall {V S B : Type} (shim_from : S -> pyval -> S) (loads : B -> result (loaded_obj (message V pyval))) (s : sstate V pyval S) root path (fs : dict string (dirent B)),
  from_disk shim_from loads s root path fs = (s, Some FileNotFound) /\ dget path fs = None \/
    from_disk shim_from loads s root path fs = (s, Some IsADirectory) /\ dget path fs = Some Dir \/
    exists b, dget path fs = Some (File b) /\ from_disk shim_from loads s root path fs = (fst (from_bytes shim_from loads s root b), fails (snd (from_bytes shim_from loads s root b))).
Proof. exact @from_disk_raises. Qed.
Print Assumptions C78_from_disk.

(** [can_from_disk] says yes exactly if there is a file with a message that fits. *)
Theorem C78_can_from_disk_iff : forall {V S B : Type} (shape : V -> list nat) {EP : EqD pyval} (loads : B -> result (loaded_obj (message V pyval))) strict (s : sstate V pyval S) root path (fs : dict string (dirent B)),
  can_from_disk shape loads strict s root path fs = Ok true <->
    exists b msg, dget path fs = Some (File b) /\ loads b = Ok (LMsg msg) /\ can_from_dict serialize_attr shape strict s root msg = Ok true.
Proof. exact @can_from_disk_iff. Qed.
Print Assumptions C78_can_from_disk_iff.

(** Then [from_disk] succeeds, if the references in the message are to nodes below their owners. *)
Theorem C78_accepted_loads : forall {V S B : Type} (shim_to : S -> pyval) (shim_from : S -> pyval -> S) (shape : V -> list nat) {EP : EqD pyval} (loads : B -> result (loaded_obj (message V pyval))) strict (s : sstate V pyval S) root path (fs : dict string (dirent B)) b msg,
  wf_model s root -> wf_message msg ->
    dget path fs = Some (File b) -> loads b = Ok (LMsg msg) -> can_from_disk shape loads strict s root path fs = Ok true ->
    (forall i a n inf attrs params data, entry s root msg i a n inf attrs params data -> forall nm j, dget nm (i_refs inf) = Some (Some j) ->
    exists b, nth_error (walk (graph_of (s_nodes s)) Bfs root) j = Some b /\ reach (graph_of (s_nodes s)) a b) ->
    snd (from_disk shim_from loads s root path fs) = None.
Proof. exact @accepted_disk. Qed.
Print Assumptions C78_accepted_loads.

(** Bytes that are not msgpack, or a dictionary without nodes: no, and loading raises ValueError. *)
Theorem C78_can_from_bytes : forall {V S B : Type} (shim_from : S -> pyval -> S) (shape : V -> list nat) {EP : EqD pyval} (loads : B -> result (loaded_obj (message V pyval))) strict (s : sstate V pyval S) root b,
  loads b = Err ValueError \/ loads b = Ok LDict -> can_from_bytes shape loads strict s root b = Ok false /\ from_bytes shim_from loads s root b = (s, Err ValueError).
Proof. exact @can_from_bytes_false. Qed.
Print Assumptions C78_can_from_bytes.

(** Refuted: [can_from_bytes] always gives an answer. For bytes that hold something else than a dictionary it raises. *)
Theorem C78_can_from_bytes_refuted : forall {V S B : Type} (shape : V -> list nat) {EP : EqD pyval} (loads : B -> result (loaded_obj (message V pyval))) strict (s : sstate V pyval S) root b,
  loads b = Ok LOther -> can_from_bytes shape loads strict s root b = Err AttributeError.
Proof. exact @can_from_bytes_raises. Qed.
Print Assumptions C78_can_from_bytes_refuted.

(** Shims are serialized first: a failure leaves all files as they were. *)
Theorem C78_shim_to_disk : forall {S B : Type} (empty : B) (shim_to_bytes : S -> result B) x path (fs : dict string (dirent B)) e,
  shim_to_bytes x = Err e -> shim_to_disk empty shim_to_bytes x path fs = (fs, Some (Raised e)).
Proof. exact @shim_to_disk_safe. Qed.
Print Assumptions C78_shim_to_disk.

(** Otherwise another shim reads what the shim wrote. *)
Theorem C78_shim_disk : forall {S B : Type} (empty : B) (shim_to_bytes : S -> result B) (shim_from_bytes : S -> B -> S * result unit) x y path (fs : dict string (dirent B)) b,
  shim_to_bytes x = Ok b -> dget path fs <> Some Dir -> exists fs', shim_to_disk empty shim_to_bytes x path fs = (fs', None) /\
    (forall p, p <> path -> dget p fs' = dget p fs) /\ shim_from_disk shim_from_bytes y path fs' = (fst (shim_from_bytes y b), fails (snd (shim_from_bytes y b))).
Proof. exact @shim_disk. Qed.
Print Assumptions C78_shim_disk.

(** An attribute is written exactly if it consists of values that msgpack knows; others are left out. *)
Theorem C78_attr_written : forall v,
  writable v <-> pack v <> None.
Proof. exact @pack_writable. Qed.
Print Assumptions C78_attr_written.

(** What is read is written as the same again. *)
Theorem C78_attr_idempotent : forall v,
  forall w, pack v = Some w -> pack w = Some w /\ tuple_free w.
Proof. exact @pack_idem. Qed.
Print Assumptions C78_attr_idempotent.

(** An attribute is read as it was exactly if there are no tuples in it. *)
Theorem C78_attr_same_iff : forall v w,
  pack v = Some w -> (tuple_free v <-> w = v).
Proof. exact @pack_same. Qed.
Print Assumptions C78_attr_same_iff.

(** Refuted: a model that was written and read computes the same. The index (0, 1) of array_getitem comes back as the list [0, 1]: instead of one element it takes two rows. *)
Theorem C78_getitem_refuted : exists v w ix ix' (X : nd Z), pack v = Some w /\ index_of v = Some ix /\ index_of w = Some ix' /\
  (exists y b, array_getitem (G := unit) 0%Z ix X = Ok (mkNd [] [y], b)) /\ (exists Y b, array_getitem (G := unit) 0%Z ix' X = Ok (mkNd [2; 2] Y, b)).
Proof. exact @getitem_changes. Qed.
Print Assumptions C78_getitem_refuted.

(** ** The hypotheses can be met *)
Definition dex_dumps (m : message Z pyval) : option (message Z pyval) := Some m.
Definition dex_loads (b : option (message Z pyval)) : result (loaded_obj (message Z pyval)) := match b with Some m => Ok (LMsg m) | None => Err ValueError end.
Definition dex_node (id : Z) (ls : list nat) (W : bool) (refs : dict string (option nat)) (attrs : dict string pyval) : node Z pyval :=
  mkNode id "layer" 0 ls [] [("nO", None)] [("W", W)] (if W then [("W", 7%Z)] else []) [] refs attrs.
Definition dex_s : sstate Z pyval unit := mkS [dex_node 1 [1] true [("out", Some 1)] [("k", VList [VInt 3]); ("f", VObj 0)]; dex_node 2 [] false [] []] [].
(** One model with a layer, written and read; then, with a reference to a node outside, the file is empty. *)
Example C78_ex : exists fs msg, to_disk (fun _ => VNone) dex_dumps None dex_s 0 "m" [("m", File None); ("d", Dir)] = (fs, None) /\
  dget "m" fs = Some (File (Some msg)) /\ dex_loads (Some msg) = Ok (LMsg msg) /\ m_attrs msg = [[("k", VList [VInt 3])]; []] /\
  from_disk (fun _ _ => tt) dex_loads dex_s 0 "m" fs = (dex_s, None) /\ dget "d" fs = Some Dir /\ can_from_disk (H := pyval_dec) (fun _ => []) dex_loads true dex_s 0 "m" fs = Ok true /\
  can_from_disk (H := pyval_dec) (fun _ => []) dex_loads true dex_s 1 "m" fs = Ok false.
Proof. eexists. eexists. split; [vm_compute; reflexivity|]. repeat split; vm_compute; reflexivity. Qed.
Example C78_erases_ex : exists fs, to_dict serialize_attr (fun _ => VNone) (mkS [dex_node 1 [] true [("out", Some 1)] []; dex_node 2 [] false [] []] ([] : list unit)) 0 = Err ValueError /\
  to_disk (fun _ => VNone) dex_dumps None (mkS [dex_node 1 [] true [("out", Some 1)] []; dex_node 2 [] false [] []] ([] : list unit)) 0 "m" [("m", File (Some (mkMsg [] [] [] [])))] = (fs, Some (Raised ValueError)) /\
  dget "m" fs = Some (File None).
Proof. eexists. split; [vm_compute; reflexivity|]. split; vm_compute; reflexivity. Qed.
Example C78_attr_ex : pack (VDict [("a", VTuple [VInt 1; VList [VStr "x"]])]) = Some (VDict [("a", VList [VInt 1; VList [VStr "x"]])]) /\ pack (VTuple [VObj 0]) = None /\
  tuple_free (VList [VInt 1]) /\ writable (VTuple [VInt 1]).
Proof. split; [reflexivity|]. split; [reflexivity|]. split; constructor; intros v [<-|[]]; constructor. Qed.
Example C78_round_trip_ex : wf_model dex_s 0 /\ iso (graph_of (s_nodes dex_s)) 0 (graph_of (s_nodes dex_s)) 0 (fun a => a) /\
  (forall a n1 n2, reach (graph_of (s_nodes dex_s)) 0 a -> nth_error (s_nodes dex_s) a = Some n1 -> nth_error (s_nodes dex_s) a = Some n2 -> compatible serialize_attr deserialize_attr (fun x => x) n1 n2) /\
  (forall v w : unit, (fun _ : unit => VNone) ((fun _ (_ : pyval) => tt) v ((fun _ : unit => VNone) w)) = VNone) /\ (forall msg, dex_loads (dex_dumps msg) = Ok (LMsg msg)).
Proof.
  split; [|split; [|split; [|split]]].
  - ex_wf 2.
  - split; [reflexivity| |auto]. intros a _. now rewrite map_id.
  - intros a n1 n2 _ H1 H2. rewrite H1 in H2. injection H2 as <-. do 2 (destruct a as [|a]; [injection H1 as <-; split; cbn; [split; [reflexivity|]; intros d; right; reflexivity|reflexivity|reflexivity|
      split; [reflexivity|]; intros k v w; repeat (match goal with |- context [eqd ?x ?y] => destruct (eqd x y) end); try discriminate; intros Hv Hw; injection Hv as <-; injection Hw as <-; reflexivity|reflexivity]|]). destruct a; discriminate.
  - reflexivity.
  - reflexivity.
Qed.

(** Bytes that msgpack cannot read, or that are no dictionary: the errors, and the model is left as it is. Only ValueError makes can_from_bytes false. *)
Theorem C78_from_bytes_errors : forall {V S B : Type} (shim_from : S -> pyval -> S) (shape : V -> list nat) {EP : EqD pyval} (loads : B -> result (loaded_obj (message V pyval))) strict (s : sstate V pyval S) root b,
  (loads b = Ok LOther -> from_bytes shim_from loads s root b = (s, Err AttributeError)) /\
  (forall e, loads b = Err e -> from_bytes shim_from loads s root b = (s, Err e) /\ (e <> ValueError -> can_from_bytes shape loads strict s root b = Err e)).
Proof. exact @from_bytes_other. Qed.
Print Assumptions C78_from_bytes_errors.
