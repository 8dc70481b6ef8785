(** Proofs about bytes and files. *)
From Coq Require Import String Lia.
From Verif Require Import DictModel DictFacts EditProofs DiskSpec SerialProofs RoundTripProofs SerialCheckProofs.
Set Default Goal Selector "!".
Local Open Scope string_scope.

(** ** Values *)
Fixpoint pyval_dec (x y : pyval) : {x = y} + {x <> y}.
Proof.
  decide equality; try apply Bool.bool_dec; try apply Z.eq_dec; try apply string_dec; try apply Nat.eq_dec; apply list_eq_dec; [exact pyval_dec..|].
  intros [k v] [k' v']. destruct (string_dec k k') as [->|N]; [|right; congruence]. destruct (pyval_dec v v') as [->|N]; [now left|right; congruence].
Defined.
Lemma pack_list_iff f l w : pack_list f l = Some w <-> Forall2 (fun v w => f v = Some w) l w.
Proof.
  revert w. induction l as [|v l IH]; intros w; cbn; [split; [intros E; injection E as <-; constructor|intros E; now inversion E]|]. split.
  - destruct (f v) as [x|] eqn:E; [|discriminate]. fold (pack_list f l). destruct (pack_list f l) as [xs|]; [|discriminate]. intros Q. injection Q as <-. constructor; [exact E|now apply IH].
  - intros F. inversion F as [|? x ? xs E F']; subst. rewrite E. fold (pack_list f l). apply IH in F'. now rewrite F'.
Qed.
Lemma pack_dict_iff f d w : pack_dict f d = Some w <-> Forall2 (fun p q => fst p = fst q /\ f (snd p) = Some (snd q)) d w.
Proof.
  revert w. induction d as [|[k v] d IH]; intros w; cbn; [split; [intros E; injection E as <-; constructor|intros E; now inversion E]|]. split.
  - destruct (f v) as [x|] eqn:E; [|discriminate]. fold (pack_dict f d). destruct (pack_dict f d) as [xs|]; [|discriminate]. intros Q. injection Q as <-. constructor; [now split|now apply IH].
  - intros F. inversion F as [|? [k' x] ? xs [E1 E2] F']; subst. cbn in *. subst k'. rewrite E2. fold (pack_dict f d). apply IH in F'. now rewrite F'.
Qed.
Lemma pack_idem v : forall w, pack v = Some w -> pack w = Some w /\ tuple_free w.
Proof.
  assert (L : forall l, Forall (fun v => forall w, pack v = Some w -> pack w = Some w /\ tuple_free w) l -> forall w, pack_list pack l = Some w -> pack (VList w) = Some (VList w) /\ tuple_free (VList w)).
  { intros l F w E. apply pack_list_iff in E. assert (G : Forall (fun w => pack w = Some w /\ tuple_free w) w).
    { induction E; constructor; inversion F; subst; auto. }
    split.
    - cbn. replace (pack_list pack w) with (Some w); [reflexivity|]. symmetry. apply pack_list_iff. clear E. induction G as [|x w [Gx _] G IG]; constructor; auto.
    - constructor. intros u I. apply (proj1 (Forall_forall _ _) G) in I. tauto. }
  induction v as [|b|z|z|s|s|l F|l F|d F|k] using pyval_ind'; intros w E; try (injection E as <-; split; [reflexivity|constructor]); try discriminate.
  - cbn in E. destruct (pack_list pack l) as [l'|] eqn:E'; [|discriminate]. injection E as <-. now apply (L l).
  - cbn in E. destruct (pack_list pack l) as [l'|] eqn:E'; [|discriminate]. injection E as <-. now apply (L l).
  - cbn in E. destruct (pack_dict pack d) as [d'|] eqn:E'; [|discriminate]. injection E as <-. apply pack_dict_iff in E'.
    assert (G : Forall (fun p => pack (snd p) = Some (snd p) /\ tuple_free (snd p)) d').
    { induction E' as [|p q d d' [E1 E2] E' IE]; constructor; inversion F; subst; auto. }
    split.
    + cbn. replace (pack_dict pack d') with (Some d'); [reflexivity|]. symmetry. apply pack_dict_iff. clear E'. induction G as [|x w [Gx _] G IG]; constructor; auto.
    + constructor. intros k v I. apply (proj1 (Forall_forall _ _) G) in I. tauto.
Qed.
Lemma pack_writable v : writable v <-> pack v <> None.
Proof.
  assert (L : forall l, Forall (fun v => writable v <-> pack v <> None) l -> (forall v, In v l -> writable v) <-> pack_list pack l <> None).
  { intros l F. induction F as [|u l Hv F IH]; [cbn; split; [discriminate|intros _ u []]|]. cbn. fold (pack_list pack l). split.
    - intros A. assert (A1 : pack u <> None) by (apply Hv, A; now left). assert (A2 : pack_list pack l <> None) by (apply IH; intros; apply A; now right).
      destruct (pack u), (pack_list pack l); congruence.
    - intros N x [<-|I]; [apply Hv|apply IH; [|exact I]]; intros Q; rewrite Q in N; destruct (pack u); congruence. }
  induction v as [|b|z|z|s|s|l F|l F|d F|k] using pyval_ind'; try (split; [discriminate|constructor]).
  - specialize (L l F). split.
    + intros W. inversion W as [| | | | | |? A| |]; subst. apply L in A. cbn. destruct (pack_list pack l); congruence.
    + intros N. constructor. apply L. cbn in N. destruct (pack_list pack l); congruence.
  - specialize (L l F). split.
    + intros W. inversion W as [| | | | | | |? A|]; subst. apply L in A. cbn. destruct (pack_list pack l); congruence.
    + intros N. constructor. apply L. cbn in N. destruct (pack_list pack l); congruence.
  - assert (LD : (forall k v, In (k, v) d -> writable v) <-> pack_dict pack d <> None).
    { induction F as [|[k v] d Hv F IH]; [cbn; split; [discriminate|intros _ k v []]|]. cbn in *. fold (pack_dict pack d). split.
      - intros A. assert (A1 : pack v <> None) by (apply Hv, (A k v); now left). assert (A2 : pack_dict pack d <> None) by (apply IH; intros k' x I; apply (A k' x); now right).
        destruct (pack v), (pack_dict pack d); congruence.
      - intros N k' x [Q|I]; [injection Q as <- <-; apply Hv|apply (proj2 IH) with (k := k'); [|exact I]]; intros Q; rewrite Q in N; destruct (pack v); congruence. }
    split.
    + intros W. inversion W as [| | | | | | | |? A]; subst. apply LD in A. cbn. destruct (pack_dict pack d); congruence.
    + intros N. constructor. apply LD. cbn in N. destruct (pack_dict pack d); congruence.
  - split; [intros W; inversion W|intros N; now destruct N].
Qed.
Lemma pack_same v w : pack v = Some w -> (tuple_free v <-> w = v).
Proof.
  intros E. split; [|intros ->; exact (proj2 (pack_idem _ _ E))]. revert w E.
  assert (L : forall l, Forall (fun v => forall w, pack v = Some w -> tuple_free v -> w = v) l -> (forall v, In v l -> tuple_free v) -> forall w, pack_list pack l = Some w -> w = l).
  { intros l F A w E. apply pack_list_iff in E. induction E as [|u w l l' Ev E IE]; [reflexivity|]. inversion F; subst. f_equal; [apply H1; [exact Ev|apply A; now left]|apply IE; [assumption|]]. intros; apply A; now right. }
  induction v as [|b|z|z|s|s|l F|l F|d F|k] using pyval_ind'; intros w E T; try (injection E as <-; reflexivity); try discriminate.
  - cbn in E. destruct (pack_list pack l) as [l'|] eqn:E'; [|discriminate]. injection E as <-. f_equal. inversion T; subst. now apply (L l).
  - inversion T.
  - cbn in E. destruct (pack_dict pack d) as [d'|] eqn:E'; [|discriminate]. injection E as <-. f_equal. inversion T as [| | | | | | |? A|]; subst. apply pack_dict_iff in E'. clear T.
    induction E' as [|[k v] [k' w] d d' [E1 E2] E' IE]; [reflexivity|]. inversion F; subst. cbn in *. subst k'. f_equal; [f_equal; apply H1; [exact E2|apply (A k v); now left]|apply IE; [assumption|]]. intros k' x I. apply (A k' x). now right.
Qed.

(** ** Files *)
Section Disk.
  Context {V S B : Type} (shim_to : S -> pyval) (shim_from : S -> pyval -> S) (shape : V -> list nat) {EP : EqD pyval}
    (dumps : message V pyval -> B) (loads : B -> result (loaded_obj (message V pyval))) (empty : B).
  Notation sstate := (sstate V pyval S).
  Notation files := (dict string (dirent B)).
  Notation to_disk := (to_disk shim_to dumps empty).
  Notation from_disk := (from_disk shim_from loads).
  Notation to_bytes := (to_bytes shim_to dumps).
  Notation from_bytes := (from_bytes shim_from loads).

  Lemma to_disk_ok (s : sstate) root path (fs : files) msg : dget path fs <> Some Dir -> to_dict serialize_attr shim_to s root = Ok msg ->
    exists fs', to_disk s root path fs = (fs', None) /\ dget path fs' = Some (File (dumps msg)) /\ forall p, p <> path -> dget p fs' = dget p fs.
  Proof.
    intros D E. unfold DiskModel.to_disk, open_wb. destruct (dget path fs) as [[b|]|] eqn:G; [|congruence|].
    - unfold DiskModel.to_bytes. rewrite E. cbn. eexists. split; [reflexivity|]. split; [apply dget_dset_same|]. intros p N. rewrite !dget_dset_other by congruence. reflexivity.
    - unfold DiskModel.to_bytes. rewrite E. cbn. eexists. split; [reflexivity|]. split; [apply dget_dset_same|]. intros p N. rewrite !dget_dset_other by congruence. reflexivity.
  Qed.
  Lemma to_disk_erases (s : sstate) root path (fs : files) e : dget path fs <> Some Dir -> to_dict serialize_attr shim_to s root = Err e ->
    exists fs', to_disk s root path fs = (fs', Some (Raised e)) /\ dget path fs' = Some (File empty).
  Proof.
    intros D E. unfold DiskModel.to_disk, open_wb. destruct (dget path fs) as [[b|]|] eqn:G; [|congruence|]; unfold DiskModel.to_bytes; rewrite E; cbn; eexists; (split; [reflexivity|apply dget_dset_same]).
  Qed.
  Lemma to_disk_dir (s : sstate) root path (fs : files) : dget path fs = Some Dir -> to_disk s root path fs = (fs, Some IsADirectory).
  Proof. intros D. unfold DiskModel.to_disk, open_wb. now rewrite D. Qed.
  Lemma from_disk_ok (s : sstate) root path (fs : files) msg : dget path fs = Some (File (dumps msg)) -> loads (dumps msg) = Ok (LMsg msg) ->
    from_disk s root path fs = (fst (from_dict deserialize_attr shim_from s root msg), fails (snd (from_dict deserialize_attr shim_from s root msg))).
  Proof. intros D L. unfold DiskModel.from_disk, read. rewrite D. unfold DiskModel.from_bytes. rewrite L. now destruct (from_dict _ _ _ _ _) as [s' r]. Qed.
  Lemma from_disk_raises (s : sstate) root path (fs : files) : from_disk s root path fs = (s, Some FileNotFound) /\ dget path fs = None \/
    from_disk s root path fs = (s, Some IsADirectory) /\ dget path fs = Some Dir \/
    exists b, dget path fs = Some (File b) /\ from_disk s root path fs = (fst (from_bytes s root b), fails (snd (from_bytes s root b))).
  Proof.
    unfold DiskModel.from_disk, read. destruct (dget path fs) as [[b|]|]; [right; right; exists b; split; [reflexivity|]|right; left; split; reflexivity|left; split; reflexivity].
    now destruct (DiskModel.from_bytes _ _ _ _ _) as [s' r].
  Qed.
  Lemma disk_round_trip (s1 s2 : sstate) r1 r2 (f gs : nat -> nat) path (fs : files) :
    wf_model s1 r1 -> wf_model s2 r2 -> iso (graph_of (s_nodes s1)) r1 (graph_of (s_nodes s2)) r2 f ->
    (forall a n1 n2, reach (graph_of (s_nodes s1)) r1 a -> nth_error (s_nodes s1) a = Some n1 -> nth_error (s_nodes s2) (f a) = Some n2 -> compatible serialize_attr deserialize_attr gs n1 n2) ->
    (forall v w, shim_to (shim_from v (shim_to w)) = shim_to w) -> (forall msg, loads (dumps msg) = Ok (LMsg msg)) -> dget path fs <> Some Dir ->
    exists fs' s2', to_disk s1 r1 path fs = (fs', None) /\ from_disk s2 r2 path fs' = (s2', None) /\ to_bytes s2' r2 = to_bytes s1 r1 /\
      forall a n1, reach (graph_of (s_nodes s1)) r1 a -> nth_error (s_nodes s1) a = Some n1 -> exists n', nth_error (s_nodes s2') (f a) = Some n' /\ same_data serialize_attr f n1 n'.
  Proof.
    intros W1 W2 I C Sh L D. destruct (round_trip serialize_attr deserialize_attr shim_to shim_from s1 s2 r1 r2 f gs W1 W2 I C Sh) as (msg & s2' & E1 & E2 & E3 & N & _).
    destruct (to_disk_ok s1 r1 path fs msg D E1) as (fs' & T & G & _). exists fs', s2'. split; [exact T|]. split; [|split].
    - rewrite (from_disk_ok s2 r2 path fs' msg G (L msg)). now rewrite E2.
    - unfold DiskModel.to_bytes. now rewrite E3, E1.
    - intros a n1 R Ha. assert (Hn : exists n2, nth_error (s_nodes s2) (f a) = Some n2).
      { destruct (nth_error (s_nodes s2) (f a)) as [n2|] eqn:Q; [eauto|exfalso]. apply nth_error_None in Q.
        assert (R2 : reach (graph_of (s_nodes s2)) r2 (f a)) by (rewrite <- (iso_root _ _ _ _ _ I); eapply reach_iso; eauto; exists 0; constructor).
        assert (Lt : f a < length (s_nodes s2)) by (apply (reach_in_heap (s_nodes s2) r2 (f a)); [|apply W2|exact R2]; intros y m l; apply (ws_closed _ _ W2)). lia. }
      destruct Hn as (n2 & Hn). destruct (N a n1 n2 R Ha Hn) as (n' & Hn' & SD & _). eauto.
  Qed.
  Lemma can_from_disk_iff strict (s : sstate) root path (fs : files) : can_from_disk shape loads strict s root path fs = Ok true <->
    exists b msg, dget path fs = Some (File b) /\ loads b = Ok (LMsg msg) /\ can_from_dict serialize_attr shape strict s root msg = Ok true.
  Proof.
    unfold can_from_disk, can_from_bytes. split.
    - destruct (dget path fs) as [[b|]|]; try discriminate. destruct (loads b) as [[msg| |]|e] eqn:L; try discriminate; [intros E; exists b, msg; auto|destruct e; discriminate].
    - intros (b & msg & -> & -> & E). exact E.
  Qed.
  Lemma can_from_bytes_raises strict (s : sstate) root b : loads b = Ok LOther -> can_from_bytes shape loads strict s root b = Err AttributeError.
  Proof. intros L. unfold can_from_bytes. now rewrite L. Qed.
  Lemma can_from_bytes_false strict (s : sstate) root b : loads b = Err ValueError \/ loads b = Ok LDict -> can_from_bytes shape loads strict s root b = Ok false /\ from_bytes s root b = (s, Err ValueError).
  Proof. intros [L|L]; unfold can_from_bytes, DiskModel.from_bytes; rewrite L; split; reflexivity. Qed.
  Lemma accepted_disk strict (s : sstate) root path (fs : files) b msg : wf_model s root -> wf_message msg ->
    dget path fs = Some (File b) -> loads b = Ok (LMsg msg) -> can_from_disk shape loads strict s root path fs = Ok true ->
    (forall i a n inf attrs params data, entry s root msg i a n inf attrs params data -> forall nm j, dget nm (i_refs inf) = Some (Some j) ->
       exists b, nth_error (walk (graph_of (s_nodes s)) Bfs root) j = Some b /\ reach (graph_of (s_nodes s)) a b) ->
    snd (from_disk s root path fs) = None.
  Proof.
    intros W M D L C R. unfold can_from_disk, can_from_bytes in C. rewrite D, L in C. pose proof (accepted_loads serialize_attr deserialize_attr shim_to shim_from shape strict s root msg W M C R) as A.
    unfold DiskModel.from_disk, read. rewrite D. unfold DiskModel.from_bytes. rewrite L. destruct (from_dict _ _ _ _ _) as [s' r]. cbn in *. now rewrite A.
  Qed.

  Variable shim_to_bytes : S -> result B.
  Variable shim_from_bytes : S -> B -> S * result unit.
  Lemma shim_to_disk_safe x path (fs : files) e : shim_to_bytes x = Err e -> shim_to_disk empty shim_to_bytes x path fs = (fs, Some (Raised e)).
  Proof. intros E. unfold shim_to_disk. now rewrite E. Qed.
  Lemma shim_disk x y path (fs : files) b : shim_to_bytes x = Ok b -> dget path fs <> Some Dir -> exists fs', shim_to_disk empty shim_to_bytes x path fs = (fs', None) /\
    (forall p, p <> path -> dget p fs' = dget p fs) /\ shim_from_disk shim_from_bytes y path fs' = (fst (shim_from_bytes y b), fails (snd (shim_from_bytes y b))).
  Proof.
    intros E D. unfold shim_to_disk. rewrite E. unfold open_wb. assert (R : forall fs0, shim_from_disk shim_from_bytes y path (dset path (File b) fs0) = (fst (shim_from_bytes y b), fails (snd (shim_from_bytes y b)))).
    { intros fs0. unfold shim_from_disk, read. rewrite dget_dset_same. now destruct (shim_from_bytes y b). }
    destruct (dget path fs) as [[c|]|]; [|congruence|]; eexists; (split; [reflexivity|split; [intros p N; rewrite !dget_dset_other by congruence; reflexivity|apply R]]).
  Qed.
End Disk.

(** ** An index that changes *)
Lemma getitem_changes : exists v w ix ix' (X : nd Z), pack v = Some w /\ index_of v = Some ix /\ index_of w = Some ix' /\
  (exists y b, array_getitem (G := unit) 0%Z ix X = Ok (mkNd [] [y], b)) /\ (exists Y b, array_getitem (G := unit) 0%Z ix' X = Ok (mkNd [2; 2] Y, b)).
Proof.
  exists (VTuple [VInt 0; VInt 1]), (VList [VInt 0; VInt 1]). eexists. eexists. exists (mkNd [2; 2] [1; 2; 3; 4]%Z). split; [reflexivity|]. split; [reflexivity|]. split; [reflexivity|].
  split; eexists; eexists; cbn; reflexivity.
Qed.

Lemma from_bytes_other {V S B : Type} (shim_from : S -> pyval -> S) (shape : V -> list nat) {EP : EqD pyval} (loads : B -> result (loaded_obj (message V pyval))) strict (s : sstate V pyval S) root b :
  (loads b = Ok LOther -> from_bytes shim_from loads s root b = (s, Err AttributeError)) /\
  (forall e, loads b = Err e -> from_bytes shim_from loads s root b = (s, Err e) /\ (e <> ValueError -> can_from_bytes shape loads strict s root b = Err e)).
Proof.
  unfold from_bytes, can_from_bytes. split; [intros ->; reflexivity|]. intros e ->. split; [reflexivity|]. intros H. destruct e; try reflexivity. congruence.
Qed.
