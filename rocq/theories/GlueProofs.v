(** Proofs about the small pieces. *)
From Coq Require Import String Reals Lra Lia ZArith.
From Verif Require Import DictFacts GlueSpec GraphProofs.
Local Open Scope string_scope.
Local Open Scope list_scope.
Local Open Scope nat_scope.
Set Default Goal Selector "!".

(** ** Allocators *)
Lemma alloc_short n : (0 <= declared_bytes n - tensor_bytes n <= 3)%Z.
Proof. unfold declared_bytes, tensor_bytes. pose proof (Z.div_mod (Z.max 1024 n) 4). pose proof (Z.mod_pos_bound (Z.max 1024 n) 4). lia. Qed.
Lemma alloc_exact n : tensor_bytes n = declared_bytes n <-> (n <= 1024 \/ n mod 4 = 0)%Z.
Proof.
  unfold declared_bytes, tensor_bytes. destruct (Z.le_gt_cases n 1024) as [Hn|Hn].
  - rewrite Z.max_l by lia. split; [tauto|reflexivity].
  - rewrite Z.max_r by lia. pose proof (Z.div_mod n 4). lia.
Qed.
Lemma alloc_short_refuted : (tensor_bytes 1027 < 1027 /\ declared_bytes 1027 = 1027)%Z.
Proof. split; reflexivity. Qed.
Lemma alloc_enough n : (n mod 4 = 0 -> n <= tensor_bytes n)%Z.
Proof. intros Hn. unfold tensor_bytes. destruct (Z.le_gt_cases n 1024); [rewrite Z.max_l by lia; change (4 * (1024 / 4))%Z with 1024%Z; lia|].
  rewrite Z.max_r by lia. pose proof (Z.div_mod n 4). lia. Qed.

(** ** Kernels *)
Section Lazy.
  Context {K : Type}.
  Variable compile : nat -> result (option K).
  Lemma calls_have k t n : lazy_calls compile n (mkLazy (Some k) t) = (mkLazy (Some k) t, repeat (Ok k) n).
  Proof. induction n as [|n IH]; [reflexivity|]. cbn. rewrite IH. reflexivity. Qed.
  Lemma calls_none t n : (forall j k, t <= j < t + n -> compile j <> Ok (Some k)) ->
    lazy_calls compile n (mkLazy None t) =
    (mkLazy None (t + n), map (fun j => match compile j with Ok _ => Err ValueError | Err e => Err e end) (seq t n)).
  Proof.
    revert t. induction n as [|n IH]; intros t Hn; [cbn; rewrite Nat.add_0_r; reflexivity|].
    cbn [lazy_calls seq map]. unfold lazy_call, compile_kernel. cbn [lk_kernel lk_tries]. replace (t + S n) with (S t + n) by lia.
    destruct (compile t) as [[k|]|e] eqn:E; [exfalso; apply (Hn t k); [lia|exact E]| |];
      rewrite IH by (intros j k Hj; apply Hn; lia); reflexivity.
  Qed.
  Lemma lazy_fails n : (forall j k, j < n -> compile j <> Ok (Some k)) ->
    lazy_calls compile n lazy_init =
    (mkLazy None n, map (fun j => match compile j with Ok _ => Err ValueError | Err e => Err e end) (seq 0 n)).
  Proof. intros Hn. unfold lazy_init. rewrite calls_none; [reflexivity|]. intros j k Hj. apply Hn. lia. Qed.
  Lemma calls_app a b l :
    lazy_calls compile (a + b) l = let '(l1, r1) := lazy_calls compile a l in let '(l2, r2) := lazy_calls compile b l1 in (l2, r1 ++ r2).
  Proof.
    revert l. induction a as [|a IH]; intros l; cbn.
    - destruct (lazy_calls compile b l). reflexivity.
    - destruct (lazy_call compile l) as [l' r]. rewrite IH. destruct (lazy_calls compile a l') as [l1 r1]. destruct (lazy_calls compile b l1). reflexivity.
  Qed.
  Lemma lazy_once i k n : first_kernel compile i k ->
    lazy_calls compile (i + S n) lazy_init =
    (mkLazy (Some k) (S i), map (fun j => match compile j with Ok _ => Err ValueError | Err e => Err e end) (seq 0 i) ++ repeat (Ok k) (S n)).
  Proof.
    intros [Hk Hb]. rewrite calls_app. rewrite lazy_fails by (intros j k' Hj; apply Hb; exact Hj).
    cbn [lazy_calls]. unfold lazy_call, compile_kernel. cbn [lk_kernel lk_tries]. rewrite Hk. cbn [lk_kernel lk_tries]. rewrite calls_have. reflexivity.
  Qed.
End Lazy.
Lemma kernel_names v name cb : In (v, name, cb) lazy_kernels -> (cb = true <-> name = "hash_data") /\ (cb = false -> In name kernels_list).
Proof.
  assert (Hall : forallb (fun p => let '(v, name, cb) := p in (Bool.eqb cb (String.eqb name "hash_data") && (cb || memb name kernels_list))%bool) lazy_kernels = true)
    by (vm_compute; reflexivity).
  rewrite forallb_forall in Hall. intros Hi. specialize (Hall _ Hi). cbn in Hall. apply andb_prop in Hall. destruct Hall as [H1 H2].
  apply Bool.eqb_prop in H1. split.
  - rewrite H1. apply String.eqb_eq.
  - intros ->. cbn [orb] in H2. apply memb_true. exact H2.
Qed.
Lemma kernel_used name : In name kernels_list <-> exists v, In (v, name, false) lazy_kernels.
Proof.
  split.
  - assert (Hall : forallb (fun name => existsb (fun p => let '(v, nm, cb) := p in (String.eqb nm name && negb cb)%bool) lazy_kernels) kernels_list = true)
      by (vm_compute; reflexivity).
    rewrite forallb_forall in Hall. intros Hi. specialize (Hall _ Hi). apply existsb_exists in Hall. destruct Hall as [[[v nm] cb] [Hin Hc]].
    apply andb_prop in Hc. destruct Hc as [Hc Hb]. apply String.eqb_eq in Hc. destruct cb; [discriminate|]. subst. exists v. exact Hin.
  - intros [v Hv]. exact (proj2 (kernel_names _ _ _ Hv) eq_refl).
Qed.
Fixpoint nodupb (l : list string) : bool := match l with [] => true | x :: l' => (negb (existsb (String.eqb x) l') && nodupb l')%bool end.
Lemma nodupb_ok l : nodupb l = true -> NoDup l.
Proof.
  induction l as [|x l IH]; intros Hl; [constructor|]. cbn in Hl. apply andb_prop in Hl. destruct Hl as [Hx Hl]. constructor; [|apply IH; exact Hl].
  intros Hi. assert (He : existsb (String.eqb x) l = true) by (apply existsb_exists; exists x; split; [exact Hi|apply String.eqb_refl]).
  rewrite He in Hx. discriminate.
Qed.
Lemma kernel_variables : NoDup (map (fun p => fst (fst p)) lazy_kernels) /\ NoDup (map (fun p => snd (fst p)) lazy_kernels).
Proof. split; apply nodupb_ok; vm_compute; reflexivity. Qed.
Lemma kernel_compiles {K} (make : string -> K) mmh v name cb : In (v, name, cb) lazy_kernels ->
  exists k, source_of (Some (module_get make)) (Some mmh) name cb = Ok (Some k).
Proof.
  intros Hi. unfold source_of. destruct cb; [eexists; reflexivity|].
  pose proof (proj2 (kernel_names _ _ _ Hi) eq_refl) as Hn. unfold module_get. apply memb_true in Hn. rewrite Hn. eexists. reflexivity.
Qed.
Lemma kernel_no_gpu {K} v name cb n : In (v, name, cb) lazy_kernels ->
  snd (lazy_calls (fun _ => @source_of K None None name cb) n lazy_init) = repeat (Err ValueError) n.
Proof.
  intros _. rewrite lazy_fails by (intros j k _; unfold source_of; destruct cb; discriminate). cbn [snd].
  assert (Hs : @source_of K None None name cb = Ok None) by (unfold source_of; destruct cb; reflexivity). rewrite Hs.
  generalize 0. induction n as [|n IH]; intros s; [reflexivity|]. cbn. rewrite IH. reflexivity.
Qed.

(** ** Registries *)
Section Registry.
  Context {R : Type}.
  Variable make : string -> bool -> R.
  Lemma create_new attrs name ep : dmem name attrs = false ->
    exists attrs', registry_create make attrs name ep = Ok attrs' /\ dget name attrs' = Some (make name ep)
      /\ (forall other, other <> name -> dget other attrs' = dget other attrs)
      /\ (forall ep', registry_create make attrs' name ep' = Err ValueError).
  Proof.
    intros Hn. unfold registry_create. rewrite Hn. eexists. split; [reflexivity|]. split; [apply dget_dset_same|]. split.
    - intros other Ho. apply dget_dset_other. exact Ho.
    - intros ep'. unfold dmem. rewrite dget_dset_same. reflexivity.
  Qed.
  Lemma create_existing attrs name ep : dmem name attrs = true -> registry_create make attrs name ep = Err ValueError.
  Proof. intros Hn. unfold registry_create. rewrite Hn. reflexivity. Qed.
End Registry.

(** ** SparseLinear *)
Section SparseDevice.
  Context {T : Type} `{Num T}.
  Lemma sl_gpu_fails v1 nO len keys values lengths : exists e, sl_forward (sl_init (T := T) OnGpu v1 nO len) keys values lengths = Err e.
  Proof. destruct keys as [[] k], values as [[] v], lengths as [[] n]; eexists; reflexivity. Qed.
  Lemma sl_gpu_type_error s v1 nO len (k : list Z) (v : list T) (n : list Z) :
    sl_forward (sl_init (T := T) OnGpu v1 nO len) (s, k) (s, v) (s, n) = Err TypeError.
  Proof. destruct s; reflexivity. Qed.
  Lemma sl_forward_host m k v n : sl_ops m = OnHost -> fst (sl_W m) = OnHost -> fst (sl_b m) = OnHost -> forall s,
    sl_forward m (s, k) (s, v) (s, n) =
    (let* scores := sparse_forward (sl_v1 m) (sl_nO m) (sl_length m) (snd (sl_W m)) (snd (sl_b m)) k v n in Ok (s, scores)).
  Proof.
    intros Ho HW Hb s. destruct m as [o v1 nO len [wd W] [bd b]]. cbn in Ho, HW, Hb. subst. destruct s; cbn; [reflexivity|].
    destruct (sparse_forward v1 nO len W b k v n); reflexivity.
  Qed.
  Lemma sl_backward_host m k v n d : sl_ops m = OnHost -> forall s,
    sl_backward m (s, k) (s, v) (s, n) (s, d) = sparse_backward (sl_v1 m) (sl_nO m) (sl_length m) k v n d.
  Proof. intros Ho s. destruct m as [o v1 nO len W b]. cbn in Ho. subst. destruct s; reflexivity. Qed.
  Lemma sl_mixed_fails m (keys : sided (list Z)) (values : sided (list T)) (lengths : sided (list Z)) :
    fst keys <> fst values \/ fst keys <> fst lengths -> exists e, sl_forward m keys values lengths = Err e /\ (e = TypeError \/ e = AttributeError).
  Proof.
    destruct keys as [[] k], values as [[] v], lengths as [[] n]; cbn; intros [Hd|Hd]; try (exfalso; apply Hd; reflexivity);
      eexists; (split; [reflexivity|tauto]).
  Qed.
End SparseDevice.

(** ** PyTorchLSTM *)
Lemma plstm_width nO nI depth bi : depth <> 0%Z ->
  (torch_width (pytorch_lstm nO nI depth bi) = set_width (pytorch_lstm nO nI depth bi) <-> bi = false \/ (nO mod 2 = 0)%Z).
Proof.
  intros Hd. unfold pytorch_lstm. replace (depth =? 0)%Z with false by (symmetry; apply Z.eqb_neq; exact Hd). cbn [torch_width set_width].
  destruct bi.
  - pose proof (Z.div_mod nO 2). split; [intros Hs; assert (Hw : (2 * (nO / 2) = nO)%Z) by congruence; right; lia|intros [Hf|Hm]; [discriminate|f_equal; lia]].
  - split; [tauto|intros _; rewrite Z.mul_1_l; reflexivity].
Qed.
Lemma plstm_width_refuted : exists nO nI depth, torch_width (pytorch_lstm nO nI depth true) <> set_width (pytorch_lstm nO nI depth true).
Proof. exists 3%Z, 4%Z, 1%Z. discriminate. Qed.
Lemma plstm_noop nO nI depth bi : pytorch_lstm nO nI depth bi = TlNoop <-> depth = 0%Z.
Proof. unfold pytorch_lstm. destruct (Z.eqb_spec depth 0); split; intros Hx; try discriminate; try reflexivity; try contradiction; assumption. Qed.

(** ** Gradients *)
Section Gradients.
  Context {V A : Type}.
  Notation node := (node V A).
  Definition wanted (n : node) (name : string) (p g : V) : Prop :=
    In name (dkeys (n_has n)) /\ dget name (n_params n) = Some p /\ dget name (n_grads n) = Some g.
  Lemma grad_names_in (n : node) name : In name (grad_names n) <-> In name (dkeys (n_has n)) /\ dget name (n_grads n) <> None.
  Proof.
    unfold grad_names, param_names. rewrite filter_In. unfold has_grad, dmem. destruct (dget name (n_grads n)); intuition congruence.
  Qed.
  Lemma get_param_ok (n : node) name : In name (dkeys (n_has n)) -> get_param n name = match dget name (n_params n) with Some v => Ok v | None => Err KeyError end.
  Proof. intros Hi. unfold get_param. apply dget_key in Hi. destruct Hi as [b Hb]. rewrite Hb. destruct (dget name (n_params n)); reflexivity. Qed.
  Lemma add_names_ok (n : node) names : forall d d', (forall x, In x names -> In x (grad_names n)) -> add_names n names d = Ok d' ->
    forall id name p g, dget (id, name) d' = Some (p, g) <->
      (if (Z.eq_dec id (n_id n)) then (if in_dec string_dec name names then wanted n name p g else dget (id, name) d = Some (p, g))
       else dget (id, name) d = Some (p, g)).
  Proof.
    induction names as [|x names IH]; intros d d' Hs Ha id name p g.
    - cbn in Ha. injection Ha as <-. cbn. destruct (Z.eq_dec id (n_id n)); reflexivity.
    - cbn [add_names] in Ha. assert (Hx : In x (grad_names n)) by (apply Hs; left; reflexivity). apply grad_names_in in Hx. destruct Hx as [Hh Hg].
      rewrite (get_param_ok n x Hh) in Ha. destruct (dget x (n_params n)) as [px|] eqn:Ep; [|discriminate]. cbn in Ha.
      unfold NodeModel.get_grad in Ha. destruct (dget x (n_grads n)) as [gx|] eqn:Eg; [|contradiction]. cbn in Ha.
      rewrite (IH _ _ (fun y Hy => Hs y (or_intror Hy)) Ha). destruct (Z.eq_dec id (n_id n)) as [->|Hid].
      + destruct (in_dec string_dec name names) as [Hi|Hi].
        * destruct (in_dec string_dec name (x :: names)) as [_|Hf]; [reflexivity|exfalso; apply Hf; right; exact Hi].
        * destruct (in_dec string_dec name (x :: names)) as [[<-|Hf]|Hf]; [|contradiction|].
          -- rewrite dget_dset_same. unfold wanted. rewrite Ep, Eg. intuition congruence.
          -- rewrite dget_dset_other; [reflexivity|]. intros [= ->]. apply Hf. left. reflexivity.
      + rewrite dget_dset_other; [reflexivity|]. congruence.
  Qed.
  Lemma add_names_err (n : node) names : forall d, (forall x, In x names -> In x (grad_names n)) ->
    (exists x, In x names /\ dget x (n_params n) = None) -> add_names n names d = Err KeyError.
  Proof.
    induction names as [|x names IH]; intros d Hs [y [Hy Hn]]; [contradiction|]. cbn [add_names].
    assert (Hx : In x (grad_names n)) by (apply Hs; left; reflexivity). apply grad_names_in in Hx. destruct Hx as [Hh Hg].
    rewrite (get_param_ok n x Hh). destruct (dget x (n_params n)) as [px|] eqn:Ep; [|reflexivity]. cbn.
    unfold NodeModel.get_grad. destruct (dget x (n_grads n)) as [gx|]; [|contradiction]. cbn.
    apply IH; [intros z Hz; apply Hs; right; exact Hz|]. exists y. split; [|exact Hn]. destruct Hy as [->|Hy]; [congruence|exact Hy].
  Qed.
  Lemma add_names_fine (n : node) names : forall d, (forall x, In x names -> In x (grad_names n)) ->
    (forall x, In x names -> dget x (n_params n) <> None) -> exists d', add_names n names d = Ok d'.
  Proof.
    induction names as [|x names IH]; intros d Hs Hp; [eexists; reflexivity|]. cbn [add_names].
    assert (Hx : In x (grad_names n)) by (apply Hs; left; reflexivity). apply grad_names_in in Hx. destruct Hx as [Hh Hg].
    rewrite (get_param_ok n x Hh). destruct (dget x (n_params n)) as [px|] eqn:Ep; [|exfalso; exact (Hp x (or_introl eq_refl) Ep)]. cbn.
    unfold NodeModel.get_grad. destruct (dget x (n_grads n)) as [gx|]; [|contradiction]. cbn.
    apply IH; [intros z Hz; apply Hs; right; exact Hz|intros z Hz; apply Hp; right; exact Hz].
  Qed.
  Definition has_orphan (h : heap V A) (l : list addr) : Prop :=
    exists a n name, In a l /\ nth_error h a = Some n /\ In name (grad_names n) /\ dget name (n_params n) = None.
  Lemma orphan_names (n : node) :
    (exists x, In x (grad_names n) /\ dget x (n_params n) = None) \/ (forall x, In x (grad_names n) -> dget x (n_params n) <> None).
  Proof.
    induction (grad_names n) as [|x l IH]; [right; intros x []|]. destruct (dget x (n_params n)) eqn:E.
    - destruct IH as [[y [Hy Hn]]|Hf]; [left; exists y; split; [right; exact Hy|exact Hn]|right].
      intros y [<-|Hy]; [congruence|apply Hf; exact Hy].
    - left. exists x. split; [left; reflexivity|exact E].
  Qed.
  Lemma add_nodes_err (h : heap V A) l : forall d, (add_nodes h l d = Err KeyError /\ has_orphan h l) \/ ((exists d', add_nodes h l d = Ok d') /\ ~ has_orphan h l).
  Proof.
    induction l as [|a l IH]; intros d; cbn [add_nodes].
    - right. split; [eexists; reflexivity|]. intros (a & n & x & [] & _).
    - destruct (nth_error h a) as [n|] eqn:En.
      + destruct (orphan_names n) as [Ho|Ho].
        * left. rewrite add_names_err; [|intros x Hx; exact Hx|exact Ho]. split; [reflexivity|]. destruct Ho as [x [Hx Hn]].
          exists a, n, x. repeat split; [left; reflexivity|exact En|exact Hx|exact Hn].
        * destruct (add_names_fine n (grad_names n) d (fun x Hx => Hx) Ho) as [d' Hd]. rewrite Hd. cbn.
          destruct (IH d') as [[He Hh]|[Hd' Hh]]; [left|right]; (split; [assumption|]).
          -- destruct Hh as (b & m & x & Hb & Hr). exists b, m, x. split; [right; exact Hb|exact Hr].
          -- intros (b & m & x & [<-|Hb] & Hm & Hx & Hn); [rewrite En in Hm; injection Hm as <-; exact (Ho x Hx Hn)|].
             apply Hh. exists b, m, x. tauto.
      + destruct (IH d) as [[He Hh]|[Hd' Hh]]; [left|right]; (split; [assumption|]).
        -- destruct Hh as (b & m & x & Hb & Hr). exists b, m, x. split; [right; exact Hb|exact Hr].
        -- intros (b & m & x & [<-|Hb] & Hm & Hx & Hn); [congruence|]. apply Hh. exists b, m, x. tauto.
  Qed.
  Lemma add_nodes_ok (h : heap V A) l : forall d d', NoDup l ->
    (forall a b n m, In a l -> In b l -> nth_error h a = Some n -> nth_error h b = Some m -> n_id n = n_id m -> a = b) ->
    (forall a n name, In a l -> nth_error h a = Some n -> dget (n_id n, name) d = None) ->
    add_nodes h l d = Ok d' ->
    forall id name p g, dget (id, name) d' = Some (p, g) <->
      dget (id, name) d = Some (p, g) \/ exists a n, In a l /\ nth_error h a = Some n /\ n_id n = id /\ wanted n name p g.
  Proof.
    induction l as [|a l IH]; intros d d' Hnd Hid Hd Ha id name p g; cbn [add_nodes] in Ha.
    - injection Ha as <-. split; [tauto|]. intros [Hx|(a & n & [] & _)]. exact Hx.
    - inversion Hnd as [|a' l' Hal Hnl]; subst a' l'. destruct (nth_error h a) as [n|] eqn:En.
      + destruct (add_names n (grad_names n) d) as [d1|e] eqn:E1; [|discriminate]. cbn in Ha.
        pose proof (add_names_ok n (grad_names n) d d1 (fun x Hx => Hx) E1) as H1.
        assert (H1' : forall id name p g, dget (id, name) d1 = Some (p, g) <-> dget (id, name) d = Some (p, g) \/ (n_id n = id /\ wanted n name p g)).
        { intros i x q r. rewrite H1. destruct (Z.eq_dec i (n_id n)) as [->|Hi].
          - pose proof (Hd a n x (or_introl eq_refl) En) as Hnone. rewrite Hnone.
            destruct (in_dec string_dec x (grad_names n)) as [Hx|Hx].
            + split; [tauto|]. intros [Hf|[_ Hw]]; [discriminate|exact Hw].
            + split; [discriminate|]. intros [Hf|[_ Hw]]; [discriminate|]. exfalso. apply Hx. apply grad_names_in.
              destruct Hw as [Hw1 [_ Hw2]]. split; [exact Hw1|congruence].
          - split; [tauto|]. intros [Hx|[Hf _]]; [exact Hx|congruence]. }
        assert (Hd1 : forall b m x, In b l -> nth_error h b = Some m -> dget (n_id m, x) d1 = None).
        { intros b m x Hb Hm. destruct (dget (n_id m, x) d1) as [[q r]|] eqn:E; [|reflexivity]. exfalso. apply H1' in E. destruct E as [E|[E _]].
          - rewrite (Hd b m x (or_intror Hb) Hm) in E. discriminate.
          - assert (a = b) by (apply (Hid a b n m); [left; reflexivity|right; exact Hb|exact En|exact Hm|exact E]). subst. contradiction. }
        assert (Hid1 : forall a b n m, In a l -> In b l -> nth_error h a = Some n -> nth_error h b = Some m -> n_id n = n_id m -> a = b).
        { intros x y u v Hx Hy. apply Hid; right; assumption. }
        rewrite (IH d1 d' Hnl Hid1 Hd1 Ha). rewrite H1'. split.
        * intros [[Hx|[Hi Hw]]|(b & m & Hb & Hr)]; [tauto|right; exists a, n|right; exists b, m].
          -- repeat split; [left; reflexivity|exact En|exact Hi|apply Hw|apply Hw|apply Hw].
          -- split; [right; exact Hb|exact Hr].
        * intros [Hx|(b & m & [<-|Hb] & Hm & Hi & Hw)]; [tauto| |].
          -- rewrite En in Hm. injection Hm as <-. tauto.
          -- right. exists b, m. tauto.
      + rewrite (IH d d'); [|exact Hnl|intros x y u v Hx Hy; apply Hid; right; assumption|intros b m x Hb; apply Hd; right; exact Hb|exact Ha].
        split; (intros [Hx|(b & m & Hb & Hm & Hr)]; [tauto|right; exists b, m]).
        * split; [right; exact Hb|tauto].
        * destruct Hb as [<-|Hb]; [congruence|tauto].
  Qed.

  Lemma gradients_ok (h : heap V A) root d : ids_differ h root -> get_gradients h root = Ok d ->
    forall id name p g, dget (id, name) d = Some (p, g) <-> gradient_of h root id name p g.
  Proof.
    intros Hid Hd id name p g. unfold get_gradients in Hd. destruct (walk_exact (graph_of h) Bfs root) as [Hnd Hw].
    rewrite (add_nodes_ok h _ [] d Hnd); [| |intros; reflexivity|exact Hd].
    - unfold gradient_of. split.
      + intros [Hx|(a & n & Ha & Hn & Hi & H1 & H2 & H3)]; [discriminate|]. exists a, n. rewrite <- Hw. tauto.
      + intros (a & n & Ha & Hr). right. exists a, n. rewrite Hw. unfold wanted. tauto.
    - intros a b n m Ha Hb. apply Hid; apply Hw; assumption.
  Qed.
  Lemma gradients_error (h : heap V A) root : (exists e, get_gradients h root = Err e) <-> orphan h root.
  Proof.
    destruct (walk_exact (graph_of h) Bfs root) as [_ Hw].
    assert (Ho : has_orphan h (walk (graph_of h) Bfs root) <-> orphan h root).
    { split.
      - intros (a & n & x & Ha & Hn & Hx & Hp). exists a, n, x. apply grad_names_in in Hx. apply Hw in Ha. tauto.
      - intros (a & n & x & Ha & Hn & Hx & Hg & Hp). exists a, n, x. rewrite grad_names_in, Hw. tauto. }
    rewrite <- Ho. unfold get_gradients. destruct (add_nodes_err h (walk (graph_of h) Bfs root) []) as [[He Hh]|[[d' Hd] Hh]].
    - split; [intros _; exact Hh|intros _; exists KeyError; exact He].
    - split; [intros [e He]; congruence|intros Hx; contradiction].
  Qed.
  Lemma gradients_error_kind (h : heap V A) root e : get_gradients h root = Err e -> e = KeyError.
  Proof. intros He. unfold get_gradients in He. destruct (add_nodes_err h (walk (graph_of h) Bfs root) []) as [[Hk _]|[[d' Hd] _]]; congruence. Qed.
End Gradients.
Lemma gradients_zero_refuted : exists (h : heap Z unit) d, get_gradients h 0 = Ok d /\ dget (8%Z, "W") d = Some (10, 0)%Z.
Proof. exists ex_heap. eexists. split; [vm_compute; reflexivity|reflexivity]. Qed.

(** ** Conversions *)
Definition on_gpu (x : obj_kind) : bool := match x with CupyArray | TorchTensor (TCuda _) | TfTensor true | MxArray true => true | _ => false end.
Lemma torch2xp_place x o y : (exists d, x = TorchTensor d) -> torch2xp_kind x o = Ok y ->
  y = match o with WithNumpy => NumpyArray | WithCupy => CupyArray | NoOps => if is_torch_cuda_array x then CupyArray else NumpyArray end.
Proof. intros [d ->] Hy. destruct d, o; cbn in Hy; try discriminate; injection Hy as <-; reflexivity. Qed.
Lemma torch2xp_mps o : torch2xp_kind (TorchTensor TMps) o = match o with WithCupy => Err TypeError | _ => Ok NumpyArray end.
Proof. destruct o; reflexivity. Qed.
Lemma tf2xp_place gpu o : tensorflow2xp_kind true (TfTensor gpu) o =
  Ok (match o with WithNumpy => NumpyArray | WithCupy => CupyArray | NoOps => if gpu then CupyArray else NumpyArray end).
Proof. destruct gpu, o; reflexivity. Qed.
Lemma mx2xp_place gpu o : mxnet2xp_kind true (MxArray gpu) o =
  Ok (match o with WithNumpy => NumpyArray | WithCupy => CupyArray | NoOps => if gpu then CupyArray else NumpyArray end).
Proof. destruct gpu, o; reflexivity. Qed.
Lemma tf_mx_round x : is_xp_array x = true ->
  (let* t := xp2tensorflow_kind true x in tensorflow2xp_kind true t NoOps) = Ok x /\ (let* t := xp2mxnet_kind true x in mxnet2xp_kind true t NoOps) = Ok x.
Proof. destruct x; intros Hx; try discriminate; split; reflexivity. Qed.
Lemma torch_round default x device : is_xp_array x = true ->
  (torch2xp_kind (xp2torch_kind default x device) NoOps = Ok x <->
   is_cupy_array x = match (match device with Some d => d | None => default end) with TCuda _ => true | _ => false end).
Proof. destruct x; intros Hx; try discriminate; unfold xp2torch_kind; destruct (match device with Some d => d | None => default end); cbn; intuition congruence. Qed.
Lemma torch_round_refuted : exists default x, is_xp_array x = true /\ torch2xp_kind (xp2torch_kind default x None) NoOps <> Ok x.
Proof. exists (TCuda 0), NumpyArray. split; [reflexivity|discriminate]. Qed.

(** ** Losses *)
Section Calls.
  Context {T : Type} `{Num T}.
  Lemma cc_call_eq c (g : mat T) t : cc_call c g t = (let* d := LossModel.get_grad c g t in let* l := LossModel.get_loss c g t in Ok (d, l)).
  Proof. unfold cc_call, LossModel.get_loss. destruct (LossModel.get_grad c g t); reflexivity. Qed.
  Lemma seq_call_eq c (g : list (mat T)) t : seq_call c g t = (let* d := seq_get_grad c g t in let* l := seq_get_loss c g t in Ok (d, l)).
  Proof. unfold seq_call, seq_get_loss. destruct (seq_get_grad c g t); reflexivity. Qed.
  Lemma l2_call_eq norm (g t : mat T) : l2_call norm g t = (let* d := l2_get_grad norm g t in Ok (d, sum_squares d)).
  Proof.
    unfold l2_call, l2_get_loss. unfold l2_get_grad at 1 3. destruct (negb (mshape_eq g t)) eqn:E; [reflexivity|].
    unfold l2_get_grad. rewrite E. destruct (mbin nsub g t); reflexivity.
  Qed.
  Lemma cosine_call_ok norm iz (g t : mat T) : mshape_eq g t = true ->
    exists d l, cosine_call norm iz g t = Ok (d, l) /\ cosine_get_grad norm iz g t = Ok d /\ cosine_get_loss norm iz g t = Ok l.
  Proof. intros Hs. unfold cosine_call, cosine_get_grad, cosine_get_loss. rewrite Hs. cbn [negb]. eexists. eexists. repeat split; reflexivity. Qed.
  Lemma cosine_call_err norm iz (g t : mat T) : mshape_eq g t = false -> cosine_call norm iz g t = Err ValueError.
  Proof. intros Hs. unfold cosine_call, cosine_get_grad. rewrite Hs. reflexivity. Qed.
End Calls.

(** ** logloss *)
Section Logloss.
  Local Open Scope R_scope.
  Definition eps : R := / 100000000.
  Lemma logloss1_R y p : logloss1 y p = - (y * ln (p + eps) + (1 - y) * ln (1 - p + eps)).
  Proof. unfold logloss1, dec, eps. cbn [nopp nadd nmul nsub nln ndiv nZ num_R trans_R]. repeat f_equal; lra. Qed.
  Lemma ln_mono a b : 0 < a -> a <= b -> ln a <= ln b.
  Proof. intros Ha [Hb| ->]; [left; apply ln_increasing; assumption|right; reflexivity]. Qed.
  Lemma logloss_bounds y p : 0 <= y <= 1 -> 0 <= p <= 1 -> - ln (1 + / 100000000) <= logloss1 y p <= - ln (/ 100000000).
  Proof.
    intros Hy Hp. rewrite logloss1_R. fold eps. assert (He : 0 < eps) by (unfold eps; lra).
    assert (H1 : ln eps <= ln (p + eps) <= ln (1 + eps)) by (split; apply ln_mono; lra).
    assert (H2 : ln eps <= ln (1 - p + eps) <= ln (1 + eps)) by (split; apply ln_mono; lra).
    split; nra.
  Qed.
  Lemma logloss_negative_refuted : exists y p, 0 <= y <= 1 /\ 0 <= p <= 1 /\ logloss1 y p < 0.
  Proof.
    exists 1, 1. split; [lra|]. split; [lra|]. rewrite logloss1_R. replace (1 - 1 + eps) with eps by ring.
    assert (Hl : 0 < ln (1 + eps)) by (rewrite <- ln_1; apply ln_increasing; unfold eps; lra). lra.
  Qed.
  Lemma logloss_perfect y : y = 0 \/ y = 1 -> logloss1 y y = - ln (1 + / 100000000).
  Proof. intros [-> | ->]; rewrite logloss1_R; fold eps; [replace (1 - 0 + eps) with (1 + eps) by ring|]; ring. Qed.
End Logloss.
