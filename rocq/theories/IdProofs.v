(** Proofs about optimizer keys. *)
From Coq Require Import String.
From Coq Require Import QArith Lia.
From Verif Require Import IdSpec OptProofs NumQ.
Local Open Scope nat_scope.
Set Default Goal Selector "!".

Lemma keys_of_In o id name : In (id, name) (keys_of o) <-> id = owner_id o /\ In name (owner_names o).
Proof.
  unfold keys_of. rewrite in_map_iff. split.
  - intros (n & E & Hn). injection E as <- <-. split; [reflexivity|exact Hn].
  - intros (-> & Hn). exists name. split; [reflexivity|exact Hn].
Qed.

Lemma id_run_snoc ops o : id_run (ops ++ [o]) = id_step (id_run ops) o.
Proof. unfold id_run. rewrite fold_left_app. reflexivity. Qed.

Definition inv (c : census) : Prop :=
  (forall o, In o (owners c) -> is_node o = true -> (1 <= owner_id o <= last_node c)%Z) /\
  (forall o, In o (owners c) -> is_node o = false -> (1 <= owner_id o <= last_shim c)%Z) /\
  (0 <= last_node c)%Z /\ (0 <= last_shim c)%Z /\
  NoDup (map owner_id (filter is_node (owners c))).

Lemma NoDup_snoc {A} (l : list A) x : NoDup l -> ~ In x l -> NoDup (l ++ [x]).
Proof.
  induction l as [|a l IH]; intros Hl Hx; cbn.
  - constructor; [intros []|constructor].
  - inversion Hl as [|? ? Ha Hl']; subst. constructor.
    + rewrite in_app_iff. intros [H|[->|[]]]; [exact (Ha H)|apply Hx; left; reflexivity].
    + apply IH; [exact Hl'|]. intros H. apply Hx. right. exact H.
Qed.

Lemma inv_node c names : inv c -> inv (new_node c names).
Proof.
  intros (Hn & Hs & H0 & H1 & Hd). unfold inv, new_node. cbn [owners last_node last_shim].
  split; [|split; [|split; [lia|split; [exact H1|]]]].
  - intros o Ho E. apply in_app_iff in Ho. destruct Ho as [Ho|[<-|[]]].
    + specialize (Hn o Ho E). lia.
    + cbn. lia.
  - intros o Ho E. apply in_app_iff in Ho. destruct Ho as [Ho|[<-|[]]]; [exact (Hs o Ho E)|discriminate].
  - rewrite filter_app, map_app. cbn. apply NoDup_snoc; [exact Hd|].
    intros Hin. apply in_map_iff in Hin. destruct Hin as (o & E & Ho).
    apply filter_In in Ho. destruct Ho as (Ho & En). specialize (Hn o Ho En). lia.
Qed.

Lemma inv_step c o : inv c -> inv (id_step c o).
Proof.
  intros H. destruct o as [names|names|i|i]; cbn [id_step].
  - apply inv_node. exact H.
  - destruct H as (Hn & Hs & H0 & H1 & Hd). unfold inv, new_shim. cbn [owners last_node last_shim].
    split; [|split; [|split; [exact H0|split; [lia|]]]].
    + intros o Ho E. apply in_app_iff in Ho. destruct Ho as [Ho|[<-|[]]]; [exact (Hn o Ho E)|discriminate].
    + intros o Ho E. apply in_app_iff in Ho. destruct Ho as [Ho|[<-|[]]].
      * specialize (Hs o Ho E). lia.
      * cbn. lia.
    + rewrite filter_app, map_app. cbn. rewrite app_nil_r. exact Hd.
  - destruct (nth_error (owners c) i) as [[id names|id names]|]; [apply inv_node; exact H|exact H|exact H].
  - destruct (nth_error (owners c) i) as [[id names|id names]|] eqn:E; [exact H| |exact H].
    destruct H as (Hn & Hs & H0 & H1 & Hd). unfold inv. cbn [owners last_node last_shim].
    split; [|split; [|split; [exact H0|split; [exact H1|]]]].
    + intros o Ho E'. apply in_app_iff in Ho. destruct Ho as [Ho|[<-|[]]]; [exact (Hn o Ho E')|discriminate].
    + intros o Ho E'. apply in_app_iff in Ho. destruct Ho as [Ho|[<-|[]]]; [exact (Hs o Ho E')|].
      apply (Hs (Sh id names)); [exact (nth_error_In _ _ E)|reflexivity].
    + rewrite filter_app, map_app. cbn. rewrite app_nil_r. exact Hd.
Qed.

Lemma inv_run ops : inv (id_run ops).
Proof.
  induction ops as [|o ops IH] using rev_ind.
  - unfold inv. cbn. split; [intros ? []|split; [intros ? []|split; [lia|split; [lia|constructor]]]].
  - rewrite id_run_snoc. apply inv_step. exact IH.
Qed.

(** Positions of the elements that pass the filter *)
Lemma NoDup_filter_nth {A B} (p : A -> bool) (f : A -> B) l :
  NoDup (map f (filter p l)) ->
  forall i j a b, nth_error l i = Some a -> nth_error l j = Some b -> p a = true -> p b = true -> f a = f b -> i = j.
Proof.
  induction l as [|x l IH]; intros Hd i j a b Ha Hb Pa Pb E; [destruct i; discriminate|].
  cbn in Hd. destruct i as [|i], j as [|j]; cbn in Ha, Hb; [reflexivity| | |].
  - injection Ha as ->. rewrite Pa in Hd. cbn in Hd. inversion Hd as [|? ? Hx _]; subst. exfalso. apply Hx.
    rewrite E. apply in_map. apply filter_In. split; [exact (nth_error_In _ _ Hb)|exact Pb].
  - injection Hb as ->. rewrite Pb in Hd. cbn in Hd. inversion Hd as [|? ? Hx _]; subst. exfalso. apply Hx.
    rewrite <- E. apply in_map. apply filter_In. split; [exact (nth_error_In _ _ Ha)|exact Pa].
  - f_equal. apply (IH) with (a := a) (b := b); try assumption.
    destruct (p x); [cbn in Hd; inversion Hd; assumption|exact Hd].
Qed.

Lemma nodes_distinct ops i j idi idj li lj :
  nth_error (owners (id_run ops)) i = Some (Nd idi li) ->
  nth_error (owners (id_run ops)) j = Some (Nd idj lj) -> i <> j -> idi <> idj.
Proof.
  intros Hi Hj Hne E. apply Hne.
  destruct (inv_run ops) as (_ & _ & _ & _ & Hd).
  eapply (NoDup_filter_nth is_node owner_id); [exact Hd|exact Hi|exact Hj|reflexivity|reflexivity|exact E].
Qed.

Lemma node_keys_disjoint ops i j idi idj li lj k :
  nth_error (owners (id_run ops)) i = Some (Nd idi li) ->
  nth_error (owners (id_run ops)) j = Some (Nd idj lj) -> i <> j ->
  In k (keys_of (Nd idi li)) -> In k (keys_of (Nd idj lj)) -> False.
Proof.
  intros Hi Hj Hne Ki Kj. destruct k as (id, name).
  apply keys_of_In in Ki. apply keys_of_In in Kj. destruct Ki as (Ei & _), Kj as (Ej & _). cbn in Ei, Ej.
  apply (nodes_distinct _ _ _ _ _ _ _ Hi Hj Hne). congruence.
Qed.

Lemma shims_nodup ops : forallb (fun o => negb (is_copy o)) ops = true ->
  NoDup (map owner_id (filter (fun o => negb (is_node o)) (owners (id_run ops)))).
Proof.
  induction ops as [|o ops IH] using rev_ind; intros Hc; [constructor|].
  rewrite forallb_app in Hc. apply andb_prop in Hc. destruct Hc as (Hc & Ho). specialize (IH Hc).
  rewrite id_run_snoc. destruct (inv_run ops) as (Hn & Hs & H0 & H1 & _).
  assert (New : forall names, NoDup (map owner_id (filter (fun o => negb (is_node o)) (owners (new_node (id_run ops) names))))).
  { intros names. unfold new_node. cbn [owners]. rewrite filter_app, map_app. cbn. rewrite app_nil_r. exact IH. }
  destruct o as [names|names|i|i]; cbn [id_step].
  - apply New.
  - unfold new_shim. cbn [owners]. rewrite filter_app, map_app. cbn. apply NoDup_snoc; [exact IH|].
    intros Hin. apply in_map_iff in Hin. destruct Hin as (o & E & Hin). apply filter_In in Hin. destruct Hin as (Hin & En).
    apply Bool.negb_true_iff in En. specialize (Hs o Hin En). lia.
  - destruct (nth_error (owners (id_run ops)) i) as [[id names|id names]|]; [apply New|exact IH|exact IH].
  - discriminate Ho.
Qed.

Lemma shims_distinct ops i j idi idj li lj : forallb (fun o => negb (is_copy o)) ops = true ->
  nth_error (owners (id_run ops)) i = Some (Sh idi li) ->
  nth_error (owners (id_run ops)) j = Some (Sh idj lj) -> i <> j -> idi <> idj.
Proof.
  intros Hc Hi Hj Hne E. apply Hne.
  eapply (NoDup_filter_nth (fun o => negb (is_node o)) owner_id (owners (id_run ops)));
    [exact (shims_nodup ops Hc)|exact Hi|exact Hj|reflexivity|reflexivity|exact E].
Qed.

Lemma copied_shim ops i id names : nth_error (owners (id_run ops)) i = Some (Sh id names) ->
  let os := owners (id_run (ops ++ [CopyShim i])) in
  nth_error os (length (owners (id_run ops))) = Some (Sh id names) /\ i <> length (owners (id_run ops)) /\
  nth_error os i = Some (Sh id names).
Proof.
  intros H os. unfold os. rewrite id_run_snoc. cbn [id_step]. rewrite H. cbn [owners].
  assert (L : i < length (owners (id_run ops))) by (apply nth_error_Some; congruence).
  split; [|split; [lia|]].
  - rewrite nth_error_app2 by lia. rewrite Nat.sub_diag. reflexivity.
  - rewrite nth_error_app1 by lia. exact H.
Qed.

Lemma copied_node ops i id names : nth_error (owners (id_run ops)) i = Some (Nd id names) ->
  let os := owners (id_run (ops ++ [CopyNode i])) in
  exists id', nth_error os (length (owners (id_run ops))) = Some (Nd id' names) /\
    forall o, In o (owners (id_run ops)) -> is_node o = true -> (owner_id o < id')%Z.
Proof.
  intros H os. unfold os. rewrite id_run_snoc. cbn [id_step]. rewrite H. cbn [owners new_node].
  exists (last_node (id_run ops) + 1)%Z. split.
  - rewrite nth_error_app2 by lia. rewrite Nat.sub_diag. reflexivity.
  - intros o Ho En. destruct (inv_run ops) as (Hn & _). specialize (Hn o Ho En). lia.
Qed.

Lemma node_shim_keys ids idn ls ln : (exists k, In k (keys_of (Nd idn ln)) /\ In k (keys_of (Sh ids ls))) <->
  idn = ids /\ exists name, In name ln /\ In name ls.
Proof.
  split.
  - intros ((id & name) & Kn & Ks). apply keys_of_In in Kn. apply keys_of_In in Ks. cbn in Kn, Ks.
    destruct Kn as (-> & Hn), Ks as (-> & Hs). split; [reflexivity|]. exists name. split; assumption.
  - intros (-> & name & Hn & Hs). exists (ids, name). split; apply keys_of_In; cbn; split; auto.
Qed.

Lemma colliding_keys : exists ops i j idi idj li lj,
  nth_error (owners (id_run ops)) i = Some (Nd idi li) /\ nth_error (owners (id_run ops)) j = Some (Sh idj lj) /\
  forallb (fun o => negb (is_copy o)) ops = true /\
  exists k, In k (keys_of (Nd idi li)) /\ In k (keys_of (Sh idj lj)).
Proof.
  exists [NewNode ["W"%string]; NewShim ["W"%string]], 0, 1, 1%Z, 1%Z, ["W"%string], ["W"%string].
  split; [reflexivity|]. split; [reflexivity|]. split; [reflexivity|].
  exists (1%Z, "W"%string). split; left; reflexivity.
Qed.

Section Alone.
  Context {T : Type} {NT : Num T}.

  Lemma concerns_alone os i (k : key) (es : tagged T) :
    Forall (honest os) es -> private os i k ->
    filter (concerns k) (map snd es) = filter (concerns k) (map snd (alone i es)).
  Proof.
    intros Hh Hp. induction Hh as [|(j, e) es Hj Hh IH]; [reflexivity|].
    unfold alone in *. cbn [map snd filter]. destruct e as [k' w g sc| |sc]; cbn [mine snd fst concerns].
    - unfold honest in Hj. cbn [snd fst] in Hj. destruct Hj as (o & Ho & Hk).
      destruct (j =? i) eqn:E; cbn [map snd filter concerns].
      + rewrite IH. reflexivity.
      + replace (eqk k' k) with false; [exact IH|]. symmetry. unfold eqk. destruct (eqd k' k) as [->|]; [|reflexivity].
        apply Nat.eqb_neq in E. exfalso. apply E. exact (Hp j o Ho Hk).
    - cbn [map snd filter concerns]. f_equal. exact IH.
    - cbn [map snd filter concerns]. f_equal. exact IH.
  Qed.

  Lemma trained_alone adam (hp : hyper T key) avg os i k (es : tagged T) :
    (h_radam hp = true -> exists b1 b2, fixed (h_b1 hp) b1 /\ fixed (h_b2 hp) b2) ->
    Forall (honest os) es -> private os i k ->
    let p := run_events adam hp (opt_init avg) (map snd es) in
    let q := run_events adam hp (opt_init avg) (map snd (alone i es)) in
    filter (out_of k) (snd p) = filter (out_of k) (snd q) /\ same_key k (fst p) (fst q).
  Proof.
    intros Hr Hh Hp p q.
    destruct (per_key adam hp avg k (map snd es) Hr) as (P1 & P2).
    destruct (per_key adam hp avg k (map snd (alone i es)) Hr) as (Q1 & Q2).
    cbv zeta in P1, P2, Q1, Q2.
    rewrite <- (concerns_alone os i k es Hh Hp) in Q1, Q2.
    split.
    - unfold p, q. rewrite P1, Q1. reflexivity.
    - unfold p, q. clear - P2 Q2. unfold same_key in *.
      destruct P2 as (A1 & A2 & A3 & A4), Q2 as (B1 & B2 & B3 & B4).
      split; [congruence|]. split; [congruence|]. split; congruence.
  Qed.
End Alone.

Lemma collision_changes : exists ops i k es,
  Forall (honest (owners (id_run ops))) es /\ (exists o, nth_error (owners (id_run ops)) i = Some o /\ is_node o = true /\ In k (keys_of o)) /\
  forallb (fun o => negb (is_copy o)) ops = true /\
  ~ same_key k (fst (run_events base_adam sgd_hyper (opt_init true) (map snd es)))
               (fst (run_events base_adam sgd_hyper (opt_init true) (map snd (alone i es)))).
Proof.
  exists [NewNode ["W"%string; "b"%string]; NewShim ["W"%string]], 0, (1%Z, "W"%string), two_steps.
  split; [|split; [|split; [reflexivity|]]].
  - repeat constructor; eexists; (split; [reflexivity|cbn; tauto]).
  - eexists. split; [reflexivity|]. split; [reflexivity|left; reflexivity].
  - intros (E & _). vm_compute in E. discriminate.
Qed.

Lemma copy_changes : exists ops i j id names es k,
  nth_error (owners (id_run ops)) i = Some (Sh id names) /\
  nth_error (owners (id_run (ops ++ [CopyShim i]))) j = Some (Sh id names) /\ i <> j /\
  Forall (honest (owners (id_run (ops ++ [CopyShim i])))) es /\ In k (keys_of (Sh id names)) /\
  ~ same_key k (fst (run_events base_adam sgd_hyper (opt_init true) (map snd es)))
               (fst (run_events base_adam sgd_hyper (opt_init true) (map snd (alone i es)))).
Proof.
  exists [NewNode ["W"%string; "b"%string]; NewShim ["W"%string]], 1, 2, 1%Z, ["W"%string], copy_steps, (1%Z, "W"%string).
  split; [reflexivity|]. split; [reflexivity|]. split; [discriminate|]. split; [|split; [left; reflexivity|]].
  - repeat constructor; eexists; (split; [reflexivity|cbn; tauto]).
  - intros (E & _). vm_compute in E. discriminate.
Qed.

Lemma node_private ops i id names name :
  nth_error (owners (id_run ops)) i = Some (Nd id names) ->
  (forall ls, In (Sh id ls) (owners (id_run ops)) -> ~ In name ls) ->
  private (owners (id_run ops)) i (id, name).
Proof.
  intros Hi Hs j o Hj Hk. apply keys_of_In in Hk. destruct Hk as (E & Hn). destruct o as [id' l|id' l]; cbn in E, Hn; subst id'.
  - destruct (Nat.eq_dec j i) as [->|Hne]; [reflexivity|].
    exfalso. exact (nodes_distinct _ _ _ _ _ _ _ Hj Hi Hne eq_refl).
  - exfalso. exact (Hs l (nth_error_In _ _ Hj) Hn).
Qed.

Lemma shim_private ops i id names name : forallb (fun o => negb (is_copy o)) ops = true ->
  nth_error (owners (id_run ops)) i = Some (Sh id names) ->
  (forall ln, In (Nd id ln) (owners (id_run ops)) -> ~ In name ln) ->
  private (owners (id_run ops)) i (id, name).
Proof.
  intros Hc Hi Hs j o Hj Hk. apply keys_of_In in Hk. destruct Hk as (E & Hn). destruct o as [id' l|id' l]; cbn in E, Hn; subst id'.
  - exfalso. exact (Hs l (nth_error_In _ _ Hj) Hn).
  - destruct (Nat.eq_dec j i) as [->|Hne]; [reflexivity|].
    exfalso. exact (shims_distinct _ _ _ _ _ _ _ Hc Hj Hi Hne eq_refl).
Qed.

Lemma copy_not_private ops i id names name : nth_error (owners (id_run ops)) i = Some (Sh id names) -> In name names ->
  ~ private (owners (id_run (ops ++ [CopyShim i]))) i (id, name).
Proof.
  intros H Hn P. destruct (copied_shim ops i id names H) as (A & B & _).
  apply B. symmetry. apply (P _ _ A). apply keys_of_In. split; [reflexivity|exact Hn].
Qed.
