(** Facts about the dictionary model. *)
From Verif Require Export DictModel.

Section DictFacts.
  Context {K V : Type} `{EqD K}.
  Implicit Types (d : dict K V) (k : K) (v : V).

  Lemma eqd_refl {A} (k : K) (x y : A) : (if eqd k k then x else y) = x.
  Proof. destruct (eqd k k); [reflexivity|contradiction]. Qed.

  Lemma eqd_neq {A} (k k' : K) (x y : A) : k <> k' -> (if eqd k k' then x else y) = y.
  Proof. intros Hn. destruct (eqd k k'); [contradiction|reflexivity]. Qed.

  Lemma dget_dset_same k v d : dget k (dset k v d) = Some v.
  Proof.
    induction d as [|[k' v'] d IH]; cbn [dset dget].
    - apply eqd_refl.
    - destruct (eqd k k') as [->|Hn]; cbn [dget].
      + apply eqd_refl.
      + rewrite eqd_neq by exact Hn. exact IH.
  Qed.

  Lemma dget_dset_other k k' v d : k' <> k -> dget k' (dset k v d) = dget k' d.
  Proof.
    intros Hn. induction d as [|[k0 v0] d IH]; cbn [dset dget].
    - apply eqd_neq, Hn.
    - destruct (eqd k k0) as [->|Hk]; cbn [dget].
      + rewrite !eqd_neq by exact Hn. reflexivity.
      + destruct (eqd k' k0); [reflexivity|exact IH].
  Qed.

  Lemma dget_dset k k' v d :
    dget k' (dset k v d) = if eqd k' k then Some v else dget k' d.
  Proof.
    destruct (eqd k' k) as [->|Hn]; [apply dget_dset_same|apply dget_dset_other, Hn].
  Qed.

  Lemma dget_in k v d : dget k d = Some v -> In (k, v) d.
  Proof.
    induction d as [|[k0 v0] d IH]; cbn [dget]; [discriminate|].
    destruct (eqd k k0) as [->|Hk]; intros Hg.
    - injection Hg as ->. now left.
    - right. apply IH, Hg.
  Qed.

  Lemma dget_some_key k v d : dget k d = Some v -> In k (dkeys d).
  Proof. intros Hg. apply dget_in in Hg. change k with (fst (k, v)). apply in_map, Hg. Qed.

  Lemma dget_none k d : dget k d = None <-> ~ In k (dkeys d).
  Proof.
    induction d as [|[k0 v0] d IH]; cbn [dget dkeys map fst In].
    - tauto.
    - destruct (eqd k k0) as [->|Hk].
      + split; [discriminate|]. intros Hn; exfalso; apply Hn; now left.
      + rewrite IH. unfold dkeys. intuition congruence.
  Qed.

  Lemma dget_key k d : In k (dkeys d) <-> exists v, dget k d = Some v.
  Proof.
    split.
    - intros Hin. destruct (dget k d) as [v|] eqn:Hg; [exists v; reflexivity|].
      apply dget_none in Hg. contradiction.
    - intros [v Hg]. eapply dget_some_key, Hg.
  Qed.

  Lemma dmem_true k d : dmem k d = true <-> In k (dkeys d).
  Proof.
    unfold dmem. destruct (dget k d) as [v|] eqn:Hg.
    - split; [intros _; eapply dget_some_key, Hg|reflexivity].
    - split; [discriminate|]. intros Hin. apply dget_none in Hg. contradiction.
  Qed.

  Lemma dmem_false k d : dmem k d = false <-> ~ In k (dkeys d).
  Proof. rewrite <- dmem_true. destruct (dmem k d); intuition congruence. Qed.

  Lemma dget_nodup_in k v d : NoDup (dkeys d) -> In (k, v) d -> dget k d = Some v.
  Proof.
    induction d as [|[k0 v0] d IH]; cbn [dget dkeys map fst In]; intros Hnd Hin; [tauto|].
    inversion Hnd as [|? ? Hnin Hnd']; subst.
    destruct Hin as [He|Hin].
    - injection He as -> ->. apply eqd_refl.
    - rewrite eqd_neq; [exact (IH Hnd' Hin)|].
      intros ->. apply Hnin. change k0 with (fst (k0, v)). now apply in_map.
  Qed.

  Lemma dkeys_dset_mem k v d : In k (dkeys d) -> dkeys (dset k v d) = dkeys d.
  Proof.
    induction d as [|[k0 v0] d IH]; cbn [dset dkeys map fst In]; intros Hin; [tauto|].
    destruct (eqd k k0) as [->|Hk]; cbn [map fst]; [reflexivity|].
    f_equal. apply IH. destruct Hin as [He|Hin]; [congruence|exact Hin].
  Qed.

  Lemma dkeys_dset_new k v d : ~ In k (dkeys d) -> dkeys (dset k v d) = dkeys d ++ [k].
  Proof.
    induction d as [|[k0 v0] d IH]; cbn [dset dkeys map fst In app]; intros Hin; [reflexivity|].
    destruct (eqd k k0) as [->|Hk]; [tauto|].
    cbn [map fst]. f_equal. apply IH. tauto.
  Qed.

  Lemma in_dkeys_dset k k' v d : In k' (dkeys (dset k v d)) <-> k' = k \/ In k' (dkeys d).
  Proof.
    rewrite !dget_key, dget_dset. destruct (eqd k' k) as [->|Hn].
    - split; [now left|]. intros _. now exists v.
    - split; [now right|]. intros [He|Hex]; [contradiction|exact Hex].
  Qed.

  Lemma NoDup_dset k v d : NoDup (dkeys d) -> NoDup (dkeys (dset k v d)).
  Proof.
    intros Hnd. destruct (in_dec eqd k (dkeys d)) as [Hin|Hnin].
    - rewrite dkeys_dset_mem; assumption.
    - rewrite dkeys_dset_new by assumption.
      apply NoDup_rev in Hnd. rewrite <- (rev_involutive (dkeys d ++ [k])).
      apply NoDup_rev. rewrite rev_app_distr. cbn. constructor; [|exact Hnd].
      rewrite <- in_rev. exact Hnin.
  Qed.

  Lemma dset_dset_same k v v' d : dset k v (dset k v' d) = dset k v d.
  Proof.
    induction d as [|[k0 v0] d IH]; cbn [dset].
    - now rewrite eqd_refl.
    - destruct (eqd k k0) as [->|Hk]; cbn [dset].
      + now rewrite eqd_refl.
      + rewrite eqd_neq by exact Hk. now rewrite IH.
  Qed.

  Lemma dset_id k v d : dget k d = Some v -> dset k v d = d.
  Proof.
    induction d as [|[k0 v0] d IH]; cbn [dset dget]; [discriminate|].
    destruct (eqd k k0) as [->|Hk]; intros Hg.
    - injection Hg as ->. reflexivity.
    - now rewrite (IH Hg).
  Qed.

  Lemma dset_comm k k' v v' d : k <> k' -> In k (dkeys d) ->
    dset k v (dset k' v' d) = dset k' v' (dset k v d).
  Proof.
    intros Hn. induction d as [|[k0 v0] d IH]; cbn [dkeys map fst In]; intros Hin; [tauto|].
    cbn [dset]. destruct (eqd k' k0) as [->|Hk']; destruct (eqd k k0) as [->|Hk]; cbn [dset].
    - congruence.
    - rewrite (eqd_neq k k0) by exact Hk. rewrite eqd_refl. reflexivity.
    - rewrite eqd_refl. rewrite (eqd_neq k' k0) by exact Hk'. reflexivity.
    - rewrite (eqd_neq k k0), (eqd_neq k' k0) by assumption. f_equal. apply IH.
      destruct Hin as [He|Hin]; [congruence|exact Hin].
  Qed.
End DictFacts.

Lemma memb_true {K} `{EqD K} (k : K) l : memb k l = true <-> In k l.
Proof. unfold memb. destruct (in_dec eqd k l); intuition congruence. Qed.

Lemma memb_false {K} `{EqD K} (k : K) l : memb k l = false <-> ~ In k l.
Proof. unfold memb. destruct (in_dec eqd k l); intuition congruence. Qed.
