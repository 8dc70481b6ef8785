(** Proofs about the names of the registered functions. *)
From Coq Require Import String Ascii List Bool Permutation Lia.
From Verif Require Import DictFacts RegSpec.
Import ListNotations.
Set Default Goal Selector "!".
Local Open Scope string_scope.
Local Open Scope list_scope.

Section Import.
  Context {F : Type}.
  Implicit Types (d : dict string F) (rs : list (string * F)).

  Lemma import_other : forall rs d name,
    (forall f, ~ In (name, f) rs) -> dget name (fold_left register rs d) = dget name d.
  Proof.
    induction rs as [|[n g] rs IH]; intros d name Hn; [reflexivity|]. cbn [fold_left].
    rewrite IH; [|intros f Hf; exact (Hn f (or_intror Hf))].
    unfold register. cbn [fst snd]. apply dget_dset_other. intros ->. exact (Hn g (or_introl eq_refl)).
  Qed.

  (** The last registration of a name counts *)
  Lemma import_last : forall rs1 rs2 d name f,
    (forall g, ~ In (name, g) rs2) ->
    dget name (fold_left register (rs1 ++ (name, f) :: rs2) d) = Some f.
  Proof.
    intros rs1 rs2 d name f Hn. rewrite fold_left_app. cbn [fold_left]. rewrite import_other; [|exact Hn].
    unfold register. cbn [fst snd]. apply dget_dset_same.
  Qed.

  Lemma import_in : forall rs d name f, dget name (fold_left register rs d) = Some f ->
    In (name, f) rs \/ dget name d = Some f.
  Proof.
    induction rs as [|[n g] rs IH]; intros d name f Hg; [right; exact Hg|]. cbn [fold_left] in Hg.
    destruct (IH _ _ _ Hg) as [Hi|Hi]; [left; right; exact Hi|].
    unfold register in Hi. cbn [fst snd] in Hi. rewrite dget_dset in Hi. destruct (eqd name n) as [->|Hn].
    - left; left. congruence.
    - right; exact Hi.
  Qed.

  (** When all registrations of the name are of the same function, the order does not matter *)
  Lemma import_unique : forall rs d name f, In (name, f) rs -> (forall g, In (name, g) rs -> g = f) ->
    dget name (fold_left register rs d) = Some f.
  Proof.
    induction rs as [|[n g] rs IH]; intros d name f Hin Hu; [destruct Hin|]. cbn [fold_left].
    destruct (in_dec string_dec name (map fst rs)) as [Hm|Hm].
    - apply in_map_iff in Hm. destruct Hm as ((n' & g') & He & Hi). cbn in He. subst n'.
      apply IH.
      + replace f with g'; [exact Hi|]. apply Hu. right; exact Hi.
      + intros h Hh. apply Hu. right; exact Hh.
    - rewrite import_other; [|intros h Hh; apply Hm; apply in_map_iff; exists (name, h); split; [reflexivity|exact Hh]].
      destruct Hin as [He|Hi].
      + inversion He; subst. unfold register. cbn [fst snd]. apply dget_dset_same.
      + destruct Hm. apply in_map_iff. exists (name, f). split; [reflexivity|exact Hi].
  Qed.
End Import.

(** ** The names are distinct *)
Fixpoint nodupb (l : list string) : bool :=
  match l with [] => true | x :: l' => negb (existsb (String.eqb x) l') && nodupb l' end.

Lemma nodupb_sound : forall l, nodupb l = true -> NoDup l.
Proof.
  induction l as [|x l IH]; cbn [nodupb]; intros H; [constructor|].
  apply andb_true_iff in H. destruct H as (H1 & H2). constructor; [|exact (IH H2)].
  intros Hin. apply negb_true_iff in H1. rewrite (proj2 (existsb_exists _ _)) in H1; [discriminate H1|].
  exists x. split; [exact Hin|apply String.eqb_refl].
Qed.

Lemma tables_nodup : forallb (fun r : string * list (string * string) => nodupb (map fst (snd r))) registrations = true.
Proof. vm_compute. reflexivity. Qed.
Lemma functions_nodup : nodupb (flat_map (fun r : string * list (string * string) => map snd (snd r)) registrations) = true.
Proof. vm_compute. reflexivity. Qed.
Lemma registries_nodup : nodupb (map fst registrations) = true.
Proof. vm_compute. reflexivity. Qed.

Lemma nodup_fst_inj : forall (A B : Type) (l : list (A * B)) a b c,
  NoDup (map fst l) -> In (a, b) l -> In (a, c) l -> b = c.
Proof.
  intros A B l a b c. induction l as [|[x y] l IH]; cbn [map fst]; intros Hn H1 H2; [destruct H1|].
  inversion Hn as [|? ? Hx Hn']; subst. destruct H1 as [H1|H1]; destruct H2 as [H2|H2].
  - congruence.
  - inversion H1; subst. destruct Hx. apply in_map_iff. exists (a, c). split; [reflexivity|exact H2].
  - inversion H2; subst. destruct Hx. apply in_map_iff. exists (a, b). split; [reflexivity|exact H1].
  - exact (IH Hn' H1 H2).
Qed.

Lemma reg_table : forall reg rs rs', In (reg, rs) registrations -> In (reg, rs') registrations -> rs = rs'.
Proof. intros reg rs rs'. apply nodup_fst_inj. apply nodupb_sound, registries_nodup. Qed.
Lemma reg_rs_nodup : forall reg rs, In (reg, rs) registrations -> NoDup (map fst rs).
Proof.
  intros reg rs H. apply nodupb_sound. exact (proj1 (forallb_forall _ _) tables_nodup (reg, rs) H).
Qed.

Lemma registered_unique : forall reg name f g, registered reg name f -> registered reg name g -> f = g.
Proof.
  intros reg name f g (rs & H1 & H2) (rs' & H3 & H4). rewrite <- (reg_table _ _ _ H1 H3) in H4.
  exact (nodup_fst_inj _ _ rs name f g (reg_rs_nodup _ _ H1) H2 H4).
Qed.

Lemma nodup_app_cross : forall (A : Type) (l1 l2 : list A) x, NoDup (l1 ++ l2) -> In x l1 -> In x l2 -> False.
Proof.
  intros A l1 l2 x. induction l1 as [|y l1 IH]; cbn [app]; intros Hn H1 H2; [destruct H1|].
  inversion Hn as [|? ? Hy Hn']; subst. destruct H1 as [->|H1].
  - apply Hy, in_or_app. right; exact H2.
  - exact (IH Hn' H1 H2).
Qed.
Lemma nodup_app_l : forall (A : Type) (l1 l2 : list A), NoDup (l1 ++ l2) -> NoDup l1 /\ NoDup l2.
Proof.
  intros A l1 l2. induction l1 as [|y l1 IH]; cbn [app]; intros Hn; [split; [constructor|exact Hn]|].
  inversion Hn as [|? ? Hy Hn']; subst. destruct (IH Hn') as (H1 & H2). split; [|exact H2].
  constructor; [|exact H1]. intros Hi. apply Hy, in_or_app. left; exact Hi.
Qed.
Lemma nodup_snd_inj : forall (A B : Type) (l : list (A * B)) a b c,
  NoDup (map snd l) -> In (a, c) l -> In (b, c) l -> a = b.
Proof.
  intros A B l a b c. induction l as [|[x y] l IH]; cbn [map snd]; intros Hn H1 H2; [destruct H1|].
  inversion Hn as [|? ? Hx Hn']; subst. destruct H1 as [H1|H1]; destruct H2 as [H2|H2].
  - congruence.
  - inversion H1; subst. destruct Hx. apply in_map_iff. exists (b, c). split; [reflexivity|exact H2].
  - inversion H2; subst. destruct Hx. apply in_map_iff. exists (a, c). split; [reflexivity|exact H1].
  - exact (IH Hn' H1 H2).
Qed.

Lemma flat_snd_inj : forall (l : list (string * list (string * string))) r1 r2 rs1 rs2 n1 n2 f,
  NoDup (flat_map (fun r => map snd (snd r)) l) ->
  In (r1, rs1) l -> In (r2, rs2) l -> In (n1, f) rs1 -> In (n2, f) rs2 -> r1 = r2 /\ n1 = n2.
Proof.
  induction l as [|[r rs] l IH]; intros r1 r2 rs1 rs2 n1 n2 f Hn H1 H2 G1 G2; [destruct H1|].
  cbn [flat_map snd] in Hn. destruct (nodup_app_l _ _ _ Hn) as (Ha & Hb).
  assert (Hc : forall r' rs' n, In (r', rs') l -> In (n, f) rs' -> In f (flat_map (fun r => map snd (snd r)) l)).
  { intros r' rs' n Hi Hj. apply in_flat_map. exists (r', rs'). split; [exact Hi|].
    apply in_map_iff. exists (n, f). split; [reflexivity|exact Hj]. }
  assert (Hd : forall n, In (n, f) rs -> In f (map snd rs)).
  { intros n Hj. apply in_map_iff. exists (n, f). split; [reflexivity|exact Hj]. }
  destruct H1 as [H1|H1]; destruct H2 as [H2|H2].
  - inversion H1; subst. inversion H2; subst. split; [reflexivity|]. exact (nodup_snd_inj _ _ _ _ _ _ Ha G1 G2).
  - inversion H1; subst. destruct (nodup_app_cross _ _ _ f Hn (Hd _ G1) (Hc _ _ _ H2 G2)).
  - inversion H2; subst. destruct (nodup_app_cross _ _ _ f Hn (Hd _ G2) (Hc _ _ _ H1 G1)).
  - exact (IH _ _ _ _ _ _ _ Hb H1 H2 G1 G2).
Qed.

Lemma registered_once : forall reg reg' name name' f,
  registered reg name f -> registered reg' name' f -> reg = reg' /\ name = name'.
Proof.
  intros reg reg' name name' f (rs & H1 & H2) (rs' & H3 & H4).
  exact (flat_snd_inj registrations _ _ _ _ _ _ _ (nodupb_sound _ functions_nodup) H1 H3 H2 H4).
Qed.

(** ** Resolution *)
Lemma resolve_registered : forall reg name f d, registered reg name f -> imported reg d ->
  resolve no_entry_points d name = Ok f.
Proof.
  intros reg name f d (rs & H1 & H2) (rs' & others & order & H3 & Hp & Ho & ->).
  rewrite (reg_table _ _ _ H3 H1) in Hp, Ho. unfold resolve, no_entry_points, import_all.
  rewrite (import_unique order [] name f); [reflexivity| |].
  - apply (Permutation_in _ (Permutation_sym Hp)), in_or_app. left; exact H2.
  - intros g Hg. apply (Permutation_in _ Hp), in_app_or in Hg. destruct Hg as [Hg|Hg].
    + exact (nodup_fst_inj _ _ rs name g f (reg_rs_nodup _ _ H1) Hg H2).
    + destruct (Ho name f g H2 Hg).
Qed.

Lemma resolve_last : forall (F : Type) (before after : list (string * F)) name f,
  (forall g, ~ In (name, g) after) ->
  resolve (fun _ => None) (import_all (before ++ (name, f) :: after)) name = Ok f.
Proof.
  intros F before after name f H. unfold resolve, import_all. rewrite (import_last before after [] name f H). reflexivity.
Qed.

Lemma resolve_unknown : forall (F : Type) (rs : list (string * F)) name, (forall f, ~ In (name, f) rs) ->
  resolve (fun _ => None) (import_all rs) name = Err ValueError.
Proof.
  intros F rs name H. unfold resolve, import_all. rewrite (import_other rs [] name H). reflexivity.
Qed.

Lemma resolve_entry : forall (F : Type) (entry : string -> option F) rs name f, entry name = Some f ->
  resolve entry (import_all rs) name = Ok f.
Proof. intros F entry rs name f H. unfold resolve. rewrite H. reflexivity. Qed.

Lemma resolve_ok : forall (F : Type) (rs : list (string * F)) name f,
  resolve (fun _ => None) (import_all rs) name = Ok f -> In (name, f) rs.
Proof.
  intros F rs name f. unfold resolve, import_all. destruct (dget name (fold_left register rs [])) as [g|] eqn:Hg; [|discriminate].
  intros H. inversion H; subst. destruct (import_in _ _ _ _ Hg) as [Hi|Hi]; [exact Hi|discriminate].
Qed.

Lemma doc_name_unknown :
  In ("Linear.v1", "Linear") registered_layers /\ resolve no_entry_points (import_all registered_layers) "linear.v1" = Err ValueError.
Proof. split; [vm_compute; tauto|reflexivity]. Qed.

Lemma resolve_stable_refuted : exists before after name f,
  resolve no_entry_points (import_all (registered_optimizers ++ before)) name = Ok f /\
  resolve no_entry_points (import_all (registered_optimizers ++ before ++ after)) name <> Ok f.
Proof.
  exists [], [("Adam.v1", "my_Adam")], "Adam.v1", "Adam". split; [reflexivity|]. vm_compute. discriminate.
Qed.

(** ** Versions *)
Lemma split_version_cons : forall c (d : ascii) r, r <> EmptyString -> (2 < String.length r)%nat ->
  split_version (String c r) = match split_version r with Some (b, x) => Some (String c b, x) | None => None end.
Proof.
  intros c _ r _ Hl. destruct r as [|c1 [|c2 [|c3 r]]]; cbn in Hl; try lia. reflexivity.
Qed.

Lemma split_version_complete : forall base d, split_version (base ++ ".v" ++ String d EmptyString) = Some (base, d).
Proof.
  induction base as [|c base IH]; intros d; [reflexivity|].
  change ((String c base ++ ".v" ++ String d EmptyString)%string)
    with (String c (base ++ ".v" ++ String d EmptyString)).
  rewrite (split_version_cons c d); [rewrite IH; reflexivity| |].
  - destruct base; discriminate.
  - clear IH. induction base as [|x base IH]; cbn; [lia|]. cbn in IH. lia.
Qed.

Lemma split_version_sound : forall s b d, split_version s = Some (b, d) -> s = (b ++ ".v" ++ String d EmptyString)%string.
Proof.
  induction s as [|c r IH]; intros b d H; [discriminate H|].
  destruct r as [|c1 [|c2 [|c3 r]]].
  - discriminate H.
  - discriminate H.
  - cbn [split_version] in H. destruct (Ascii.eqb c "." && Ascii.eqb c1 "v")%bool eqn:He; [|discriminate H].
    apply andb_true_iff in He. destruct He as (H1 & H2). apply Ascii.eqb_eq in H1, H2. inversion H; subst. reflexivity.
  - rewrite (split_version_cons c d) in H; [|discriminate|cbn; lia].
    destruct (split_version (String c1 (String c2 (String c3 r)))) as [[b' d']|] eqn:Hs; [|discriminate H].
    inversion H; subst. rewrite (IH b' d eq_refl) at 1. reflexivity.
Qed.

Definition nth_digit (d : ascii) : nat := nat_of_ascii d - 48.

Definition entry_ok (reg : string) (rs : list (string * string)) (e : string * string) : bool :=
  if String.eqb reg "ops" then match split_version (fst e) with None => String.eqb (fst e) (snd e) | Some _ => false end
  else match split_version (fst e) with
       | Some (b, d) =>
           let n := nth_digit d in
           (Nat.leb 1 n && Nat.leb n 9 && Ascii.eqb d (ascii_of_nat (48 + n)) &&
           (Nat.eqb n 1 || existsb (fun e' => String.eqb (fst e') (version_name b (n - 1))) rs))%bool
       | None => false
       end.

Lemma entries_ok : forallb (fun r => forallb (entry_ok (fst r) (snd r)) (snd r)) registrations = true.
Proof. vm_compute. reflexivity. Qed.

Lemma entry_is_ok : forall reg name f, registered reg name f ->
  exists rs, In (reg, rs) registrations /\ In (name, f) rs /\ entry_ok reg rs (name, f) = true.
Proof.
  intros reg name f (rs & H1 & H2). exists rs. split; [exact H1|]. split; [exact H2|].
  pose proof (proj1 (forallb_forall _ _) entries_ok _ H1) as H. cbn [fst snd] in H.
  exact (proj1 (forallb_forall _ _) H _ H2).
Qed.

Lemma registered_version : forall reg name f, registered reg name f -> reg <> "ops" ->
  exists base n, (1 <= n <= 9)%nat /\ name = version_name base n.
Proof.
  intros reg name f H Hr. destruct (entry_is_ok _ _ _ H) as (rs & _ & _ & He). unfold entry_ok in He.
  apply String.eqb_neq in Hr. rewrite Hr in He. cbn [fst snd] in He.
  destruct (split_version name) as [[b d]|] eqn:Hs; [|discriminate He].
  rewrite !andb_true_iff in He. destruct He as (((H1 & H2) & H3) & _).
  apply PeanoNat.Nat.leb_le in H1, H2. apply Ascii.eqb_eq in H3.
  exists b, (nth_digit d). split; [split; assumption|]. unfold version_name. rewrite <- H3. exact (split_version_sound _ _ _ Hs).
Qed.

Lemma digit_back : forall n, (n <= 9)%nat -> nth_digit (ascii_of_nat (48 + n)) = n.
Proof. intros n H. do 10 (destruct n as [|n]; [reflexivity|]). lia. Qed.

Lemma registered_ops_plain : forall name f, registered "ops" name f ->
  name = f /\ forall base n, name <> version_name base n.
Proof.
  intros name f H. destruct (entry_is_ok _ _ _ H) as (rs & _ & _ & He). cbn in He.
  destruct (split_version name) as [[b d]|] eqn:Hs; [discriminate He|].
  split; [apply String.eqb_eq, He|]. intros base n ->. unfold version_name in Hs.
  rewrite split_version_complete in Hs. discriminate Hs.
Qed.

Lemma registered_versions_from_one : forall reg base n f,
  (1 <= n <= 9)%nat -> registered reg (version_name base n) f ->
  forall m, (1 <= m <= n)%nat -> exists g, registered reg (version_name base m) g.
Proof.
  intros reg base n f Hn H m Hm.
  remember (n - m)%nat as k eqn:Hk. revert n f Hn H m Hm Hk.
  induction k as [|k IH]; intros n f Hn H m Hm Hk.
  { exists f. replace m with n by lia. exact H. }
  destruct (entry_is_ok _ _ _ H) as (rs & Hr & Hi & He). unfold entry_ok in He. cbn [fst snd] in He.
  assert (Hs : split_version (version_name base n) = Some (base, ascii_of_nat (48 + n)))
    by exact (split_version_complete base _).
  rewrite Hs in He.
  destruct (String.eqb reg "ops"); [discriminate He|].
  rewrite (digit_back n) in He by lia. cbv zeta in He. rewrite !andb_true_iff, orb_true_iff in He. destruct He as (_ & [He|He]).
  { apply PeanoNat.Nat.eqb_eq in He. lia. }
  apply existsb_exists in He. destruct He as ([n' g] & Hg & He). cbn [fst] in He. apply String.eqb_eq in He. subst n'.
  apply (IH (n - 1)%nat g); [lia| |lia|lia]. exists rs. split; [exact Hr|exact Hg].
Qed.
