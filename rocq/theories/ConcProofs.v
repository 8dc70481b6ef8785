From Verif Require Import BaseFacts NodeProofs ConcModel ConcSpec.
Set Default Goal Selector "!".

Definition ids_of (i : nat) (log : list (nat * Z)) : list Z :=
  map snd (filter (fun p => Nat.eqb (fst p) i) log).

Definition in_cs (t : thread) : Prop := t_pc t <> Outside.

(** The counter is one more than the log while [Stored], else equal. *)
Definition ahead (s : gstate) : Z :=
  match g_lock s with
  | Some i => match nth_error (g_threads s) i with
              | Some t => match t_pc t with Stored => 1%Z | _ => 0%Z end
              | None => 0%Z end
  | None => 0%Z
  end.

Record inv (g0 : Z) (s : gstate) : Prop := {
  iv_log : map snd (g_log s) = zseq g0 (length (g_log s));
  iv_id : g_id s = (g0 + Z.of_nat (length (g_log s)) + ahead s)%Z;
  iv_excl : forall i t, nth_error (g_threads s) i = Some t -> in_cs t -> g_lock s = Some i;
  iv_held : forall i, g_lock s = Some i -> exists t, nth_error (g_threads s) i = Some t /\ in_cs t;
  iv_load : forall i t z, nth_error (g_threads s) i = Some t -> t_pc t = Loaded z -> z = g_id s;
  iv_ids : forall i t, nth_error (g_threads s) i = Some t -> t_ids t = ids_of i (g_log s);
  iv_own : forall i z, In (i, z) (g_log s) -> i < length (g_threads s)
}.

Lemma zseq_snoc g n : zseq g (n + 1) = zseq g n ++ [(g + Z.of_nat n + 1)%Z].
Proof. unfold zseq. rewrite Nat.add_1_r, seq_S, map_app. cbn. do 2 f_equal. lia. Qed.

Lemma inv_start g0 todos : inv g0 (start g0 todos).
Proof.
  split; cbn.
  - reflexivity.
  - unfold ahead. cbn. lia.
  - intros i t Ht Hcs. rewrite nth_error_map in Ht. destruct (nth_error todos i); [|discriminate].
    injection Ht as <-. exfalso. now apply Hcs.
  - discriminate.
  - intros i t z Ht Hpc. rewrite nth_error_map in Ht. destruct (nth_error todos i); [|discriminate].
    injection Ht as <-. discriminate.
  - intros i t Ht. rewrite nth_error_map in Ht. destruct (nth_error todos i); [|discriminate]. now injection Ht as <-.
  - tauto.
Qed.

Lemma ids_of_snoc i j z log : ids_of i (log ++ [(j, z)]) = if Nat.eqb j i then ids_of i log ++ [z] else ids_of i log.
Proof.
  unfold ids_of. rewrite filter_app, map_app. cbn. destruct (Nat.eqb j i); cbn; [reflexivity|now rewrite app_nil_r].
Qed.

Lemma inv_step g0 s i : inv g0 s -> inv g0 (step s i).
Proof.
  intros I. unfold step. destruct (nth_error (g_threads s) i) as [t|] eqn:Et; [|exact I].
  assert (Hi : i < length (g_threads s)) by (apply nth_error_Some; congruence).
  assert (Hself : forall t', nth_error (set_nth i t' (g_threads s)) i = Some t') by (intros t'; now apply nth_error_set_nth_eq).
  assert (Hoth : forall t' j, i <> j -> nth_error (set_nth i t' (g_threads s)) j = nth_error (g_threads s) j)
    by (intros t' j Hne; now apply set_nth_other).
  pose proof (iv_excl _ _ I i t Et) as Hex. pose proof (iv_id _ _ I) as Hid.
  destruct (t_pc t) as [| |z| |] eqn:Epc.
  - destruct (t_todo t) as [|k]; [exact I|]. destruct (g_lock s) as [h|] eqn:El; [exact I|].
    split; cbn [g_id g_lock g_threads g_log].
    + apply I.
    + rewrite Hid. unfold ahead. cbn [g_lock g_threads]. rewrite El, Hself. reflexivity.
    + intros j t' Hj Hcs. destruct (Nat.eq_dec i j) as [->|Hne]; [reflexivity|]. rewrite Hoth in Hj by exact Hne.
      exfalso. pose proof (iv_excl _ _ I j t' Hj Hcs) as E. congruence.
    + intros j Hj. injection Hj as <-. exists (mkThread Locked k (t_ids t)). split; [apply Hself|discriminate].
    + intros j t' z Hj Hz. destruct (Nat.eq_dec i j) as [->|Hne]; [rewrite Hself in Hj; injection Hj as <-; discriminate|].
      rewrite Hoth in Hj by exact Hne. exact (iv_load _ _ I j t' z Hj Hz).
    + intros j t' Hj. destruct (Nat.eq_dec i j) as [->|Hne].
      * rewrite Hself in Hj. injection Hj as <-. exact (iv_ids _ _ I j t Et).
      * rewrite Hoth in Hj by exact Hne. exact (iv_ids _ _ I j t' Hj).
    + intros j z Hj. rewrite set_nth_length. exact (iv_own _ _ I j z Hj).
  - assert (El : g_lock s = Some i) by (apply Hex; unfold in_cs; congruence).
    assert (Ha : ahead s = 0%Z) by (unfold ahead; rewrite El, Et, Epc; reflexivity).
    split; cbn [put g_id g_lock g_threads g_log].
    + apply I.
    + rewrite Hid, Ha. unfold ahead. cbn [g_lock g_threads put]. rewrite El, Hself. reflexivity.
    + intros j t' Hj Hcs. destruct (Nat.eq_dec i j) as [->|Hne]; [exact El|]. rewrite Hoth in Hj by exact Hne. exact (iv_excl _ _ I j t' Hj Hcs).
    + intros j Hj. rewrite El in Hj. injection Hj as <-. eexists. split; [apply Hself|]. unfold in_cs. cbn. discriminate.
    + intros j t' z Hj Hz. destruct (Nat.eq_dec i j) as [->|Hne]; [rewrite Hself in Hj; injection Hj as <-; cbn in Hz; congruence|].
      rewrite Hoth in Hj by exact Hne. exact (iv_load _ _ I j t' z Hj Hz).
    + intros j t' Hj. destruct (Nat.eq_dec i j) as [->|Hne].
      * rewrite Hself in Hj. injection Hj as <-. exact (iv_ids _ _ I j t Et).
      * rewrite Hoth in Hj by exact Hne. exact (iv_ids _ _ I j t' Hj).
    + intros j z Hj. rewrite set_nth_length. exact (iv_own _ _ I j z Hj).
  - assert (El : g_lock s = Some i) by (apply Hex; unfold in_cs; congruence).
    assert (Ha : ahead s = 0%Z) by (unfold ahead; rewrite El, Et, Epc; reflexivity).
    pose proof (iv_load _ _ I i t z Et Epc) as Hz0.
    split; cbn [g_id g_lock g_threads g_log].
    + apply I.
    + rewrite Hz0, Hid, Ha. unfold ahead. cbn [g_lock g_threads]. rewrite El, Hself. cbn. lia.
    + intros j t' Hj Hcs. destruct (Nat.eq_dec i j) as [->|Hne]; [exact El|]. rewrite Hoth in Hj by exact Hne. exact (iv_excl _ _ I j t' Hj Hcs).
    + intros j Hj. rewrite El in Hj. injection Hj as <-. eexists. split; [apply Hself|]. unfold in_cs. cbn. discriminate.
    + intros j t' z' Hj Hz. destruct (Nat.eq_dec i j) as [->|Hne]; [rewrite Hself in Hj; injection Hj as <-; cbn in Hz; congruence|].
      rewrite Hoth in Hj by exact Hne. exfalso.
      assert (g_lock s = Some j) by (apply (iv_excl _ _ I j t' Hj); unfold in_cs; congruence). congruence.
    + intros j t' Hj. destruct (Nat.eq_dec i j) as [->|Hne].
      * rewrite Hself in Hj. injection Hj as <-. exact (iv_ids _ _ I j t Et).
      * rewrite Hoth in Hj by exact Hne. exact (iv_ids _ _ I j t' Hj).
    + intros j z' Hj. rewrite set_nth_length. exact (iv_own _ _ I j z' Hj).
  - assert (El : g_lock s = Some i) by (apply Hex; unfold in_cs; congruence).
    assert (Ha : ahead s = 1%Z) by (unfold ahead; rewrite El, Et, Epc; reflexivity).
    split; cbn [g_id g_lock g_threads g_log].
    + rewrite map_app, app_length. cbn [map length snd]. rewrite zseq_snoc, (iv_log _ _ I). do 2 f_equal. lia.
    + rewrite Hid, Ha, app_length. unfold ahead. cbn [g_lock g_threads length]. rewrite El, Hself. cbn. lia.
    + intros j t' Hj Hcs. destruct (Nat.eq_dec i j) as [->|Hne]; [exact El|]. rewrite Hoth in Hj by exact Hne. exact (iv_excl _ _ I j t' Hj Hcs).
    + intros j Hj. rewrite El in Hj. injection Hj as <-. eexists. split; [apply Hself|]. unfold in_cs. cbn. discriminate.
    + intros j t' z' Hj Hz. destruct (Nat.eq_dec i j) as [->|Hne]; [rewrite Hself in Hj; injection Hj as <-; cbn in Hz; congruence|].
      rewrite Hoth in Hj by exact Hne. exact (iv_load _ _ I j t' z' Hj Hz).
    + intros j t' Hj. rewrite ids_of_snoc. destruct (Nat.eqb_spec i j) as [->|Hne].
      * rewrite Hself in Hj. injection Hj as <-. cbn. f_equal. exact (iv_ids _ _ I j t Et).
      * rewrite Hoth in Hj by exact Hne. exact (iv_ids _ _ I j t' Hj).
    + intros j z' Hj. rewrite set_nth_length. apply in_app_or in Hj. destruct Hj as [Hj|[Hj|[]]]; [exact (iv_own _ _ I j z' Hj)|].
      injection Hj as <- _. exact Hi.
  - assert (El : g_lock s = Some i) by (apply Hex; unfold in_cs; congruence).
    assert (Ha : ahead s = 0%Z) by (unfold ahead; rewrite El, Et, Epc; reflexivity).
    split; cbn [g_id g_lock g_threads g_log].
    + apply I.
    + rewrite Hid, Ha. unfold ahead. cbn [g_lock]. reflexivity.
    + intros j t' Hj Hcs. destruct (Nat.eq_dec i j) as [->|Hne]; [rewrite Hself in Hj; injection Hj as <-; exfalso; now apply Hcs|].
      rewrite Hoth in Hj by exact Hne. pose proof (iv_excl _ _ I j t' Hj Hcs). congruence.
    + discriminate.
    + intros j t' z' Hj Hz. destruct (Nat.eq_dec i j) as [->|Hne]; [rewrite Hself in Hj; injection Hj as <-; cbn in Hz; congruence|].
      rewrite Hoth in Hj by exact Hne. exact (iv_load _ _ I j t' z' Hj Hz).
    + intros j t' Hj. destruct (Nat.eq_dec i j) as [->|Hne].
      * rewrite Hself in Hj. injection Hj as <-. exact (iv_ids _ _ I j t Et).
      * rewrite Hoth in Hj by exact Hne. exact (iv_ids _ _ I j t' Hj).
    + intros j z Hj. rewrite set_nth_length. exact (iv_own _ _ I j z Hj).
Qed.

Lemma inv_run g0 sched : forall s, inv g0 s -> inv g0 (run s sched).
Proof. induction sched as [|i sched IH]; intros s Hs; [exact Hs|]. cbn. apply IH. now apply inv_step. Qed.

Lemma zseq_nth g n k : k < n -> nth_error (zseq g n) k = Some (g + 1 + Z.of_nat k)%Z.
Proof.
  intros Hk. unfold zseq. rewrite nth_error_map.
  replace (nth_error (seq 0 n) k) with (Some k); [reflexivity|].
  symmetry. rewrite (nth_error_nth' _ 0) by now rewrite seq_length. now rewrite seq_nth.
Qed.

Lemma rising_zseq g n : rising (zseq g n).
Proof.
  intros j k x y Hjk Hx Hy. assert (k < n) by (apply nth_error_Some in Hy || (assert (k < length (zseq g n)) by (apply nth_error_Some; congruence); unfold zseq in *; rewrite map_length, seq_length in *; assumption)).
  rewrite zseq_nth in Hx, Hy by lia. injection Hx as <-. injection Hy as <-. lia.
Qed.

Lemma rising_cons x l : rising (x :: l) -> rising l /\ forall y, In y l -> (x < y)%Z.
Proof.
  intros Hr. split.
  - intros j k a b Hjk Ha Hb. exact (Hr (S j) (S k) a b ltac:(lia) Ha Hb).
  - intros y Hy. apply In_nth_error in Hy. destruct Hy as [k Hk]. exact (Hr 0 (S k) x y ltac:(lia) eq_refl Hk).
Qed.

Lemma rising_intro x l : rising l -> (forall y, In y l -> (x < y)%Z) -> rising (x :: l).
Proof.
  intros Hr Hall [|j] [|k] a b Hjk Ha Hb; try lia.
  - injection Ha as <-. apply Hall. exact (nth_error_In l k Hb).
  - cbn in *. apply (Hr j k); [lia|assumption|assumption].
Qed.

Lemma rising_filter i log : rising (map snd log) -> rising (ids_of i log).
Proof.
  induction log as [|[j z] log IH]; intros Hr; [exact Hr|]. cbn [map snd] in Hr. apply rising_cons in Hr. destruct Hr as [Hr Hall].
  unfold ids_of. cbn [filter fst]. destruct (Nat.eqb j i); [|now apply IH].
  cbn [map snd]. apply rising_intro; [now apply IH|]. intros y Hy. apply Hall. apply in_map_iff in Hy. destruct Hy as (p & <- & Hp).
  apply filter_In in Hp. now apply in_map.
Qed.

Lemma ids_unique g0 todos sched :
  let s := run (start g0 todos) sched in
  (forall i j ti tj a b x y, nth_error (g_threads s) i = Some ti -> nth_error (g_threads s) j = Some tj ->
     nth_error (t_ids ti) a = Some x -> nth_error (t_ids tj) b = Some y -> x = y -> i = j /\ a = b) /\
  (forall i ti, nth_error (g_threads s) i = Some ti -> rising (t_ids ti) /\ forall x, In x (t_ids ti) -> (g0 < x <= g_id s)%Z) /\
  map snd (g_log s) = zseq g0 (length (g_log s)).
Proof.
  cbn zeta. pose proof (inv_run g0 sched _ (inv_start g0 todos)) as I. set (s := run (start g0 todos) sched) in *.
  assert (Hr : rising (map snd (g_log s))) by (rewrite (iv_log _ _ I); apply rising_zseq).
  assert (Hthr : forall i ti, nth_error (g_threads s) i = Some ti -> rising (t_ids ti)).
  { intros i ti Hi. rewrite (iv_ids _ _ I i ti Hi). now apply rising_filter. }
  assert (Hin : forall i ti x, nth_error (g_threads s) i = Some ti -> In x (t_ids ti) -> In (i, x) (g_log s)).
  { intros i ti x Hi Hx. rewrite (iv_ids _ _ I i ti Hi) in Hx. unfold ids_of in Hx. apply in_map_iff in Hx.
    destruct Hx as ([j z] & Hz & Hp). apply filter_In in Hp. destruct Hp as [Hp He]. cbn in *. apply Nat.eqb_eq in He. now subst. }
  split; [|split].
  - intros i j ti tj a b x y Hi Hj Ha Hb ->.
    pose proof (Hin i ti y Hi (nth_error_In _ _ Ha)) as H1. pose proof (Hin j tj y Hj (nth_error_In _ _ Hb)) as H2.
    assert (Hij : i = j).
    { apply In_nth_error in H1. destruct H1 as [p Hp]. apply In_nth_error in H2. destruct H2 as [q Hq].
      assert (p = q).
      { destruct (Nat.lt_trichotomy p q) as [Hlt|[Heq|Hgt]]; [|exact Heq|].
        - exfalso. assert (y < y)%Z; [|lia]. apply (Hr p q y y Hlt); rewrite nth_error_map; [now rewrite Hp|now rewrite Hq].
        - exfalso. assert (y < y)%Z; [|lia]. apply (Hr q p y y Hgt); rewrite nth_error_map; [now rewrite Hq|now rewrite Hp]. }
      subst q. congruence. }
    subst j. split; [reflexivity|]. rewrite Hi in Hj. injection Hj as <-.
    destruct (Nat.lt_trichotomy a b) as [Hlt|[Heq|Hgt]]; [|exact Heq|]; exfalso; assert (y < y)%Z; try lia;
      [now apply (Hthr i ti Hi a b)|now apply (Hthr i ti Hi b a)].
  - intros i ti Hi. split; [now apply (Hthr i)|]. intros x Hx. apply (Hin i ti x Hi) in Hx. apply (in_map snd) in Hx. cbn in Hx.
    rewrite (iv_log _ _ I) in Hx. unfold zseq in Hx. apply in_map_iff in Hx. destruct Hx as (k & <- & Hk). apply in_seq in Hk.
    rewrite (iv_id _ _ I). assert (0 <= ahead s)%Z; [|lia].
    unfold ahead. destruct (g_lock s); [|lia]. destruct (nth_error (g_threads s) n); [|lia]. destruct (t_pc t); lia.
  - exact (iv_log _ _ I).
Qed.

(** Lock-step completeness: some thread can always move until all have finished, and when all have
    finished each thread has as many ids as it asked for. *)
Lemma list_sum_set_nth {X} (F : X -> nat) i x y l : nth_error l i = Some x ->
  list_sum (map F (set_nth i y l)) + F x = list_sum (map F l) + F y.
Proof.
  revert i. induction l as [|a l IH]; intros [|i] Hi; try discriminate.
  - injection Hi as ->. cbn. lia.
  - cbn in Hi. specialize (IH i Hi). unfold list_sum in *. cbn [set_nth map fold_right]. lia.
Qed.

Lemma progress g0 todos sched :
  let s := run (start g0 todos) sched in
  finished s \/ exists i, remaining (step s i) < remaining s.
Proof.
  cbn zeta. pose proof (inv_run g0 sched _ (inv_start g0 todos)) as I. set (s := run (start g0 todos) sched) in *.
  destruct (g_lock s) as [i|] eqn:El.
  - right. exists i. destruct (iv_held _ _ I i El) as (t & Ht & Hcs). unfold step, remaining. rewrite Ht.
    destruct (t_pc t) eqn:Epc; [congruence| | | |]; cbn [g_threads put];
      match goal with |- list_sum (map ?F (set_nth _ ?y _)) < _ => pose proof (list_sum_set_nth F i t y _ Ht) as HH end;
      cbn [t_todo t_pc size_pc] in HH; rewrite Epc in HH; cbn [size_pc] in HH; lia.
  - destruct (existsb (fun t => negb (Nat.eqb (t_todo t) 0)) (g_threads s)) eqn:Ex.
    + right. apply existsb_exists in Ex. destruct Ex as (t & Hin & Ht). apply In_nth_error in Hin. destruct Hin as [i Hi].
      exists i. assert (Epc : t_pc t = Outside).
      { destruct (t_pc t) eqn:E; [reflexivity| | | |]; exfalso; assert (g_lock s = Some i) by (apply (iv_excl _ _ I i t Hi); unfold in_cs; congruence); congruence. }
      unfold step, remaining. rewrite Hi, Epc, El. destruct (t_todo t) as [|k] eqn:Ek; [discriminate|]. cbn [g_threads].
      match goal with |- list_sum (map ?F (set_nth _ ?y _)) < _ => pose proof (list_sum_set_nth F i t y _ Hi) as HH end.
      cbn [t_todo t_pc size_pc] in HH. rewrite Epc, Ek in HH. cbn [size_pc] in HH. lia.
    + left. intros i t Hi. split.
      * destruct (t_pc t) eqn:E; [reflexivity| | | |]; exfalso; assert (g_lock s = Some i) by (apply (iv_excl _ _ I i t Hi); unfold in_cs; congruence); congruence.
      * destruct (Nat.eqb_spec (t_todo t) 0) as [E|E]; [exact E|]. exfalso.
        assert (existsb (fun t => negb (Nat.eqb (t_todo t) 0)) (g_threads s) = true); [|congruence].
        apply existsb_exists. exists t. split; [exact (nth_error_In _ _ Hi)|]. apply negb_true_iff. now apply Nat.eqb_neq.
Qed.

(** Constructor calls are conserved. *)
Definition pending (p : pc) : nat := match p with Locked | Loaded _ | Stored => 1 | _ => 0 end.
Definition conserved (todos : list nat) (s : gstate) : Prop :=
  length (g_threads s) = length todos /\
  forall i t k, nth_error (g_threads s) i = Some t -> nth_error todos i = Some k -> t_todo t + pending (t_pc t) + length (t_ids t) = k.

Lemma conserved_step todos s i : conserved todos s -> conserved todos (step s i).
Proof.
  intros [Hl Hc]. unfold step. destruct (nth_error (g_threads s) i) as [t|] eqn:Et; [|split; assumption].
  assert (G : forall t' x l lg, t_todo t' + pending (t_pc t') + length (t_ids t') = t_todo t + pending (t_pc t) + length (t_ids t) ->
              conserved todos (mkGS x l (set_nth i t' (g_threads s)) lg)).
  { intros t' x l lg He. split; [cbn; now rewrite set_nth_length|]. cbn. intros j tj k Hj Hk.
    destruct (Nat.eq_dec i j) as [->|Hne].
    - rewrite (set_nth_same _ _ _ _ Et) in Hj. injection Hj as <-. rewrite He. exact (Hc j t k Et Hk).
    - rewrite set_nth_other in Hj by exact Hne. exact (Hc j tj k Hj Hk). }
  destruct (t_pc t) eqn:Epc; [destruct (t_todo t) as [|k] eqn:Ek; [split; assumption|destruct (g_lock s); [split; assumption|]]| | | |];
    apply G; cbn [t_todo t_pc t_ids pending]; rewrite ?app_length, ?Epc; cbn [pending length]; try rewrite Ek; lia.
Qed.

Lemma all_served g0 todos sched :
  let s := run (start g0 todos) sched in
  finished s -> forall i k, nth_error todos i = Some k ->
  exists t, nth_error (g_threads s) i = Some t /\ length (t_ids t) = k.
Proof.
  cbn zeta. intros Hf i k Hk.
  assert (C : conserved todos (run (start g0 todos) sched)).
  { assert (C0 : conserved todos (start g0 todos)).
    { split; cbn; [apply map_length|]. intros j t q Hj Hq. rewrite nth_error_map, Hq in Hj. injection Hj as <-. cbn. lia. }
    clear Hf. revert C0. generalize (start g0 todos). induction sched as [|j sched IH]; intros s C0; [exact C0|]. cbn.
    apply IH. now apply conserved_step. }
  destruct C as [Hl Hc].
  destruct (nth_error (g_threads (run (start g0 todos) sched)) i) as [t|] eqn:Et.
  - exists t. split; [reflexivity|]. specialize (Hc i t k Et Hk). destruct (Hf i t Et) as [Hp Ht]. rewrite Hp, Ht in Hc. cbn in Hc. lia.
  - apply nth_error_None in Et. assert (i < length todos) by (apply nth_error_Some; congruence). lia.
Qed.
