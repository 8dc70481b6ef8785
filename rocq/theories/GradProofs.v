From Coq Require Import String.
From Verif Require Import BaseFacts DictFacts NodeModel NodeProofs GradModel GradSpec.

Set Default Goal Selector "!".

Section GradProofs.
  Context {E : Type} (add : E -> E -> E).
  Notation gstate := (gstate E).
  Notation gspec := (gspec E).
  Implicit Types (s : gstate) (t : gspec).

  (** [over]: handles already given away. *)
  Record sim (over : nat -> Prop) s t : Prop := {
    sim_len : length (st_handles s) = length (sp_user t);
    sim_handles : forall u a, nth_error (st_handles s) u = Some a -> a < length (st_arrays s);
    sim_inj : forall u u' a, nth_error (st_handles s) u = Some a -> nth_error (st_handles s) u' = Some a -> u = u';
    sim_user : forall u, ~ over u -> read_user s u = nth_error (sp_user t) u;
    sim_grad : forall nm, match dget nm (st_grads s) with
                 | None => dget nm (sp_contrib t) = None
                 | Some g => exists v l, nth_error (st_arrays s) g = Some v /\
                     dget nm (sp_contrib t) = Some l /\ total add l = Some v /\
                     (exists w l', l = w :: l' /\ length w = length v)
                 end;
    sim_ginj : forall nm nm' g, dget nm (st_grads s) = Some g -> dget nm' (st_grads s) = Some g -> nm = nm';
    sim_disj : forall nm g u, dget nm (st_grads s) = Some g -> nth_error (st_handles s) u = Some g -> over u
  }.

  Lemma vadd_length x y : length x = length y -> length (vadd add x y) = length x.
  Proof. revert y. induction x as [|a x IH]; intros [|b y] H; cbn in *; try lia. f_equal. apply IH. lia. Qed.

  Lemma total_snoc l v w : total add l = Some w -> total add (l ++ [v]) = Some (vadd add w v).
  Proof. destruct l as [|x l]; [discriminate|]. cbn [total app]. intros H. injection H as <-. now rewrite fold_left_app. Qed.

  Lemma nth_app_new {X} (l : list X) x i : i < length l -> nth_error (l ++ [x]) i = nth_error l i.
  Proof. intros H. now apply nth_error_app1. Qed.

  Lemma nth_app_last {X} (l : list X) x : nth_error (l ++ [x]) (length l) = Some x.
  Proof. rewrite nth_error_app2 by lia. now rewrite Nat.sub_diag. Qed.

  Lemma nth_snoc_inv {X} (l : list X) x i y : nth_error (l ++ [x]) i = Some y ->
    (i < length l /\ nth_error l i = Some y) \/ (i = length l /\ y = x).
  Proof.
    intros H. destruct (Nat.lt_ge_cases i (length l)) as [Hi|Hi].
    - left. rewrite nth_app_new in H by exact Hi. now split.
    - right. assert (Hb : i < length (l ++ [x])) by (apply nth_error_Some; congruence).
      rewrite app_length in Hb. cbn in Hb. assert (i = length l) as -> by lia.
      rewrite nth_app_last in H. injection H as <-. now split.
  Qed.

  Lemma sim_grad_lt over s t nm g : sim over s t -> dget nm (st_grads s) = Some g -> g < length (st_arrays s).
  Proof.
    intros Hs Hg. pose proof (sim_grad _ _ _ Hs nm) as H. rewrite Hg in H.
    destruct H as (v & l & Hv & _). apply nth_error_Some. congruence.
  Qed.

  Definition over_step (over : nat -> Prop) (o : grad_op E) : nat -> Prop :=
    match o with GSet _ u => fun x => over x \/ x = u | _ => over end.

  Lemma step_sim over s t o :
    sim over s t -> (forall u, uses o = Some u -> ~ over u) ->
    snd (grad_step add s o) = snd (spec_step t o) /\
    sim (over_step over o) (fst (grad_step add s o)) (fst (spec_step t o)).
  Proof.
    intros Hs Hu. destruct o as [v|u v|nm u|nm u]; cbn [grad_step spec_step over_step uses] in *.
    - (* UNew *)
      unfold alloc. cbn [fst snd st_arrays st_handles st_grads]. split; [reflexivity|].
      constructor; cbn [st_arrays st_handles st_grads sp_user sp_contrib].
      + rewrite !app_length, (sim_len _ _ _ Hs). reflexivity.
      + intros u a Ha. rewrite app_length. cbn. apply nth_snoc_inv in Ha.
        destruct Ha as [[_ Ha]|[_ ->]]; [|lia]. apply (sim_handles _ _ _ Hs) in Ha. lia.
      + intros u u' a Ha Ha'. apply nth_snoc_inv in Ha. apply nth_snoc_inv in Ha'.
        destruct Ha as [[Hl Ha]|[-> ->]]; destruct Ha' as [[Hl' Ha']|[-> E']].
        * exact (sim_inj _ _ _ Hs _ _ _ Ha Ha').
        * apply (sim_handles _ _ _ Hs) in Ha. lia.
        * apply (sim_handles _ _ _ Hs) in Ha'. lia.
        * reflexivity.
      + intros u Hou. unfold read_user. cbn [st_arrays st_handles].
        match goal with |- context [nth_error (st_handles s ++ ?l) u] =>
          destruct (nth_error (st_handles s ++ l) u) as [a|] eqn:Ea end.
        * apply nth_snoc_inv in Ea. destruct Ea as [[Hl Ea]|[-> ->]].
          -- rewrite nth_app_new by exact (sim_handles _ _ _ Hs _ _ Ea).
             rewrite nth_app_new by (rewrite <- (sim_len _ _ _ Hs); exact Hl).
             rewrite <- (sim_user _ _ _ Hs u Hou). unfold read_user. now rewrite Ea.
          -- rewrite nth_app_last, (sim_len _ _ _ Hs), nth_app_last. reflexivity.
        * symmetry. apply nth_error_None. apply nth_error_None in Ea.
          rewrite app_length in *. cbn in *. rewrite <- (sim_len _ _ _ Hs). exact Ea.
      + intros nm. pose proof (sim_grad _ _ _ Hs nm) as H.
        destruct (dget nm (st_grads s)) as [g|]; [|exact H].
        destruct H as (w & l & Hw & H). exists w, l. split; [|exact H].
        rewrite nth_app_new; [exact Hw|]. apply nth_error_Some. congruence.
      + exact (sim_ginj _ _ _ Hs).
      + intros nm g u Hg Hh. apply nth_snoc_inv in Hh. destruct Hh as [[_ Hh]|[_ ->]].
        * exact (sim_disj _ _ _ Hs _ _ _ Hg Hh).
        * pose proof (sim_grad_lt _ _ _ _ _ Hs Hg). lia.
    - (* UWrite *)
      specialize (Hu u eq_refl).
      destruct (nth_error (st_handles s) u) as [a|] eqn:Ea.
      + assert (Hlt : u < length (sp_user t)).
        { rewrite <- (sim_len _ _ _ Hs). apply nth_error_Some. congruence. }
        apply Nat.ltb_lt in Hlt. rewrite Hlt. apply Nat.ltb_lt in Hlt. cbn [fst snd].
        split; [reflexivity|].
        constructor; cbn [st_arrays st_handles st_grads sp_user sp_contrib].
        * now rewrite set_nth_length, (sim_len _ _ _ Hs).
        * intros x b Hb. rewrite set_nth_length. exact (sim_handles _ _ _ Hs _ _ Hb).
        * exact (sim_inj _ _ _ Hs).
        * intros x Hx. unfold read_user. cbn [st_arrays st_handles].
          destruct (Nat.eq_dec u x) as [<-|Hne].
          -- rewrite Ea.
             destruct (nth_error (st_arrays s) a) as [w|] eqn:Ew.
             ++ rewrite (set_nth_same _ _ w) by exact Ew. symmetry.
                destruct (nth_error (sp_user t) u) as [w'|] eqn:Eu.
                ** apply (set_nth_same _ _ w'). exact Eu.
                ** apply nth_error_None in Eu. lia.
             ++ apply (sim_handles _ _ _ Hs) in Ea. apply nth_error_None in Ew. lia.
          -- rewrite (set_nth_other u x) by exact Hne. rewrite <- (sim_user _ _ _ Hs x Hx).
             unfold read_user. destruct (nth_error (st_handles s) x) as [b|] eqn:Eb; [|reflexivity].
             apply set_nth_other. intros ->. apply Hne. exact (sim_inj _ _ _ Hs _ _ _ Ea Eb).
        * intros nm. pose proof (sim_grad _ _ _ Hs nm) as H.
          destruct (dget nm (st_grads s)) as [g|] eqn:Eg; [|exact H].
          destruct H as (w & l & Hw & H). exists w, l. split; [|exact H].
          rewrite set_nth_other; [exact Hw|]. intros ->. apply Hu. exact (sim_disj _ _ _ Hs _ _ _ Eg Ea).
        * exact (sim_ginj _ _ _ Hs).
        * exact (sim_disj _ _ _ Hs).
      + apply nth_error_None in Ea. rewrite (sim_len _ _ _ Hs) in Ea.
        destruct (Nat.ltb_spec u (length (sp_user t))); [lia|]. split; [reflexivity|exact Hs].
    - (* GInc *)
      specialize (Hu u eq_refl). pose proof (sim_user _ _ _ Hs u Hu) as Hus. unfold read_user in Hus.
      destruct (nth_error (st_handles s) u) as [a|] eqn:Ea.
      2:{ rewrite <- Hus. split; [reflexivity|exact Hs]. }
      destruct (nth_error (st_arrays s) a) as [v|] eqn:Ev.
      2:{ rewrite <- Hus. split; [reflexivity|exact Hs]. }
      rewrite <- Hus. pose proof (sim_grad _ _ _ Hs nm) as Hg. unfold contributions, ps_inc_grad.
      destruct (dget nm (st_grads s)) as [g|] eqn:Eg.
      + destruct Hg as (w & l & Hw & Hl & Ht & (w0 & l' & El & Hlen)). rewrite Hw, Hl.
        assert (Hc : compatible l v = Nat.eqb (length w) (length v)).
        { rewrite El. cbn [compatible]. now rewrite Hlen. }
        rewrite Hc. destruct (Nat.eqb_spec (length w) (length v)) as [Hwv|Hwv].
        2:{ split; [reflexivity|exact Hs]. }
        cbn [fst snd]. split; [reflexivity|].
        constructor; cbn [st_arrays st_handles st_grads sp_user sp_contrib].
        * exact (sim_len _ _ _ Hs).
        * intros x b Hb. rewrite set_nth_length. exact (sim_handles _ _ _ Hs _ _ Hb).
        * exact (sim_inj _ _ _ Hs).
        * intros x Hx. rewrite <- (sim_user _ _ _ Hs x Hx). unfold read_user. cbn [st_arrays st_handles].
          destruct (nth_error (st_handles s) x) as [b|] eqn:Eb; [|reflexivity].
          apply set_nth_other. intros ->. apply Hx. exact (sim_disj _ _ _ Hs _ _ _ Eg Eb).
        * intros nm'. rewrite dget_dset. destruct (eqd nm' nm) as [->|Hne].
          -- rewrite Eg. exists (vadd add w v), (l ++ [v]).
             split; [exact (set_nth_same _ _ _ _ Hw)|]. split; [reflexivity|].
             split; [now apply total_snoc|]. rewrite El. exists w0, (l' ++ [v]).
             split; [reflexivity|]. rewrite vadd_length; lia.
          -- pose proof (sim_grad _ _ _ Hs nm') as H.
             destruct (dget nm' (st_grads s)) as [g'|] eqn:Eg'; [|exact H].
             destruct H as (w' & l2 & Hw' & H). exists w', l2. split; [|exact H].
             rewrite set_nth_other; [exact Hw'|]. intros ->. apply Hne.
             exact (sim_ginj _ _ _ Hs _ _ _ Eg' Eg).
        * exact (sim_ginj _ _ _ Hs).
        * exact (sim_disj _ _ _ Hs).
      + rewrite Hg. cbn [compatible app alloc fst snd st_arrays st_handles st_grads].
        split; [reflexivity|].
        constructor; cbn [st_arrays st_handles st_grads sp_user sp_contrib].
        * exact (sim_len _ _ _ Hs).
        * intros x b Hb. rewrite app_length. apply (sim_handles _ _ _ Hs) in Hb. lia.
        * exact (sim_inj _ _ _ Hs).
        * intros x Hx. rewrite <- (sim_user _ _ _ Hs x Hx). unfold read_user. cbn [st_arrays st_handles].
          destruct (nth_error (st_handles s) x) as [b|] eqn:Eb; [|reflexivity].
          apply nth_app_new. exact (sim_handles _ _ _ Hs _ _ Eb).
        * intros nm'. rewrite !dget_dset. destruct (eqd nm' nm) as [->|Hne].
          -- exists v, [v]. split; [apply nth_app_last|]. split; [reflexivity|]. split; [reflexivity|].
             now exists v, [].
          -- pose proof (sim_grad _ _ _ Hs nm') as H.
             destruct (dget nm' (st_grads s)) as [g'|] eqn:Eg'; [|exact H].
             destruct H as (w' & l2 & Hw' & H). exists w', l2. split; [|exact H].
             rewrite nth_app_new; [exact Hw'|]. apply nth_error_Some. congruence.
        * intros n1 n2 g. rewrite !dget_dset.
          destruct (eqd n1 nm) as [->|H1]; destruct (eqd n2 nm) as [->|H2]; intros G1 G2.
          -- reflexivity.
          -- injection G1 as <-. pose proof (sim_grad_lt _ _ _ _ _ Hs G2). lia.
          -- injection G2 as <-. pose proof (sim_grad_lt _ _ _ _ _ Hs G1). lia.
          -- exact (sim_ginj _ _ _ Hs _ _ _ G1 G2).
        * intros n1 g x. rewrite dget_dset. destruct (eqd n1 nm) as [->|H1]; intros G1 Hh.
          -- injection G1 as <-. apply (sim_handles _ _ _ Hs) in Hh. lia.
          -- exact (sim_disj _ _ _ Hs _ _ _ G1 Hh).
    - (* GSet *)
      specialize (Hu u eq_refl). pose proof (sim_user _ _ _ Hs u Hu) as Hus. unfold read_user in Hus.
      destruct (nth_error (st_handles s) u) as [a|] eqn:Ea.
      2:{ rewrite <- Hus. split; [reflexivity|].
          destruct Hs as [S1 S2 S3 S4 S5 S6 S7]. constructor; try assumption.
          - intros x Hx. apply S4. tauto.
          - intros n1 g x G1 Hh. left. exact (S7 _ _ _ G1 Hh). }
      pose proof (sim_handles _ _ _ Hs _ _ Ea) as Halt.
      destruct (nth_error (st_arrays s) a) as [v|] eqn:Ev; [|apply nth_error_None in Ev; lia].
      rewrite <- Hus. cbn [ps_set_grad fst snd]. split; [reflexivity|].
      constructor; cbn [st_arrays st_handles st_grads sp_user sp_contrib].
      + exact (sim_len _ _ _ Hs).
      + exact (sim_handles _ _ _ Hs).
      + exact (sim_inj _ _ _ Hs).
      + intros x Hx. apply (sim_user _ _ _ Hs). tauto.
      + intros nm'. rewrite !dget_dset. destruct (eqd nm' nm) as [->|Hne].
        * exists v, [v]. split; [exact Ev|]. split; [reflexivity|]. split; [reflexivity|]. now exists v, [].
        * exact (sim_grad _ _ _ Hs nm').
      + intros n1 n2 g. rewrite !dget_dset.
        destruct (eqd n1 nm) as [->|H1]; destruct (eqd n2 nm) as [->|H2]; intros G1 G2.
        * reflexivity.
        * injection G1 as <-. exfalso. apply Hu. exact (sim_disj _ _ _ Hs _ _ _ G2 Ea).
        * injection G2 as <-. exfalso. apply Hu. exact (sim_disj _ _ _ Hs _ _ _ G1 Ea).
        * exact (sim_ginj _ _ _ Hs _ _ _ G1 G2).
      + intros n1 g x. rewrite dget_dset. destruct (eqd n1 nm) as [->|H1]; intros G1 Hh.
        * injection G1 as <-. right. exact (sim_inj _ _ _ Hs _ _ _ Hh Ea).
        * left. exact (sim_disj _ _ _ Hs _ _ _ G1 Hh).
  Qed.

  Lemma run_sim ops over s t :
    sim over s t -> handed_over ops -> (forall o u, In o ops -> uses o = Some u -> ~ over u) ->
    snd (grad_run add s ops) = snd (spec_run t ops) /\
    exists over', sim over' (fst (grad_run add s ops)) (fst (spec_run t ops)) /\
      forall u, over' u -> over u \/ exists name, In (GSet name u) ops.
  Proof.
    revert over s t. induction ops as [|o ops IH]; intros over s t Hs Hh Hu; cbn [grad_run spec_run].
    - split; [reflexivity|]. exists over. split; [exact Hs|]. auto.
    - destruct Hh as [Ho Hh]. destruct (step_sim over s t o Hs) as [Hr Hs1].
      { intros u E1. apply (Hu o u); [now left|exact E1]. }
      destruct (grad_step add s o) as [s1 r1]. destruct (spec_step t o) as [t1 r1'].
      cbn [fst snd] in *. subst r1'.
      destruct (IH (over_step over o) s1 t1 Hs1 Hh) as [Hrs (over' & Hs' & Ho')].
      { intros o' u Hin E1. destruct o as [v|x v|nm x|nm x]; cbn [over_step];
          try (apply (Hu o' u); [now right|exact E1]).
        intros [Hx|Hx]; [revert Hx; apply (Hu o' u); [now right|exact E1]|].
        apply (Ho o' Hin). congruence. }
      destruct (grad_run add s1 ops) as [s2 rs]. destruct (spec_run t1 ops) as [t2 rs'].
      cbn [fst snd] in *. subst rs'. split; [reflexivity|]. exists over'. split; [exact Hs'|].
      intros u Hx. apply Ho' in Hx. destruct Hx as [Hx|[nm Hx]].
      + destruct o as [v|x v|nm x|nm x]; cbn [over_step] in Hx; try (now left).
        destruct Hx as [Hx| ->]; [now left|]. right. exists nm. now left.
      + right. exists nm. now right.
  Qed.

  Lemma init_sim : sim (fun _ => False) grad_init spec_init.
  Proof.
    constructor; cbn; try reflexivity; try discriminate.
    - intros [|u] a H; discriminate.
    - intros [|u] u' a H; discriminate.
    - intros [|u] _; reflexivity.
  Qed.

  Lemma grad_refines ops : handed_over ops ->
    snd (grad_run add grad_init ops) = snd (spec_run spec_init ops) /\
    (forall name, read_grad (fst (grad_run add grad_init ops)) name =
       match total add (contributions (fst (spec_run spec_init ops)) name) with
       | Some v => Ok v | None => Err KeyError end) /\
    (forall u, never_set ops u ->
       read_user (fst (grad_run add grad_init ops)) u = nth_error (sp_user (fst (spec_run spec_init ops))) u).
  Proof.
    intros Hh. destruct (run_sim ops _ _ _ init_sim Hh) as [Hr (over & Hs & Ho)]; [auto|].
    split; [exact Hr|]. split.
    - intros nm. pose proof (sim_grad _ _ _ Hs nm) as H. unfold read_grad, contributions.
      destruct (dget nm (st_grads _)) as [g|].
      + destruct H as (v & l & -> & -> & Ht & _). now rewrite Ht.
      + rewrite H. reflexivity.
    - intros u Hn. apply (sim_user _ _ _ Hs). intros Hx. apply Ho in Hx. destruct Hx as [[]|[nm Hx]].
      exact (Hn nm Hx).
  Qed.

  (** Arrays not handed over: the caller sees exactly its own writes. *)
  Lemma spec_user_writes ops : forall t,
    sp_user (fst (spec_run t ops)) =
    fold_left (fun us o => match o with UNew v => us ++ [v] | UWrite u v => set_nth u v us | _ => us end) ops (sp_user t).
  Proof.
    induction ops as [|o ops IH]; intros t; cbn [spec_run fold_left]; [reflexivity|].
    destruct (spec_step t o) as [t1 r1] eqn:Es. specialize (IH t1).
    destruct (spec_run t1 ops) as [t2 rs]. cbn [fst] in *. rewrite IH. f_equal.
    destruct o as [v|u v|nm u|nm u]; cbn [spec_step] in Es.
    - injection Es as <- <-. reflexivity.
    - destruct (Nat.ltb_spec u (length (sp_user t))) as [Hl|Hl]; injection Es as <- <-; [reflexivity|].
      clear IH. cbn. revert Hl. generalize (sp_user t) as us. induction u as [|u IHu]; intros [|x us] Hl; cbn in *; try reflexivity; try lia.
      f_equal. apply IHu. lia.
    - destruct (nth_error _ _); [destruct (compatible _ _)|]; injection Es as <- <-; reflexivity.
    - destruct (nth_error _ _); injection Es as <- <-; reflexivity.
  Qed.

  Lemma grad_user_own ops u : handed_over ops -> never_set ops u ->
    read_user (fst (grad_run add grad_init ops)) u =
    nth_error (fold_left (fun us o => match o with UNew v => us ++ [v] | UWrite x v => set_nth x v us | _ => us end) ops []) u.
  Proof.
    intros Hh Hn. destruct (grad_refines ops Hh) as (_ & _ & H3). rewrite (H3 u Hn), spec_user_writes. reflexivity.
  Qed.
End GradProofs.

Lemma set_grad_alias_witness :
  exists (ops : list (grad_op nat)) u v,
    In (UNew v) ops /\ (forall w, ~ In (UWrite u w) ops) /\ u = 0 /\ hd_error ops = Some (UNew v) /\
    read_user (fst (grad_run Nat.add grad_init ops)) u <> Some v.
Proof.
  exists [UNew [1]; GSet "W"%string 0; UNew [2]; GInc "W"%string 1], 0, [1].
  split; [now left|]. split; [intros w; cbn; intuition congruence|]. split; [reflexivity|].
  split; [reflexivity|]. vm_compute. discriminate.
Qed.
