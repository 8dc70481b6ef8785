From Coq Require Import Permutation.
From Verif Require Import BaseFacts CudaSpec.
Set Default Goal Selector "!".

Lemma mapM_pure {A B} (f : A -> result B) (g : A -> B) l : (forall a, In a l -> f a = Ok (g a)) -> mapM f l = Ok (map g l).
Proof.
  induction l as [|a l IH]; intros Hf; [reflexivity|]. cbn. rewrite Hf by (now left). cbn. rewrite IH; [reflexivity|]. intros; apply Hf; now right.
Qed.

(** ** The loop of a thread *)
Fixpoint strided (fuel b stride N : nat) : list nat :=
  if b <? N then match fuel with O => [] | S f => b :: strided f (b + stride) stride N end else [].

Lemma loop_starts_seq G D : loop_starts G D = seq 0 (G * D).
Proof.
  unfold loop_starts. induction G as [|G IH]; [reflexivity|].
  rewrite seq_S, flat_map_app, IH. cbn [flat_map]. rewrite app_nil_r. cbn [Nat.add].
  replace (S G * D) with (G * D + D) by lia. rewrite seq_app. f_equal. cbn [Nat.add].
  assert (E : forall n k, map (fun ti => n + ti) (seq k D) = seq (n + k) D).
  { clear. intros n. induction D as [|D IHD]; intros k; [reflexivity|]. cbn. f_equal. rewrite IHD. f_equal. lia. }
  rewrite E. f_equal. lia.
Qed.

Lemma strided_ge fuel : forall b stride N x, In x (strided fuel b stride N) -> b <= x < N.
Proof.
  induction fuel as [|f IH]; intros b st N x; cbn [strided grid_for]; destruct (Nat.ltb_spec b N); intros Hx; cbn [In] in Hx; try contradiction.
  destruct Hx as [->|Hx]; [lia|]. apply IH in Hx. lia.
Qed.
Lemma strided_nodup fuel : forall b stride N, stride <> 0 -> NoDup (strided fuel b stride N).
Proof.
  induction fuel as [|f IH]; intros b st N Hs; cbn [strided grid_for]; destruct (Nat.ltb_spec b N); try constructor; [|now apply IH].
  intros Hx. apply strided_ge in Hx. lia.
Qed.
Lemma strided_mod fuel : forall b stride N x, stride <> 0 -> In x (strided fuel b stride N) -> x mod stride = b mod stride.
Proof.
  induction fuel as [|f IH]; intros b st N x Hs; cbn [strided grid_for]; destruct (Nat.ltb_spec b N); intros Hx; cbn [In] in Hx; try contradiction.
  destruct Hx as [->|Hx]; [reflexivity|]. apply IH in Hx; [|exact Hs]. rewrite Hx.
  rewrite <- Nat.add_mod_idemp_r, Nat.mod_same, Nat.add_0_r; auto.
Qed.
Lemma strided_in fuel : forall b stride N k, stride <> 0 -> N <= b + fuel -> b + k * stride < N -> In (b + k * stride) (strided fuel b stride N).
Proof.
  induction fuel as [|f IH]; intros b st N k Hs Hf Hk; cbn [strided grid_for]; destruct (Nat.ltb_spec b N); try nia.
  destruct k as [|k]; [left; lia|]. right.
  replace (b + S k * st) with ((b + st) + k * st) in * by lia. apply IH; try nia.
Qed.
Lemma strided_mem start stride N x : stride <> 0 -> start < stride -> In x (strided N start stride N) <-> (x < N /\ x mod stride = start).
Proof.
  intros Hs Hst. split.
  - intros Hx. pose proof (strided_ge _ _ _ _ _ Hx). apply strided_mod in Hx; [|exact Hs]. rewrite (Nat.mod_small start) in Hx by lia. lia.
  - intros [Hx Hm]. pose proof (Nat.div_mod x stride Hs) as E. rewrite Hm in E.
    replace x with (start + (x / stride) * stride) by lia. apply strided_in; nia.
Qed.

Section Grid.
  Context {V S : Type}.
  Variable body : nat -> S -> result (S * list (instr V)).
  Variable work : nat -> list (instr V).
  Variable Inv : nat -> S -> Prop.
  Variable N : nat.
  Hypothesis Hbody : forall b s, b < N -> Inv b s -> exists s', body b s = Ok (s', work b) /\ forall b', b <= b' -> Inv b' s'.
  Lemma grid_for_ok stride fuel : forall b s, stride <> 0 -> N <= b + fuel -> Inv b s ->
    grid_for fuel b stride N body s = Ok (concat (map work (strided fuel b stride N))).
  Proof.
    induction fuel as [|f IH]; intros b s Hs Hf HI; cbn [strided grid_for]; destruct (Nat.ltb_spec b N); cbn; try reflexivity; [lia|].
    destruct (Hbody b s) as (s' & E & HI'); [lia|exact HI|]. rewrite E. cbn.
    rewrite IH; [reflexivity|exact Hs|lia|]. apply HI'. lia.
  Qed.
End Grid.

(** ** The effect of accesses on one element *)
Section Cells.
  Context {V : Type}.
  Definition upd (a : nat) (x : V) (i : instr V) : V :=
    if target i =? a then match i with Wr _ v => v | Rmw _ f => f x end else x.
  Definition cellf (a : nat) (l : list (instr V)) (x : V) : V := fold_left (upd a) l x.

  Lemma cellf_app a l l' x : cellf a (l ++ l') x = cellf a l' (cellf a l x). Proof. apply fold_left_app. Qed.
  Lemma cellf_concat a ls : forall x, cellf a (concat ls) x = fold_left (fun x l => cellf a l x) ls x.
  Proof. induction ls as [|l ls IH]; intros x; [reflexivity|]. cbn [concat fold_left]. now rewrite cellf_app, IH. Qed.
  Lemma cellf_none a l : (forall i, In i l -> target i <> a) -> forall x, cellf a l x = x.
  Proof.
    induction l as [|i l IH]; intros Hl x; [reflexivity|]. cbn. unfold cellf in IH. rewrite IH; [|intros; apply Hl; now right].
    unfold upd. destruct (Nat.eqb_spec (target i) a) as [E|]; [|reflexivity]. exfalso. apply (Hl i); [now left|exact E].
  Qed.

  Lemma nth_error_set_nth {A} i (x : A) l k : nth_error (set_nth i x l) k = if k =? i then match nth_error l i with Some _ => Some x | None => None end else nth_error l k.
  Proof.
    revert i k. induction l as [|y l IH]; intros [|i] [|k]; cbn; try reflexivity.
    - now destruct (k =? i).
    - apply IH.
  Qed.
  Lemma set_nth_len {A} i (x : A) l : length (set_nth i x l) = length l. Proof. apply set_nth_length. Qed.

  Lemma sequentially_cell l : forall m a x, nth_error m a = Some x -> nth_error (sequentially m l) a = Some (cellf a l x).
  Proof.
    unfold sequentially. induction l as [|i l IH]; intros m a x Hx; [exact Hx|]. cbn. apply IH.
    unfold upd. destruct i as [k v|k f]; cbn.
    - rewrite nth_error_set_nth, (Nat.eqb_sym a k). destruct (Nat.eqb_spec k a) as [->|]; [now rewrite Hx|exact Hx].
    - destruct (Nat.eqb_spec k a) as [->|Hn].
      + rewrite Hx, nth_error_set_nth, Nat.eqb_refl, Hx. reflexivity.
      + destruct (nth_error m k); [|exact Hx]. rewrite nth_error_set_nth. apply Nat.neq_sym in Hn. apply Nat.eqb_neq in Hn. now rewrite Hn.
  Qed.
  Lemma sequentially_length l : forall m : list V, length (sequentially m l) = length m.
  Proof.
    unfold sequentially. induction l as [|i l IH]; intros m; [reflexivity|]. cbn. rewrite IH. destruct i as [a v|a f]; cbn; [apply set_nth_len|].
    destruct (nth_error m a); [apply set_nth_len|reflexivity].
  Qed.

  (** ** Any interleaving *)
  Variable own : nat -> nat.
  Variable final : nat -> V.
  Definition codeof (ts : list (thread V)) (i : nat) : list (instr V) := match nth_error ts i with Some t => code t | None => [] end.
  Definition inv (n : nat) (m : list V) (ts : list (thread V)) : Prop :=
    length m = n /\
    (forall i t, nth_error ts i = Some t ->
      (forall x, In x (code t) -> target x < n /\ own (target x) = i) /\
      (forall y, pending t = Some y -> exists a f c, code t = Rmw a f :: c /\ nth_error m a = Some y)) /\
    (forall a x, nth_error m a = Some x -> cellf a (codeof ts (own a)) x = final a).

  Lemma codeof_set ts i t t' j : nth_error ts i = Some t -> codeof (set_nth i t' ts) j = if j =? i then code t' else codeof ts j.
  Proof. intros E. unfold codeof. rewrite nth_error_set_nth, E. now destruct (j =? i). Qed.

  Lemma inv_pop n m ts i t a op m' :
    inv n m ts -> nth_error ts i = Some t -> (forall v, op = Wr a v -> True) -> target op = a ->
    (exists c, code t = op :: c /\
      (forall x, nth_error m a = Some x -> m' = set_nth a (upd a x op) m) /\
      inv n m ts) -> a < n -> exists c, code t = op :: c /\ inv n m' (set_nth i (mkT None c) ts).
  Proof.
    intros (HL & HT & HC) Ht _ Ha (c & Hc & Hm & _) Han. exists c. split; [exact Hc|].
    destruct (nth_error m a) as [x0|] eqn:Ex; [|apply nth_error_None in Ex; lia].
    specialize (Hm x0 eq_refl). subst m'.
    assert (Hown : own a = i). { destruct (HT i t Ht) as [H _]. destruct (H op) as [_ H']; [rewrite Hc; now left|]. now rewrite Ha in H'. }
    split; [now rewrite set_nth_len|]. split.
    - intros j t' Hj. rewrite nth_error_set_nth in Hj. destruct (Nat.eqb_spec j i) as [->|Hn].
      + rewrite Ht in Hj. injection Hj as <-. cbn. split; [|discriminate].
        intros x Hx. apply (HT i t Ht). rewrite Hc. now right.
      + destruct (HT j t' Hj) as [H1 H2]. split; [exact H1|]. intros y Hy. destruct (H2 y Hy) as (a' & f & c' & E1 & E2).
        exists a', f, c'. split; [exact E1|]. rewrite nth_error_set_nth. destruct (Nat.eqb_spec a' a) as [->|]; [|exact E2].
        exfalso. apply Hn. destruct (H1 (Rmw a f)) as [_ H']; [rewrite E1; now left|]. cbn in H'. now rewrite <- H'.
    - intros k x. rewrite nth_error_set_nth, (codeof_set _ _ t) by exact Ht. destruct (Nat.eqb_spec k a) as [->|Hn].
      + rewrite Ex. intros E. injection E as <-. rewrite Hown, Nat.eqb_refl. cbn [code].
        rewrite <- (HC a x0 Ex), Hown. unfold codeof. rewrite Ht, Hc. reflexivity.
      + intros E. rewrite <- (HC k x E). destruct (Nat.eqb_spec (own k) i) as [Ei|]; [|reflexivity].
        cbn [code]. rewrite Ei. unfold codeof. rewrite Ht, Hc. cbn. unfold upd at 2. destruct (Nat.eqb_spec (target op) k) as [E'|]; [|reflexivity].
        exfalso. apply Hn. now rewrite <- E'.
  Qed.

  Lemma step_inv n m ts i t : inv n m ts -> nth_error ts i = Some t ->
    exists m' t', step m t = Ok (m', t') /\ inv n m' (set_nth i t' ts).
  Proof.
    intros HI Ht. pose proof HI as (HL & HT & HC). destruct (HT i t Ht) as [H1 H2]. unfold step.
    destruct (code t) as [|[a v|a f] c] eqn:Hc.
    - exists m, t. split; [reflexivity|]. replace (set_nth i t ts) with ts; [exact HI|].
      clear -Ht. revert i Ht. induction ts as [|u ts IH]; intros [|i]; cbn; try discriminate; intros E; [congruence|]. now rewrite <- IH.
    - destruct (H1 (Wr a v)) as [Ha _]; [now left|]. cbn in Ha.
      destruct (Nat.ltb_spec a (length m)); [|lia].
      destruct (inv_pop n m ts i t a (Wr a v) (set_nth a v m) HI Ht) as (c' & E & HI'); auto.
      + exists c. split; [exact Hc|]. split; [|exact HI]. intros x _. unfold upd. cbn. now rewrite Nat.eqb_refl.
      + rewrite Hc in E. injection E as <-. eexists _, _. split; [reflexivity|exact HI'].
    - destruct (H1 (Rmw a f)) as [Ha _]; [now left|]. cbn in Ha.
      destruct (nth_error m a) as [x|] eqn:Ex; [|apply nth_error_None in Ex; lia].
      destruct (pending t) as [y|] eqn:Ep.
      + destruct (H2 y eq_refl) as (a' & f' & c' & E1 & E2). injection E1 as <- <- <-.
        rewrite Ex in E2. injection E2 as <-.
        destruct (inv_pop n m ts i t a (Rmw a f) (set_nth a (f x) m) HI Ht) as (c' & E & HI'); auto; try discriminate.
        * exists c. split; [exact Hc|]. split; [|exact HI]. intros z Ez. rewrite Ex in Ez. injection Ez as <-. unfold upd. cbn. now rewrite Nat.eqb_refl.
        * rewrite Hc in E. injection E as <-. eexists _, _. split; [reflexivity|exact HI'].
      + eexists _, _. split; [reflexivity|]. split; [exact HL|]. split.
        * intros j t' Hj. rewrite nth_error_set_nth in Hj. destruct (Nat.eqb_spec j i) as [->|Hn]; [|apply HT; exact Hj].
          rewrite Ht in Hj. injection Hj as <-. cbn. split; [exact H1|]. intros y E. injection E as <-. exists a, f, c. auto.
        * intros k y E. rewrite (codeof_set _ _ t) by exact Ht. cbn [code]. rewrite <- (HC k y E).
          destruct (Nat.eqb_spec (own k) i) as [Ei|]; [|reflexivity]. rewrite Ei. unfold codeof. rewrite Ht, Hc. reflexivity.
  Qed.

  Lemma run_inv n s : forall m ts, inv n m ts -> exists m' ts', run s m ts = Ok (m', ts') /\ inv n m' ts'.
  Proof.
    induction s as [|i s IH]; intros m ts HI; [exists m, ts; auto|]. cbn.
    destruct (nth_error ts i) as [t|] eqn:E; [|now apply IH].
    destruct (step_inv n m ts i t HI E) as (m' & t' & Es & HI'). rewrite Es. cbn. now apply IH.
  Qed.

  Lemma inv_finished n m ts : inv n m ts -> forall i t p, nth_error ts i = Some t -> code t = [] -> inv n m (set_nth i (mkT p []) ts) \/ p <> None.
  Proof.
    intros (HL & HT & HC) i t p Ht Hc. destruct p; [now right|]. left. split; [exact HL|]. split.
    - intros j t' Hj. rewrite nth_error_set_nth in Hj. destruct (Nat.eqb_spec j i) as [->|Hn]; [|apply HT; exact Hj].
      rewrite Ht in Hj. injection Hj as <-. cbn. split; [tauto|discriminate].
    - intros k x E. rewrite (codeof_set _ _ t) by exact Ht. rewrite <- (HC k x E). cbn [code]. destruct (Nat.eqb_spec (own k) i) as [Ei|]; [|reflexivity].
      rewrite Ei. unfold codeof. now rewrite Ht, Hc.
  Qed.

  (** [finish] makes the steps of one thread *)
  Lemma finish_inv n c : forall m ts i p, inv n m ts -> nth_error ts i = Some (mkT p c) ->
    exists m', finish m p c = Ok m' /\ inv n m' (set_nth i (mkT None []) ts).
  Proof.
    induction c as [|op c IH]; intros m ts i p HI Ht.
    - exists m. split; [reflexivity|]. destruct (inv_finished n m ts HI i _ None Ht eq_refl) as [H|H]; [exact H|congruence].
    - assert (Hset : forall t, set_nth i (mkT None []) (set_nth i t ts) = set_nth i (mkT (V := V) None []) ts).
      { clear. revert i. induction ts as [|u ts IH]; intros [|i] t; cbn; congruence. }
      assert (Hget : forall t', nth_error (set_nth i t' ts) i = Some t'). { intros t'. rewrite nth_error_set_nth, Nat.eqb_refl, Ht. reflexivity. }
      destruct (step_inv n m ts i _ HI Ht) as (m' & t' & Es & HI').
      destruct op as [a v|a f]; unfold step in Es; cbn [code pending] in Es; cbn [finish].
      + destruct (a <? length m); [|discriminate]. injection Es as <- <-.
        destruct (IH _ _ i None HI' (Hget _)) as (m2 & E2 & HI2). exists m2. split; [exact E2|]. now rewrite Hset in HI2.
      + destruct (nth_error m a) as [x|] eqn:Ex; [|discriminate]. destruct p as [y|].
        * injection Es as <- <-. destruct (IH _ _ i None HI' (Hget _)) as (m2 & E2 & HI2). exists m2. split; [exact E2|]. now rewrite Hset in HI2.
        * injection Es as <- <-. destruct (step_inv n m _ i _ HI' (Hget _)) as (m3 & t3 & Es3 & HI3). unfold step in Es3; cbn [code pending] in Es3. rewrite Ex in Es3. injection Es3 as <- <-.
          assert (Hset2 : forall t u, set_nth i t (set_nth i u ts) = set_nth i (t : thread V) ts).
          { clear. revert i. induction ts as [|w ts IH]; intros [|i] t u; cbn; congruence. }
          rewrite Hset2 in HI3. destruct (IH _ _ i None HI3 (Hget _)) as (m2 & E2 & HI2). exists m2. split; [exact E2|]. now rewrite Hset in HI2.
  Qed.

  Lemma drain_inv n ts : forall m pre, inv n m (pre ++ ts) -> (forall t, In t pre -> code t = []) ->
    exists m', drain m ts = Ok m' /\ length m' = n /\ forall a x, nth_error m' a = Some x -> x = final a.
  Proof.
    induction ts as [|t ts IH]; intros m pre HI Hp.
    - exists m. split; [reflexivity|]. destruct HI as (HL & _ & HC). split; [exact HL|]. intros a x E. rewrite <- (HC a x E).
      rewrite app_nil_r. unfold codeof. destruct (nth_error pre (own a)) as [t|] eqn:Et; [|reflexivity].
      apply nth_error_In in Et. now rewrite Hp.
    - assert (Ht : nth_error (pre ++ t :: ts) (length pre) = Some t) by (rewrite nth_error_app2, Nat.sub_diag by lia; reflexivity).
      destruct t as [p c]. destruct (finish_inv n c m _ (length pre) p HI Ht) as (m' & E & HI'). cbn. rewrite E. cbn.
      apply (IH m' (pre ++ [mkT None []])).
      + replace ((pre ++ [mkT None []]) ++ ts) with (set_nth (length pre) (mkT None []) (pre ++ mkT p c :: ts)); [exact HI'|].
        clear. induction pre as [|u pre IH]; [reflexivity|]. cbn. now rewrite IH.
      + intros u Hu. apply in_app_iff in Hu. destruct Hu as [Hu|[<-|[]]]; [now apply Hp|reflexivity].
  Qed.
End Cells.

(** Threads whose accesses stay within the elements they own. *)
Lemma threads_ok {V} (own : nat -> nat) (d : V) s m codes :
  (forall i c x, nth_error codes i = Some c -> In x c -> target x < length m /\ own (target x) = i) ->
  run_threads s m codes = Ok (map (fun a => cellf a (nth (own a) codes []) (nth a m d)) (seq 0 (length m))).
Proof.
  intros HO. unfold run_threads.
  set (final := fun a => cellf a (nth (own a) codes []) (nth a m d)).
  assert (HI : inv own final (length m) m (map (mkT None) codes)).
  { split; [reflexivity|]. split.
    - intros i t Ht. rewrite nth_error_map in Ht. destruct (nth_error codes i) as [c|] eqn:Ec; [|discriminate]. injection Ht as <-.
      cbn. split; [|discriminate]. intros x Hx. now apply (HO i c).
    - intros a x Hx. unfold final, codeof. rewrite nth_error_map.
      rewrite (nth_error_nth m a d Hx). f_equal. destruct (nth_error codes (own a)) as [c|] eqn:Ec; cbn.
      + symmetry. now apply nth_error_nth.
      + apply nth_error_None in Ec. now rewrite nth_overflow by lia. }
  destruct (run_inv own final (length m) s m _ HI) as (m' & ts' & E & HI'). rewrite E. cbn.
  destruct (drain_inv own final (length m) ts' m' [] HI') as (m2 & E2 & HL & HF); [intros t []|]. rewrite E2. f_equal.
  apply nth_error_ext. intros a. destruct (Nat.ltb_spec a (length m)) as [Ha|Ha].
  - rewrite nth_error_map, (nth_error_nth' (seq 0 (length m)) 0), seq_nth by (rewrite ?seq_length; lia). cbn.
    destruct (nth_error m2 a) as [x|] eqn:Ex; [|apply nth_error_None in Ex; lia]. f_equal. now apply HF.
  - replace (nth_error m2 a) with (@None V) by (symmetry; apply nth_error_None; lia).
    symmetry. apply nth_error_None. rewrite map_length, seq_length. lia.
Qed.

Lemma cellf_owner {V} a (work : nat -> list (instr V)) (own : nat -> nat) l x :
  NoDup l -> (forall b i, In b l -> In i (work b) -> own (target i) = b) ->
  cellf a (concat (map work l)) x = cellf a (if in_dec Nat.eq_dec (own a) l then work (own a) else []) x.
Proof.
  intros HN HO. induction l as [|b l IH]; [reflexivity|].
  cbn [map concat]. rewrite cellf_app. inversion HN as [|? ? Hb HN']; subst.
  destruct (Nat.eq_dec (own a) b) as [E|E].
  - destruct (in_dec Nat.eq_dec (own a) (b :: l)) as [_|Hn]; [|exfalso; apply Hn; now left]. rewrite E.
    apply cellf_none. intros i Hi Ht. apply in_concat in Hi. destruct Hi as (w & Hw & Hi). apply in_map_iff in Hw. destruct Hw as (b' & <- & Hb').
    specialize (HO b' i (or_intror Hb') Hi). rewrite Ht, E in HO. congruence.
  - rewrite (cellf_none a (work b)).
    + rewrite IH; [|exact HN'|intros; eapply HO; eauto; now right].
      destruct (in_dec Nat.eq_dec (own a) l) as [Hi|Hi], (in_dec Nat.eq_dec (own a) (b :: l)) as [Hj|Hj]; try reflexivity.
      * exfalso. apply Hj. now right.
      * exfalso. destruct Hj as [->|Hj]; [congruence|contradiction].
    + intros i Hi Ht. apply E. rewrite <- Ht. symmetry. symmetry. apply HO; [now left|exact Hi].
Qed.

(** Every launch of a kernel whose iterations own what they touch. *)
Lemma launch_ok {V S} (d : V) (own : nat -> nat) (Inv : nat -> S -> Prop) work c N body (s0 : S) m :
  has_threads c ->
  (forall b s, b < N -> Inv b s -> exists s', body b s = Ok (s', work b) /\ forall b', b <= b' -> Inv b' s') ->
  (forall b, Inv b s0) ->
  (forall b i, b < N -> In i (work b) -> target i < length m /\ own (target i) = b) ->
  launch c N body s0 m = Ok (map (fun a => cellf a (if own a <? N then work (own a) else []) (nth a m d)) (seq 0 (length m))).
Proof.
  intros HT Hbody HI HO. unfold launch, has_threads in *. destruct (Nat.eqb_spec (num_blocks c * threads_per_block c) 0) as [|_]; [contradiction|].
  set (S0 := threads_per_block c * num_blocks c). assert (HS : S0 <> 0) by (unfold S0; lia).
  rewrite loop_starts_seq. replace (num_blocks c * threads_per_block c) with S0 by (unfold S0; lia).
  rewrite (mapM_pure _ (fun start => concat (map work (strided N start S0 N)))).
  2: { intros start Hst. apply (grid_for_ok body work Inv N Hbody); [exact HS|lia|apply HI]. }
  cbn [bind]. rewrite (threads_ok (fun a => own a mod S0) d).
  - f_equal. apply map_ext_in. intros a Ha. apply in_seq in Ha.
    rewrite (nth_indep _ [] (concat (map work (strided N 0 S0 N)))) by (rewrite map_length, seq_length; now apply Nat.mod_upper_bound).
    rewrite (map_nth (fun start => concat (map work (strided N start S0 N)))), seq_nth by now apply Nat.mod_upper_bound. cbn [Nat.add].
    rewrite (cellf_owner a work own).
    + pose proof (Nat.mod_upper_bound (own a) S0 HS).
      destruct (in_dec Nat.eq_dec (own a) (strided N (own a mod S0) S0 N)) as [Hi|Hi].
      * apply strided_mem in Hi; [|exact HS|lia]. destruct (Nat.ltb_spec (own a) N); [reflexivity|lia].
      * destruct (Nat.ltb_spec (own a) N); [|reflexivity]. exfalso. apply Hi. apply strided_mem; auto.
    + apply strided_nodup. exact HS.
    + intros b i Hb Hi. apply strided_ge in Hb. apply HO; [lia|exact Hi].
  - intros i code0 x Hc Hx. rewrite nth_error_map in Hc.
    destruct (nth_error (seq 0 S0) i) as [st|] eqn:Es; [|discriminate]. injection Hc as <-.
    assert (Hi : i < S0). { rewrite <- (seq_length S0 0). apply nth_error_Some. congruence. }
    assert (st = i). { apply (nth_error_nth _ _ 0) in Es. rewrite seq_nth in Es by lia. lia. } subst st.
    apply in_concat in Hx. destruct Hx as (w & Hw & Hx). apply in_map_iff in Hw. destruct Hw as (b & <- & Hb).
    apply strided_mem in Hb; [|exact HS|exact Hi]. destruct (HO b x) as [H1 H2]; [tauto|exact Hx|]. split; [exact H1|]. now rewrite H2.
Qed.

(** ** The statements about the machine *)
Lemma visits_once {V} c N (work : nat -> list (instr V)) : has_threads c ->
  exists codes, mapM (fun start => grid_for N start (threads_per_block c * num_blocks c) N (fun b (s : unit) => Ok (s, work b)) tt)
                     (loop_starts (num_blocks c) (threads_per_block c)) = Ok codes /\
    length codes = num_blocks c * threads_per_block c /\
    Permutation (concat codes) (concat (map work (seq 0 N))).
Proof.
  intros HT. unfold has_threads in HT. set (S0 := threads_per_block c * num_blocks c). assert (HS : S0 <> 0) by (unfold S0; lia).
  exists (map (fun start => concat (map work (strided N start S0 N))) (loop_starts (num_blocks c) (threads_per_block c))).
  rewrite loop_starts_seq. replace (num_blocks c * threads_per_block c) with S0 by (unfold S0; lia). split; [|split].
  - apply mapM_pure. intros start _. apply (grid_for_ok _ work (fun _ _ => True)); auto; [|lia].
    intros b [] _ _. exists tt. auto.
  - now rewrite map_length, seq_length.
  - replace (concat (map (fun start => concat (map work (strided N start S0 N))) (seq 0 S0)))
      with (concat (map work (concat (map (fun start => strided N start S0 N) (seq 0 S0))))).
    + rewrite <- !flat_map_concat_map. apply Permutation_flat_map. apply NoDup_Permutation; [|apply seq_NoDup|].
      * assert (G : forall n k, k + n <= S0 -> NoDup (flat_map (fun start => strided N start S0 N) (seq k n))).
        { induction n as [|n IH]; intros k Hk; cbn; [constructor|].
          assert (HD : forall x, In x (strided N k S0 N) -> ~ In x (flat_map (fun start => strided N start S0 N) (seq (S k) n))).
          { intros x Hx Hy. apply in_flat_map in Hy. destruct Hy as (st & Hst & Hy). apply in_seq in Hst.
            apply strided_mem in Hx; [|exact HS|lia]. apply strided_mem in Hy; [|exact HS|lia]. lia. }
          pose proof (IH (S k) ltac:(lia)) as H2. pose proof (strided_nodup N k S0 N HS) as H1. revert H1 H2 HD.
          generalize (strided N k S0 N) (flat_map (fun start => strided N start S0 N) (seq (S k) n)). clear.
          intros l. induction l as [|x l IH]; intros l' H1 H2 HD; cbn; [exact H2|].
          inversion H1; subst. constructor.
          - rewrite in_app_iff. intros [Hx|Hx]; [contradiction|]. apply (HD x); [now left|exact Hx].
          - apply IH; auto. intros y Hy. apply HD. now right. }
        apply G. lia.
      * intros x. rewrite in_flat_map. split.
        -- intros (st & Hst & Hx). apply strided_ge in Hx. apply in_seq. lia.
        -- intros Hx. apply in_seq in Hx. exists (x mod S0). pose proof (Nat.mod_upper_bound x S0 HS). split; [apply in_seq; lia|]. apply strided_mem; auto. lia.
    + rewrite concat_map, map_map. generalize (seq 0 S0). intros l. induction l as [|a l IH]; [reflexivity|]. cbn.
      now rewrite concat_app, IH.
Qed.

Definition owner {V} (N : nat) (work : nat -> list (instr V)) (a : nat) : nat :=
  match find (fun b => existsb (fun i => target i =? a) (work b)) (seq 0 N) with Some b => b | None => N end.
Lemma owner_ok {V} N (work : nat -> list (instr V)) b i : disjoint N work -> b < N -> In i (work b) -> owner N work (target i) = b.
Proof.
  intros HD Hb Hi. unfold owner. destruct (find _ (seq 0 N)) as [b'|] eqn:E.
  - apply find_some in E. destruct E as [Hs He]. apply in_seq in Hs. apply existsb_exists in He. destruct He as (i' & Hi' & Et).
    apply Nat.eqb_eq in Et. apply (HD b' b i' i); auto. lia.
  - exfalso. assert (Hn := find_none _ _ E b). cbn in Hn. rewrite in_seq in Hn. specialize (Hn ltac:(lia)).
    assert (Ht : existsb (fun i0 => target i0 =? target i) (work b) = true).
    { apply existsb_exists. exists i. split; [exact Hi|apply Nat.eqb_refl]. } congruence.
Qed.

Lemma any_interleaving {V} c N (work : nat -> list (instr V)) m : has_threads c -> in_bounds (length m) N work -> disjoint N work ->
  launch c N (fun b (s : unit) => Ok (s, work b)) tt m = Ok (sequentially m (concat (map work (seq 0 N)))).
Proof.
  intros HT HB HD. destruct m as [|d m'] eqn:Em; [|rewrite <- Em in *].
  - assert (HE : forall b, b < N -> work b = []).
    { intros b Hb. destruct (work b) as [|i l] eqn:E; [reflexivity|]. specialize (HB b i Hb). rewrite E in HB. cbn in HB. specialize (HB (or_introl eq_refl)). lia. }
    assert (E0 : forall l, (forall b, In b l -> b < N) -> concat (map work l) = []).
    { induction l as [|b l IH]; intros Hl; [reflexivity|]. cbn. rewrite HE, IH; auto; intros; apply Hl; cbn; auto. }
    rewrite E0 by (intros b Hb; apply in_seq in Hb; lia). cbn.
    unfold launch, has_threads in *. destruct (Nat.eqb_spec (num_blocks c * threads_per_block c) 0); [contradiction|].
    set (S0 := threads_per_block c * num_blocks c). assert (HS : S0 <> 0) by (unfold S0; lia).
    rewrite (mapM_pure _ (fun start => [])).
    2: { intros start _. rewrite (grid_for_ok _ work (fun _ _ => True)); auto; [|intros b [] _ _; exists tt; auto|lia].
         rewrite E0; [reflexivity|]. intros b Hb. apply strided_ge in Hb. lia. }
    cbn. generalize (loop_starts (num_blocks c) (threads_per_block c)). intros l. unfold run_threads.
    assert (R : forall s, run s [] (map (mkT (V := V) None) (map (fun _ => []) l)) = Ok ([], map (mkT None) (map (fun _ => []) l))).
    { induction s as [|i s IH]; [reflexivity|]. cbn. destruct (nth_error _ i) as [t|] eqn:E; [|exact IH].
      assert (Ht : t = mkT None []). { apply nth_error_In in E. rewrite map_map in E. apply in_map_iff in E. now destruct E as (? & <- & _). }
      rewrite Ht. cbn. replace (set_nth i (mkT None []) _) with (map (mkT (V := V) None) (map (fun _ => []) l)); [exact IH|].
      subst t. clear -E. revert i E. rewrite map_map. induction l as [|x l IH]; intros [|i]; cbn; try discriminate; auto. intros E. f_equal. now apply IH. }
    rewrite R. cbn. clear. induction l as [|x l IH]; [reflexivity|]. cbn. exact IH.
  - clear m' Em. rewrite (launch_ok d (owner N work) (fun _ _ => True) work); auto.
    + f_equal. apply nth_error_ext. intros a. destruct (Nat.ltb_spec a (length m)) as [Ha|Ha].
      * rewrite nth_error_map, (nth_error_nth' (seq 0 (length m)) 0), seq_nth by (rewrite ?seq_length; lia). cbn [option_map Nat.add].
        rewrite (sequentially_cell _ m a (nth a m d)) by now apply nth_error_nth'. f_equal.
        rewrite (cellf_owner a work (owner N work)).
        -- destruct (in_dec Nat.eq_dec (owner N work a) (seq 0 N)) as [Hi|Hi]; rewrite in_seq in Hi; destruct (Nat.ltb_spec (owner N work a) N); try reflexivity; exfalso; lia.
        -- apply seq_NoDup.
        -- intros b i Hb Hi. apply in_seq in Hb. apply owner_ok; auto. lia.
      * transitivity (@None V); [|symmetry]; apply nth_error_None; rewrite ?map_length, ?seq_length, ?sequentially_length; lia.
    + intros b [] _ _. exists tt. auto.
    + intros b i Hb Hi. split; [now apply HB with b|now apply owner_ok].
Qed.
