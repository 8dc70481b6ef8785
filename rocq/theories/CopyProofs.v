From Coq Require Import String.
From Verif Require Import BaseFacts DictFacts GraphModel GraphSpec GraphProofs NodeModel NodeSpec NodeProofs
  EditProofs UseParamsProofs CopyModel CopySpec.

Set Default Goal Selector "!".

Definition extends {X} (l l' : list X) := exists t, l' = l ++ t.
Lemma extends_refl {X} (l : list X) : extends l l.
Proof. exists []. now rewrite app_nil_r. Qed.
Lemma extends_trans {X} (a b c : list X) : extends a b -> extends b c -> extends a c.
Proof. intros [t ->] [u ->]. exists (t ++ u). now rewrite app_assoc. Qed.
Lemma extends_nth {X} (a b : list X) i x : extends a b -> nth_error a i = Some x -> nth_error b i = Some x.
Proof. intros [t ->] Hx. rewrite nth_error_app1; [exact Hx|]. apply nth_error_Some. congruence. Qed.
Lemma extends_nth_lt {X} (a b : list X) i : extends a b -> i < length a -> nth_error b i = nth_error a i.
Proof. intros [t ->] Hx. now rewrite nth_error_app1. Qed.
Lemma extends_length {X} (a b : list X) : extends a b -> length a <= length b.
Proof. intros [t ->]. rewrite app_length. lia. Qed.
Lemma extends_snoc {X} (a : list X) x : extends a (a ++ [x]).
Proof. now exists [x]. Qed.

Definition sub {K W} `{EqD K} (m m' : dict K W) := forall k v, dget k m = Some v -> dget k m' = Some v.
Lemma sub_refl {K W} `{EqD K} (m : dict K W) : sub m m.
Proof. intros k v Hk. exact Hk. Qed.
Lemma sub_trans {K W} `{EqD K} (a b c : dict K W) : sub a b -> sub b c -> sub a c.
Proof. intros H1 H2 k v Hk. apply H2, H1, Hk. Qed.
Lemma sub_dset {K W} `{EqD K} (m : dict K W) k v : ~ In k (dkeys m) -> sub m (dset k v m).
Proof.
  intros Hk k' v' Hk'. rewrite dget_dset_other; [exact Hk'|]. intros ->. apply Hk. now apply dget_some_key in Hk'.
Qed.
Lemma sub_keys {K W} `{EqD K} (m m' : dict K W) k : sub m m' -> In k (dkeys m) -> In k (dkeys m').
Proof. intros Hs Hk. apply dget_key in Hk. destruct Hk as [v Hv]. apply dget_key. exists v. now apply Hs. Qed.

Lemma dset_new {K W} `{EqD K} (m : dict K W) k v : ~ In k (dkeys m) -> dset k v m = m ++ [(k, v)].
Proof.
  induction m as [|[k0 v0] m IH]; intros Hk; cbn [dset app]; [reflexivity|].
  cbn [dkeys map fst In] in Hk. destruct (eqd k k0) as [->|Hne]; [tauto|].
  rewrite IH; [reflexivity|]. tauto.
Qed.

Lemma in_vals_dset {K W} `{EqD K} (m : dict K W) k v x : In x (map snd (dset k v m)) -> x = v \/ In x (map snd m).
Proof.
  induction m as [|[k0 v0] m IH]; cbn [dset map snd In]; [intuition congruence|].
  destruct (eqd k k0); cbn [map snd In]; intuition congruence.
Qed.

Lemma seq_snoc b n : seq b (S n) = seq b n ++ [b + n].
Proof. rewrite seq_S. reflexivity. Qed.

(** Injectivity of a dictionary with distinct values. *)
Lemma vals_inj {K} `{EqD K} (m : dict K addr) k1 k2 v :
  NoDup (map snd m) -> dget k1 m = Some v -> dget k2 m = Some v -> k1 = k2.
Proof.
  intros Hnd H1 H2. apply dget_in in H1, H2. induction m as [|[k w] m IH]; [destruct H1|].
  cbn [map snd] in Hnd. inversion Hnd as [|? ? Hw Hnd']; subst.
  destruct H1 as [E1|H1]; destruct H2 as [E2|H2].
  - congruence.
  - injection E1 as -> ->. exfalso. apply Hw. change v with (snd (k2, v)). now apply in_map.
  - injection E2 as -> ->. exfalso. apply Hw. change v with (snd (k1, v)). now apply in_map.
  - now apply IH.
Qed.

(** Memo tables of copied objects. *)
Record memo_ok {X} (base : nat) (objs : list X) (memo : dict addr addr) : Prop := {
  mo_len : length objs = base + length memo;
  mo_vals : map snd memo = seq base (length memo);
  mo_keys : NoDup (dkeys memo);
  mo_copy : forall x y, dget x memo = Some y -> x < base /\ base <= y < length objs /\ nth_error objs y = nth_error objs x
}.

Lemma memo_start {X} (objs : list X) : memo_ok (length objs) objs [].
Proof. split; cbn; [lia|reflexivity|constructor|discriminate]. Qed.

Lemma copy_once_ok {X} base (objs : list X) memo (x : addr) : memo_ok base objs memo -> x < base ->
  exists objs' memo' y, copy_once objs memo x = Ok (objs', memo', y) /\ memo_ok base objs' memo' /\
    extends objs objs' /\ sub memo memo' /\ dget x memo' = Some y.
Proof.
  intros [L Vs K C] Hx. unfold copy_once. destruct (dget x memo) as [y|] eqn:Ey.
  { exists objs, memo, y. split; [reflexivity|]. split; [now split|]. split; [apply extends_refl|].
    split; [apply sub_refl|exact Ey]. }
  destruct (nth_error objs x) as [v|] eqn:Ev; [|apply nth_error_None in Ev; lia].
  exists (objs ++ [v]), (dset x (length objs) memo), (length objs).
  assert (Hnk : ~ In x (dkeys memo)) by now apply dget_none.
  split; [reflexivity|]. split; [|split; [apply extends_snoc|split; [now apply sub_dset|apply dget_dset_same]]].
  pose proof (dset_new memo x (length objs) Hnk) as Ed. split.
  - rewrite Ed, !app_length. cbn. lia.
  - rewrite Ed, map_app, Vs, app_length. cbn [length]. rewrite Nat.add_1_r, seq_snoc, L. reflexivity.
  - now apply NoDup_dset.
  - intros x' y' Hg. rewrite dget_dset in Hg. rewrite app_length. cbn [length]. destruct (eqd x' x) as [->|Hne].
    + injection Hg as <-. split; [exact Hx|]. split; [lia|].
      rewrite nth_error_app2, Nat.sub_diag by lia. rewrite nth_error_app1 by lia. now rewrite Ev.
    + destruct (C _ _ Hg) as (C1 & C2 & C3). split; [exact C1|]. split; [lia|].
      rewrite !nth_error_app1 by lia. exact C3.
Qed.

Section CopyProofs.
  Context {E A B : Type}.
  Notation node := (node addr A).
  Notation cstate := (cstate E A B).
  Implicit Types (st : cstate).

  Lemma deepcopy_ok ps : forall base (arrs : list E) memo,
    memo_ok base arrs memo -> (forall nm x, In (nm, Some x) ps -> x < base) ->
    exists arrs' memo' ps', deepcopy_params arrs memo ps = Ok (arrs', ps') /\ memo_ok base arrs' memo' /\
      extends arrs arrs' /\ sub memo memo' /\
      ps' = map (fun p => (fst p, match snd p with Some x => dget x memo' | None => None end)) ps /\
      (forall nm x, In (nm, Some x) ps -> exists y, dget x memo' = Some y).
  Proof.
    induction ps as [|[nm [x|]] ps IH]; intros base arrs memo Hm Hlt; cbn [deepcopy_params].
    - exists arrs, memo, []. split; [reflexivity|]. split; [exact Hm|]. split; [apply extends_refl|].
      split; [apply sub_refl|]. split; [reflexivity|]. intros nm x [].
    - destruct (copy_once_ok base arrs memo x Hm) as (a1 & m1 & y & E1 & M1 & X1 & S1 & G1).
      { apply (Hlt nm). now left. }
      rewrite E1. cbn [bind].
      destruct (IH base a1 m1 M1) as (a2 & m2 & ps2 & E2 & M2 & X2 & S2 & P2 & T2).
      { intros nm' x' Hin. apply (Hlt nm'). now right. }
      rewrite E2. cbn [bind fst snd]. exists a2, m2, ((nm, Some y) :: ps2). split; [reflexivity|].
      split; [exact M2|]. split; [exact (extends_trans _ _ _ X1 X2)|]. split; [exact (sub_trans _ _ _ S1 S2)|].
      split.
      + cbn [map fst snd]. rewrite (S2 _ _ G1). now rewrite P2.
      + intros nm' x' [Heq|Hin]; [|exact (T2 _ _ Hin)]. injection Heq as -> ->. exists y. now apply S2.
    - destruct (IH base arrs memo Hm) as (a2 & m2 & ps2 & E2 & M2 & X2 & S2 & P2 & T2).
      { intros nm' x' Hin. apply (Hlt nm'). now right. }
      rewrite E2. cbn [bind fst snd]. exists a2, m2, ((nm, None) :: ps2). split; [reflexivity|].
      split; [exact M2|]. split; [exact X2|]. split; [exact S2|].
      split; [cbn [map fst snd]; now rewrite P2|].
      intros nm' x' [Heq|Hin]; [discriminate|exact (T2 _ _ Hin)].
  Qed.

  Lemma copy_shims_ok ss : forall base (shims : list (Z * B)) memo,
    memo_ok base shims memo -> (forall s, In s ss -> s < base) ->
    exists shims' memo' ys, copy_shims shims memo ss = Ok (shims', memo', ys) /\ memo_ok base shims' memo' /\
      extends shims shims' /\ sub memo memo' /\ map Some ys = map (fun s => dget s memo') ss.
  Proof.
    induction ss as [|s ss IH]; intros base shims memo Hm Hlt; cbn [copy_shims].
    - exists shims, memo, []. split; [reflexivity|]. split; [exact Hm|]. split; [apply extends_refl|].
      split; [apply sub_refl|reflexivity].
    - destruct (copy_once_ok base shims memo s Hm) as (a1 & m1 & y & E1 & M1 & X1 & S1 & G1).
      { apply Hlt. now left. }
      rewrite E1. cbn [bind].
      destruct (IH base a1 m1 M1) as (a2 & m2 & ys & E2 & M2 & X2 & S2 & P2).
      { intros s' Hin. apply Hlt. now right. }
      rewrite E2. cbn [bind]. exists a2, m2, (y :: ys). split; [reflexivity|].
      split; [exact M2|]. split; [exact (extends_trans _ _ _ X1 X2)|]. split; [exact (sub_trans _ _ _ S1 S2)|].
      cbn [map]. rewrite P2. now rewrite (S2 _ _ G1).
  Qed.

  (** The constructor's parameter loop. *)
  Definition pstep (n : node) (p : string * option addr) : node :=
    match snd p with
    | None => with_params n (dset (fst p) false (n_has n)) (n_params n)
    | Some v => set_param n (fst p) (Some v)
    end.

  Lemma pfold_rest ps : forall c, let c' := fold_left pstep ps c in
    n_id c' = n_id c /\ n_name c' = n_name c /\ n_func c' = n_func c /\ n_layers c' = n_layers c /\
    n_shims c' = n_shims c /\ n_dims c' = n_dims c /\ n_attrs c' = n_attrs c /\ n_grads c' = n_grads c /\ n_refs c' = n_refs c.
  Proof.
    induction ps as [|[nm [x|]] ps IH]; intros c; cbn [fold_left]; [repeat split; reflexivity|exact (IH _)|exact (IH _)].
  Qed.

  Lemma pfold_spec ps : forall c, NoDup (dkeys (n_has c) ++ map fst ps) ->
    let c' := fold_left pstep ps c in
    dkeys (n_has c') = dkeys (n_has c) ++ map fst ps /\
    (forall nm, dget nm (n_has c') =
       match dget nm ps with Some (Some _) => Some true | Some None => Some false | None => dget nm (n_has c) end) /\
    (forall nm, dget nm (n_params c') =
       match dget nm ps with Some (Some y) => Some y | _ => dget nm (n_params c) end) /\
    (forall x, In x (map snd (n_params c')) -> In x (map snd (n_params c)) \/ exists nm, In (nm, Some x) ps).
  Proof.
    induction ps as [|[nm o] ps IH]; intros c Hnd; cbn zeta; cbn [fold_left].
    { cbn. rewrite app_nil_r. repeat split. intros x Hx. now left. }
    cbn [map fst] in Hnd |- *.
    assert (Hk : dkeys (n_has (pstep c (nm, o))) = dkeys (n_has c) ++ [nm]).
    { destruct o; cbn; apply dkeys_dset_new; apply NoDup_remove_2 in Hnd; intros Hi; apply Hnd; apply in_or_app; now left. }
    destruct (IH (pstep c (nm, o))) as (I1 & I2 & I3 & I4).
    { rewrite Hk, <- app_assoc. exact Hnd. }
    split; [rewrite I1, Hk, <- app_assoc; reflexivity|].
    assert (Hnot : dget nm ps = None).
    { apply dget_none. unfold dkeys. apply NoDup_remove_2 in Hnd. intros Hi. apply Hnd, in_or_app. now right. }
    split; [|split].
    - intros nm'. rewrite I2. cbn [dget]. destruct (eqd nm' nm) as [->|Hne].
      + rewrite Hnot. destruct o; cbn; apply dget_dset_same.
      + destruct (dget nm' ps) as [[|]|]; try reflexivity. destruct o; cbn; now apply dget_dset_other.
    - intros nm'. rewrite I3. cbn [dget]. destruct (eqd nm' nm) as [->|Hne].
      + rewrite Hnot. destruct o; cbn; [apply dget_dset_same|reflexivity].
      + destruct (dget nm' ps) as [[|]|]; try reflexivity; (destruct o; cbn; [now apply dget_dset_other|reflexivity]).
    - intros x Hx. destruct (I4 x Hx) as [Hx'|[nm' Hx']].
      + destruct o as [y|]; cbn in Hx'; [|now left]. apply in_vals_dset in Hx'. destruct Hx' as [->|Hx']; [|now left].
        right. exists nm. now left.
      + right. exists nm'. now right.
  Qed.

  Lemma copy_grads_ok names : forall (arrs : list E) (n c : node),
    NoDup names -> (forall nm, In nm names -> exists x, get_grad n nm = Ok x /\ x < length arrs) ->
    exists arrs' c', copy_grads arrs n names c = Ok (arrs', c') /\ extends arrs arrs' /\
      c' = with_grads c (n_grads c') /\
      (forall nm, ~ In nm names -> dget nm (n_grads c') = dget nm (n_grads c)) /\
      (forall nm, In nm names -> exists x y v, get_grad n nm = Ok x /\ get_grad c' nm = Ok y /\
         length arrs <= y < length arrs' /\ nth_error arrs' x = Some v /\ nth_error arrs' y = Some v) /\
      (forall nm1 nm2 y, In nm1 names -> In nm2 names -> get_grad c' nm1 = Ok y -> get_grad c' nm2 = Ok y -> nm1 = nm2) /\
      (forall y, In y (map snd (n_grads c')) -> In y (map snd (n_grads c)) \/ length arrs <= y < length arrs').
  Proof.
    induction names as [|nm names IH]; intros arrs n c Hnd Hall; cbn [copy_grads].
    { exists arrs, c. split; [reflexivity|]. split; [apply extends_refl|]. split; [destruct c; reflexivity|].
      split; [reflexivity|]. split; [intros nm []|]. split; [intros nm1 nm2 y []|]. intros y Hy. now left. }
    inversion Hnd as [|? ? Hnm Hnd']; subst.
    destruct (Hall nm (or_introl eq_refl)) as (x & Ex & Hx). rewrite Ex. cbn [bind].
    destruct (nth_error arrs x) as [v|] eqn:Ev; [|apply nth_error_None in Ev; lia].
    destruct (IH (arrs ++ [v]) n (set_grad c nm (length arrs)) Hnd') as (a' & c' & I1 & I2 & I3 & I4 & I5 & I6 & I7).
    { intros nm' Hin. destruct (Hall nm' (or_intror Hin)) as (x' & Ex' & Hx'). exists x'. split; [exact Ex'|].
      rewrite app_length. lia. }
    rewrite app_length in I5, I7. cbn [length] in I5, I7.
    pose proof (extends_length _ _ I2) as Hl. rewrite app_length in Hl. cbn [length] in Hl.
    assert (Hown : get_grad c' nm = Ok (length arrs)).
    { unfold get_grad. rewrite I4 by exact Hnm. cbn. now rewrite dget_dset_same. }
    exists a', c'. split; [exact I1|]. split; [exact (extends_trans _ _ _ (extends_snoc arrs v) I2)|].
    split; [exact I3|]. split; [|split; [|split]].
    - intros nm' Hni. rewrite I4 by (intros Hi; apply Hni; now right). cbn. apply dget_dset_other.
      intros ->. apply Hni. now left.
    - intros nm' [<-|Hin].
      + exists x, (length arrs), v. split; [exact Ex|]. split; [exact Hown|]. split; [lia|].
        split; [apply (extends_nth _ _ _ _ (extends_trans _ _ _ (extends_snoc arrs v) I2) Ev)|].
        apply (extends_nth _ _ _ _ I2). rewrite nth_error_app2, Nat.sub_diag by lia. reflexivity.
      + destruct (I5 nm' Hin) as (x' & y' & v' & J1 & J2 & J3 & J4 & J5). exists x', y', v'.
        repeat (split; [assumption || lia|]). exact J5.
    - intros nm1 nm2 y H1 H2 G1 G2. destruct H1 as [<-|H1]; destruct H2 as [<-|H2]; [reflexivity| | |now apply (I6 nm1 nm2 y)].
      + destruct (I5 nm2 H2) as (x' & y' & v' & J1 & J2 & J3 & _). rewrite J2 in G2. injection G2 as <-.
        rewrite Hown in G1. injection G1 as <-. lia.
      + destruct (I5 nm1 H1) as (x' & y' & v' & J1 & J2 & J3 & _). rewrite J2 in G1. injection G1 as <-.
        rewrite Hown in G2. injection G2 as <-. lia.
    - intros y Hy. destruct (I7 y Hy) as [Hy'|Hy']; [|right; lia]. cbn in Hy'. apply in_vals_dset in Hy'.
      destruct Hy' as [->|Hy']; [right; lia|now left].
  Qed.

  (** [collect_params] of a well-formed node. *)
  Definition pval (n : node) nm : option addr := match dget nm (n_has n) with Some true => dget nm (n_params n) | _ => None end.
  Lemma collect_ok (n : node) : (forall nm, dget nm (n_has n) = Some true -> exists x, dget nm (n_params n) = Some x) ->
    collect_params n = Ok (map (fun nm => (nm, pval n nm)) (param_names n)).
  Proof.
    intros Hal. unfold collect_params. apply mapM_ok_map. intros nm _. unfold has_param, pval, get_param.
    destruct (dget nm (n_has n)) as [[|]|] eqn:Eh; try reflexivity.
    destruct (Hal nm Eh) as [x Hx]. rewrite Hx. reflexivity.
  Qed.

  Lemma dget_tab {W} (f : string -> W) l nm :
    dget nm (map (fun x => (x, f x)) l) = if in_dec string_dec nm l then Some (f nm) else None.
  Proof.
    induction l as [|x l IH]; [reflexivity|]. cbn [map dget]. destruct (eqd nm x) as [->|Hne].
    - destruct (in_dec string_dec x (x :: l)) as [_|Hi]; [reflexivity|]. exfalso. apply Hi. now left.
    - rewrite IH. destruct (in_dec string_dec nm l) as [Hi|Hi]; destruct (in_dec string_dec nm (x :: l)) as [Hi'|Hi'];
        try reflexivity; exfalso; [apply Hi'; now right|destruct Hi' as [He|Hi']; [congruence|contradiction]].
  Qed.

  Variable st0 : cstate.
  Hypothesis wf : wf_cstate st0.
  Let g0 := graph_of (c_nodes st0).
  Let len0 := length (c_nodes st0).
  Let arr0 := length (c_arrays st0).

  Record Inv st (m ms : dict addr addr) : Prop := {
    iv_nodes : extends (c_nodes st0) (c_nodes st);
    iv_len : length (c_nodes st) = len0 + length m;
    iv_arrays : extends (c_arrays st0) (c_arrays st);
    iv_shims : extends (c_shims st0) (c_shims st);
    iv_ms : memo_ok (length (c_shims st0)) (c_shims st) ms;
    iv_keys : NoDup (dkeys m);
    iv_vals : map snd m = seq len0 (length m);
    iv_next : c_next st = (c_next st0 + Z.of_nat (length m))%Z;
    iv_ids : forall c n', len0 <= c -> nth_error (c_nodes st) c = Some n' ->
      n_id n' = (c_next st0 + 1 + Z.of_nat (c - len0))%Z;
    iv_copy : forall a c, dget a m = Some c -> exists n n', nth_error (c_nodes st0) a = Some n /\
      nth_error (c_nodes st) c = Some n' /\ is_copy (c_arrays st) m ms n n';
    iv_fresh : forall c n' x, len0 <= c -> nth_error (c_nodes st) c = Some n' ->
      In x (arrays_of n') -> arr0 <= x < length (c_arrays st);
    iv_own : forall c d n1 n2 x, len0 <= c -> len0 <= d ->
      nth_error (c_nodes st) c = Some n1 -> nth_error (c_nodes st) d = Some n2 ->
      In x (arrays_of n1) -> In x (arrays_of n2) -> c = d
  }.

  Lemma is_copy_mono (arrs arrs' : list E) m m' ms ms' (n n' : node) :
    extends arrs arrs' -> sub m m' -> sub ms ms' -> is_copy arrs m ms n n' -> is_copy arrs' m' ms' n n'.
  Proof.
    intros Ha Hm Hs [C1 C2 C3 C4 C5 C6 C7 C8 C9 C10 C11 C12].
    assert (Hmap : forall (d d' : dict addr addr) l l', sub d d' -> map Some l = map (fun s => dget s d) l' ->
              map Some l = map (fun s => dget s d') l').
    { intros d d' l l' Hd. revert l. induction l' as [|x l' IH]; intros [|y l] Heq; try discriminate; [reflexivity|].
      cbn [map] in Heq |- *. injection Heq as H1 H2. symmetry in H1. rewrite (Hd _ _ H1), (IH _ H2). reflexivity. }
    split; try assumption.
    - exact (Hmap _ _ _ _ Hm C5).
    - exact (Hmap _ _ _ _ Hs C6).
    - intros nm. specialize (C9 nm). destruct (in_dec string_dec nm (param_names n)); [|exact C9].
      destruct (has_param n nm) as [[|]|]; try exact C9.
      destruct C9 as (x & x' & v & D1 & D2 & D3 & D4). exists x, x', v. repeat (split; [assumption|]).
      split; now apply (extends_nth arrs).
    - intros nm. specialize (C10 nm). destruct (in_dec string_dec nm (grad_names n)); [|exact C10].
      destruct C10 as (x & x' & v & D1 & D2 & D3 & D4). exists x, x', v. repeat (split; [assumption|]).
      split; now apply (extends_nth arrs).
  Qed.

  (** Building one node: the state with the node appended. *)
  Lemma build_ok st m ms a n cs css :
    Inv st m ms -> nth_error (c_nodes st0) a = Some n -> ~ In a (dkeys m) ->
    map Some cs = map (fun l => dget l m) (n_layers n) ->
    map Some css = map (fun s => dget s ms) (n_shims n) ->
    exists st' r, build st n (map (fun nm => (nm, pval n nm)) (param_names n)) cs css = Ok (st', r) /\
      Inv st' (dset a r m) ms.
  Proof.
    intros I Hn Ha Hcs Hcss. destruct wf as [W1 W2 W3 W4 W5 W6].
    assert (Hext : extends (c_arrays st0) (c_arrays st)) by apply I.
    assert (Hlen : arr0 <= length (c_arrays st)) by (apply extends_length, I).
    assert (Hpv : forall nm x, pval n nm = Some x -> x < arr0).
    { intros nm x Hx. apply (W5 a n x Hn). unfold arrays_of. apply in_or_app. left.
      unfold pval in Hx. destruct (dget nm (n_has n)) as [[|]|]; try discriminate.
      apply dget_in in Hx. change x with (snd (nm, x)). now apply in_map. }
    set (ps := map (fun nm => (nm, pval n nm)) (param_names n)).
    destruct (deepcopy_ok ps (length (c_arrays st)) (c_arrays st) [] (memo_start _)) as
      (arrs1 & memo & ps1 & D1 & D2 & D3 & _ & D5 & D6).
    { intros nm x Hin. apply in_map_iff in Hin. destruct Hin as (nm' & Heq & _). injection Heq as <- Heq.
      apply Hpv in Heq. lia. }
    unfold build. fold ps. rewrite D1. cbn [bind fst snd].
    set (id := (c_next st + 1)%Z).
    set (c1 := new_node id n ps1 cs css).
    assert (Hps1 : forall nm, dget nm ps1 =
              if in_dec string_dec nm (param_names n)
              then Some (match pval n nm with Some x => dget x memo | None => None end) else None).
    { intros nm. rewrite D5. unfold ps. rewrite map_map. cbn [fst snd].
      exact (dget_tab (fun nm => match pval n nm with Some x => dget x memo | None => None end) (param_names n) nm). }
    assert (Hnames : map fst ps1 = param_names n).
    { rewrite D5. unfold ps. rewrite !map_map. cbn [fst]. apply map_id. }
    set (c0 := mkNode id (n_name n) (n_func n) cs css (n_dims n) [] [] [] [] (n_attrs n) : node).
    assert (Hc1 : c1 = fold_left pstep ps1 c0) by reflexivity.
    destruct (pfold_rest ps1 c0) as (R1 & R2 & R3 & R4 & R5 & R6 & R7 & R8 & R9).
    destruct (pfold_spec ps1 c0) as (F1 & F2 & F3 & F4).
    { cbn [c0 n_has dkeys map app]. rewrite Hnames. exact (W1 a n Hn). }
    rewrite <- Hc1 in R1, R2, R3, R4, R5, R6, R7, R8, R9, F1, F2, F3, F4.
    cbn [c0 n_id n_name n_func n_layers n_shims n_dims n_attrs n_grads n_refs n_has n_params dkeys map app dget In] in *.
    assert (Hl1 : length (c_arrays st) <= length arrs1) by now apply extends_length.
    destruct (copy_grads_ok (grad_names n) arrs1 n c1) as (arrs2 & c2 & G1 & G2 & G3 & G4 & G5 & G6 & G7).
    { apply NoDup_filter. exact (W1 a n Hn). }
    { intros nm Hin. apply filter_In in Hin. destruct Hin as [_ Hg]. unfold has_grad in Hg. unfold get_grad.
      apply dmem_true, dget_key in Hg. destruct Hg as [x Hx]. rewrite Hx. exists x. split; [reflexivity|].
      enough (x < arr0) by lia. apply (W5 a n x Hn). unfold arrays_of. apply in_or_app. right.
      apply dget_in in Hx. change x with (snd (nm, x)). now apply in_map. }
    rewrite G1. cbn [bind fst snd].
    exists (mkC (c_nodes st ++ [c2]) arrs2 (c_shims st) id), (length (c_nodes st)).
    split; [reflexivity|].
    assert (Hx2 : extends (c_arrays st) arrs2) by exact (extends_trans _ _ _ D3 G2).
    assert (Hl2 : length arrs1 <= length arrs2) by now apply extends_length.
    assert (Hsub : sub m (dset a (length (c_nodes st)) m)) by now apply sub_dset.
    (* fields of the finished node *)
    assert (P : n_params c2 = n_params c1 /\ n_has c2 = n_has c1 /\ n_id c2 = n_id c1 /\ n_name c2 = n_name c1 /\
                n_func c2 = n_func c1 /\ n_layers c2 = n_layers c1 /\ n_shims c2 = n_shims c1 /\
                n_dims c2 = n_dims c1 /\ n_attrs c2 = n_attrs c1) by (rewrite G3; repeat split; reflexivity).
    destruct P as (P1 & P2 & P3 & P4 & P5 & P6 & P7 & P8 & P9).
    (* parameters of the copy *)
    assert (Hpar : forall nm, dget nm (n_params c2) = match pval n nm with Some x => dget x memo | None => None end).
    { intros nm. rewrite P1, F3, Hps1. unfold pval. destruct (in_dec string_dec nm (param_names n)) as [Hi|Hi].
      - destruct (match dget nm (n_has n) with Some true => dget nm (n_params n) | _ => None end) as [w|]; [|reflexivity].
        now destruct (dget w memo).
      - apply dget_none in Hi. now rewrite Hi. }
    assert (Hin_ps : forall nm x, pval n nm = Some x -> In (nm, Some x) ps).
    { intros nm x Hx. unfold ps. rewrite <- Hx. apply (in_map (fun nm => (nm, pval n nm))).
      unfold pval in Hx. destruct (dget nm (n_has n)) as [b|] eqn:Eb; [|discriminate]. now apply dget_some_key in Eb. }
    assert (Hhas : forall nm, dget nm (n_has c2) = dget nm (n_has n)).
    { intros nm. rewrite P2, F2, Hps1. destruct (in_dec string_dec nm (param_names n)) as [Hi|Hi].
      - destruct (pval n nm) as [x|] eqn:Ep.
        + destruct (D6 _ _ (Hin_ps _ _ Ep)) as [y Hy]. rewrite Hy. unfold pval in Ep.
          destruct (dget nm (n_has n)) as [[|]|]; [reflexivity|discriminate|discriminate].
        + unfold pval in Ep. destruct (dget nm (n_has n)) as [[|]|] eqn:Eh; [|reflexivity|].
          * destruct (W4 a n nm Hn Eh) as [x Hx]. congruence.
          * apply dget_none in Eh. contradiction.
      - symmetry. now apply dget_none. }
    assert (Hprange : forall x, In x (map snd (n_params c2)) -> length (c_arrays st) <= x < length arrs1).
    { intros x Hx. rewrite P1 in Hx. apply F4 in Hx. destruct Hx as [[]|[nm Hx]]. rewrite D5 in Hx.
      apply in_map_iff in Hx. destruct Hx as ([nm' o] & Heq & _). cbn in Heq. injection Heq as <- Heq.
      destruct o as [w|]; [|discriminate]. apply (mo_copy _ _ _ D2) in Heq. lia. }
    assert (Hgrange : forall x, In x (map snd (n_grads c2)) -> length arrs1 <= x < length arrs2).
    { intros x Hx. apply G7 in Hx. rewrite R8 in Hx. destruct Hx as [[]|Hx]. exact Hx. }
    assert (Hcopy : is_copy arrs2 (dset a (length (c_nodes st)) m) ms n c2).
    { split.
      - congruence.
      - congruence.
      - congruence.
      - congruence.
      - rewrite P6, R4.
        assert (Hmap : forall l l', map Some l = map (fun s => dget s m) l' ->
              map Some l = map (fun s => dget s (dset a (length (c_nodes st)) m)) l').
        { intros l l'. revert l. induction l' as [|x l' IH]; intros [|y l] Heq; try discriminate; [reflexivity|].
          cbn [map] in Heq |- *. injection Heq as H1 H2. symmetry in H1. rewrite (Hsub _ _ H1), (IH _ H2). reflexivity. }
        now apply Hmap.
      - rewrite P7, R5. exact Hcss.
      - unfold param_names at 1. rewrite P2, F1. exact Hnames.
      - intros nm. unfold has_param. now rewrite Hhas.
      - intros nm. destruct (in_dec string_dec nm (param_names n)) as [Hi|Hi].
        + unfold has_param. destruct (dget nm (n_has n)) as [[|]|] eqn:Eh.
          * destruct (W4 a n nm Hn Eh) as [x Hx].
            assert (Ep : pval n nm = Some x) by (unfold pval; now rewrite Eh).
            destruct (D6 _ _ (Hin_ps _ _ Ep)) as [y Hy].
            destruct (mo_copy _ _ _ D2 _ _ Hy) as (L1 & L2 & L3).
            pose proof (Hpv _ _ Ep) as Hxa.
            destruct (nth_error arrs1 x) as [v|] eqn:Ev; [|apply nth_error_None in Ev; lia].
            exists x, y, v. unfold get_param. rewrite Eh, Hx, Hhas, Eh, Hpar, Ep, Hy.
            split; [reflexivity|]. split; [reflexivity|]. split; apply (extends_nth _ _ _ _ G2); congruence.
          * rewrite Hpar. unfold pval. now rewrite Eh.
          * rewrite Hpar. unfold pval. now rewrite Eh.
        + rewrite Hpar. unfold pval. apply dget_none in Hi. now rewrite Hi.
      - intros nm. destruct (in_dec string_dec nm (grad_names n)) as [Hi|Hi].
        + destruct (G5 nm Hi) as (x & y & v & J1 & J2 & J3 & J4 & J5). now exists x, y, v.
        + rewrite (G4 nm Hi), R8. reflexivity.
      - intros nm1 nm2 x1 x2 y1 y2 A1 A2 B1 B2 C1 C2.
        assert (T : forall nm x y, has_param n nm = Some true -> get_param n nm = Ok x -> get_param c2 nm = Ok y ->
                  dget x memo = Some y).
        { intros nm x y T1 T2 T3. unfold has_param in T1. unfold get_param in T2, T3. rewrite Hhas, Hpar in T3. unfold pval in T3.
          destruct (dget nm (n_has n)) as [[|]|]; try discriminate.
          destruct (dget nm (n_params n)) as [w|]; [|discriminate]. injection T2 as <-.
          destruct (dget w memo); congruence. }
        pose proof (T _ _ _ A1 B1 C1) as E1. pose proof (T _ _ _ A2 B2 C2) as E2. split.
        + intros <-. apply (vals_inj memo x1 x2 y1); [rewrite (mo_vals _ _ _ D2); apply seq_NoDup|exact E1|exact E2].
        + intros <-. congruence.
      - intros nm y Hy. unfold get_grad in Hy. destruct (dget nm (n_grads c2)) as [y'|] eqn:Eg; [|discriminate]. injection Hy as ->.
        assert (Hyr : length arrs1 <= y < length arrs2).
        { apply Hgrange. apply dget_in in Eg. change y with (snd (nm, y)). now apply in_map. }
        split.
        + intros nm2 Hp. unfold get_param in Hp. destruct (dget nm2 (n_has c2)); [|discriminate].
          destruct (dget nm2 (n_params c2)) as [y''|] eqn:Ep; [|discriminate]. injection Hp as ->.
          assert (length (c_arrays st) <= y < length arrs1); [|lia].
          apply Hprange. apply dget_in in Ep. change y with (snd (nm2, y)). now apply in_map.
        + intros nm2 Hy2. assert (Hin : forall nm', get_grad c2 nm' = Ok y -> In nm' (grad_names n)).
          { intros nm' Hg. destruct (in_dec string_dec nm' (grad_names n)) as [Hi|Hi]; [exact Hi|].
            unfold get_grad in Hg. rewrite (G4 nm' Hi), R8 in Hg. discriminate. }
          assert (Hy1 : get_grad c2 nm = Ok y) by (unfold get_grad; now rewrite Eg).
          symmetry. apply (G6 nm nm2 y (Hin _ Hy1) (Hin _ Hy2) Hy1 Hy2). }
    destruct I as [V1 V2 V3 V4 V5 V6 V7 V8 V9 V10 V11 V12].
    pose proof (dset_new m a (length (c_nodes st)) Ha) as Ed.
    assert (Hlm : length (dset a (length (c_nodes st)) m) = S (length m)) by (rewrite Ed, app_length; cbn; lia).
    assert (Hnth : forall c n', len0 <= c -> nth_error (c_nodes st ++ [c2]) c = Some n' ->
              (nth_error (c_nodes st) c = Some n' /\ c < length (c_nodes st)) \/ (c = length (c_nodes st) /\ n' = c2)).
    { intros c n' Hc Hc'. destruct (Nat.lt_ge_cases c (length (c_nodes st))) as [Hlt|Hge].
      - left. rewrite nth_error_app1 in Hc' by exact Hlt. now split.
      - right. rewrite nth_error_app2 in Hc' by exact Hge. destruct (c - length (c_nodes st)) as [|k] eqn:Ek.
        + injection Hc' as <-. split; [lia|reflexivity].
        + destruct k; discriminate. }
    split; cbn [c_nodes c_arrays c_shims c_next].
    - exact (extends_trans _ _ _ V1 (extends_snoc _ _)).
    - rewrite app_length, Hlm. cbn. lia.
    - exact (extends_trans _ _ _ V3 Hx2).
    - exact V4.
    - exact V5.
    - now apply NoDup_dset.
    - rewrite Hlm, seq_snoc, <- V7, Ed, map_app. cbn. now rewrite V2.
    - unfold id. rewrite V8, Hlm. lia.
    - intros c n' Hc Hc'. destruct (Hnth c n' Hc Hc') as [[H1 _]|[-> ->]]; [now apply V9|].
      rewrite P3, R1. unfold id. rewrite V8, V2. lia.
    - intros a' c Hg. rewrite dget_dset in Hg. destruct (eqd a' a) as [->|Hne].
      + injection Hg as <-. exists n, c2. split; [exact Hn|]. split; [|exact Hcopy].
        rewrite nth_error_app2, Nat.sub_diag by lia. reflexivity.
      + destruct (V10 _ _ Hg) as (n1 & n1' & H1 & H2 & H3). exists n1, n1'. split; [exact H1|].
        split; [apply (extends_nth _ _ _ _ (extends_snoc _ _) H2)|].
        exact (is_copy_mono _ _ _ _ _ _ _ _ Hx2 Hsub (sub_refl _) H3).
    - intros c n' x Hc Hc' Hx. destruct (Hnth c n' Hc Hc') as [[H1 _]|[-> ->]].
      + pose proof (V11 c n' x Hc H1 Hx). apply extends_length in Hx2. lia.
      + unfold arrays_of in Hx. apply in_app_or in Hx. destruct Hx as [Hx|Hx]; [apply Hprange in Hx|apply Hgrange in Hx]; lia.
    - assert (Hnew : forall x, In x (arrays_of c2) -> length (c_arrays st) <= x).
      { intros x Hx. unfold arrays_of in Hx. apply in_app_or in Hx. destruct Hx as [Hx|Hx]; [apply Hprange in Hx|apply Hgrange in Hx]; lia. }
      intros c d n1 n2 x Hc Hd Hc' Hd' Hx1 Hx2'.
      destruct (Hnth c n1 Hc Hc') as [[H1 _]|[-> ->]]; destruct (Hnth d n2 Hd Hd') as [[H2 _]|[-> ->]].
      + exact (V12 c d n1 n2 x Hc Hd H1 H2 Hx1 Hx2').
      + pose proof (V11 c n1 x Hc H1 Hx1). pose proof (Hnew x Hx2'). lia.
      + pose proof (V11 d n2 x Hd H2 Hx2'). pose proof (Hnew x Hx1). lia.
      + reflexivity.
  Qed.

  (** Shims copied: the invariant is kept. *)
  Lemma inv_shims st m ms shims' ms' :
    Inv st m ms -> memo_ok (length (c_shims st0)) shims' ms' -> extends (c_shims st) shims' -> sub ms ms' ->
    Inv (mkC (c_nodes st) (c_arrays st) shims' (c_next st)) m ms'.
  Proof.
    intros [V1 V2 V3 V4 V5 V6 V7 V8 V9 V10 V11 V12] Hm Hx Hs. split; cbn [c_nodes c_arrays c_shims c_next]; try assumption.
    - exact (extends_trans _ _ _ V4 Hx).
    - intros a c Hg. destruct (V10 a c Hg) as (n & n' & H1 & H2 & H3). exists n, n'. split; [exact H1|]. split; [exact H2|].
      exact (is_copy_mono _ _ _ _ _ _ _ _ (extends_refl _) (sub_refl _) Hs H3).
  Qed.

  (** Keys of [m'] are keys of [m] or strictly below [a]. *)
  Hypothesis Hac : acyclic g0.

  Lemma copy_node_ok f : forall st m ms a,
    Inv st m ms -> a < len0 -> (forall k b, path g0 k a b -> k < f) -> ~ In a (dkeys m) ->
    exists st' m' ms' r, copy_node f st m ms a = Ok (st', m', ms', r) /\ Inv st' (dset a r m') ms' /\
      ~ In a (dkeys m') /\ sub m m' /\
      (forall k, In k (dkeys m') -> In k (dkeys m) \/ exists j, path g0 (S j) a k) /\
      (forall l, In l (layers g0 a) -> In l (dkeys m')).
  Proof.
    induction f as [|f IH]; intros st m ms a I Ha Hdepth Hna.
    { exfalso. assert (Hz : 0 < 0); [|lia]. apply (Hdepth 0 a). constructor. }
    cbn [copy_node]. destruct (nth_error (c_nodes st0) a) as [n|] eqn:En; [|apply nth_error_None in En; unfold len0 in Ha; lia].
    rewrite (extends_nth _ _ _ _ (iv_nodes _ _ _ I) En).
    rewrite (collect_ok n (fun nm => wf_alloc _ wf a n nm En)). cbn [bind].
    assert (Hls : layers g0 a = n_layers n) by (unfold g0; rewrite nth_layers, En; reflexivity).
    (* the layers *)
    assert (L : forall ls st m ms, Inv st m ms -> (forall l, In l ls -> In l (n_layers n)) ->
      exists st' m' ms' cs,
       (fix layers (st : cstate) (seen sseen : dict addr addr) (ls : list addr)
             : result (cstate * dict addr addr * dict addr addr * list addr) :=
             match ls with
             | [] => Ok (st, seen, sseen, [])
             | l :: ls' =>
               match dget l seen with
               | Some c =>
                 let* r := layers st seen sseen ls' in
                 let '(st2, seen2, sseen2, cs) := r in Ok (st2, seen2, sseen2, c :: cs)
               | None =>
                 let* k := copy_node f st seen sseen l in
                 let '(st1, seen1, sseen1, c) := k in
                 let* r := layers st1 (dset l c seen1) sseen1 ls' in
                 let '(st2, seen2, sseen2, cs) := r in Ok (st2, seen2, sseen2, c :: cs)
               end
             end) st m ms ls = Ok (st', m', ms', cs) /\ Inv st' m' ms' /\ sub m m' /\
        (forall k, In k (dkeys m') -> In k (dkeys m) \/ exists j, path g0 (S j) a k) /\
        map Some cs = map (fun l => dget l m') ls).
    { clear st m ms I Hna. induction ls as [|l ls IHls]; intros st m ms I Hin.
      - exists st, m, ms, []. split; [reflexivity|]. split; [exact I|]. split; [apply sub_refl|].
        split; [intros k Hk; now left|reflexivity].
      - assert (Hl : In l (layers g0 a)) by (rewrite Hls; apply Hin; now left).
        destruct (dget l m) as [c|] eqn:El.
        + destruct (IHls st m ms I) as (st' & m' & ms' & cs & E1 & I1 & S1 & K1 & M1).
          { intros x Hx. apply Hin. now right. }
          rewrite E1. cbn [bind]. exists st', m', ms', (c :: cs). split; [reflexivity|]. split; [exact I1|].
          split; [exact S1|]. split; [exact K1|]. cbn [map]. now rewrite M1, (S1 _ _ El).
        + destruct (IH st m ms l I) as (st1 & m1 & ms1 & r & E1 & I1 & N1 & S1 & K1 & _).
          { apply (wf_layers _ wf a n l En). rewrite <- Hls. exact Hl. }
          { intros k b Hk. pose proof (path_snoc _ _ _ _ _ Hl Hk) as Hk'. apply Hdepth in Hk'. lia. }
          { now apply dget_none. }
          rewrite E1. cbn [bind].
          destruct (IHls st1 (dset l r m1) ms1 I1) as (st2 & m2 & ms2 & cs & E2 & I2 & S2 & K2 & M2).
          { intros x Hx. apply Hin. now right. }
          rewrite E2. cbn [bind]. exists st2, m2, ms2, (r :: cs). split; [reflexivity|]. split; [exact I2|].
          assert (Sm : sub m1 (dset l r m1)) by now apply sub_dset.
          split; [exact (sub_trans _ _ _ S1 (sub_trans _ _ _ Sm S2))|].
          assert (Hp1 : path g0 1 a l) by (apply path_step with a; [constructor|exact Hl]).
          split.
          * intros k Hk. destruct (K2 k Hk) as [Hk1|Hk1]; [|now right].
            apply in_dkeys_dset in Hk1. destruct Hk1 as [->|Hk1]; [right; now exists 0|].
            destruct (K1 k Hk1) as [Hk2|[j Hj]]; [now left|]. right. exists (S j).
            exact (path_snoc _ _ _ _ _ Hl Hj).
          * cbn [map]. rewrite M2. now rewrite (S2 l r (dget_dset_same _ _ _)). }
    destruct (L (n_layers n) st m ms I (fun l H => H)) as (st1 & m1 & ms1 & cs & E1 & I1 & S1 & K1 & M1).
    rewrite E1. cbn [bind].
    destruct (copy_shims_ok (n_shims n) _ (c_shims st1) ms1 (iv_ms _ _ _ I1)) as (shims2 & ms2 & css & E2 & O2 & X2 & S2 & M2).
    { intros s Hs. exact (wf_shims _ wf a n s En Hs). }
    rewrite E2. cbn [bind].
    pose proof (inv_shims _ _ _ _ _ I1 O2 X2 S2) as I2.
    assert (Hna1 : ~ In a (dkeys m1)).
    { intros Hi. destruct (K1 a Hi) as [Hi'|[j Hj]]; [contradiction|exact (Hac _ _ Hj)]. }
    destruct (build_ok _ m1 ms2 a n cs css I2 En Hna1 M1 M2) as (st' & r & E3 & I3).
    rewrite E3. cbn [bind fst snd]. exists st', m1, ms2, r. split; [reflexivity|]. split; [exact I3|].
    split; [exact Hna1|]. split; [exact S1|]. split; [exact K1|].
    intros l Hl. rewrite Hls in Hl. apply dget_key.
    assert (Hm1 : In (dget l m1) (map (fun l => dget l m1) (n_layers n))) by (apply (in_map (fun l => dget l m1)), Hl).
    rewrite <- M1 in Hm1. apply in_map_iff in Hm1. destruct Hm1 as (c & Hc & _). now exists c.
  Qed.

  Lemma inv_start : Inv st0 [] [].
  Proof.
    split; try apply extends_refl.
    - cbn. unfold len0. lia.
    - apply memo_start.
    - constructor.
    - reflexivity.
    - cbn. lia.
    - intros c n' Hc Hn. assert (c < length (c_nodes st0)) by (apply nth_error_Some; congruence). unfold len0 in Hc. lia.
    - discriminate.
    - intros c n' x Hc Hn. assert (c < length (c_nodes st0)) by (apply nth_error_Some; congruence). unfold len0 in Hc. lia.
    - intros c d n1 n2 x Hc _ Hn. assert (c < length (c_nodes st0)) by (apply nth_error_Some; congruence). unfold len0 in Hc. lia.
  Qed.

  Lemma copy_ok fuel root : root < len0 -> len0 < fuel ->
    exists st' r m ms, copy fuel st0 root = Ok (st', r) /\ copied st0 st' root r m ms.
  Proof.
    intros Hr Hf. destruct (copy_node_ok fuel st0 [] [] root inv_start Hr) as (st' & m & ms & r & E1 & I & N & S & K & Ls).
    - intros k b Hk. pose proof (acyclic_depth _ _ _ _ Hac Hk) as Hd. unfold g0, graph_of in Hd. rewrite map_length in Hd.
      unfold len0 in Hf. lia.
    - intros [].
    - exists st', r, (dset root r m), ms. unfold copy. rewrite E1. cbn [bind]. split; [reflexivity|].
      destruct I as [V1 V2 V3 V4 V5 V6 V7 V8 V9 V10 V11 V12].
      fold len0 arr0. split; try assumption.
      + apply dget_dset_same.
      + intros a. rewrite in_dkeys_dset. split.
        * intros [->|Hk]; [exists 0; constructor|]. destruct (K a Hk) as [[]|[j Hj]]. now exists (Datatypes.S j).
        * intros [k Hk]. fold g0 in Hk. apply (proj1 (in_dkeys_dset root a r m)).
          assert (Hcl : forall b l, In b (dkeys (dset root r m)) -> In l (layers g0 b) -> In l (dkeys (dset root r m))).
          { intros b l Hb Hl. apply dget_key in Hb. destruct Hb as [b' Hb'].
            destruct (V10 _ _ Hb') as (n & n' & H1 & H2 & H3). pose proof (cp_layers _ _ _ _ _ H3) as Hm.
            unfold g0 in Hl. rewrite nth_layers, H1 in Hl.
            apply (in_map (fun l => dget l (dset root r m))) in Hl. rewrite <- Hm in Hl.
            apply in_map_iff in Hl. destruct Hl as (y & Hy & _). apply dget_key. now exists y. }
          assert (Hroot : In root (dkeys (dset root r m))) by (apply in_dkeys_dset; now left).
          revert Hcl Hroot. generalize (dkeys (dset root r m)). clear - Hk. intros ks Hcl Hroot.
          induction Hk as [|k a b c Hk IHk Hc]; [exact Hroot|]. apply (Hcl b); [now apply IHk|exact Hc].
      + rewrite V7. f_equal. unfold len0 in *. lia.
      + rewrite (mo_vals _ _ _ V5). f_equal. pose proof (mo_len _ _ _ V5). lia.
      + apply V5.
      + intros s t Hst. destruct (mo_copy _ _ _ V5 _ _ Hst) as (H1 & H2 & H3). rewrite H3.
        now apply extends_nth_lt.
  Qed.
End CopyProofs.

Section CopyCorollaries.
  Context {E A B : Type}.
  Notation node := (node addr A).
  Notation cstate := (cstate E A B).

  Lemma copy_total fuel (st : cstate) root :
    wf_cstate st -> acyclic (graph_of (c_nodes st)) -> root < length (c_nodes st) -> length (c_nodes st) < fuel ->
    exists st' r m ms, copy fuel st root = Ok (st', r) /\ copied st st' root r m ms.
  Proof. intros Hwf Hac. exact (copy_ok st Hwf Hac fuel root). Qed.

  Lemma write_nodes ws : forall st : cstate, c_nodes (fold_left (fun s w => write_array s (fst w) (snd w)) ws st) = c_nodes st.
  Proof. induction ws as [|w ws IH]; intros st; cbn [fold_left]; [reflexivity|]. now rewrite IH. Qed.

  Lemma write_other ws : forall (st : cstate) y, (forall x v, In (x, v) ws -> x <> y) ->
    nth_error (c_arrays (fold_left (fun s w => write_array s (fst w) (snd w)) ws st)) y = nth_error (c_arrays st) y.
  Proof.
    induction ws as [|[x v] ws IH]; intros st y Hne; cbn [fold_left]; [reflexivity|].
    rewrite IH by (intros x' v' Hin; apply (Hne x' v'); now right).
    cbn. apply set_nth_other. apply (Hne x v). now left.
  Qed.

  Lemma in_params (n : node) nm x : get_param n nm = Ok x -> In x (arrays_of n).
  Proof.
    unfold get_param. destruct (dget nm (n_has n)); [|discriminate]. destruct (dget nm (n_params n)) eqn:Eg; [|discriminate].
    intros Heq. injection Heq as ->. apply in_or_app. left. apply dget_in in Eg. change x with (snd (nm, x)). now apply in_map.
  Qed.
  Lemma in_grads (n : node) nm x : get_grad n nm = Ok x -> In x (arrays_of n).
  Proof.
    unfold get_grad. destruct (dget nm (n_grads n)) eqn:Eg; [|discriminate].
    intros Heq. injection Heq as ->. apply in_or_app. right. apply dget_in in Eg. change x with (snd (nm, x)). now apply in_map.
  Qed.

  Lemma copy_independent (st st' : cstate) root r m ms ws :
    wf_cstate st -> copied st st' root r m ms ->
    let after := fold_left (fun s w => write_array s (fst w) (snd w)) ws st' in
    ((forall x v, In (x, v) ws -> exists c n', length (c_nodes st) <= c /\ nth_error (c_nodes st') c = Some n' /\ In x (arrays_of n')) ->
     forall a nm, a < length (c_nodes st) ->
       nth_error (c_nodes after) a = nth_error (c_nodes st) a /\
       read_param after a nm = read_param st a nm /\ read_grad after a nm = read_grad st a nm) /\
    ((forall x v, In (x, v) ws -> exists a n, nth_error (c_nodes st) a = Some n /\ In x (arrays_of n)) ->
     forall c nm, length (c_nodes st) <= c ->
       read_param after c nm = read_param st' c nm /\ read_grad after c nm = read_grad st' c nm).
  Proof.
    intros Hwf [[ns Hns] [as_ Has] _ _ _ _ _ _ _ _ _ _ Hfresh Hown]. cbn zeta. split.
    - intros Hws a nm Ha.
      assert (Hnode : nth_error (c_nodes st') a = nth_error (c_nodes st) a) by (rewrite Hns; now rewrite nth_error_app1).
      rewrite write_nodes. split; [exact Hnode|]. unfold read_param, read_grad. rewrite write_nodes, Hnode.
      destruct (nth_error (c_nodes st) a) as [n|] eqn:En; [|split; reflexivity].
      assert (Hrd : forall x, In x (arrays_of n) ->
                nth_error (c_arrays (fold_left (fun s w => write_array s (fst w) (snd w)) ws st')) x = nth_error (c_arrays st) x).
      { intros x Hx. pose proof (wf_arrays _ Hwf a n x En Hx) as Hlt. rewrite write_other.
        - rewrite Has. now rewrite nth_error_app1.
        - intros x' v Hin ->. destruct (Hws x v Hin) as (c & n' & H1 & H2 & H3). pose proof (Hfresh c n' x H1 H2 H3). lia. }
      split.
      + destruct (get_param n nm) as [x|] eqn:Eg; [|reflexivity]. apply Hrd. exact (in_params _ _ _ Eg).
      + destruct (get_grad n nm) as [x|] eqn:Eg; [|reflexivity]. apply Hrd. exact (in_grads _ _ _ Eg).
    - intros Hws c nm Hc. unfold read_param, read_grad. rewrite write_nodes.
      destruct (nth_error (c_nodes st') c) as [n|] eqn:En; [|split; reflexivity].
      assert (Hrd : forall x, In x (arrays_of n) ->
                nth_error (c_arrays (fold_left (fun s w => write_array s (fst w) (snd w)) ws st')) x = nth_error (c_arrays st') x).
      { intros x Hx. apply write_other. intros x' v Hin ->. destruct (Hws x v Hin) as (a & n' & H2 & H3).
        pose proof (wf_arrays _ Hwf a n' x H2 H3). pose proof (Hfresh c n x Hc En Hx). lia. }
      split.
      + destruct (get_param n nm) as [x|] eqn:Eg; [|reflexivity]. apply Hrd. exact (in_params _ _ _ Eg).
      + destruct (get_grad n nm) as [x|] eqn:Eg; [|reflexivity]. apply Hrd. exact (in_grads _ _ _ Eg).
  Qed.

  Lemma copy_ids (st st' : cstate) root r m ms :
    wf_cstate st -> copied st st' root r m ms -> NoDup (map n_id (c_nodes st)) -> NoDup (map n_id (c_nodes st')).
  Proof.
    intros Hwf Hcp Hnd. destruct Hcp as [[ns Hns] _ _ _ _ _ _ _ _ _ _ Hids _ _].
    rewrite Hns, map_app. rewrite Hns in Hids.
    assert (Hi : forall i n, nth_error ns i = Some n -> n_id n = (c_next st + 1 + Z.of_nat i)%Z).
    { intros i n Hn. rewrite (Hids (length (c_nodes st) + i) n); [f_equal; lia|lia|].
      rewrite nth_error_app2 by lia. replace (length (c_nodes st) + i - length (c_nodes st)) with i by lia. exact Hn. }
    apply NoDup_app_intro; [exact Hnd| |].
    - rewrite NoDup_nth_error. intros i j Hlt Heq. rewrite map_length in Hlt. rewrite !nth_error_map in Heq.
      destruct (nth_error ns i) as [n1|] eqn:E1; [|apply nth_error_None in E1; lia].
      destruct (nth_error ns j) as [n2|] eqn:E2; [|discriminate]. cbn in Heq. injection Heq as Heq.
      rewrite (Hi _ _ E1), (Hi _ _ E2) in Heq. lia.
    - intros x Hx Hx'. apply in_map_iff in Hx, Hx'. destruct Hx as (n1 & <- & H1). destruct Hx' as (n2 & Heq & H2).
      apply In_nth_error in H1, H2. destruct H1 as [i H1]. destruct H2 as [j H2].
      pose proof (wf_ids _ Hwf _ _ H1). pose proof (Hi _ _ H2). lia.
  Qed.
End CopyCorollaries.

Open Scope string_scope.
Ltac wf_check :=
  split;
  [ intros [|[|a]] n Hn; try (destruct a; discriminate); try discriminate; injection Hn as <-; cbn; repeat (apply NoDup_cons || apply NoDup_nil); cbn; tauto
  | intros [|[|a]] n l Hn Hl; try (destruct a; discriminate); try discriminate; injection Hn as <-; cbn in *; lia
  | intros [|[|a]] n l Hn Hl; try (destruct a; discriminate); try discriminate; injection Hn as <-; cbn in *; lia
  | intros [|[|a]] n l Hn Hl; try (destruct a; discriminate); try discriminate; injection Hn as <-; cbn in *;
      try discriminate; (match type of Hl with context [eqd ?x ?y] => destruct (eqd x y) end; [eauto|discriminate])
  | intros [|[|a]] n l Hn Hl; try (destruct a; discriminate); try discriminate; injection Hn as <-; cbn in *; lia
  | intros [|[|a]] n Hn; try (destruct a; discriminate); try discriminate; injection Hn as <-; cbn in *; lia ].
Definition one_node (refs : dict string (option addr)) shims : node addr Z :=
  mkNode 1%Z "m" 0 [] shims [] [] [] [] refs [].
Lemma copy_refs_witness :
  exists (st : cstate Z Z Z) st' r n n', wf_cstate st /\ copy 3 st 0 = Ok (st', r) /\
    nth_error (c_nodes st) 0 = Some n /\ nth_error (c_nodes st') r = Some n' /\
    get_ref n "self" = Ok 0 /\ get_ref n' "self" = Err KeyError.
Proof.
  exists (mkC [one_node [("self", Some 0)] []] [] [] 1%Z). do 4 eexists. split.
  - wf_check.
  - vm_compute. repeat split; reflexivity.
Qed.

Lemma copy_shim_witness :
  exists (st : cstate Z Z Z) st' r s, wf_cstate st /\ copy 3 st 0 = Ok (st', r) /\
    nth_error (c_shims st') 0 = Some s /\ option_map fst (nth_error (c_shims st') 1) = Some (fst s).
Proof.
  exists (mkC [one_node [] [0]] [] [(7%Z, 0%Z)] 1%Z). do 3 eexists. split.
  - wf_check.
  - vm_compute. repeat split; reflexivity.
Qed.

Definition tied (i : Z) ls : node addr Z := mkNode i "m" 0 ls [] [] [("W", true)] [("W", 0)] [] [] [].
Lemma copy_tied_witness :
  exists (st : cstate Z Z Z) st' r n1 n2 n1' n2', wf_cstate st /\ copy 3 st 0 = Ok (st', r) /\
    nth_error (c_nodes st) 0 = Some n1 /\ nth_error (c_nodes st) 1 = Some n2 /\ n_layers n1 = [1] /\
    get_param n1 "W" = get_param n2 "W" /\
    nth_error (c_nodes st') r = Some n1' /\ map (nth_error (c_nodes st')) (n_layers n1') = [Some n2'] /\
    get_param n1' "W" <> get_param n2' "W".
Proof.
  exists (mkC [tied 1%Z [1]; tied 2%Z []] [5%Z] [] 2%Z). do 6 eexists. split.
  - wf_check.
  - vm_compute. repeat split; try reflexivity. discriminate.
Qed.
