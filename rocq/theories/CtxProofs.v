From Coq Require Import String.
From Verif Require Import BaseFacts NodeProofs CtxModel CtxSpec.
Set Default Goal Selector "!".

Section CtxProofs.
  Variable reg : dict string nat.
  Notation eval := (eval reg).

  Lemma use_ops_restores name p s s' t r cur o : eval (PUseOps name p) s = (s', t, r) ->
    effective_ops reg s = Ok cur -> get_ops reg name = Ok o ->
    x_ops s' = Some cur /\ x_thread s' = Some cur /\
    exists s1 s2, x_ops s1 = Some o /\ x_operators s1 = x_operators s /\ x_valid s1 = x_valid s /\ eval p s1 = (s2, t, r) /\
      x_operators s' = x_operators s2 /\ x_valid s' = x_valid s2.
  Proof.
    unfold effective_ops. cbn [CtxModel.eval]. unfold get_current_ops. intros He Hc Ho.
    destruct (x_ops s) as [c|].
    - injection Hc as ->. rewrite Ho in He. destruct (eval p (set_current_ops s o)) as [[s2 t2] r2] eqn:E.
      injection He as <- <- <-. split; [reflexivity|]. split; [reflexivity|]. exists (set_current_ops s o), s2. now repeat split.
    - rewrite Hc, Ho in He. destruct (eval p (set_current_ops (set_current_ops s cur) o)) as [[s2 t2] r2] eqn:E.
      injection He as <- <- <-. split; [reflexivity|]. split; [reflexivity|]. exists (set_current_ops (set_current_ops s cur) o), s2. now repeat split.
  Qed.

  Lemma use_ops_unknown name p s e cur : effective_ops reg s = Ok cur -> get_ops reg name = Err e ->
    exists s', eval (PUseOps name p) s = (s', [], Err e) /\ effective_ops reg s' = Ok cur /\ x_operators s' = x_operators s /\ x_valid s' = x_valid s.
  Proof.
    unfold effective_ops. intros Hc Hn. cbn [CtxModel.eval]. unfold get_current_ops. destruct (x_ops s) as [c|] eqn:Ex.
    - rewrite Hn. exists s. rewrite Ex. now repeat split.
    - rewrite Hc, Hn. eexists. split; [reflexivity|]. now repeat split.
  Qed.

  Lemma scoped_ops_balanced p : forall s s' t r, scoped_ops p -> eval p s = (s', t, r) -> effective_ops reg s' = effective_ops reg s.
  Proof.
    induction p as [|p IHp q IHq|e|p IHp q IHq|name p IHp|name| |d p IHp|m|b p IHp|]; intros s s' t r Hs He; cbn [CtxModel.eval] in He; cbn [scoped_ops] in Hs.
    - now injection He as <- _ _.
    - destruct (eval p s) as [[s1 t1] [[]|e]] eqn:E1.
      + destruct (eval q s1) as [[s2 t2] r2] eqn:E2. injection He as <- _ _.
        rewrite (IHq _ _ _ _ (proj2 Hs) E2). exact (IHp _ _ _ _ (proj1 Hs) E1).
      + injection He as <- _ _. exact (IHp _ _ _ _ (proj1 Hs) E1).
    - now injection He as <- _ _.
    - destruct (eval p s) as [[s1 t1] [[]|e]] eqn:E1.
      + injection He as <- _ _. exact (IHp _ _ _ _ (proj1 Hs) E1).
      + destruct (eval q s1) as [[s2 t2] r2] eqn:E2. injection He as <- _ _.
        rewrite (IHq _ _ _ _ (proj2 Hs) E2). exact (IHp _ _ _ _ (proj1 Hs) E1).
    - unfold get_current_ops in He. unfold effective_ops. destruct (x_ops s) as [c|] eqn:Ex.
      + destruct (get_ops reg name) as [o|e] eqn:Eg; [|injection He as <- _ _; now rewrite Ex].
        destruct (eval p (set_current_ops s o)) as [[s2 t2] r2]. now injection He as <- _ _.
      + destruct (get_ops reg "cpu") as [c|e] eqn:Ec; [|injection He as <- _ _; now rewrite Ex].
        destruct (get_ops reg name) as [o|e] eqn:Eg; [|now injection He as <- _ _].
        destruct (eval p (set_current_ops (set_current_ops s c) o)) as [[s2 t2] r2]. now injection He as <- _ _.
    - destruct Hs.
    - unfold get_current_ops in He. unfold effective_ops. destruct (x_ops s) as [c|] eqn:Ex; [injection He as <- _ _; now rewrite Ex|].
      destruct (get_ops reg "cpu") as [c|e] eqn:Ec; injection He as <- _ _; [reflexivity|now rewrite Ex].
    - destruct (eval p (with_operators s d)) as [[s1 t1] [[]|e]] eqn:E1; injection He as <- _ _; exact (IHp _ _ _ _ Hs E1).
    - destruct (dunder_op m) as [op|]; [destruct (dget op (x_operators s))|]; now injection He as <- _ _.
    - destruct (eval p (with_valid s b)) as [[s1 t1] [[]|e]] eqn:E1; injection He as <- _ _; exact (IHp _ _ _ _ Hs E1).
    - now injection He as <- _ _.
  Qed.

  Lemma define_restores d p s s' t : eval (PDefine d p) s = (s', t, Ok tt) -> x_operators s' = x_operators s.
  Proof.
    cbn [CtxModel.eval]. destruct (eval p (with_operators s d)) as [[s1 t1] [[]|e]]; [|discriminate]. now injection 1 as <- _.
  Qed.
  Lemma validate_restores b p s s' t : eval (PValidate b p) s = (s', t, Ok tt) -> x_valid s' = x_valid s.
  Proof.
    cbn [CtxModel.eval]. destruct (eval p (with_valid s b)) as [[s1 t1] [[]|e]]; [|discriminate]. now injection 1 as <- _.
  Qed.

  Lemma no_exception_balanced p : forall s s' t, no_try p -> eval p s = (s', t, Ok tt) ->
    x_operators s' = x_operators s /\ x_valid s' = x_valid s.
  Proof.
    induction p as [|p IHp q IHq|e|p IHp q IHq|name p IHp|name| |d p IHp|m|b p IHp|]; intros s s' t Hs He; cbn [CtxModel.eval] in He; cbn [no_try] in Hs.
    - injection He as <- _. now split.
    - destruct (eval p s) as [[s1 t1] [[]|e]] eqn:E1; [|discriminate].
      destruct (eval q s1) as [[s2 t2] r2] eqn:E2. injection He as <- _ ->.
      destruct (IHq _ _ _ (proj2 Hs) E2) as [-> ->]. exact (IHp _ _ _ (proj1 Hs) E1).
    - discriminate.
    - destruct Hs.
    - unfold get_current_ops in He. destruct (x_ops s) as [c|] eqn:Ex.
      + destruct (get_ops reg name) as [o|e] eqn:Eg; [|discriminate].
        destruct (eval p (set_current_ops s o)) as [[s2 t2] r2] eqn:E2. injection He as <- _ ->. exact (IHp _ _ _ Hs E2).
      + destruct (get_ops reg "cpu") as [c|e] eqn:Ec; [|discriminate].
        destruct (get_ops reg name) as [o|e] eqn:Eg; [|discriminate].
        destruct (eval p (set_current_ops (set_current_ops s c) o)) as [[s2 t2] r2] eqn:E2. injection He as <- _ ->. exact (IHp _ _ _ Hs E2).
    - destruct (get_ops reg name); [|discriminate]. injection He as <- _. now split.
    - unfold get_current_ops in He. destruct (x_ops s); [injection He as <- _; now split|].
      destruct (get_ops reg "cpu"); [|discriminate]. injection He as <- _. now split.
    - destruct (eval p (with_operators s d)) as [[s1 t1] [[]|e]] eqn:E1; [|discriminate]. injection He as <- _.
      split; [reflexivity|]. exact (proj2 (IHp _ _ _ Hs E1)).
    - destruct (dunder_op m) as [op|]; [destruct (dget op (x_operators s))|]; try discriminate. injection He as <- _. now split.
    - destruct (eval p (with_valid s b)) as [[s1 t1] [[]|e]] eqn:E1; [|discriminate]. injection He as <- _.
      split; [|reflexivity]. exact (proj1 (IHp _ _ _ Hs E1)).
    - injection He as <- _. now split.
  Qed.

  Lemma define_visible d m op s : dunder_op m = Some op ->
    eval (PDefine d (PDunder m)) s =
    match dget op d with
    | Some f => (s, [Applied f], Ok tt)
    | None => (with_operators s d, [], Err TypeError)
    end.
  Proof.
    intros Hm. cbn [CtxModel.eval]. rewrite Hm. cbn [x_operators with_operators]. destruct (dget op d); [|reflexivity].
    destruct s; reflexivity.
  Qed.

  Lemma threads_isolated sched : forall ss ss' i, length ss = length ss' -> nth_error ss i = nth_error ss' i ->
    nth_error (run_threads reg ss sched) i = nth_error (run_threads reg ss' (filter (fun ip => Nat.eqb (fst ip) i) sched)) i.
  Proof.
    induction sched as [|[j p] sched IH]; intros ss ss' i Hl He; [exact He|].
    unfold run_threads. cbn [fold_left filter fst snd]. destruct (Nat.eqb_spec j i) as [->|Hne].
    - cbn [fold_left fst snd]. rewrite <- He. destruct (nth_error ss i) as [s|] eqn:E.
      + apply IH; [now rewrite !set_nth_length|]. rewrite (set_nth_same _ _ _ _ E). symmetry. apply (set_nth_same _ _ s). now rewrite <- He.
      + apply IH; [exact Hl|congruence].
    - destruct (nth_error ss j) as [s|] eqn:E.
      + apply IH; [now rewrite set_nth_length|]. now rewrite set_nth_other.
      + now apply IH.
  Qed.
End CtxProofs.

Open Scope string_scope.
Lemma define_witness :
  exists p s' t, eval [("numpy", 1)] p ctx0 = (s', t, Ok tt) /\ x_operators s' <> x_operators ctx0.
Proof.
  exists (PTry (PDefine [(">>", 7)] (PRaise ValueError)) PSkip). do 2 eexists. split; [reflexivity|discriminate].
Qed.
Lemma validate_witness :
  exists p s' t, eval [("numpy", 1)] p ctx0 = (s', t, Ok tt) /\ x_valid s' <> x_valid ctx0.
Proof.
  exists (PTry (PValidate true (PRaise ValueError)) PSkip). do 2 eexists. split; [reflexivity|discriminate].
Qed.

Lemma python_method_op m op : python_method op = Some m -> dunder_op m = Some op.
Proof.
  unfold python_method.
  repeat match goal with
  | |- context [String.eqb op ?c] => destruct (String.eqb_spec op c) as [->|_]; [intros E; injection E as <-; reflexivity|]
  end. discriminate.
Qed.

Lemma define_operator reg d m op s : python_method op = Some m ->
  eval reg (PDefine d (PDunder m)) s =
  match dget op d with
  | Some f => (s, [Applied f], Ok tt)
  | None => (with_operators s d, [], Err TypeError)
  end.
Proof. intros Hm. apply define_visible. now apply python_method_op. Qed.

Lemma get_ops_spec reg name o : get_ops reg name = Ok o <->
  if String.eqb name "cpu"
  then dget "bigendian" reg = Some o \/
       dget "bigendian" reg = None /\ (dget "apple" reg = Some o \/ dget "apple" reg = None /\ dget "numpy" reg = Some o)
  else dget name reg = Some o.
Proof.
  unfold get_ops. destruct (String.eqb name "cpu").
  - destruct (dget "bigendian" reg), (dget "apple" reg), (dget "numpy" reg); split; intros Hx;
      repeat match goal with H : _ \/ _ |- _ => destruct H | H : _ /\ _ |- _ => destruct H end; try congruence; auto;
      injection Hx as ->; auto.
  - destruct (dget name reg); split; congruence.
Qed.

Lemma get_ops_error reg name e : get_ops reg name = Err e -> e = ValueError.
Proof. unfold get_ops. destruct (if String.eqb name "cpu" then _ else _); congruence. Qed.
Lemma dunder_ok reg m s : snd (eval reg (PDunder m) s) =
  match dunder_op m with Some op => match dget op (x_operators s) with Some _ => Ok tt | None => Err TypeError end | None => Err TypeError end.
Proof. cbn [eval]. destruct (dunder_op m) as [op|]; [destruct (dget op (x_operators s))|]; reflexivity. Qed.
