(** The gradient of the input for any number of layers. *)
From Coq Require Import Reals Lra Lia.
From Verif Require Import NumR MatSpec MatProofs BaseFacts CombProofs CombBuiltProofs MkProofs LstmProofs ActProofs SoftProofs SoftSeqProofs.
From Verif Require Import LstmModel LstmSpec LstmBwdProofs LstmBpttSpec LstmBpttProofs LstmBpttCodeProofs LstmBpttMainProofs.
From Verif Require Import LstmKernelModel LstmKernelSpec LstmFwdProofs.
Set Default Goal Selector "!".
Local Open Scope R_scope.

(** ** Curves of matrices *)
Definition unit_rows (N n r o : nat) : list (list R) := map (fun i => if Nat.eqb i r then unit_ n o else zeros n) (seq 0 N).
Lemma unit_rows_shape N n r o : length (unit_rows N n r o) = N /\ Forall (fun x => length x = n) (unit_rows N n r o).
Proof. unfold unit_rows. split; [now rewrite map_length, seq_length|]. apply Forall_forall. intros x Hx. apply in_map_iff in Hx as (i & <- & _). destruct (Nat.eqb i r); [apply unit_length|apply repeat_length]. Qed.
Lemma mdot_unit N n r o (Y : list (list R)) : (r < N)%nat -> (o < n)%nat -> length Y = N -> Forall (fun x => length x = n) Y -> mdot (unit_rows N n r o) Y = nth o (nth r Y []) 0.
Proof.
  intros Hr Ho L F. rewrite (mdot_rows N) by (assumption || apply unit_rows_shape). rewrite (S_ext N _ (fun i => (if Nat.eqb i r then 1 else 0) * dot (unit_ n o) (nth i Y []))).
  - rewrite S_unit by exact Hr. apply dot_unit; [exact Ho|]. rewrite Forall_forall in F. apply F, nth_In. lia.
  - intros i Hi. unfold unit_rows. rewrite nth_map_seq by exact Hi. destruct (Nat.eqb i r); [ring|]. rewrite dot_zeros_l. ring.
Qed.
Lemma mdot_const N n (dY : list (list R)) Y VY : length dY = N -> Forall (fun x => length x = n) dY -> moves2 N n Y VY -> derivable_pt_lim (fun s => mdot dY (Y s)) 0 (mdot dY VY).
Proof.
  intros L F (M1 & M2 & M3). rewrite (mdot_rows N) by assumption. eapply der_local; [| |apply (der_S N (fun r s => dot (nth r dY []) (nth r (Y s) [])) (fun r => dot (nth r dY []) (nth r VY [])))]; [instantiate (1 := 1); instantiate (1 := -1); lra| |].
  - intros s _. cbv beta. rewrite (mdot_rows N) by (assumption || apply M2). reflexivity.
  - intros r Hr. apply (dot_const n); [rewrite Forall_forall in F; apply F, nth_In; lia|]. apply (M3 r Hr).
Qed.
Lemma rows_cover B : forall l s r, Forall (fun n => (n <= B)%nat) l -> (s <= r < s + total l)%nat -> exists b, (b < B)%nat /\ In r (rows_of b s l).
Proof.
  induction l as [|n l IH]; intros s r F Hr; unfold total in Hr; cbn [fold_right] in Hr; [lia|]. apply Forall_cons_iff in F as [F1 F2]. cbn [rows_of]. destruct (Nat.ltb_spec r (s + n)) as [H|H].
  - exists (r - s)%nat. split; [lia|]. apply in_or_app. left. destruct (Nat.ltb_spec (r - s) n); [left; lia|lia].
  - destruct (IH (s + n)%nat r F2) as (b & Hb & Hi); [unfold total; lia|]. exists b. split; [exact Hb|]. apply in_or_app. now right.
Qed.

(** ** One layer *)
Section Layer.
  Variables (nO nI : nat) (w : triple R) (h0 c0 : list R) (batch : nat) (lengths : list nat) (X : R -> list (list R)) (V : list (list R)).
  Notation L := (batch :: lengths).
  Notation N := (total (batch :: lengths)).
  Hypotheses (Sw : triple_shape nO nI w) (Hb : batch <> 0%nat) (Hf : falling L) (MX : moves2 N nI X V) (HV : forall r, (r < batch)%nat -> nth r V [] = zeros nI) (LH : length h0 = nO) (LC : length c0 = nO).
  Lemma lay_weights : (mkM nI (in_weights w), mkM nO (hid_weights w), snd w) = w.
  Proof. destruct Sw as ((C1 & _) & (C2 & _) & _). clear - C1 C2. destruct w as [[[? ?] [? ?]] ?]. cbn in *. now subst. Qed.
  Lemma lay_below : Forall (fun n => (n <= batch)%nat) L. Proof. now apply falling_head. Qed.
  Lemma lay_fwd s : exists st, np_dir_fwd 0 nO (X s) w L batch h0 c0 = Ok st /\ length (d_Y st) = N /\ (forall b, (b < batch)%nat -> take (d_Y st) (rows_of b 0 L) = lstm_run nO w h0 c0 (take (X s) (rows_of b 0 L))) /\ Forall (fun y => length y = nO) (d_Y st).
  Proof.
    assert (LX : length (X s) = N) by apply MX.
    destruct (dir_fwd_ok 0 nO nI (X s) w L batch h0 c0 Sw (eq_sym LX) lay_below) as (st & Ef & _ & HY). exists st. split; [exact Ef|].
    assert (LYs : length (d_Y st) = N).
    { clear - Ef Hf LX. destruct w as [[Wx Wh] bb]. unfold np_dir_fwd in Ef. cbn [np_order bind] in Ef.
      destruct (steps_ok nO (length (X s)) batch (m_rows Wh) bb (order_ltr 0 L) (mkDir (map (times (m_rows Wx)) (X s)) (zero_rows (length (X s)) nO) (zero_rows (length (X s)) nO)) (repeat h0 batch) (repeat c0 batch)) as (s' & E' & _ & L2 & _ & _);
        try (apply repeat_length); [|apply order_ltr_disjoint|apply map_length|rewrite E' in Ef; injection Ef as ->; rewrite <- LX; exact L2].
      pose proof (order_ltr_bound batch L 0 (falling_head _ _ Hf)) as Bo. eapply Forall_impl; [|exact Bo]. cbv beta. intros q Hq. lia. }
    split; [exact LYs|]. split; [exact HY|]. apply Forall_forall. intros y Hy. destruct (In_nth _ _ [] Hy) as (r & Hr & <-). rewrite LYs in Hr.
    destruct (rows_cover batch L 0 r lay_below ltac:(lia)) as (b & Hbb & Hi). pose proof (lstm_run_wide nO w (take (X s) (rows_of b 0 L)) h0 c0) as W. cbn [dir_run] in HY. rewrite <- (HY b Hbb) in W. rewrite Forall_forall in W. apply W. unfold take. apply in_map_iff. now exists r.
  Qed.
  Lemma lay_der (Y : R -> list (list R)) st0 dY dw : (forall s, length (Y s) = N) -> (forall s b, (b < batch)%nat -> take (Y s) (rows_of b 0 L) = lstm_run nO w h0 c0 (take (X s) (rows_of b 0 L))) ->
    np_dir_fwd 0 nO (X 0) w L batch h0 c0 = Ok st0 -> length (d_Y st0) = N -> length dY = N -> Forall (fun x => length x = nO) dY -> triple_shape nO nI dw ->
    exists dX dw', np_dir_bwd 0 nO nI (X 0) (zero_rows N nI) dY w dw st0 L = Ok (dX, dw') /\ triple_shape nO nI dw' /\ length dX = N /\ Forall (fun x => length x = nI) dX /\ derivable_pt_lim (fun s => mdot dY (Y s)) 0 (mdot dX V).
  Proof.
    intros LY HY Ef LYs HLy Fy Sdw. assert (LX : forall s, length (X s) = N) by apply MX.
    destruct (dir_bwd_ok 0 nO nI (X 0) (zero_rows N nI) dY w dw batch lengths h0 c0 st0 Sw Hb (eq_sym (LX 0)) Hf) as (dG & Eb & LdG & FdG & HG); [now rewrite LX|exact Fy|exact Ef|]. rewrite LX in LdG.
    assert (Wd : Forall (fun x => length x = nI) (map (times_t nI (in_weights w)) dG)) by (apply Forall_forall; intros x Hx; apply in_map_iff in Hx as (g & <- & _); apply times_t_length).
    rewrite add_zero_l in Eb by (exact Wd || (rewrite map_length; exact LdG)). eexists. eexists. split; [exact Eb|]. split; [|split; [now rewrite map_length|split; [exact Wd|]]].
    - destruct Sdw as ((C1 & R1 & F1) & (C2 & R2 & F2) & L3). destruct (outer_rows (4 * nO) nI dG (X 0)) as [O1 O2]. destruct (outer_rows (4 * nO) nO dG (d_Y st0)) as [O3 O4].
      destruct (add_rows_shape (4 * nO) nI (in_weights dw) _ R1 O1 F1 O2) as [A1 A2]. destruct (add_rows_shape (4 * nO) nO (hid_weights dw) _ R2 O3 F2 O4) as [A3 A4].
      split; [split; [reflexivity|split; assumption]|]. split; [split; [reflexivity|split; assumption]|]. cbn [snd]. rewrite row_add_length, L3. unfold colsum. rewrite map_length, seq_length. lia.
    - eapply der_eq; [eapply der_local; [| |apply (der_S batch (fun b s => mdot (take dY (rows_of b 0 L)) (lstm_run nO w h0 c0 (take (X s) (rows_of b 0 L)))) (fun b => mdot (take (map (times_t nI (in_weights w)) dG) (rows_of b 0 L)) (take V (rows_of b 0 L))))]; [instantiate (1 := 1); instantiate (1 := -1); lra| |]|].
      + intros s _. cbv beta. rewrite (mdot_split N dY (Y s) batch L) by (assumption || reflexivity || apply lay_below || apply LY). apply S_ext. intros b Hb'. now rewrite HY.
      + intros b Hb'. set (rows := rows_of b 0 L). assert (In0 : forall r, In r rows -> (r < N)%nat) by (intros r Hin; apply rows_of_bound in Hin; lia).
        destruct Sw as ((C1 & R1 & F1) & (C2 & R2 & F2) & L3).
        pose proof (bptt_right nO nI (fun _ => in_weights w) (fun _ => hid_weights w) (fun s => take (X s) rows) (fun _ => snd w) (fun _ => h0) (fun _ => c0) (zero_rows (4 * nO) nI) (zero_rows (4 * nO) nO) (take V rows) (zeros (4 * nO)) (zeros nO) (zeros nO) (take dY rows)) as B.
        assert (Lt : length (take dY rows) = length rows) by apply map_length. rewrite Lt in B.
        specialize (B (moves2_const _ _ _ R1 F1) (moves2_const _ _ _ R2 F2) (moves_const _ _ L3) (moves2_take _ _ _ _ rows MX In0) (moves_const _ _ LH) (moves_const _ _ LC)).
        assert (Fd : Forall (fun d => length d = nO) (take dY rows)).
        { apply Forall_forall. intros x Hx. apply in_map_iff in Hx as (r & <- & Hr). rewrite Forall_forall in Fy. apply Fy, nth_In. rewrite HLy. now apply In0. }
        specialize (B Fd). cbv zeta beta in B. rewrite lay_weights in B. rewrite !mdot_zero_rows, !dot_zeros in B.
        eapply der_eq; [exact B|]. clear B. pose proof (HG b Hb') as Hg. cbn [dir_grads] in Hg. fold rows in Hg.
        assert (T1 : take (map (times_t nI (in_weights w)) dG) rows = map (times_t nI (in_weights w)) (take dG rows)).
        { unfold take. rewrite map_map. apply map_ext_in. intros r Hr. apply nth_map_rows. rewrite LdG. now apply In0. }
        rewrite T1, Hg.
        assert (Er : exists rest, rows = b :: rest). { unfold rows. cbn [rows_of]. destruct (Nat.ltb_spec b batch); [|lia]. cbn [Nat.add app]. eexists. reflexivity. }
        destruct Er as (rest & Er). rewrite Er. cbn [take map kept_grads combine back_run snd]. cbv zeta. cbn [snd map]. rewrite !mdot_cons, HV by exact Hb'. rewrite !dot_zeros. unfold gate_grads, take. lra.
      + cbv beta. symmetry. apply (mdot_split N); [rewrite map_length; exact LdG|apply MX|reflexivity|apply lay_below].
  Qed.
  Lemma layer_grad : exists (st : R -> dir_state R) VY, (forall s, np_dir_fwd 0 nO (X s) w L batch h0 c0 = Ok (st s)) /\ moves2 N nO (fun s => d_Y (st s)) VY /\ (forall r, (r < batch)%nat -> nth r VY [] = zeros nO) /\
    forall dY dw, length dY = N -> Forall (fun x => length x = nO) dY -> triple_shape nO nI dw ->
      exists dX dw', np_dir_bwd 0 nO nI (X 0) (zero_rows N nI) dY w dw (st 0) L = Ok (dX, dw') /\ triple_shape nO nI dw' /\ length dX = N /\ Forall (fun x => length x = nI) dX /\ mdot dX V = mdot dY VY.
  Proof.
    set (st := fun s => match np_dir_fwd 0 nO (X s) w L batch h0 c0 with Ok r => r | Err _ => mkDir [] [] [] end).
    assert (Hst : forall s, np_dir_fwd 0 nO (X s) w L batch h0 c0 = Ok (st s) /\ length (d_Y (st s)) = N /\ (forall b, (b < batch)%nat -> take (d_Y (st s)) (rows_of b 0 L) = lstm_run nO w h0 c0 (take (X s) (rows_of b 0 L))) /\ Forall (fun y => length y = nO) (d_Y (st s))).
    { intros s. destruct (lay_fwd s) as (r & E & R1). unfold st. rewrite E. split; [reflexivity|exact R1]. }
    clearbody st. set (Y := fun s => d_Y (st s)). pose proof (fun dY dw => lay_der Y (st 0) dY dw (fun s => proj1 (proj2 (Hst s))) (fun s => proj1 (proj2 (proj2 (Hst s)))) (proj1 (Hst 0)) (proj1 (proj2 (Hst 0)))) as D.
    set (grad := fun dY => match np_dir_bwd 0 nO nI (X 0) (zero_rows N nI) dY w w (st 0) L with Ok r => mdot (fst r) V | Err _ => 0 end).
    assert (G : forall dY, length dY = N -> Forall (fun x => length x = nO) dY -> derivable_pt_lim (fun s => mdot dY (Y s)) 0 (grad dY)).
    { intros dY L1 F1. destruct (D dY w L1 F1 Sw) as (dX & dw' & E & _ & _ & _ & Hd). unfold grad. rewrite E. exact Hd. }
    set (VY := map (fun r => map (fun o => grad (unit_rows N nO r o)) (seq 0 nO)) (seq 0 N)).
    assert (MY : moves2 N nO Y VY).
    { split; [unfold VY; now rewrite map_length, seq_length|]. split; [intros s; apply Hst|]. intros r Hr. unfold VY. rewrite nth_map_seq by exact Hr.
      assert (Wy : forall s, length (nth r (Y s) []) = nO) by (intros s; destruct (Hst s) as (_ & Ly & _ & Fy); rewrite Forall_forall in Fy; apply Fy, nth_In; unfold Y; lia).
      split; [now rewrite map_length, seq_length|]. split; [exact Wy|]. intros o Ho. rewrite nth_map_seq by exact Ho. destruct (unit_rows_shape N nO r o) as [U1 U2].
      eapply der_local; [| |apply (G _ U1 U2)]; [instantiate (1 := 1); instantiate (1 := -1); lra|]. intros s _. cbv beta. rewrite mdot_unit; [reflexivity|exact Hr|exact Ho|apply Hst|apply Hst]. }
    exists st, VY. split; [intros s; apply Hst|]. split; [exact MY|]. split.
    - intros r Hr. assert (HrN : (r < N)%nat) by (unfold total; cbn [fold_right]; lia). destruct MY as (M1 & _ & M3). destruct (M3 r HrN) as (V1 & _ & V3).
      apply (nth_ext _ _ 0 0); [rewrite V1; symmetry; apply repeat_length|]. intros o Ho. rewrite V1 in Ho. replace (nth o (zeros nO) 0) with 0 by (unfold zeros; symmetry; apply nth_repeat).
      apply (uniqueness_limite (fun s => nth o (nth r (Y s) []) 0) 0 _ _ (V3 o Ho)).
      destruct Sw as ((C1 & R1 & F1) & (C2 & R2 & F2) & L3). destruct MX as (_ & _ & X3).
      assert (M1' : moves2 (length [unit_ nO o]) nI (fun s => [nth r (X s) []]) [nth r V []]).
      { split; [reflexivity|]. split; [reflexivity|]. intros i Hi. cbn [length] in Hi. assert (i = 0)%nat as -> by lia. cbn [nth]. apply (X3 r HrN). }
      pose proof (bptt_right nO nI (fun _ => in_weights w) (fun _ => hid_weights w) (fun s => [nth r (X s) []]) (fun _ => snd w) (fun _ => h0) (fun _ => c0) (zero_rows (4 * nO) nI) (zero_rows (4 * nO) nO) [nth r V []] (zeros (4 * nO)) (zeros nO) (zeros nO) [unit_ nO o]
        (moves2_const _ _ _ R1 F1) (moves2_const _ _ _ R2 F2) (moves_const _ _ L3) M1' (moves_const _ _ LH) (moves_const _ _ LC)) as B.
      assert (Fd : Forall (fun d => length d = nO) [unit_ nO o]) by (constructor; [apply unit_length|constructor]). specialize (B Fd). cbv zeta beta in B. rewrite lay_weights in B. rewrite !mdot_zero_rows, !dot_zeros in B. cbn [combine back_run snd map] in B. cbv zeta in B. cbn [snd map] in B. rewrite mdot_cons, HV, dot_zeros in B by exact Hr.
      eapply der_eq; [eapply der_local; [| |exact B]|]; [instantiate (1 := 1); instantiate (1 := -1); lra| |unfold mdot; cbn [combine map]; change (msum []) with 0; lra]. intros s _. cbv beta. cbn [lstm_run]. cbv zeta. rewrite mdot_cons. rewrite dot_unit; [|exact Ho|apply step_length].
      destruct (Hst s) as (_ & _ & Hr' & _). specialize (Hr' r Hr). assert (Er : exists rest, rows_of r 0 L = r :: rest). { cbn [rows_of]. destruct (Nat.ltb_spec r batch); [|lia]. cbn [Nat.add app]. eexists. reflexivity. }
      destruct Er as (rest & Er). rewrite Er in Hr'. cbn [take map lstm_run] in Hr'. cbv zeta in Hr'. injection Hr' as Hr' _. unfold Y. rewrite Hr'. unfold mdot. cbn [combine map]. change (msum []) with 0. rewrite Rplus_0_r. reflexivity.
    - intros dY dw L1 F1 Sd. destruct (D dY dw L1 F1 Sd) as (dX & dw' & E & S' & L' & F' & Hd). exists dX, dw'. repeat (split; [assumption|]). apply (uniqueness_limite (fun s => mdot dY (Y s)) 0 _ _ Hd). now apply mdot_const with (n := nO) (N := N).
  Qed.
End Layer.

(** ** Layers *)
Lemma np_layers_app dirs nO lengths (l2 : list (mat R * list (triple R) * list (triple R) * list (dir_state R))) : forall l1 dY,
  np_layers_bwd dirs nO lengths dY (l1 ++ l2) = bind (np_layers_bwd dirs nO lengths dY l1) (fun r => bind (np_layers_bwd dirs nO lengths (fst r) l2) (fun q => Ok (fst q, snd r ++ snd q))).
Proof.
  induction l1 as [|[[[X ws] dws] ss] l1 IH]; intros dY; cbn [app np_layers_bwd bind fst snd].
  - now destruct (np_layers_bwd dirs nO lengths dY l2) as [[? ?]|].
  - destruct (negb _); [reflexivity|]. destruct (np_dirs_bwd _ _ _ _ _ _ _ _ _ _) as [[r g]|er]; [|reflexivity]. cbn [bind fst snd]. rewrite IH. destruct (np_layers_bwd dirs nO lengths (mkM (m_cols X) r) l1) as [[a b]|er]; [|reflexivity]. cbn [bind fst snd].
    now destruct (np_layers_bwd dirs nO lengths a l2) as [[? ?]|].
Qed.
Lemma inputs_cons dirs nO (X : mat R) s t ss : layer_inputs_of dirs nO X (s :: t :: ss) = bind (join_dirs (length (m_rows X)) (map d_Y s)) (fun H => bind (layer_inputs_of dirs nO (mkM (dirs * nO) H) (t :: ss)) (fun l => Ok (X :: l))).
Proof. reflexivity. Qed.
Section Stack.
  Variables (nO batch : nat) (lengths : list nat) (params : list R) (h c : list (list (list R))).
  Notation L := (batch :: lengths).
  Notation N := (total (batch :: lengths)).
  Hypotheses (Hb : batch <> 0%nat) (Hf : falling L).
  Lemma stack_grad : forall depth i nI (X : R -> list (list R)) V params_i ps e ws, moves2 N nI X V -> (forall r, (r < batch)%nat -> nth r V [] = zeros nI) ->
    (forall k, (k < depth)%nat -> length (init_row h (i + k) 0) = nO /\ length (init_row c (i + k) 0) = nO) ->
    split_layers params depth 1 nO nI params_i = Ok (ps, e) -> mapM (mapM transpose_weights) ps = Ok ws -> layers_shape triple_shape depth 1 nO nI ws ->
    exists (ss : R -> list (list (dir_state R))) (H : R -> list (list R)) VH, let nH := match depth with 0%nat => nI | S _ => nO end in
      (forall s, np_layers_fwd params i depth 1 nO nI (X s) L batch h c params_i = Ok (ss s, H s)) /\ length (ss 0) = depth /\ moves2 N nH H VH /\
      forall dY dws, length dY = N -> Forall (fun x => length x = nH) dY -> layers_shape triple_shape depth 1 nO nI dws ->
        exists Xs dX gs, layer_inputs_of 1 nO (mkM nI (X 0)) (ss 0) = Ok Xs /\ np_layers_bwd 1 nO L (mkM nH dY) (rev (combine4 Xs ws dws (ss 0))) = Ok (mkM nI dX, gs) /\ layers_shape triple_shape depth 1 nO nI (rev gs) /\ (length dX = N /\ Forall (fun x => length x = nI) dX) /\ mdot dX V = mdot dY VH.
  Proof.
    assert (HN : N <> 0%nat) by (unfold total; cbn [fold_right]; lia).
    induction depth as [|depth IH]; intros i nI X V params_i ps e ws MX HV Hi Es Em Sh; cbn [split_layers np_layers_fwd] in *.
    - injection Es as <- <-. injection Em as <-. exists (fun _ => []), X, V. cbv zeta. split; [reflexivity|]. split; [reflexivity|]. split; [exact MX|]. intros dY dws L1 F1 S1. exists [], dY, []. repeat (split; [reflexivity || exact I|]). split; [split; assumption|reflexivity].
    - destruct (split_dirs params 1 nO nI params_i) as [[p pi]|er] eqn:E1; [|discriminate Es]. cbn [bind fst snd] in *. destruct (split_layers params depth 1 nO (nO * 1) pi) as [[ps' e']|er] eqn:E2; [|discriminate Es]. cbn [bind fst snd] in Es. injection Es as <- <-.
      cbn [mapM] in Em. destruct (mapM transpose_weights p) as [w1|er] eqn:E3; [|discriminate Em]. cbn [bind] in *. destruct (mapM (mapM transpose_weights) ps') as [ws'|er] eqn:E4; [|discriminate Em]. cbn [bind] in Em. injection Em as <-.
      destruct Sh as (Lw & Fw & Sh). destruct w1 as [|w [|? ?]]; try discriminate Lw. apply Forall_cons_iff in Fw as [Sw _]. rewrite Nat.mul_1_r in *.
      cbn [split_dirs] in E1. destruct (split_weights params nO nI params_i) as [[q qi]|er] eqn:Eq; [|discriminate E1]. cbn [bind fst snd] in E1. injection E1 as <- <-. cbn [mapM] in E3. destruct (transpose_weights q) as [w'|er] eqn:Et; [|discriminate E3]. cbn [bind] in E3. injection E3 as ->.
      destruct (Hi 0%nat ltac:(lia)) as [LH LC]. rewrite Nat.add_0_r in LH, LC.
      destruct (layer_grad nO nI w (init_row h i 0) (init_row c i 0) batch lengths X V Sw Hb Hf MX HV LH LC) as (st & VY & Ef & MY & HVY & Bk).
      destruct (IH (S i) nO (fun s => d_Y (st s)) VY qi ps' e' ws' MY HVY) as (ss & H & VH & IHf & IHl & IHm & IHb); [intros k Hk; replace (S i + k)%nat with (i + S k)%nat by lia; apply Hi; lia|exact E2|exact E4|exact Sh|].
      cbv zeta in IHf, IHm, IHb. exists (fun s => [st s] :: ss s), H, VH. cbv zeta. split; [|split; [cbn [length]; lia|split]].
      + intros s. cbn [np_dirs_fwd]. rewrite Eq. cbn [bind fst snd]. rewrite Et. cbn [bind]. rewrite Ef. cbn [bind fst snd map]. unfold join_dirs. assert (LX : length (X s) = N) by apply MX. destruct (Nat.eqb_spec (length (X s)) 0); [lia|]. cbn [bind fst snd].
        assert (LY : length (d_Y (st s)) = N) by apply MY. rewrite LX, <- LY, join_one. replace (1 * nO)%nat with nO by lia. rewrite IHf. reflexivity.
      + destruct depth; exact IHm.
      + intros dY dws L1 F1 Sd. destruct dws as [|dw1 dws]; [contradiction|]. destruct Sd as (Ld & Fd & Sd). destruct dw1 as [|dw [|? ?]]; try discriminate Ld. apply Forall_cons_iff in Fd as [Sdw _]. rewrite Nat.mul_1_r in Sd.
        assert (Fn : Forall (fun x => length x = match depth with 0%nat => nO | S _ => nO end) dY) by (destruct depth; exact F1).
        destruct (IHb dY dws L1 Fn Sd) as (Xs & dX & gs & B1 & B2 & B3 & (LdX & FdX) & B4).
        destruct (Bk dX dw LdX FdX Sdw) as (dX' & dw' & K1 & K2 & K3 & K4 & K5). assert (LX : length (X 0) = N) by apply MX. assert (LY : length (d_Y (st 0)) = N) by apply MY.
        exists (mkM nI (X 0) :: Xs), dX', (gs ++ [[dw']]). split; [|split; [|split; [|split; [now split|now rewrite K5]]]].
        * destruct (ss 0) as [|s0 ss0] eqn:Es0; [cbn [layer_inputs_of] in B1 |- *; now injection B1 as <-|]. rewrite inputs_cons. cbn [m_rows map]. unfold join_dirs. destruct (Nat.eqb_spec (length (X 0)) 0); [lia|]. cbn [bind].
          rewrite LX, <- LY, join_one. replace (1 * nO)%nat with nO by lia. rewrite B1. reflexivity.
        * unfold combine4. cbn [combine rev]. rewrite np_layers_app. unfold combine4 in B2. replace (match depth with 0%nat => nO | S _ => nO end) with nO in B2 by (destruct depth; reflexivity).
          match goal with |- bind ?j ?k = ?r => transitivity (bind (Ok (mkM nO dX, gs)) k); [apply (f_equal (fun z => bind z k)); exact B2|] end. cbn [bind fst snd np_layers_bwd m_rows m_cols]. rewrite LX, LdX. replace (1 * nO)%nat with nO by lia. rewrite Nat.eqb_refl. cbn [negb].
          unfold split_width. cbn [seq map np_dirs_bwd Nat.mul].
          assert (Ey : map (fun r => slice 0 nO r) dX = dX). { transitivity (map (fun r : list R => r) dX); [|apply map_id]. apply map_ext_in. intros r Hr. apply slice_all. rewrite Forall_forall in FdX. now apply FdX. }
          rewrite Ey, K1. reflexivity.
        * rewrite rev_app_distr. cbn [rev app]. split; [reflexivity|]. split; [constructor; [exact K2|constructor]|]. rewrite Nat.mul_1_r. exact B3.
  Qed.
End Stack.
(** The gradient of the input is right for every direction that leaves the first inputs alone. *)
Lemma deep_input depth nO nI (params : list R) H0 C0 (X : R -> mat R) (V : list (list R)) dY batch lengths : depth <> 0%nat -> nO <> 0%nat -> nI <> 0%nat -> length params = lstm_size depth 1 nO nI -> (forall s, m_cols (X s) = nI) -> batch <> 0%nat -> falling (batch :: lengths) ->
  let N := total (batch :: lengths) in moves2 N nI (fun s => m_rows (X s)) V -> (forall r, (r < batch)%nat -> nth r V [] = zeros nI) ->
  (forall i, (i < depth)%nat -> length (init_row H0 i 0) = nO /\ length (init_row C0 i 0) = nO) -> m_cols dY = nO -> wf_mat dY -> length (m_rows dY) = N ->
  exists (Y : R -> list (list R)) (states : R -> list (list (dir_state R))) dX d_params, (forall s, np_lstm depth 1 nO params H0 C0 (X s) (batch :: lengths) = Ok (mkM nO (Y s), states s)) /\
    np_backprop_lstm depth 1 nO dY (batch :: lengths) params (states 0) (X 0) = Ok (mkM nI dX, d_params) /\ length d_params = length params /\
    derivable_pt_lim (fun s => mdot (m_rows dY) (Y s)) 0 (mdot dX V).
Proof.
  intros Hd HO HI Lp Hc Hb Hf N MX HV Hi Hcy Hwy HLy. destruct (join_back depth 1 nO nI params HO HI ltac:(lia) Lp) as (ps & ws & v0 & E1 & E2 & Sh & _).
  pose proof E2 as E3. unfold all_layer_params in E3. rewrite E1 in E3. cbn [bind fst] in E3.
  destruct (stack_grad nO batch lengths params C0 H0 Hb Hf depth 0 nI (fun s => m_rows (X s)) V 0 ps (length params) ws MX HV) as (ss & H & VH & Sf & Sl & Sm & Sb); [intros k Hk; cbn [Nat.add]; split; now apply Hi|exact E1|exact E3|exact Sh|]. cbv zeta in Sm, Sb.
  destruct depth as [|depth]; [contradiction|]. assert (Fy : Forall (fun x => length x = nO) (m_rows dY)) by (unfold wf_mat in Hwy; rewrite Hcy in Hwy; exact Hwy).
  destruct (Sb (m_rows dY) ws HLy Fy Sh) as (Xs & dX & gs & B1 & B2 & B3 & _ & B4). destruct (join_ok (S depth) 1 nO nI (rev gs) HO HI ltac:(lia) B3) as (v & V1 & V2 & _).
  assert (Eta : forall m : mat R, mkM (m_cols m) (m_rows m) = m) by (intros [? ?]; reflexivity).
  exists H, ss, dX, v. split; [|split; [|split; [lia|]]].
  - intros s. unfold np_lstm, np_lstm_forward. rewrite Hc, Sf. cbn [bind fst snd]. now replace (1 * nO)%nat with nO by lia.
  - unfold np_backprop_lstm. rewrite Hc, E2. cbn [bind]. rewrite <- (Hc 0), Eta in B1. rewrite B1. cbn [bind]. assert (EY : mkM nO (m_rows dY) = dY) by (rewrite <- Hcy; apply Eta). rewrite EY in B2. rewrite B2. cbn [bind fst snd]. rewrite V1. reflexivity.
  - rewrite B4. now apply mdot_const with (n := nO) (N := N).
Qed.
