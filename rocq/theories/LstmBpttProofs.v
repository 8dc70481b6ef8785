(** Back-propagation through time. *)
From Coq Require Import Reals Lra Lia.
From Verif Require Import NumR MatSpec MatProofs BaseFacts CombProofs CombBuiltProofs MkProofs LstmProofs ActProofs SoftProofs.
From Verif Require Import LstmModel LstmSpec LstmKernelModel LstmKernelSpec LstmFwdProofs LstmBwdProofs LstmBpttSpec.
Set Default Goal Selector "!".
Local Open Scope R_scope.

(** ** Curves *)
Lemma dot_len n (a b : list R) : length a = n -> length b = n -> dot a b = S_ n (fun i => nth i a 0 * nth i b 0).
Proof. intros La Lb. rewrite (vec_of_len 0 n a La) at 1. rewrite (vec_of_len 0 n b Lb) at 1. apply LstmBwdProofs.dot_vec. Qed.
Lemma dot_curve n u du v dv : moves n u du -> moves n v dv -> derivable_pt_lim (fun s => dot (u s) (v s)) 0 (dot du (v 0) + dot (u 0) dv).
Proof.
  intros (L1 & L2 & D1) (L3 & L4 & D2). apply (der_local _ (fun s => S_ n (fun i => nth i (u s) 0 * nth i (v s) 0)) 0 (-1) 1); [lra|intros s _; now apply dot_len|].
  eapply der_eq; [apply (der_S n (fun i s => nth i (u s) 0 * nth i (v s) 0) (fun i => nth i du 0 * nth i (v 0) 0 + nth i (u 0) 0 * nth i dv 0))|].
  - intros i Hi. apply (derivable_pt_lim_mult (fun s => nth i (u s) 0) (fun s => nth i (v s) 0)); [now apply D1|now apply D2].
  - rewrite S_plus. rewrite !(dot_len n) by auto. reflexivity.
Qed.
Lemma moves_const n v : length v = n -> moves n (fun _ => v) (zeros n).
Proof.
  intros L. split; [apply repeat_length|]. split; [intros; exact L|]. intros i Hi. eapply der_eq; [apply derivable_pt_lim_const|]. symmetry. apply nth_repeat.
Qed.
Lemma dot_zeros n a : dot a (zeros n) = 0.
Proof.
  rewrite dot_comm. unfold dot. revert n. induction a as [|x a IH]; intros [|n]; try reflexivity. cbn [zeros repeat combine map fst snd]. rewrite msum_cons. unfold zeros in IH. rewrite IH. cbn [nZ num_R]. lra.
Qed.
Lemma dot_zeros_l n a : dot (zeros n) a = 0.
Proof. rewrite dot_comm. apply dot_zeros. Qed.
Lemma dot_const n v u du : length v = n -> moves n u du -> derivable_pt_lim (fun s => dot v (u s)) 0 (dot v du).
Proof. intros L M. eapply der_eq; [apply (dot_curve n (fun _ => v) (zeros n) u du); [now apply moves_const|exact M]|]. cbv beta. rewrite dot_zeros_l. lra. Qed.
(** A curve of lists moves if all its inner products do *)
Definition unit_ (n i : nat) : list R := vec n (fun j => if Nat.eqb j i then 1 else 0).
Lemma unit_length n i : length (unit_ n i) = n. Proof. apply vec_length. Qed.
Lemma S_unit n i f : (i < n)%nat -> S_ n (fun j => (if Nat.eqb j i then 1 else 0) * f j) = f i.
Proof.
  revert i f. induction n as [|n IH]; intros i f Hi; [lia|]. rewrite S_S. destruct i as [|i]; cbn [Nat.eqb].
  - rewrite (S_ext n _ (fun _ => 0)) by (intros; ring). rewrite S_zero. ring.
  - rewrite (IH i (fun j => f (S j))) by lia. ring.
Qed.
Lemma dot_unit n i v : (i < n)%nat -> length v = n -> dot (unit_ n i) v = nth i v 0.
Proof.
  intros Hi L. rewrite (dot_len n) by (exact L || apply unit_length). rewrite <- (S_unit n i (fun j => nth j v 0) Hi). apply S_ext. intros j Hj. unfold unit_. now rewrite nth_vec by exact Hj.
Qed.

Lemma flat4_length {A} (f0 f1 f2 f3 : nat -> A) n : forall k, length (flat_map (fun o => [f0 o; f1 o; f2 o; f3 o]) (seq k n)) = (4 * n)%nat.
Proof. induction n as [|n IH]; intros k; [reflexivity|]. cbn [seq flat_map]. rewrite app_length, IH. cbn [length]. lia. Qed.

(** ** One step *)
Section Step.
  Variables (nO nI : nat) (Wx Wh : R -> list (list R)) (bs : R -> list R) (dWx dWh : list (list R)) (db : list R).
  Hypothesis (MWx : moves2 (4 * nO) nI Wx dWx) (MWh : moves2 (4 * nO) nO Wh dWh) (Mb : moves (4 * nO) bs db).
  Definition wt (s : R) : triple R := (mkM nI (Wx s), mkM nO (Wh s), bs s).
  Lemma wt_rows s : length (Wx s) = (4 * nO)%nat /\ length (Wh s) = (4 * nO)%nat /\ length (bs s) = (4 * nO)%nat.
  Proof. split; [apply MWx|]. split; [apply MWh|apply Mb]. Qed.
  Lemma wt_shape s : triple_shape nO nI (wt s).
  Proof.
    destruct MWx as (_ & L1 & M1), MWh as (_ & L2 & M2), Mb as (_ & L3 & _). split; [|split; [|apply L3]].
    - split; [reflexivity|]. split; [apply L1|]. apply Forall_nth. intros i d Hi. cbn [wt fst snd m_rows m_cols] in *. rewrite (nth_indep _ d []) by exact Hi. rewrite L1 in Hi. apply (M1 i Hi).
    - split; [reflexivity|]. split; [apply L2|]. apply Forall_nth. intros i d Hi. cbn [wt fst snd m_rows m_cols] in *. rewrite (nth_indep _ d []) by exact Hi. rewrite L2 in Hi. apply (M2 i Hi).
  Qed.
  (** The velocity of the pre-activations *)
  Definition dpre (x dx y dy : list R) : list R := vec (4 * nO) (fun k => dot dx (nth k (Wx 0) []) + dot x (nth k dWx []) + (dot dy (nth k (Wh 0) []) + dot y (nth k dWh [])) + nth k db 0).
  Lemma preact_moves x dx y dy k : moves nI x dx -> moves nO y dy -> (k < 4 * nO)%nat -> derivable_pt_lim (fun s => preact (wt s) (x s) (y s) k) 0 (nth k (dpre (x 0) dx (y 0) dy) 0).
  Proof.
    intros Mx My Hk. unfold dpre. rewrite nth_vec by exact Hk. unfold preact, wt. cbn [fst snd m_rows].
    apply (derivable_pt_lim_plus (fun s => dot (x s) (nth k (Wx s) []) + dot (y s) (nth k (Wh s) [])) (fun s => nth k (bs s) 0)); [|now apply Mb].
    apply (derivable_pt_lim_plus (fun s => dot (x s) (nth k (Wx s) [])) (fun s => dot (y s) (nth k (Wh s) []))).
    - apply (dot_curve nI x dx (fun s => nth k (Wx s) [])); [exact Mx|]. now apply MWx.
    - apply (dot_curve nO y dy (fun s => nth k (Wh s) [])); [exact My|]. now apply MWh.
  Qed.
  Lemma step_is w x y c : triple_shape nO nI w -> length c = nO -> lstm_step nO w x y c = lstm_gates_fwd nO (gates_of nO w x y) c.
  Proof.
    intros Hw Lc. unfold lstm_gates_fwd, lstm_step. assert (G : forall o, (o < nO)%nat -> gate (gates_of nO w x y) o 0 = logistic (preact w x y (4 * o)) /\ gate (gates_of nO w x y) o 1 = logistic (preact w x y (4 * o + 1)) /\
      gate (gates_of nO w x y) o 2 = logistic (preact w x y (4 * o + 2)) /\ gate (gates_of nO w x y) o 3 = tanh (preact w x y (4 * o + 3))).
    { intros o Ho. unfold gates_of, lstm_activate_fwd. set (l := map _ (seq 0 (4 * nO))). assert (P : forall k, (k < 4)%nat -> gate l o k = preact w x y (4 * o + k)%nat) by (intros k Hk; unfold gate, l; now rewrite (nth_map_seq (preact w x y)) by lia).
      destruct (gate_flat (fun o => logistic_c (gate l o 0)) (fun o => logistic_c (gate l o 1)) (fun o => logistic_c (gate l o 2)) (fun o => ntanh (gate l o 3)) nO o Ho) as (G0 & G1 & G2 & G3).
      rewrite G0, G1, G2, G3, !logistic_c_R, !P by lia. rewrite Nat.add_0_r. repeat split. }
    assert (C : forall o, (o < nO)%nat -> next_cell w x y c o = gate (gates_of nO w x y) o 0 * nth o c 0 + gate (gates_of nO w x y) o 1 * gate (gates_of nO w x y) o 3).
    { intros o Ho. destruct (G o Ho) as (G0 & G1 & G2 & G3). rewrite G0, G1, G3. reflexivity. }
    f_equal.
    - apply map_ext_in. intros o Ho. apply in_seq in Ho. rewrite nth_map_seq by lia. cbn [nadd nmul nZ num_R ntanh trans_R]. rewrite <- C by lia. destruct (G o) as (_ & _ & G2 & _); [lia|]. now rewrite G2.
    - apply map_ext_in. intros o Ho. apply in_seq in Ho. cbn [nadd nmul nZ num_R]. rewrite C by lia. reflexivity.
  Qed.
  Lemma gates_length n (dy dc g c3 c2 : list R) : length (fst (lstm_gates_bwd n dy dc g c3 c2)) = (4 * n)%nat /\ length (snd (lstm_gates_bwd n dy dc g c3 c2)) = n.
  Proof.
    unfold lstm_gates_bwd. cbn [fst snd]. split; [apply flat4_length|now rewrite map_length, seq_length].
  Qed.
  Lemma step_length w x y c : length (fst (lstm_step nO w x y c)) = nO /\ length (snd (lstm_step nO w x y c)) = nO.
  Proof. unfold lstm_step. cbn [fst snd]. now rewrite !map_length, seq_length. Qed.
  Lemma step_moves x dx y dy c dc : moves nI x dx -> moves nO y dy -> moves nO c dc -> exists dh dc', moves nO (fun s => fst (lstm_step nO (wt s) (x s) (y s) (c s))) dh /\ moves nO (fun s => snd (lstm_step nO (wt s) (x s) (y s) (c s))) dc' /\
    forall e1 e2, length e1 = nO -> length e2 = nO ->
      let b := lstm_gates_bwd nO e1 e2 (gates_of nO (wt 0) (x 0) (y 0)) (snd (lstm_step nO (wt 0) (x 0) (y 0) (c 0))) (c 0) in dot e1 dh + dot e2 dc' = dot (fst b) (dpre (x 0) dx (y 0) dy) + dot (snd b) dc.
  Proof.
    intros Mx My Mc. set (r := fun s => lstm_step nO (wt s) (x s) (y s) (c s)). set (b := fun e1 e2 => lstm_gates_bwd nO e1 e2 (gates_of nO (wt 0) (x 0) (y 0)) (snd (r 0)) (c 0)).
    change (exists dh dc', moves nO (fun s => fst (r s)) dh /\ moves nO (fun s => snd (r s)) dc' /\ forall e1 e2, length e1 = nO -> length e2 = nO -> dot e1 dh + dot e2 dc' = dot (fst (b e1 e2)) (dpre (x 0) dx (y 0) dy) + dot (snd (b e1 e2)) dc).
    assert (Lc : forall s, length (c s) = nO) by apply Mc. assert (Er : forall s, r s = lstm_gates_fwd nO (gates_of nO (wt s) (x s) (y s)) (c s)) by (intros s; exact (step_is (wt s) (x s) (y s) (c s) (wt_shape s) (Lc s))).
    assert (Lr : forall s, length (fst (r s)) = nO /\ length (snd (r s)) = nO) by (intros s; exact (step_length (wt s) (x s) (y s) (c s))). clearbody r.
    assert (V : forall e1 e2, length e1 = nO -> length e2 = nO -> derivable_pt_lim (fun s => dot e1 (fst (r s)) + dot e2 (snd (r s))) 0 (dot (fst (b e1 e2)) (dpre (x 0) dx (y 0) dy) + dot (snd (b e1 e2)) dc)).
    { intros e1 e2 L1 L2. pose proof (gates_right nO (fun k s => preact (wt s) (x s) (y s) k) (fun o s => nth o (c s) 0) (fun k => nth k (dpre (x 0) dx (y 0) dy) 0) (fun o => nth o dc 0) e1 e2 L1 L2) as G.
      specialize (G ltac:(intros; now apply preact_moves) ltac:(intros; now apply Mc)). cbv beta zeta in G.
      assert (Ec : forall s, map (fun o => nth o (c s) 0) (seq 0 nO) = c s) by (intros s; symmetry; apply (vec_of_len 0); apply Mc).
      assert (E1 : map (fun k => nth k (dpre (x 0) dx (y 0) dy) 0) (seq 0 (4 * nO)) = dpre (x 0) dx (y 0) dy) by (symmetry; apply (vec_of_len 0); apply vec_length).
      assert (E2 : map (fun o => nth o dc 0) (seq 0 nO) = dc) by (symmetry; apply (vec_of_len 0); apply Mc).
      rewrite E1, E2 in G. eapply der_eq; [eapply der_local; [| |exact G]; [instantiate (1 := 1); instantiate (1 := -1); lra|]|].
      - intros s _. cbv beta. rewrite Ec, Er. reflexivity.
      - unfold b. rewrite Er. unfold gates_of. now rewrite !Ec. }
    set (dh := vec nO (fun i => dot (fst (b (unit_ nO i) (zeros nO))) (dpre (x 0) dx (y 0) dy) + dot (snd (b (unit_ nO i) (zeros nO))) dc)).
    set (dc' := vec nO (fun i => dot (fst (b (zeros nO) (unit_ nO i))) (dpre (x 0) dx (y 0) dy) + dot (snd (b (zeros nO) (unit_ nO i))) dc)).
    assert (Lz : length (zeros nO : list R) = nO) by apply repeat_length.
    assert (M1 : moves nO (fun s => fst (r s)) dh).
    { split; [apply vec_length|]. split; [intros s; exact (proj1 (Lr s))|]. intros i Hi. unfold dh. rewrite nth_vec by exact Hi.
      eapply der_local; [| |apply V; [apply unit_length|exact Lz]]; [instantiate (1 := 1); instantiate (1 := -1); lra|]. intros s _. cbv beta. rewrite dot_zeros_l, (dot_unit nO i _ Hi (proj1 (Lr s))). ring. }
    assert (M2 : moves nO (fun s => snd (r s)) dc').
    { split; [apply vec_length|]. split; [intros s; exact (proj2 (Lr s))|]. intros i Hi. unfold dc'. rewrite nth_vec by exact Hi.
      eapply der_local; [| |apply V; [exact Lz|apply unit_length]]; [instantiate (1 := 1); instantiate (1 := -1); lra|]. intros s _. cbv beta. rewrite dot_zeros_l, (dot_unit nO i _ Hi (proj2 (Lr s))). ring. }
    exists dh, dc'. split; [exact M1|]. split; [exact M2|]. intros e1 e2 L1 L2.
    apply (uniqueness_limite (fun s => dot e1 (fst (r s)) + dot e2 (snd (r s))) 0); [|now apply V].
    apply (derivable_pt_lim_plus (fun s => dot e1 (fst (r s))) (fun s => dot e2 (snd (r s)))); [now apply (dot_const nO)|now apply (dot_const nO)].
  Qed.
  (** The effect of the velocity of the pre-activations *)
  Lemma times_t_dot n (W : list (list R)) g v : length g = length W -> length v = n -> Forall (fun r => length r = n) W -> dot (times_t n W g) v = dot g (times W v).
  Proof.
    intros Lg Lv F. rewrite (dot_len n) by (exact Lv || (unfold times_t; now rewrite map_length, seq_length)). rewrite (dot_len (length W)) by (exact Lg || apply times_length).
    assert (E : forall j, (j < n)%nat -> nth j (times_t n W g) 0 = S_ (length W) (fun k => nth k g 0 * nth j (nth k W []) 0)).
    { intros j Hj. unfold times_t. rewrite nth_map_seq by exact Hj. rewrite nsum_msum. change (msum (vmap2 nmul g (col (nZ 0) j W))) with (dot g (col 0 j W)). rewrite (dot_len (length W)) by (exact Lg || (unfold col; apply map_length)). apply S_ext. intros k Hk. f_equal.
      unfold col. rewrite (nth_indep _ 0 (nth j [] 0)) by (now rewrite map_length). apply (map_nth (fun r => nth j r 0)). }
    rewrite (S_ext n _ (fun j => S_ (length W) (fun k => nth k g 0 * (nth j (nth k W []) 0 * nth j v 0)))).
    - rewrite S_swap. apply S_ext. intros k Hk. rewrite S_scale. f_equal. rewrite nth_times by exact Hk. rewrite dot_comm. rewrite (dot_len n); [reflexivity| |exact Lv]. rewrite Forall_forall in F. apply F. now apply nth_In.
    - intros j Hj. rewrite E by exact Hj. rewrite <- S_scale_r. apply S_ext. intros k _. ring.
  Qed.
  Definition effect (g x dx h : list R) : R := dot (times_t nI (Wx 0) g) dx + dot g (times dWx x) + dot g (times dWh h) + dot g db.
  Lemma pre_effect g x dx y dy : length g = (4 * nO)%nat -> length x = nI -> length dx = nI -> length y = nO -> length dy = nO ->
    dot g (dpre x dx y dy) = dot (times_t nO (Wh 0) g) dy + effect g x dx y.
  Proof.
    intros Lg Lx Ldx Ly Ldy. destruct (wt_rows 0) as (L1 & L2 & L3). destruct (wt_shape 0) as ((_ & _ & F1) & (_ & _ & F2) & _). cbn [wt fst snd m_rows m_cols] in F1, F2.
    unfold effect. rewrite !times_t_dot by (assumption || lia). rewrite !(dot_len (4 * nO)); try assumption; try (rewrite times_length; assumption); try apply vec_length; try (rewrite times_length; apply MWx); try (rewrite times_length; apply MWh); try apply Mb.
    rewrite <- !S_plus. apply S_ext. intros k Hk. unfold dpre. rewrite nth_vec by exact Hk. assert (L4 : length dWx = (4 * nO)%nat) by apply MWx. assert (L5 : length dWh = (4 * nO)%nat) by apply MWh. rewrite !nth_times by lia. ring.
  Qed.
  (** ** All steps *)
  Fixpoint effects (gs xs dxs hs : list (list R)) : R :=
    match gs, xs, dxs, hs with g :: gs, x :: xs, dx :: dxs, h :: hs => effect g x dx h + effects gs xs dxs hs | _, _, _, _ => 0 end.
  Lemma times_t_length n (W : list (list R)) g : length (times_t n W g) = n.
  Proof. unfold times_t. now rewrite map_length, seq_length. Qed.
  Lemma back_length w : forall steps y c ey ec, length ey = nO -> length ec = nO -> let e := back_run nO w y c steps ey ec in
    length (fst (fst e)) = nO /\ length (snd (fst e)) = nO /\ length (snd e) = length steps /\ Forall (fun g => length g = (4 * nO)%nat) (snd e).
  Proof.
    induction steps as [|[x dy] steps IH]; intros y c ey ec L1 L2; cbn [back_run fst snd length]; [repeat split; try assumption; constructor|].
    destruct (IH (fst (lstm_step nO w x y c)) (snd (lstm_step nO w x y c)) ey ec L1 L2) as (I1 & I2 & I3 & I4). cbv zeta. split; [apply times_t_length|]. split; [apply gates_length|]. split; [cbn [snd length]; f_equal; exact I3|]. constructor; [apply gates_length|exact I4].
  Qed.
  Lemma before_cons y h hs : before y (h :: hs) = y :: before h hs. Proof. reflexivity. Qed.
  Lemma mdot_cons a A b B : mdot (a :: A) (b :: B) = dot a b + mdot A B. Proof. reflexivity. Qed.
  Lemma bptt : forall dys xs dxs y dy0 c dc0, moves2 (length dys) nI xs dxs -> moves nO y dy0 -> moves nO c dc0 -> Forall (fun d => length d = nO) dys ->
    let e := back_run nO (wt 0) (y 0) (c 0) (combine (xs 0) dys) (zeros nO) (zeros nO) in
    derivable_pt_lim (fun s => mdot dys (lstm_run nO (wt s) (y s) (c s) (xs s))) 0
      (dot (fst (fst e)) dy0 + dot (snd (fst e)) dc0 + effects (snd e) (xs 0) dxs (before (y 0) (lstm_run nO (wt 0) (y 0) (c 0) (xs 0)))).
  Proof.
    induction dys as [|d dys IH]; intros xs dxs y dy0 c dc0 Mx My Mc F; cbv zeta.
    - destruct Mx as (_ & L & _). cbn [length] in L. assert (E : forall s, xs s = []) by (intros s; apply length_zero_iff_nil, L). rewrite E. cbn [combine back_run fst snd effects].
      rewrite !dot_zeros_l. eapply der_eq; [eapply der_local; [| |apply (derivable_pt_lim_const 0)]; [instantiate (1 := 1); instantiate (1 := -1); lra|]|lra]. intros s _. reflexivity.
    - apply Forall_cons_iff in F as [F1 F2]. destruct Mx as (Ld & Lx & Mx). cbn [length] in *. destruct dxs as [|dx dxs]; [discriminate Ld|].
      set (x := fun s => nth 0 (xs s) []). set (xt := fun s => tl (xs s)). assert (Ex : forall s, xs s = x s :: xt s) by (intros s; unfold x, xt; specialize (Lx s); now destruct (xs s)).
      assert (Mx0 : moves nI x dx) by (apply (Mx 0%nat); lia).
      assert (Mxt : moves2 (length dys) nI xt dxs).
      { split; [cbn in Ld; lia|]. split; [intros s; specialize (Lx s); rewrite Ex in Lx; cbn in Lx; lia|]. intros i Hi. destruct (Mx (S i)) as (A1 & A2 & A3); [lia|]. cbn [nth] in *.
        assert (En : forall s, nth (S i) (xs s) [] = nth i (xt s) []) by (intros s; now rewrite Ex). split; [exact A1|]. split; [intros s; rewrite <- En; apply A2|]. intros j Hj. eapply der_local; [| |apply (A3 j Hj)]; [instantiate (1 := 1); instantiate (1 := -1); lra|]. intros s _. cbv beta. now rewrite En. }
      destruct (step_moves x dx y dy0 c dc0 Mx0 My Mc) as (dh & dc' & M1 & M2 & V).
      specialize (IH xt dxs _ dh _ dc' Mxt M1 M2 F2). cbv zeta beta in IH. rewrite (Ex 0). cbn [combine back_run lstm_run fst snd effects]. rewrite before_cons. cbn [effects].
      set (r := lstm_step nO (wt 0) (x 0) (y 0) (c 0)) in *. set (e := back_run nO (wt 0) (fst r) (snd r) (combine (xt 0) dys) (zeros nO) (zeros nO)) in *.
      assert (Lz : length (zeros nO : list R) = nO) by apply repeat_length. destruct (back_length (wt 0) (combine (xt 0) dys) (fst r) (snd r) (zeros nO) (zeros nO) Lz Lz) as (I1 & I2 & _ & _). cbv zeta in I1, I2. fold e in I1, I2.
      set (b := lstm_gates_bwd nO (row_add d (fst (fst e))) (snd (fst e)) (gates_of nO (wt 0) (x 0) (y 0)) (snd r) (c 0)).
      eapply der_eq; [eapply der_local; [| |apply (derivable_pt_lim_plus (fun s => dot d (fst (lstm_step nO (wt s) (x s) (y s) (c s)))) (fun s => mdot dys (lstm_run nO (wt s) (fst (lstm_step nO (wt s) (x s) (y s) (c s))) (snd (lstm_step nO (wt s) (x s) (y s) (c s))) (xt s))));
        [apply (dot_const nO); [exact F1|exact M1]|exact IH]]; [instantiate (1 := 1); instantiate (1 := -1); lra|]|].
      + intros s _. cbv beta. rewrite (Ex s). cbn [lstm_run]. cbv zeta. rewrite mdot_cons. reflexivity.
      + specialize (V (row_add d (fst (fst e))) (snd (fst e))). rewrite row_add_length, F1, I1, Nat.min_id in V. specialize (V eq_refl I2). cbv zeta in V. fold b in V.
        assert (Dd : dot (row_add d (fst (fst e))) dh = dot d dh + dot (fst (fst e)) dh).
        { rewrite !(dot_len nO) by (rewrite ?row_add_length; try lia; apply M1). rewrite <- S_plus. apply S_ext. intros i Hi. rewrite nth_row_add by lia. ring. }
        rewrite Dd in V. destruct (gates_length nO (row_add d (fst (fst e))) (snd (fst e)) (gates_of nO (wt 0) (x 0) (y 0)) (snd r) (c 0)) as [Lb _]. fold b in Lb.
        rewrite pre_effect in V; [|exact Lb|apply Mx0|apply Mx0|apply My|apply My]. change (hid_weights (wt 0)) with (Wh 0). lra.
  Qed.
End Step.

(** ** Gradients of the parameters *)
Lemma mdot_len r c (A B : list (list R)) : length A = r -> length B = r -> Forall (fun x => length x = c) A -> Forall (fun x => length x = c) B ->
  mdot A B = S_ r (fun i => S_ c (fun j => nth j (nth i A []) 0 * nth j (nth i B []) 0)).
Proof.
  revert r B. induction A as [|a A IH]; intros r [|b B] La Lb FA FB; cbn [length] in *; subst r; try discriminate; [reflexivity|]. apply Forall_cons_iff in FA as [F1 F2], FB as [F3 F4].
  rewrite mdot_cons, S_S. cbn [nth]. rewrite (dot_len c) by assumption. rewrite (IH (length A) B) by (assumption || lia). reflexivity.
Qed.
Lemma outer_rows r c (A B : list (list R)) : length (outer r c A B) = r /\ Forall (fun x => length x = c) (outer r c A B).
Proof.
  unfold outer. split; [now rewrite map_length, seq_length|]. apply Forall_forall. intros x Hx. apply in_map_iff in Hx as (i & <- & _). now rewrite map_length, seq_length.
Qed.
Fixpoint sum2 (f : list R -> list R -> R) (A B : list (list R)) : R := match A, B with a :: A, b :: B => f a b + sum2 f A B | _, _ => 0 end.
Lemma mdot_outer r c D : length D = r -> Forall (fun x => length x = c) D -> forall A B, length A = length B -> Forall (fun x => length x = r) A -> Forall (fun x => length x = c) B ->
  mdot (outer r c A B) D = sum2 (fun a b => dot a (times D b)) A B.
Proof.
  intros LD FD A B L FA FB. destruct (outer_rows r c A B) as [O1 O2]. rewrite (mdot_len r c) by assumption.
  assert (En : forall i j, (i < r)%nat -> (j < c)%nat -> nth j (nth i (outer r c A B) []) 0 = sum2 (fun a b => nth i a 0 * nth j b 0) A B).
  { intros i j Hi Hj. unfold outer. rewrite nth_map_seq by exact Hi. rewrite nth_map_seq by exact Hj. rewrite nsum_msum. clear - L. revert B L. induction A as [|a A IH]; intros [|b B] L; try discriminate; [reflexivity|]. cbn [length] in L. specialize (IH B ltac:(lia)). cbn [sum2]. rewrite <- IH. reflexivity. }
  rewrite (S_ext r _ (fun i => S_ c (fun j => sum2 (fun a b => nth i a 0 * nth j b 0) A B * nth j (nth i D []) 0))) by (intros i Hi; apply S_ext; intros j Hj; now rewrite En).
  clear En O1 O2. revert B L FB. induction FA as [|a A Ha FA IH]; intros [|b B] L FB; try discriminate L; cbn [sum2].
  - rewrite (S_ext r _ (fun _ => 0)); [apply S_zero|]. intros i _. rewrite (S_ext c _ (fun _ => 0)) by (intros; ring). apply S_zero.
  - apply Forall_cons_iff in FB as [Fb FB]. cbn [length] in L. rewrite <- (IH B) by (assumption || lia). rewrite (dot_len r) by (assumption || (rewrite times_length; assumption)). rewrite <- S_plus. apply S_ext. intros i Hi. rewrite nth_times by lia.
    rewrite (dot_len c); [|exact Fb|rewrite Forall_forall in FD; apply FD, nth_In; lia]. rewrite <- S_scale, <- S_plus. apply S_ext. intros j Hj. ring.
Qed.
Lemma colsum_dot r v : length v = r -> forall A, Forall (fun x => length x = r) A -> dot (colsum r A) v = msum (map (fun a => dot a v) A).
Proof.
  intros Lv A FA. rewrite (dot_len r) by (exact Lv || (unfold colsum; now rewrite map_length, seq_length)). induction FA as [|a A Ha FA IH]; cbn [map]; rewrite ?msum_cons.
  - rewrite (S_ext r _ (fun _ => 0)); [apply S_zero|]. intros i Hi. unfold colsum. rewrite nth_map_seq by exact Hi. change (msum (col 0 i [])) with 0. ring.
  - rewrite <- IH. rewrite (dot_len r) by assumption. rewrite <- S_plus. apply S_ext. intros i Hi. unfold colsum. rewrite !nth_map_seq by exact Hi. change (col 0 i (a :: A)) with (nth i a 0 :: col 0 i A). rewrite msum_cons. ring.
Qed.
Lemma lstm_run_length nO w : forall xs y c, length (lstm_run nO w y c xs) = length xs.
Proof. induction xs as [|x xs IH]; intros y c; [reflexivity|]. cbn [lstm_run length]. now rewrite IH. Qed.
Lemma lstm_run_wide nO w : forall xs y c, Forall (fun h => length h = nO) (lstm_run nO w y c xs).
Proof. induction xs as [|x xs IH]; intros y c; cbn [lstm_run]; constructor; [apply step_length|apply IH]. Qed.
Lemma before_length y hs : length (before y hs) = length hs.
Proof. revert y. induction hs as [|h hs IH]; intros y; [reflexivity|]. rewrite before_cons. cbn [length]. now rewrite IH. Qed.
Lemma before_wide n y hs : length y = n -> Forall (fun h => length h = n) hs -> Forall (fun h => length h = n) (before y hs).
Proof. intros Ly F. revert y Ly. induction F as [|h hs Hh F IH]; intros y Ly; [constructor|]. rewrite before_cons. constructor; [exact Ly|now apply IH]. Qed.
Lemma moves2_wide r c m dm : moves2 r c m dm -> length dm = r /\ Forall (fun x => length x = c) dm /\ forall s, length (m s) = r /\ Forall (fun x => length x = c) (m s).
Proof.
  intros (L1 & L2 & M). split; [exact L1|]. split; [|intros s; split; [apply L2|]]; apply Forall_nth; intros i d Hi; rewrite (nth_indep _ d []) by exact Hi; [|rewrite L2 in Hi]; apply M; lia.
Qed.
Lemma back_gates nO w : forall steps y c ey ec, length ey = nO -> length ec = nO -> length (snd (back_run nO w y c steps ey ec)) = length steps.
Proof. intros steps y c ey ec L1 L2. apply (back_length nO w steps y c ey ec L1 L2). Qed.
(** The derivative of the inner product of the hiddens with [dys] *)
Lemma bptt_right nO nI (Wx Wh xs : R -> list (list R)) (bs y c : R -> list R) dWx dWh dxs db dy0 dc0 dys :
  moves2 (4 * nO) nI Wx dWx -> moves2 (4 * nO) nO Wh dWh -> moves (4 * nO) bs db -> moves2 (length dys) nI xs dxs -> moves nO y dy0 -> moves nO c dc0 -> Forall (fun d => length d = nO) dys ->
  let w s := (mkM nI (Wx s), mkM nO (Wh s), bs s) in let hs s := lstm_run nO (w s) (y s) (c s) (xs s) in
  let e := back_run nO (w 0) (y 0) (c 0) (combine (xs 0) dys) (zeros nO) (zeros nO) in let gs := snd e in
  derivable_pt_lim (fun s => mdot dys (hs s)) 0
    (dot (fst (fst e)) dy0 + dot (snd (fst e)) dc0 + mdot (map (times_t nI (Wx 0)) gs) dxs + mdot (outer (4 * nO) nI gs (xs 0)) dWx + mdot (outer (4 * nO) nO gs (before (y 0) (hs 0))) dWh + dot (colsum (4 * nO) gs) db).
Proof.
  intros M1 M2 M3 M4 M5 M6 F. cbv zeta. pose proof (bptt nO nI Wx Wh bs dWx dWh db M1 M2 M3 dys xs dxs y dy0 c dc0 M4 M5 M6 F) as B. cbv zeta in B. eapply der_eq; [exact B|]. clear B. change (wt nO nI Wx Wh bs 0) with (mkM nI (Wx 0), mkM nO (Wh 0), bs 0).
  set (w := (mkM nI (Wx 0), mkM nO (Wh 0), bs 0)). set (e := back_run nO w (y 0) (c 0) (combine (xs 0) dys) (zeros nO) (zeros nO)).
  assert (Lz : length (zeros nO : list R) = nO) by apply repeat_length. destruct (back_length nO w (combine (xs 0) dys) (y 0) (c 0) (zeros nO) (zeros nO) Lz Lz) as (_ & _ & L1 & L2). cbv zeta in L1, L2. fold e in L1, L2.
  destruct (moves2_wide _ _ _ _ M4) as (X1 & X2 & X3). destruct (X3 0) as [X4 X5]. rewrite combine_length, X4, Nat.min_id in L1.
  destruct (moves2_wide _ _ _ _ M1) as (A1 & A2 & _). destruct (moves2_wide _ _ _ _ M2) as (B1 & B2 & _).
  set (hb := before (y 0) (lstm_run nO w (y 0) (c 0) (xs 0))). assert (H1 : length hb = length dys) by (unfold hb; rewrite before_length, lstm_run_length; exact X4).
  assert (H2 : Forall (fun h => length h = nO) hb) by (apply before_wide; [apply M5|apply lstm_run_wide]).
  rewrite !mdot_outer; try assumption; try lia. rewrite colsum_dot; [|apply M3|exact L2].
  assert (G : effects nI Wx dWx dWh db (snd e) (xs 0) dxs hb = mdot (map (times_t nI (Wx 0)) (snd e)) dxs + sum2 (fun a b => dot a (times dWx b)) (snd e) (xs 0) + sum2 (fun a b => dot a (times dWh b)) (snd e) hb + msum (map (fun a => dot a db) (snd e))).
  { clear - L1 X1 X4 H1. revert L1 X1 X4 H1. generalize (length dys). intros n. generalize (snd e) (xs 0) dxs hb. clear. intros gs. revert n. induction gs as [|g gs IH]; intros n xs dxs hs L1 L2 L3 L4.
    - cbn in L1. subst n. destruct xs, dxs, hs; try discriminate. cbn [effects map sum2]. change (mdot [] []) with 0. change (msum []) with 0. lra.
    - destruct n as [|n]; [discriminate L1|]. destruct xs as [|x xs], dxs as [|dx dxs], hs as [|h hs]; try discriminate. cbn [length] in *. cbn [effects map sum2]. rewrite mdot_cons, msum_cons. rewrite (IH n) by lia. unfold effect. lra. }
  rewrite G. lra.
Qed.
