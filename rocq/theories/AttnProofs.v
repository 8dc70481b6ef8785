(** Proofs about parametric attention. *)
From Coq Require Import Reals Lra Lia.
From Verif Require Import ReduceProofs ReduceFirstProofs.
From Verif Require Import CombModel CombSpec DenseModel DenseSpec ActModel ActSpec SoftModel SoftSpec.
From Verif Require Import MatProofs BaseFacts CombProofs CombDiffProofs CombBuiltProofs MkProofs LinearProofs ActLayerProofs DenseProofs ActProofs SoftProofs SoftSeqProofs.
From Verif Require Import AttnModel AttnSpec.
Set Default Goal Selector "!".
Local Open Scope R_scope.
Local Notation nonneg := ReduceSpec.nonneg.

(** ** Ragged values *)
Lemma like_rag {A B} r c w l (f : nat -> nat -> A) (g : nat -> nat -> B) : like (Rag (mk r c f) w l) (Rag (mk r c g) w l).
Proof. pose proof (like_mk r c f g) as L. unfold like in *. cbn in *. injection L as L. now rewrite L. Qed.
Lemma like_rag_inv {A B} `{Num A} (v : value A) r c w l (g : nat -> nat -> B) : like v (Rag (mk r c g) w l) -> exists f, v = Rag (mk r c f) w l.
Proof.
  intros L. apply like_sym, like_Rag in L as (m & -> & E1 & E2). destruct (like_mk_inv (Arr2 m) r c g) as (f & E); [now apply like_sym, like_Arr2_iff|]. exists f. now injection E as ->.
Qed.
Lemma vmap_rag {A B} (h : A -> B) r c w l f : vmap h (Rag (mk r c f) w l) = Rag (mk r c (fun i j => h (f i j))) w l.
Proof. pose proof (vmap_mk h r c f) as E. cbn in *. injection E as E. unfold mk in *. cbn in *. now rewrite E. Qed.
Lemma curve_rag (K : value jet) r c w l (x : nat -> nat -> R) : vmap (at_time 0) K = Rag (mk r c x) w l ->
  exists k, K = Rag (mk r c k) w l /\ forall i j, (i < r)%nat -> (j < c)%nat -> at_time 0 (k i j) = x i j.
Proof.
  intros E. destruct (like_rag_inv K r c w l x) as (k & ->); [rewrite <- E; apply like_sym, like_vmap|]. exists k. split; [reflexivity|]. rewrite vmap_rag in E. injection E as E.
  apply mk_inj. unfold mk. now rewrite E.
Qed.
Lemma smooth_rag r c w l (k : nat -> nat -> jet) : Forall smooth (leaves (Rag (mk r c k) w l)) <-> forall i j, (i < r)%nat -> (j < c)%nat -> smooth (k i j).
Proof. exact (smooth_mk r c k). Qed.
Lemma inner_rag r c w l w' l' f g : inner (Rag (mk r c f) w l) (Rag (mk r c g) w' l') = S_ r (fun i => S_ c (fun j => f i j * g i j)).
Proof. exact (inner_mk r c f g). Qed.
Lemma mk_rag_mk {T} `{Num T} r c (f : nat -> nat -> T) l : r <> 0%nat -> c <> 0%nat -> mk_rag (mk r c f) l = Rag (mk r c f) c l.
Proof. intros Hr Hc. unfold mk_rag. rewrite mk_rows, mk_cols. destruct (Nat.eqb_spec (r * c) 0); [lia|reflexivity]. Qed.
Lemma rag_data_mk {T} `{Num T} r c (f : nat -> nat -> T) : r <> 0%nat -> c <> 0%nat -> rag_data (mk r c f) c = Ok (mk r c f).
Proof. intros Hr Hc. unfold rag_data. rewrite mk_rows, mk_cols. destruct (Nat.eqb_spec (r * c) 0); [lia|]. now rewrite Nat.eqb_refl. Qed.
Lemma column_vec {T} `{Num T} n (q : nat -> T) : column (vec n q) = mk n 1 (fun i _ => q i).
Proof. unfold column. apply mkM_eq. now rewrite map_vec. Qed.
Lemma ravel_col {T} `{Num T} n (f : nat -> nat -> T) : ravel (mk n 1 f) = vec n (fun i => f i 0%nat).
Proof. unfold ravel. rewrite m_rows_mk. unfold vec at 1 3. cbn [seq map]. generalize (seq 0 n). intros s. induction s as [|a s IH]; [reflexivity|]. cbn [map concat app]. now rewrite IH. Qed.
Lemma outer_mk {T} `{Num T} r n (a : nat -> nat -> T) (q : nat -> T) : outer (mk r 1 a) (vec n q) = mk r n (fun i j => nmul (a i 0%nat) (q j)).
Proof. unfold outer. rewrite ravel_col, vec_length. apply mkM_eq. rewrite map_vec. apply vec_ext. intros i _. now rewrite map_vec. Qed.
Lemma miadd_same {T} `{Num T} r c (f g : nat -> nat -> T) : miadd (mk r c f) (mk r c g) = Ok (mk r c (fun i j => nadd (f i j) (g i j))).
Proof. unfold miadd. rewrite madd_mbin, mbin_same. cbn [bind]. now rewrite mshape_mk, !Nat.eqb_refl. Qed.

(** ** The forward pass *)
Definition sc (nO : nat) (q : nat -> R) (k : nat -> nat -> R) (i _j : nat) : R := S_ nO (fun n => k i n * q n).
Definition att (lengths : list Z) (r nO : nat) (q : nat -> R) (k : nat -> nat -> R) (i : nat) : R := ss lengths r (sc nO q k) i 0%nat.
Definition d_att (lengths : list Z) (r c nO : nat) (q : nat -> R) (k x d : nat -> nat -> R) (i : nat) : R :=
  dss lengths r (ss lengths r (sc nO q k)) (fun i _ => S_ c (fun j => x i j * d i j)) i 0%nat.
Lemma att_fwd numpy key nO qo tr theta r c x k kb lengths q : (qo + nO <= length theta)%nat -> nonneg lengths -> zsum lengths = Z.of_nat r -> r <> 0%nat -> c <> 0%nat ->
  key tr theta (Arr2 (mk r c x)) = Ok (Arr2 (mk r nO k), kb) -> q = (fun n => par theta (qo + n)) ->
  exists b, ParametricAttention_v2 numpy key nO qo tr theta (Rag (mk r c x) c lengths) = Ok (Rag (mk r c (fun i j => x i j * att lengths r nO q k i)) c lengths, b) /\
  forall d g, b (Rag (mk r c d) c lengths) g =
    (let* dX2 := kb (Arr2 (mk r nO (fun i n => d_att lengths r c nO q k x d i * q n))) g in
     let* g := inc_grad (snd dX2) qo (vec nO (fun n => S_ r (fun i => k i n * d_att lengths r c nO q k x d i))) in
     let* dX2 := as_mat (fst dX2) in
     let* dX := miadd (mk r c (fun i j => d i j * att lengths r nO q k i)) dX2 in
     Ok (mk_rag dX lengths, g)).
Proof.
  intros Hq Hn E Hr Hc HK Eq. unfold ParametricAttention_v2. rewrite get_param1_ok by exact Hq. cbn [bind as_rag fst snd]. rewrite rag_data_mk by assumption. cbn [bind]. rewrite HK. cbn [bind fst snd as_mat].
  rewrite <- Eq, column_vec. unfold gemm. rewrite matmul_mk. cbn [bind].
  assert (ES : mk r 1 (fun i _ => nsum (vec nO (fun n => nmul (k i n) (q n)))) = mk r 1 (sc nO q k)). { apply mk_ext. intros i j _ _. rewrite nsum_S. reflexivity. }
  rewrite ES, sequences_mk by (try assumption; intros; assumption). cbn [bind].
  assert (EA : mk r 1 (ss lengths r (sc nO q k)) = mk r 1 (fun i _ => att lengths r nO q k i)). { apply mk_ext. intros i j _ Hj. now replace j with 0%nat by lia. }
  rewrite EA, mbin_col. cbn [bind]. rewrite mk_rag_mk by assumption. eexists. split; [reflexivity|].
  intros d g. cbn [as_rag bind fst snd]. rewrite rag_data_mk by assumption. cbn [bind]. rewrite mbin_same. cbn [bind]. rewrite mbin_col. cbn [bind]. rewrite sum1_mk, <- EA.
  rewrite seq_back_mk by (try assumption; intros; assumption). cbn [bind]. rewrite transpose_mk, matmul_mk. cbn [bind].
  assert (ED : mk r 1 (dss lengths r (ss lengths r (sc nO q k)) (fun i _ => nsum (vec c (fun j => nmul (x i j) (d i j))))) = mk r 1 (fun i _ => d_att lengths r c nO q k x d i)).
  { apply mk_ext. intros i j _ Hj. replace j with 0%nat by lia. unfold d_att, dss. f_equal; [now rewrite nsum_S|]. f_equal. unfold group. apply S_ext. intros l _. destruct (same_seq lengths i l); [|reflexivity]. now rewrite nsum_S. }
  rewrite ED, outer_mk, ravel_col.
  assert (EQ : vec nO (fun n => nsum (vec r (fun i => nmul (k i n) (dss lengths r (ss lengths r (sc nO q k)) (fun i _ => nsum (vec c (fun j => nmul (x i j) (d i j)))) i 0%nat)))) = vec nO (fun n => S_ r (fun i => k i n * d_att lengths r c nO q k x d i))).
  { apply vec_ext. intros n _. rewrite nsum_S. apply S_ext. intros i Hi. cbn [nmul num_R]. f_equal. exact (mk_inj r 1 _ _ ED i 0%nat Hi ltac:(lia)). }
  rewrite EQ. reflexivity.
Qed.

(** ** The derivative *)
Lemma rag_wf {A} r c (f : nat -> nat -> A) l : r <> 0%nat -> c <> 0%nat -> wfv (Rag (mk r c f) c l).
Proof. intros Hr Hc. cbn [wfv]. split; [apply mk_wf|]. rewrite mk_rows, mk_cols. destruct (Nat.eqb_spec (r * c) 0); [lia|reflexivity]. Qed.
Lemma dot_app_minus (a b c : R) : a + (b - c) = a + b - c. Proof. ring. Qed.
Lemma att_mk_ok numpy key nO qo tr theta r c x k lengths : (qo + nO <= length theta)%nat -> nonneg lengths -> zsum lengths = Z.of_nat r -> r <> 0%nat -> c <> 0%nat ->
  differentiates key tr theta (Arr2 (mk r c x)) (Arr2 (mk r nO k)) ->
  let q := fun n => par theta (qo + n) in
  (forall i, (i < r)%nat -> -20 < sc nO q k i 0 < 20) ->
  differentiates (ParametricAttention_v2 numpy key nO qo) tr theta (Rag (mk r c x) c lengths) (Rag (mk r c (fun i j => x i j * att lengths r nO q k i)) c lengths).
Proof.
  intros Hq Hn E Hr Hc HD q HX. destruct HD as (kb & EK & _ & HB). destruct (att_fwd numpy key nO qo tr theta r c x k kb lengths q Hq Hn E Hr Hc EK eq_refl) as (b & Eb & HBk).
  exists b. split; [exact Eb|]. split; [now apply rag_wf|]. intros dY g LdY Lg. apply like_rag_inv in LdY as (d & ->). rewrite HBk. clear HBk.
  set (da := d_att lengths r c nO q k x d).
  destruct (HB (Arr2 (mk r nO (fun i n => da i * q n))) g (like_mk _ _ _ _) Lg) as (dX2 & g2 & E2 & L2 & Lg2 & HC). rewrite E2. cbn [bind fst snd].
  apply like_mk_inv in L2 as (e & ->). destruct (inc_grad_ok g2 qo nO (fun n => S_ r (fun i => k i n * da i))) as (g3 & E3 & Lg3 & D3); [lia|].
  rewrite E3. cbn [bind as_mat]. rewrite miadd_same. cbn [bind]. rewrite mk_rag_mk by assumption. eexists _, g3. split; [reflexivity|]. split; [apply like_rag|]. split; [lia|].
  intros P K HP HK SP SK. apply curve_rag in HK as (kx & -> & Hk). rewrite smooth_rag in SK.
  assert (LP : length P = length theta) by (rewrite <- HP; now rewrite map_length).
  destruct (HC P (Arr2 (mk r c kx)) HP) as (K' & SK' & FK' & IK'); [| exact SP | now rewrite smooth_mk |].
  { rewrite vmap_mk. f_equal. now apply mk_ext. }
  assert (F0 : vmap (at_time 0) K' = Arr2 (mk r nO k)).
  { destruct (FK' 0) as (b' & Fb). rewrite HP, vmap_mk in Fb. replace (mk r c (fun i j => at_time 0 (kx i j))) with (mk r c x) in Fb by (apply mk_ext; intros; now rewrite Hk). rewrite EK in Fb. now injection Fb as -> _. }
  apply curve_mk in F0 as (kk & -> & Hkk). rewrite smooth_mk in SK'. rewrite !vmap_mk, !inner_mk in IK'.
  (* the scores as curves *)
  set (qj := fun n => par P (qo + n)). assert (Hqj : forall n, at_time 0 (qj n) = q n) by (intros n; unfold qj, q; now rewrite <- par_at, HP).
  set (js := fun i (_ : nat) => ((fun s => S_ nO (fun n => at_time s (kk i n) * at_time s (qj n))), S_ nO (fun n => velocity (kk i n) * q n + k i n * velocity (qj n))) : jet).
  assert (Sjs : forall i, (i < r)%nat -> smooth (js i 0%nat)).
  { intros i Hi. unfold smooth, js. cbn [fst snd]. apply (der_S nO (fun n s => at_time s (kk i n) * at_time s (qj n)) (fun n => velocity (kk i n) * q n + k i n * velocity (qj n))).
    intros n Hn'. eapply der_eq; [apply (derivable_pt_lim_mult (fst (kk i n)) (fst (qj n))); [now apply SK' | apply smooth_par, SP]|]. change (fst (qj n) 0) with (at_time 0 (qj n)). change (fst (kk i n) 0) with (at_time 0 (kk i n)). now rewrite Hqj, Hkk. }
  destruct (sequences_mk_ok numpy lengths tr theta r 1 (sc nO q k) Hn E (fun _ => Hr)) as (sb & Esb & _ & HSB).
  { intros i j Hi Hj. replace j with 0%nat by lia. now apply HX. }
  unfold sequences_op in Esb. cbn [as_mat bind] in Esb. rewrite sequences_mk in Esb by (try assumption; intros; assumption). cbn [bind] in Esb. injection Esb as <-.
  destruct (HSB (Arr2 (mk r 1 (fun i _ => S_ c (fun j => x i j * d i j)))) g (like_mk _ _ _ _) Lg) as (sd & sg & Esd & _ & _ & HSC).
  cbn [as_mat bind] in Esd. rewrite seq_back_mk in Esd by (try assumption; intros; assumption). cbn [bind] in Esd. injection Esd as <- <-.
  destruct (HSC P (Arr2 (mk r 1 js)) HP) as (A & SA & FA & IA); [| exact SP | |].
  { rewrite vmap_mk. f_equal. apply mk_ext. intros i j Hi Hj. unfold js, sc, at_time. cbn [fst]. apply S_ext. intros n Hn'. change (fst (kk i n) 0) with (at_time 0 (kk i n)). change (fst (qj n) 0) with (at_time 0 (qj n)). now rewrite Hqj, Hkk. }
  { rewrite smooth_mk. intros i j Hi Hj. replace j with 0%nat by lia. now apply Sjs. }
  assert (FA' : forall s, vmap (at_time s) A = Arr2 (mk r 1 (ss lengths r (fun i j => at_time s (js i j))))).
  { intros s. destruct (FA s) as (b' & Fb). rewrite vmap_mk in Fb. unfold sequences_op in Fb. cbn [as_mat bind] in Fb. rewrite sequences_mk in Fb by (try assumption; intros; assumption). cbn [bind] in Fb. now injection Fb as <- _. }
  pose proof (FA' 0) as FA0. apply curve_mk in FA0 as (ja & -> & Hja). rewrite smooth_mk in SA. rewrite !vmap_mk, !inner_mk in IA.
  assert (Hja' : forall s i, (i < r)%nat -> at_time s (ja i 0%nat) = ss lengths r (fun i j => at_time s (js i j)) i 0%nat).
  { intros s i Hi. specialize (FA' s). rewrite vmap_mk in FA'. injection FA' as FA'. apply (mk_inj r 1 (fun i j => at_time s (ja i j)) (ss lengths r (fun i j => at_time s (js i j)))); [unfold mk; now rewrite FA' | exact Hi | lia]. }
  assert (Hja0 : forall i, (i < r)%nat -> at_time 0 (ja i 0%nat) = att lengths r nO q k i).
  { intros i Hi. rewrite Hja' by exact Hi. unfold att. unfold ss. assert (EE : forall l, (l < r)%nat -> at_time 0 (js l 0%nat) = sc nO q k l 0%nat).
    { intros l Hl. unfold js, sc, at_time. cbn [fst]. apply S_ext. intros n Hn'. change (fst (kk l n) 0) with (at_time 0 (kk l n)). change (fst (qj n) 0) with (at_time 0 (qj n)). now rewrite Hqj, Hkk. }
    rewrite EE by exact Hi. apply f_equal. unfold group. apply S_ext. intros l Hl. now rewrite EE. }
  set (out := fun i j => ((fun s => at_time s (kx i j) * at_time s (ja i 0%nat)), velocity (kx i j) * att lengths r nO q k i + x i j * velocity (ja i 0%nat)) : jet).
  exists (Rag (mk r c out) c lengths). split; [|split].
  - rewrite smooth_rag. intros i j Hi Hj. unfold smooth, out. cbn [fst snd]. eapply der_eq; [apply (derivable_pt_lim_mult (fst (kx i j)) (fst (ja i 0%nat))); [now apply SK | apply SA; [exact Hi | lia]]|].
    change (fst (ja i 0%nat) 0) with (at_time 0 (ja i 0%nat)). change (fst (kx i j) 0) with (at_time 0 (kx i j)). now rewrite Hja0, Hk.
  - intros s. rewrite !vmap_rag. destruct (FK' s) as (b' & Fb). rewrite !vmap_mk in Fb.
    destruct (att_fwd numpy key nO qo tr (map (at_time s) P) r c _ _ b' lengths _ ltac:(rewrite map_length; lia) Hn E Hr Hc Fb eq_refl) as (b'' & Eb'' & _). exists b''. rewrite Eb''. apply ok_fst. f_equal. apply mk_ext. intros i j Hi Hj.
    unfold out, at_time at 2. cbn [fst]. change (at_time s (kx i j) * att lengths r nO (fun n => par (map (at_time s) P) (qo + n)) (fun i j => at_time s (kk i j)) i = at_time s (kx i j) * at_time s (ja i 0%nat)). apply f_equal.
    rewrite Hja' by exact Hi. unfold att, ss.
    assert (EE : forall l, sc nO (fun n => par (map (at_time s) P) (qo + n)) (fun i j => at_time s (kk i j)) l 0%nat = at_time s (js l 0%nat)).
    { intros l. unfold sc, js, at_time at 3. cbn [fst]. apply S_ext. intros n _. now rewrite par_at. }
    rewrite EE. apply f_equal. unfold group. apply S_ext. intros l _. now rewrite EE.
  - rewrite !vmap_rag, !inner_rag.
    assert (D3' := D3 (map velocity P) ltac:(rewrite map_length; lia)).
    replace (dot g3 (map velocity P) - dot g (map velocity P)) with (S_ nO (fun n => S_ r (fun i => k i n * da i) * velocity (qj n)) + (dot g2 (map velocity P) - dot g (map velocity P))).
    2: { rewrite (S_ext nO _ (fun n => S_ r (fun i => k i n * da i) * par (map velocity P) (qo + n))); [rewrite <- D3'; ring|]. intros n _. unfold qj. now rewrite par_vel. }
    (* split the output *)
    transitivity (S_ r (fun i => S_ c (fun j => d i j * att lengths r nO q k i * velocity (kx i j))) + S_ r (fun i => S_ 1 (fun j => S_ c (fun j => x i j * d i j) * velocity (ja i j)))).
    { rewrite <- S_plus. apply S_ext. intros i Hi. cbn [velocity snd out]. rewrite (S_S 0). cbn [S_ vec seq map msum fold_right]. rewrite Rplus_0_r, <- S_scale_r, <- S_plus. apply S_ext. intros j Hj. unfold out, velocity. cbn [snd]. ring. }
    rewrite IA. rewrite Rminus_diag_eq by reflexivity. rewrite Rplus_0_r.
    rewrite (S_ext r (fun i => S_ c (fun j => (nadd _ _) * _)) (fun i => S_ c (fun j => d i j * att lengths r nO q k i * velocity (kx i j)) + S_ c (fun j => e i j * velocity (kx i j)))).
    2: { intros i _. rewrite <- S_plus. apply S_ext. intros j _. cbn [nadd num_R]. ring. }
    rewrite S_plus, Rplus_assoc. f_equal.
    transitivity (S_ r (fun i => S_ nO (fun n => da i * q n * velocity (kk i n))) + S_ nO (fun n => S_ r (fun i => k i n * da i) * velocity (qj n))).
    + rewrite (S_ext nO (fun n => S_ r (fun i => k i n * da i) * velocity (qj n)) (fun n => S_ r (fun i => k i n * da i * velocity (qj n)))) by (intros n _; now rewrite S_scale_r).
      rewrite (S_swap nO r), <- S_plus. apply S_ext. intros i Hi. rewrite (S_S 0). cbn [S_ vec seq map msum fold_right]. rewrite Rplus_0_r. change (dss lengths r (ss lengths r (sc nO q k)) (fun i _ => S_ c (fun j => x i j * d i j)) i 0) with (da i).
      unfold js, velocity at 1. cbn [snd]. rewrite <- S_scale, <- S_plus. apply S_ext. intros n _. ring.
    + rewrite IK'. ring.
Qed.
