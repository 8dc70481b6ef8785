(** CosineDistance. *)
From Coq Require Import Reals Lra Lia.
From Verif Require Import CombModel CombSpec DenseModel DenseSpec ActSpec SoftModel SoftSpec LossModel LossSpec.
From Verif Require Import MatProofs BaseFacts CombProofs MkProofs DenseProofs ActLayerProofs ActProofs SoftProofs SoftSeqProofs CatProofs LossProofs.
Set Default Goal Selector "!".
Local Open Scope R_scope.

Lemma S_nonneg n f : (forall i, (i < n)%nat -> 0 <= f i) -> 0 <= S_ n f.
Proof.
  revert f. induction n as [|n IH]; intros f H; [cbn; lra|]. rewrite S_S. pose proof (H 0%nat ltac:(lia)). specialize (IH (fun i => f (S i)) (fun i Hi => H (S i) ltac:(lia))). lra.
Qed.
Lemma S_sq_zero n a : S_ n (fun j => a j * a j) = 0 -> forall j, (j < n)%nat -> a j = 0.
Proof.
  revert a. induction n as [|n IH]; intros a E j Hj; [lia|]. rewrite S_S in E. assert (0 <= S_ n (fun i => a (S i) * a (S i))) by (apply S_nonneg; intros i _; nra). assert (0 <= a 0%nat * a 0%nat) by nra.
  destruct j as [|j]; [nra|]. apply (IH (fun i => a (S i))); [lra|lia].
Qed.
Lemma cauchy n a b : S_ n (fun j => a j * b j) * S_ n (fun j => a j * b j) <= S_ n (fun j => a j * a j) * S_ n (fun j => b j * b j).
Proof.
  set (P := S_ n (fun j => a j * b j)). set (A := S_ n (fun j => a j * a j)). set (B := S_ n (fun j => b j * b j)).
  assert (HA : 0 <= A) by (apply S_nonneg; intros; nra). assert (HB : 0 <= B) by (apply S_nonneg; intros; nra).
  destruct (Req_dec A 0) as [E|E].
  - assert (P0 : P = 0). { unfold P. rewrite (S_ext n _ (fun _ => 0)); [apply S_zero|]. intros j Hj. rewrite (S_sq_zero n a E j Hj). ring. }
    rewrite P0. nra.
  - assert (Q : 0 <= S_ n (fun j => (A * b j - P * a j) * (A * b j - P * a j))) by (apply S_nonneg; intros j _; apply (Rle_0_sqr (A * b j - P * a j))).
    rewrite (S_ext n _ (fun j => A * A * (b j * b j) + ((- (2 * A * P)) * (a j * b j) + P * P * (a j * a j)))) in Q by (intros; ring). rewrite !S_plus, !S_scale in Q. fold P A B in Q.
    assert (0 <= A * (A * B - P * P)) by lra. assert (0 < A) by lra. nra.
Qed.
(** One row, in entries *)
Definition tny : R := 1 / 100000000.
Definition nrm (n : nat) (a : nat -> R) : R := sqrt (S_ n (fun j => a j * a j)).
Definition csn (n : nat) (a b : nat -> R) : R := S_ n (fun j => a j * b j) / (nrm n a * nrm n b).
Lemma csn_le n a b : csn n a b <= 1.
Proof.
  unfold csn, nrm. set (A := S_ n (fun j => a j * a j)). set (B := S_ n (fun j => b j * b j)). set (P := S_ n (fun j => a j * b j)). pose proof (cauchy n a b) as C. fold A B P in C.
  assert (HA : 0 <= A) by (apply S_nonneg; intros; nra). assert (HB : 0 <= B) by (apply S_nonneg; intros; nra).
  destruct (Req_dec (A * B) 0) as [E|E].
  - assert (P = 0) by (rewrite E in C; nra). rewrite H. unfold Rdiv. rewrite Rmult_0_l. lra.
  - rewrite <- sqrt_mult by assumption. assert (0 < A * B) by (pose proof (Rmult_le_pos A B HA HB); lra). pose proof (sqrt_lt_R0 _ H) as HS. apply (Rmult_le_reg_r (sqrt (A * B))); [exact HS|]. unfold Rdiv. rewrite Rmult_assoc, Rinv_l by lra. rewrite Rmult_1_r, Rmult_1_l.
    destruct (Rle_lt_dec P 0) as [L|L]; [lra|]. rewrite <- (sqrt_Rsqr P) by lra. apply sqrt_le_1; unfold Rsqr; nra.
Qed.
Lemma der_csn n (k : nat -> jet) (a b : nat -> R) : (forall j, (j < n)%nat -> smooth (k j)) -> (forall j, (j < n)%nat -> at_time 0 (k j) = a j) -> nrm n a <> 0 -> nrm n b <> 0 ->
  derivable_pt_lim (fun s => csn n (fun j => at_time s (k j)) b) 0 (S_ n (fun j => (b j / (nrm n a * nrm n b) - csn n a b * (a j / (nrm n a * nrm n a))) * velocity (k j))).
Proof.
  intros SK HK HA HB. set (A := S_ n (fun j => a j * a j)).
  assert (PA : 0 < A). { assert (0 <= A) by (apply S_nonneg; intros; nra). destruct (Req_dec A 0) as [E|]; [|lra]. exfalso. apply HA. unfold nrm. fold A. rewrite E. apply sqrt_0. }
  assert (E0 : S_ n (fun j => at_time 0 (k j) * at_time 0 (k j)) = A) by (apply S_ext; intros j Hj; now rewrite HK).
  assert (P0 : S_ n (fun j => at_time 0 (k j) * b j) = S_ n (fun j => a j * b j)) by (apply S_ext; intros j Hj; now rewrite HK).
  assert (DP : derivable_pt_lim (fun s => S_ n (fun j => at_time s (k j) * b j)) 0 (S_ n (fun j => velocity (k j) * b j))).
  { apply (der_S n (fun j s => at_time s (k j) * b j) (fun j => velocity (k j) * b j)). intros j Hj. eapply der_eq; [apply (derivable_pt_lim_mult (fst (k j)) (fun _ => b j)); [now apply SK|apply derivable_pt_lim_const]|]. change (snd (k j)) with (velocity (k j)). cbv beta. ring. }
  assert (DA : derivable_pt_lim (fun s => S_ n (fun j => at_time s (k j) * at_time s (k j))) 0 (2 * S_ n (fun j => a j * velocity (k j)))).
  { rewrite <- S_scale. apply (der_S n (fun j s => at_time s (k j) * at_time s (k j)) (fun j => 2 * (a j * velocity (k j)))). intros j Hj. eapply der_eq; [apply (derivable_pt_lim_mult (fst (k j)) (fst (k j))); now apply SK|]. change (snd (k j)) with (velocity (k j)). change (fst (k j) 0) with (at_time 0 (k j)). rewrite HK by exact Hj. ring. }
  assert (DN : derivable_pt_lim (fun s => nrm n (fun j => at_time s (k j)) * nrm n b) 0 (/ (2 * sqrt A) * (2 * S_ n (fun j => a j * velocity (k j))) * nrm n b)).
  { eapply der_eq; [apply (derivable_pt_lim_mult (fun s => nrm n (fun j => at_time s (k j))) (fun _ => nrm n b) 0 (/ (2 * sqrt A) * (2 * S_ n (fun j => a j * velocity (k j)))) 0); [|apply derivable_pt_lim_const]|ring].
    apply (derivable_pt_lim_comp (fun s => S_ n (fun j => at_time s (k j) * at_time s (k j))) sqrt); [exact DA|]. rewrite E0. apply derivable_pt_lim_sqrt. exact PA. }
  assert (N0 : nrm n (fun j => at_time 0 (k j)) = nrm n a) by (unfold nrm; now rewrite E0).
  eapply der_eq; [apply (derivable_pt_lim_div (fun s => S_ n (fun j => at_time s (k j) * b j)) (fun s => nrm n (fun j => at_time s (k j)) * nrm n b)); [exact DP|exact DN|]|].
  - rewrite N0. now apply Rmult_integral_contrapositive_currified.
  - rewrite N0, P0. change (sqrt A) with (nrm n a).
    rewrite (S_ext n (fun j => (b j / (nrm n a * nrm n b) - csn n a b * (a j / (nrm n a * nrm n a))) * velocity (k j)) (fun j => / (nrm n a * nrm n b) * (velocity (k j) * b j) - csn n a b * / (nrm n a * nrm n a) * (a j * velocity (k j)))) by (intros; unfold Rdiv; ring).
    rewrite S_minus, !S_scale. unfold csn, Rsqr. field. now split.
Qed.
(** Rows of the code in entries *)
Lemma shift_vec n (a : nat -> R) : add_tiny (vec n a) = vec n (fun j => a j + tny).
Proof. unfold add_tiny. rewrite map_vec. reflexivity. Qed.
Lemma norm_vec n (a : nat -> R) : norm (vec n a) = nrm n a.
Proof. unfold norm, nrm. rewrite map_vec, nsum_S. reflexivity. Qed.
Lemma cosine_vec n (a b : nat -> R) : cosine (vec n a) (vec n b) = csn n (fun j => a j + tny) (fun j => b j + tny).
Proof. unfold cosine. rewrite !shift_vec, !norm_vec, vmap2_vec, nsum_S. reflexivity. Qed.
Lemma nabs_R x : nabs x = Rabs x.
Proof. unfold nabs. destruct (nltb_case x (nZ 0)) as [[-> H]|[-> H]]; cbn in H; [rewrite Rabs_left by lra; reflexivity|rewrite Rabs_right by lra; reflexivity]. Qed.
Lemma zero_row_R (t : list R) : zero_row t = true <-> Forall (fun x => x = 0) t.
Proof.
  unfold zero_row. rewrite nsum_msum. rewrite (map_ext nabs Rabs nabs_R). destruct (neqb_case (msum (map Rabs t)) (nZ 0)) as [[-> E]|[-> E]]; cbn [nZ num_R] in E; (split; [intros H|intros H]); try reflexivity; try discriminate.
  - clear H. assert (NN : forall l, 0 <= msum (map Rabs l)). { induction l as [|a l IH]; [cbn; lra|]. cbn [map]. rewrite msum_cons. pose proof (Rabs_pos a). lra. }
    induction t as [|a t IH]; [constructor|]. cbn [map] in E. rewrite msum_cons in E. pose proof (Rabs_pos a). specialize (NN t). constructor; [|apply IH; lra]. assert (Z : Rabs a = 0) by lra. destruct (Req_dec a 0) as [|N]; [assumption|]. exfalso. now apply (Rabs_no_R0 a N).
  - exfalso. apply E. clear E. induction H as [|a l Ha _ IH]; [reflexivity|]. cbn [map]. rewrite msum_cons, IH, Ha, Rabs_R0. ring.
Qed.
Definition dcs (n : nat) (a b : nat -> R) (j : nat) : R := b j / (nrm n a * nrm n b) - csn n a b * (a j / (nrm n a * nrm n a)).
Lemma cosine_row_vec (b iz : bool) r n (g t : nat -> R) : cosine_row b iz r (vec n g) (vec n t) =
  vec n (fun j => - normed b r (if (iz && zero_row (vec n t))%bool then 0 else dcs n (fun j => g j + tny) (fun j => t j + tny) j)).
Proof.
  unfold cosine_row. rewrite !shift_vec, !norm_vec, !vmap2_vec, nsum_S. rewrite !map_vec, vmap2_vec. set (d := vec n (fun j => nsub _ _)).
  assert (ED : d = vec n (dcs n (fun j => g j + tny) (fun j => t j + tny))) by reflexivity. rewrite ED. clearbody d. clear ED.
  destruct (iz && zero_row (vec n t))%bool; destruct b; rewrite ?map_vec; apply vec_ext; intros j _; cbn [nopp ndiv nZ num_R normed]; rewrite ?LayerNormProofs.nnat_INR; reflexivity.
Qed.
Definition row_loss (iz : bool) n (g t : nat -> R) : R := if (iz && zero_row (vec n t))%bool then 0 else 1 - csn n (fun j => g j + tny) (fun j => t j + tny).
Lemma cos_loss_mk (b iz : bool) r n (g t : nat -> nat -> R) : cosine_get_loss b iz (mk r n g) (mk r n t) = Ok (S_ r (fun i => normed b r (row_loss iz n (g i) (t i)))).
Proof.
  unfold cosine_get_loss. rewrite mshape_mk, !Nat.eqb_refl. cbn [andb negb]. rewrite !m_rows_mk, combine_vec, map_vec. cbn [fst snd]. f_equal. rewrite vec_length.
  assert (E : forall i, (if (iz && zero_row (vec n (fun j => t i j)))%bool then nZ 0 else nabs (nsub (cosine (vec n (fun j => g i j)) (vec n (fun j => t i j))) (nZ 1))) = row_loss iz n (g i) (t i)).
  { intros i. unfold row_loss. change (vec n (fun j => t i j)) with (vec n (t i)). destruct (iz && zero_row (vec n (t i)))%bool; [reflexivity|]. rewrite nabs_R. change (vec n (fun j => g i j)) with (vec n (g i)). rewrite cosine_vec. cbn [nsub nZ num_R].
    pose proof (csn_le n (fun j => g i j + tny) (fun j => t i j + tny)). rewrite Rabs_left1 by lra. ring. }
  rewrite (vec_ext r _ (fun i => row_loss iz n (g i) (t i))) by (intros i _; apply E). destruct b; [rewrite map_vec|]; rewrite nsum_S; apply S_ext; intros i _; unfold normed; [|reflexivity]. cbn [ndiv num_R]. now rewrite LayerNormProofs.nnat_INR.
Qed.
Lemma cos_grad_mk (b iz : bool) r n (g t : nat -> nat -> R) : cosine_get_grad b iz (mk r n g) (mk r n t) =
  Ok (mk r n (fun i j => - normed b r (if (iz && zero_row (vec n (t i)))%bool then 0 else dcs n (fun j => g i j + tny) (fun j => t i j + tny) j))).
Proof.
  unfold cosine_get_grad. rewrite mshape_mk, !Nat.eqb_refl. cbn [andb negb]. f_equal. apply mkM_eq. rewrite !m_rows_mk, combine_vec, map_vec, vec_length. apply vec_ext. intros i _. cbn [fst snd].
  change (vec n (fun j => t i j)) with (vec n (t i)). change (vec n (fun j => g i j)) with (vec n (g i)). apply cosine_row_vec.
Qed.
Lemma nrm_nz n (a : nat -> R) : (exists j, (j < n)%nat /\ a j + tny <> 0) -> nrm n (fun j => a j + tny) <> 0.
Proof.
  intros (j & Hj & H) E. unfold nrm in E. apply sqrt_eq_0 in E; [|apply S_nonneg; intros i _; apply (Rle_0_sqr (a i + tny))]. apply H. apply (S_sq_zero n (fun j => a j + tny) E j Hj).
Qed.
Lemma exists_ent n (l : list R) : length l = n -> Exists (fun x => x <> - (1 / 100000000)) l -> exists j, (j < n)%nat /\ nth j l 0 + tny <> 0.
Proof.
  intros Hl H. apply Exists_exists in H as (x & Hx & Hn). apply (In_nth _ _ 0) in Hx as (j & Hj & E). exists j. split; [lia|]. unfold tny. rewrite E. intros Z. apply Hn. lra.
Qed.
Lemma cosine_ok (b iz : bool) n G T : input_of n G -> input_of n T -> length (m_rows T) = length (m_rows G) ->
  Forall (Exists (fun x => x <> - (1 / 100000000))) (m_rows G) -> Forall (fun t => (iz = true /\ Forall (fun x => x = 0) t) \/ Exists (fun x => x <> - (1 / 100000000)) t) (m_rows T) ->
  exists D, cosine_get_grad b iz G T = Ok D /\ input_of n D /\ length (m_rows D) = length (m_rows G) /\ loss_gradient (fun g => cosine_get_loss b iz g T) 1 G D.
Proof.
  intros HG HT Hl NG NT. set (r := length (m_rows G)) in *. assert (EG : G = mk r n (ent G)) by (apply as_mk; exact HG). assert (ET : T = mk r n (ent T)) by (rewrite <- Hl; apply as_mk; exact HT).
  assert (NG' : forall i, (i < r)%nat -> exists j, (j < n)%nat /\ ent G i j + tny <> 0).
  { intros i Hi. pose proof (in_nth _ _ [] i NG Hi) as H. apply (exists_ent n) in H; [exact H|]. rewrite (row_vec n G HG i Hi). apply vec_length. }
  assert (NT' : forall i, (i < r)%nat -> (iz && zero_row (vec n (ent T i)))%bool = true \/ exists j, (j < n)%nat /\ ent T i j + tny <> 0).
  { intros i Hi. assert (Hi' : (i < length (m_rows T))%nat) by lia. destruct (in_nth _ _ [] i NT Hi') as [[-> H]|H].
    - left. cbn [andb]. apply zero_row_R. now rewrite (row_vec n T HT i Hi') in H.
    - right. apply (exists_ent n) in H; [exact H|]. rewrite (row_vec n T HT i Hi'). apply vec_length. }
  set (g := ent G) in *. set (t := ent T) in *. clearbody g t. rewrite EG, ET. eexists. split; [apply cos_grad_mk|]. split; [split; [apply mk_wf|reflexivity]|]. split; [now rewrite !mk_rows|].
  intros K Ls HK SK HL. apply curve_mk in HK as (k & -> & Hk). rewrite smooth_mk in SK.
  assert (EL : forall s, Ls s = S_ r (fun i => normed b r (row_loss iz n (fun j => at_time s (k i j)) (t i)))).
  { intros s. destruct (HL s) as (m & Em & El). rewrite vmap_mk in Em. injection Em as <-. change (mkM n (vec r (fun i => vec n (fun j => at_time s (k i j))))) with (mk r n (fun i j => at_time s (k i j))) in El. rewrite cos_loss_mk in El. congruence. }
  apply (der_local _ (fun s => S_ r (fun i => normed b r (row_loss iz n (fun j => at_time s (k i j)) (t i)))) 0 (-1) 1); [lra|intros s _; apply EL|].
  assert (EN : forall x, normed b r x = normed b r 1 * x) by (intros x; unfold normed, Rdiv; destruct b; ring).
  rewrite vmap_mk, inner_mk, Rmult_1_l.
  apply (der_S r (fun i s => normed b r (row_loss iz n (fun j => at_time s (k i j)) (t i))) (fun i => S_ n (fun j => - normed b r (if (iz && zero_row (vec n (t i)))%bool then 0 else dcs n (fun j => g i j + tny) (fun j => t i j + tny) j) * velocity (k i j)))).
  intros i Hi. unfold row_loss. destruct (iz && zero_row (vec n (t i)))%bool eqn:EZ.
  - eapply der_eq; [apply derivable_pt_lim_const|]. rewrite (S_ext n _ (fun _ => 0)); [symmetry; apply S_zero|]. intros j _. rewrite EN. ring.
  - destruct (NT' i Hi) as [H|H]; [congruence|].
    apply (der_local _ (fun s => normed b r 1 * (1 - csn n (fun j => at_time s (k i j) + tny) (fun j => t i j + tny))) 0 (-1) 1); [lra|intros s _; apply EN|].
    eapply der_eq; [apply (derivable_pt_lim_scal (fun s => 1 - csn n (fun j => at_time s (k i j) + tny) (fun j => t i j + tny)) (normed b r 1)); apply (derivable_pt_lim_minus (fun _ => 1) (fun s => csn n (fun j => at_time s (k i j) + tny) (fun j => t i j + tny))); [apply derivable_pt_lim_const|]|].
    + apply (der_csn n (fun j => ((fun s => at_time s (k i j) + tny), velocity (k i j)) : jet) (fun j => g i j + tny)).
      * intros j Hj. unfold smooth. cbn [fst snd]. eapply der_eq; [apply (derivable_pt_lim_plus (fst (k i j)) (fun _ => tny)); [now apply SK|apply derivable_pt_lim_const]|]. change (snd (k i j)) with (velocity (k i j)). ring.
      * intros j Hj. cbn [at_time fst]. unfold at_time at 1. cbn [fst]. f_equal. now apply Hk.
      * apply nrm_nz. now apply NG'.
      * apply nrm_nz. exact H.
    + cbn [velocity snd]. rewrite (S_ext n (fun j => - normed b r (dcs n (fun j0 => g i j0 + tny) (fun j0 => t i j0 + tny) j) * velocity (k i j)) (fun j => - normed b r 1 * (dcs n (fun j0 => g i j0 + tny) (fun j0 => t i j0 + tny) j * velocity (k i j)))) by (intros j _; rewrite EN; ring).
      rewrite S_scale. unfold dcs. ring.
Qed.
Lemma cosine_errors (b iz : bool) (G T : mat R) : length (m_rows G) <> length (m_rows T) \/ m_cols G <> m_cols T -> cosine_get_grad b iz G T = Err ValueError /\ cosine_get_loss b iz G T = Err ValueError.
Proof. intros H. unfold cosine_get_loss, cosine_get_grad. rewrite (mshape_false G T H). now split. Qed.
Lemma cosine_value (b iz : bool) n G T : input_of n G -> input_of n T -> length (m_rows T) = length (m_rows G) -> exists x, cosine_get_loss b iz G T = Ok x /\ 0 <= x.
Proof.
  intros HG HT Hl. rewrite (as_mk n G HG), (as_mk n T HT), Hl, cos_loss_mk. eexists. split; [reflexivity|]. apply S_nonneg. intros i _.
  assert (0 <= row_loss iz n (ent G i) (ent T i)). { unfold row_loss. destruct (_ && _)%bool; [lra|]. pose proof (csn_le n (fun j => ent G i j + tny) (fun j => ent T i j + tny)). lra. }
  unfold normed. destruct b; [|assumption]. unfold Rdiv. apply Rmult_le_pos; [assumption|]. destruct (length (m_rows G)) as [|m] eqn:EL.
  - cbn [INR]. destruct (Req_dec (/ 0) 0) as [Z|Z]; [lra|]. rewrite Rinv_0. lra.
  - left. apply Rinv_0_lt_compat. apply lt_0_INR. lia.
Qed.
