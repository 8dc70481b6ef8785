From Coq Require QArith.
From Verif Require Import NumQ.
From Verif Require Import BaseFacts KernelSpec SeqProofs PaddedProofs PackProofs AdaptProofs MatProofs ReduceProofs ReduceMaxProofs ReduceFirstProofs Seq2colProofs Seq2colBackProofs KernelProofs.
Set Default Goal Selector "!".
Local Open Scope R_scope.

Local Notation rows := (list (list R)).
Local Notation wide O := (Forall (fun r : list R => length r = O)).

Lemma vec_add_vec O (a b : list R) : length a = O -> length b = O -> vec_add a b (nZ 1) = vec O (fun j => nth j a 0 + nth j b 0).
Proof.
  intros La Lb. unfold vec_add. rewrite (vec_of_len 0 O a La) at 1. rewrite (vec_of_len 0 O b Lb) at 1. rewrite vmap2_vec. apply vec_ext. intros j _. cbn. lra.
Qed.
Lemma nth_wide O (t : rows) k : wide O t -> (k < length t)%nat -> length (nth k t []) = O.
Proof. intros Hw Hk. rewrite Forall_forall in Hw. apply Hw. now apply nth_In. Qed.
Lemma lookup_wide O (t : rows) ids : wide O t -> ids_in (length t) ids -> wide O (lookup t ids).
Proof. intros Hw Hi. apply Forall_map. eapply Forall_impl; [|exact Hi]. intros k Hk. cbn in Hk. apply nth_wide; [exact Hw | lia]. Qed.
Lemma nth_error_nth_lt {A} (d : A) l k : (k < length l)%nat -> nth_error l k = Some (nth k l d).
Proof. intros Hk. apply nth_error_nth'. exact Hk. Qed.

(** ** gather_add *)
Lemma gather_row_ok O (table : rows) ids : forall out, wide O table -> length out = O -> ids_in (length table) ids ->
  gather_row table out ids = Ok (vec O (fun j => nth j out 0 + msum (col 0 j (lookup table ids)))).
Proof.
  induction ids as [|k ids IH]; intros out Hw Lo Hi.
  - cbn [gather_row lookup map]. f_equal. rewrite (vec_of_len 0 O out Lo) at 1. apply vec_ext. intros j _. unfold col. cbn. lra.
  - apply Forall_cons_iff in Hi as [H1 H2]. cbn [gather_row]. destruct (Z.ltb_spec (Z.of_nat (length table)) k) as [|_]; [lia|]. destruct (Z.ltb_spec k 0) as [|_]; [lia|].
    rewrite (nth_error_nth_lt []) by lia. pose proof (nth_wide O table (Z.to_nat k) Hw ltac:(lia)) as Lr. rewrite IH; [|exact Hw | rewrite vec_add_length by congruence; exact Lo | exact H2].
    f_equal. apply vec_ext. intros j Hj. rewrite (vec_add_vec O) by assumption. rewrite nth_vec by exact Hj. cbn [lookup map]. rewrite col_cons, msum_cons. fold (lookup table ids). lra.
Qed.
Lemma gather_row_zero O (table : rows) ids : wide O table -> ids_in (length table) ids -> gather_row table (zeros O) ids = Ok (colsum O (lookup table ids)).
Proof.
  intros Hw Hi. rewrite (gather_row_ok O); [|exact Hw | apply repeat_length | exact Hi]. f_equal. rewrite colsum_vec. apply vec_ext. intros j Hj. unfold zeros. rewrite repeat_vec, nth_vec by exact Hj. cbn. lra.
Qed.
Lemma getz_in {A} (l : list (list A)) k : (0 <= k < Z.of_nat (length l))%Z -> py_getz l k = Ok (nth (Z.to_nat k) l []).
Proof.
  intros Hk. unfold py_getz, norm_index. destruct (Z.ltb_spec k 0) as [|_]; [lia|]. destruct (Z.ltb_spec k (Z.of_nat (length l))) as [_|]; [|lia]. unfold py_get. now rewrite (nth_error_nth_lt []) by lia.
Qed.
Lemma sum0_colsum O (l : rows) : sum0 O l = colsum O l.
Proof. unfold sum0, colsum. apply map_ext. intros j. apply nsum_msum. Qed.
Lemma op_gather (table : mat R) indices : Forall (ids_in (m_len table)) indices ->
  op_gather_add table indices = Ok (mkM (m_cols table) (map (fun ids => colsum (m_cols table) (lookup (m_rows table) ids)) indices)).
Proof.
  intros Hi. unfold op_gather_add. rewrite (mapM_ok_map _ (fun ids => colsum (m_cols table) (lookup (m_rows table) ids))); [reflexivity|].
  intros ids Hin. rewrite Forall_forall in Hi. specialize (Hi ids Hin). rewrite (mapM_ok_map _ (fun k => nth (Z.to_nat k) (m_rows table) [])); [cbn [bind]; now rewrite sum0_colsum|].
  intros k Hk. unfold ids_in in Hi. rewrite Forall_forall in Hi. apply getz_in. apply Hi. exact Hk.
Qed.
Lemma gather_ok (table : mat R) K indices : wf_mat table -> m_len table <> 0%nat -> m_cols table <> 0%nat -> indices <> [] -> K <> 0%nat -> Forall (ids_in (m_len table)) indices ->
  np_gather_add table K indices = Ok (mkM (m_cols table) (map (fun ids => colsum (m_cols table) (lookup (m_rows table) ids)) indices)) /\
  op_gather_add table indices = Ok (mkM (m_cols table) (map (fun ids => colsum (m_cols table) (lookup (m_rows table) ids)) indices)).
Proof.
  intros Hw Hl Hc Hn HK Hi. split; [|now apply op_gather]. unfold np_gather_add. destruct (Nat.eqb_spec (m_len table) 0) as [|_]; [contradiction|]. destruct (Nat.eqb_spec (m_cols table) 0) as [|_]; [contradiction|].
  destruct (Nat.eqb_spec (length indices) 0) as [E|_]; [destruct indices; [congruence | discriminate]|]. destruct (Nat.eqb_spec K 0) as [|_]; [contradiction|]. cbn [orb].
  rewrite (mapM_ok_map _ (fun ids => colsum (m_cols table) (lookup (m_rows table) ids))); [reflexivity|].
  intros ids Hin. apply gather_row_zero; [exact Hw|]. rewrite Forall_forall in Hi. now apply Hi.
Qed.
Lemma gather_row_stop {T} `{Num T} (table : list (list T)) ids k post : forall out, ids_in (length table) ids ->
  ((Z.of_nat (length table) < k)%Z -> gather_row table out (ids ++ k :: post) = Err IndexError) /\
  ((k < 0)%Z \/ k = Z.of_nat (length table) -> gather_row table out (ids ++ k :: post) = Err MemFault).
Proof.
  induction ids as [|i ids IH]; intros out Hi; cbn [app gather_row].
  - split; intros Hk; [destruct (Z.ltb_spec (Z.of_nat (length table)) k); [reflexivity | lia]|].
    destruct (Z.ltb_spec (Z.of_nat (length table)) k); [lia|]. destruct (Z.ltb_spec k 0); [reflexivity|]. destruct (nth_error table (Z.to_nat k)) eqn:E; [|reflexivity].
    exfalso. assert (Z.to_nat k < length table)%nat by (apply nth_error_Some; rewrite E; discriminate). lia.
  - apply Forall_cons_iff in Hi as [H1 H2]. destruct (Z.ltb_spec (Z.of_nat (length table)) i) as [|_]; [lia|]. destruct (Z.ltb_spec i 0) as [|_]; [lia|]. rewrite (nth_error_nth_lt []) by lia. now apply IH.
Qed.
Lemma gather_stop {T} `{Num T} (table : mat T) K pre ids k post rest : m_len table <> 0%nat -> m_cols table <> 0%nat -> K <> 0%nat ->
  Forall (ids_in (m_len table)) pre -> ids_in (m_len table) ids ->
  ((Z.of_nat (m_len table) < k)%Z -> np_gather_add table K (pre ++ (ids ++ k :: post) :: rest) = Err IndexError) /\
  ((k < 0)%Z \/ k = Z.of_nat (m_len table) -> np_gather_add table K (pre ++ (ids ++ k :: post) :: rest) = Err MemFault).
Proof.
  intros Hl Hc HK Hp Hi. unfold np_gather_add. destruct (Nat.eqb_spec (m_len table) 0) as [|_]; [contradiction|]. destruct (Nat.eqb_spec (m_cols table) 0) as [|_]; [contradiction|].
  destruct (Nat.eqb_spec (length (pre ++ (ids ++ k :: post) :: rest)) 0) as [E|_]; [rewrite app_length in E; cbn in E; lia|]. destruct (Nat.eqb_spec K 0) as [|_]; [contradiction|]. cbn [orb].
  destruct (gather_row_stop (m_rows table) ids k post (zeros (m_cols table)) Hi) as [G1 G2].
  assert (Q : forall l, Forall (ids_in (m_len table)) l -> exists r, mapM (gather_row (m_rows table) (zeros (m_cols table))) l = Ok r).
  { intros l. induction 1 as [|x l H1 H2 IH]; [eexists; reflexivity|]. destruct IH as [r E]. cbn [mapM].
    assert (G : forall out, exists r, gather_row (m_rows table) out x = Ok r).
    { clear -H1. unfold m_len in H1. induction H1 as [|i x Hi H1 IH]; intros out; [eexists; reflexivity|]. cbn [gather_row]. destruct (Z.ltb_spec (Z.of_nat (length (m_rows table))) i) as [|_]; [lia|]. destruct (Z.ltb_spec i 0) as [|_]; [lia|]. rewrite (nth_error_nth_lt []) by lia. apply IH. }
    destruct (G (zeros (m_cols table))) as [x' Ex]. rewrite Ex. cbn [bind]. rewrite E. eexists. reflexivity. }
  destruct (Q pre Hp) as [r Er]. split; intros Hk; rewrite mapM_app, Er; cbn [bind mapM]; [rewrite (G1 Hk) | rewrite (G2 Hk)]; reflexivity.
Qed.
Lemma op_gather_range {T} `{Num T} (table : mat T) k : ~ (- Z.of_nat (m_len table) <= k < Z.of_nat (m_len table))%Z -> op_gather_add table [[k]] = Err IndexError.
Proof.
  intros Hk. unfold op_gather_add. cbn [mapM]. unfold py_getz, norm_index. fold (m_len table). destruct (Z.ltb_spec k 0); [destruct (Z.leb_spec 0 (k + Z.of_nat (m_len table))); [lia | reflexivity]|].
  destruct (Z.ltb_spec k (Z.of_nat (m_len table))); [lia | reflexivity].
Qed.
Lemma gather_empty {T} `{Num T} (table : mat T) K : np_gather_add table K [] = Err IndexError /\ op_gather_add table [] = Ok (mkM (m_cols table) []).
Proof. split; [|reflexivity]. unfold np_gather_add. cbn [length Nat.eqb]. now rewrite orb_true_r. Qed.

(** ** scatter_add *)
Definition scattered O ids (values table : rows) : rows := vec (length table) (fun t => vec O (fun j => nth j (nth t table []) 0 + msum (col 0 j (with_id t ids values)))).
Lemma with_id_cons {A} t k ids (v : list A) values : with_id t (k :: ids) (v :: values) = if (k =? Z.of_nat t)%Z then v :: with_id t ids values else with_id t ids values.
Proof. unfold with_id. cbn [combine filter fst]. destruct (k =? Z.of_nat t)%Z; reflexivity. Qed.
Lemma wide_set_nth O k (r : list R) t : wide O t -> length r = O -> wide O (set_nth k r t).
Proof. intros Hw Hr. revert k. induction Hw as [|x t Hx Hw IH]; intros [|k]; cbn; constructor; auto. Qed.
Lemma nth_set_nth {A} k (r : A) d t : forall i, (k < length t)%nat -> nth i (set_nth k r t) d = if (i =? k)%nat then r else nth i t d.
Proof.
  revert k. induction t as [|x t IH]; intros [|k] [|i] Hk; cbn in *; try lia; try reflexivity. apply IH. lia.
Qed.
Lemma scatter_ok O ids : forall (values table : rows), wide O values -> wide O table -> length values = length ids -> Forall (fun k => (k < Z.of_nat (length table))%Z) ids ->
  cpu_scatter_add ids values table = Ok (scattered O ids values table).
Proof.
  induction ids as [|k ids IH]; intros values table Hv Ht L Hi.
  - destruct values; [|discriminate]. cbn. f_equal. unfold scattered. rewrite (vec_of [] table) at 1. apply vec_ext. intros t Hlt. rewrite (vec_of_len 0 O (nth t table [])) at 1; [|now apply nth_wide].
    apply vec_ext. intros j _. unfold col. cbn. lra.
  - destruct values as [|v values]; [discriminate|]. apply Forall_cons_iff in Hi as [H1 H2]. apply Forall_cons_iff in Hv as [Hv1 Hv2]. cbn [cpu_scatter_add]. destruct (Z.leb_spec 0 k) as [H0|H0].
    + rewrite (nth_error_nth_lt []) by lia. pose proof (nth_wide O table (Z.to_nat k) Ht ltac:(lia)) as Lr.
      rewrite IH; [|exact Hv2 | apply wide_set_nth; [exact Ht | rewrite vec_add_length by congruence; exact Lr] | cbn in L; lia | rewrite set_nth_length; exact H2].
      f_equal. unfold scattered. rewrite set_nth_length. apply vec_ext. intros t Hlt. apply vec_ext. intros j Hj. rewrite nth_set_nth by lia. rewrite with_id_cons.
      destruct (Nat.eqb_spec t (Z.to_nat k)) as [->|Ne].
      * destruct (Z.eqb_spec k (Z.of_nat (Z.to_nat k))) as [_|]; [|lia]. rewrite (vec_add_vec O), nth_vec, col_cons, msum_cons by assumption. lra.
      * destruct (Z.eqb_spec k (Z.of_nat t)) as [|_]; [lia|]. reflexivity.
    + rewrite IH; [|exact Hv2 | exact Ht | cbn in L; lia | exact H2]. f_equal. unfold scattered. apply vec_ext. intros t Hlt. rewrite with_id_cons. destruct (Z.eqb_spec k (Z.of_nat t)) as [|_]; [lia|]. reflexivity.
Qed.
Lemma add_at_cpu O ids : forall (values table : rows), wide O values -> wide O table -> length values = length ids -> ids_in (length table) ids ->
  cpu_scatter_add ids values table = Ok (add_at (map Z.to_nat ids) values table).
Proof.
  induction ids as [|k ids IH]; intros values table Hv Ht L Hi; [destruct values; reflexivity|].
  destruct values as [|v values]; [discriminate|]. apply Forall_cons_iff in Hi as [H1 H2]. apply Forall_cons_iff in Hv as [Hv1 Hv2]. cbn [cpu_scatter_add map add_at]. destruct (Z.leb_spec 0 k) as [_|]; [|lia].
  rewrite (nth_error_nth_lt []) by lia. pose proof (nth_wide O table (Z.to_nat k) Ht ltac:(lia)) as Lr.
  assert (E : vec_add (nth (Z.to_nat k) table []) v (nZ 1) = vmap2 nadd (nth (Z.to_nat k) table []) v). { unfold vec_add, vmap2. apply map_ext. intros [x y]. cbn. lra. }
  rewrite <- E. apply IH; [exact Hv2 | apply wide_set_nth; [exact Ht | rewrite vec_add_length by congruence; exact Lr] | cbn in L; lia | rewrite set_nth_length; exact H2].
Qed.
Lemma norm_all_in n ids : ids_in n ids -> norm_all n ids = Ok (map Z.to_nat ids).
Proof.
  intros Hi. apply mapM_ok_map. unfold ids_in in Hi. rewrite Forall_forall in Hi. intros k Hk. specialize (Hi k Hk). unfold norm_index. destruct (Z.ltb_spec k 0) as [|_]; [lia|]. destruct (Z.ltb_spec k (Z.of_nat n)) as [_|]; [reflexivity | lia].
Qed.
Lemma op_scatter_ok (table values : mat R) ids : wf_mat table -> wf_mat values -> m_cols values = m_cols table -> m_len values = length ids -> ids_in (m_len table) ids ->
  op_scatter_add table ids values = Ok (mkM (m_cols table) (scattered (m_cols table) ids (m_rows values) (m_rows table))).
Proof.
  intros Ht Hv Ec El Hi. unfold op_scatter_add. rewrite norm_all_in by exact Hi. cbn [bind]. unfold broadcast_values. rewrite El, Nat.eqb_refl. cbn [bind]. rewrite Ec, Nat.eqb_refl. cbn [bind].
  unfold wf_mat in Hv. rewrite Ec in Hv. pose proof (add_at_cpu (m_cols table) ids (m_rows values) (m_rows table) Hv Ht El Hi) as E.
  rewrite (scatter_ok (m_cols table)) in E; [|exact Hv | exact Ht | exact El | eapply Forall_impl; [|exact Hi]; cbn; unfold m_len; lia]. injection E as E. now rewrite E.
Qed.
Lemma np_scatter_run (table values : mat R) ids : wf_mat table -> wf_mat values -> m_cols values = m_cols table -> m_len values = length ids -> Forall (fun k => (k < Z.of_nat (m_len table))%Z) ids ->
  np_scatter_add true table ids values = Ok (mkM (m_cols table) (scattered (m_cols table) ids (m_rows values) (m_rows table))).
Proof.
  intros Ht Hv Ec El Hi. unfold np_scatter_add. rewrite El, Ec, !Nat.eqb_refl. cbn [andb]. unfold wf_mat in Hv. rewrite Ec in Hv. rewrite (scatter_ok (m_cols table)); [reflexivity | exact Hv | exact Ht | exact El | exact Hi].
Qed.
Lemma np_scatter_any fast (table values : mat R) ids : wf_mat table -> wf_mat values -> m_cols values = m_cols table -> m_len values = length ids -> ids_in (m_len table) ids ->
  np_scatter_add fast table ids values = Ok (mkM (m_cols table) (scattered (m_cols table) ids (m_rows values) (m_rows table))).
Proof.
  intros Ht Hv Ec El Hi. destruct fast; [apply np_scatter_run; try assumption; eapply Forall_impl; [|exact Hi]; cbn; unfold m_len; lia|]. unfold np_scatter_add. cbn [andb]. now apply op_scatter_ok.
Qed.
Lemma scattered_shape O ids values table : length (scattered O ids values table) = length table /\ wide O (scattered O ids values table).
Proof. split; [apply vec_length|]. unfold scattered, vec at 1. apply Forall_map. apply Forall_forall. intros t _. apply vec_length. Qed.
Lemma scattered_rows O ids values table t r : wide O table -> nth_error table t = Some r ->
  nth_error (scattered O ids values table) t = Some (map (fun p => fst p + snd p) (combine r (colsum O (with_id t ids values)))).
Proof.
  intros Hw Hr. assert (Hlt : (t < length table)%nat) by (apply nth_error_Some; rewrite Hr; discriminate). unfold scattered. rewrite (nth_error_nth_lt []) by (rewrite vec_length; exact Hlt).
  rewrite nth_vec by exact Hlt. f_equal. rewrite (nth_error_nth _ _ _ Hr). assert (Lr : length r = O) by (rewrite Forall_forall in Hw; apply Hw; eapply nth_error_In; exact Hr).
  rewrite (vec_of_len 0 O r Lr) at 1. rewrite colsum_vec, combine_vec, map_vec. reflexivity.
Qed.
Lemma scatter_rows fast (table values : mat R) ids : wf_mat table -> wf_mat values -> m_cols values = m_cols table -> m_len values = length ids -> ids_in (m_len table) ids ->
  exists table', np_scatter_add fast table ids values = Ok table' /\ m_cols table' = m_cols table /\ m_len table' = m_len table /\ wf_mat table' /\
    forall t r, nth_error (m_rows table) t = Some r -> nth_error (m_rows table') t = Some (map (fun p => fst p + snd p) (combine r (colsum (m_cols table) (with_id t ids (m_rows values))))).
Proof.
  intros Ht Hv Ec El Hi. eexists. split; [now apply np_scatter_any|]. destruct (scattered_shape (m_cols table) ids (m_rows values) (m_rows table)) as [S1 S2].
  split; [reflexivity|]. split; [exact S1|]. split; [exact S2|]. intros t r Hr. now apply scattered_rows.
Qed.
Lemma scatter_fast_negative (table values : mat R) ids : wf_mat table -> wf_mat values -> m_cols values = m_cols table -> m_len values = length ids -> Forall (fun k => (k < Z.of_nat (m_len table))%Z) ids ->
  exists table', np_scatter_add true table ids values = Ok table' /\ m_cols table' = m_cols table /\ m_len table' = m_len table /\ wf_mat table' /\
    forall t r, nth_error (m_rows table) t = Some r -> nth_error (m_rows table') t = Some (map (fun p => fst p + snd p) (combine r (colsum (m_cols table) (with_id t ids (m_rows values))))).
Proof.
  intros Ht Hv Ec El Hi. eexists. split; [now apply np_scatter_run|]. destruct (scattered_shape (m_cols table) ids (m_rows values) (m_rows table)) as [S1 S2].
  split; [reflexivity|]. split; [exact S1|]. split; [exact S2|]. intros t r Hr. now apply scattered_rows.
Qed.
Lemma mdot_set O k (v : list R) : forall (t G : rows), wide O t -> length v = O -> (k < length t)%nat -> length G = length t ->
  mdot (set_nth k (vec_add (nth k t []) v 1) t) G = mdot t G + dot v (nth k G []).
Proof.
  induction k as [|k IH]; intros [|x t] [|g G] Hw Lv Hk L; cbn [length] in *; try lia; apply Forall_cons_iff in Hw as [H1 H2]; cbn [set_nth nth]; rewrite !mdot_cons.
  - rewrite vec_add_dot by congruence. lra.
  - rewrite IH by (try assumption; lia). lra.
Qed.
Lemma cpu_adjoint O ids : forall (values table G : rows) t', wide O values -> wide O table -> length values = length ids -> ids_in (length table) ids -> length G = length table ->
  cpu_scatter_add ids values table = Ok t' -> mdot t' G = mdot table G + mdot values (lookup G ids).
Proof.
  induction ids as [|k ids IH]; intros values table G t' Hv Ht L Hi LG E.
  - destruct values; [|discriminate]. cbn in E. injection E as <-. rewrite mdot_nil_l. lra.
  - destruct values as [|v values]; [discriminate|]. apply Forall_cons_iff in Hi as [H1 H2]. apply Forall_cons_iff in Hv as [Hv1 Hv2]. cbn [cpu_scatter_add] in E. destruct (Z.leb_spec 0 k) as [_|]; [|lia].
    rewrite (nth_error_nth_lt []) in E by lia. pose proof (nth_wide O table (Z.to_nat k) Ht ltac:(lia)) as Lr.
    eapply IH with (G := G) in E; [|exact Hv2 | apply wide_set_nth; [exact Ht | rewrite vec_add_length by congruence; exact Lr] | cbn in L; lia | rewrite set_nth_length; exact H2 | rewrite set_nth_length; exact LG].
    rewrite E. change (@nZ R num_R 1) with 1. rewrite (mdot_set O) by (try assumption; lia). cbn [lookup map]. rewrite mdot_cons. fold (lookup G ids). lra.
Qed.
Lemma scatter_adjoint fast (table values G : mat R) ids table' : wf_mat table -> wf_mat values -> m_cols values = m_cols table -> m_len values = length ids -> ids_in (m_len table) ids ->
  m_len G = m_len table -> np_scatter_add fast table ids values = Ok table' ->
  mdot (m_rows table') (m_rows G) = mdot (m_rows table) (m_rows G) + mdot (m_rows values) (lookup (m_rows G) ids).
Proof.
  intros Ht Hv Ec El Hi LG E. rewrite np_scatter_any in E by assumption. injection E as <-. cbn [m_rows]. unfold wf_mat in Hv. rewrite Ec in Hv.
  apply (cpu_adjoint (m_cols table)); try assumption. apply scatter_ok; try assumption. eapply Forall_impl; [|exact Hi]. cbn. unfold m_len. lia.
Qed.
Lemma scatter_checked (table values : mat R) ids : ~ Forall (fun k => (- Z.of_nat (m_len table) <= k < Z.of_nat (m_len table))%Z) ids ->
  np_scatter_add false table ids values = Err IndexError.
Proof.
  intros Hi. unfold np_scatter_add. cbn [andb]. unfold op_scatter_add. assert (E : norm_all (m_len table) ids = Err IndexError); [|rewrite E; reflexivity].
  induction ids as [|k ids IH]; [exfalso; apply Hi; constructor|]. unfold norm_all. cbn [mapM]. fold (norm_all (m_len table) ids). unfold norm_index.
  destruct (Z.ltb_spec k 0); [destruct (Z.leb_spec 0 (k + Z.of_nat (m_len table))) | destruct (Z.ltb_spec k (Z.of_nat (m_len table)))]; cbn [bind]; try reflexivity;
    (rewrite IH; [reflexivity|]; intros C; apply Hi; constructor; [lia | exact C]).
Qed.
Lemma scatter_fault (table : mat R) pre k post values : wf_mat table -> wf_mat values -> m_cols values = m_cols table -> m_len values = length (pre ++ k :: post) -> ids_in (m_len table) pre ->
  (Z.of_nat (m_len table) <= k)%Z -> np_scatter_add true table (pre ++ k :: post) values = Err MemFault.
Proof.
  intros Ht Hv Ec El Hp Hk. unfold np_scatter_add. rewrite El, Ec, !Nat.eqb_refl. cbn [andb]. unfold wf_mat in Hv, Ht. unfold m_len in *.
  assert (G : cpu_scatter_add (pre ++ k :: post) (m_rows values) (m_rows table) = Err MemFault); [|rewrite G; reflexivity].
  revert Hk Hp El. generalize (m_rows values) (m_rows table). induction pre as [|i pre IH]; intros vs t Hk Hp El; (destruct vs as [|v vs]; [discriminate|]); cbn [app cpu_scatter_add].
  - destruct (Z.leb_spec 0 k) as [_|]; [|lia]. destruct (nth_error t (Z.to_nat k)) eqn:E; [|reflexivity]. exfalso. assert (Z.to_nat k < length t)%nat by (apply nth_error_Some; rewrite E; discriminate). lia.
  - apply Forall_cons_iff in Hp as [H1 H2]. destruct (Z.leb_spec 0 i) as [_|]; [|lia]. rewrite (nth_error_nth_lt []) by lia. apply IH; [rewrite set_nth_length; exact Hk | rewrite set_nth_length; exact H2 | cbn in El; lia].
Qed.
Lemma norm_all_ok {T} (table : mat T) ids : Forall (fun k => (- Z.of_nat (m_len table) <= k < Z.of_nat (m_len table))%Z) ids -> exists k, norm_all (m_len table) ids = Ok k /\ length k = length ids.
Proof.
  unfold norm_all. induction 1 as [|i ids H F IH]; [exists []; now split|]. destruct IH as (k & E & L). cbn [mapM]. rewrite E. unfold norm_index.
  destruct (Z.ltb_spec i 0); [destruct (Z.leb_spec 0 (i + Z.of_nat (m_len table))); [|lia] | destruct (Z.ltb_spec i (Z.of_nat (m_len table))); [|lia]]; cbn [bind]; eexists; (split; [reflexivity|cbn; congruence]).
Qed.
Lemma scatter_shapes {T} {N : Num T} fast (table values : mat T) ids : Forall (fun k => (- Z.of_nat (m_len table) <= k < Z.of_nat (m_len table))%Z) ids ->
  (m_len values <> length ids /\ m_len values <> 1%nat) \/ (m_cols values <> m_cols table /\ m_cols values <> 1%nat) -> np_scatter_add fast table ids values = Err ValueError.
Proof.
  intros HI H. destruct (norm_all_ok table ids HI) as (k & Ek & _). unfold np_scatter_add, op_scatter_add. rewrite Ek. cbn [bind].
  replace (fast && (m_len values =? length ids)%nat && (m_cols values =? m_cols table)%nat)%bool with false by (destruct fast, (Nat.eqb_spec (m_len values) (length ids)), (Nat.eqb_spec (m_cols values) (m_cols table)); cbn; try reflexivity; exfalso; lia).
  unfold broadcast_values. destruct (Nat.eqb_spec (m_len values) (length ids)) as [E|E]; cbn [bind].
  - destruct (Nat.eqb_spec (m_cols values) (m_cols table)); [exfalso; lia|]. destruct (Nat.eqb_spec (m_cols values) 1); [exfalso; lia|]. reflexivity.
  - unfold m_len in *. destruct (m_rows values) as [|r [|r' rs]]; cbn [bind]; try reflexivity. destruct (Nat.eqb_spec (m_cols values) (m_cols table)); [cbn in H; exfalso; lia|]. destruct (Nat.eqb_spec (m_cols values) 1); [exfalso; cbn in H; lia|]. reflexivity.
Qed.
Lemma scatter_one_row {T} {N : Num T} (table : mat T) ids c r : np_scatter_add false table ids (mkM c [r]) = np_scatter_add false table ids (mkM c (repeat r (length ids))).
Proof.
  unfold np_scatter_add, op_scatter_add. cbn [andb]. destruct (norm_all (m_len table) ids); [|reflexivity]. cbn [bind]. f_equal. unfold broadcast_values, m_len. cbn [m_rows m_cols]. rewrite repeat_length, Nat.eqb_refl.
  destruct (Nat.eqb_spec (length [r]) (length ids)) as [E|E]; [|reflexivity]. rewrite <- E. reflexivity.
Qed.
Lemma scatter_one_col {T} {N : Num T} (table : mat T) ids (xs : list T) : length xs = length ids ->
  np_scatter_add false table ids (mkM 1 (map (fun x => [x]) xs)) = np_scatter_add false table ids (mkM (m_cols table) (map (fun x => repeat x (m_cols table)) xs)).
Proof.
  intros L. unfold np_scatter_add, op_scatter_add. cbn [andb]. destruct (norm_all (m_len table) ids); [|reflexivity]. cbn [bind]. f_equal. unfold broadcast_values, m_len. cbn [m_rows m_cols]. rewrite !map_length, L, !Nat.eqb_refl. cbn [bind].
  destruct (Nat.eqb_spec 1 (m_cols table)) as [E|E]; [rewrite <- E; reflexivity|]. f_equal. rewrite map_map. reflexivity.
Qed.
