From Verif Require Import BaseFacts ReduceSpec SeqProofs PaddedProofs PackProofs AdaptProofs MatProofs.
Set Default Goal Selector "!".
Local Open Scope R_scope.

Local Notation rows := (list (list R)).
Local Notation wide O := (Forall (fun r : list R => length r = O)).

Lemma wide_firstn O n (X : rows) : wide O X -> wide O (firstn n X).
Proof. intros H. rewrite <- (firstn_skipn n X) in H. now apply Forall_app in H. Qed.
Lemma wide_skipn O n (X : rows) : wide O X -> wide O (skipn n X).
Proof. intros H. rewrite <- (firstn_skipn n X) in H. now apply Forall_app in H. Qed.

(** ** sum and mean *)

Lemma add_rows_ok scale O n : forall (X : rows) acc, (n <= length X)%nat -> wide O X -> length acc = O ->
  add_rows scale n acc X = Ok (vec O (fun j => nth j acc 0 + scale * msum (col 0 j (firstn n X))), skipn n X).
Proof.
  induction n as [|n IH]; intros X acc Hn Hw Ha.
  - cbn [add_rows firstn skipn col map]. f_equal. f_equal. rewrite (vec_of_len 0 O acc Ha) at 1. apply vec_ext. intros j _. change (msum []) with 0. lra.
  - destruct X as [|x X]; [cbn in Hn; lia|]. apply Forall_cons_iff in Hw as [Hx Hw]. cbn [add_rows firstn skipn].
    assert (E : vec_add acc x scale = vec O (fun j => nth j acc 0 + scale * nth j x 0)).
    { unfold vec_add. rewrite (vec_of_len 0 O acc Ha) at 1. rewrite (vec_of_len 0 O x Hx) at 1. now rewrite vmap2_vec. }
    rewrite IH; [|cbn in Hn; lia | assumption | rewrite E; apply vec_length].
    f_equal. f_equal. apply vec_ext. intros j Hj. rewrite E, nth_vec by exact Hj. rewrite col_cons, msum_cons. lra.
Qed.

Section Red.
  Context (scale : Z -> R) (O : nat) (f : rows -> list R).
  Context (Hf : forall X, X <> [] -> wide O X -> f X = vec O (fun j => scale (Z.of_nat (length X)) * msum (col 0 j X))).

  Lemma cpu_reduce_op (X : rows) lengths : forall start, (start <= length X)%nat -> wide O X ->
    cpu_reduce scale O (Z.of_nat (length X) - Z.of_nat start) (skipn start X) lengths = op_reduce_loop f O start X lengths.
  Proof.
    induction lengths as [|len lengths IH]; intros start Hs Hw; [reflexivity|]. cbn [cpu_reduce op_reduce_loop].
    destruct (Z.ltb_spec len 0) as [Hn|Hn]; [reflexivity|].
    destruct (Z.ltb_spec (Z.of_nat (length X) - Z.of_nat start) len) as [Ht|Ht];
      destruct (Z.ltb_spec (Z.of_nat (length X)) (Z.of_nat start + len)) as [Ht'|Ht']; try lia; [reflexivity|].
    rewrite (add_rows_ok _ O); [|rewrite skipn_length; lia | now apply wide_skipn | apply repeat_length].
    cbn [bind fst snd]. rewrite skipn_skipn. rewrite <- (IH (start + Z.to_nat len)%nat) by (try assumption; lia).
    replace (Z.of_nat (length X) - Z.of_nat (start + Z.to_nat len))%Z with (Z.of_nat (length X) - Z.of_nat start - len)%Z by lia.
    assert (E : vec O (fun j => nth j (zeros O) 0 + scale len * msum (col 0 j (firstn (Z.to_nat len) (skipn start X))))
       = (if (Z.to_nat len =? 0)%nat then zeros O else f (slice_rows start (start + Z.to_nat len) X))).
    { unfold zeros. destruct (Nat.eqb_spec (Z.to_nat len) 0) as [E0|E0].
      - rewrite E0. cbn [firstn col map]. rewrite (repeat_vec _ O). apply vec_ext. intros j Hj. rewrite nth_vec by exact Hj. change (msum []) with 0. cbn. lra.
      - unfold slice_rows. replace (start + Z.to_nat len - start)%nat with (Z.to_nat len) by lia.
        assert (El : length (firstn (Z.to_nat len) (skipn start X)) = Z.to_nat len) by (rewrite firstn_length, skipn_length; lia).
        rewrite Hf; [|intros E; rewrite E in El; cbn in El; lia | apply wide_firstn; now apply wide_skipn].
        apply vec_ext. intros j Hj. rewrite El, repeat_vec, nth_vec by exact Hj. rewrite Z2Nat.id by lia. cbn. lra. }
    rewrite E. replace (start + Z.to_nat len)%nat with (Z.to_nat len + start)%nat by lia. reflexivity.
  Qed.
End Red.

Lemma sum0_vec O X : sum0 O X = vec O (fun j => scale1 (Z.of_nat (length X)) * msum (col 0 j X)).
Proof. unfold sum0, scale1. apply map_ext. intros j. rewrite nsum_msum. cbn. lra. Qed.
Lemma mean0_vec O X : mean0 O X = vec O (fun j => scale_inv (Z.of_nat (length X)) * msum (col 0 j X)).
Proof. unfold mean0, sum0, scale_inv, vec. rewrite map_map. apply map_ext. intros j. rewrite nsum_msum. unfold nnat. cbn. unfold Rdiv. lra. Qed.

Lemma np_op (scale : Z -> R) f X lengths : (forall O (X : rows), f O X = vec O (fun j => scale (Z.of_nat (length X)) * msum (col 0 j X))) ->
  wf_mat X -> m_cols X <> 0%nat -> m_rows X <> [] ->
  np_reduce scale X lengths = let* r := op_reduce_loop (f (m_cols X)) (m_cols X) 0 (m_rows X) lengths in Ok (mkM (m_cols X) r).
Proof.
  intros Hf Hw Hc Hr. unfold np_reduce. destruct (Nat.eqb_spec (m_cols X) 0) as [|_]; [contradiction|]. rewrite orb_false_r.
  destruct (Nat.eqb_spec (length lengths) 0) as [E|E].
  - apply length_zero_iff_nil in E. subst lengths. reflexivity.
  - unfold m_len. destruct (m_rows X) as [|x l] eqn:Er; [congruence|]. rewrite <- Er.
    rewrite <- (cpu_reduce_op scale (m_cols X) (f (m_cols X))) by (try lia; intros; try apply Hf; exact Hw).
    now rewrite Nat2Z.inj_0, Z.sub_0_r.
Qed.

Lemma sum_backends X lengths : wf_mat X -> m_cols X <> 0%nat -> m_rows X <> [] -> np_reduce_sum X lengths = op_reduce_sum X lengths.
Proof. intros. apply (np_op scale1 sum0); try assumption. intros. apply sum0_vec. Qed.
Lemma mean_backends X lengths : wf_mat X -> m_cols X <> 0%nat -> m_rows X <> [] -> np_reduce_mean X lengths = op_reduce_mean X lengths.
Proof. intros. apply (np_op scale_inv mean0); try assumption. intros. apply mean0_vec. Qed.

Section Loop.
  Context (f : rows -> list R) (O : nat) (X : rows).

  Lemma op_loop_ok lengths : forall start, nonneg lengths -> (Z.of_nat start + zsum lengths <= Z.of_nat (length X))%Z ->
    op_reduce_loop f O start X lengths =
    Ok (map (fun s : rows => match s with [] => zeros O | _ => f s end) (chop (map Z.to_nat lengths) (skipn start X))).
  Proof.
    induction lengths as [|len lengths IH]; intros start Hn Hs; [reflexivity|]. inversion Hn as [|? ? H0 Hn']; subst. cbn [zsum fold_right] in Hs. fold (zsum lengths) in Hs.
    assert (Hz : (0 <= zsum lengths)%Z) by (clear -Hn'; induction Hn' as [|? ? ? ? IH]; cbn; [lia | unfold zsum in IH; lia]).
    cbn [op_reduce_loop map chop].
    destruct (Z.ltb_spec len 0) as [?|_]; [lia|]. destruct (Z.ltb_spec (Z.of_nat (length X)) (Z.of_nat start + len)) as [?|_]; [lia|].
    rewrite IH by (try assumption; lia). cbn [bind]. rewrite skipn_skipn. replace (Z.to_nat len + start)%nat with (start + Z.to_nat len)%nat by lia.
    do 2 f_equal. unfold slice_rows. replace (start + Z.to_nat len - start)%nat with (Z.to_nat len) by lia.
    assert (El : length (firstn (Z.to_nat len) (skipn start X)) = Z.to_nat len) by (rewrite firstn_length, skipn_length; lia).
    destruct (Nat.eqb_spec (Z.to_nat len) 0) as [E|E]; destruct (firstn (Z.to_nat len) (skipn start X)) eqn:Ef; cbn in El; try lia; reflexivity.
  Qed.

  (** The first offending length decides the error. *)
  Lemma op_loop_error pre n post : forall start, nonneg pre -> (Z.of_nat start + zsum pre <= Z.of_nat (length X))%Z ->
    ((n < 0)%Z -> op_reduce_loop f O start X (pre ++ n :: post) = Err ValueError) /\
    ((0 <= n)%Z -> (Z.of_nat (length X) < Z.of_nat start + zsum pre + n)%Z -> op_reduce_loop f O start X (pre ++ n :: post) = Err IndexError).
  Proof.
    induction pre as [|len pre IH]; intros start Hn Hs.
    - cbn [app op_reduce_loop]. cbn [zsum fold_right] in *. split.
      + intros H. destruct (Z.ltb_spec n 0); [reflexivity | lia].
      + intros H H1. destruct (Z.ltb_spec n 0); [lia|]. destruct (Z.ltb_spec (Z.of_nat (length X)) (Z.of_nat start + n)); [reflexivity | lia].
    - inversion Hn as [|? ? H0 Hn']; subst. cbn [zsum fold_right] in *. fold (zsum pre) in *.
      assert (Hz : (0 <= zsum pre)%Z) by (clear -Hn'; induction Hn' as [|? ? ? ? IH]; cbn; [lia | unfold zsum in IH; lia]).
      cbn [app op_reduce_loop]. destruct (Z.ltb_spec len 0) as [?|_]; [lia|]. destruct (Z.ltb_spec (Z.of_nat (length X)) (Z.of_nat start + len)) as [?|_]; [lia|].
      destruct (IH (start + Z.to_nat len)%nat Hn') as [I1 I2]; [lia|]. split.
      + intros H. now rewrite I1.
      + intros H H1. rewrite I2 by lia. reflexivity.
  Qed.
End Loop.

Lemma colsum_sum0 O X : sum0 O X = colsum O X.
Proof. rewrite sum0_vec. apply vec_ext. intros j _. unfold scale1. cbn. lra. Qed.
Lemma colmean_mean0 O X : mean0 O X = colmean O X.
Proof. unfold mean0, colmean. rewrite colsum_sum0. unfold nnat. apply map_ext. intros s. cbn. now rewrite INR_IZR_INZ. Qed.
Lemma colsum_nil O : colsum O [] = repeat 0 O.
Proof. rewrite repeat_vec. reflexivity. Qed.
Lemma colmean_nil O : colmean O [] = repeat 0 O.
Proof. unfold colmean. rewrite colsum_nil, !repeat_vec, map_vec. apply vec_ext. intros j _. unfold Rdiv. lra. Qed.

Lemma op_sum_ok X lengths : nonneg lengths -> (zsum lengths <= Z.of_nat (m_len X))%Z ->
  op_reduce_sum X lengths = Ok (mkM (m_cols X) (map (colsum (m_cols X)) (seqs_of lengths (m_rows X)))).
Proof.
  intros Hn Hs. unfold op_reduce_sum. rewrite op_loop_ok by (try assumption; unfold m_len in *; lia). cbn [bind skipn]. do 2 f_equal. apply map_ext.
  intros [|x s]; [symmetry; apply colsum_nil | apply colsum_sum0].
Qed.
Lemma op_mean_ok X lengths : nonneg lengths -> (zsum lengths <= Z.of_nat (m_len X))%Z ->
  op_reduce_mean X lengths = Ok (mkM (m_cols X) (map (colmean (m_cols X)) (seqs_of lengths (m_rows X)))).
Proof.
  intros Hn Hs. unfold op_reduce_mean. rewrite op_loop_ok by (try assumption; unfold m_len in *; lia). cbn [bind skipn]. do 2 f_equal. apply map_ext.
  intros [|x s]; [symmetry; apply colmean_nil | apply colmean_mean0].
Qed.

(** Backward. *)
Definition back_rows (scale : Z -> R) (dY : rows) (lengths : list Z) : rows :=
  concat (map (fun p => repeat (map (fun x => scale (snd p) * x) (fst p)) (Z.to_nat (snd p))) (combine dY lengths)).

Lemma cpu_back_ok scale O lengths : forall dY, length dY = length lengths -> wide O dY ->
  cpu_backprop_reduce scale O dY lengths = Ok (back_rows scale dY lengths).
Proof.
  induction lengths as [|len lengths IH]; intros [|d dY] El Hw; try discriminate; [reflexivity|]. inversion Hw; subst.
  cbn [cpu_backprop_reduce tl]. rewrite IH by (try assumption; cbn in El; lia). cbn [bind]. unfold back_rows. cbn [combine map concat fst snd].
  destruct (Z.to_nat len) as [|n]; [reflexivity|]. do 3 f_equal.
  unfold vec_add, zeros. rewrite (vec_of 0 d) at 2 3. rewrite repeat_vec, vmap2_vec, map_vec. apply vec_ext. intros j _. cbn. lra.
Qed.
Lemma op_back_ok f scale (dY : rows) lengths : (forall len x, f len x = scale len * x) -> nonneg lengths -> forall i, (i + length lengths = length dY)%nat ->
  op_backprop_loop f dY i lengths = Ok (back_rows scale (skipn i dY) lengths).
Proof.
  intros Hf. induction lengths as [|len lengths IH]; intros Hn i Hi.
  - unfold back_rows. cbn. destruct (skipn i dY); reflexivity.
  - inversion Hn; subst. cbn [op_backprop_loop length] in *. destruct (Z.ltb_spec len 0); [lia|].
    assert (Hlt : (i < length dY)%nat) by lia. unfold py_get. rewrite (nth_error_nth' dY [] Hlt). cbn [bind]. rewrite IH by (try assumption; lia). cbn [bind].
    rewrite (skipn_nth_error dY i _ (nth_error_nth' dY [] Hlt)). unfold back_rows. cbn [combine map concat fst snd]. do 3 f_equal. apply map_ext. intros x. apply Hf.
Qed.

Lemma existsb_nonneg lengths : nonneg lengths -> existsb (fun len => (len <? 0)%Z) lengths = false.
Proof. induction 1 as [|len l H0 Hn IH]; [reflexivity|]. cbn. destruct (Z.ltb_spec len 0); [lia | exact IH]. Qed.
Lemma zsum_nonneg lengths : nonneg lengths -> (0 <= zsum lengths)%Z.
Proof. induction 1 as [|? ? ? ? IH]; cbn; [lia | unfold zsum in IH; lia]. Qed.
Lemma zsum_nat lengths : nonneg lengths -> zsum lengths = Z.of_nat (list_sum_nat (map Z.to_nat lengths)).
Proof. unfold zsum, list_sum_nat. induction 1 as [|? ? ? ? IH]; cbn; [reflexivity|]. rewrite IH. lia. Qed.

Lemma back_rows_zero scale dY lengths O : nonneg lengths -> length dY = length lengths -> wide O dY -> (zsum lengths = 0)%Z \/ O = 0%nat ->
  back_rows scale dY lengths = repeat (zeros O) (Z.to_nat (zsum lengths)).
Proof.
  intros Hn. revert dY. induction Hn as [|len l H0 Hn IH]; intros [|d dY] El Hw Hz; try discriminate; [reflexivity|].
  unfold back_rows. cbn [combine map concat fst snd]. fold (back_rows scale dY l). inversion Hw; subst. pose proof (zsum_nonneg l Hn) as Hp.
  cbn [zsum fold_right] in *. fold (zsum l) in *. rewrite IH; [|cbn in El; lia | assumption | destruct Hz; [left; lia | now right]].
  rewrite Z2Nat.inj_add by lia. rewrite repeat_app. f_equal. destruct Hz as [Hz|Hz].
  - replace (Z.to_nat len) with 0%nat by lia. reflexivity.
  - rewrite Hz. apply length_zero_iff_nil in Hz. subst d. reflexivity.
Qed.

Lemma np_back_ok scale dY lengths : nonneg lengths -> m_len dY = length lengths -> wf_mat dY ->
  np_backprop_reduce scale dY lengths = Ok (mkM (m_cols dY) (back_rows scale (m_rows dY) lengths)).
Proof.
  intros Hn El Hw. unfold np_backprop_reduce. rewrite existsb_nonneg by exact Hn.
  destruct (Z.eqb_spec (zsum lengths) 0) as [Ez|Ez]; [cbn [orb]; unfold mzeros; now rewrite <- (back_rows_zero scale (m_rows dY) lengths (m_cols dY)) by (try assumption; now left)|].
  destruct (Nat.eqb_spec (m_cols dY) 0) as [Eo|Eo]; [cbn [orb]; unfold mzeros; now rewrite <- (back_rows_zero scale (m_rows dY) lengths (m_cols dY)) by (try assumption; now right)|].
  cbn [orb]. unfold m_len in El. assert (Hne : m_rows dY <> []) by (intros E; rewrite E in El; destruct lengths; [cbn in Ez; lia | discriminate]).
  destruct (m_rows dY) as [|d l] eqn:Er; [congruence|]. rewrite <- Er in *. rewrite cpu_back_ok by assumption. reflexivity.
Qed.

Lemma back_adjoint scale O lengths : forall dY X, nonneg lengths -> length dY = length lengths -> wide O dY -> wide O X ->
  zsum lengths = Z.of_nat (length X) ->
  mdot (back_rows scale dY lengths) X = mdot dY (map (fun s : rows => map (fun x => scale (Z.of_nat (length s)) * x) (colsum O s)) (seqs_of lengths X)).
Proof.
  induction lengths as [|len lengths IH]; intros [|d dY] X Hn El Hd Hx Hs; try discriminate.
  - reflexivity.
  - inversion Hn as [|? ? H0 Hn']; subst. inversion Hd as [|? ? Hl Hd']; subst. pose proof (zsum_nonneg _ Hn') as Hp.
    cbn [zsum fold_right] in Hs. fold (zsum lengths) in Hs. unfold back_rows, seqs_of. cbn [combine map concat fst snd chop].
    fold (back_rows scale dY lengths). fold (seqs_of lengths (skipn (Z.to_nat len) X)).
    assert (Ef : length (firstn (Z.to_nat len) X) = Z.to_nat len) by (rewrite firstn_length; lia).
    rewrite <- (firstn_skipn (Z.to_nat len) X) at 1. rewrite mdot_app by (rewrite repeat_length; lia). rewrite mdot_cons. f_equal.
    + rewrite mdot_repeat by exact Ef. rewrite Ef, Z2Nat.id by lia.
      rewrite (msum_ext_in _ (fun r => scale len * dot d r)) by (intros r _; apply dot_scale_l). rewrite msum_scale.
      rewrite <- (dot_colsum (length d)) by (try reflexivity; now apply wide_firstn). rewrite (dot_comm d (map _ _)), dot_scale_l. now rewrite dot_comm.
    + apply IH; [assumption | cbn in El; lia | assumption | now apply wide_skipn | rewrite skipn_length; lia].
Qed.

Lemma back_rows_shape scale O lengths : forall dY, nonneg lengths -> length dY = length lengths -> wide O dY ->
  wide O (back_rows scale dY lengths) /\ Z.of_nat (length (back_rows scale dY lengths)) = zsum lengths.
Proof.
  induction lengths as [|len lengths IH]; intros [|d dY] Hn El Hd; try discriminate; [split; [constructor | reflexivity]|].
  inversion Hn as [|? ? H0 Hn']; subst. inversion Hd as [|? ? Hl Hd']; subst. destruct (IH dY Hn') as [I1 I2]; [cbn in El; lia | assumption|].
  unfold back_rows. cbn [combine map concat fst snd]. fold (back_rows scale dY lengths). split.
  - apply Forall_app. split; [|exact I1]. apply Forall_forall. intros r Hr. apply repeat_spec in Hr. subst r. now rewrite map_length.
  - rewrite app_length, repeat_length. cbn [zsum fold_right]. fold (zsum lengths). lia.
Qed.

Lemma scale1_colsum O (s : rows) : map (fun x => @scale1 R _ (Z.of_nat (length s)) * x) (colsum O s) = colsum O s.
Proof. unfold scale1. rewrite <- (map_id (colsum O s)) at 2. apply map_ext. intros x. cbn. lra. Qed.
Lemma scale_inv_colmean O (s : rows) : map (fun x => @scale_inv R _ (Z.of_nat (length s)) * x) (colsum O s) = colmean O s.
Proof. unfold scale_inv, colmean. apply map_ext. intros x. cbn. rewrite INR_IZR_INZ. unfold Rdiv. lra. Qed.

Lemma op_back_sum dY lengths : nonneg lengths -> m_len dY = length lengths -> op_backprop_reduce_sum dY lengths = Ok (mkM (m_cols dY) (back_rows scale1 (m_rows dY) lengths)).
Proof.
  intros Hn El. unfold op_backprop_reduce_sum. destruct (Z.ltb_spec (zsum lengths) 0) as [H|_]; [pose proof (zsum_nonneg _ Hn); lia|].
  rewrite (op_back_ok _ scale1); [reflexivity | intros; unfold scale1; cbn; lra | exact Hn | unfold m_len in El; lia].
Qed.
Lemma op_back_mean dY lengths : nonneg lengths -> m_len dY = length lengths -> op_backprop_reduce_mean dY lengths = Ok (mkM (m_cols dY) (back_rows scale_inv (m_rows dY) lengths)).
Proof.
  intros Hn El. unfold op_backprop_reduce_mean. destruct (Z.ltb_spec (zsum lengths) 0) as [H|_]; [pose proof (zsum_nonneg _ Hn); lia|].
  rewrite (op_back_ok _ scale_inv); [reflexivity | intros; unfold scale_inv; cbn; unfold Rdiv; lra | exact Hn | unfold m_len in El; lia].
Qed.

Lemma adjoint_gen back scale red :
  (forall dY lengths, nonneg lengths -> m_len dY = length lengths -> wf_mat dY -> back dY lengths = Ok (mkM (m_cols dY) (back_rows scale (m_rows dY) lengths))) ->
  (forall O (s : rows), map (fun x => scale (Z.of_nat (length s)) * x) (colsum O s) = red O s) -> adjoint_of back red.
Proof.
  intros Hb Hr dY lengths Hn Hw El. rewrite Hb by assumption. eexists. split; [reflexivity|]. cbn [m_cols m_rows]. unfold wf_mat, m_len in *. cbn [m_rows m_cols].
  destruct (back_rows_shape scale (m_cols dY) lengths (m_rows dY) Hn El Hw) as [S1 S2]. split; [reflexivity|]. split; [exact S1|]. split; [exact S2|].
  intros X Hx Ec Es. rewrite (back_adjoint scale (m_cols X)); try assumption.
  - f_equal. apply map_ext. intros s. apply Hr.
  - rewrite Ec. exact Hw.
  - now symmetry.
Qed.
Lemma adjoint_np_sum : adjoint_of np_backprop_reduce_sum colsum.
Proof. apply (adjoint_gen _ scale1); [intros; now apply np_back_ok | apply scale1_colsum]. Qed.
Lemma adjoint_np_mean : adjoint_of np_backprop_reduce_mean colmean.
Proof. apply (adjoint_gen _ scale_inv); [intros; now apply np_back_ok | apply scale_inv_colmean]. Qed.
Lemma adjoint_op_sum : adjoint_of op_backprop_reduce_sum colsum.
Proof. apply (adjoint_gen _ scale1); [intros; now apply op_back_sum | apply scale1_colsum]. Qed.
Lemma adjoint_op_mean : adjoint_of op_backprop_reduce_mean colmean.
Proof. apply (adjoint_gen _ scale_inv); [intros; now apply op_back_mean | apply scale_inv_colmean]. Qed.
