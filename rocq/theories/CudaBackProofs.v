From Coq Require Import Reals Lra Lia.
From Verif Require Import BaseFacts CudaSpec CudaProofs SeqProofs MatProofs ReduceProofs ReduceMaxProofs Seq2colProofs Seq2colBackProofs KernelProofs CudaRowProofs CudaMaxProofs CudaSeqProofs CudaWinProofs ReduceSpec Seq2colSpec KernelModel KernelSpec CudaSpec.
Set Default Goal Selector "!".
Local Open Scope nat_scope.

Lemma vec_app {A} a b (f : nat -> A) : vec (a + b) f = vec a f ++ vec b (fun k => f (a + k)).
Proof.
  unfold vec. rewrite seq_app, map_app. f_equal. cbn. assert (G : forall m, map f (seq (a + m) b) = map (fun k => f (a + k)) (seq m b)); [|rewrite <- G; do 2 f_equal; lia].
  induction b as [|b IH]; intros m; [reflexivity|]. cbn. f_equal. rewrite <- IH. do 2 f_equal. lia.
Qed.
Lemma msum_vec0 n (f : nat -> R) : (forall k, k < n -> f k = 0%R) -> msum (vec n f) = 0%R.
Proof. intros Hf. unfold vec. rewrite (msum_ext_in f (fun _ => 0%R)); [apply msum_zero|]. intros k Hk. apply in_seq in Hk. apply Hf. lia. Qed.
Lemma msum_window (f : nat -> R) B s m : s + m <= B -> (forall b, b < B -> ~ (s <= b < s + m) -> f b = 0%R) -> msum (vec B f) = msum (vec m (fun k => f (s + k))).
Proof.
  intros Hle Hf. replace B with (s + (m + (B - s - m))) at 1 by lia. rewrite vec_app, vec_app, !msum_app.
  rewrite (msum_vec0 s) by (intros; apply Hf; lia). rewrite (msum_vec0 (B - s - m)) by (intros; apply Hf; lia). lra.
Qed.
Lemma mdot_vec B I (f g : nat -> nat -> R) : mdot (vec B (fun t => vec I (f t))) (vec B (fun t => vec I (g t))) = msum (vec B (fun t => msum (vec I (fun i => (f t i * g t i)%R)))).
Proof. unfold mdot. rewrite combine_vec, map_vec. f_equal. apply vec_ext. intros t _. cbn [fst snd]. apply dot_vec. Qed.
Definition basis B I t0 i0 : list (list R) := vec B (fun t => vec I (fun i => if (t =? t0) && (i =? i0) then 1%R else 0%R)).
Lemma mdot_basis B I f t0 i0 : t0 < B -> i0 < I -> mdot (vec B (fun t => vec I (f t))) (basis B I t0 i0) = f t0 i0.
Proof.
  intros Ht Hi. unfold basis. rewrite (mdot_vec B I f (fun t i => if (t =? t0) && (i =? i0) then 1%R else 0%R)).
  transitivity (msum (vec B (fun t => if t =? t0 then msum (vec I (fun i => if i =? i0 then f t i else 0%R)) else 0%R))).
  - f_equal. apply vec_ext. intros t _. destruct (t =? t0); cbn [andb]; [|apply msum_vec0; intros; lra]. f_equal. apply vec_ext. intros i _. destruct (i =? i0); lra.
  - rewrite (msum_pick (fun t => msum (vec I (fun i => if i =? i0 then f t i else 0%R))) t0 B Ht). now apply msum_pick.
Qed.
Lemma rows_vec B I (rows : list (list R)) : length rows = B -> Forall (fun r => length r = I) rows -> rows = vec B (fun t => vec I (fun i => nth i (nth t rows []) 0%R)).
Proof.
  intros HB HI. rewrite (vec_of_len [] B rows HB) at 1. apply vec_ext. intros t Ht. apply (vec_of_len 0%R). rewrite Forall_forall in HI. apply HI. apply nth_In. lia.
Qed.

Lemma row_unique I q i q' i' : q * I + i = q' * I + i' -> i < I -> i' < I -> q = q' /\ i = i'.
Proof.
  intros E Hi Hi'. assert (Eq : q = q'); [|subst q'; lia].
  pose proof (Nat.div_add_l q I i ltac:(lia)) as D1. pose proof (Nat.div_add_l q' I i' ltac:(lia)) as D2. rewrite (Nat.div_small i I Hi) in D1. rewrite (Nat.div_small i' I Hi') in D2. rewrite E in D1. lia.
Qed.

Section BackSeq2col.
  Variables (lengths : list Z) (nW I : nat) (c : config) (dY : mat R).
  Hypotheses (HT : has_threads c) (Hn : nonneg lengths) (Hw : wf_mat dY) (Hc : m_cols dY = (2 * nW + 1) * I) (Hs : zsum lengths = Z.of_nat (m_len dY)).
  Let B := m_len dY.
  Let W := (2 * nW + 1) * I.
  Let bt t := c_seq (advance t (mkCur lengths 0 0)).
  Let ds t := Z.max (Z.of_nat (off (nats lengths) (bt t))) (Z.of_nat t - Z.of_nat nW).
  Let de t := Z.min (Z.of_nat (off (nats lengths) (bt t)) + nth (bt t) lengths 0%Z) (Z.of_nat t + Z.of_nat nW + 1).
  Let Hbt t : t < B -> seq_at lengths t (bt t).
  Proof.
    intros Ht. destruct (seq_at_ex lengths t Hn) as (b & Hb); [rewrite Hs; unfold B in Ht; lia|]. assert (E : bt t = b) by (destruct Hb as (_ & _ & E); unfold bt; now rewrite E). now rewrite E.
  Qed.
  Let bounds t : t < B -> (0 <= ds t /\ ds t <= Z.of_nat t /\ Z.of_nat t < de t /\ de t <= Z.of_nat B /\ Z.of_nat t - Z.of_nat nW <= ds t /\ de t <= Z.of_nat t + Z.of_nat nW + 1)%Z.
  Proof.
    intros Ht. destruct (Hbt t Ht) as (Hb & Hr & _). assert (L2 : bt t < length (nats lengths)) by (unfold nats; now rewrite map_length). pose proof (off_in _ _ L2) as Ho.
    rewrite nth_nats, (sum_nats lengths B) in Ho by assumption. pose proof (nonneg_nth lengths (bt t) Hn). unfold ds, de. lia.
  Qed.
  Let x t k i := nth ((t + nW - (Z.to_nat (ds t) + k)) * I + i) (nth (Z.to_nat (ds t) + k) (m_rows dY) []) 0%R.
  Let n t := Z.to_nat (de t - ds t).

  Lemma back_seq2col_rows : I <> 0 -> cu_backprop_seq2col c dY (Z.of_nat nW) (Some lengths) = Ok (mkM I (vec B (fun t => vec I (fun i => msum (vec (n t) (fun k => x t k i)))))).
  Proof.
    intros HI. unfold cu_backprop_seq2col, cu_seq2col_lengths. rewrite check_lengths_ok by assumption. cbn [bind].
    replace (Z.of_nat (m_cols dY) / (Z.of_nat nW * 2 + 1))%Z with (Z.of_nat I).
    2: { rewrite Hc. rewrite Nat2Z.inj_mul. replace (Z.of_nat (2 * nW + 1)) with (Z.of_nat nW * 2 + 1)%Z by lia. rewrite Z.mul_comm, Z.div_mul by lia. reflexivity. }
    destruct (Z.ltb_spec (Z.of_nat I) 0); [lia|]. rewrite Nat2Z.id. fold B.
    destruct (Nat.eqb_spec (B * m_cols dY) 0) as [E0|E0]; cbn [negb andb bind].
    { rewrite Hc in E0. assert (EB : B = 0) by nia. now rewrite EB. }
    destruct (Nat.eqb_spec (length lengths) 0) as [E1|_]; cbn [negb].
    { destruct lengths; [|discriminate]. cbn in Hs. exfalso. apply E0. unfold B. lia. }
    destruct (launch_cursor 0%R I (fun t => accum (t * I) I (n t) (x t)) c B (k_backprop_seq2col (flat dY) (Z.of_nat nW) I) (mkCur lengths 0 0) (zeros (B * I))) as (out & E & F); auto.
    - apply repeat_length.
    - intros t s Ht Hst. unfold k_backprop_seq2col. rewrite Hst. destruct (Hbt t Ht) as (Hb & Hr & Ea). rewrite Ea. cbn [c_seq c_start]. rewrite cur_length_at by exact Hb. cbn [bind].
      fold (ds t). fold (de t). fold (n t). destruct (bounds t Ht) as (B1 & B2 & B3 & B4 & B5 & B6).
      rewrite (for_n_ok (n t) _ (fun k => concat (map (fun i => [Rmw (t * I + i) (fun y => nadd y (x t k i))]) (seq 0 I)))); [reflexivity|].
      intros k Hk. apply for_n_ok. intros i Hi. unfold loadz, addr.
      set (bw := Z.to_nat (ds t) + k). assert (Hbw : bw < B /\ bw <= t + nW /\ t <= bw + nW) by (unfold bw, n in *; lia).
      assert (Ek : ((ds t + Z.of_nat k) * Z.of_nat I * (Z.of_nat nW * 2 + 1) + (2 * Z.of_nat nW - (ds t + Z.of_nat k - (Z.of_nat t - Z.of_nat nW))) * Z.of_nat I + Z.of_nat i)%Z = Z.of_nat (bw * W + ((t + nW - bw) * I + i))).
      { replace (ds t + Z.of_nat k)%Z with (Z.of_nat bw) by (unfold bw; lia). unfold W. nia. }
      rewrite Ek. destruct (Z.ltb_spec (Z.of_nat (bw * W + ((t + nW - bw) * I + i))) 0); [lia|]. cbn [bind]. rewrite Nat2Z.id. unfold flat.
      rewrite (load_flat 0%R W); [reflexivity| unfold W; rewrite <- Hc; exact Hw |unfold B, m_len in Hbw; lia| unfold W; assert (t + nW - bw <= 2 * nW) by lia; nia].
    - intros t i _ Hi. now apply accum_target in Hi.
    - rewrite E. cbn [bind]. rewrite F. do 2 f_equal. apply vec_ext. intros t Ht. apply vec_ext. intros i Hi. rewrite accum_cell by exact Hi. rewrite fold_msum, nth_zeros. unfold vec. lra.
  Qed.
  Lemma window_dot t0 i0 : t0 < B -> i0 < I -> mdot (m_rows dY) (concat (map (windows nW I) (seqs_of lengths (basis B I t0 i0)))) = msum (vec (n t0) (fun k => x t0 k i0)).
  Proof.
    intros Ht0 Hi0. set (R := concat _).
    assert (LE : length (basis B I t0 i0) = B) by apply vec_length.
    assert (WE : Forall (fun r => length r = I) (basis B I t0 i0)). { apply Forall_forall. intros r Hr. unfold basis, vec in Hr. apply in_map_iff in Hr. destruct Hr as (t & <- & _). apply vec_length. }
    assert (LR : length R = B) by (unfold R; rewrite windows_all_len; [exact LE|exact Hn|rewrite LE; exact Hs]).
    assert (WR : Forall (fun r => length r = W) R) by (apply windows_all_width; exact WE).
    assert (WY : Forall (fun r => length r = W) (m_rows dY)) by (unfold W; rewrite <- Hc; exact Hw).
    rewrite (rows_vec B W (m_rows dY) eq_refl WY) at 1. rewrite (rows_vec B W R LR WR). rewrite mdot_vec.
    set (F := fun b => if within lengths (bt b) (Z.of_nat t0) && (b <=? t0 + nW) && (t0 <=? b + nW) then nth ((t0 + nW - b) * I + i0) (nth b (m_rows dY) []) 0%R else 0%R).
    transitivity (msum (vec B F)).
    - f_equal. apply vec_ext. intros b Hb.
      assert (Hent : forall q i, q < 2 * nW + 1 -> i < I -> nth (q * I + i) (nth b R []) 0%R = if within lengths (bt b) (Z.of_nat t0) && (b + q =? t0 + nW) && (i =? i0) then 1%R else 0%R).
      { intros q i Hq Hi. unfold R. change 0%R with (nZ 0) at 1. rewrite (all_windows_nth (basis B I t0 i0) lengths nW I b (bt b) q i) by (try assumption; try (rewrite LE; exact Hs); now apply Hbt).
        set (g := (Z.of_nat b + Z.of_nat q - Z.of_nat nW)%Z). destruct (within lengths (bt b) g) eqn:Eg.
        - assert (Hg : (0 <= g < Z.of_nat B)%Z).
          { unfold within in Eg. apply andb_true_iff in Eg. destruct Eg as [E1 E2]. apply Z.leb_le in E1. apply Z.ltb_lt in E2. destruct (Hbt b Hb) as (Hbb & _).
            assert (L2 : bt b < length (nats lengths)) by (unfold nats; now rewrite map_length). pose proof (off_in _ _ L2) as Ho. rewrite nth_nats, (sum_nats lengths B) in Ho by assumption. pose proof (nonneg_nth lengths (bt b) Hn). lia. }
          unfold basis. rewrite (nth_vec [] B) by lia. rewrite nth_vec by exact Hi.
          destruct (Nat.eqb_spec (Z.to_nat g) t0) as [E1|E1].
          + assert (Egt : g = Z.of_nat t0) by lia. rewrite <- Egt, Eg. destruct (Nat.eqb_spec (b + q) (t0 + nW)); [reflexivity|unfold g in Egt; lia].
          + destruct (Nat.eqb_spec (b + q) (t0 + nW)); [unfold g in E1; lia|]. now rewrite andb_false_r.
        - destruct (Nat.eqb_spec (b + q) (t0 + nW)) as [E1|E1].
          + assert (Egt : g = Z.of_nat t0) by (unfold g; lia). rewrite <- Egt, Eg. reflexivity.
          + now rewrite andb_false_r. }
      unfold F. destruct (within lengths (bt b) (Z.of_nat t0)) eqn:Ew; cbn [andb].
      2: { apply msum_vec0. intros j Hj. destruct (divmod_row I j ltac:(lia)) as (q & i & -> & Hi). rewrite Hent by (try exact Hi; unfold W in Hj; nia). cbn. lra. }
      destruct (Nat.leb_spec b (t0 + nW)) as [H1|H1]; cbn [andb].
      2: { apply msum_vec0. intros j Hj. destruct (divmod_row I j ltac:(lia)) as (q & i & -> & Hi). rewrite Hent by (try exact Hi; unfold W in Hj; nia). destruct (Nat.eqb_spec (b + q) (t0 + nW)); [lia|]. cbn. lra. }
      destruct (Nat.leb_spec t0 (b + nW)) as [H2|H2].
      2: { apply msum_vec0. intros j Hj. destruct (divmod_row I j ltac:(lia)) as (q & i & -> & Hi). assert (Hq : q < 2 * nW + 1) by (unfold W in Hj; nia). rewrite Hent by assumption. destruct (Nat.eqb_spec (b + q) (t0 + nW)); [lia|]. cbn. lra. }
      set (J := (t0 + nW - b) * I + i0). assert (HJ : J < W) by (unfold J, W; assert (t0 + nW - b <= 2 * nW) by lia; nia).
      rewrite <- (msum_pick (fun j => nth j (nth b (m_rows dY) []) 0%R) J W HJ). f_equal. apply vec_ext. intros j Hj.
      destruct (divmod_row I j ltac:(lia)) as (q & i & -> & Hi). assert (Hq : q < 2 * nW + 1) by (unfold W in Hj; nia). rewrite Hent by assumption. cbn [andb].
      destruct (Nat.eqb_spec (q * I + i) J) as [EJ|EJ].
      + assert (q = t0 + nW - b /\ i = i0) as [Eq Ei] by (apply (row_unique I); [exact EJ|exact Hi|exact Hi0]). destruct (Nat.eqb_spec (b + q) (t0 + nW)); [|lia]. destruct (Nat.eqb_spec i i0); [|lia]. cbn. lra.
      + destruct (Nat.eqb_spec (b + q) (t0 + nW)) as [E1|E1]; cbn [andb]; [|lra]. destruct (Nat.eqb_spec i i0) as [E2|E2]; [|lra]. exfalso. apply EJ. unfold J. replace (t0 + nW - b) with q by lia. lia.
    - destruct (bounds t0 Ht0) as (B1 & B2 & B3 & B4 & B5 & B6). destruct (Hbt t0 Ht0) as (Hb0 & Hr0 & _).
      assert (Hcond : forall b, b < B -> within lengths (bt b) (Z.of_nat t0) && (b <=? t0 + nW) && (t0 <=? b + nW) = true <-> Z.to_nat (ds t0) <= b < Z.to_nat (ds t0) + n t0).
      { intros b Hb. destruct (Hbt b Hb) as (Hb1 & Hr1 & _). pose proof (nonneg_nth lengths (bt b) Hn). rewrite !andb_true_iff, !Nat.leb_le. unfold within. rewrite andb_true_iff, Z.leb_le, Z.ltb_lt. split.
        - intros (((W1 & W2) & W3) & W4). assert (Eb : bt b = bt t0) by (apply (seq_at_unique lengths t0); auto; lia). rewrite Eb in *. unfold ds, de, n in *. unfold ds, de. lia.
        - intros Hin. assert (Eb : bt b = bt t0).
          { pose proof (nonneg_nth lengths (bt t0) Hn). apply (seq_at_unique lengths b); auto. unfold n, ds, de in *. lia. }
          rewrite Eb in *. unfold n, ds, de in *. lia. }
      rewrite (msum_window F B (Z.to_nat (ds t0)) (n t0)).
      + f_equal. apply vec_ext. intros k Hk. unfold F, x. rewrite (proj2 (Hcond (Z.to_nat (ds t0) + k) ltac:(unfold n in Hk; lia)) ltac:(lia)). reflexivity.
      + unfold n. lia.
      + intros b Hb Hno. unfold F. destruct (within lengths (bt b) (Z.of_nat t0) && (b <=? t0 + nW) && (t0 <=? b + nW)) eqn:Ec; [|reflexivity]. exfalso. apply Hno. now apply Hcond.
  Qed.
  Lemma back_seq2col_cu : cu_backprop_seq2col c dY (Z.of_nat nW) (Some lengths) = np_backprop_seq2col dY (Z.of_nat nW) (Some lengths).
  Proof.
    destruct (seq2col_adjoint dY nW I lengths Hw Hc Hn Hs) as (dX & -> & Cd & Wd & Ld & Hadj).
    destruct dX as [cols rows]. unfold wf_mat in Wd. unfold m_len in Ld. cbn [m_cols m_rows] in *. subst cols.
    destruct (Nat.eq_dec I 0) as [E0|HI].
    - unfold cu_backprop_seq2col, cu_seq2col_lengths. rewrite check_lengths_ok by assumption. cbn [bind]. rewrite Hc, E0. rewrite Nat.mul_0_r. cbn [Z.of_nat]. rewrite Z.div_0_l by lia. cbn [Z.ltb Z.compare].
      rewrite Nat.mul_0_r. cbn [Nat.eqb negb andb bind]. do 2 f_equal. change (Z.to_nat 0) with 0. rewrite Nat.mul_0_r.
      rewrite E0 in Wd. rewrite <- (cells_of_concat1 0 rows Wd). rewrite Ld. f_equal. symmetry. apply length_zero_iff_nil. rewrite (concat_length_const 0) by exact Wd. lia.
    - rewrite back_seq2col_rows by exact HI. do 2 f_equal. rewrite (rows_vec B I rows Ld Wd). apply vec_ext. intros t Ht. apply vec_ext. intros i Hi.
      rewrite <- (window_dot t i Ht Hi). pose proof (Hadj (mkM I (basis B I t i))) as Ha. cbn [m_rows m_cols] in Ha. rewrite <- Ha.
      + rewrite (rows_vec B I rows Ld Wd) at 1. now rewrite (mdot_basis B I (fun t i => nth i (nth t rows []) 0%R)).
      + unfold wf_mat. cbn. apply Forall_forall. intros r Hr. unfold basis, vec in Hr. apply in_map_iff in Hr. destruct Hr as (t' & <- & _). apply vec_length.
      + reflexivity.
      + apply vec_length.
  Qed.
End BackSeq2col.
Lemma back_seq2col_cu_none {T} `{Num T} c (X : mat T) nW : cu_backprop_seq2col c X nW None = cu_backprop_seq2col c X nW (Some [Z.of_nat (m_len X)]).
Proof. unfold cu_backprop_seq2col, cu_seq2col_lengths. rewrite check_lengths_ok; [reflexivity|constructor; [lia|constructor]|cbn; lia]. Qed.
