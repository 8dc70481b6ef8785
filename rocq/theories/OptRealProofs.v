From Coq Require Import Reals Lra.
From Verif Require Import BaseFacts DictFacts OptSpec OptProofs.
Set Default Goal Selector "!".
Local Open Scope R_scope.

(** *** Sums *)
Lemma Rsum_app a b : Rsum (a ++ b) = Rsum a + Rsum b.
Proof. unfold Rsum. induction a as [|x a IH]; cbn [app fold_right]; [|rewrite IH]; lra. Qed.

Lemma Rsum_scale c l : Rsum (map (fun x => c * x) l) = c * Rsum l.
Proof. unfold Rsum. induction l as [|x l IH]; cbn [map fold_right]; [|rewrite IH]; lra. Qed.

Lemma Rsum_ext {A} (f g : A -> R) l : (forall x, In x l -> f x = g x) -> Rsum (map f l) = Rsum (map g l).
Proof. intros E. now rewrite (map_ext_in f g l E). Qed.

Lemma Rsum_le {A} (f g : A -> R) l : (forall x, In x l -> f x <= g x) -> Rsum (map f l) <= Rsum (map g l).
Proof.
  unfold Rsum. induction l as [|x l IH]; cbn [map fold_right]; intros Hl; [lra|].
  pose proof (Hl x (or_introl eq_refl)). specialize (IH (fun y Hy => Hl y (or_intror Hy))). lra.
Qed.

Lemma nsum_Rsum (l : list R) : nsum l = Rsum l.
Proof.
  unfold nsum. cbn [nZ num_R]. change (IZR 0) with 0.
  assert (G : forall (l : list R) a, fold_left nadd l a = a + Rsum l).
  { clear l. unfold Rsum. induction l as [|x l IH]; intros a; cbn [fold_left fold_right]; [lra|]. rewrite IH. cbn [nadd num_R]. lra. }
  rewrite G. lra.
Qed.

Lemma npow_pow (x : R) n : npow x n = x ^ n.
Proof. induction n as [|n IH]; cbn; [reflexivity|]. now rewrite IH. Qed.

(** *** Exponential averages *)
Lemma ema_snoc b xs x : ema b (xs ++ [x]) = b * ema b xs + (1 - b) * x.
Proof.
  unfold ema. rewrite app_length. cbn [length]. rewrite Nat.add_1_r, seq_S, map_app, Rsum_app. cbn [map Nat.add].
  replace (S (length xs) - 1 - length xs)%nat with 0%nat by lia.
  rewrite app_nth2 by lia. rewrite Nat.sub_diag. cbn [nth pow Rsum fold_right].
  replace (Rsum (map (fun t => b ^ (S (length xs) - 1 - t) * nth t (xs ++ [x]) 0) (seq 0 (length xs))))
    with (b * Rsum (map (fun t => b ^ (length xs - 1 - t) * nth t xs 0) (seq 0 (length xs)))).
  - lra.
  - rewrite <- Rsum_scale, map_map. apply Rsum_ext. intros t Ht. apply in_seq in Ht.
    rewrite app_nth1 by lia. replace (S (length xs) - 1 - t)%nat with (S (length xs - 1 - t)) by lia. cbn [pow]. lra.
Qed.

Lemma ema_nil b : ema b [] = 0.
Proof. unfold ema. cbn. lra. Qed.

Lemma pow_bounds b n : 0 <= b < 1 -> (0 < n)%nat -> 0 <= b ^ n < 1.
Proof.
  intros Hb Hn. destruct n as [|n]; [lia|]. induction n as [|n IH]; cbn in *; [lra|].
  assert (0 <= b * b ^ n < 1) by (apply IH; lia).
  split; [apply Rmult_le_pos; lra|]. apply Rle_lt_trans with (1 * (b * b ^ n)); [|lra].
  apply Rmult_le_compat_r; lra.
Qed.

(** The weights of the bias-corrected average sum to one. *)
Lemma ema_const b n c : 0 <= b < 1 -> ema b (repeat c n) = (1 - b ^ n) * c.
Proof.
  intros Hb. induction n as [|n IH]; [rewrite ema_nil; cbn; lra|].
  replace (repeat c (S n)) with (repeat c n ++ [c]) by (symmetry; apply repeat_cons).
  rewrite ema_snoc, IH. cbn [pow]. lra.
Qed.

Lemma ema_le b xs ys : 0 <= b < 1 -> Forall2 Rle xs ys -> ema b xs <= ema b ys.
Proof.
  intros Hb F. assert (L : length xs = length ys) by (clear -F; induction F; cbn; congruence).
  unfold ema. rewrite L. apply Rmult_le_compat_l; [lra|]. apply Rsum_le. intros t Ht. apply in_seq in Ht.
  apply Rmult_le_compat_l; [apply pow_le; lra|].
  clear -F L Ht. revert t Ht. induction F as [|x y xs ys Hxy F IH]; intros t Ht; cbn in *; [lia|].
  destruct t as [|t]; [exact Hxy|]. apply IH; lia.
Qed.

Lemma corrected_convex b xs lo hi : 0 <= b < 1 -> xs <> [] -> (forall x, In x xs -> lo <= x <= hi) ->
  lo <= ema b xs / (1 - b ^ length xs) <= hi.
Proof.
  intros Hb Hne Hx.
  assert (Hp : 0 <= b ^ length xs < 1).
  { apply pow_bounds; [exact Hb|]. destruct xs; [congruence | cbn; lia]. }
  assert (L : ema b (repeat lo (length xs)) <= ema b xs).
  { apply ema_le; [exact Hb|]. clear -Hx. induction xs as [|x xs IH]; cbn; constructor.
    - apply Hx. now left.
    - apply IH. intros y Hy. apply Hx. now right. }
  assert (U : ema b xs <= ema b (repeat hi (length xs))).
  { apply ema_le; [exact Hb|]. clear -Hx. induction xs as [|x xs IH]; cbn; constructor.
    - apply Hx. now left.
    - apply IH. intros y Hy. apply Hx. now right. }
  rewrite ema_const in L, U by exact Hb.
  split.
  - apply Rmult_le_reg_r with (1 - b ^ length xs); [lra|]. unfold Rdiv. rewrite Rmult_assoc, Rinv_l by lra. lra.
  - apply Rmult_le_reg_r with (1 - b ^ length xs); [lra|]. unfold Rdiv. rewrite Rmult_assoc, Rinv_l by lra. lra.
Qed.

(** *** Elementwise access *)
Lemma vmap2_nth_R (f : R -> R -> R) a c i : (i < length a)%nat -> length a = length c ->
  nth i (vmap2 f a c) 0 = f (nth i a 0) (nth i c 0).
Proof.
  intros Hi E. assert (Hc : (i < length c)%nat) by lia.
  pose proof (nth_error_nth' a 0 Hi) as A. pose proof (nth_error_nth' c 0 Hc) as C.
  pose proof (vmap2_nth f a c i _ _ A C) as P. now apply nth_error_nth with (d := 0) in P.
Qed.

Lemma map_nth_R (f : R -> R) a i : (i < length a)%nat -> nth i (map f a) 0 = f (nth i a 0).
Proof. intros Hi. rewrite (nth_indep _ 0 (f 0)) by (rewrite map_length; exact Hi). apply map_nth. Qed.

Lemma tabulate_eq (l : list R) n (f : nat -> R) : length l = n -> (forall i, (i < n)%nat -> nth i l 0 = f i) -> l = map f (seq 0 n).
Proof.
  intros L E. apply (nth_ext _ _ 0 0); [now rewrite map_length, seq_length|].
  intros i Hi. rewrite L in Hi. rewrite E by exact Hi.
  rewrite (nth_indep _ 0 (f 0%nat)) by (rewrite map_length, seq_length; exact Hi).
  rewrite map_nth, seq_nth by exact Hi. reflexivity.
Qed.

(** What both backends' Adam kernels compute. *)
Definition adam_spec (adam : list R -> list R -> list R -> list R -> R -> R -> R -> R -> list R * list R * list R * list R) : Prop :=
  forall w g m v b1 b2 e lr, length g = length w -> length m = length w -> length v = length w ->
  exists w' g' m' v', adam w g m v b1 b2 e lr = (w', g', m', v') /\
    length w' = length w /\ length m' = length w /\ length v' = length w /\
    forall i, (i < length w)%nat ->
      nth i m' 0 = b1 * nth i m 0 + (1 - b1) * nth i g 0 /\
      nth i v' 0 = b2 * nth i v 0 + (1 - b2) * (nth i g 0) ^ 2 /\
      nth i w' 0 = nth i w 0 - lr * (nth i m' 0 / (sqrt (nth i v' 0) + e)).

Lemma base_adam_spec : adam_spec base_adam.
Proof.
  intros w g m v b1 b2 e lr Lg Lm Lv. unfold base_adam, ops_adam. do 4 eexists. split; [reflexivity|].
  assert (L1 : length (vmap2 (fun m0 g0 : R => (m0 + g0 * (nZ 1 - b1))%num) (map (fun m0 : R => (m0 * b1)%num) m) g) = length w).
  { rewrite vmap2_length; rewrite map_length; lia. }
  assert (L2 : length (vmap2 (fun m0 g0 : R => (m0 + g0 * g0 * (nZ 1 - b2))%num) (map (fun m0 : R => (m0 * b2)%num) v) g) = length w).
  { rewrite vmap2_length; rewrite map_length; lia. }
  split.
  { apply vmap2_length. rewrite vmap2_length; [symmetry; exact L1|]. now rewrite L1, L2. }
  split; [exact L1|]. split; [exact L2|].
  intros i Hi.
  assert (E1 : nth i (vmap2 (fun m0 g0 : R => (m0 + g0 * (nZ 1 - b1))%num) (map (fun m0 : R => (m0 * b1)%num) m) g) 0
               = b1 * nth i m 0 + (1 - b1) * nth i g 0).
  { rewrite vmap2_nth_R by (rewrite map_length; lia). rewrite map_nth_R by lia. cbn. lra. }
  assert (E2 : nth i (vmap2 (fun m0 g0 : R => (m0 + g0 * g0 * (nZ 1 - b2))%num) (map (fun m0 : R => (m0 * b2)%num) v) g) 0
               = b2 * nth i v 0 + (1 - b2) * (nth i g 0) ^ 2).
  { rewrite vmap2_nth_R by (rewrite map_length; lia). rewrite map_nth_R by lia. cbn. lra. }
  split; [exact E1|]. split; [exact E2|].
  rewrite vmap2_nth_R.
  - rewrite vmap2_nth_R by lia. rewrite E1, E2. cbn [nmul nsub nadd ndiv nsqrt nZ num_R]. now rewrite Rmult_1_l.
  - exact Hi.
  - rewrite vmap2_length by lia. lia.
Qed.

Lemma numpy_adam_spec : adam_spec numpy_adam.
Proof.
  intros w g m v b1 b2 e lr Lg Lm Lv. unfold numpy_adam.
  pose proof (momentum_elementwise g m v b1 b2 e ltac:(lia) ltac:(lia)) as M.
  destruct (adam_momentum g m v b1 b2 e) as [[g' m'] v']. destruct M as (L1 & L2 & L3 & M).
  do 4 eexists. split; [reflexivity|]. split; [apply vmap2_length; lia|]. split; [lia|]. split; [lia|].
  intros i Hi.
  destruct (M i (nth i g 0) (nth i m 0) (nth i v 0)) as (A & B & C); try (apply nth_error_nth'; lia).
  apply nth_error_nth with (d := 0) in A, B, C.
  rewrite vmap2_nth_R by lia. rewrite A, B, C. cbn [nmul nsub nadd ndiv nsqrt nZ nopp num_R].
  split; [lra|]. split; [cbn; lra|].
  replace (b2 * nth i v 0 + (1 - b2) * (nth i g 0 * (nth i g 0 * 1))) with (b2 * nth i v 0 + (1 - b2) * nth i g 0 ^ 2) by (cbn; lra).
  replace ((1 - b1) * nth i g 0 + b1 * nth i m 0) with (b1 * nth i m 0 + (1 - b1) * nth i g 0) by lra. lra.
Qed.

(** *** Clipping *)
Lemma norm_scale c (g : list R) : norm (map (fun x => x * c) g) = Rabs c * norm g.
Proof.
  unfold norm. cbn [nsqrt nmul num_R]. rewrite !nsum_Rsum, map_map.
  replace (Rsum (map (fun x : R => x * c * (x * c)) g)) with (Rsqr c * Rsum (map (fun x : R => x * x) g)).
  - rewrite sqrt_mult_alt by apply Rle_0_sqr. now rewrite sqrt_Rsqr_abs.
  - rewrite <- Rsum_scale, map_map. apply Rsum_ext. intros x _. unfold Rsqr. cbn. lra.
Qed.

Lemma norm_nonneg (g : list R) : 0 <= norm g.
Proof. unfold norm. cbn. apply sqrt_pos. Qed.

Lemma clip_ok (g : list R) thr : 0 < thr ->
  (exists c, 0 <= c /\ clip_gradient g thr = map (fun x => c * x) g) /\
  norm (clip_gradient g thr) <= thr /\
  (norm g <= thr -> clip_gradient g thr = g) /\
  (thr <= norm g -> norm (clip_gradient g thr) = thr).
Proof.
  intros Ht. unfold clip_gradient. cbn [nltb ndiv nmul num_R].
  pose proof (norm_nonneg g) as Hn.
  destruct (Rlt_dec (norm g) thr) as [Hlt|Hge]; cbn [negb].
  - split.
    + exists 1. split; [lra|]. rewrite <- (map_id g) at 1. apply map_ext. intros x. lra.
    + split; [lra|]. split; [reflexivity|]. intros. lra.
  - assert (Hpos : 0 < norm g) by lra.
    assert (Hc : 0 < thr / norm g) by (apply Rdiv_lt_0_compat; lra).
    assert (En : norm (map (fun x : R => x * (thr / norm g)) g) = thr).
    { rewrite norm_scale, Rabs_right by lra. field. lra. }
    split.
    + exists (thr / norm g). split; [lra|]. apply map_ext. intros x. lra.
    + split; [lra|]. split; [|intros _; exact En].
      intros Hle. assert (E : norm g = thr) by lra. rewrite E.
      replace (thr / thr) with 1 by (field; lra). rewrite <- (map_id g) at 2. apply map_ext. intros x. lra.
Qed.

Lemma clip_length (g : list R) thr : length (clip_gradient g thr) = length g.
Proof. unfold clip_gradient. destruct (negb _); [apply map_length | reflexivity]. Qed.

(** *** Averages *)
Lemma decay_bounds t : 0 < (avg_decay t : R) < 1 /\ (avg_decay t : R) = Rmin ((1 + INR t) / (10 + INR t)) (9999 / 10000).
Proof.
  unfold avg_decay, max_decay, nnat. cbn [nltb nadd ndiv nZ num_R]. rewrite <- INR_IZR_INZ.
  pose proof (pos_INR t) as Ht.
  assert (A : 0 < (1 + INR t) / (10 + INR t)) by (apply Rdiv_lt_0_compat; lra).
  destruct (Rlt_dec (9999 / 10000) ((1 + INR t) / (10 + INR t))) as [Hlt|Hge].
  - rewrite Rmin_right by lra. lra.
  - rewrite Rmin_left by lra. split; [|reflexivity]. lra.
Qed.

Lemma averages_step (e w : list R) t : length e = length w ->
  length (update_averages e w t) = length w /\
  forall i, (i < length w)%nat ->
    nth i (update_averages e w t) 0 = avg_decay t * nth i e 0 + (1 - avg_decay t) * nth i w 0.
Proof.
  intros L. unfold update_averages. split; [rewrite vmap2_length; lia|].
  intros i Hi. rewrite vmap2_nth_R by lia. cbn. lra.
Qed.

(** *** Along a history *)
Section Run.
  Context {K : Type} `{EqD K}.
  Variable adam : list R -> list R -> list R -> list R -> R -> R -> R -> R -> list R * list R * list R * list R.
  Hypothesis Hadam : adam_spec adam.
  Variable hp : hyper R K.

  Lemma eff_grad_length st k w g : length w = length g -> length (eff_grad hp st k w g) = length g.
  Proof.
    intros L. unfold eff_grad.
    assert (G : length (if h_decay hp then g else
        if (h_L2 hp (o_step st) k (o_last st) =? nZ 0)%num then g
        else vmap2 (fun g0 w0 : R => (g0 + h_L2 hp (o_step st) k (o_last st) * w0)%num) g w) = length g).
    { destruct (h_decay hp); [reflexivity|]. destruct (_ =? _)%num; [reflexivity|]. apply vmap2_length. lia. }
    destruct (h_clip hp _ _ _ =? _)%num; [exact G|]. now rewrite clip_length.
  Qed.

  Definition moment (b : R) (f : R -> R) (sz : nat) (tr : list (list R)) : list R :=
    map (fun i => ema b (map f (column i tr))) (seq 0 sz).

  Lemma moment_nth b f sz tr i : (i < sz)%nat -> nth i (moment b f sz tr) 0 = ema b (map f (column i tr)).
  Proof.
    intros Hi. unfold moment. rewrite (nth_indep _ 0 (ema b (map f (column 0 tr)))) by (rewrite map_length, seq_length; exact Hi).
    rewrite map_nth with (f := fun i => ema b (map f (column i tr))), seq_nth by exact Hi. reflexivity.
  Qed.

  Lemma moment_length b f sz tr : length (moment b f sz tr) = sz.
  Proof. unfold moment. now rewrite map_length, seq_length. Qed.

  Lemma moment_snoc b f sz tr g i : (i < sz)%nat ->
    ema b (map f (column i (tr ++ [g]))) = b * nth i (moment b f sz tr) 0 + (1 - b) * f (nth i g 0).
  Proof.
    intros Hi. rewrite moment_nth by exact Hi. unfold column. rewrite !map_app. cbn [map]. apply ema_snoc.
  Qed.

  Lemma moment_nil b f sz : moment b f sz [] = repeat 0 sz.
  Proof.
    unfold moment. cbn [column map]. rewrite (map_ext _ (fun _ => 0)) by (intros; apply ema_nil).
    generalize 0%nat. induction sz as [|sz IH]; intros n; cbn; [reflexivity|]. now rewrite IH.
  Qed.

  (** The moments of k in [st] are the averages of the gradients [tr]. *)
  Definition moments_are (b1 b2 : R) (sz : nat) (k : K) (st : opt R K) (tr : list (list R)) : Prop :=
    nr_of st k = length tr /\
    mom_of (o_mom1 st) k sz = moment b1 (fun x => x) sz tr /\
    mom_of (o_mom2 st) k sz = moment b2 (fun x => x ^ 2) sz tr.

  Lemma nr_same k (s t : opt R K) : same_key k s t -> nr_of s k = nr_of t k.
  Proof. intros (Hn & _). unfold nr_of. now rewrite Hn. Qed.

  Lemma moments_same b1 b2 sz k (s t : opt R K) tr : same_key k s t -> moments_are b1 b2 sz k s tr -> moments_are b1 b2 sz k t tr.
  Proof.
    intros Hs (A & B & C). split; [now rewrite <- (nr_same k s t Hs)|].
    destruct Hs as (_ & H1 & H2 & _). unfold mom_of in *. rewrite <- H1, <- H2. auto.
  Qed.

  Lemma average_moms (s : opt R K) k w nr :
    o_mom1 (average_of s k w nr) = o_mom1 s /\ o_mom2 (average_of s k w nr) = o_mom2 s /\ o_nr (average_of s k w nr) = o_nr s.
  Proof. unfold average_of. destruct (o_avg s); repeat split; reflexivity. Qed.

  Lemma call_moments b1 b2 sz k st tr w g sc :
    fixed (h_b1 hp) b1 -> fixed (h_b2 hp) b2 -> 0 < b1 < 1 -> 0 < b2 < 1 ->
    moments_are b1 b2 sz k st tr -> length (a_data w) = sz -> length (a_data g) = sz -> (1 <= hd 0%nat (a_shape g))%nat ->
    let G := eff_grad hp st k (a_data w) (a_data g) in
    exists st' w' g',
      opt_call adam hp st k w g sc = (st', Ok (w', g')) /\ length (a_data w') = sz /\
      moments_are b1 b2 sz k st' (tr ++ [G]) /\
      (h_radam hp = false -> forall i, (i < sz)%nat ->
        let n := S (length tr) in
        let m := ema b1 (column i (tr ++ [G])) in
        let v := ema b2 (map (fun x => x ^ 2) (column i (tr ++ [G]))) in
        let lr := h_lr hp (o_step st) k (o_last st) in
        let L2 := h_L2 hp (o_step st) k (o_last st) in
        let eps := h_eps hp (o_step st) k (o_last st) in
        nth i (a_data w') 0 =
          (if h_decay hp then 1 - sc * lr * L2 else 1) *
          (nth i (a_data w) 0 - lr * sqrt (1 - b2 ^ n) / (1 - b1 ^ n) * sc * (m / (sqrt v + eps)))).
  Proof.
    intros E1 E2 B1 B2 (Hnr & M1 & M2) Lw Lg Hl. cbv zeta. rewrite opt_call_eq.
    destruct (a_shape g) as [|len shp]; [cbn in Hl; lia|]. cbn [hd] in Hl.
    destruct (Nat.ltb_spec len 1) as [?|_]; [lia|]. cbv zeta.
    set (G := eff_grad hp st k (a_data w) (a_data g)).
    assert (LG : length G = sz) by (unfold G; rewrite eff_grad_length; lia).
    set (nr := (nr_of st k + 1)%nat). set (s1 := with_nr st (dset k nr (o_nr st))).
    assert (P1 : nltb (nZ 0) b1 = true) by (cbn; destruct (Rlt_dec 0 b1); [reflexivity | lra]).
    assert (P2 : nltb (nZ 0) b2 = true) by (cbn; destruct (Rlt_dec 0 b2); [reflexivity | lra]).
    assert (N1 : nr_of s1 k = nr) by (unfold nr_of, s1; cbn [with_nr o_nr]; now rewrite dget_dset_same).
    assert (U : exists s2 w1 g1, update_of adam hp s1 k (a_data w) G sc nr = Ok (s2, (w1, g1)) /\
                  length w1 = sz /\ nr_of s2 k = nr /\
                  mom_of (o_mom1 s2) k sz = moment b1 (fun x => x) sz (tr ++ [G]) /\
                  mom_of (o_mom2 s2) k sz = moment b2 (fun x => x ^ 2) sz (tr ++ [G]) /\
                  (h_radam hp = false -> forall i, (i < sz)%nat ->
                     nth i w1 0 = nth i (a_data w) 0 - h_lr hp (o_step st) k (o_last st) * sqrt (1 - b2 ^ nr) / (1 - b1 ^ nr) * sc *
                        (ema b1 (column i (tr ++ [G])) /
                         (sqrt (ema b2 (map (fun x => x ^ 2) (column i (tr ++ [G])))) + h_eps hp (o_step st) k (o_last st))))).
    { unfold update_of. destruct (h_radam hp) eqn:Er.
      - unfold opt_radam. change (o_mom1 s1) with (o_mom1 st). change (o_mom2 s1) with (o_mom2 st). rewrite Lw, M1, M2, E1, E2.
        destruct (radam_lookup _ _ _ _) as [bf [N z]].
        assert (LM1 : length (vmap2 (fun m g0 : R => (m + (nZ 1 - b1) * g0)%num)
                        (map (fun m : R => (m * b1)%num) (moment b1 (fun x : R => x) sz tr)) G) = sz).
        { rewrite vmap2_length; rewrite map_length, moment_length; lia. }
        assert (LM2 : length (vmap2 (fun m g0 : R => (m + (nZ 1 - b2) * npow g0 2)%num)
                        (map (fun m : R => (m * b2)%num) (moment b2 (fun x : R => x ^ 2) sz tr)) G) = sz).
        { rewrite vmap2_length; rewrite map_length, moment_length; lia. }
        do 3 eexists. split; [reflexivity|]. split.
        { match goal with |- context [if ?c then _ else _] => destruct c end.
          - rewrite vmap2_length; [lia|]. rewrite vmap2_length; lia.
          - match goal with |- context [if ?c then _ else _] => destruct c end; [rewrite vmap2_length; lia | lia]. }
        split; [unfold nr_of; cbn [with_buf with_moms o_nr s1 with_nr]; now rewrite dget_dset_same|].
        unfold mom_of. cbn [with_buf with_moms o_mom1 o_mom2]. rewrite !dget_dset_same.
        split; [|split; [|congruence]].
        + unfold moment at 2. apply tabulate_eq; [exact LM1|]. intros i Hi.
          rewrite (moment_snoc b1 (fun x => x) sz) by exact Hi.
          rewrite vmap2_nth_R by (rewrite map_length, moment_length; lia).
          rewrite map_nth_R by (rewrite moment_length; lia). cbn. lra.
        + unfold moment at 2. apply tabulate_eq; [exact LM2|]. intros i Hi.
          rewrite (moment_snoc b2 (fun x => x ^ 2) sz) by exact Hi.
          rewrite vmap2_nth_R by (rewrite map_length, moment_length; lia).
          rewrite map_nth_R by (rewrite moment_length; lia). cbn. lra.
      - rewrite E1, E2, P1, P2. cbn [andb]. unfold opt_adam.
        change (o_mom1 s1) with (o_mom1 st). change (o_mom2 s1) with (o_mom2 st).
        rewrite Lw, M1, M2, E1, E2.
        destruct (Hadam (a_data w) G (moment b1 (fun x => x) sz tr) (moment b2 (fun x => x ^ 2) sz tr) b1 b2
                    (h_eps hp (o_step s1) k (o_last s1))
                    (h_lr hp (o_step s1) k (o_last s1) * nsqrt (nZ 1 - npow b2 nr) / (nZ 1 - npow b1 nr) * sc)%num)
          as (w' & g' & m' & v' & Ea & L1 & L2 & L3 & Ai); try (rewrite ?moment_length; lia).
        rewrite Ea. do 3 eexists. split; [reflexivity|]. split; [lia|].
        split; [unfold nr_of; cbn [with_moms o_nr s1 with_nr]; now rewrite dget_dset_same|].
        unfold mom_of. cbn [with_moms o_mom1 o_mom2]. rewrite !dget_dset_same.
        assert (Q1 : forall i, (i < sz)%nat -> nth i m' 0 = ema b1 (map (fun x => x) (column i (tr ++ [G])))).
        { intros i Hi. rewrite (moment_snoc b1 (fun x => x) sz) by exact Hi. apply (Ai i). lia. }
        assert (Q2 : forall i, (i < sz)%nat -> nth i v' 0 = ema b2 (map (fun x => x ^ 2) (column i (tr ++ [G])))).
        { intros i Hi. rewrite (moment_snoc b2 (fun x => x ^ 2) sz) by exact Hi. apply (Ai i). lia. }
        split; [apply tabulate_eq; [lia | exact Q1]|]. split; [apply tabulate_eq; [lia | exact Q2]|].
        intros _ i Hi. destruct (Ai i ltac:(lia)) as (_ & _ & Aw). rewrite Aw, (Q1 i Hi), (Q2 i Hi), map_id.
        cbn [nmul nsub ndiv nsqrt nZ num_R]. rewrite !npow_pow. reflexivity. }
    destruct U as (s2 & w1 & g1 & EU & Lw1 & Nr2 & R1 & R2 & Hw). rewrite EU.
    destruct (average_moms s2 k
      (if (negb (h_L2 hp (o_step st) k (o_last st) =? nZ 0)%num && h_decay hp)%bool
       then map (fun x : R => (x - sc * h_lr hp (o_step st) k (o_last st) * h_L2 hp (o_step st) k (o_last st) * x)%num) w1 else w1) nr)
      as (A1 & A2 & A3).
    do 3 eexists. split; [reflexivity|]. cbn [a_data]. split.
    { destruct (_ && _)%bool; [rewrite map_length|]; exact Lw1. }
    split.
    { split; [unfold nr_of; rewrite A3; unfold nr_of in Nr2; rewrite Nr2; unfold nr; rewrite app_length, Hnr; reflexivity|].
      rewrite A1, A2. split; assumption. }
    intros Er i Hi. specialize (Hw Er i Hi).
    replace nr with (S (length tr)) in Hw by (unfold nr; lia).
    destruct (h_decay hp).
    - rewrite Bool.andb_true_r.
      destruct (h_L2 hp (o_step st) k (o_last st) =? nZ 0)%num eqn:EL; cbn [negb].
      + rewrite Hw. cbn in EL. destruct (Req_EM_T (h_L2 hp (o_step st) k (o_last st)) 0) as [->|]; [lra | discriminate].
      + rewrite map_nth_R by lia. rewrite Hw. cbn [nmul nsub num_R]. lra.
    - rewrite Bool.andb_false_r, Hw. lra.
  Qed.

  Lemma run_moments b1 b2 sz k es : forall st tr,
    fixed (h_b1 hp) b1 -> fixed (h_b2 hp) b2 -> 0 < b1 < 1 -> 0 < b2 < 1 ->
    Forall (sized k sz) es -> moments_are b1 b2 sz k st tr ->
    moments_are b1 b2 sz k (fst (run_events adam hp st es)) (tr ++ eff_trace adam hp st k es).
  Proof.
    induction es as [|e es IH]; intros st tr E1 E2 B1 B2 Hsz Hm.
    - cbn. now rewrite app_nil_r.
    - inversion Hsz as [|? ? Se Sr]; subst. cbn [run_events eff_trace].
      assert (Step : moments_are b1 b2 sz k (fst (run_event adam hp st e)) (tr ++ grad_of_event hp st k e)).
      { destruct e as [j w g sc| |x]; cbn [run_event grad_of_event].
        - destruct (opt_call adam hp st j w g sc) as [st1 r] eqn:Ec. cbn [fst]. unfold eqk. destruct (eqd j k) as [->|Hne].
          + destruct (Se eq_refl) as [Lw Lg]. cbn [andb]. destruct (Nat.leb_spec 1 (hd 0%nat (a_shape g))) as [Hl|Hl].
            * destruct (call_moments b1 b2 sz k st tr w g sc E1 E2 B1 B2 Hm Lw Lg Hl) as (st' & w' & g' & Ec' & _ & Hm' & _).
              rewrite Ec in Ec'. injection Ec' as <- _. exact Hm'.
            * rewrite app_nil_r. rewrite opt_call_eq in Ec. destruct (a_shape g) as [|len shp].
              -- injection Ec as <- _. exact Hm.
              -- cbn [hd] in Hl. destruct (Nat.ltb_spec len 1) as [_|?]; [|lia]. injection Ec as <- _. exact Hm.
          + cbn [andb]. rewrite app_nil_r. destruct (call_other adam hp st j k w g sc Hne) as [_ Hs].
            rewrite Ec in Hs. exact (moments_same b1 b2 sz k st st1 tr Hs Hm).
        - rewrite app_nil_r. exact Hm.
        - rewrite app_nil_r. exact Hm. }
      destruct (run_event adam hp st e) as [st1 o1] eqn:Ee. cbn [fst] in Step.
      specialize (IH st1 _ E1 E2 B1 B2 Sr Step). cbn [fst]. rewrite app_assoc.
      destruct (run_events adam hp st1 es) as [st2 o2]. exact IH.
  Qed.

  Lemma init_moments b1 b2 sz k avg : moments_are b1 b2 sz k (opt_init avg) [].
  Proof. split; [reflexivity|]. rewrite !moment_nil. split; reflexivity. Qed.
End Run.

(** The step written with bias-corrected moments and a scaled epsilon. *)
Lemma textbook_step lr sc m v eps f1 f2 : 0 < f1 -> 0 < f2 -> 0 <= v -> 0 < eps ->
  lr * sqrt f2 / f1 * sc * (m / (sqrt v + eps)) = lr * sc * ((m / f1) / (sqrt (v / f2) + eps / sqrt f2)).
Proof.
  intros H1 H2 Hv He. rewrite sqrt_div by lra. pose proof (sqrt_lt_R0 f2 H2) as Hs. pose proof (sqrt_pos v) as Hsv.
  field. lra.
Qed.

Lemma ema_nonneg b xs : 0 <= b < 1 -> (forall x, In x xs -> 0 <= x) -> 0 <= ema b xs.
Proof.
  intros Hb Hx. replace 0 with (ema b (repeat 0 (length xs))) by (rewrite ema_const by exact Hb; lra).
  apply ema_le; [exact Hb|]. induction xs as [|x xs IH]; cbn; constructor.
  - apply Hx. now left.
  - apply IH. intros y Hy. apply Hx. now right.
Qed.

(** *** Averages along a history *)
Section Avg.
  Context {K : Type} `{EqD K}.
  Variable adam : list R -> list R -> list R -> list R -> R -> R -> R -> R -> list R * list R * list R * list R.
  Variable hp : hyper R K.

  Lemma update_avg s k w g sc nr p : update_of adam hp s k w g sc nr = Ok p -> o_avg (fst p) = o_avg s.
  Proof.
    unfold update_of. destruct (h_radam hp).
    - intros E. injection E as <-. unfold opt_radam. destruct (radam_lookup _ _ _ _) as [b [n z]]. reflexivity.
    - assert (A : o_avg (fst (opt_adam adam hp s w g sc k nr)) = o_avg s).
      { unfold opt_adam. destruct (adam _ _ _ _ _ _ _ _) as [[[w' g'] m1] m2]. reflexivity. }
      destruct (nZ 0 <? h_b1 hp _ k _)%num, (nZ 0 <? h_b2 hp _ k _)%num; cbn [andb]; intros E; try discriminate E.
      + replace p with (opt_adam adam hp s w g sc k nr) by congruence. exact A.
      + injection E as <-. reflexivity.
      + injection E as <-. reflexivity.
  Qed.

  Lemma call_avg st k w g sc st' w' g' a :
    opt_call adam hp st k w g sc = (st', Ok (w', g')) -> (1 <= hd 0%nat (a_shape g))%nat -> o_avg st = Some a ->
    exists a', o_avg st' = Some a' /\
      dget k a' = Some (update_averages (avg_of st k (length (a_data w'))) (a_data w') (nr_of st k + 1)).
  Proof.
    intros E Hl Ha. rewrite opt_call_eq in E. destruct (a_shape g) as [|len shp]; [discriminate|]. cbn [hd] in Hl.
    destruct (Nat.ltb_spec len 1) as [?|_]; [lia|]. cbv zeta in E.
    set (s1 := with_nr st _) in E. destruct (update_of adam hp s1 _ _ _ _ _) as [[s2 [ws gs]]|e] eqn:U; [|discriminate].
    pose proof (update_avg _ _ _ _ _ _ _ U) as A. cbn [fst] in A. change (o_avg s1) with (o_avg st) in A.
    set (W := if (_ && _)%bool then _ else ws) in E. clearbody W. injection E as <- <- _.
    unfold average_of. rewrite A, Ha. unfold avg_of. rewrite Ha. cbn [a_data with_avg o_avg].
    eexists. split; [reflexivity|]. rewrite dget_dset_same. reflexivity.
  Qed.

  Lemma call_avg_step st k w g sc st' w' g' a :
    opt_call adam hp st k w g sc = (st', Ok (w', g')) -> (1 <= hd 0%nat (a_shape g))%nat -> o_avg st = Some a ->
    length (avg_of st k (length (a_data w'))) = length (a_data w') ->
    exists a' e', o_avg st' = Some a' /\ dget k a' = Some e' /\ length e' = length (a_data w') /\
      forall i, (i < length (a_data w'))%nat ->
        let t := INR (nr_of st k + 1) in
        let decay := Rmin ((1 + t) / (10 + t)) (9999 / 10000) in
        nth i e' 0 = decay * nth i (avg_of st k (length (a_data w'))) 0 + (1 - decay) * nth i (a_data w') 0.
  Proof.
    intros E Hl Ha Hlen. destruct (call_avg st k w g sc st' w' g' a E Hl Ha) as (a' & Ea & Ed).
    do 2 eexists. split; [exact Ea|]. split; [exact Ed|].
    destruct (averages_step _ (a_data w') (nr_of st k + 1) Hlen) as [L S]. split; [exact L|].
    intros i Hi. cbv zeta. rewrite S by exact Hi. now rewrite (proj2 (decay_bounds (nr_of st k + 1))).
  Qed.

  Lemma averages_between (e w : list R) t lo hi i : lo <= 0 <= hi -> lo <= nth i e 0 <= hi -> lo <= nth i w 0 <= hi ->
    lo <= nth i (update_averages e w t) 0 <= hi.
  Proof.
    intros H0 He Hw. destruct (Nat.lt_ge_cases i (length (update_averages e w t))) as [Hi|Hi].
    - unfold update_averages, vmap2 in Hi. rewrite map_length, combine_length in Hi.
      assert (Hie : (i < length e)%nat) by lia. assert (Hiw : (i < length w)%nat) by lia.
      pose proof (nth_error_nth' e 0 Hie) as A. pose proof (nth_error_nth' w 0 Hiw) as C.
      pose proof (vmap2_nth (fun e w => (e - (nZ 1 - avg_decay t) * (e - w))%num) e w i _ _ A C) as P.
      apply nth_error_nth with (d := 0) in P. unfold update_averages. rewrite P. cbn [nsub nmul nZ num_R].
      destruct (decay_bounds t) as [D _]. set (d := (avg_decay t : R)) in *.
      replace (nth i e 0 - (1 - d) * (nth i e 0 - nth i w 0)) with (d * nth i e 0 + (1 - d) * nth i w 0) by lra.
      set (x := nth i e 0) in *. set (y := nth i w 0) in *.
      split.
      + assert (d * lo <= d * x) by (apply Rmult_le_compat_l; lra).
        assert ((1 - d) * lo <= (1 - d) * y) by (apply Rmult_le_compat_l; lra). lra.
      + assert (d * x <= d * hi) by (apply Rmult_le_compat_l; lra).
        assert ((1 - d) * y <= (1 - d) * hi) by (apply Rmult_le_compat_l; lra). lra.
    - rewrite nth_overflow by exact Hi. exact H0.
  Qed.

  Definition avg_in (k : K) (i : nat) (lo hi : R) (st : opt R K) : Prop :=
    forall a e, o_avg st = Some a -> dget k a = Some e -> lo <= nth i e 0 <= hi.

  Lemma nth_repeat0 i n : nth i (repeat 0 n) 0 = 0.
  Proof. destruct (Nat.lt_ge_cases i n); [now rewrite nth_repeat|]. apply nth_overflow. now rewrite repeat_length. Qed.

  Lemma call_avg_err st k w g sc st' e : opt_call adam hp st k w g sc = (st', Err e) -> o_avg st' = o_avg st.
  Proof.
    intros E. rewrite opt_call_eq in E. destruct (a_shape g) as [|len shp]; [now injection E as <-|].
    destruct (len <? 1)%nat; [discriminate|]. cbv zeta in E.
    destruct (update_of adam hp _ _ _ _ _ _) as [[s2 [ws gs]]|e']; [discriminate|]. now injection E as <-.
  Qed.

  Lemma run_avg k i lo hi es : lo <= 0 <= hi -> forall st,
    avg_in k i lo hi st ->
    (forall w g, In (k, Ok (w, g)) (snd (run_events adam hp st es)) -> lo <= nth i (a_data w) 0 <= hi) ->
    avg_in k i lo hi (fst (run_events adam hp st es)).
  Proof.
    intros H0. induction es as [|ev es IH]; intros st Hin Hw; [exact Hin|].
    cbn [run_events] in *. destruct (run_event adam hp st ev) as [st1 o1] eqn:Ee.
    assert (Step : avg_in k i lo hi st1).
    { destruct (run_events adam hp st1 es) as [st2 o2]. cbn [snd] in Hw.
      destruct ev as [j w g sc| |x]; cbn [run_event] in Ee.
      - destruct (opt_call adam hp st j w g sc) as [s r] eqn:Ec. injection Ee as -> <-.
        destruct (eqd j k) as [->|Hne].
        + destruct r as [[w' g']|e].
          * assert (Hb : lo <= nth i (a_data w') 0 <= hi) by (apply (Hw w' g'); apply in_or_app; left; now left).
            destruct (Nat.le_gt_cases 1 (hd 0%nat (a_shape g))) as [Hl|Hl].
            -- intros a e Ea Ed. destruct (o_avg st) as [a0|] eqn:E0.
               ++ destruct (call_avg st k w g sc st1 w' g' a0 Ec Hl E0) as (a' & Ea' & Ed').
                  rewrite Ea in Ea'. injection Ea' as <-. rewrite Ed in Ed'. injection Ed' as ->.
                  apply averages_between; [exact H0| |exact Hb].
                  unfold avg_of. rewrite E0. destruct (dget k a0) as [e0|] eqn:D0; [exact (Hin a0 e0 E0 D0)|].
                  rewrite nth_repeat0. exact H0.
               ++ exfalso. rewrite opt_call_eq in Ec. destruct (a_shape g) as [|len shp]; [discriminate|]. cbn [hd] in Hl.
                  destruct (Nat.ltb_spec len 1) as [?|_]; [lia|]. cbv zeta in Ec.
                  set (s1 := with_nr st _) in Ec. destruct (update_of adam hp s1 _ _ _ _ _) as [[s2 [ws gs]]|?] eqn:U; [|discriminate].
                  pose proof (update_avg _ _ _ _ _ _ _ U) as A. cbn [fst] in A. change (o_avg s1) with (o_avg st) in A.
                  injection Ec as E1 _ _. unfold average_of in E1. rewrite A, E0 in E1. subst st1. congruence.
            -- rewrite opt_call_eq in Ec. destruct (a_shape g) as [|len shp]; [discriminate|]. cbn [hd] in Hl.
               destruct (Nat.ltb_spec len 1) as [_|?]; [|lia]. injection Ec as <- _ _. exact Hin.
          * intros a e' Ea Ed. rewrite (call_avg_err _ _ _ _ _ _ _ Ec) in Ea. exact (Hin a e' Ea Ed).
        + destruct (call_other adam hp st j k w g sc Hne) as [_ (_ & _ & _ & Ha)]. rewrite Ec in Ha. cbn [fst] in Ha.
          intros a e Ea Ed. destruct (o_avg st) as [a0|] eqn:E0; rewrite Ea in Ha; cbn [option_map] in Ha; [|discriminate].
          injection Ha as Ha. exact (Hin a0 e E0 (eq_trans Ha Ed)).
      - injection Ee as <- _. exact Hin.
      - injection Ee as <- _. exact Hin. }
    specialize (IH st1 Step). destruct (run_events adam hp st1 es) as [st2 o2]. cbn [fst snd] in *. apply IH.
    intros w g Hx. apply (Hw w g). apply in_or_app. now right.
  Qed.
End Avg.

Lemma kernel_spec adam : adam = base_adam \/ adam = numpy_adam -> adam_spec adam.
Proof. intros [->| ->]; [exact base_adam_spec | exact numpy_adam_spec]. Qed.

Lemma adam_history {K} `{EqD K} adam (hp : hyper R K) b1 b2 sz k es avg :
  adam = base_adam \/ adam = numpy_adam ->
  fixed (h_b1 hp) b1 -> fixed (h_b2 hp) b2 -> 0 < b1 < 1 -> 0 < b2 < 1 -> Forall (sized k sz) es ->
  let st := fst (run_events adam hp (opt_init avg) es) in
  let tr := eff_trace adam hp (opt_init avg) k es in
  nr_of st k = length tr /\
  length (mom_of (o_mom1 st) k sz) = sz /\ length (mom_of (o_mom2 st) k sz) = sz /\
  forall i, (i < sz)%nat ->
    nth i (mom_of (o_mom1 st) k sz) 0 = ema b1 (column i tr) /\
    nth i (mom_of (o_mom2 st) k sz) 0 = ema b2 (map (fun x => x ^ 2) (column i tr)).
Proof.
  intros Ha F1 F2 B1 B2 Hs. cbv zeta.
  destruct (run_moments adam (kernel_spec adam Ha) hp b1 b2 sz k es (opt_init avg) [] F1 F2 B1 B2 Hs (init_moments b1 b2 sz k avg))
    as (A & B & C).
  cbn [app] in *. split; [exact A|]. rewrite B, C, !moment_length. repeat split.
  - rewrite moment_nth by assumption. now rewrite map_id.
  - now rewrite moment_nth by assumption.
Qed.

Lemma adam_step {K} `{EqD K} adam (hp : hyper R K) b1 b2 sz k es avg w g sc :
  adam = base_adam \/ adam = numpy_adam ->
  h_radam hp = false ->
  fixed (h_b1 hp) b1 -> fixed (h_b2 hp) b2 -> 0 < b1 < 1 -> 0 < b2 < 1 -> Forall (sized k sz) es ->
  length (a_data w) = sz -> length (a_data g) = sz -> (1 <= hd 0%nat (a_shape g))%nat ->
  let st := fst (run_events adam hp (opt_init avg) es) in
  let tr := (eff_trace adam hp (opt_init avg) k es ++ [eff_grad hp st k (a_data w) (a_data g)])%list in
  let n := length tr in
  let lr := h_lr hp (o_step st) k (o_last st) in
  let L2 := h_L2 hp (o_step st) k (o_last st) in
  let eps := h_eps hp (o_step st) k (o_last st) in
  0 < eps ->
  exists st' w' g', opt_call adam hp st k w g sc = (st', Ok (w', g')) /\ length (a_data w') = sz /\
    forall i, (i < sz)%nat ->
      let mhat := ema b1 (column i tr) / (1 - b1 ^ n) in
      let vhat := ema b2 (map (fun x => x ^ 2) (column i tr)) / (1 - b2 ^ n) in
      nth i (a_data w') 0 =
        (if h_decay hp then 1 - sc * lr * L2 else 1) *
        (nth i (a_data w) 0 - lr * sc * (mhat / (sqrt vhat + eps / sqrt (1 - b2 ^ n)))).
Proof.
  intros Ha Er F1 F2 B1 B2 Hs Lw Lg Hl. cbv zeta. intros He.
  pose proof (run_moments adam (kernel_spec adam Ha) hp b1 b2 sz k es (opt_init avg) [] F1 F2 B1 B2 Hs (init_moments b1 b2 sz k avg)) as M.
  cbn [app] in M.
  destruct (call_moments adam (kernel_spec adam Ha) hp b1 b2 sz k _ _ w g sc F1 F2 B1 B2 M Lw Lg Hl)
    as (st' & w' & g' & E & L & _ & Hi).
  exists st', w', g'. split; [exact E|]. split; [exact L|]. intros i Hlt. specialize (Hi Er i Hlt). cbv zeta in Hi. rewrite Hi.
  rewrite app_length. cbn [length]. rewrite Nat.add_1_r. f_equal. f_equal.
  apply textbook_step; [| | |exact He].
  - destruct (pow_bounds b1 (S (length (eff_trace adam hp (opt_init avg) k es)))); lra || lia.
  - destruct (pow_bounds b2 (S (length (eff_trace adam hp (opt_init avg) k es)))); lra || lia.
  - apply ema_nonneg; [lra|]. intros x Hx. apply in_map_iff in Hx as (y & <- & _). apply pow2_ge_0.
Qed.

Lemma kernels_agree (w g m v : list R) b1 b2 e lr :
  length g = length w -> length m = length w -> length v = length w ->
  let '(w1, _, m1, v1) := base_adam w g m v b1 b2 e lr in
  let '(w2, _, m2, v2) := numpy_adam w g m v b1 b2 e lr in
  w1 = w2 /\ m1 = m2 /\ v1 = v2.
Proof.
  intros Lg Lm Lv.
  destruct (base_adam_spec w g m v b1 b2 e lr Lg Lm Lv) as (w1 & g1 & m1 & v1 & -> & A1 & A2 & A3 & A4).
  destruct (numpy_adam_spec w g m v b1 b2 e lr Lg Lm Lv) as (w2 & g2 & m2 & v2 & -> & C1 & C2 & C3 & C4).
  assert (Em : m1 = m2).
  { apply (nth_ext _ _ 0 0); [lia|]. intros i Hi. rewrite (proj1 (A4 i ltac:(lia))), (proj1 (C4 i ltac:(lia))). reflexivity. }
  assert (Ev : v1 = v2).
  { apply (nth_ext _ _ 0 0); [lia|]. intros i Hi.
    rewrite (proj1 (proj2 (A4 i ltac:(lia)))), (proj1 (proj2 (C4 i ltac:(lia)))). reflexivity. }
  split; [|split; assumption]. subst m2 v2. apply (nth_ext _ _ 0 0); [lia|]. intros i Hi.
  rewrite (proj2 (proj2 (A4 i ltac:(lia)))), (proj2 (proj2 (C4 i ltac:(lia)))). reflexivity.
Qed.

Lemma averages_history {K} `{EqD K} adam (hp : hyper R K) k i lo hi es :
  lo <= 0 <= hi ->
  let p := run_events adam hp (opt_init true) es in
  (forall w g, In (k, Ok (w, g)) (snd p) -> lo <= nth i (a_data w) 0 <= hi) ->
  forall a e, o_avg (fst p) = Some a -> dget k a = Some e -> lo <= nth i e 0 <= hi.
Proof.
  intros H0. cbv zeta. intros Hw. apply (run_avg adam hp k i lo hi es H0 (opt_init true)); [|exact Hw].
  intros a e Ea Ed. injection Ea as <-. discriminate Ed.
Qed.

Lemma sgd_real {K} `{EqD K} adam (hp : hyper R K) st k w g sc :
  h_radam hp = false -> (1 <= hd 0%nat (a_shape g))%nat -> length (a_data w) = length (a_data g) ->
  h_b2 hp (o_step st) k (o_last st) <= 0 ->
  let L2 := h_L2 hp (o_step st) k (o_last st) in
  let lr := h_lr hp (o_step st) k (o_last st) in
  let clip := h_clip hp (o_step st) k (o_last st) in
  let reg := if h_decay hp then a_data g else map (fun i => nth i (a_data g) 0 + L2 * nth i (a_data w) 0) (seq 0 (length (a_data g))) in
  let grad := if Req_EM_T clip 0 then reg else clip_gradient reg clip in
  exists st' w' g', opt_call adam hp st k w g sc = (st', Ok (w', g')) /\ length (a_data w') = length (a_data w) /\
    forall i, (i < length (a_data w))%nat ->
      nth i (a_data w') 0 = (if h_decay hp then 1 - sc * lr * L2 else 1) * (nth i (a_data w) 0 - sc * lr * nth i grad 0).
Proof.
  intros Er Hl L Hb. cbv zeta.
  destruct (call_sgd adam hp st k w g sc Er Hl) as (st' & E).
  { cbn. destruct (Rlt_dec 0 (h_b2 hp (o_step st) k (o_last st))); [lra | reflexivity]. }
  assert (EG : (if Req_EM_T (h_clip hp (o_step st) k (o_last st)) 0
                then if h_decay hp then a_data g else map (fun i => nth i (a_data g) 0 + h_L2 hp (o_step st) k (o_last st) * nth i (a_data w) 0) (seq 0 (length (a_data g)))
                else clip_gradient (if h_decay hp then a_data g else map (fun i => nth i (a_data g) 0 + h_L2 hp (o_step st) k (o_last st) * nth i (a_data w) 0) (seq 0 (length (a_data g)))) (h_clip hp (o_step st) k (o_last st)))
               = eff_grad hp st k (a_data w) (a_data g)).
  { unfold eff_grad. cbn [neqb nZ num_R].
    set (r1 := if h_decay hp then a_data g else map _ _). set (r2 := if h_decay hp then a_data g else _).
    assert (R12 : r1 = r2).
    { unfold r1, r2. destruct (h_decay hp); [reflexivity|].
      destruct (Req_EM_T (h_L2 hp (o_step st) k (o_last st)) 0) as [Z|NZ].
      - symmetry. apply tabulate_eq; [reflexivity|]. intros i Hi. rewrite Z. lra.
      - symmetry. apply tabulate_eq; [apply vmap2_length; lia|]. intros i Hi. rewrite vmap2_nth_R by lia. reflexivity. }
    rewrite R12. destruct (Req_EM_T (h_clip hp (o_step st) k (o_last st)) 0); reflexivity. }
  rewrite EG. do 3 eexists. split; [exact E|]. cbv zeta. cbn [a_data].
  assert (LG : length (eff_grad hp st k (a_data w) (a_data g)) = length (a_data g)) by (apply eff_grad_length; exact L).
  split.
  { destruct (_ && _)%bool; rewrite ?map_length, vmap2_length; lia. }
  intros i Hi. destruct (h_decay hp).
  - rewrite Bool.andb_true_r.
    destruct (h_L2 hp (o_step st) k (o_last st) =? nZ 0)%num eqn:EL; cbn [negb].
    + rewrite vmap2_nth_R by lia. cbn in EL. cbn [nsub nmul num_R].
      destruct (Req_EM_T (h_L2 hp (o_step st) k (o_last st)) 0) as [->|]; [lra | discriminate].
    + rewrite map_nth_R by (rewrite vmap2_length; lia). rewrite vmap2_nth_R by lia. cbn [nmul nsub num_R]. lra.
  - rewrite Bool.andb_false_r, vmap2_nth_R by lia. cbn [nsub nmul num_R]. lra.
Qed.

Lemma momentum_only_real {K} `{EqD K} adam (hp : hyper R K) st k w g sc :
  h_radam hp = false -> (1 <= hd 0%nat (a_shape g))%nat ->
  0 < h_b2 hp (o_step st) k (o_last st) -> h_b1 hp (o_step st) k (o_last st) <= 0 ->
  snd (opt_call adam hp st k w g sc) = Err NotImplementedError.
Proof.
  intros Er Hl H2 H1. apply call_momentum_only; [exact Er|exact Hl| |]; cbn.
  - destruct (Rlt_dec 0 (h_b2 hp (o_step st) k (o_last st))); [reflexivity | lra].
  - destruct (Rlt_dec 0 (h_b1 hp (o_step st) k (o_last st))); [lra | reflexivity].
Qed.
