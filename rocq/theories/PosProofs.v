(** Proofs for C68. *)
From Coq Require Import Reals Lra Lia ZArith List Bool Ranalysis.
From Verif Require Import BaseFacts PosSpec ViewSpec ViewProofs ViewGemmProofs.
Import ListNotations.
Local Open Scope R_scope.
Set Default Goal Selector "!".

Section Row.
  Context {T : Type} {NT : Num T} (sinf cosf : T -> T) (powf : T -> T -> T).
  Notation cell f pos period dims d := (f (ndiv pos (powf period (ndiv (nmul (nZ 2) d) dims)))).
  Definition two (pos period dims : T) (k : nat) : list T := [cell sinf pos period dims (nnat (2 * k)); cell cosf pos period dims (nnat (2 * k))].

  Lemma pairs_run pos period dims D fuel : forall k d w, (D <= fuel + 2 * k)%nat -> (2 * k <= D)%nat ->
    pairs sinf cosf powf fuel pos period dims D (2 * k) d w =
      (w ++ concat (map (two pos period dims) (seq k (D / 2 - k))), (2 * (D / 2))%nat, if Nat.eqb k (D / 2) then d else nnat (2 * (D / 2 - 1))).
  Proof.
    induction fuel as [|fuel IH]; intros k d w Hf Hk; cbn [pairs].
    - assert (E : (D = 2 * k)%nat) by lia. rewrite E. rewrite (Nat.mul_comm 2 k), Nat.div_mul by lia. rewrite Nat.sub_diag, Nat.eqb_refl. cbn [seq map concat]. rewrite app_nil_r. f_equal. f_equal. lia.
    - destruct (Nat.ltb_spec (2 * k + 1) D) as [Hlt|Hge].
      + assert (Hd : (S k <= D / 2)%nat) by (apply Nat.div_le_lower_bound; lia). replace (2 * k + 2)%nat with (2 * S k)%nat by lia. rewrite IH by lia.
        replace (D / 2 - k)%nat with (S (D / 2 - S k)) by lia. cbn [seq map concat]. rewrite <- app_assoc. f_equal.
        destruct (Nat.eqb_spec k (D / 2)); [lia|]. destruct (Nat.eqb_spec (S k) (D / 2)) as [E|E]; [|reflexivity]. rewrite <- E. do 2 f_equal. lia.
      + assert (E : (D / 2 = k)%nat). { assert (D = 2 * k \/ D = 2 * k + 1)%nat as [->| ->] by lia; [rewrite Nat.mul_comm; apply Nat.div_mul; lia|]. rewrite Nat.add_comm, Nat.mul_comm, Nat.div_add by lia. reflexivity. }
        rewrite E, Nat.sub_diag, Nat.eqb_refl. cbn [seq map concat]. now rewrite app_nil_r.
  Qed.
  Lemma row_even pos period m : encode_row sinf cosf powf pos period (2 * m) = concat (map (two pos period (nnat (2 * m))) (seq 0 m)).
  Proof.
    unfold encode_row. pose proof (pairs_run pos period (nnat (2 * m)) (2 * m) (2 * m) 0 (nZ 0) [] ltac:(lia) ltac:(lia)) as E. change (2 * 0)%nat with 0%nat in E. rewrite E. replace (2 * m / 2)%nat with m by (rewrite Nat.mul_comm, Nat.div_mul; lia). rewrite Nat.sub_0_r. rewrite Nat.ltb_irrefl. reflexivity.
  Qed.
  Lemma row_odd pos period m : encode_row sinf cosf powf pos period (2 * m + 1) = concat (map (two pos period (nnat (2 * m + 1))) (seq 0 m)) ++ [cell sinf pos period (nnat (2 * m + 1)) (if Nat.eqb m 0 then nZ 0 else nnat (2 * (m - 1)))].
  Proof.
    unfold encode_row. pose proof (pairs_run pos period (nnat (2 * m + 1)) (2 * m + 1) (2 * m + 1) 0 (nZ 0) [] ltac:(lia) ltac:(lia)) as E. change (2 * 0)%nat with 0%nat in E. rewrite E.
    replace ((2 * m + 1) / 2)%nat with m by (rewrite Nat.add_comm, Nat.mul_comm, Nat.div_add by lia; reflexivity). rewrite Nat.sub_0_r. rewrite (proj2 (Nat.ltb_lt (2 * m) (2 * m + 1))) by lia. rewrite (Nat.eqb_sym 0 m). reflexivity.
  Qed.
  Lemma two_length pos period dims l : length (concat (map (two pos period dims) l)) = (2 * length l)%nat.
  Proof. induction l as [|k l IH]; [reflexivity|]. cbn [map concat length]. rewrite app_length, IH. cbn. lia. Qed.
  Lemma row_length pos period D : length (encode_row sinf cosf powf pos period D) = D.
  Proof.
    destruct (Nat.Even_or_Odd D) as [[m ->]|[m ->]].
    - rewrite row_even, two_length, seq_length. reflexivity.
    - rewrite row_odd, app_length, two_length, seq_length. reflexivity.
  Qed.
  Lemma two_nth pos period dims d n : forall s k, (k < n)%nat -> nth (2 * k) (concat (map (two pos period dims) (seq s n))) d = cell sinf pos period dims (nnat (2 * (s + k))) /\
    nth (2 * k + 1) (concat (map (two pos period dims) (seq s n))) d = cell cosf pos period dims (nnat (2 * (s + k))).
  Proof.
    induction n as [|n IH]; intros s k Hk; [lia|]. cbn [seq map concat]. unfold two at 1 3. destruct k as [|k].
    - change (2 * 0)%nat with 0%nat. cbn [nth app Nat.add]. rewrite Nat.add_0_r. split; reflexivity.
    - replace (2 * S k)%nat with (S (S (2 * k))) by lia. cbn [nth app Nat.add]. destruct (IH (S s) k ltac:(lia)) as [E1 E2]. replace (s + S k)%nat with (S s + k)%nat by lia. rewrite <- E1, <- E2. split; reflexivity.
  Qed.
End Row.

(** ** Real numbers *)
Lemma nnat_INR n : (nnat n : R) = INR n. Proof. unfold nnat. cbn. now rewrite <- INR_IZR_INZ. Qed.
Lemma cell_speed (f : R -> R) i period D k : f (ndiv (INR i) (Rpower period (ndiv (nmul (nZ 2) (nnat (2 * k))) (nnat D)))) = f (INR i * speed period D k).
Proof.
  unfold speed. cbn [ndiv nmul nZ num_R]. rewrite !nnat_INR. f_equal. unfold Rdiv at 1. do 3 f_equal. rewrite mult_INR. change (INR 2) with 2. unfold Rdiv. ring.
Qed.
Lemma row_columns period D i k : (2 * k + 1 < D)%nat -> nth (2 * k) (row_R period D i) 0 = sin (INR i * speed period D k) /\ nth (2 * k + 1) (row_R period D i) 0 = cos (INR i * speed period D k).
Proof.
  intros Hk. unfold row_R. destruct (Nat.Even_or_Odd D) as [[m ->]|[m ->]].
  - rewrite row_even. destruct (two_nth sin cos Rpower (INR i) period (nnat (2 * m)) 0 m 0 k ltac:(lia)) as [E1 E2]. rewrite E1, E2. cbn [Nat.add]. split; apply cell_speed.
  - rewrite row_odd. rewrite !app_nth1 by (rewrite two_length, seq_length; lia). destruct (two_nth sin cos Rpower (INR i) period (nnat (2 * m + 1)) 0 m 0 k ltac:(lia)) as [E1 E2]. rewrite E1, E2. cbn [Nat.add]. split; apply cell_speed.
Qed.
Lemma row_last period m i : nth (2 * m) (row_R period (2 * m + 1) i) 0 = sin (INR i * speed period (2 * m + 1) (m - 1)).
Proof.
  unfold row_R. rewrite row_odd. rewrite app_nth2 by (rewrite two_length, seq_length; lia). rewrite two_length, seq_length, Nat.sub_diag. cbn [nth]. rewrite <- (cell_speed sin). do 4 f_equal.
  destruct m as [|m]; [cbn; reflexivity|]. reflexivity.
Qed.
Lemma last_repeats period m i : (1 <= m)%nat -> nth (2 * m) (row_R period (2 * m + 1) i) 0 = nth (2 * (m - 1)) (row_R period (2 * m + 1) i) 0.
Proof. intros Hm. rewrite row_last. symmetry. apply row_columns. lia. Qed.

Lemma speed_paper period D k : 0 < period -> speed period D k = paper_speed (period * period) D k.
Proof.
  intros Hp. unfold speed, paper_speed. f_equal. unfold Rpower. rewrite ln_mult by assumption. f_equal. unfold Rdiv. ring.
Qed.
Lemma speed_zero period D : speed period D 0 = 1. Proof. unfold speed, Rpower. cbn [INR]. rewrite Rmult_0_r. unfold Rdiv. rewrite Rmult_0_l, Rmult_0_l, exp_0. lra. Qed.
Lemma sin_small_lt a b : 0 < a -> a < b -> b < 1 -> sin a < sin b.
Proof. intros Ha Hab Hb. apply sin_increasing_1; try lra; assert (P := PI2_1); unfold PI2 in *; lra. Qed.
Lemma not_paper : nth 2 (row_R 10000 4 1) 0 <> sin (INR 1 * paper_speed 10000 4 1).
Proof.
  destruct (row_columns 10000 4 1 1 ltac:(lia)) as [E _]. change (2 * 1)%nat with 2%nat in E. rewrite E. unfold speed, paper_speed. cbn [INR]. rewrite !Rmult_1_l.
  replace (4 * 1 / (1 + 1 + 1 + 1)) with 1 by field. replace (2 * 1 / (1 + 1 + 1 + 1)) with (/ 2) by field. rewrite Rpower_1 by lra. rewrite Rpower_sqrt by lra.
  replace 10000 with (100 * 100) at 2 by lra. rewrite sqrt_square by lra. apply Rlt_not_eq. apply sin_small_lt; lra.
Qed.
(** Moving by m positions is a rotation that does not depend on the position. *)
Lemma shift_rotates period D i m k : (2 * k + 1 < D)%nat ->
  nth (2 * k) (row_R period D (i + m)) 0 = cos (INR m * speed period D k) * nth (2 * k) (row_R period D i) 0 + sin (INR m * speed period D k) * nth (2 * k + 1) (row_R period D i) 0 /\
  nth (2 * k + 1) (row_R period D (i + m)) 0 = cos (INR m * speed period D k) * nth (2 * k + 1) (row_R period D i) 0 - sin (INR m * speed period D k) * nth (2 * k) (row_R period D i) 0.
Proof.
  intros Hk. destruct (row_columns period D (i + m) k Hk) as [-> ->]. destruct (row_columns period D i k Hk) as [-> ->]. rewrite plus_INR, Rmult_plus_distr_r, sin_plus, cos_plus. split; ring.
Qed.
Lemma dot_app a a' b b' : length a = length a' -> dot_R (a ++ b) (a' ++ b') = dot_R a a' + dot_R b b'.
Proof.
  revert a'. induction a as [|x a IH]; intros [|x' a'] L; try discriminate; unfold dot_R in *; cbn; [ring|]. rewrite IH by (now injection L). ring.
Qed.
Lemma dot_two period dims l i j : dot_R (concat (map (two sin cos Rpower (INR i) period (nnat dims)) l)) (concat (map (two sin cos Rpower (INR j) period (nnat dims)) l)) =
  fold_right Rplus 0 (map (fun k => cos ((INR i - INR j) * speed period dims k)) l).
Proof.
  induction l as [|k l IH]; [reflexivity|]. cbn [map concat fold_right]. rewrite dot_app by reflexivity. rewrite IH. f_equal. unfold two, dot_R. cbn [combine map fold_right fst snd]. rewrite !cell_speed.
  replace ((INR i - INR j) * speed period dims k) with (INR i * speed period dims k - INR j * speed period dims k) by ring. rewrite cos_minus. ring.
Qed.
Lemma dot_distance period m i j : dot_R (row_R period (2 * m) i) (row_R period (2 * m) j) = fold_right Rplus 0 (map (fun k => cos ((INR i - INR j) * speed period (2 * m) k)) (seq 0 m)).
Proof. unfold row_R. rewrite !row_even. apply dot_two. Qed.
Lemma row_norm period m i : dot_R (row_R period (2 * m) i) (row_R period (2 * m) i) = INR m.
Proof.
  rewrite dot_distance. rewrite Rminus_diag_eq by reflexivity. assert (E : forall s, fold_right Rplus 0 (map (fun k => cos (0 * speed period (2 * m) k)) (seq s m)) = INR m); [|apply E].
  generalize (2 * m)%nat as D. induction m as [|n IH]; intros D s; [reflexivity|]. cbn [seq map fold_right]. rewrite IH, Rmult_0_l, cos_0, S_INR. ring.
Qed.
Lemma row_bounded period D i j : (j < D)%nat -> -1 <= nth j (row_R period D i) 0 <= 1.
Proof.
  intros Hj. destruct (Nat.Even_or_Odd j) as [[k ->]|[k ->]].
  - destruct (le_lt_dec D (2 * k + 1)) as [Hle|Hlt].
    + assert (D = 2 * k + 1)%nat as -> by lia. rewrite row_last. apply SIN_bound.
    + destruct (row_columns period D i k Hlt) as [-> _]. apply SIN_bound.
  - destruct (row_columns period D i k Hj) as [_ ->]. apply COS_bound.
Qed.

(** ** The array *)
Section Array.
  Context {T : Type} {NT : Num T} (sinf cosf : T -> T) (powf : T -> T -> T).
  Implicit Types h : heap T.
  Local Open Scope Z_scope.
  Lemma encode_tab period N D : exists g, map (fun i => encode_row sinf cosf powf (nnat i) period D) (seq 0 N) = tab N D g.
  Proof.
    exists (fun i j => nth j (encode_row sinf cosf powf (nnat i) period D) (nZ 0)). unfold tab. apply map_ext. intros i. pose proof (row_length sinf cosf powf (nnat i) period D) as L. rewrite <- L at 2.
    induction (encode_row sinf cosf powf (nnat i) period D) as [|x l IH]; [reflexivity|]. clear L. cbn [length seq map nth]. f_equal. rewrite <- seq_shift, map_map. 
    clear. induction l as [|y l IH]; [reflexivity|]. cbn [length seq map nth]. f_equal. rewrite <- seq_shift, map_map. exact IH.
  Qed.
  Lemma encode_rows period N D h b p : store_run h b p (cpu_position_encode sinf cosf powf period N D) = store_rows h b p (Z.of_nat D) (map (fun i => encode_row sinf cosf powf (nnat i) period D) (seq 0 N)).
  Proof. unfold cpu_position_encode. destruct (encode_tab period N D) as [g ->]. symmetry. apply store_rows_run. apply tab_wide. Qed.
  Lemma encode_new junk h N D period : exists h' z, position_encode sinf cosf powf junk h (Z.of_nat N) (Z.of_nat D) period None = Ok (h', z) /\ elements h' z = Ok (mkM D (map (fun i => encode_row sinf cosf powf (nnat i) period D) (seq 0 N))) /\ v_buf z = length h /\ forall b p, (b < length h)%nat -> load h' b p = load h b p.
  Proof.
    unfold position_encode. destruct (Z.ltb_spec (Z.of_nat N) 0); [lia|]. destruct (Z.ltb_spec (Z.of_nat D) 0); [lia|]. cbn [orb bind]. rewrite !Nat2Z.id.
    assert (EJ : repeat (repeat junk D) N = tab N D (fun _ _ => junk)). { unfold tab. assert (EE : forall (A : Type) (a : A) n, map (fun _ => a) (seq 0 n) = repeat a n). { intros A a n. generalize 0%nat. induction n as [|n IH]; intros k; [reflexivity|]. cbn. now rewrite IH. } now rewrite !EE. }
    rewrite EJ. unfold new_c. cbn [m_rows]. cbv iota beta. cbn [bind]. cbn [v_rows v_cols]. rewrite !Z.eqb_refl. cbn [negb].
    set (z := mkView (length h) 0 N D (Z.of_nat D) 1). set (h1 := h ++ [concat (tab N D (fun _ _ => junk))]).
    assert (E : elements h1 z = Ok (mkM D (tab N D (fun _ _ => junk)))). { refine (elements_intro _ _ _ _). intros i j Hi Hj. unfold z. cbn [v_buf]. rewrite addr_c. apply (new_c_load h N D (fun _ _ => junk) i j Hi Hj). }
    assert (Hc : contiguous z = true) by (unfold contiguous; cbn; rewrite Z.eqb_refl; now rewrite !orb_true_r).
    destruct (encode_tab period N D) as [g Eg]. destruct (store_view h1 z _ N D g E Hc eq_refl eq_refl) as (h' & W1 & W2 & W3 & W4). exists h', z. rewrite encode_rows. rewrite Eg. change (v_cols z) with D in W1. rewrite W1. cbn [bind].
    split; [reflexivity|]. split; [exact W3|]. split; [reflexivity|]. intros b p Hb. rewrite W4 by (left; cbn; lia). unfold h1. now apply load_app_err.
  Qed.
  Lemma encode_out junk h N D period o O : elements h o = Ok O -> v_rows o = N -> v_cols o = D -> contiguous o = true ->
    exists h', position_encode sinf cosf powf junk h (Z.of_nat N) (Z.of_nat D) period (Some o) = Ok (h', o) /\ elements h' o = Ok (mkM D (map (fun i => encode_row sinf cosf powf (nnat i) period D) (seq 0 N))) /\ untouched o h h'.
  Proof.
    intros E <- <- Hc. unfold position_encode. cbn [bind]. rewrite !Z.eqb_refl. cbn [negb]. rewrite !Nat2Z.id. rewrite encode_rows. destruct (encode_tab period (v_rows o) (v_cols o)) as [g Eg]. rewrite Eg.
    destruct (store_view h o O _ _ g E Hc eq_refl eq_refl) as (h' & W1 & W2 & W3 & W4). exists h'. rewrite W1. cbn [bind]. split; [reflexivity|]. split; [exact W3 | exact W4].
  Qed.
  Lemma encode_errors junk h N D period : (N < 0 \/ D < 0 -> position_encode sinf cosf powf junk h N D period None = Err ValueError) /\
    (forall o, Z.of_nat (v_rows o) <> N \/ Z.of_nat (v_cols o) <> D -> position_encode sinf cosf powf junk h N D period (Some o) = Err AssertionError).
  Proof.
    split.
    - intros Hn. unfold position_encode. replace ((N <? 0) || (D <? 0))%bool with true; [reflexivity|]. symmetry. apply orb_true_iff. rewrite !Z.ltb_lt. exact Hn.
    - intros o Ho. unfold position_encode. cbn [bind]. destruct (Z.eqb_spec (Z.of_nat (v_rows o)) N); cbn [negb]; [|reflexivity]. destruct (Z.eqb_spec (Z.of_nat (v_cols o)) D); cbn [negb]; [|reflexivity]. exfalso. destruct Ho; congruence.
  Qed.
  Lemma encode_gaps junk (a b c period : T) : let o := mkView 0 0 1 2 4 2 in exists x y, position_encode sinf cosf powf junk [[a; b; c]] 1 2 period (Some o) = Ok ([[x; y; c]], o).
  Proof. do 2 eexists. reflexivity. Qed.
End Array.
