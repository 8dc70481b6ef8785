From Coq Require Import Lia.
From Verif Require Import BaseFacts HashSpec.
Set Default Goal Selector "!".
Local Open Scope Z_scope.

Local Notation word64 := (word 64).
Lemma w64_word x : word64 (w64 x). Proof. apply Z.mod_pos_bound. lia. Qed.
Lemma w64_id x : word64 x -> w64 x = x. Proof. intros H. now apply Z.mod_small. Qed.
Lemma w64_bit x n : 0 <= n < 64 -> Z.testbit (w64 x) n = Z.testbit x n.
Proof. intros H. unfold w64. apply Z.mod_pow2_bits_low. lia. Qed.
Lemma word_high x n : word64 x -> 64 <= n -> Z.testbit x n = false.
Proof. intros H Hn. rewrite <- (w64_id x H). unfold w64. apply Z.mod_pow2_bits_high. lia. Qed.
Lemma word_ext x y : word64 x -> word64 y -> (forall n, 0 <= n < 64 -> Z.testbit x n = Z.testbit y n) -> x = y.
Proof. intros Hx Hy E. apply Z.bits_inj'. intros n Hn. destruct (Z.lt_ge_cases n 64); [apply E; lia|]. now rewrite !word_high. Qed.

Lemma xorshift_inv h : word64 h -> xorshift64 (xorshift64 h) = h.
Proof.
  intros H. apply word_ext; [apply w64_word | exact H|]. intros n Hn.
  assert (X : forall m, 0 <= m < 64 -> Z.testbit (xorshift64 h) m = xorb (Z.testbit h m) (Z.testbit h (m + 33))).
  { intros m Hm. unfold xorshift64. rewrite w64_bit, Z.lxor_spec, Z.shiftr_spec by lia. reflexivity. }
  unfold xorshift64 at 1. rewrite w64_bit, Z.lxor_spec, Z.shiftr_spec, X by lia. destruct (Z.lt_ge_cases (n + 33) 64).
  - rewrite X by lia. rewrite (word_high h (n + 33 + 33)) by (try assumption; lia). destruct (Z.testbit h n), (Z.testbit h (n + 33)); reflexivity.
  - rewrite (word_high (xorshift64 h)) by (try apply w64_word; lia). rewrite (word_high h (n + 33)) by (try assumption; lia). destruct (Z.testbit h n); reflexivity.
Qed.
Lemma mul_inv c inv x : w64 (c * inv) = 1 -> word64 x -> w64 (w64 (x * c) * inv) = x.
Proof.
  intros E Hx. unfold w64 in *. rewrite Z.mul_mod_idemp_l by lia. replace (x * c * inv) with (x * (c * inv)) by ring. rewrite <- Z.mul_mod_idemp_r, E by lia. rewrite Z.mul_1_r. now apply Z.mod_small.
Qed.
Lemma mul_inj c inv x y : w64 (c * inv) = 1 -> word64 x -> word64 y -> w64 (x * c) = w64 (y * c) -> x = y.
Proof. intros E Hx Hy F. rewrite <- (mul_inv c inv x E Hx), <- (mul_inv c inv y E Hy). now rewrite F. Qed.
Lemma xorshift_inj x y : word64 x -> word64 y -> xorshift64 x = xorshift64 y -> x = y.
Proof. intros Hx Hy F. rewrite <- (xorshift_inv x Hx), <- (xorshift_inv y Hy). now rewrite F. Qed.
Lemma xorshift_word x : word64 (xorshift64 x). Proof. apply w64_word. Qed.
Lemma inv1 : w64 (18397679294719823053 * 5725274745694666757) = 1. Proof. vm_compute. reflexivity. Qed.
Lemma inv2 : w64 (14181476777654086739 * 11291846944257947611) = 1. Proof. vm_compute. reflexivity. Qed.
Lemma inv3 : w64 (9782798678568883157 * 12214898983567248765) = 1. Proof. vm_compute. reflexivity. Qed.
Lemma inv4 : w64 (5545529020109919103 * 12114143059468233855) = 1. Proof. vm_compute. reflexivity. Qed.
Lemma fmix_inj x y : word64 x -> word64 y -> fmix64 x = fmix64 y -> x = y.
Proof.
  intros Hx Hy E. apply xorshift_inj; [exact Hx | exact Hy|]. apply (mul_inj _ _ _ _ inv1); [apply xorshift_word | apply xorshift_word|]. apply xorshift_inj; [apply w64_word | apply w64_word|].
  apply (mul_inj _ _ _ _ inv2); [apply xorshift_word | apply xorshift_word|]. apply xorshift_inj; [apply w64_word | apply w64_word|]. exact E.
Qed.
Definition rot (x : Z) : Z := w64 (Z.lor (w64 (Z.shiftl x 31)) (Z.shiftr x 33)).
Lemma rot_bit x n : word64 x -> 0 <= n < 64 -> Z.testbit (rot x) n = if n <? 31 then Z.testbit x (n + 33) else Z.testbit x (n - 31).
Proof.
  intros Hx Hn. unfold rot. rewrite w64_bit, Z.lor_spec, w64_bit, Z.shiftl_spec, Z.shiftr_spec by lia. destruct (Z.ltb_spec n 31).
  - now rewrite Z.testbit_neg_r by lia.
  - rewrite (word_high x (n + 33)) by (try assumption; lia). apply orb_false_r.
Qed.
Lemma rot_inj x y : word64 x -> word64 y -> rot x = rot y -> x = y.
Proof.
  intros Hx Hy E. apply word_ext; try assumption. intros n Hn. destruct (Z.lt_ge_cases n 33).
  - pose proof (rot_bit x (n + 31) Hx ltac:(lia)) as A. pose proof (rot_bit y (n + 31) Hy ltac:(lia)) as B. destruct (Z.ltb_spec (n + 31) 31); [lia|]. rewrite E, B in A. replace (n + 31 - 31) with n in A by lia. now symmetry.
  - pose proof (rot_bit x (n - 33) Hx ltac:(lia)) as A. pose proof (rot_bit y (n - 33) Hy ltac:(lia)) as B. destruct (Z.ltb_spec (n - 33) 31); [|lia]. rewrite E, B in A. replace (n - 33 + 33) with n in A by lia. now symmetry.
Qed.
Lemma xor_inj s x y : word64 x -> word64 y -> w64 (Z.lxor x s) = w64 (Z.lxor y s) -> x = y.
Proof.
  intros Hx Hy E. apply word_ext; try assumption. intros n Hn. apply (f_equal (fun z => Z.testbit z n)) in E. rewrite !w64_bit, !Z.lxor_spec in E by exact Hn. destruct (Z.testbit x n), (Z.testbit y n), (Z.testbit s n); cbn in E; congruence.
Qed.
Lemma add_inj c x y : word64 x -> word64 y -> w64 (x + c) = w64 (y + c) -> x = y.
Proof.
  intros Hx Hy E. apply (f_equal (fun z => w64 (z - c))) in E. unfold w64 in E. rewrite !Zminus_mod_idemp_l in E. rewrite !Z.add_simpl_r in E. fold (w64 x) (w64 y) in E. rewrite !w64_id in E by assumption. exact E.
Qed.
Lemma halves_inj x y : word64 x -> word64 y -> w32 x = w32 y -> w32 (Z.shiftr x 32) = w32 (Z.shiftr y 32) -> x = y.
Proof.
  unfold word, w32. intros Hx Hy E1 E2. rewrite !Z.shiftr_div_pow2 in E2 by lia. rewrite (Z.div_mod x (2 ^ 32)), (Z.div_mod y (2 ^ 32)) by lia. rewrite E1. do 2 f_equal.
  rewrite !Z.mod_small in E2; [exact E2 | |]; (split; [apply Z.div_pos; lia | apply Z.div_lt_upper_bound; lia]).
Qed.
Definition premix (seed v : Z) : Z := w64 (Z.lxor (w64 (Z.lxor (w64 (rot (w64 (v * 9782798678568883157)) * 5545529020109919103)) seed)) 8).
Definition words4 (h1 h2 : Z) : list Z := [w32 h1; w32 (Z.shiftr h1 32); w32 h2; w32 (Z.shiftr h2 32)].
Definition finish (c a : Z) : list Z :=
  let h1 := w64 (a + c) in let h2 := w64 (c + h1) in
  let k := w64 (fmix64 h1 + fmix64 h2) in words4 k (w64 (fmix64 h2 + k)).
Lemma murmur128_parts v seed : murmur128 v seed = finish (w64 (Z.lxor seed 8)) (premix seed v).
Proof. reflexivity. Qed.
Lemma words4_inj a b a' b' : word64 a -> word64 b -> word64 a' -> word64 b' -> words4 a b = words4 a' b' -> a = a' /\ b = b'.
Proof.
  intros Ha Hb Ha' Hb'. unfold words4. generalize (halves_inj a a' Ha Ha') (halves_inj b b' Hb Hb').
  generalize (w32 a) (w32 (Z.shiftr a 32)) (w32 b) (w32 (Z.shiftr b 32)) (w32 a') (w32 (Z.shiftr a' 32)) (w32 b') (w32 (Z.shiftr b' 32)).
  intros p q r s p' q' r' s' G1 G2 E. injection E as -> -> -> ->. split; [now apply G1 | now apply G2].
Qed.
Lemma premix_inj seed x y : word64 x -> word64 y -> premix seed x = premix seed y -> x = y.
Proof.
  intros Hx Hy F. unfold premix in F. apply xor_inj in F; [|apply w64_word | apply w64_word]. apply xor_inj in F; [|apply w64_word | apply w64_word].
  apply (mul_inj _ _ _ _ inv4) in F; [|apply w64_word | apply w64_word]. apply rot_inj in F; [|apply w64_word | apply w64_word]. apply (mul_inj _ _ _ _ inv3) in F; assumption.
Qed.
Lemma fmix_word x : word64 (fmix64 x). Proof. apply xorshift_word. Qed.
Lemma finish_inj c a b : word64 a -> word64 b -> finish c a = finish c b -> a = b.
Proof.
  intros Ha Hb E. unfold finish in E. cbv zeta in E. apply words4_inj in E; [|apply w64_word ..]. destruct E as [F1 F2]. rewrite <- F1 in F2. apply add_inj in F2; [|apply fmix_word | apply fmix_word].
  rewrite F2 in F1. apply add_inj in F1; [|apply fmix_word | apply fmix_word]. apply fmix_inj in F1; [|apply w64_word | apply w64_word]. apply add_inj in F1; assumption.
Qed.
Lemma murmur128_inj seed x y : word64 x -> word64 y -> murmur128 x seed = murmur128 y seed -> x = y.
Proof.
  intros Hx Hy E. rewrite !murmur128_parts in E. apply finish_inj in E; [|apply w64_word | apply w64_word]. apply premix_inj in E; assumption.
Qed.

Lemma hash_ok ids seed : word 32 seed -> exists rows, np_hash ids seed = Ok rows /\ length rows = length ids /\
  Forall (fun r => length r = 4%nat /\ Forall (word 32) r) rows /\ forall i id, nth_error ids i = Some id -> nth_error rows i = Some (murmur128 id seed).
Proof.
  intros Hs. unfold np_hash. unfold word in Hs. destruct (Z.ltb_spec seed 0); [lia|]. destruct (Z.leb_spec (2 ^ 32) seed); [lia|]. cbn [orb]. eexists. split; [reflexivity|]. split; [apply map_length|]. split.
  - apply Forall_map. apply Forall_forall. intros id _. split; [reflexivity|]. repeat constructor; apply Z.mod_pos_bound; lia.
  - intros i id Hi. rewrite nth_error_map, Hi. reflexivity.
Qed.
Lemma hash_seed ids seed : ~ word 32 seed -> np_hash ids seed = Err OverflowError.
Proof. intros H. unfold np_hash. unfold word in H. destruct (Z.ltb_spec seed 0); [reflexivity|]. destruct (Z.leb_spec (2 ^ 32) seed); [reflexivity | lia]. Qed.
Lemma w64_map ids : Forall word64 ids -> map w64 ids = ids.
Proof. intros H. induction H as [|x l Hx H IH]; [reflexivity|]. cbn. now rewrite w64_id, IH. Qed.
Lemma s32_ok x : - 2 ^ 31 <= s32 x < 2 ^ 31 /\ s32 x mod 2 ^ 32 = x mod 2 ^ 32.
Proof.
  unfold s32, w32. pose proof (Z.mod_pos_bound x (2 ^ 32) ltac:(lia)). destruct (Z.ltb_spec (x mod 2 ^ 32) (2 ^ 31)); split; lia.
Qed.
Lemma op_hash_words ids seed rows : Forall word64 ids -> np_hash ids seed = Ok rows ->
  exists rows', op_hash ids seed = Ok rows' /\ Forall2 (Forall2 (fun s u => - 2 ^ 31 <= s < 2 ^ 31 /\ s mod 2 ^ 32 = u mod 2 ^ 32)) rows' rows.
Proof.
  intros H E. unfold op_hash. rewrite w64_map, E by exact H. eexists. split; [reflexivity|]. clear E. induction rows as [|r rows IH]; cbn; constructor; [|exact IH]. induction r; cbn; constructor; [apply s32_ok|assumption].
Qed.
Lemma op_hash_signed : exists ids seed rows, Forall word64 ids /\ word 32 seed /\ np_hash ids seed = Ok rows /\ op_hash ids seed <> Ok rows.
Proof. exists [1], 7. eexists. split; [repeat constructor; lia|]. split; [split; lia|]. split; [reflexivity|]. vm_compute. discriminate. Qed.
Lemma op_hash_seed ids seed : ~ word 32 seed -> op_hash ids seed = Err OverflowError.
Proof. intros H. unfold op_hash. now rewrite hash_seed. Qed.
Lemma hash_distinct ids seed rows i j x y : Forall word64 ids -> np_hash ids seed = Ok rows -> nth_error ids i = Some x -> nth_error ids j = Some y ->
  nth_error rows i = nth_error rows j -> x = y.
Proof.
  intros Hw E Hi Hj Er. unfold np_hash in E. destruct ((seed <? 0) || (2 ^ 32 <=? seed)); [discriminate|]. injection E as <-. rewrite !nth_error_map, Hi, Hj in Er. cbn [option_map] in Er.
  assert (G : forall p q : list Z, Some p = Some q -> p = q) by (intros p q G; now injection G). apply G in Er. rewrite Forall_forall in Hw. apply (murmur128_inj seed); [apply Hw; eapply nth_error_In; exact Hi | apply Hw; eapply nth_error_In; exact Hj | exact Er].
Qed.

Section N.
  Variable hash64 : list Z -> Z.
  Lemma ngram_loop_ok n keys : forall count i out, (i + count + n <= length keys + 1)%nat -> (0 < n)%nat -> length out = (i + count)%nat ->
    ngram_loop hash64 n keys i count out = Ok (firstn i out ++ map (fun j => hash64 (firstn n (skipn j keys))) (seq i count)).
  Proof.
    induction count as [|count IH]; intros i out Hk Hn Lo.
    - cbn. f_equal. rewrite app_nil_r. symmetry. apply firstn_all2. lia.
    - cbn [ngram_loop]. destruct (Nat.ltb_spec (length keys) (i + n)); [lia|]. destruct (Nat.leb_spec (length out) i); [lia|]. cbn [orb]. rewrite IH by (rewrite ?set_nth_length; lia). f_equal.
      change (seq i (S count)) with (i :: seq (S i) count). cbn [map].
      assert (F : firstn (S i) (set_nth i (hash64 (firstn n (skipn i keys))) out) = firstn i out ++ [hash64 (firstn n (skipn i keys))]); [|rewrite F, <- app_assoc; reflexivity].
      generalize (hash64 (firstn n (skipn i keys))). intros v. assert (Hi : (i < length out)%nat) by lia. clear -Hi. revert out Hi. induction i as [|i IHi]; intros [|x out] Hi; cbn [length] in Hi; try lia; [reflexivity|].
      cbn [set_nth firstn app]. f_equal. apply IHi. lia.
  Qed.
  Lemma ngrams_ok n keys : (1 <= n)%nat -> keys <> [] ->
    np_ngrams hash64 (Z.of_nat n) keys = Ok (map (fun i => hash64 (firstn n (skipn i keys))) (seq 0 (length keys + 1 - n))).
  Proof.
    intros Hn Hk. unfold np_ngrams. destruct (Z.ltb_spec (Z.of_nat n) 1); [lia|]. destruct (Nat.eqb_spec (length keys) 0) as [E|_]; [destruct keys; [congruence | discriminate]|].
    rewrite Nat2Z.id. replace (Z.to_nat (Z.of_nat (length keys) - (Z.of_nat n - 1))) with (length keys + 1 - n)%nat by lia. replace (Z.to_nat (Z.max 0 (Z.of_nat (length keys) - (Z.of_nat n - 1)))) with (length keys + 1 - n)%nat by lia.
    destruct (Nat.le_gt_cases n (length keys)).
    - rewrite ngram_loop_ok; [reflexivity | lia | lia | rewrite repeat_length; lia].
    - replace (length keys + 1 - n)%nat with 0%nat by lia. reflexivity.
  Qed.
  Lemma ngrams_length n keys out : keys <> [] -> np_ngrams hash64 n keys = Ok out -> Z.of_nat (length out) = if n <? 1 then 0 else Z.max 0 (Z.of_nat (length keys) - n + 1).
  Proof.
    intros Hk E. destruct (Z.ltb_spec n 1) as [H|H].
    - unfold np_ngrams in E. destruct (Z.ltb_spec n 1); [|lia]. injection E as <-. reflexivity.
    - rewrite <- (Z2Nat.id n) in E by lia. rewrite ngrams_ok in E by (try assumption; lia). injection E as <-. rewrite map_length, seq_length. lia.
  Qed.
  Lemma ngrams_local n keys keys' i a b : length keys = length keys' -> keys <> [] -> (1 <= n)%nat ->
    (forall k, (i <= k < i + n)%nat -> nth_error keys k = nth_error keys' k) ->
    np_ngrams hash64 (Z.of_nat n) keys = Ok a -> np_ngrams hash64 (Z.of_nat n) keys' = Ok b -> nth_error a i = nth_error b i.
  Proof.
    intros L Hk Hn E Ea Eb. rewrite ngrams_ok in Ea by assumption. assert (Hk' : keys' <> []) by (intros ->; destruct keys; [congruence | discriminate]). rewrite ngrams_ok in Eb by assumption. injection Ea as <-. injection Eb as <-.
    rewrite !nth_error_map, L. destruct (nth_error (seq 0 (length keys' + 1 - n)) i) as [j|] eqn:Ej; [|reflexivity].
    assert (Hi : (i < length keys' + 1 - n)%nat) by (rewrite <- (seq_length (length keys' + 1 - n) 0); apply nth_error_Some; rewrite Ej; discriminate).
    rewrite (nth_error_nth' _ 0%nat), seq_nth in Ej by (rewrite ?seq_length; exact Hi). injection Ej as <-. cbn [Nat.add option_map]. do 2 f_equal. apply nth_error_ext. intros k. destruct (Nat.lt_ge_cases k n).
    - rewrite !nth_error_firstn, !nth_error_skipn by lia. apply E. lia.
    - rewrite !(proj2 (nth_error_None _ _)); [reflexivity | rewrite firstn_length; lia | rewrite firstn_length; lia].
  Qed.
  Lemma ngrams_errors n keys : (n < 1 -> np_ngrams hash64 n keys = Ok []) /\ (1 <= n -> np_ngrams hash64 n [] = Err IndexError).
  Proof. unfold np_ngrams. split; intros H; destruct (Z.ltb_spec n 1); try lia; reflexivity. Qed.
  Lemma op_ngrams_ok n keys l : Forall (word 64) keys -> np_ngrams hash64 n keys = Ok l -> op_ngrams hash64 n keys = Ok (map s32 l).
  Proof. intros H E. unfold op_ngrams. now rewrite w64_map, E. Qed.
End N.
Lemma ngrams_cut : exists hash64 n keys, (forall l, word 64 (hash64 l)) /\ Forall (word 64) keys /\
  np_ngrams hash64 n keys = Ok [2 ^ 32 + 5; 5]%Z /\ op_ngrams hash64 n keys = Ok [5; 5]%Z.
Proof.
  exists (fun l => w64 (hd 0 l)), 1, [2 ^ 32 + 5; 5]. split; [intros l; apply w64_word|]. split; [repeat constructor; lia|]. split; vm_compute; reflexivity.
Qed.
