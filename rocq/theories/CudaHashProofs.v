(** Proofs about hashing on the GPU. *)
From Coq Require Import Lia.
From Verif Require Import BaseFacts MatProofs MkProofs CudaProofs CudaRowProofs HashProofs HashSpec CudaSpec CudaHashModel.
Set Default Goal Selector "!".
Local Open Scope Z_scope.

Notation byte := (fun b : Z => 0 <= b < 256).
Lemma le_bytes_length n : forall x, length (le_bytes n x) = n.
Proof. induction n; intros x; [reflexivity|]. cbn [le_bytes length]. now rewrite IHn. Qed.
Lemma le_bytes_byte n : forall x, Forall byte (le_bytes n x).
Proof. induction n; intros x; cbn [le_bytes]; constructor; [apply Z.mod_pos_bound; lia | apply IHn]. Qed.
Lemma pow_step n : 2 ^ (8 * Z.of_nat (S n)) = 256 * 2 ^ (8 * Z.of_nat n).
Proof. replace (8 * Z.of_nat (S n)) with (8 + 8 * Z.of_nat n) by lia. rewrite Z.pow_add_r by lia. reflexivity. Qed.
Lemma le_word_bytes n : forall x, le_word (le_bytes n x) = x mod 2 ^ (8 * Z.of_nat n).
Proof.
  induction n as [|n IH]; intros x; [cbn; now rewrite Z.mod_1_r|]. cbn [le_bytes le_word]. rewrite IH, pow_step.
  rewrite Z.rem_mul_r by lia. reflexivity.
Qed.
Lemma le_word_bound l : Forall byte l -> 0 <= le_word l < 2 ^ (8 * Z.of_nat (length l)).
Proof. induction 1 as [|b l Hb Hl IH]; [cbn; lia|]. cbn [le_word length]. rewrite pow_step. lia. Qed.
Lemma le_word_snoc l b : le_word (l ++ [b]) = le_word l + b * 2 ^ (8 * Z.of_nat (length l)).
Proof. induction l as [|a l IH]; [cbn; lia|]. cbn [le_word app length]. rewrite IH, pow_step. ring. Qed.
Lemma xor_high x y s : 0 <= s -> 0 <= y < 2 ^ s -> Z.lxor (Z.shiftl x s) y = y + x * 2 ^ s.
Proof.
  intros Hs Hy. rewrite Z.add_comm, <- Z.shiftl_mul_pow2 by exact Hs. symmetry. apply Z.add_nocarry_lxor. apply Z.bits_inj. intros n. rewrite Z.land_spec, Z.bits_0.
  destruct (Z.lt_ge_cases n 0); [now rewrite Z.testbit_neg_r|]. rewrite Z.shiftl_spec by assumption. destruct (Z.lt_ge_cases n s).
  - now rewrite (Z.testbit_neg_r x) by lia.
  - destruct (Z.eq_dec y 0) as [->|]; [rewrite Z.bits_0; apply andb_false_r|]. rewrite (Z.bits_above_log2 y); [apply andb_false_r | lia|]. apply Z.lt_le_trans with s; [|assumption]. apply Z.log2_lt_pow2; lia.
Qed.
Lemma tail_ok data tail n : (n <= 8)%nat -> forall g k, (forall j, (j < n)%nat -> load data (tail + j) = Ok (g j) /\ byte (g j)) ->
  murmur_tail data tail n k = Ok (Z.lxor k (le_word (vec n g))).
Proof.
  induction n as [|n IH]; intros Hn g k Hg; [cbn; now rewrite Z.lxor_0_r|]. cbn [murmur_tail]. destruct (Hg n ltac:(lia)) as [E Hb]. rewrite E. cbn [bind].
  rewrite (IH ltac:(lia) g) by (intros; apply Hg; lia). do 1 f_equal. unfold vec. rewrite seq_S, map_app. cbn [map Nat.add]. rewrite le_word_snoc, map_length, seq_length.
  rewrite Z.lxor_assoc. f_equal. assert (HB : 0 <= le_word (map g (seq 0 n)) < 2 ^ (8 * Z.of_nat n)).
  { pose proof (le_word_bound (map g (seq 0 n))) as HB. rewrite map_length, seq_length in HB. apply HB. apply Forall_map, Forall_forall. intros j Hj. apply in_seq in Hj. apply Hg. lia. }
  rewrite w64_id; [apply xor_high; [lia|exact HB]|]. rewrite Z.shiftl_mul_pow2 by lia. split; [nia|]. replace (2 ^ 64) with (2 ^ 8 * 2 ^ 56) by reflexivity.
  assert (2 ^ (8 * Z.of_nat n) <= 2 ^ 56) by (apply Z.pow_le_mono_r; lia). nia.
Qed.
Lemma word_xor x y : word 64 x -> word 64 y -> word 64 (Z.lxor x y).
Proof.
  intros Hx Hy. assert (0 <= Z.lxor x y) by (apply Z.lxor_nonneg; unfold word in *; lia). split; [assumption|].
  destruct (Z.eq_dec (Z.lxor x y) 0) as [->|]; [lia|]. apply Z.log2_lt_pow2; [lia|]. pose proof (Z.log2_lxor x y ltac:(apply Hx) ltac:(apply Hy)).
  assert (forall z, word 64 z -> Z.log2 z < 64). { intros z Hz. destruct (Z.eq_dec z 0) as [->|]; [cbn; lia|]. apply Z.log2_lt_pow2; unfold word in Hz; lia. }
  pose proof (H1 x Hx). pose proof (H1 y Hy). lia.
Qed.
Lemma murmur_8 data key v seed : word 64 v -> word 32 seed -> (forall j, (j < 8)%nat -> load data (key + j) = Ok (nth j (le_bytes 8 v) 0)) ->
  exists h1 h2, murmur3_x64_128 data key 8 seed = Ok (h1, h2) /\ word 64 h1 /\ word 64 h2 /\ murmur128 v seed = words4 h1 h2.
Proof.
  intros Hv Hs Hl. assert (Hs' : word 64 seed) by (unfold word in *; lia). unfold murmur3_x64_128. change (8 / 16)%nat with 0%nat. change (8 mod 16)%nat with 8%nat. cbn [murmur_body bind Nat.leb fst snd].
  change (0 * 16)%nat with 0%nat. rewrite Nat.add_0_r. change (Nat.min 8 8) with 8%nat. change (Z.of_nat 8) with 8.
  rewrite (tail_ok data key 8 (le_n _) (fun j => nth j (le_bytes 8 v) 0)).
  2: { intros j Hj. split; [now apply Hl|]. apply (proj1 (Forall_forall _ _) (le_bytes_byte 8 v)). apply nth_In. now rewrite le_bytes_length. }
  cbn [bind]. assert (E : vec 8 (fun j => nth j (le_bytes 8 v) 0) = le_bytes 8 v) by reflexivity.
  rewrite E, le_word_bytes, Z.lxor_0_l. change (8 * Z.of_nat 8) with 64. fold (w64 v). rewrite (w64_id v Hv).
  eexists. eexists. split; [reflexivity|]. split; [apply w64_word|]. split; [apply w64_word|].
  unfold murmur128. assert (E1 : w64 (Z.lxor (w64 (Z.lxor (w64 (w64 (Z.lor (w64 (Z.shiftl (w64 (v * 9782798678568883157)) 31)) (Z.shiftr (w64 (v * 9782798678568883157)) 33)) * 5545529020109919103)) seed)) 8) = Z.lxor (Z.lxor seed (mix_k1 v)) 8).
  { unfold mix_k1, rotl64, c1, c2. change (64 - 31) with 33. rewrite (Z.lxor_comm seed).
    assert (H8 : word 64 8) by (split; lia). rewrite (w64_id (Z.lxor _ seed)) by (apply word_xor; [apply w64_word|exact Hs']). apply w64_id. apply word_xor; [|exact H8]. apply word_xor; [apply w64_word|exact Hs']. }
  assert (E2 : w64 (Z.lxor seed 8) = Z.lxor seed 8). { apply w64_id. apply word_xor; [exact Hs'|split; lia]. }
  rewrite E1, E2. reflexivity.
Qed.
(** The words of the bytes *)
Lemma le_bytes_mod n : forall x m, (n <= m)%nat -> le_bytes n (x mod 2 ^ (8 * Z.of_nat m)) = le_bytes n x.
Proof.
  induction n as [|n IH]; intros x m Hm; [reflexivity|]. destruct m as [|m]; [lia|]. cbn [le_bytes]. rewrite pow_step, Z.rem_mul_r by lia. f_equal.
  - rewrite (Z.mul_comm 256), Z.mod_add by lia. apply Z.mod_mod. lia.
  - rewrite (Z.mul_comm 256), Z.div_add by lia. rewrite Z.div_small by (apply Z.mod_pos_bound; lia). apply IH. lia.
Qed.
Lemma le_bytes_app n : forall m x, le_bytes (n + m) x = (le_bytes n x ++ le_bytes m (x / 2 ^ (8 * Z.of_nat n)))%list.
Proof.
  induction n as [|n IH]; intros m x; [cbn; now rewrite Z.div_1_r|]. cbn [Nat.add le_bytes app]. rewrite IH, pow_step. do 2 f_equal. rewrite Z.div_div by lia. reflexivity.
Qed.
Lemma bytes_words h : le_bytes 8 h = (le_bytes 4 (w32 h) ++ le_bytes 4 (w32 (Z.shiftr h 32)))%list.
Proof.
  unfold w32. change (2 ^ 32) with (2 ^ (8 * Z.of_nat 4)). rewrite !(le_bytes_mod 4 _ 4 (le_n _)), Z.shiftr_div_pow2 by lia. apply (le_bytes_app 4 4).
Qed.
Lemma w32_word x : word 32 (w32 x). Proof. apply Z.mod_pos_bound. lia. Qed.
Lemma le_word_w32 x : le_word (le_bytes 4 (w32 x)) = w32 x.
Proof. rewrite le_word_bytes. apply Z.mod_small. apply w32_word. Qed.
Lemma cells4 {A} (a b c d : list A) : length a = 4%nat -> length b = 4%nat -> length c = 4%nat -> length d = 4%nat -> cells_of 4 4 ((a ++ b) ++ c ++ d) = [a; b; c; d].
Proof.
  intros Ha Hb Hc Hd. rewrite <- app_assoc. cbn [cells_of].
  assert (S : forall x y : list A, length x = 4%nat -> skipn 4 (x ++ y) = y /\ firstn 4 (x ++ y) = x).
  { intros x y Hx. rewrite <- Hx. rewrite skipn_app, skipn_all, Nat.sub_diag, firstn_app, firstn_all, Nat.sub_diag, firstn_O, app_nil_r. now split. }
  destruct (S a (b ++ c ++ d) Ha) as [-> ->]. destruct (S b (c ++ d) Hb) as [-> ->]. destruct (S c d Hc) as [-> ->]. rewrite <- Hd at 1. now rewrite firstn_all.
Qed.
Lemma entropy_words h1 h2 : map le_word (cells_of 4 4 (le_bytes 8 h1 ++ le_bytes 8 h2)) = words4 h1 h2.
Proof.
  rewrite !bytes_words, cells4 by apply le_bytes_length. cbn [map]. now rewrite !le_word_w32.
Qed.
Lemma hash_cu c ids seed : has_threads c -> Forall (word 64) ids -> word 32 seed -> cu_hash c 8 ids seed = np_hash ids seed.
Proof.
  intros HT Hi Hs. unfold cu_hash. set (src := flat_map (le_bytes 8) ids). set (n := length ids).
  assert (Hw : w32 seed = seed) by (apply Z.mod_small; exact Hs). rewrite Hw.
  set (h := fun b => match murmur3_x64_128 src (b * 8) 8 seed with Ok h => h | Err _ => (0, 0) end).
  assert (HM : forall b, (b < n)%nat -> murmur3_x64_128 src (b * 8) 8 seed = Ok (h b) /\ words4 (fst (h b)) (snd (h b)) = murmur128 (nth b ids 0) seed).
  { intros b Hb. destruct (murmur_8 src (b * 8) (nth b ids 0) seed) as (h1 & h2 & E & _ & _ & F); [| exact Hs | |].
    - apply (proj1 (Forall_forall _ _) Hi). now apply nth_In.
    - intros j Hj. unfold src. rewrite flat_map_concat_map.
      rewrite (load_flat 0 8 (map (le_bytes 8) ids) b j); [|apply Forall_map, Forall_forall; intros; apply le_bytes_length | now rewrite map_length | exact Hj].
      f_equal. f_equal. rewrite (nth_indep _ [] (le_bytes 8 0)) by (now rewrite map_length). apply map_nth.
    - unfold h. rewrite E. split; [reflexivity | now symmetry]. }
  set (ent := fun b => (le_bytes 8 (fst (h b)) ++ le_bytes 8 (snd (h b)))%list).
  assert (HL : forall b, length (ent b) = 16%nat) by (intros b; unfold ent; rewrite app_length, !le_bytes_length; reflexivity).
  destruct (launch_rows_stateless 0 16 (fun b => concat (map (fun j => [Wr (b * 16 + j)%nat (nth j (ent b) 0)]) (seq 0 16))) c n (k_hash_data src 16 8 seed) (repeat 0 (n * 16))) as (out & E & F & _).
  - exact HT.
  - apply repeat_length.
  - intros b Hb. unfold k_hash_data. rewrite (proj1 (HM b Hb)). cbn [bind]. fold (ent b). apply for_n_ok. intros j Hj. rewrite (load_nth 0) by (now rewrite HL). reflexivity.
  - intros b i Hb Hin. destruct (in_loop _ _ _ Hin) as (j & Hj & [<-|[]]). exists j. split; [exact Hj | reflexivity].
  - rewrite E. cbn [bind]. rewrite F. unfold np_hash. destruct (Z.ltb_spec seed 0); [unfold word in Hs; lia|]. destruct (Z.leb_spec (2 ^ 32) seed); [unfold word in Hs; lia|]. cbn [orb]. f_equal.
    rewrite (vec_of 0 ids). unfold vec at 1 3. rewrite !map_map. apply map_ext_in. intros b Hb. apply in_seq in Hb. rewrite <- (proj2 (HM b ltac:(lia))), <- entropy_words. fold (ent b). do 2 f_equal.
    transitivity (vec 16 (fun j => nth j (ent b) 0)); [|rewrite <- (HL b); symmetry; apply vec_of]. apply vec_ext. intros o Ho.
    rewrite (cellf_slot (b * 16) 16 o (fun j => [Wr (b * 16 + j)%nat (nth j (ent b) 0)])); [|exact Ho | intros o' i _ [<-|[]]; reflexivity]. now rewrite upd_here.
Qed.

(** A thread that reads outside an array stops the launch. *)
Lemma mapM_err {A B} (f : A -> result B) l e : (forall a, In a l -> (exists b, f a = Ok b) \/ f a = Err e) -> (exists a, In a l /\ f a = Err e) -> mapM f l = Err e.
Proof.
  induction l as [|x l IH]; intros Hall (a & Ha & E); [destruct Ha|]. cbn. destruct Ha as [->|Ha].
  - now rewrite E.
  - destruct (Hall x (or_introl eq_refl)) as [[b Eb]|Eb]; rewrite Eb; [|reflexivity]. cbn. rewrite IH; [reflexivity | intros; apply Hall; now right | now exists a].
Qed.
Definition ok_or {A} (e : err) (r : result A) : Prop := (exists a, r = Ok a) \/ r = Err e.
Lemma ok_or_bind {A B} e (r : result A) (f : A -> result B) : ok_or e r -> (forall a, r = Ok a -> ok_or e (f a)) -> ok_or e (bind r f).
Proof. intros [[a ->]| ->] Hf; [now apply Hf | now right]. Qed.
Lemma ok_or_mapM {A B} e (f : A -> result B) l : (forall a, In a l -> ok_or e (f a)) -> ok_or e (mapM f l).
Proof.
  induction l as [|x l IH]; intros Hf; [left; now exists []|]. cbn. apply ok_or_bind; [apply Hf; now left|]. intros b _. apply ok_or_bind; [apply IH; intros; apply Hf; now right|]. intros bs _. left. now eexists.
Qed.
Lemma ok_or_ok {A} e (a : A) : ok_or e (Ok a). Proof. left. now exists a. Qed.
Section Stops.
  Context {V : Type}.
  Variable (body : nat -> result (list (instr V))) (N : nat) (e : err).
  Hypothesis all : forall b, (b < N)%nat -> ok_or e (body b).
  Lemma grid_for_either stride fuel : forall b, stride <> 0%nat -> (N <= b + fuel)%nat -> ok_or e (grid_for fuel b stride N (stateless body) tt).
  Proof.
    induction fuel as [|f IH]; intros b Hs Hf; cbn [grid_for]; destruct (Nat.ltb_spec b N); try apply ok_or_ok; [lia|].
    apply ok_or_bind; [unfold stateless; apply ok_or_bind; [now apply all | intros; apply ok_or_ok]|]. intros [[] l] _. cbn [fst]. apply ok_or_bind; [apply IH; lia|]. intros; apply ok_or_ok.
  Qed.
  Lemma grid_for_stops stride fuel x : forall b k, stride <> 0%nat -> (N <= b + fuel)%nat -> x = (b + k * stride)%nat -> (x < N)%nat -> body x = Err e ->
    grid_for fuel b stride N (stateless body) tt = Err e.
  Proof.
    induction fuel as [|f IH]; intros b k Hs Hf Hx Hn E; cbn [grid_for]; destruct (Nat.ltb_spec b N); try lia. unfold stateless at 1. destruct k as [|k].
    - replace b with x by lia. now rewrite E.
    - destruct (all b H) as [[l ->]| ->]; [|reflexivity]. cbn [bind fst]. now rewrite (IH (b + stride)%nat k) by (assumption || lia).
  Qed.
  Lemma launch_stops c m x : has_threads c -> (x < N)%nat -> body x = Err e -> launch c N (stateless body) tt m = Err e.
  Proof.
    intros HT Hx E. unfold launch. unfold has_threads in HT. destruct (num_blocks c * threads_per_block c =? 0)%nat eqn:Z0; [apply Nat.eqb_eq in Z0; lia|].
    rewrite loop_starts_seq. set (S0 := (num_blocks c * threads_per_block c)%nat) in *. replace (threads_per_block c * num_blocks c)%nat with S0 by (unfold S0; lia).
    rewrite (mapM_err _ _ e); [reflexivity | |].
    - intros a Ha. apply grid_for_either; [exact HT | lia].
    - exists (x mod S0)%nat. split; [apply in_seq; pose proof (Nat.mod_upper_bound x S0 HT); lia|]. apply (grid_for_stops S0 N x (x mod S0) (x / S0)%nat); [exact HT | lia | | exact Hx | exact E].
      pose proof (Nat.div_mod x S0 HT). lia.
  Qed.
End Stops.
Lemma load_either {A} (l : list A) i : ok_or MemFault (load l i).
Proof. unfold load. destruct (nth_error l i); [apply ok_or_ok | now right]. Qed.
Lemma murmur_tail_either data tail n : forall k, ok_or MemFault (murmur_tail data tail n k).
Proof. induction n as [|n IH]; intros k; [apply ok_or_ok|]. cbn [murmur_tail]. apply ok_or_bind; [apply load_either|]. intros; apply IH. Qed.
Lemma murmur_body_either data key n : forall i h1 h2, ok_or MemFault (murmur_body data key i n h1 h2).
Proof.
  induction n as [|n IH]; intros i h1 h2; [apply ok_or_ok|]. cbn [murmur_body].
  assert (G : forall i, ok_or MemFault (getblock data key i)). { intros k. apply ok_or_bind; [apply ok_or_mapM; intros; apply load_either | intros; apply ok_or_ok]. }
  apply ok_or_bind; [apply G|]. intros. apply ok_or_bind; [apply G|]. intros. apply IH.
Qed.
Lemma murmur3_either data key len seed : ok_or MemFault (murmur3_x64_128 data key len seed).
Proof.
  unfold murmur3_x64_128. apply ok_or_bind; [apply murmur_body_either|]. intros p _. apply ok_or_bind.
  { destruct (9 <=? len mod 16)%nat; [|apply ok_or_ok]. apply ok_or_bind; [apply murmur_tail_either | intros; apply ok_or_ok]. }
  intros. apply ok_or_bind; [|intros; apply ok_or_ok]. destruct (1 <=? len mod 16)%nat; [|apply ok_or_ok]. apply ok_or_bind; [apply murmur_tail_either | intros; apply ok_or_ok].
Qed.
Lemma k_hash_either src o n seed i : ok_or MemFault (k_hash_data src o n seed i).
Proof.
  unfold k_hash_data. apply ok_or_bind; [apply murmur3_either|]. intros h _. unfold for_n. apply ok_or_bind; [|intros; apply ok_or_ok].
  apply ok_or_mapM. intros j _. apply ok_or_bind; [apply load_either | intros; apply ok_or_ok].
Qed.
Lemma hash_narrow c w ids seed : has_threads c -> (w < 8)%nat -> ids <> [] -> cu_hash c w ids seed = Err MemFault.
Proof.
  intros HT Hw Hi. unfold cu_hash. set (src := flat_map (le_bytes w) ids).
  assert (HL : length src = (length ids * w)%nat). { unfold src. clear. induction ids as [|x l IH]; [reflexivity|]. cbn [flat_map length]. rewrite app_length, IH, le_bytes_length. lia. }
  assert (Hn : (0 < length ids)%nat) by (destruct ids; [congruence | cbn; lia]).
  rewrite (launch_stops (k_hash_data src 16 8 (w32 seed)) (length ids) MemFault) with (x := (length ids - 1)%nat); [reflexivity | intros; apply k_hash_either | exact HT | lia|].
  unfold k_hash_data, murmur3_x64_128. change (8 / 16)%nat with 0%nat. change (8 mod 16)%nat with 8%nat. cbn [murmur_body bind Nat.leb fst snd]. change (Nat.min 8 8) with (S 7). cbn [murmur_tail].
  unfold load at 1. rewrite (proj2 (nth_error_None src _)); [reflexivity|]. rewrite HL. nia.
Qed.
Lemma hash_errors c w ids seed : (~ has_threads c -> cu_hash c w ids seed = Err RuntimeError) /\ (has_threads c -> cu_hash c w [] seed = Ok []).
Proof.
  split; intros HT.
  - unfold cu_hash, launch. destruct (num_blocks c * threads_per_block c =? 0)%nat eqn:E; [reflexivity|]. apply Nat.eqb_neq in E. now destruct HT.
  - unfold cu_hash. destruct (launch_rows_stateless 0 0 (fun _ => []) c 0 (k_hash_data [] 16 8 (w32 seed)) []) as (out & E & _); [exact HT | reflexivity | intros; lia | intros; lia|]. cbn [flat_map length repeat Nat.mul]. now rewrite E.
Qed.
Lemma hash_seed_low c w ids seed : cu_hash c w ids seed = cu_hash c w ids (seed mod 2 ^ 32).
Proof. unfold cu_hash, w32. now rewrite Z.mod_mod by lia. Qed.

Lemma test_vectors :
  murmur3_x64_128 [104; 101; 108; 108; 111]%Z 0 5 0 = Ok (14688674573012802306, 6565844092913065241)%Z /\
  murmur3_x64_128 [84; 104; 101; 32; 113; 117; 105; 99; 107; 32; 98; 114; 111; 119; 110; 32; 102; 111; 120; 32; 106; 117; 109; 112; 115; 32;
    111; 118; 101; 114; 32; 116; 104; 101; 32; 108; 97; 122; 121; 32; 100; 111; 103]%Z 0 43 0 = Ok (16378391709484522348, 8809951995912426311)%Z.
Proof. split; vm_compute; reflexivity. Qed.
