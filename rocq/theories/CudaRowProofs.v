From Coq Require Import Reals Lra Lia.
From Verif Require Import BaseFacts CudaSpec CudaProofs SeqProofs PaddedProofs PackProofs AdaptProofs MatProofs ReduceProofs ReduceMaxProofs Seq2colProofs Seq2colBackProofs KernelProofs GatherProofs.
Set Default Goal Selector "!".
Local Open Scope nat_scope.

(** ** Flat arrays *)
Definition off (ls : list nat) (b : nat) : nat := list_sum_nat (firstn b ls).
Lemma off_S ls b : b < length ls -> off ls (S b) = off ls b + nth b ls 0.
Proof.
  revert b. induction ls as [|n ls IH]; intros [|b] Hb; cbn in *; try lia; unfold off in *; cbn; unfold list_sum_nat in *; cbn; try lia. specialize (IH b). cbn in IH. rewrite IH by lia. lia.
Qed.
Lemma off_le ls b : off ls b <= list_sum_nat ls.
Proof.
  unfold off. revert b. induction ls as [|n ls IH]; intros [|b]; cbn; try lia. specialize (IH b). unfold list_sum_nat in IH. lia.
Qed.
Lemma off_in ls b : b < length ls -> off ls b + nth b ls 0 <= list_sum_nat ls.
Proof. intros Hb. rewrite <- off_S by exact Hb. apply off_le. Qed.
Lemma nth_concat_off {A} (ll : list (list A)) : forall b i d, b < length ll -> i < length (nth b ll []) ->
  nth (off (map (@length A) ll) b + i) (concat ll) d = nth i (nth b ll []) d.
Proof.
  unfold off. induction ll as [|l ll IH]; intros [|b] i d Hb Hi; cbn in *; try lia.
  - now rewrite app_nth1 by exact Hi.
  - rewrite app_nth2 by lia. rewrite <- IH by (try exact Hi; lia). f_equal. unfold list_sum_nat. lia.
Qed.
Lemma concat_len {A} (ll : list (list A)) : length (concat ll) = list_sum_nat (map (@length A) ll).
Proof. induction ll as [|l ll IH]; [reflexivity|]. cbn. rewrite app_length, IH. reflexivity. Qed.
Lemma wide_lens {A} O (ll : list (list A)) : Forall (fun r => length r = O) ll -> map (@length A) ll = repeat O (length ll).
Proof. induction 1 as [|l ll Hl Hw IH]; [reflexivity|]. cbn. now rewrite Hl, IH. Qed.
Lemma off_repeat O n b : b <= n -> off (repeat O n) b = b * O.
Proof. unfold off. revert b. induction n as [|n IH]; intros [|b] Hb; cbn; try lia. rewrite <- IH by lia. unfold list_sum_nat. lia. Qed.
Lemma nth_flat {A} O (ll : list (list A)) b j d : Forall (fun r => length r = O) ll -> b < length ll -> j < O ->
  nth (b * O + j) (concat ll) d = nth j (nth b ll []) d.
Proof.
  intros Hw Hb Hj. rewrite <- (off_repeat O (length ll) b) by lia. rewrite <- (wide_lens O ll Hw). apply nth_concat_off; [exact Hb|].
  rewrite Forall_forall in Hw. rewrite (Hw (nth b ll [])); [exact Hj|]. now apply nth_In.
Qed.
Lemma load_nth {A} (d : A) l i : i < length l -> load l i = Ok (nth i l d).
Proof. intros Hi. unfold load. now rewrite (nth_error_nth' l d Hi). Qed.
Lemma load_flat {A} (d : A) O (ll : list (list A)) b j : Forall (fun r => length r = O) ll -> b < length ll -> j < O ->
  load (concat ll) (b * O + j) = Ok (nth j (nth b ll []) d).
Proof.
  intros Hw Hb Hj. rewrite (load_nth d).
  - f_equal. now apply nth_flat.
  - rewrite (concat_length_const O) by exact Hw. nia.
Qed.
Lemma loadz_flat {A} (d : A) O (ll : list (list A)) z j : Forall (fun r => length r = O) ll -> (0 <= z < Z.of_nat (length ll))%Z -> j < O ->
  loadz (concat ll) (z * Z.of_nat O + Z.of_nat j) = Ok (nth j (nth (Z.to_nat z) ll []) d).
Proof.
  intros Hw Hz Hj. unfold loadz, addr. destruct (Z.ltb_spec (z * Z.of_nat O + Z.of_nat j) 0); [nia|]. cbn [bind].
  replace (Z.to_nat (z * Z.of_nat O + Z.of_nat j)) with (Z.to_nat z * O + j) by nia. apply load_flat; auto. lia.
Qed.

Lemma cells_vec {A} O n : forall (g : nat -> A) k, cells_of O n (map g (seq (k * O) (n * O))) = map (fun b => map (fun j => g (b * O + j)) (seq 0 O)) (seq k n).
Proof.
  induction n as [|n IH]; intros g k; [reflexivity|]. cbn [cells_of seq map]. f_equal.
  - replace (S n * O) with (O + n * O) by lia. rewrite seq_app, map_app, firstn_app, map_length, seq_length, Nat.sub_diag. cbn. rewrite app_nil_r.
    rewrite firstn_all2 by (rewrite map_length, seq_length; lia).
    generalize (k * O). intros m. transitivity (map g (map (fun j => m + j) (seq 0 O))); [|now rewrite map_map]. f_equal.
    assert (E : forall p, seq (m + p) O = map (fun j => m + j) (seq p O)); [|rewrite <- E; f_equal; lia].
    clear. intros p. revert p. induction O as [|O IH]; intros p; [reflexivity|]. cbn. f_equal. rewrite <- IH. f_equal. lia.
  - rewrite <- IH. f_equal. replace (S n * O) with (O + n * O) by lia. rewrite seq_app, map_app, skipn_app, map_length, seq_length, Nat.sub_diag. cbn [skipn].
    rewrite skipn_all2 by (rewrite map_length, seq_length; lia). cbn [app]. do 2 f_equal. lia.
Qed.
Lemma cells_map {A} O n (g : nat -> A) : cells_of O n (map g (seq 0 (n * O))) = vec n (fun b => vec O (fun j => g (b * O + j))).
Proof. apply (cells_vec O n g 0). Qed.

(** ** Loops of accesses *)
Lemma for_n_ok {A} n body (g : nat -> list A) : (forall k, k < n -> body k = Ok (g k)) -> for_n n body = Ok (concat (map g (seq 0 n))).
Proof.
  intros Hb. unfold for_n. rewrite (mapM_pure body g); [reflexivity|]. intros k Hk. apply in_seq in Hk. apply Hb. lia.
Qed.
Lemma in_loop {A} n (g : nat -> list A) x : In x (concat (map g (seq 0 n))) -> exists k, k < n /\ In x (g k).
Proof. intros Hx. apply in_concat in Hx. destruct Hx as (l & Hl & Hx). apply in_map_iff in Hl. destruct Hl as (k & <- & Hk). apply in_seq in Hk. exists k. split; [lia|exact Hx]. Qed.
Lemma cellf_slot {V} base O j (g : nat -> list (instr V)) x : j < O -> (forall o i, o < O -> In i (g o) -> target i = base + o) ->
  cellf (base + j) (concat (map g (seq 0 O))) x = cellf (base + j) (g j) x.
Proof.
  intros Hj Hg. rewrite (cellf_owner (base + j) g (fun a => a - base)).
  - replace (base + j - base) with j by lia. destruct (in_dec Nat.eq_dec j (seq 0 O)) as [_|Hn]; [reflexivity|]. exfalso. apply Hn. apply in_seq. lia.
  - apply seq_NoDup.
  - intros b i Hb Hi. apply in_seq in Hb. rewrite (Hg b i) by (try exact Hi; lia). lia.
Qed.
Lemma upd_here {V} a (op : instr V) x : target op = a -> cellf a [op] x = match op with Wr _ v => v | Rmw _ f => f x end.
Proof. intros E. cbn. unfold upd. now rewrite E, Nat.eqb_refl. Qed.
Lemma fold_left_map {A B C} (f : A -> B -> A) (g : C -> B) l : forall a, fold_left f (map g l) a = fold_left (fun a c => f a (g c)) l a.
Proof. induction l as [|c l IH]; intros a; [reflexivity|]. cbn. apply IH. Qed.
Lemma fold_left_ext_in {A B} (f g : A -> B -> A) l : (forall b a, In b l -> f a b = g a b) -> forall a, fold_left f l a = fold_left g l a.
Proof. induction l as [|b l IH]; intros Hf a; [reflexivity|]. cbn. rewrite Hf by (now left). apply IH. intros; apply Hf; now right. Qed.

(** ** Kernels whose iteration [b] touches row [b] *)
Lemma launch_rows {V S} (d : V) O (Inv : nat -> S -> Prop) work c N body (s0 : S) m :
  has_threads c -> length m = N * O ->
  (forall b s, b < N -> Inv b s -> exists s', body b s = Ok (s', work b) /\ forall b', b <= b' -> Inv b' s') ->
  (forall b, Inv b s0) ->
  (forall b i, b < N -> In i (work b) -> exists o, o < O /\ target i = b * O + o) ->
  exists out, launch c N body s0 m = Ok out /\ out = map (fun a => nth (a mod O) (nth (a / O) (vec N (fun b => vec O (fun o => cellf (b * O + o) (work b) (nth (b * O + o) m d)))) []) d) (seq 0 (N * O)) /\
    cells_of O N out = vec N (fun b => vec O (fun o => cellf (b * O + o) (work b) (nth (b * O + o) m d))).
Proof.
  intros HT HL Hbody HI HO.
  rewrite (launch_ok d (fun a => a / O) Inv work); auto.
  2: { intros b i Hb Hi. destruct (HO b i Hb Hi) as (o & Ho & E). rewrite E, HL. split; [nia|]. rewrite Nat.div_add_l, Nat.div_small by lia. lia. }
  eexists. split; [reflexivity|]. rewrite HL. split.
  - apply map_ext_in. intros a Ha. apply in_seq in Ha. assert (HO0 : O <> 0) by nia.
    pose proof (Nat.mod_upper_bound a O HO0). assert (a / O < N) by (apply Nat.div_lt_upper_bound; nia).
    rewrite !nth_vec by assumption. rewrite (Nat.mul_comm (a / O) O), <- (Nat.div_mod a O HO0). destruct (Nat.ltb_spec (a / O) N); [reflexivity|lia].
  - rewrite cells_map. apply vec_ext. intros b Hb. apply vec_ext. intros o Ho.
    rewrite Nat.div_add_l, Nat.div_small, Nat.add_0_r by lia. destruct (Nat.ltb_spec b N); [reflexivity|lia].
Qed.
Lemma launch_rows_stateless {V} (d : V) O work c N body m :
  has_threads c -> length m = N * O -> (forall b, b < N -> body b = Ok (work b)) ->
  (forall b i, b < N -> In i (work b) -> exists o, o < O /\ target i = b * O + o) ->
  exists out, launch c N (stateless body) tt m = Ok out /\ cells_of O N out = vec N (fun b => vec O (fun o => cellf (b * O + o) (work b) (nth (b * O + o) m d))) /\
    forall (W : Type) (h : V -> W), cells_of O N (map h out) = vec N (fun b => vec O (fun o => h (cellf (b * O + o) (work b) (nth (b * O + o) m d)))).
Proof.
  intros HT HL Hb HO. destruct (launch_rows d O (fun _ (_ : unit) => True) work c N (stateless body) tt m) as (out & E & F & G); auto.
  - intros b [] Hb' _. exists tt. split; [|auto]. unfold stateless. now rewrite Hb.
  - exists out. split; [exact E|]. split; [exact G|]. intros W h. rewrite F, map_map. rewrite cells_map. apply vec_ext. intros b Hb'. apply vec_ext. intros o Ho.
    rewrite Nat.div_add_l, (Nat.div_small o), Nat.add_0_r by lia. rewrite (Nat.add_comm (b * O) o), Nat.mod_add, Nat.mod_small by lia.
    rewrite (nth_vec [] N) by exact Hb'. rewrite nth_vec by exact Ho. now rewrite (Nat.add_comm o).
Qed.

Section Accum.
  Context {T : Type} `{Num T}.
  (** [for k < n: for o < O: out[base + o] += x k o] *)
  Definition accum (base O n : nat) (x : nat -> nat -> T) : list (instr T) :=
    concat (map (fun k => concat (map (fun o => [Rmw (base + o) (fun y => nadd y (x k o))]) (seq 0 O))) (seq 0 n)).
  Lemma accum_target base O n x i : In i (accum base O n x) -> exists o, o < O /\ target i = base + o.
  Proof. intros Hi. apply in_loop in Hi. destruct Hi as (k & _ & Hi). apply in_loop in Hi. destruct Hi as (o & Ho & [<-|[]]). exists o. auto. Qed.
  Lemma accum_cell base O n x o y : o < O -> cellf (base + o) (accum base O n x) y = fold_left (fun y k => nadd y (x k o)) (seq 0 n) y.
  Proof.
    intros Ho. unfold accum. rewrite cellf_concat, fold_left_map. apply fold_left_ext_in. intros k a _.
    rewrite cellf_slot; [apply upd_here; reflexivity|exact Ho|]. intros o' i Ho' [<-|[]]. reflexivity.
  Qed.
End Accum.

Local Open Scope R_scope.
Lemma fold_msum (x : nat -> R) l : forall y, fold_left (fun y k => nadd y (x k)) l y = y + msum (map x l).
Proof.
  induction l as [|k l IH]; intros y; cbn [fold_left map]; [cbn; lra|]. rewrite IH. cbn. unfold msum. lra.
Qed.
Lemma nth_zeros n (a : nat) : nth a (@zeros R _ n) 0 = 0.
Proof. unfold zeros. revert a. induction n as [|n IH]; intros [|a]; cbn; auto. Qed.
Local Open Scope nat_scope.

(** ** gather_add *)
Lemma gather_cu c (table : mat R) K indices : has_threads c -> wf_mat table -> Forall (fun r => length r = K) indices -> Forall (ids_in (m_len table)) indices ->
  cu_gather_add c table K indices = op_gather_add table indices.
Proof.
  intros HT Hw HK Hi. rewrite op_gather by exact Hi. unfold cu_gather_add.
  assert (Hr : within_range (concat indices) 0 (Z.of_nat (m_len table)) = true).
  { unfold within_range. apply forallb_forall. intros z Hz. apply in_concat in Hz. destruct Hz as (l & Hl & Hz).
    rewrite Forall_forall in Hi. specialize (Hi l Hl). unfold ids_in in Hi. rewrite Forall_forall in Hi. specialize (Hi z Hz). apply andb_true_iff. split; [apply Z.leb_le|apply Z.ltb_lt]; lia. }
  rewrite Hr. cbn [negb]. set (B := length indices). set (O := m_cols table).
  set (x := fun b k o => nth o (nth (Z.to_nat (nth k (nth b indices []) 0%Z)) (m_rows table) []) (nZ 0)).
  destruct (launch_rows_stateless (nZ 0) O (fun b => accum (b * O) O K (x b)) c B (k_gather_add (flat table) (concat indices) O K) (zeros (B * O))) as (out & E & F & _); auto.
  - apply repeat_length.
  - intros b Hb. unfold k_gather_add, accum. apply for_n_ok. intros k Hk. rewrite (load_flat 0%Z) by assumption. cbn [bind].
    apply for_n_ok. intros o Ho.
    assert (Hz : (0 <= nth k (nth b indices []) 0 < Z.of_nat (length (m_rows table)))%Z).
    { rewrite Forall_forall in Hi. assert (Hin : In (nth b indices []) indices) by now apply nth_In. specialize (Hi _ Hin). unfold ids_in in Hi. rewrite Forall_forall in Hi. apply Hi.
      apply nth_In. rewrite Forall_forall in HK. rewrite (HK _ Hin). exact Hk. }
    unfold flat. rewrite (loadz_flat (nZ 0)) by assumption. reflexivity.
  - intros b i _ Hin. now apply accum_target in Hin.
  - rewrite E. cbn [bind]. rewrite F. do 2 f_equal.
    transitivity (vec B (fun b => colsum O (lookup (m_rows table) (nth b indices [])))).
    2: { symmetry. rewrite (vec_of [] indices) at 1. now rewrite map_vec. }
    apply vec_ext. intros b Hb. rewrite colsum_vec. apply vec_ext. intros o Ho. rewrite accum_cell by exact Ho. rewrite fold_msum.
    change (nZ 0) with 0%R. rewrite nth_zeros. rewrite Rplus_0_l. f_equal. unfold col, lookup. rewrite map_map. unfold x.
    assert (Lb : length (nth b indices []) = K). { rewrite Forall_forall in HK. apply HK. now apply nth_In. }
    symmetry. rewrite (vec_of_len 0%Z K _ Lb) at 1. rewrite map_vec. reflexivity.
Qed.
Lemma gather_cu_checked {T} `{Num T} c (table : mat T) K indices : ~ Forall (ids_in (m_len table)) indices -> cu_gather_add c table K indices = Err IndexError.
Proof.
  intros Hn. unfold cu_gather_add. destruct (within_range (concat indices) 0 (Z.of_nat (m_len table))) eqn:E; [|reflexivity]. exfalso. apply Hn.
  unfold within_range in E. rewrite forallb_forall in E. apply Forall_forall. intros l Hl. apply Forall_forall. intros z Hz.
  assert (Hin : In z (concat indices)) by (apply in_concat; exists l; auto). specialize (E z Hin). apply andb_true_iff in E. destruct E as [E1 E2].
  apply Z.leb_le in E1. apply Z.ltb_lt in E2. lia.
Qed.

(** ** The lengths *)
Lemma check_lengths_ok lengths n m : Forall (fun k => (m <= k)%Z) lengths -> zsum lengths = n -> check_lengths lengths n m = Ok tt.
Proof.
  intros Hn Hs. unfold check_lengths. assert (E : forallb (fun k => (m <=? k)%Z) lengths = true).
  { apply forallb_forall. intros k Hk. rewrite Forall_forall in Hn. specialize (Hn k Hk). now apply Z.leb_le. }
  rewrite E. cbn. now rewrite (proj2 (Z.eqb_eq _ _) Hs).
Qed.
Lemma check_lengths_bad lengths n m : ~ Forall (fun k => (m <= k)%Z) lengths -> check_lengths lengths n m = Err ValueError.
Proof.
  intros Hn. unfold check_lengths. destruct (forallb (fun k => (m <=? k)%Z) lengths) eqn:E; [|reflexivity]. exfalso. apply Hn.
  rewrite forallb_forall in E. apply Forall_forall. intros k Hk. specialize (E k Hk). now apply Z.leb_le.
Qed.
Lemma check_lengths_sum lengths n m : Forall (fun k => (m <= k)%Z) lengths -> zsum lengths <> n -> check_lengths lengths n m = Err IndexError.
Proof.
  intros Hn Hs. unfold check_lengths. assert (E : forallb (fun k => (m <=? k)%Z) lengths = true).
  { apply forallb_forall. intros k Hk. rewrite Forall_forall in Hn. specialize (Hn k Hk). now apply Z.leb_le. }
  rewrite E. cbn. now rewrite (proj2 (Z.eqb_neq _ _) Hs).
Qed.

Definition nats (lengths : list Z) := map Z.to_nat lengths.
Lemma nth_nats lengths b : nth b (nats lengths) 0 = Z.to_nat (nth b lengths 0%Z). Proof. unfold nats. change 0 with (Z.to_nat 0%Z) at 1. apply map_nth. Qed.
Lemma nonneg_nth lengths b : nonneg lengths -> (0 <= nth b lengths 0)%Z.
Proof.
  intros Hn. destruct (Nat.ltb_spec b (length lengths)) as [Hb|Hb]; [|rewrite nth_overflow by lia; lia].
  unfold nonneg in Hn. rewrite Forall_forall in Hn. apply Hn. now apply nth_In.
Qed.
Lemma fold_add l : forall z, fold_left Z.add l z = (z + fold_left Z.add l 0)%Z.
Proof. induction l as [|x l IH]; intros z; cbn [fold_left]; [lia|]. rewrite (IH (z + x)%Z), (IH (0 + x)%Z). lia. Qed.
Lemma first_row_ok lengths b : nonneg lengths -> b <= length lengths -> k_first_row lengths b = Ok (Z.of_nat (off (nats lengths) b)).
Proof.
  intros Hn Hb. unfold k_first_row. rewrite (mapM_pure _ (fun i => nth i lengths 0%Z)).
  2: { intros i Hi. apply in_seq in Hi. apply load_nth. lia. }
  cbn [bind]. f_equal. induction b as [|b IH]; [reflexivity|]. rewrite off_S by (unfold nats; rewrite map_length; lia).
  rewrite nth_nats. rewrite seq_S, map_app, fold_left_app, IH by lia. cbn. pose proof (nonneg_nth lengths b Hn). lia.
Qed.
Lemma nth_chop {A} ls : forall (rows : list A) b, b < length ls -> nth b (chop ls rows) [] = firstn (nth b ls 0) (skipn (off ls b) rows).
Proof.
  unfold off. induction ls as [|n ls IH]; intros rows [|b] Hb; cbn in *; try lia; [reflexivity|]. rewrite IH by lia. rewrite skipn_skipn. reflexivity.
Qed.
Lemma chop_len {A} ls : forall rows : list A, length (chop ls rows) = length ls.
Proof. induction ls as [|n ls IH]; intros rows; [reflexivity|]. cbn. now rewrite IH. Qed.
Lemma nth_firstn_skipn {A} (l : list A) n k i d : i < n -> nth i (firstn n (skipn k l)) d = nth (k + i) l d.
Proof.
  intros Hi. rewrite <- (firstn_skipn k l) at 2. destruct (Nat.le_gt_cases k (length l)) as [Hk|Hk].
  - rewrite app_nth2 by (rewrite firstn_length; lia). rewrite firstn_length, Nat.min_l by lia. replace (k + i - k) with i by lia.
    generalize (skipn k l). clear -Hi. intros l. revert n i Hi. induction l as [|x l IH]; intros [|n] [|i] Hi; cbn; try lia; auto. apply IH. lia.
  - rewrite (skipn_all2 l) by lia. rewrite firstn_nil, app_nil_r, firstn_all2 by lia. rewrite (nth_overflow l) by lia. now destruct i.
Qed.
Lemma sum_nats lengths n : nonneg lengths -> zsum lengths = Z.of_nat n -> list_sum_nat (nats lengths) = n.
Proof. intros Hn Hs. rewrite zsum_nat in Hs by exact Hn. unfold nats. lia. Qed.

(** ** reduce_sum, reduce_mean *)
Section Sum.
  Variables (X : mat R) (lengths : list Z) (c : config).
  Hypotheses (HT : has_threads c) (Hw : wf_mat X) (Hn : nonneg lengths) (Hs : zsum lengths = Z.of_nat (m_len X)).
  Let B := length lengths.
  Let O := m_cols X.
  Lemma seq_rows b : b < B -> off (nats lengths) b + Z.to_nat (nth b lengths 0%Z) <= length (m_rows X).
  Proof.
    intros Hb. rewrite <- nth_nats. etransitivity; [apply off_in; unfold nats; rewrite map_length; exact Hb|]. now rewrite (sum_nats lengths (m_len X)).
  Qed.
  Lemma sum_cu : cu_reduce_sum c X lengths = op_reduce_sum X lengths.
  Proof.
    rewrite op_sum_ok by (try assumption; lia). unfold cu_reduce_sum. rewrite check_lengths_ok by assumption. cbn [bind].
    set (x := fun b k o => nth o (nth (off (nats lengths) b + k) (m_rows X) []) (nZ 0)).
    destruct (launch_rows_stateless (nZ 0) O (fun b => accum (b * O) O (Z.to_nat (nth b lengths 0%Z)) (x b)) c B (k_reduce_sum (flat X) lengths O) (zeros (B * O))) as (out & E & F & _); auto.
    - apply repeat_length.
    - intros b Hb. unfold k_reduce_sum. rewrite first_row_ok by (try assumption; unfold B in Hb; lia). cbn [bind]. rewrite (load_nth 0%Z) by exact Hb. cbn [bind].
      unfold accum. apply for_n_ok. intros k Hk. apply for_n_ok. intros o Ho. unfold flat.
      pose proof (seq_rows b Hb). replace (Z.of_nat (off (nats lengths) b) + Z.of_nat k)%Z with (Z.of_nat (off (nats lengths) b + k)) by lia.
      rewrite (loadz_flat (nZ 0)) by (try assumption; lia). cbn [bind]. rewrite Nat2Z.id. reflexivity.
    - intros b i _ Hin. now apply accum_target in Hin.
    - fold B O. rewrite E. cbn [bind]. rewrite F. do 2 f_equal. unfold seqs_of. fold (nats lengths).
      transitivity (vec B (fun b => colsum O (nth b (chop (nats lengths) (m_rows X)) []))).
      2: { symmetry. rewrite (vec_of [] (chop (nats lengths) (m_rows X))) at 1. rewrite map_vec, chop_len. unfold nats at 1. now rewrite map_length. }
      apply vec_ext. intros b Hb. rewrite colsum_vec. apply vec_ext. intros o Ho. rewrite accum_cell by exact Ho. rewrite fold_msum.
      change (nZ 0) with 0%R. rewrite nth_zeros, Rplus_0_l. f_equal. rewrite nth_chop by (unfold nats; now rewrite map_length).
      rewrite nth_nats. unfold col. pose proof (seq_rows b Hb).
      rewrite (vec_of_len [] (Z.to_nat (nth b lengths 0%Z)) (firstn _ _)) by (rewrite firstn_length, skipn_length; lia). rewrite map_vec.
      apply vec_ext. intros k Hk. unfold x. now rewrite nth_firstn_skipn by exact Hk.
  Qed.
End Sum.
