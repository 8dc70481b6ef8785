(** The layout of the LSTM parameters. *)
From Coq Require Import Reals Lra Lia Permutation.
From Verif Require Import KernelProofs Seq2colBackProofs MatProofs BaseFacts CombProofs CombBuiltProofs MkProofs MaxoutLayerProofs.
From Verif Require Import NumR LstmModel LstmSpec.
Set Default Goal Selector "!".
Local Open Scope nat_scope.

(** ** Swapping axes *)
Lemma column_vec {A} m n (h : nat -> nat -> A) o : o < n -> column o (vec m (fun g => vec n (h g))) = vec m (fun g => h g o).
Proof.
  intros Ho. unfold column, vec. generalize (seq 0 m). intros l. induction l as [|g l IH]; [reflexivity|]. cbn [map flat_map]. rewrite IH.
  rewrite (map_nth_error (h g) o (seq 0 n) (d := o)); [reflexivity|]. rewrite (nth_error_nth' _ 0) by (rewrite seq_length; lia). now rewrite seq_nth.
Qed.
Lemma swap_vec {A} m n (h : nat -> nat -> A) : swap_axes n (vec m (fun g => vec n (h g))) = vec n (fun o => vec m (fun g => h g o)).
Proof. unfold swap_axes. apply (vec_ext n). intros o Ho. now apply column_vec. Qed.
Lemma list_vec {A} (l : list A) n : length l = n -> n = 0 \/ exists f, l = vec n f.
Proof. intros <-. destruct l as [|a l]; [now left|]. right. exists (fun k => nth k (a :: l) a). apply vec_of. Qed.
Lemma concat_swap {A} m n (h : nat -> nat -> A) : Permutation (concat (vec n (fun o => vec m (fun g => h g o)))) (concat (vec m (fun g => vec n (h g)))).
Proof.
  induction m as [|m IH].
  - change (vec 0 (fun g => vec n (h g))) with (@nil (list A)). cbn [concat]. replace (concat (vec n (fun o => vec 0 (fun g => h g o)))) with (@nil A); [constructor|].
    unfold vec. generalize (seq 0 n). intros l. induction l as [|o l IHl]; [reflexivity|exact IHl].
  - replace (S m) with (m + 1) by lia. rewrite (vec_app m 1), concat_app. cbn [vec seq map concat]. rewrite app_nil_r.
    rewrite <- IH. rewrite Nat.add_0_r. fold (vec n (h m)). unfold vec at 1 3 5. generalize (seq 0 n). intros l. induction l as [|o l IHl]; [constructor|].
    cbn [map concat]. rewrite vec_app. cbn [vec seq map]. rewrite Nat.add_0_r. rewrite <- !app_assoc. apply Permutation_app_head. cbn [app]. rewrite IHl. apply Permutation_middle.
Qed.
Lemma nth_error_grid {A} r c (f : nat -> nat -> A) i j : i < r -> j < c -> nth_error (concat (vec r (fun i => vec c (f i)))) (i * c + j) = Some (f i j).
Proof.
  intros Hi Hj. rewrite <- (cells_of_nested r c f). replace (concat (cells_of c r (concat (vec r (fun i => vec c (f i)))))) with (concat (vec r (fun i => vec c (f i)))) by (now rewrite cells_of_nested).
  revert f i Hi. induction r as [|r IH]; intros f i Hi; [lia|].
  change (S r) with (1 + r). rewrite vec_app. cbn [vec seq map app]. cbn [concat]. destruct i as [|i].
  - rewrite nth_error_app1 by (now rewrite vec_length). cbn [Nat.mul Nat.add]. rewrite (nth_error_nth' _ (f 0 0)) by (now rewrite vec_length). now rewrite nth_vec.
  - rewrite nth_error_app2 by (rewrite vec_length; lia). rewrite vec_length. replace (S i * c + j - c) with (i * c + j) by lia.
    apply (IH (fun i => f (S i))). lia.
Qed.

(** One list of [4 * n] items *)
Definition to_last {A} (l : list A) : list A := concat (swap_axes (length l / 4) (cells_of (length l / 4) 4 l)).
Definition to_first {A} (l : list A) : list A := concat (swap_axes 4 (cells_of 4 (length l / 4) l)).
Lemma quarter n : (4 * n) / 4 = n. Proof. rewrite Nat.mul_comm. apply Nat.div_mul. lia. Qed.
Lemma multiple n : (4 * n) mod 4 = 0. Proof. rewrite Nat.mul_comm. apply Nat.mod_mul. lia. Qed.
Lemma grid {A} a b (f : nat -> A) : vec (a * b) f = concat (vec a (fun i => vec b (fun j => f (i * b + j)))).
Proof. apply vec_concat. Qed.
Lemma to_last_grid {A} n (f : nat -> A) : to_last (vec (4 * n) f) = concat (vec n (fun o => vec 4 (fun g => f (g * n + o)))).
Proof. unfold to_last. rewrite vec_length, quarter. rewrite grid, cells_of_nested. f_equal. apply (swap_vec 4 n (fun g o => f (g * n + o))). Qed.
Lemma to_first_grid {A} n (f : nat -> A) : to_first (vec (4 * n) f) = concat (vec 4 (fun g => vec n (fun o => f (o * 4 + g)))).
Proof. unfold to_first. rewrite vec_length, quarter. rewrite (Nat.mul_comm 4 n), grid, cells_of_nested. f_equal. apply (swap_vec n 4 (fun o g => f (o * 4 + g))). Qed.
Lemma grid_vec {A} a b (f : nat -> nat -> A) : b <> 0 -> concat (vec a (fun i => vec b (f i))) = vec (a * b) (fun k => f (k / b) (k mod b)).
Proof.
  intros Hb. rewrite grid. f_equal. apply vec_ext. intros i _. apply vec_ext. intros j Hj.
  rewrite (Nat.add_comm (i * b)), Nat.div_add, Nat.mod_add by exact Hb. rewrite Nat.div_small, Nat.mod_small by exact Hj. reflexivity.
Qed.
Lemma first_last {A} n (l : list A) : length l = 4 * n -> to_first (to_last l) = l.
Proof.
  intros Hl. destruct (Nat.eq_dec n 0) as [-> | Hn]; [destruct l; [reflexivity|discriminate]|].
  destruct (list_vec l (4 * n) Hl) as [E | [f ->]]; [lia|]. rewrite to_last_grid, grid_vec by lia. rewrite (Nat.mul_comm n 4), to_first_grid.
  rewrite (grid 4 n). f_equal. apply vec_ext. intros g Hg. apply vec_ext. intros o Ho. f_equal.
  rewrite (Nat.add_comm (o * 4)), Nat.div_add, Nat.mod_add by lia. rewrite Nat.div_small, Nat.mod_small by lia. lia.
Qed.
Lemma last_first {A} n (l : list A) : length l = 4 * n -> to_last (to_first l) = l.
Proof.
  intros Hl. destruct (Nat.eq_dec n 0) as [-> | Hn]; [destruct l; [reflexivity|discriminate]|].
  destruct (list_vec l (4 * n) Hl) as [E | [f ->]]; [lia|]. rewrite to_first_grid, grid_vec by lia. rewrite to_last_grid.
  rewrite (Nat.mul_comm 4 n), (grid n 4). f_equal. apply vec_ext. intros o Ho. apply vec_ext. intros g Hg. f_equal.
  rewrite (Nat.add_comm (g * n)), Nat.div_add, Nat.mod_add by lia. rewrite Nat.div_small, Nat.mod_small by lia. lia.
Qed.
Lemma perm_last {A} n (l : list A) : length l = 4 * n -> Permutation (to_last l) l.
Proof.
  intros Hl. destruct (Nat.eq_dec n 0) as [-> | Hn]; [destruct l; [constructor|discriminate]|].
  destruct (list_vec l (4 * n) Hl) as [E | [f ->]]; [lia|]. rewrite to_last_grid. rewrite (grid 4 n). apply (concat_swap 4 n (fun g o => f (g * n + o))).
Qed.
Lemma perm_first {A} n (l : list A) : length l = 4 * n -> Permutation (to_first l) l.
Proof.
  intros Hl. destruct (Nat.eq_dec n 0) as [-> | Hn]; [destruct l; [constructor|discriminate]|].
  destruct (list_vec l (4 * n) Hl) as [E | [f ->]]; [lia|]. rewrite to_first_grid. rewrite (Nat.mul_comm 4 n), (grid n 4). apply (concat_swap n 4 (fun o g => f (o * 4 + g))).
Qed.
Lemma len_last {A} n (l : list A) : length l = 4 * n -> length (to_last l) = 4 * n.
Proof. intros Hl. rewrite <- Hl. apply Permutation_length. now apply (perm_last n). Qed.
Lemma len_first {A} n (l : list A) : length l = 4 * n -> length (to_first l) = 4 * n.
Proof. intros Hl. rewrite <- Hl. apply Permutation_length. now apply (perm_first n). Qed.
Lemma nth_last {A} n (l : list A) o g : length l = 4 * n -> o < n -> g < 4 -> nth_error (to_last l) (4 * o + g) = nth_error l (g * n + o).
Proof.
  intros Hl Ho Hg. destruct (list_vec l (4 * n) Hl) as [E | [f ->]]; [lia|]. rewrite to_last_grid.
  rewrite (Nat.mul_comm 4 o), (nth_error_grid n 4 (fun o g => f (g * n + o))) by assumption.
  rewrite (grid 4 n). now rewrite (nth_error_grid 4 n (fun g o => f (g * n + o))).
Qed.

Section Layout.
  Context {T : Type}.
  Implicit Types (params : list T) (m : mat T) (p : parts T).
  Lemma gates_last2_ok r c m : rows_by (4 * r) c m -> c <> 0 -> gates_last2 m = Ok (mkM c (to_last (m_rows m))).
  Proof. intros (Hc & Hr & _) Hn. unfold gates_last2, to_last. rewrite Hr, Hc, multiple. destruct (Nat.eqb_spec c 0); [contradiction|reflexivity]. Qed.
  Lemma gates_first2_ok r c m : rows_by (4 * r) c m -> c <> 0 -> gates_first2 m = Ok (mkM c (to_first (m_rows m))).
  Proof. intros (Hc & Hr & _) Hn. unfold gates_first2, to_first. rewrite Hr, Hc, multiple. destruct (Nat.eqb_spec c 0); [contradiction|reflexivity]. Qed.
  Lemma gates_last1_ok r (v : list T) : length v = 4 * r -> gates_last1 v = Ok (to_last v).
  Proof. intros Hr. unfold gates_last1, to_last. now rewrite Hr, multiple. Qed.
  Lemma gates_first1_ok r (v : list T) : length v = 4 * r -> gates_first1 v = Ok (to_first v).
  Proof. intros Hr. unfold gates_first1, to_first. now rewrite Hr, multiple. Qed.
  Lemma rows_last r c m : rows_by (4 * r) c m -> rows_by (4 * r) c (mkM c (to_last (m_rows m))).
  Proof. intros (Hc & Hr & Hw). split; [reflexivity|]. cbn. split; [now apply len_last|]. apply (Permutation_Forall (Permutation_sym (perm_last r _ Hr)) Hw). Qed.
  Lemma rows_first r c m : rows_by (4 * r) c m -> rows_by (4 * r) c (mkM c (to_first (m_rows m))).
  Proof. intros (Hc & Hr & Hw). split; [reflexivity|]. cbn. split; [now apply len_first|]. apply (Permutation_Forall (Permutation_sym (perm_first r _ Hr)) Hw). Qed.
  Lemma concat_perm {A} (l l' : list (list A)) : Permutation l l' -> Permutation (concat l) (concat l').
  Proof. intros E. rewrite <- (map_id l), <- (map_id l'), <- !flat_map_concat_map. now apply Permutation_flat_map. Qed.

  (** *** Transposing *)
  Definition last_parts p : parts T := mkParts (mkM (m_cols (p_Wx p)) (to_last (m_rows (p_Wx p)))) (to_last (p_bx p)) (mkM (m_cols (p_Wh p)) (to_last (m_rows (p_Wh p)))) (to_last (p_bh p)).
  Lemma transpose_parts_ok nO nI p : parts_shape nO nI p -> nO <> 0 -> nI <> 0 -> transpose_parts p = Ok (last_parts p) /\ parts_shape nO nI (last_parts p).
  Proof.
    intros (H1 & H2 & H3 & H4) Hn Hi. split.
    - unfold transpose_parts. rewrite (gates_last2_ok nO nI _ H1 Hi), (gates_last1_ok nO _ H2), (gates_last2_ok nO nO _ H3 Hn), (gates_last1_ok nO _ H4). cbn [bind].
      unfold last_parts. now rewrite (proj1 H1), (proj1 H3).
    - unfold last_parts. split; [|split; [|split]]; cbn [p_Wx p_bx p_Wh p_bh]; try (apply len_last; assumption); [rewrite (proj1 H1)|rewrite (proj1 H3)]; now apply rows_last.
  Qed.
  Lemma transposed nO nI p : parts_shape nO nI p -> nO <> 0 -> nI <> 0 ->
    exists q, transpose_parts p = Ok q /\ parts_shape nO nI q /\ Permutation (elements q) (elements p) /\
      forall o g, o < nO -> g < 4 ->
        nth_error (m_rows (p_Wx q)) (4 * o + g) = nth_error (m_rows (p_Wx p)) (g * nO + o) /\ nth_error (p_bx q) (4 * o + g) = nth_error (p_bx p) (g * nO + o) /\
        nth_error (m_rows (p_Wh q)) (4 * o + g) = nth_error (m_rows (p_Wh p)) (g * nO + o) /\ nth_error (p_bh q) (4 * o + g) = nth_error (p_bh p) (g * nO + o).
  Proof.
    intros Hp Hn Hi. destruct (transpose_parts_ok nO nI p Hp Hn Hi) as [E S]. exists (last_parts p). split; [exact E|]. split; [exact S|]. destruct Hp as (H1 & H2 & H3 & H4). split.
    - unfold elements, last_parts. cbn [p_Wx p_bx p_Wh p_bh m_rows].
      repeat apply Permutation_app; [apply concat_perm, (perm_last nO), H1 | now apply (perm_last nO) | apply concat_perm, (perm_last nO), H3 | now apply (perm_last nO)].
    - intros o g Ho Hg. unfold last_parts. cbn [p_Wx p_bx p_Wh p_bh m_rows]. repeat split; apply nth_last; try assumption; [apply H1|apply H3].
  Qed.
  Lemma no_width r (m : mat T) : m_cols m = 0 -> length (m_rows m) = r -> gates_last2 m = Err ValueError.
  Proof. intros Hc _. unfold gates_last2. now rewrite Hc. Qed.

  (** *** Splitting *)
  Lemma read1_ok params s n : s + n <= length params -> read1 params s n = Ok (firstn n (skipn s params)).
  Proof. intros E. unfold read1. rewrite firstn_length, skipn_length, Nat.min_l by lia. now rewrite Nat.eqb_refl. Qed.
  Lemma read1_short params s n : n <> 0 -> length params < s + n -> read1 params s n = Err ValueError.
  Proof. intros Hn E. unfold read1. rewrite firstn_length, skipn_length. destruct (Nat.eqb_spec (min n (length params - s)) n) as [Z|Z]; [lia|reflexivity]. Qed.
  Lemma read2_ok params s r c : s + r * c <= length params -> exists m, read2 params s r c = Ok m /\ rows_by r c m /\ concat (m_rows m) = firstn (r * c) (skipn s params).
  Proof.
    intros E. unfold read2. rewrite read1_ok by exact E. cbn [bind]. eexists. split; [reflexivity|].
    assert (L : length (firstn (r * c) (skipn s params)) = r * c) by (rewrite firstn_length, skipn_length; lia). split; [split; [reflexivity|split]|]; cbn [m_rows].
    - apply cells_of_length.
    - apply cells_of_wide. lia.
    - now apply cells_of_flat.
  Qed.
  Lemma firstn_plus {A} a b (l : list A) : firstn (a + b) l = firstn a l ++ firstn b (skipn a l).
  Proof. revert l. induction a as [|a IH]; intros l; [reflexivity|]. destruct l as [|x l]; [now rewrite !firstn_nil|]. cbn. now rewrite IH. Qed.
  Lemma skipn_plus {A} a b (l : list A) : skipn (a + b) l = skipn b (skipn a l).
  Proof. revert l. induction a as [|a IH]; intros l; [reflexivity|]. destruct l as [|x l]; [now rewrite !skipn_nil|]. cbn. apply IH. Qed.
  Lemma split_weights_ok params nO nI s : s + dir_size nO nI <= length params ->
    exists p, split_weights params nO nI s = Ok (p, s + dir_size nO nI) /\ parts_shape nO nI p /\ elements p = firstn (dir_size nO nI) (skipn s params).
  Proof.
    unfold dir_size. intros E. unfold split_weights.
    destruct (read2_ok params s (4 * nO) nI ltac:(lia)) as (Wx & -> & S1 & E1). cbn [bind].
    rewrite (read1_ok params (s + 4 * nO * nI) (4 * nO)) by lia. cbn [bind].
    destruct (read2_ok params (s + 4 * nO * nI + 4 * nO) (4 * nO) nO ltac:(lia)) as (Wh & -> & S2 & E2). cbn [bind].
    rewrite (read1_ok params (s + 4 * nO * nI + 4 * nO + 4 * nO * nO) (4 * nO)) by lia. cbn [bind].
    eexists. split; [f_equal; f_equal; lia|]. split.
    - split; [exact S1|]. split; [cbn [p_bx]; rewrite firstn_length, skipn_length; lia|]. split; [exact S2|]. cbn [p_bh]. rewrite firstn_length, skipn_length. lia.
    - unfold elements. cbn [p_Wx p_bx p_Wh p_bh]. rewrite E1, E2. rewrite !firstn_plus, !skipn_plus, <- !app_assoc. rewrite <- !skipn_plus. reflexivity.
  Qed.
  Lemma split_weights_short params nO nI s : nO <> 0 -> length params < s + dir_size nO nI -> split_weights params nO nI s = Err ValueError.
  Proof.
    unfold dir_size. intros Hn E. unfold split_weights, read2.
    assert (R : forall s n, exists x, read1 params s n = x /\ (x = Err ValueError \/ exists v, x = Ok v)).
    { intros s' n. unfold read1. destruct (_ =? _); eexists; (split; [reflexivity|]); eauto. }
    destruct (R s (4 * nO * nI)) as (x & -> & [-> | [v ->]]); [reflexivity|]. cbn [bind].
    destruct (R (s + 4 * nO * nI) (4 * nO)) as (x & -> & [-> | [v' ->]]); [reflexivity|]. cbn [bind].
    destruct (R (s + 4 * nO * nI + 4 * nO) (4 * nO * nO)) as (x & -> & [-> | [v'' ->]]); [reflexivity|]. cbn [bind].
    rewrite read1_short by lia. reflexivity.
  Qed.
  Lemma split_dirs_ok params nO nI : forall dirs s, s + dirs * dir_size nO nI <= length params ->
    exists ps, split_dirs params dirs nO nI s = Ok (ps, s + dirs * dir_size nO nI) /\ length ps = dirs /\ Forall (parts_shape nO nI) ps /\
      concat (map elements ps) = firstn (dirs * dir_size nO nI) (skipn s params).
  Proof.
    induction dirs as [|dirs IH]; intros s E; [exists []; split; [cbn; f_equal; f_equal; lia|]; repeat split; constructor|]. cbn [split_dirs].
    destruct (split_weights_ok params nO nI s ltac:(lia)) as (p & -> & Sp & Ep). cbn [bind fst snd].
    destruct (IH (s + dir_size nO nI) ltac:(lia)) as (ps & -> & Lp & Fp & Cp). cbn [bind fst snd]. exists (p :: ps).
    split; [f_equal; f_equal; lia|]. split; [cbn; now rewrite Lp|]. split; [now constructor|]. cbn [map concat]. rewrite Ep, Cp.
    change (S dirs * dir_size nO nI) with (dir_size nO nI + dirs * dir_size nO nI). now rewrite firstn_plus, skipn_plus.
  Qed.
  Lemma split_dirs_short params nO nI : nO <> 0 -> forall dirs s, s <= length params -> length params < s + dirs * dir_size nO nI -> split_dirs params dirs nO nI s = Err ValueError.
  Proof.
    intros Hn. induction dirs as [|dirs IH]; intros s Hs E; [lia|]. cbn [split_dirs]. destruct (le_lt_dec (s + dir_size nO nI) (length params)) as [L|L].
    - destruct (split_weights_ok params nO nI s L) as (p & -> & _ & _). cbn [bind fst snd]. rewrite IH; [reflexivity|exact L|]. lia.
    - now rewrite split_weights_short by assumption.
  Qed.
  Lemma split_layers_ok params nO dirs : forall depth nI s, s + lstm_size depth dirs nO nI <= length params ->
    exists ps, split_layers params depth dirs nO nI s = Ok (ps, s + lstm_size depth dirs nO nI) /\ layers_shape parts_shape depth dirs nO nI ps /\
      concat (map elements (concat ps)) = firstn (lstm_size depth dirs nO nI) (skipn s params).
  Proof.
    induction depth as [|depth IH]; intros nI s E; [exists []; split; [cbn; f_equal; f_equal; lia|]; split; [exact I|reflexivity]|]. cbn [split_layers lstm_size] in *.
    destruct (split_dirs_ok params nO nI dirs s ltac:(lia)) as (p & -> & Lp & Fp & Ep). cbn [bind fst snd].
    destruct (IH (nO * dirs) (s + dirs * dir_size nO nI) ltac:(lia)) as (ps & -> & Sp & Cp). cbn [bind fst snd]. exists (p :: ps).
    split; [f_equal; f_equal; lia|]. split; [cbn; auto|]. cbn [concat]. rewrite map_app, concat_app, Ep, Cp. now rewrite firstn_plus, skipn_plus.
  Qed.
  Lemma split_ok params depth dirs nO nI extra : length params = lstm_size depth dirs nO nI ->
    exists ps, split_layers (params ++ extra) depth dirs nO nI 0 = Ok (ps, length params) /\ layers_shape parts_shape depth dirs nO nI ps /\ concat (map elements (concat ps)) = params.
  Proof.
    intros E. destruct (split_layers_ok (params ++ extra) nO dirs depth nI 0) as (ps & E1 & E2 & E3); [rewrite app_length; lia|]. exists ps. rewrite <- E in *. split; [exact E1|]. split; [exact E2|].
    rewrite E3. cbn [skipn]. rewrite firstn_app, Nat.sub_diag, firstn_all. cbn [firstn]. apply app_nil_r.
  Qed.
  Lemma split_layers_short params nO dirs : nO <> 0 -> forall depth nI s, s <= length params -> length params < s + lstm_size depth dirs nO nI -> split_layers params depth dirs nO nI s = Err ValueError.
  Proof.
    intros Hn. induction depth as [|depth IH]; intros nI s Hs E; cbn [split_layers lstm_size] in *; [lia|].
    destruct (le_lt_dec (s + dirs * dir_size nO nI) (length params)) as [L|L].
    - destruct (split_dirs_ok params nO nI dirs s L) as (p & -> & _ & _). cbn [bind fst snd]. rewrite IH; [reflexivity|exact L|]. lia.
    - now rewrite split_dirs_short by assumption.
  Qed.
  Lemma split_short params depth dirs nO nI : nO <> 0 -> length params < lstm_size depth dirs nO nI -> split_layers params depth dirs nO nI 0 = Err ValueError.
  Proof. intros Hn E. apply split_layers_short; [exact Hn|lia|exact E]. Qed.
End Layout.

Lemma concat_len {T} r c (l : list (list T)) : length l = r -> Forall (fun x => length x = c) l -> length (concat l) = r * c.
Proof. intros <- F. induction F as [|x l F1 F2 IH]; [reflexivity|]. cbn. rewrite app_length, IH, F1. reflexivity. Qed.
  Lemma expected_size depth dirs nO nI : depth <> 0 -> expected depth dirs nO nI = lstm_size depth dirs nO nI.
  Proof.
    destruct depth as [|depth]; [now intros []|]. intros _. unfold expected. cbn [lstm_size]. replace (S depth - 1) with depth by lia.
    assert (E : forall depth, expected_more depth dirs nO = lstm_size depth dirs nO (nO * dirs)).
    { induction depth0 as [|n IH]; [reflexivity|]. cbn [expected_more lstm_size]. rewrite IH. f_equal. unfold dir_size. lia. }
    rewrite E. f_equal. unfold dir_size. lia.
  Qed.
  Lemma init_elements {T} (init_W : nat -> nat -> nat -> mat T) (init_b : nat -> nat -> list T) k nO nI : concat (init_dir init_W init_b k nO nI) = elements (init_parts init_W init_b k nO nI).
  Proof. unfold init_dir, elements, init_parts, ravel. cbn [concat p_Wx p_bx p_Wh p_bh m_rows]. rewrite !concat_app, <- !app_assoc, app_nil_r. reflexivity. Qed.
Section Init.
  Context {T : Type} (init_W : nat -> nat -> nat -> mat T) (init_b : nat -> nat -> list T).
  Hypothesis HW : forall k r c, rows_by r c (init_W k r c).
  Hypothesis Hb : forall k n, length (init_b k n) = n.
  Lemma ravel_length k r c : length (ravel (init_W k r c)) = r * c.
  Proof.
    destruct (HW k r c) as (_ & L & F). exact (concat_len r c _ L F).
  Qed.
  Lemma init_dir_length k nO nI : length (concat (init_dir init_W init_b k nO nI)) = dir_size nO nI.
  Proof. unfold init_dir. cbn [concat]. rewrite !app_length, !ravel_length, !Hb. cbn [length]. unfold dir_size. lia. Qed.
  Lemma init_dirs_length nO nI : forall dirs k, length (concat (init_dirs init_W init_b k dirs nO nI)) = dirs * dir_size nO nI.
  Proof. induction dirs as [|dirs IH]; intros k; [reflexivity|]. cbn [init_dirs]. rewrite concat_app, app_length, init_dir_length, IH. reflexivity. Qed.
  Lemma init_layers_length nO dirs : forall depth nI k, length (concat (init_layers init_W init_b k depth dirs nO nI)) = lstm_size depth dirs nO nI.
  Proof. induction depth as [|depth IH]; intros nI k; [reflexivity|]. cbn [init_layers lstm_size]. rewrite concat_app, app_length, init_dirs_length, IH. reflexivity. Qed.
  Lemma init_parts_shape k nO nI : parts_shape nO nI (init_parts init_W init_b k nO nI).
  Proof.
    assert (R : forall k1 k2 k3 k4 c, rows_by (4 * nO) c (mkM c (m_rows (init_W k1 nO c) ++ m_rows (init_W k2 nO c) ++ m_rows (init_W k3 nO c) ++ m_rows (init_W k4 nO c)))).
    { intros k1 k2 k3 k4 c. destruct (HW k1 nO c) as (_ & L1 & F1), (HW k2 nO c) as (_ & L2 & F2), (HW k3 nO c) as (_ & L3 & F3), (HW k4 nO c) as (_ & L4 & F4).
      split; [reflexivity|]. cbn [m_rows]. split; [rewrite !app_length; lia|]. rewrite !Forall_app. auto. }
    split; [apply R|]. split; [cbn; rewrite !app_length, !Hb; lia|]. split; [apply R|]. cbn. rewrite !app_length, !Hb. lia.
  Qed.
End Init.
(** Splitting is inverse to listing the elements. *)
Lemma elements_length {T} nO nI (p : parts T) : parts_shape nO nI p -> length (elements p) = dir_size nO nI.
Proof.
  intros ((_ & A1 & A2) & B & (_ & C1 & C2) & D). unfold elements. rewrite !app_length, B, D.
  assert (L : forall r c (l : list (list T)), length l = r -> Forall (fun x => length x = c) l -> length (concat l) = r * c).
  { intros r c l <- F. induction F as [|x l F1 F2 IH]; [reflexivity|]. cbn. rewrite app_length, IH, F1. reflexivity. }
  rewrite (L _ _ _ A1 A2), (L _ _ _ C1 C2). unfold dir_size. lia.
Qed.
Lemma app_inj_len {A} (a b c d : list A) : length a = length c -> a ++ b = c ++ d -> a = c /\ b = d.
Proof. revert c. induction a as [|x a IH]; intros [|y c] L E; try discriminate; [now split|]. injection L as L. injection E as -> E. destruct (IH c L E) as [-> ->]. now split. Qed.
Lemma concat_inj_len {A} r c (l l' : list (list A)) : length l = r -> length l' = r -> Forall (fun x => length x = c) l -> Forall (fun x => length x = c) l' -> concat l = concat l' -> l = l'.
Proof.
  revert l l'. induction r as [|r IH]; intros [|x l] [|y l'] L L' F F' E; try discriminate; [reflexivity|]. apply Forall_cons_iff in F as [F1 F2]. apply Forall_cons_iff in F' as [F1' F2'].
  cbn in E. apply app_inj_len in E as [-> E]; [|congruence]. f_equal. apply IH; auto.
Qed.
Lemma elements_inj {T} nO nI (p q : parts T) : parts_shape nO nI p -> parts_shape nO nI q -> elements p = elements q -> p = q.
Proof.
  destruct p as [[c rows] bx [c' rows'] bh], q as [[d qows] qbx [d' qows'] qbh]. intros ((A & A1 & A2) & B & (C & C1 & C2) & D) ((A' & A1' & A2') & B' & (C' & C1' & C2') & D') E.
  cbn [p_Wx p_bx p_Wh p_bh m_cols m_rows] in *. unfold elements in E. cbn [p_Wx p_bx p_Wh p_bh m_cols m_rows] in E.
  assert (L : forall r c (l : list (list T)), length l = r -> Forall (fun x => length x = c) l -> length (concat l) = r * c).
  { intros r0 c0 l <- F. induction F as [|x l F1 F2 IH]; [reflexivity|]. cbn. rewrite app_length, IH, F1. reflexivity. }
  apply app_inj_len in E as [E1 E]; [|now rewrite (L _ _ _ A1 A2), (L _ _ _ A1' A2')].
  apply app_inj_len in E as [-> E]; [|congruence].
  apply app_inj_len in E as [E2 ->]; [|now rewrite (L _ _ _ C1 C2), (L _ _ _ C1' C2')].
  apply (concat_inj_len _ _ _ _ A1 A1' A2 A2') in E1. apply (concat_inj_len _ _ _ _ C1 C1' C2 C2') in E2. congruence.
Qed.
Lemma layers_inj {T} dirs nO : forall depth nI (ps qs : list (list (parts T))), layers_shape parts_shape depth dirs nO nI ps -> layers_shape parts_shape depth dirs nO nI qs ->
  concat (map elements (concat ps)) = concat (map elements (concat qs)) -> ps = qs.
Proof.
  assert (D : forall nI n (ps qs : list (parts T)), length ps = n -> length qs = n -> Forall (parts_shape nO nI) ps -> Forall (parts_shape nO nI) qs ->
    forall r r', concat (map elements ps) ++ r = concat (map elements qs) ++ r' -> ps = qs /\ r = r').
  { intros nI n. induction n as [|n IH]; intros [|p ps] [|q qs] L L' F F' r r' E; try discriminate; [now split|].
    apply Forall_cons_iff in F as [F1 F2]. apply Forall_cons_iff in F' as [F1' F2']. cbn in E. rewrite <- !app_assoc in E.
    apply app_inj_len in E as [E1 E]; [|now rewrite !(elements_length nO nI)]. apply (elements_inj nO nI _ _ F1 F1') in E1. destruct (IH ps qs) with (r := r) (r' := r') as [-> ->]; auto. now subst. }
  induction depth as [|depth IH]; intros nI [|p ps] [|q qs] Hp Hq E; cbn in Hp, Hq; try contradiction; [reflexivity|].
  destruct Hp as (L & F & Hp), Hq as (L' & F' & Hq). cbn [concat] in E. rewrite !map_app, !concat_app in E.
  destruct (D nI dirs p q L L' F F' _ _ E) as [-> E']. f_equal. exact (IH _ _ _ Hp Hq E').
Qed.
Lemma split_elements {T} depth dirs nO nI (ps : list (list (parts T))) extra : layers_shape parts_shape depth dirs nO nI ps ->
  split_layers (concat (map elements (concat ps)) ++ extra) depth dirs nO nI 0 = Ok (ps, lstm_size depth dirs nO nI).
Proof.
  intros Hp. assert (L : forall depth nI (ps : list (list (parts T))), layers_shape parts_shape depth dirs nO nI ps -> length (concat (map elements (concat ps))) = lstm_size depth dirs nO nI).
  { clear. induction depth as [|depth IH]; intros nI [|p ps] Hp; cbn in Hp; try contradiction; [reflexivity|]. destruct Hp as (E & F & Hp). cbn [concat lstm_size]. rewrite map_app, concat_app, app_length, (IH _ _ Hp). f_equal.
    rewrite <- E. clear E. induction F as [|q l F1 F2 IHl]; [reflexivity|]. cbn. rewrite app_length, IHl, (elements_length nO nI _ F1). reflexivity. }
  destruct (split_ok (concat (map elements (concat ps))) depth dirs nO nI extra) as (qs & E & S & Q); [now apply L|]. rewrite E, (L depth nI ps Hp). f_equal. f_equal.
  now apply (layers_inj dirs nO depth nI).
Qed.

Section Init2.
  Context {T : Type} (init_W : nat -> nat -> nat -> mat T) (init_b : nat -> nat -> list T).
  Lemma init_dirs_elements nO nI : forall dirs k, concat (init_dirs init_W init_b k dirs nO nI) = concat (map elements (map (fun d => init_parts init_W init_b (k + 16 * d) nO nI) (seq 0 dirs))).
  Proof.
    induction dirs as [|dirs IH]; intros k; [reflexivity|]. cbn [init_dirs seq map concat]. rewrite concat_app, (init_elements init_W init_b), IH. rewrite Nat.mul_0_r, Nat.add_0_r. f_equal.
    rewrite <- seq_shift, !map_map. f_equal. apply map_ext. intros d. do 2 f_equal. lia.
  Qed.
  Lemma init_layers_elements nO dirs : forall depth nI k, concat (init_layers init_W init_b k depth dirs nO nI) = concat (map elements (concat (init_all init_W init_b k depth dirs nO nI))).
  Proof. induction depth as [|depth IH]; intros nI k; [reflexivity|]. cbn [init_layers init_all concat]. rewrite concat_app, map_app, concat_app, init_dirs_elements, IH. reflexivity. Qed.
  Lemma init_all_shape (HW : forall k r c, rows_by r c (init_W k r c)) (Hb : forall k n, length (init_b k n) = n) nO dirs : forall depth nI k, layers_shape parts_shape depth dirs nO nI (init_all init_W init_b k depth dirs nO nI).
  Proof.
    induction depth as [|depth IH]; intros nI k; [exact I|]. cbn [init_all layers_shape]. split; [now rewrite map_length, seq_length|]. split; [|apply IH].
    rewrite Forall_map. apply Forall_forall. intros d _. now apply init_parts_shape.
  Qed.
  Lemma init_ok nO nI depth dirs : (forall k r c, rows_by r c (init_W k r c)) -> (forall k n, length (init_b k n) = n) -> depth <> 0 -> dirs <> 0 ->
    exists v, init_lstm init_W init_b nO nI depth dirs = Ok v /\ length v = lstm_size depth dirs (hidden_width nO dirs) nI /\
      split_layers v depth dirs (hidden_width nO dirs) nI 0 = Ok (init_all init_W init_b 0 depth dirs (hidden_width nO dirs) nI, length v).
  Proof.
    intros HW Hb Hd Hr. set (nH := hidden_width nO dirs). exists (concat (init_layers init_W init_b 0 depth dirs nH nI)).
    pose proof (init_layers_length init_W init_b HW Hb nH dirs depth nI 0) as L. split; [|split; [exact L|]].
    - unfold init_lstm. fold nH. rewrite expected_size by exact Hd. destruct (init_layers _ _ _ _ _ _ _) eqn:E; [|now rewrite L, Nat.eqb_refl].
      destruct depth; [contradiction|]. destruct dirs; [contradiction|]. discriminate.
    - rewrite L, init_layers_elements. rewrite <- (app_nil_r (concat _)). apply split_elements. now apply init_all_shape.
  Qed.
End Init2.
Lemma init_wrong {T} (init_W : nat -> nat -> nat -> mat T) init_b nO nI depth dirs : depth <> 0 -> dirs <> 0 ->
  length (concat (init_layers init_W init_b 0 depth dirs (hidden_width nO dirs) nI)) <> lstm_size depth dirs (hidden_width nO dirs) nI -> init_lstm init_W init_b nO nI depth dirs = Err AssertionError.
Proof.
  intros Hd Hr E. unfold init_lstm. rewrite expected_size by exact Hd. destruct (init_layers _ _ _ _ _ _ _) eqn:I.
  - destruct depth; [contradiction|]. destruct dirs; [contradiction|]. discriminate.
  - destruct (Nat.eqb_spec (length (concat (l :: l0))) (lstm_size depth dirs (hidden_width nO dirs) nI)); [contradiction|reflexivity].
Qed.
Lemma odd_width : forall nO, Nat.odd nO = true -> hidden_width nO 2 * 2 <> nO.
Proof. intros nO H E. unfold hidden_width in E. rewrite <- E in H. rewrite Nat.mul_comm, Nat.odd_mul in H. discriminate. Qed.

(** ** Weights and gradients *)
Local Open Scope R_scope.
Lemma vmap2_zeros (b : list R) : vmap2 nadd b (zeros (length b)) = b.
Proof. unfold vmap2, zeros. induction b as [|x b IH]; [reflexivity|]. cbn [length repeat combine map fst snd]. rewrite IH. cbn. f_equal. lra. Qed.
Lemma vmap2_length {A} (f : A -> A -> A) a b : length a = length b -> length (vmap2 f a b) = length a.
Proof. intros E. unfold vmap2. rewrite map_length, combine_length. lia. Qed.
Definition joined (w : triple R) : parts R := mkParts (mkM (m_cols (fst (fst w))) (to_first (m_rows (fst (fst w))))) (to_first (snd w)) (mkM (m_cols (snd (fst w))) (to_first (m_rows (snd (fst w))))) (zeros (length (snd w))).
Lemma joined_shape nO nI w : triple_shape nO nI w -> parts_shape nO nI (joined w).
Proof.
  intros (H1 & H2 & H3). destruct w as [[Wx Wh] b]. cbn [fst snd] in *. unfold joined. cbn [fst snd]. split; [|split; [|split]]; cbn [p_Wx p_bx p_Wh p_bh].
  - rewrite (proj1 H1). now apply rows_first.
  - now apply len_first.
  - rewrite (proj1 H2). now apply rows_first.
  - unfold zeros. now rewrite repeat_length.
Qed.
Lemma untranspose_ok nO nI w : nO <> 0%nat -> nI <> 0%nat -> triple_shape nO nI w -> untranspose_unsplit_weights w = Ok (elements (joined w)).
Proof.
  intros Hn Hi (H1 & H2 & H3). destruct w as [[Wx Wh] b]. cbn [fst snd] in *. unfold untranspose_unsplit_weights.
  rewrite (gates_first2_ok nO nI _ H1 Hi), (gates_first2_ok nO nO _ H2 Hn), (gates_first1_ok nO _ H3). cbn [bind]. unfold elements, joined, ravel. cbn [fst snd p_Wx p_bx p_Wh p_bh m_rows].
  now rewrite (len_first nO), H3.
Qed.
Lemma to_last_zeros n : to_last (zeros (4 * n) : list R) = zeros (4 * n).
Proof.
  assert (Z : forall l : list R, Forall (fun x => x = 0) l -> l = repeat 0 (length l)) by (intros l F; induction F; cbn; congruence).
  assert (L : length (zeros (4 * n) : list R) = (4 * n)%nat) by apply repeat_length.
  assert (P := perm_last n _ L). rewrite (Z (to_last (zeros (4 * n)))); [now rewrite (len_last n)|].
  apply (Permutation_Forall (Permutation_sym P)). apply Forall_forall. intros x Hx. now apply repeat_spec in Hx.
Qed.
Lemma transpose_joined nO nI w : nO <> 0%nat -> nI <> 0%nat -> triple_shape nO nI w -> transpose_weights (joined w) = Ok w.
Proof.
  intros Hn Hi Hw. unfold transpose_weights. destruct (transpose_parts_ok nO nI (joined w) (joined_shape _ _ _ Hw) Hn Hi) as [E _]. rewrite E. cbn [bind].
  destruct Hw as (H1 & H2 & H3). destruct w as [[[c Wx] [c' Wh]] b]. unfold last_parts, joined. cbn [fst snd p_Wx p_bx p_Wh p_bh m_rows m_cols] in *.
  rewrite (last_first nO Wx (proj1 (proj2 H1))), (last_first nO Wh (proj1 (proj2 H2))), (last_first nO b H3).
  rewrite H3, to_last_zeros, <- H3. unfold zeros at 1. rewrite repeat_length, Nat.eqb_refl. now rewrite vmap2_zeros.
Qed.
Lemma layers_shape_map {A B} (P : nat -> nat -> A -> Prop) (Q : nat -> nat -> B -> Prop) (f : A -> B) dirs nO : (forall nI x, P nO nI x -> Q nO nI (f x)) ->
  forall depth nI ws, layers_shape P depth dirs nO nI ws -> layers_shape Q depth dirs nO nI (map (map f) ws).
Proof.
  intros H. induction depth as [|depth IH]; intros nI [|w ws] Hw; cbn in *; try contradiction; [exact I|]. destruct Hw as (L & F & Hw). split; [now rewrite map_length|]. split; [|now apply IH].
  rewrite Forall_map. eapply Forall_impl; [|exact F]. intros x. apply H.
Qed.
Lemma layers_mapM {A B} (P : nat -> nat -> A -> Prop) (f : A -> result B) (h : A -> B) dirs nO : dirs <> 0%nat -> nO <> 0%nat -> (forall nI x, nI <> 0%nat -> P nO nI x -> f x = Ok (h x)) ->
  forall depth nI ws, nI <> 0%nat -> layers_shape P depth dirs nO nI ws -> mapM (mapM f) ws = Ok (map (map h) ws) /\ mapM f (concat ws) = Ok (map h (concat ws)).
Proof.
  intros Hd Hn H.
  assert (D : forall nI l, nI <> 0%nat -> Forall (P nO nI) l -> mapM f l = Ok (map h l)).
  { intros nI l Hi F. induction F as [|x l F1 F2 IH]; [reflexivity|]. cbn [mapM]. now rewrite (H nI x Hi F1), IH. }
  assert (App : forall a b u v, mapM f a = Ok u -> mapM f b = Ok v -> mapM f (a ++ b) = Ok (u ++ v)).
  { induction a as [|x a IH]; intros b u v E1 E2; [injection E1 as <-; exact E2|]. cbn [app mapM] in *. destruct (f x); [|discriminate]. cbn [bind] in *. destruct (mapM f a) as [u'|] eqn:Ea; [|discriminate].
    cbn [bind] in E1. injection E1 as <-. now rewrite (IH b u' v eq_refl E2). }
  induction depth as [|depth IH]; intros nI [|w ws] Hi Hw; cbn in Hw; try contradiction; [now split|]. destruct Hw as (L & F & Hw).
  destruct (IH (nO * dirs)%nat ws) as [IH1 IH2]; [lia|exact Hw|]. split.
  - cbn [mapM map]. now rewrite (D nI w Hi F), IH1.
  - cbn [concat]. rewrite map_app. apply App; [now apply (D nI)|exact IH2].
Qed.
Lemma join_ok depth dirs nO nI (ws : list (list (triple R))) : nO <> 0%nat -> nI <> 0%nat -> dirs <> 0%nat -> layers_shape triple_shape depth dirs nO nI ws ->
  exists v, join_layers ws = Ok v /\ length v = lstm_size depth dirs nO nI /\ all_layer_params v depth dirs nO nI = Ok ws.
Proof.
  intros Hn Hi Hd Hw. set (ps := map (map joined) ws).
  assert (Hp : layers_shape parts_shape depth dirs nO nI ps) by (apply (layers_shape_map triple_shape); [intros; now apply joined_shape|exact Hw]).
  exists (concat (map elements (concat ps))). pose proof (split_elements depth dirs nO nI ps [] Hp) as Sp. rewrite app_nil_r in Sp. split; [|split].
  - unfold join_layers. rewrite (proj2 (layers_mapM triple_shape _ (fun w => elements (joined w)) dirs nO Hd Hn (fun nI x H => untranspose_ok nO nI x Hn H) depth nI ws Hi Hw)). cbn [bind]. f_equal.
    unfold ps. rewrite <- concat_map, map_map. reflexivity.
  - assert (L : forall depth nI (ps : list (list (parts R))), layers_shape parts_shape depth dirs nO nI ps -> length (concat (map elements (concat ps))) = lstm_size depth dirs nO nI); [|now apply L].
    clear. induction depth as [|depth IH]; intros nI [|p ps] Hp; cbn in Hp; try contradiction; [reflexivity|]. destruct Hp as (E & F & Hp). cbn [concat lstm_size]. rewrite map_app, concat_app, app_length, (IH _ _ Hp). f_equal.
    rewrite <- E. clear E. induction F as [|q l F1 F2 IHl]; [reflexivity|]. cbn. rewrite app_length, IHl, (elements_length nO nI _ F1). reflexivity.
  - unfold all_layer_params. rewrite Sp. cbn [bind fst]. unfold ps. clear Sp Hp ps. revert nI ws Hi Hw. induction depth as [|depth IH]; intros nI [|w ws] Hi Hw; cbn in Hw; try contradiction; [reflexivity|].
    destruct Hw as (L & F & Hw). cbn [map mapM]. rewrite (IH (nO * dirs)%nat ws ltac:(lia) Hw). replace (mapM transpose_weights (map joined w)) with (Ok w); [reflexivity|].
    clear L Hw. induction F as [|x l F1 F2 IHl]; [reflexivity|]. cbn [map mapM]. now rewrite (transpose_joined nO nI x Hn Hi F1), <- IHl.
Qed.
(** The other way *)
Lemma to_last_vmap2 n (a b : list R) : length a = (4 * n)%nat -> length b = (4 * n)%nat -> vmap2 nadd (to_last a) (to_last b) = to_last (vmap2 nadd a b).
Proof.
  intros La Lb. destruct (list_vec a _ La) as [E|[f ->]].
  { assert (n = 0%nat) as -> by lia. destruct a; [|discriminate]. destruct b; [|discriminate]. reflexivity. }
  destruct (list_vec b _ Lb) as [E|[g ->]].
  { assert (n = 0%nat) as -> by lia. reflexivity. }
  assert (V : forall m (f g : nat -> R), vmap2 nadd (vec m f) (vec m g) = vec m (fun k => f k + g k)).
  { intros m f' g'. unfold vmap2, vec. generalize (seq 0 m). intros l. induction l as [|x l IH]; [reflexivity|]. cbn [map combine fst snd]. now rewrite IH. }
  rewrite V, !to_last_grid, !grid_vec by lia. apply V.
Qed.
Lemma transpose_one_bias nO nI p : nO <> 0%nat -> nI <> 0%nat -> parts_shape nO nI p -> exists w, transpose_weights p = Ok w /\ triple_shape nO nI w /\ joined w = one_bias p.
Proof.
  intros Hn Hi Hp. unfold transpose_weights. destruct (transpose_parts_ok nO nI p Hp Hn Hi) as [E S]. rewrite E. cbn [bind]. destruct S as (S1 & S2 & S3 & S4). rewrite S2, S4, Nat.eqb_refl.
  eexists. split; [reflexivity|]. split.
  - split; [exact S1|]. split; [exact S3|]. cbn [snd]. rewrite vmap2_length by congruence. exact S2.
  - destruct Hp as (H1 & H2 & H3 & H4). destruct p as [[c Wx] bx [c' Wh] bh]. unfold joined, one_bias, last_parts. cbn [fst snd p_Wx p_bx p_Wh p_bh m_cols m_rows] in *.
    rewrite (first_last nO Wx (proj1 (proj2 H1))), (first_last nO Wh (proj1 (proj2 H3))).
    rewrite (to_last_vmap2 nO _ _ H2 H4). assert (L : length (vmap2 nadd bx bh) = (4 * nO)%nat) by (rewrite vmap2_length; congruence). rewrite (first_last nO _ L), (len_last nO _ L), H4. reflexivity.
Qed.
Lemma join_back depth dirs nO nI params : nO <> 0%nat -> nI <> 0%nat -> dirs <> 0%nat -> length params = lstm_size depth dirs nO nI ->
  exists ps ws v, split_layers params depth dirs nO nI 0 = Ok (ps, length params) /\ all_layer_params params depth dirs nO nI = Ok ws /\ layers_shape triple_shape depth dirs nO nI ws /\
    join_layers ws = Ok v /\ length v = length params /\ split_layers v depth dirs nO nI 0 = Ok (map (map one_bias) ps, length params).
Proof.
  intros Hn Hi Hd L. destruct (split_ok params depth dirs nO nI [] L) as (ps & Es & Sp & _). rewrite app_nil_r in Es.
  assert (W : exists ws, mapM (mapM transpose_weights) ps = Ok ws /\ layers_shape triple_shape depth dirs nO nI ws /\ map (map joined) ws = map (map one_bias) ps).
  { clear Es L. revert nI ps Hi Sp. induction depth as [|depth IH]; intros nI [|p ps] Hi Hp; cbn in Hp; try contradiction; [exists []; repeat split|]. destruct Hp as (E & F & Hp).
    destruct (IH (nO * dirs)%nat ps ltac:(lia) Hp) as (ws & W1 & W2 & W3).
    assert (D : exists w, mapM transpose_weights p = Ok w /\ length w = length p /\ Forall (triple_shape nO nI) w /\ map joined w = map one_bias p).
    { clear -F Hn Hi. induction F as [|x l F1 F2 (w & E1 & E2 & E3 & E4)]; [exists []; repeat split; constructor|]. destruct (transpose_one_bias nO nI x Hn Hi F1) as (y & Y1 & Y2 & Y3).
      exists (y :: w). cbn [mapM]. rewrite Y1, E1. cbn. rewrite E2, Y3, E4. repeat split; now constructor. }
    destruct D as (w & D1 & D2 & D3 & D4). exists (w :: ws). cbn [mapM]. rewrite D1, W1. split; [reflexivity|]. split; [cbn; repeat split; congruence || assumption|]. cbn [map]. now rewrite W3, D4. }
  destruct W as (ws & W1 & W2 & W3). destruct (join_ok depth dirs nO nI ws Hn Hi Hd W2) as (v & V1 & V2 & _). exists ps, ws, v.
  split; [exact Es|]. split; [unfold all_layer_params; rewrite Es; exact W1|]. split; [exact W2|]. split; [exact V1|]. split; [congruence|].
  assert (Hp : layers_shape parts_shape depth dirs nO nI (map (map joined) ws)) by (apply (layers_shape_map triple_shape); [intros; now apply joined_shape|exact W2]).
  pose proof (split_elements depth dirs nO nI _ [] Hp) as Sv. rewrite app_nil_r in Sv. rewrite <- W3, L, <- Sv. f_equal.
  unfold join_layers in V1. rewrite (proj2 (layers_mapM triple_shape _ (fun w => elements (joined w)) dirs nO Hd Hn (fun nI x H => untranspose_ok nO nI x Hn H) depth nI ws Hi W2)) in V1. cbn [bind] in V1. injection V1 as <-.
  rewrite <- concat_map, map_map. reflexivity.
Qed.

(** ** Positions *)
Local Open Scope nat_scope.
Lemma nth_error_concat {A} c (rows : list (list A)) : Forall (fun x => length x = c) rows -> forall r j, r < length rows -> j < c ->
  exists row, nth_error rows r = Some row /\ nth_error row j = nth_error (concat rows) (r * c + j).
Proof.
  induction 1 as [|x rows F1 F2 IH]; intros r j Hr Hj; cbn [length] in Hr; [lia|]. cbv beta in F1. destruct r as [|r].
  - exists x. split; [reflexivity|]. cbn [concat]. now rewrite nth_error_app1 by nia.
  - destruct (IH r j) as (row & E1 & E2); [lia|exact Hj|]. exists row. split; [exact E1|]. cbn [concat]. rewrite nth_error_app2 by nia. rewrite E2. f_equal. lia.
Qed.
Lemma layers_position {T} nO dirs : forall depth nI (ps : list (list (parts T))) i ds d p, layers_shape parts_shape depth dirs nO nI ps -> nth_error ps i = Some ds -> nth_error ds d = Some p ->
  parts_shape nO (layer_inputs nI dirs nO i) p /\ forall k, k < dir_size nO (layer_inputs nI dirs nO i) -> nth_error (concat (map elements (concat ps))) (dir_start dirs nO nI i d + k) = nth_error (elements p) k.
Proof.
  assert (D : forall nI (ds : list (parts T)) d p rest, Forall (parts_shape nO nI) ds -> nth_error ds d = Some p ->
    parts_shape nO nI p /\ forall k, k < dir_size nO nI -> nth_error (concat (map elements ds) ++ rest) (d * dir_size nO nI + k) = nth_error (elements p) k).
  { intros nI ds. induction ds as [|q ds IH]; intros d p rest F E; [destruct d; discriminate|]. apply Forall_cons_iff in F as [F1 F2]. cbn [map concat]. rewrite <- app_assoc. pose proof (elements_length nO nI q F1) as Lq. destruct d as [|d].
    - injection E as <-. split; [exact F1|]. intros k Hk. rewrite nth_error_app1 by nia. reflexivity.
    - destruct (IH d p rest F2 E) as [Sp Hp]. split; [exact Sp|]. intros k Hk. rewrite nth_error_app2 by nia. rewrite <- (Hp k Hk). f_equal. lia. }
  induction depth as [|depth IH]; intros nI [|q ps] i ds d p Hp Ei Ed; cbn in Hp; try contradiction; [destruct i; discriminate|]. destruct Hp as (L & F & Hp).
  cbn [concat]. rewrite map_app, concat_app. destruct i as [|i].
  - injection Ei as ->. cbn [layer_inputs dir_start]. apply D; assumption.
  - cbn [nth_error] in Ei. destruct (IH (nO * dirs) ps i ds d p Hp Ei Ed) as [Sp Hk]. replace (layer_inputs (nO * dirs) dirs nO i) with (nO * dirs) in * by (now destruct i). cbn [layer_inputs dir_start]. split; [exact Sp|]. intros k Hlt.
    assert (Lq : length (concat (map elements q)) = dirs * dir_size nO nI).
    { rewrite <- L. clear -F. induction F as [|x l F1 F2 IHl]; [reflexivity|]. cbn. rewrite app_length, IHl, (elements_length nO nI _ F1). reflexivity. }
    rewrite nth_error_app2 by lia. rewrite <- (Hk k Hlt). f_equal. lia.
Qed.
Lemma positions_ok {T} (params : list T) depth dirs nO nI i d : length params = lstm_size depth dirs nO nI -> nO <> 0 -> nI <> 0 -> dirs <> 0 -> i < depth -> d < dirs ->
  let w := layer_inputs nI dirs nO i in let start := dir_start dirs nO nI i d in
  exists ps ds p q, split_layers params depth dirs nO nI 0 = Ok (ps, length params) /\ nth_error ps i = Some ds /\ nth_error ds d = Some p /\ transpose_parts p = Ok q /\
    forall o g, o < nO -> g < 4 ->
      (exists row, nth_error (m_rows (p_Wx q)) (4 * o + g) = Some row /\ length row = w /\ forall j, j < w -> nth_error row j = nth_error params (start + ((g * nO + o) * w + j))) /\
      nth_error (p_bx q) (4 * o + g) = nth_error params (start + 4 * nO * w + (g * nO + o)) /\
      (exists row, nth_error (m_rows (p_Wh q)) (4 * o + g) = Some row /\ length row = nO /\ forall j, j < nO -> nth_error row j = nth_error params (start + 4 * nO * w + 4 * nO + ((g * nO + o) * nO + j))) /\
      nth_error (p_bh q) (4 * o + g) = nth_error params (start + 4 * nO * w + 4 * nO + 4 * nO * nO + (g * nO + o)).
Proof.
  intros L Hn Hi Hd Li Ld w start. destruct (split_ok params depth dirs nO nI [] L) as (ps & Es & Sp & Ep). rewrite app_nil_r in Es.
  assert (X : exists ds, nth_error ps i = Some ds /\ length ds = dirs).
  { clear -Sp Li. revert nI ps i Sp Li. induction depth as [|depth IH]; intros nI [|p ps] i Hp Li; cbn in Hp; try contradiction; [lia|]. destruct Hp as (E & F & Hp). destruct i as [|i]; [now exists p|]. cbn. apply (IH (nO * dirs)); [exact Hp|lia]. }
  destruct X as (ds & Ei & Lds). destruct (nth_error ds d) as [p|] eqn:Ed; [|apply nth_error_None in Ed; lia].
  destruct (layers_position nO dirs depth nI ps i ds d p Sp Ei Ed) as [Pp Hk]. fold w start in Pp, Hk. rewrite Ep in Hk.
  assert (Hw : w <> 0) by (unfold w, layer_inputs; destruct i; [exact Hi|lia]).
  destruct (transposed nO w p Pp Hn Hw) as (q & Eq & Sq & _ & Hq). exists ps, ds, p, q. repeat (split; [assumption|]). intros o g Ho Hg. destruct (Hq o g Ho Hg) as (Q1 & Q2 & Q3 & Q4). rewrite Q1, Q2, Q3, Q4.
  destruct Pp as ((A0 & A1 & A2) & B & (C0 & C1 & C2) & D). assert (Lr : g * nO + o < 4 * nO) by nia.
  pose proof (concat_len _ _ _ A1 A2) as LA. pose proof (concat_len _ _ _ C1 C2) as LC. unfold dir_size in Hk. unfold elements in Hk. split; [|split; [|split]].
  - assert (W : w > 0) by lia. destruct (nth_error_concat w _ A2 (g * nO + o) 0) as (row & E1 & _); [lia|lia|]. exists row. split; [exact E1|]. split; [rewrite Forall_forall in A2; apply A2; now apply nth_error_In in E1|].
    intros j Hj. destruct (nth_error_concat w _ A2 (g * nO + o) j) as (row' & E1' & E2); [lia|lia|]. rewrite E1 in E1'. injection E1' as <-. rewrite E2.
    assert (In : (g * nO + o) * w + j < 4 * nO * w) by nia. rewrite Hk by lia. now rewrite nth_error_app1 by lia.
  - rewrite <- Nat.add_assoc. rewrite Hk by lia. rewrite nth_error_app2 by lia. rewrite nth_error_app1 by lia. f_equal. lia.
  - destruct (nth_error_concat nO _ C2 (g * nO + o) 0) as (row & E1 & _); [lia|lia|]. exists row. split; [exact E1|]. split; [rewrite Forall_forall in C2; apply C2; now apply nth_error_In in E1|].
    intros j Hj. destruct (nth_error_concat nO _ C2 (g * nO + o) j) as (row' & E1' & E2); [lia|lia|]. rewrite E1 in E1'. injection E1' as <-. rewrite E2.
    assert (In : (g * nO + o) * nO + j < 4 * nO * nO) by nia. rewrite <- !Nat.add_assoc. rewrite Hk by lia. rewrite nth_error_app2 by lia. rewrite nth_error_app2 by lia. rewrite nth_error_app1 by lia. f_equal. lia.
  - rewrite <- !Nat.add_assoc. rewrite Hk by lia. rewrite nth_error_app2 by lia. rewrite nth_error_app2 by lia. rewrite nth_error_app2 by lia. f_equal. lia.
Qed.
(** A layer without inputs cannot be read. *)
Lemma no_inputs {T} (p : parts T) nO : parts_shape nO 0 p -> transpose_parts p = Err ValueError.
Proof. intros ((A & _) & _). unfold transpose_parts, gates_last2. now rewrite A. Qed.
Lemma init_no_layers {T} (init_W : nat -> nat -> nat -> mat T) (init_b : nat -> nat -> list T) nO nI dirs : init_lstm init_W init_b nO nI 0 dirs = Err ValueError.
Proof. reflexivity. Qed.
