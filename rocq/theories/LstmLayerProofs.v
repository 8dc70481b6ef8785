(** Proofs about the LSTM layer. *)
From Coq Require Import String.
From Coq Require Import Reals Lra Lia.
From Verif Require Import BaseFacts NumR SeqProofs PaddedProofs PackProofs LstmProofs LstmFwdProofs LstmLayerSpec LstmKernelModel LstmKernelSpec.
Local Open Scope nat_scope.
Set Default Goal Selector "!".

(** ** Rows of packed arrays *)
Lemma take_app_r {A} (P Q : list (list A)) b l : take (P ++ Q) (rows_of b (length P) l) = take Q (rows_of b 0 l).
Proof.
  assert (G : forall l s, map (fun r => nth r (P ++ Q) []) (rows_of b (length P + s) l) = map (fun r => nth r Q []) (rows_of b s l)).
  { clear l. induction l as [|n l IH]; intros s; [reflexivity|]. cbn [rows_of]. rewrite !map_app. replace (length P + s + n) with (length P + (s + n)) by lia. rewrite IH. f_equal.
    destruct (b <? n); [|reflexivity]. cbn [map]. f_equal. rewrite app_nth2 by lia. f_equal. lia. }
  unfold take. specialize (G l 0). now rewrite Nat.add_0_r in G.
Qed.
(** The rows of one sequence, from the pieces of the time steps *)
Lemma take_pieces {A} b : forall (pieces : list (list (list A))),
  take (concat pieces) (rows_of b 0 (map (@length _) pieces)) = flat_map (fun c => if b <? length c then [nth b c []] else []) pieces.
Proof.
  induction pieces as [|c pieces IH]; [reflexivity|]. cbn [map concat rows_of flat_map]. unfold take. rewrite map_app. f_equal.
  - destruct (Nat.ltb_spec b (length c)); [|reflexivity]. cbn [map]. now rewrite app_nth1.
  - rewrite Nat.add_0_l. change (take (c ++ concat pieces) (rows_of b (length c) (map (@length _) pieces)) = flat_map (fun c => if b <? length c then [nth b c []] else []) pieces).
    now rewrite take_app_r.
Qed.
Lemma flat_map_prefix {A} (f : nat -> A) (g : nat -> bool) len : forall n s, (forall t, g t = (t <? len)) -> s <= len <= s + n ->
  flat_map (fun t => if g t then [f t] else []) (seq s n) = map f (seq s (len - s)).
Proof.
  induction n as [|n IH]; intros s Hg Hs.
  - replace (len - s) with 0 by lia. reflexivity.
  - cbn [seq flat_map]. rewrite Hg. destruct (Nat.ltb_spec s len).
    + replace (len - s) with (S (len - S s)) by lia. cbn [seq map app]. f_equal. apply IH; [exact Hg|lia].
    + replace (len - s) with 0 by lia. cbn [seq map app]. assert (G : forall m t, len <= t -> flat_map (fun t => if g t then [f t] else []) (seq t m) = []).
      { induction m as [|m IHm]; intros t Ht; [reflexivity|]. cbn [seq flat_map]. rewrite Hg. destruct (Nat.ltb_spec t len); [lia|]. apply IHm. lia. }
      apply G. lia.
Qed.
Lemma seq_pieces {A} (pieces : list (list (list A))) : pieces = map (fun t => nth t pieces []) (seq 0 (length pieces)).
Proof. apply (nth_ext _ _ [] []); [now rewrite map_length, seq_length|]. intros t Ht. now rewrite map_seq_nth. Qed.
(** When the pieces of the first [len] steps are those longer than [b], the rows are element [b] of these. *)
Lemma take_column {A} b (pieces : list (list (list A))) len : len <= length pieces -> (forall t, t < length pieces -> (b < length (nth t pieces [])) <-> t < len) ->
  take (concat pieces) (rows_of b 0 (map (@length _) pieces)) = map (fun t => nth b (nth t pieces []) []) (seq 0 len).
Proof.
  intros Hl Hb. rewrite take_pieces. rewrite (seq_pieces pieces) at 1. rewrite flat_map_concat_map, map_map, <- flat_map_concat_map.
  pose proof (flat_map_prefix (fun t => nth b (nth t pieces []) []) (fun t => t <? len) len (length pieces) 0 (fun t => eq_refl) ltac:(lia)) as G.
  rewrite Nat.sub_0_r in G. rewrite <- G. rewrite !flat_map_concat_map. f_equal. apply map_ext_in. intros t Ht. apply in_seq in Ht.
  specialize (Hb t ltac:(lia)). destruct (Nat.ltb_spec b (length (nth t pieces []))), (Nat.ltb_spec t len); try reflexivity; exfalso; lia.
Qed.

(** ** Batches that represent sequences *)
Lemma count_le t l : forall i, (forall k, i <= k -> nth k l 0 <= t) -> count t l <= i.
Proof.
  unfold count. induction l as [|x l IH]; intros i Hi; cbn [filter length]; [lia|]. destruct i as [|i].
  - pose proof (Hi 0 ltac:(lia)) as E. cbn in E. destruct (Nat.ltb_spec t x); [lia|]. apply IH. intros k Hk. apply (Hi (S k)). lia.
  - assert (G : length (filter (fun n => t <? n) l) <= i) by (apply IH; intros k Hk; apply (Hi (S k)); lia). destruct (t <? x); cbn [length]; lia.
Qed.
Section Batch.
  Context {T : Type} (z : T).
  Implicit Types (p : padded T) (seqs : list (nda T)).
  Lemma rep_size w p seqs t : represents z w p seqs -> t < max_len seqs -> nth t (p_size_at_t p) 0 = count t (p_lengths p).
  Proof. intros R Ht. rewrite (count_perm t _ _ (rep_lengths_perm z w p seqs R)), count_len. destruct R. rewrite rep_sizes. now rewrite map_seq_nth. Qed.
  Lemma rep_falls w p seqs i k : represents z w p seqs -> i <= k -> nth k (p_lengths p) 0 <= nth i (p_lengths p) 0.
  Proof.
    intros R Hk. destruct R. destruct (Nat.lt_ge_cases k (length seqs)) as [L|L]; [|rewrite (nth_overflow _ _ (n := k)) by lia; lia].
    destruct (Nat.eq_dec i k) as [->|N]; [lia|]. destruct (rep_sorted i k ltac:(lia)); lia.
  Qed.
  (** A time step has a row for a sequence if the sequence is longer. *)
  Lemma rep_row w p seqs t i j s : represents z w p seqs -> t < max_len seqs -> nth_error (p_indices p) i = Some j -> nth_error seqs j = Some s ->
    i < nth t (p_size_at_t p) 0 <-> t < a_len s.
  Proof.
    intros R Ht Ei Es. rewrite (rep_size w p seqs t R Ht). pose proof (rep_len _ _ _ _ R i j s Ei Es) as El. pose proof (nth_error_nth_some _ _ _ 0 El) as En.
    assert (Hi : i < length (p_lengths p)) by now apply nth_error_lt_some in El. split; intros H.
    - destruct (Nat.lt_ge_cases t (a_len s)) as [|G]; [assumption|]. exfalso. enough (count t (p_lengths p) <= i) by lia. apply count_le. intros k Hk. pose proof (rep_falls w p seqs i k R Hk). lia.
    - apply (count_ge t (p_lengths p) (S i)); [lia|]. intros k Hk. pose proof (rep_falls w p seqs k i R ltac:(lia)). lia.
  Qed.
  Lemma map_length_combine (sizes : list nat) : forall (cells : list (list (list T))), length sizes = length cells ->
    (forall t bs c, nth_error sizes t = Some bs -> nth_error cells t = Some c -> bs <= length c) ->
    map (@length _) (map (fun q : nat * list (list T) => firstn (fst q) (snd q)) (combine sizes cells)) = sizes.
  Proof.
    induction sizes as [|n sizes IH]; intros [|c cells] Hl Hb; try discriminate; [reflexivity|]. cbn [combine map fst snd]. f_equal.
    - rewrite firstn_length. specialize (Hb 0 n c eq_refl eq_refl). lia.
    - apply IH; [cbn in Hl; lia|]. intros t. apply (Hb (S t)).
  Qed.
  Lemma nth_combine_pieces (sizes : list nat) (cells : list (list (list T))) t : length sizes = length cells -> t < length sizes ->
    nth t (map (fun q : nat * list (list T) => firstn (fst q) (snd q)) (combine sizes cells)) [] = firstn (nth t sizes 0) (nth t cells []).
  Proof. intros Hl Ht. rewrite (nth_indep _ [] ((fun q : nat * list (list T) => firstn (fst q) (snd q)) (0, []))) by (rewrite map_length, combine_length; lia). rewrite (map_nth (fun q : nat * list (list T) => firstn (fst q) (snd q))), combine_nth by exact Hl. reflexivity. Qed.
  Lemma nth_firstn_lt {A} (l : list A) n i d : i < n -> nth i (firstn n l) d = nth i l d.
  Proof. revert n l. induction i as [|i IH]; intros [|n] [|x l] H; try lia; try reflexivity. cbn. apply IH. lia. Qed.

  (** The rows of a sequence in the packed batch are the sequence. *)
  Lemma packed_rows w p seqs i j s : represents z w p seqs -> like [w] seqs -> nth_error (p_indices p) i = Some j -> nth_error seqs j = Some s ->
    take (packed (p_size_at_t p) (a3_cells (p_data p))) (rows_of i 0 (p_size_at_t p)) = a_rows s.
  Proof.
    intros R Hl Ei Es. assert (Hne : seqs <> []) by (intros ->; now destruct j).
    destruct (represents_packable z w p seqs R Hl Hne) as [Hp _]. pose proof Hp as (_ & Hlen & _ & _ & _).
    set (pieces := map (fun q : nat * list (list T) => firstn (fst q) (snd q)) (combine (p_size_at_t p) (a3_cells (p_data p)))).
    assert (Em : map (@length _) pieces = p_size_at_t p) by (apply map_length_combine; [exact Hlen|intros t bs c; apply (packable_sizes p w t bs c Hp)]).
    assert (Lp : length pieces = max_len seqs) by (rewrite <- (map_length (@length _)), Em, Hlen; apply (rep_cells _ _ _ _ R)).
    unfold packed. fold pieces. rewrite <- Em at 1. pose proof (max_len_le seqs s (nth_error_In _ _ Es)) as Hm.
    assert (Hn : forall t, t < length pieces -> length (nth t pieces []) = nth t (p_size_at_t p) 0).
    { intros t Ht. rewrite <- Em. rewrite (nth_indep _ 0 (length (@nil (list T)))) by now rewrite map_length. now rewrite map_nth. }
    rewrite (take_column i pieces (a_len s)); [|lia|].
    - apply (nth_ext _ _ [] (zero_row z [w])); [now rewrite map_length, seq_length|]. intros t Ht. rewrite map_length, seq_length in Ht. rewrite map_seq_nth by exact Ht.
      unfold pieces. rewrite nth_combine_pieces; [|exact Hlen|rewrite <- Em, map_length; lia]. rewrite nth_firstn_lt by (apply (rep_row w p seqs t i j s R); [lia|assumption..]).
      apply (rep_data _ _ _ _ R t i j s); [lia|assumption..].
    - intros t Ht. rewrite Hn by exact Ht. apply (rep_row w p seqs t i j s R); [lia|assumption..].
  Qed.

  (** Unpacking an array with the rows of other sequences of the same lengths gives a batch that represents these. *)
  Lemma unpacked_represents w v p seqs outs (Y : list (list T)) : represents z w p seqs -> like [w] seqs -> seqs <> [] -> map a_len outs = map a_len seqs -> length Y = list_sum_nat (p_size_at_t p) ->
    (forall i j o, nth_error (p_indices p) i = Some j -> nth_error outs j = Some o -> take Y (rows_of i 0 (p_size_at_t p)) = a_rows o) ->
    represents z v (mkPad (mkA3 (a3_n1 (p_data p)) [v] (map (fun c => c ++ SeqModel.zero_rows z (a3_n1 (p_data p) - length c) [v]) (chop (p_size_at_t p) Y))) (p_size_at_t p) (p_lengths p) (p_indices p)) outs.
  Proof.
    intros R Hl Hne Hlens HY Hrows. destruct (represents_packable z w p seqs R Hl Hne) as [Hp _]. pose proof Hp as (_ & Hlen & _ & _ & Hs).
    assert (Lo : length outs = length seqs) by (rewrite <- (map_length a_len outs), Hlens; apply map_length).
    assert (Mo : max_len outs = max_len seqs) by (unfold max_len; now rewrite Hlens).
    assert (Ao : forall j o s, nth_error outs j = Some o -> nth_error seqs j = Some s -> a_len o = a_len s).
    { intros j o s E1 E2. apply (map_nth_error a_len) in E1, E2. rewrite Hlens in E1. congruence. }
    assert (Ls : length (p_size_at_t p) = max_len seqs) by (rewrite Hlen; apply (rep_cells _ _ _ _ R)).
    pose proof (chop_lengths (p_size_at_t p) Y (eq_sym HY)) as Lc.
    assert (Hn : forall t, t < max_len seqs -> length (nth t (chop (p_size_at_t p) Y) []) = nth t (p_size_at_t p) 0).
    { intros t Ht. rewrite <- Lc at 2. rewrite (nth_indep _ 0 (length (@nil (list T)))) by (rewrite map_length, chop_length; lia). now rewrite map_nth. }
    assert (Hb : forall t, t < max_len seqs -> nth t (p_size_at_t p) 0 <= a3_n1 (p_data p)).
    { intros t Ht. rewrite Forall_forall in Hs. apply Hs, nth_In. lia. }
    pose proof (rep_n1 _ _ _ _ R) as En.
    constructor; cbn [p_data p_size_at_t p_lengths p_indices a3_n1 a3_tail a3_cells].
    - reflexivity.
    - rewrite map_length, chop_length. lia.
    - lia.
    - rewrite Forall_map, Forall_forall. intros c Hc. apply (In_nth _ _ []) in Hc as (t & Ht & <-). rewrite chop_length, Ls in Ht. specialize (Hn t Ht). specialize (Hb t Ht).
      rewrite app_length. unfold SeqModel.zero_rows. rewrite repeat_length. lia.
    - rewrite Lo. apply (rep_perm _ _ _ _ R).
    - rewrite Lo. apply (rep_lengths _ _ _ _ R).
    - intros i j o Ei Eo. destruct (nth_error seqs j) as [s|] eqn:Es; [|apply nth_error_None in Es; apply nth_error_lt_some in Eo; lia].
      rewrite (Ao j o s Eo Es). apply (rep_len _ _ _ _ R i j s Ei Es).
    - rewrite Lo. apply (rep_sorted _ _ _ _ R).
    - rewrite (rep_sizes _ _ _ _ R), Mo. apply map_ext. intros t. rewrite <- !count_len. now rewrite Hlens.
    - intros t i j o Ht Ei Eo. rewrite Mo in Ht. destruct (nth_error seqs j) as [s|] eqn:Es; [|apply nth_error_None in Es; apply nth_error_lt_some in Eo; lia].
      specialize (Hrows i j o Ei Eo). pose proof (rep_row w p seqs t i j s R Ht Ei Es) as Hr. pose proof (Ao j o s Eo Es) as Eos.
      rewrite (nth_indep _ [] ((fun c => c ++ SeqModel.zero_rows z (a3_n1 (p_data p) - length c) [v]) [])) by (rewrite map_length, chop_length; lia). rewrite (map_nth (fun c => c ++ SeqModel.zero_rows z (a3_n1 (p_data p) - length c) [v])).
      rewrite Hn by exact Ht. destruct (Nat.lt_ge_cases t (a_len s)) as [Hts|Hts].
      + rewrite app_nth1 by (rewrite Hn by exact Ht; now apply Hr).
        pose proof (take_column i (chop (p_size_at_t p) Y) (a_len s)) as G. rewrite Lc, concat_chop in G by now symmetry. rewrite G in Hrows.
        * rewrite <- Hrows. rewrite (nth_indep _ (zero_row z [v]) []) by (rewrite map_length, seq_length; exact Hts). now rewrite map_seq_nth.
        * rewrite chop_length. pose proof (max_len_le seqs s (nth_error_In _ _ Es)). lia.
        * intros t' Ht'. rewrite chop_length, Ls in Ht'. rewrite Hn by exact Ht'. apply (rep_row w p seqs t' i j s R Ht' Ei Es).
      + rewrite (nth_overflow (a_rows o)) by (unfold a_len in *; lia). rewrite app_nth2 by (rewrite Hn by exact Ht; lia). rewrite Hn by exact Ht.
        assert (Hi : i < length seqs) by (apply nth_error_lt_some in Ei; rewrite (Permutation_length (rep_perm _ _ _ _ R)), seq_length in Ei; exact Ei).
        unfold SeqModel.zero_rows. rewrite (nth_indep _ [] (zero_row z [v])) by (rewrite repeat_length; lia). apply nth_repeat.
  Qed.
End Batch.

(** ** The output of the network *)
Lemma lstm_run_length nO w : forall xs y c, length (lstm_run nO w y c xs) = length xs.
Proof. induction xs as [|x xs IH]; intros y c; cbn; [reflexivity|]. now rewrite IH. Qed.
Lemma lstm_run_width nO w : forall xs y c, Forall (fun r => length r = nO) (lstm_run nO w y c xs).
Proof. induction xs as [|x xs IH]; intros y c; cbn [lstm_run]; constructor; [|apply IH]. unfold lstm_step. cbn [fst]. now rewrite map_length, seq_length. Qed.
Lemma dir_run_length d nO w y c xs : length (dir_run d nO w y c xs) = length xs.
Proof. destruct d; cbn [dir_run]; [apply lstm_run_length|]. now rewrite rev_length, lstm_run_length, rev_length. Qed.
Lemma dir_run_width d nO w y c xs : Forall (fun r => length r = nO) (dir_run d nO w y c xs).
Proof. destruct d; cbn [dir_run]; [apply lstm_run_width|]. rewrite Forall_forall. intros r Hr. apply in_rev in Hr. pose proof (lstm_run_width nO w (rev xs) y c) as G. rewrite Forall_forall in G. now apply G. Qed.
Lemma layer_run_length nO ws h c xs : length (layer_run nO ws h c xs) = length xs.
Proof. unfold layer_run. now rewrite map_length, seq_length. Qed.
Lemma concat_width {A} (l : list (list A)) n : Forall (fun r => length r = n) l -> length (concat l) = length l * n.
Proof. induction 1 as [|r l Hr _ IH]; [reflexivity|]. cbn [concat]. rewrite app_length, IH, Hr. cbn. lia. Qed.
Lemma layer_run_width nO ws h c xs : Forall (fun r => length r = length ws * nO) (layer_run nO ws h c xs).
Proof.
  unfold layer_run. rewrite Forall_map, Forall_forall. intros t Ht. apply in_seq in Ht. rewrite (concat_width _ nO).
  - now rewrite !map_length, seq_length.
  - rewrite map_map, Forall_map, Forall_forall. intros d _.
    pose proof (dir_run_width d nO (nth d ws (mkM 0 [], mkM 0 [], [])) (nth d h []) (nth d c []) xs) as G. rewrite Forall_forall in G. apply G, nth_In. rewrite dir_run_length. lia.
Qed.
Lemma network_length nO h c : forall ws i xs, length (network nO i ws h c xs) = length xs.
Proof. induction ws as [|w ws IH]; intros i xs; [reflexivity|]. cbn [network]. now rewrite IH, layer_run_length. Qed.
Lemma network_width nO h c dirs : forall ws i xs, ws <> [] -> Forall (fun w => length w = dirs) ws -> Forall (fun r => length r = dirs * nO) (network nO i ws h c xs).
Proof.
  induction ws as [|w ws IH]; intros i xs Hne F; [congruence|]. cbn [network]. apply Forall_cons_iff in F as [F1 F2]. destruct ws as [|w' ws].
  - cbn [network]. rewrite <- F1. apply layer_run_width.
  - apply IH; [congruence|exact F2].
Qed.
Lemma layers_dirs {A} shape depth dirs nO : forall nI (ws : list (list A)), layers_shape shape depth dirs nO nI ws -> length ws = depth /\ Forall (fun w => length w = dirs) ws.
Proof. induction depth as [|depth IH]; intros nI [|w ws] Sh; try contradiction; cbn in Sh; [split; [reflexivity|constructor]|]. destruct Sh as (L & _ & Sh). apply IH in Sh as [L' F]. split; [cbn; lia|]. now constructor. Qed.

Lemma ragged_mat_ok w (X : list (list R)) sizes : 0 < w -> X <> [] -> ragged_mat (mk_ragged (mkA [w] X) sizes) = mkM w X /\ r_lengths (mk_ragged (mkA [w] X) sizes) = sizes /\ a_len (r_data (mk_ragged (mkA [w] X) sizes)) = length X.
Proof.
  intros Hw HX. unfold mk_ragged, a_size, a_len. cbn [a_tail a_rows shape_size fold_right]. destruct (Nat.eqb_spec (length X * (w * 1)) 0) as [E|E]; [destruct X; [congruence|cbn in E; lia]|].
  unfold ragged_mat. cbn [r_data r_lengths a_tail a_rows shape_size fold_right]. split; [|split; reflexivity]. unfold shape_size. cbn [fold_right]. f_equal. lia.
Qed.
Lemma sum_fold l : list_sum_nat l = fold_right Nat.add 0 l. Proof. reflexivity. Qed.

(** What a batch with at least one row is for the kernel *)
Lemma batch_ok (z : R) w p seqs : represents z w p seqs -> like [w] seqs -> (exists s, In s seqs /\ 0 < a_len s) ->
  let X := packed (p_size_at_t p) (a3_cells (p_data p)) in
  seqs <> [] /\ X <> [] /\ length X = list_sum_nat (p_size_at_t p) /\ length (p_size_at_t p) = length (a3_cells (p_data p)) /\ Forall (fun n => n <= a3_n1 (p_data p)) (p_size_at_t p) /\
  padded_to_packed z p = Ok (mk_ragged (mkA [w] X) (p_size_at_t p)) /\
  exists batch lengths, p_size_at_t p = batch :: lengths /\ batch <> 0 /\ Forall (fun n => n <= batch) lengths /\
    forall i j s, nth_error (p_indices p) i = Some j -> nth_error seqs j = Some s -> i < batch \/ a_rows s = [] /\ rows_of i 0 (batch :: lengths) = [].
Proof.
  intros R Hl (s0 & Hin & Hpos) X. assert (Hne : seqs <> []) by (intros ->; contradiction). split; [exact Hne|].
  destruct (represents_packable z w p seqs R Hl Hne) as [Hp _]. pose proof Hp as (_ & Hlen & _ & _ & Hs).
  destruct (chop_packed (p_size_at_t p) (a3_cells (p_data p)) Hlen (fun t bs c => packable_sizes p w t bs c Hp)) as [_ LX]. fold X in LX.
  assert (Hm : 0 < max_len seqs) by (pose proof (max_len_le seqs s0 Hin); lia).
  apply In_nth_error in Hin as [j0 Ej0]. pose proof (nth_error_lt_some _ _ _ Ej0) as Hj0. destruct (perm_seq_nth _ _ j0 (rep_perm _ _ _ _ R) Hj0) as [i0 Ei0].
  assert (Ls : length (p_size_at_t p) = max_len seqs) by (rewrite Hlen; apply (rep_cells _ _ _ _ R)).
  pose proof (proj2 (rep_row z w p seqs 0 i0 j0 s0 R Hm Ei0 Ej0) Hpos) as Hi0.
  destruct (p_size_at_t p) as [|batch lengths] eqn:Esz; [cbn in Ls; lia|]. cbn [nth] in Hi0.
  assert (Hle : forall t, t < max_len seqs -> nth t (batch :: lengths) 0 <= batch).
  { intros t Ht. assert (E0 : nth 0 (p_size_at_t p) 0 = batch) by now rewrite Esz. rewrite <- Esz, <- E0, !(rep_size z w p seqs _ R) by assumption. unfold count. clear. induction (p_lengths p) as [|x l IH]; [cbn; lia|]. cbn [filter].
    destruct (Nat.ltb_spec t x), (Nat.ltb_spec 0 x); cbn [length]; lia. }
  split; [intros E; rewrite E in LX; cbn in LX; lia|]. split; [exact LX|]. split; [exact Hlen|]. split; [exact Hs|]. split; [rewrite (pack_ok z p w Hp), Esz; reflexivity|].
  exists batch, lengths. split; [reflexivity|]. split; [lia|]. split.
  - rewrite Forall_forall. intros n Hn. apply (In_nth _ _ 0) in Hn as (t & Ht & <-). apply (Hle (S t)). cbn in Ls. lia.
  - intros i j s Ei Es. pose proof (rep_row z w p seqs 0 i j s R Hm Ei Es) as Hr. rewrite Esz in Hr. cbn [nth] in Hr. destruct (Nat.lt_ge_cases i batch) as [L|L]; [now left|right].
    assert (E : a_len s = 0) by lia. split; [unfold a_len in E; now destruct (a_rows s)|].
    assert (Hall : Forall (fun n => n <= i) (batch :: lengths)).
    { rewrite Forall_forall. intros n Hn. apply (In_nth _ _ 0) in Hn as (t & Ht & <-). pose proof (Hle t ltac:(lia)). lia. }
    clear -Hall. generalize 0. induction Hall as [|n l Hn _ IH]; intros s; [reflexivity|]. cbn [rows_of]. destruct (Nat.ltb_spec i n); [lia|]. apply IH.
Qed.

Section LayerForward.
  Variables (depth dirs nO nI : nat).
  Hypotheses (Hd : depth <> 0) (Hdi : dirs <> 0) (HO : nO <> 0) (HI : nI <> 0).

  Lemma predict_ok (params : list R) H0 C0 rest rate flips pos p seqs : length params = lstm_size depth dirs nO nI ->
    represents 0%R nI p seqs -> like [nI] seqs -> (exists s, In s seqs /\ 0 < a_len s) ->
    exists ws Yp cb, all_layer_params params depth dirs nO nI = Ok ws /\
      np_lstm_layer depth dirs nO (Some params) (Some (H0 :: C0 :: rest)) rate false flips pos p = Ok (Yp, cb, pos) /\
      represents 0%R (dirs * nO) Yp (each_sequence ws dirs nO C0 H0 seqs) /\ padded2list Yp = Ok (each_sequence ws dirs nO C0 H0 seqs) /\
      p_indices Yp = p_indices p /\ p_lengths Yp = p_lengths p /\ p_size_at_t Yp = p_size_at_t p.
  Proof.
    intros Lp Rp Hl Hex. destruct (batch_ok 0%R nI p seqs Rp Hl Hex) as (Hne & HX & LX & Hlen & Hn1 & Epack & batch & lengths & Esz & Hb & Hle & Hrow).
    set (X := packed (p_size_at_t p) (a3_cells (p_data p))) in *.
    destruct (np_forward_ok depth dirs nO nI params H0 C0 (mkM nI X) batch lengths) as (ws & Y & states & Ew & EY & LY & CY & _ & HY); try assumption; [reflexivity|cbn [m_rows]; rewrite LX, Esz; reflexivity|].
    cbn [m_rows] in LY, HY. exists ws.
    destruct (ragged_mat_ok nI X (p_size_at_t p)) as (Er & Erl & Era); [lia|exact HX|].
    unfold np_lstm_layer, lstm_forward. change (@nZ R num_R 0) with 0%R. rewrite Epack. cbn [bind get_set py_get nth_error]. rewrite Er, Erl, Era. rewrite <- Esz in EY. rewrite EY. cbn [bind fst snd].
    rewrite LY, Nat.eqb_refl. cbn [negb]. rewrite CY. assert (Yne : m_rows Y <> []) by (intros E; rewrite E in LY; destruct X; [congruence|discriminate]).
    rewrite (unpack_ok 0%R p (dirs * nO) (m_rows Y) Hlen Hn1); [|lia|exact Yne|congruence]. cbn [bind fst snd]. eexists _, _. split; [exact Ew|]. split; [reflexivity|].
    assert (Rep : represents 0%R (dirs * nO) (mkPad (mkA3 (a3_n1 (p_data p)) [dirs * nO] (map (fun c => c ++ SeqModel.zero_rows 0%R (a3_n1 (p_data p) - length c) [dirs * nO]) (chop (p_size_at_t p) (m_rows Y)))) (p_size_at_t p) (p_lengths p) (p_indices p)) (each_sequence ws dirs nO C0 H0 seqs)).
    { apply (unpacked_represents 0%R nI (dirs * nO) p seqs); try assumption; [|congruence|].
      - unfold each_sequence. rewrite map_map. apply map_ext. intros s. unfold a_len. cbn [a_rows]. apply network_length.
      - intros i j o Ei Eo. unfold each_sequence in Eo. rewrite nth_error_map in Eo. destruct (nth_error seqs j) as [s|] eqn:Es; [|discriminate Eo]. injection Eo as <-. cbn [a_rows].
        pose proof (packed_rows 0%R nI p seqs i j s Rp Hl Ei Es) as Hs. fold X in Hs. rewrite Esz in Hs |- *. destruct (Hrow i j s Ei Es) as [L|[E1 E2]].
        + rewrite (HY i L). now rewrite Hs.
        + rewrite E1, E2. symmetry. apply length_zero_iff_nil. now rewrite network_length. }
    split; [exact Rep|]. split; [|repeat split]. apply (represents_padded2list 0%R (dirs * nO)); [exact Rep|].
    destruct (join_back depth dirs nO nI params HO HI Hdi Lp) as (ps & ws' & v & _ & Ew' & Sh & _). assert (ws' = ws) as -> by congruence. apply layers_dirs in Sh as [Lw Fw].
    unfold like, each_sequence. rewrite Forall_map, Forall_forall. intros s _. split; [reflexivity|]. unfold wf_nda. cbn [a_tail a_rows shape_size fold_right]. unfold shape_size. cbn [fold_right]. rewrite Nat.mul_1_r.
    apply network_width; [|exact Fw]. intros ->. cbn in Lw. lia.
  Qed.
End LayerForward.
