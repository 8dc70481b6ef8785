From Verif Require Import BaseFacts AdaptSpec SeqProofs PaddedProofs PackProofs.
Set Default Goal Selector "!".

Section Adapt.
  Context {T : Type} (z : T).
  Local Notation sq := (list (list T)).
  Implicit Types (seqs : list sq) (p : padded T) (r : ragged T).

  Definition arrs (w : nat) seqs : list (nda T) := map (mkA [w]) seqs.

  Lemma like_arrs w seqs : Forall (width w) seqs -> like [w] (arrs w seqs).
  Proof.
    unfold like, arrs. intros H. apply Forall_map. eapply Forall_impl; [|exact H]. intros s Hs. split; [reflexivity|].
    unfold wf_nda. cbn [a_rows a_tail]. eapply Forall_impl; [|exact Hs]. intros x ->. cbn. lia.
  Qed.
  Lemma like_arrs_inv w (Xs : list (nda T)) : like [w] Xs -> Xs = arrs w (map a_rows Xs) /\ Forall (width w) (map a_rows Xs).
  Proof.
    unfold like, arrs. intros H. split.
    - rewrite map_map. rewrite <- (map_id Xs) at 1. apply map_ext_in. intros x Hx. rewrite Forall_forall in H. symmetry. apply nda_eta. now apply H.
    - apply Forall_map. eapply Forall_impl; [|exact H]. intros x [E Hx]. unfold wf_nda in Hx. rewrite E in Hx.
      eapply Forall_impl; [|exact Hx]. intros y ->. cbn. lia.
  Qed.
  Lemma arrs_rows w seqs : map a_rows (arrs w seqs) = seqs.
  Proof. unfold arrs. rewrite map_map. apply map_id. Qed.
  Lemma arrs_len w seqs : map a_len (arrs w seqs) = map (@length _) seqs.
  Proof. unfold arrs. rewrite map_map. reflexivity. Qed.

  Lemma sum_concat {A} (ls : list (list A)) : list_sum_nat (map (@length _) ls) = length (concat ls).
  Proof. unfold list_sum_nat. induction ls as [|l ls IH]; cbn; [reflexivity|]. rewrite app_length, <- IH. reflexivity. Qed.

  Lemma some_row_sum seqs : some_row seqs <-> 0 < list_sum_nat (map (@length _) seqs).
  Proof. rewrite sum_concat. unfold some_row. destruct (concat seqs); cbn; split; intros; try lia; try congruence; discriminate. Qed.
  Lemma some_row_ne seqs : some_row seqs -> seqs <> [].
  Proof. intros H ->. now apply H. Qed.

  Lemma flatten_arrs w seqs : 0 < w -> Forall (width w) seqs -> seqs <> [] -> flatten z (arrs w seqs) 0 2 = Ok (mkA [w] (concat seqs)).
  Proof.
    intros Hw H Hne. rewrite (flatten_rows0 z [w]).
    - now rewrite arrs_rows.
    - cbn. lia.
    - now apply like_arrs.
    - destruct seqs; [congruence | discriminate].
  Qed.

  Lemma width_concat w seqs : Forall (width w) seqs -> width w (concat seqs).
  Proof. unfold width. induction 1 as [|s seqs Hs H IH]; cbn; [constructor|]. apply Forall_app. split; assumption. Qed.

  Lemma ragged_of w seqs : 0 < w -> Forall (width w) seqs -> some_row seqs ->
    is_ragged w (VRagged (mk_ragged (mkA [w] (concat seqs)) (map (@length _) seqs))) seqs /\
    mk_ragged (mkA [w] (concat seqs)) (map (@length _) seqs) = mkRag (mkA [w] (concat seqs)) (map (@length _) seqs) [w].
  Proof.
    intros Hw H Hr.
    assert (E : mk_ragged (mkA [w] (concat seqs)) (map (@length _) seqs) = mkRag (mkA [w] (concat seqs)) (map (@length _) seqs) [w]).
    { unfold mk_ragged, a_size, a_len. cbn [a_rows a_tail]. unfold some_row in Hr.
      destruct (Nat.eqb_spec (length (concat seqs) * shape_size [w]) 0) as [E|E].
      - destruct (concat seqs); [congruence | cbn in E; lia].
      - unfold shape_size. cbn. now rewrite Nat.mul_1_r. }
    split; [|exact E]. rewrite E. split; [|eexists; reflexivity].
    assert (Hs : ragged_seqs (mkRag (mkA [w] (concat seqs)) (map (@length _) seqs) [w]) = seqs).
    { unfold ragged_seqs. cbn. rewrite <- (app_nil_r (concat seqs)). apply chop_concat. }
    rewrite <- Hs at 3. constructor; [|reflexivity]. split; [cbn; lia|]. split; [|split].
    - unfold wf_nda. cbn [r_data a_rows a_tail]. eapply Forall_impl; [|apply width_concat; exact H]. intros x ->. cbn. lia.
    - cbn. apply sum_concat.
    - right. split; [exact Hr|]. cbn. now rewrite Nat.mul_1_r.
  Qed.

  Lemma ragged_inv w r seqs : is_ragged w (VRagged r) seqs -> some_row seqs ->
    r = mkRag (mkA [w] (concat seqs)) (map (@length _) seqs) [w] /\ Forall (width w) seqs /\ 0 < w.
  Proof.
    intros [H _] Hr. inversion H as [|r' Hwf Ht E1 E2|]; subst. destruct Hwf as (Hs & Hw & Hsum & Hd).
    destruct r as [[tl rows] lens rt]. cbn [r_tail r_data r_lengths a_tail a_rows a_len ragged_seqs] in *. subst rt.
    unfold ragged_seqs in *. cbn [r_lengths r_data a_rows] in *. unfold some_row in Hr. rewrite concat_chop in Hr |- * by exact Hsum. rewrite chop_lengths by exact Hsum.
    destruct Hd as [[E _]|[_ E]]; [congruence|]. cbn in E. rewrite Nat.mul_1_r in E. subst tl. split; [reflexivity|]. split.
    - pose proof (like_chop (mkA [w] rows) lens Hw) as Hl. cbn [a_tail a_rows] in Hl. apply like_arrs_inv in Hl as [_ Hl].
      rewrite map_map, map_id in Hl. exact Hl.
    - cbn in Hs. lia.
  Qed.

  Lemma unflatten_ragged w seqs : Forall (width w) seqs ->
    unflatten (mkA [w] (concat seqs)) (map (@length _) seqs) 0 = arrs w seqs.
  Proof.
    intros H. rewrite unflatten_chop. cbn [a_tail a_rows]. unfold arrs. f_equal. rewrite <- (app_nil_r (concat seqs)). apply chop_concat.
  Qed.

  (** *** Padded *)
  Lemma pads_width w p seqs : pads w p seqs -> Forall (width w) seqs.
  Proof.
    intros P. destruct P. apply Forall_forall. intros s Hs. apply In_nth_error in Hs as [j Ej].
    assert (Hj : j < length seqs) by now apply nth_error_lt_some in Ej.
    destruct (perm_seq_nth _ _ j pf_perm Hj) as [i Ei]. apply Forall_forall. intros x Hx. apply In_nth with (d := []) in Hx as (t & Ht & <-).
    pose proof (nth_error_nth_some _ _ _ [] Ej) as En. rewrite <- En at 1. rewrite <- (pf_data i j t Ei) by (now rewrite En).
    rewrite Forall_forall in pf_cells, pf_max. pose proof (pf_max s (nth_error_In _ _ Ej)) as Hm.
    assert (Hin : In (nth t (a3_cells (p_data p)) []) (a3_cells (p_data p))) by (apply nth_In; lia).
    destruct (pf_cells _ Hin) as [Hl Hw]. unfold width in Hw. rewrite Forall_forall in Hw. apply Hw. apply nth_In. rewrite Hl.
    apply nth_error_lt_some in Ei. rewrite (Permutation_length pf_perm), seq_length in Ei. exact Ei.
  Qed.

  Lemma pads_list w p seqs : pads w p seqs -> padded2list p = Ok (arrs w seqs).
  Proof.
    intros P. destruct P. assert (Hil : length (p_indices p) = length seqs) by (rewrite (Permutation_length pf_perm); apply seq_length).
    destruct (padded2list_ok p (length seqs) pf_n1 pf_perm) as (out & E & L & Q); [rewrite pf_lens, map_length; exact Hil|].
    rewrite E. f_equal. apply nth_error_ext. intros j. destruct (Nat.lt_ge_cases j (length seqs)) as [Hj|Hj].
    - destruct (perm_seq_nth _ _ j pf_perm Hj) as [k Hk]. rewrite (Q k j Hk). unfold arrs.
      rewrite (map_nth_error (mkA [w]) _ _ (nth_error_nth' seqs [] Hj)). rewrite pf_tail. do 2 f_equal.
      rewrite pf_lens. rewrite (nth_error_nth_some _ _ _ 0 (map_nth_error (fun j => length (nth j seqs [])) _ _ Hk)).
      rewrite Forall_forall in pf_max. pose proof (pf_max _ (nth_In seqs [] Hj)) as Hm.
      apply nth_error_ext. intros t. destruct (Nat.lt_ge_cases t (length (nth j seqs []))) as [Ht|Ht].
      + rewrite nth_error_firstn by exact Ht. assert (Hc : t < length (a3_cells (p_data p))) by lia.
        rewrite (map_nth_error (fun c => nth k c []) t _ (nth_error_nth' _ [] Hc)).
        rewrite (pf_data k j t Hk Ht). symmetry. now apply nth_error_nth'.
      + rewrite (proj2 (nth_error_None _ _)) by (rewrite firstn_length, map_length; lia). symmetry. now apply nth_error_None.
    - rewrite (proj2 (nth_error_None out j)) by lia. symmetry. apply nth_error_None. unfold arrs. rewrite map_length. lia.
  Qed.

  Definition order (lens : list nat) : list nat :=
    match lens with
    | [] => [] | [_] => [0]
    | _ => map snd (sort_desc (combine lens (seq 0 (length lens))))
    end.

  Lemma list2padded_order (Xs : list (nda T)) p : list2padded z Xs = Ok p -> p_indices p = order (map a_len Xs).
  Proof.
    unfold list2padded. destruct Xs as [|s0 [|s1 ss]].
    - intros E. injection E as <-. reflexivity.
    - destruct (a_tail s0) as [|w [|]]; try discriminate. intros E. injection E as <-. reflexivity.
    - set (Xs := s0 :: s1 :: ss). destruct (a_tail s0); [discriminate|]. destruct (mapM _ _); [|discriminate]. cbn [bind]. destruct (pad_seqs _ _ _); [|discriminate]. cbn [bind].
      destruct (negb _); [discriminate|]. destruct (negb _); [discriminate|]. intros E. injection E as <-. cbn [p_indices]. unfold order, Xs. cbn [map length]. now rewrite map_length.
  Qed.

  Lemma seqs_of_max w seqs : max_len (arrs w seqs) = fold_right Nat.max 0 (map (@length _) seqs).
  Proof. unfold max_len. now rewrite arrs_len. Qed.

  Lemma pads_of w seqs : Forall (width w) seqs -> seqs <> [] ->
    exists p, list2padded z (arrs w seqs) = Ok p /\ pads w p seqs /\ zero_filled z w p seqs /\ p_indices p = order (map (@length _) seqs) /\
      length (a3_cells (p_data p)) = fold_right Nat.max 0 (map (@length _) seqs).
  Proof.
    intros Hw Hne. pose proof (like_arrs w seqs Hw) as Hl. destruct (list2padded_ok z w (arrs w seqs) Hl) as (p & E & R).
    exists p. split; [exact E|]. assert (Hne' : arrs w seqs <> []) by (destruct seqs; [congruence | discriminate]).
    destruct (represents_packable z w p _ R Hl Hne') as [(_ & _ & _ & Hc & _) _].
    pose proof (list2padded_order _ _ E) as Ho. rewrite arrs_len in Ho.
    destruct R. assert (Hlen : length (arrs w seqs) = length seqs) by (unfold arrs; apply map_length). rewrite Hlen in *.
    assert (Hnth : forall j, j < length seqs -> nth_error (arrs w seqs) j = Some (mkA [w] (nth j seqs []))).
    { intros j Hj. unfold arrs. apply map_nth_error. now apply nth_error_nth'. }
    assert (Hcell : forall i j t, nth_error (p_indices p) i = Some j -> t < length (a3_cells (p_data p)) ->
      nth i (nth t (a3_cells (p_data p)) []) [] = nth t (nth j seqs []) (zero_row z [w])).
    { intros i j t Ei Ht. pose proof (perm_seq_bound _ _ _ _ rep_perm Ei) as Hj. rewrite rep_cells in Ht. now rewrite (rep_data t i j _ Ht Ei (Hnth j Hj)). }
    assert (Hmax : Forall (fun s => length s <= length (a3_cells (p_data p))) seqs).
    { rewrite rep_cells, seqs_of_max. apply Forall_forall. intros s Hs. clear -Hs.
      induction seqs as [|x l IH]; [contradiction|]. cbn. destruct Hs as [->|Hs]; [lia|]. specialize (IH Hs). lia. }
    split.
    { constructor.
      - now apply rep_tail.
      - exact rep_n1.
      - exact rep_perm.
      - apply nth_error_ext. intros i. destruct (nth_error (p_indices p) i) as [j|] eqn:Ei.
        + pose proof (perm_seq_bound _ _ _ _ rep_perm Ei) as Hj. rewrite (rep_len i j _ Ei (Hnth j Hj)).
          now rewrite (map_nth_error (fun j => length (nth j seqs [])) _ _ Ei).
        + apply nth_error_None in Ei. assert (length seqs <= i) by (rewrite (Permutation_length rep_perm), seq_length in Ei; exact Ei).
          rewrite (proj2 (nth_error_None (p_lengths p) i)) by lia. symmetry. apply nth_error_None. now rewrite map_length.
      - exact Hmax.
      - rewrite rep_n1 in Hc. exact Hc.
      - intros i j t Ei Ht. pose proof (perm_seq_bound _ _ _ _ rep_perm Ei) as Hj. rewrite Forall_forall in Hmax. pose proof (Hmax _ (nth_In seqs [] Hj)) as Hm.
        rewrite (Hcell i j t Ei) by lia. now apply nth_indep. }
    split; [|split; [exact Ho | now rewrite rep_cells, seqs_of_max]].
    intros i j t Ei [H1 H2]. rewrite (Hcell i j t Ei H2). now apply nth_overflow.
  Qed.

  (** *** Functions on sequences *)
  Section Fun.
    Context {wi wo : nat} (F : seqfun T wi wo) (Hwi : 0 < wi) (Hwo : 0 < wo).

    Lemma out_width seqs : Forall (width wi) seqs -> Forall (width wo) (map (sf F) seqs).
    Proof. intros H. apply Forall_map. eapply Forall_impl; [|exact H]. intros s Hs. now apply (sf_ok F). Qed.
    Lemma out_lens seqs : Forall (width wi) seqs -> map (@length _) (map (sf F) seqs) = map (@length _) seqs.
    Proof. intros H. rewrite map_map. apply map_ext_in. intros s Hs. rewrite Forall_forall in H. now apply (sf_ok F), H. Qed.

    Definition back seqs dseqs : list sq := map (fun q => sf_back F (fst q) (snd q)) (combine seqs dseqs).
    Lemma back_ok seqs : forall dseqs, Forall (width wi) seqs -> Forall (width wo) dseqs -> map (@length _) dseqs = map (@length _) seqs ->
      Forall (width wi) (back seqs dseqs) /\ map (@length _) (back seqs dseqs) = map (@length _) seqs.
    Proof.
      induction seqs as [|s seqs IH]; intros [|d dseqs] Hs Hd El; try discriminate; [split; [constructor | reflexivity]|].
      inversion Hs; subst. inversion Hd; subst. cbn in El. injection El as E1 E2. unfold back. cbn [combine map fst snd].
      destruct (IH dseqs) as [I1 I2]; try assumption. destruct (sf_back_ok F s d) as [J1 J2]; try assumption.
      split; [constructor; assumption | cbn; f_equal; assumption].
    Qed.

    Lemma some_row_len seqs seqs' : map (@length _) seqs' = map (@length _) seqs -> some_row seqs -> some_row seqs'.
    Proof. intros E. rewrite !some_row_sum. now rewrite E. Qed.

    Lemma list_inv w (x : seqval T) seqs : is_list w x seqs -> x = VList (arrs w seqs) /\ Forall (width w) seqs.
    Proof.
      intros [H [Xs ->]]. inversion H as [Xs' Hl| |]; subst. apply like_arrs_inv in Hl as [E Hl]. split; [now rewrite <- E | exact Hl].
    Qed.
    Lemma list_of w seqs : Forall (width w) seqs -> is_list w (VList (arrs w seqs)) seqs.
    Proof. intros H. split; [|eexists; reflexivity]. rewrite <- (arrs_rows w seqs) at 2. constructor. now apply like_arrs. Qed.

    (** with_list *)
    Lemma with_list_list K' ok (L : slayer T) : applies is_list K' ok L F -> applies is_list K' ok (with_list z L) F.
    Proof. intros H x seqs Hx. destruct (list_inv _ _ _ Hx) as [-> _]. cbn. now apply H. Qed.

    Lemma with_list_ragged (L : slayer T) : applies is_list is_list some_row L F -> applies is_ragged is_ragged some_row (with_list z L) F.
    Proof.
      intros H x seqs Hx Hr. pose proof Hx as [_ [r ->]]. destruct (ragged_inv _ _ _ Hx Hr) as (-> & Hw & _). cbn [with_list].
      destruct (H (VList (arrs wi seqs)) seqs (list_of _ _ Hw) Hr) as (y & b & E & Hy & Hb).
      unfold wl_ragged. cbn [r_data r_lengths]. rewrite unflatten_ragged by exact Hw. rewrite E. cbn [bind fst snd].
      destruct (list_inv _ _ _ Hy) as [-> Hwy]. cbn [as_list bind].
      assert (Hry : some_row (map (sf F) seqs)) by (apply (some_row_len seqs); [now apply out_lens | exact Hr]).
      rewrite (flatten_arrs wo) by (try assumption; now apply some_row_ne). cbn [bind].
      eexists. eexists. split; [reflexivity|]. split; [rewrite <- (out_lens seqs Hw); now apply ragged_of|].
      intros dy dseqs Hdy Hal Hl. pose proof Hdy as [_ [dr ->]].
      assert (Hrd : some_row dseqs) by (apply (some_row_len seqs); assumption).
      destruct (ragged_inv _ _ _ Hdy Hrd) as (-> & Hwd & _). cbn [as_ragged bind r_data r_lengths]. rewrite unflatten_ragged by exact Hwd.
      destruct (Hb (VList (arrs wo dseqs)) dseqs (list_of _ _ Hwd) I Hl) as (dx & Ex & Hdx). rewrite Ex. cbn [bind].
      destruct (list_inv _ _ _ Hdx) as [-> Hwx]. cbn [as_list bind].
      destruct (back_ok seqs dseqs Hw Hwd Hl) as [B1 B2]. unfold back in B1, B2.
      assert (Hrx : some_row (map (fun q => sf_back F (fst q) (snd q)) (combine seqs dseqs))) by (apply (some_row_len seqs); [exact B2 | exact Hr]).
      rewrite (flatten_arrs wi) by (try assumption; now apply some_row_ne). cbn [bind]. eexists. split; [reflexivity|].
      rewrite Hl, <- B2. now apply ragged_of.
    Qed.

    Lemma padded_inv w p seqs : is_padded w (VPadded p) seqs -> pads w p seqs.
    Proof. intros [H _]. inversion H; subst. assumption. Qed.

    Lemma clean_padded w (x : seqval T) seqs : is_clean z w x seqs -> is_padded w x seqs.
    Proof. intros (p & -> & P & _). split; [now constructor | eexists; reflexivity]. Qed.

    Lemma with_list_padded (L : slayer T) : applies is_list is_list some_row L F -> applies is_padded (is_clean z) some_row (with_list z L) F.
    Proof.
      intros H x seqs Hx Hr. pose proof Hx as [_ [p ->]]. pose proof (padded_inv _ _ _ Hx) as P. pose proof (pads_width _ _ _ P) as Hw.
      cbn [with_list]. unfold wl_padded. rewrite (pads_list _ _ _ P). cbn [bind].
      destruct (H (VList (arrs wi seqs)) seqs (list_of _ _ Hw) Hr) as (y & b & E & Hy & Hb). rewrite E. cbn [bind fst snd].
      destruct (list_inv _ _ _ Hy) as [-> Hwy]. cbn [as_list bind].
      destruct (pads_of wo (map (sf F) seqs) Hwy) as (q & Eq & Q1 & Q2 & _).
      { apply some_row_ne, (some_row_len seqs); [now apply out_lens | exact Hr]. }
      rewrite Eq. cbn [bind]. eexists. eexists. split; [reflexivity|]. split; [exists q; auto|].
      intros dy dseqs Hdy Hal Hl. pose proof Hdy as [_ [dp ->]]. pose proof (padded_inv _ _ _ Hdy) as Pd. pose proof (pads_width _ _ _ Pd) as Hwd.
      cbn [as_padded bind]. rewrite (pads_list _ _ _ Pd). cbn [bind].
      destruct (Hb (VList (arrs wo dseqs)) dseqs (list_of _ _ Hwd) I Hl) as (dx & Ex & Hdx). rewrite Ex. cbn [bind].
      destruct (list_inv _ _ _ Hdx) as [-> Hwx]. cbn [as_list bind].
      destruct (back_ok seqs dseqs Hw Hwd Hl) as [B1 B2]. unfold back in B1, B2.
      destruct (pads_of wi _ B1) as (q' & Eq' & R1 & R2 & _).
      { apply some_row_ne, (some_row_len seqs); [exact B2 | exact Hr]. }
      rewrite Eq'. cbn [bind]. eexists. split; [reflexivity|]. exists q'; auto.
    Qed.

    (** with_padded *)
    Lemma with_padded_list (L : slayer T) : applies (is_clean z) is_padded some_row L F -> applies is_list is_list some_row (with_padded z L) F.
    Proof.
      intros H x seqs Hx Hr. destruct (list_inv _ _ _ Hx) as [-> Hw]. cbn [with_padded]. unfold wp_list.
      destruct (pads_of wi seqs Hw (some_row_ne _ Hr)) as (p & Ep & P1 & P2 & P3 & P4). rewrite Ep. cbn [bind].
      destruct (H (VPadded p) seqs (ex_intro _ p (conj eq_refl (conj P1 P2))) Hr) as (y & b & E & Hy & Hb). rewrite E. cbn [bind fst snd].
      pose proof Hy as [_ [q ->]]. pose proof (padded_inv _ _ _ Hy) as Q. cbn [as_padded bind]. rewrite (pads_list _ _ _ Q). cbn [bind].
      eexists. eexists. split; [reflexivity|]. split; [apply list_of; now apply pads_width with q|].
      intros dy dseqs Hdy Hal Hl. destruct (list_inv _ _ _ Hdy) as [-> Hwd]. cbn [as_list bind].
      destruct (pads_of wo dseqs Hwd) as (dp & Edp & D1 & D2 & D3 & D4); [apply some_row_ne, (some_row_len seqs); assumption|]. rewrite Edp. cbn [bind].
      destruct (Hb (VPadded dp) dseqs (ex_intro _ dp (conj eq_refl (conj D1 D2)))) as (dx & Ex & Hdx).
      - cbn. rewrite P3, D3, P4, D4, Hl. auto.
      - exact Hl.
      - rewrite Ex. cbn [bind]. pose proof Hdx as [_ [dq ->]]. pose proof (padded_inv _ _ _ Hdx) as DQ. cbn [as_padded bind]. rewrite (pads_list _ _ _ DQ). cbn [bind].
        eexists. split; [reflexivity|]. apply list_of. now apply pads_width with dq.
    Qed.

    Lemma with_padded_ragged (L : slayer T) : applies (is_clean z) is_padded some_row L F -> applies is_ragged is_ragged some_row (with_padded z L) F.
    Proof.
      intros H x seqs Hx Hr. pose proof Hx as [_ [r ->]]. destruct (ragged_inv _ _ _ Hx Hr) as (-> & Hw & _). cbn [with_padded]. unfold wp_ragged. cbn [r_data r_lengths].
      rewrite unflatten_ragged by exact Hw.
      destruct (pads_of wi seqs Hw (some_row_ne _ Hr)) as (p & Ep & P1 & P2 & P3 & P4). rewrite Ep. cbn [bind].
      destruct (H (VPadded p) seqs (ex_intro _ p (conj eq_refl (conj P1 P2))) Hr) as (y & b & E & Hy & Hb). rewrite E. cbn [bind fst snd].
      pose proof Hy as [_ [q ->]]. pose proof (padded_inv _ _ _ Hy) as Q. cbn [as_padded bind]. rewrite (pads_list _ _ _ Q). cbn [bind].
      assert (Hry : some_row (map (sf F) seqs)) by (apply (some_row_len seqs); [now apply out_lens | exact Hr]).
      pose proof (pads_width _ _ _ Q) as Hwy. rewrite (flatten_arrs wo) by (try assumption; now apply some_row_ne). cbn [bind].
      eexists. eexists. split; [reflexivity|]. split; [rewrite <- (out_lens seqs Hw); now apply ragged_of|].
      intros dy dseqs Hdy Hal Hl. pose proof Hdy as [_ [dr ->]].
      assert (Hrd : some_row dseqs) by (apply (some_row_len seqs); assumption).
      destruct (ragged_inv _ _ _ Hdy Hrd) as (-> & Hwd & _). cbn [as_ragged bind r_data r_lengths]. rewrite unflatten_ragged by exact Hwd.
      destruct (pads_of wo dseqs Hwd (some_row_ne _ Hrd)) as (dp & Edp & D1 & D2 & D3 & D4). rewrite Edp. cbn [bind].
      destruct (Hb (VPadded dp) dseqs (ex_intro _ dp (conj eq_refl (conj D1 D2)))) as (dx & Ex & Hdx).
      - cbn. rewrite P3, D3, P4, D4, Hl. auto.
      - exact Hl.
      - rewrite Ex. cbn [bind]. pose proof Hdx as [_ [dq ->]]. pose proof (padded_inv _ _ _ Hdx) as DQ. cbn [as_padded bind]. rewrite (pads_list _ _ _ DQ). cbn [bind].
        destruct (back_ok seqs dseqs Hw Hwd Hl) as [B1 B2]. unfold back in B1, B2.
        assert (Hrx : some_row (map (fun q => sf_back F (fst q) (snd q)) (combine seqs dseqs))) by (apply (some_row_len seqs); [exact B2 | exact Hr]).
        rewrite (flatten_arrs wi) by (try assumption; now apply some_row_ne). cbn [bind]. eexists. split; [reflexivity|].
        rewrite Hl, <- B2. now apply ragged_of.
    Qed.

    (** with_ragged *)
    Lemma with_ragged_list (L : slayer T) : applies is_ragged is_ragged some_row L F -> applies is_list is_list some_row (with_ragged z L) F.
    Proof.
      intros H x seqs Hx Hr. destruct (list_inv _ _ _ Hx) as [-> Hw]. cbn [with_ragged]. unfold wr_list.
      rewrite (flatten_arrs wi) by (try assumption; now apply some_row_ne). cbn [bind]. rewrite arrs_len.
      destruct (H _ seqs (proj1 (ragged_of wi seqs Hwi Hw Hr)) Hr) as (y & b & E & Hy & Hb). rewrite E. cbn [bind fst snd].
      assert (Hry : some_row (map (sf F) seqs)) by (apply (some_row_len seqs); [now apply out_lens | exact Hr]).
      pose proof Hy as [_ [q ->]]. destruct (ragged_inv _ _ _ Hy Hry) as (-> & Hwy & _). cbn [as_ragged bind r_data r_lengths].
      rewrite unflatten_ragged by exact Hwy. eexists. eexists. split; [reflexivity|]. split; [now apply list_of|].
      intros dy dseqs Hdy Hal Hl. destruct (list_inv _ _ _ Hdy) as [-> Hwd]. cbn [as_list bind].
      assert (Hrd : some_row dseqs) by (apply (some_row_len seqs); assumption).
      rewrite (flatten_arrs wo) by (try assumption; now apply some_row_ne). cbn [bind]. rewrite <- Hl.
      destruct (Hb _ dseqs (proj1 (ragged_of wo dseqs Hwo Hwd Hrd)) I Hl) as (dx & Ex & Hdx). rewrite Ex. cbn [bind].
      destruct (back_ok seqs dseqs Hw Hwd Hl) as [B1 B2]. unfold back in B1, B2.
      assert (Hrx : some_row (map (fun q => sf_back F (fst q) (snd q)) (combine seqs dseqs))) by (apply (some_row_len seqs); [exact B2 | exact Hr]).
      pose proof Hdx as [_ [dq ->]]. destruct (ragged_inv _ _ _ Hdx Hrx) as (-> & Hwx & _). cbn [as_ragged bind r_data r_lengths].
      rewrite Hl, <- B2, unflatten_ragged by exact Hwx. eexists. split; [reflexivity|]. now apply list_of.
    Qed.

    Lemma with_ragged_padded (L : slayer T) : applies is_ragged is_ragged some_row L F -> applies is_padded (is_clean z) some_row (with_ragged z L) F.
    Proof.
      intros H x seqs Hx Hr. pose proof Hx as [_ [p ->]]. pose proof (padded_inv _ _ _ Hx) as P. pose proof (pads_width _ _ _ P) as Hw.
      cbn [with_ragged]. unfold wr_padded. rewrite (pads_list _ _ _ P). cbn [bind].
      rewrite (flatten_arrs wi) by (try assumption; now apply some_row_ne). cbn [bind]. rewrite arrs_len.
      destruct (H _ seqs (proj1 (ragged_of wi seqs Hwi Hw Hr)) Hr) as (y & b & E & Hy & Hb). rewrite E. cbn [bind fst snd].
      assert (Hry : some_row (map (sf F) seqs)) by (apply (some_row_len seqs); [now apply out_lens | exact Hr]).
      pose proof Hy as [_ [q ->]]. destruct (ragged_inv _ _ _ Hy Hry) as (-> & Hwy & _). cbn [as_ragged bind r_data r_lengths].
      rewrite unflatten_ragged by exact Hwy. destruct (pads_of wo (map (sf F) seqs) Hwy (some_row_ne _ Hry)) as (q & Eq & Q1 & Q2 & _). rewrite Eq. cbn [bind].
      eexists. eexists. split; [reflexivity|]. split; [exists q; auto|].
      intros dy dseqs Hdy Hal Hl. pose proof Hdy as [_ [dp ->]]. pose proof (padded_inv _ _ _ Hdy) as Pd. pose proof (pads_width _ _ _ Pd) as Hwd.
      cbn [as_padded bind]. rewrite (pads_list _ _ _ Pd). cbn [bind].
      assert (Hrd : some_row dseqs) by (apply (some_row_len seqs); assumption).
      rewrite (flatten_arrs wo) by (try assumption; now apply some_row_ne). cbn [bind]. rewrite <- Hl.
      destruct (Hb _ dseqs (proj1 (ragged_of wo dseqs Hwo Hwd Hrd)) I Hl) as (dx & Ex & Hdx). rewrite Ex. cbn [bind].
      destruct (back_ok seqs dseqs Hw Hwd Hl) as [B1 B2]. unfold back in B1, B2.
      assert (Hrx : some_row (map (fun q => sf_back F (fst q) (snd q)) (combine seqs dseqs))) by (apply (some_row_len seqs); [exact B2 | exact Hr]).
      pose proof Hdx as [_ [dq ->]]. destruct (ragged_inv _ _ _ Hdx Hrx) as (-> & Hwx & _). cbn [as_ragged bind r_data r_lengths].
      rewrite Hl, <- B2, unflatten_ragged by exact Hwx. destruct (pads_of wi _ B1 (some_row_ne _ Hrx)) as (q' & Eq' & R1 & R2 & _). rewrite Eq'. cbn [bind].
      eexists. split; [reflexivity|]. exists q'; auto.
    Qed.
  End Fun.
End Adapt.
