From Verif Require Import BaseFacts AdaptSpec SeqProofs PaddedProofs PackProofs AdaptProofs.
Set Default Goal Selector "!".

Section Local.
  Context {A B : Type} (k : nat) (d : A) (f : list A -> B).

  Lemma map_seq_add {C} (h : nat -> C) a n : forall i, map h (seq (a + i) n) = map (fun j => h (a + j)) (seq i n).
  Proof.
    induction n as [|n IH]; intros i; [reflexivity|]. cbn [seq map]. f_equal. rewrite <- IH. f_equal. f_equal. lia.
  Qed.

  Lemma window_inner (P Q s : list A) i : i < length s ->
    window k d (P ++ repeat d k ++ s ++ repeat d k ++ Q) (length P + k + i) = window k d s i.
  Proof.
    intros Hi. unfold window. rewrite map_seq_add. apply map_ext_in. intros j Hj. apply in_seq in Hj.
    replace (repeat d k ++ (P ++ repeat d k ++ s ++ repeat d k ++ Q) ++ repeat d k)
      with ((repeat d k ++ P) ++ (repeat d k ++ s ++ repeat d k) ++ (Q ++ repeat d k)) by (rewrite <- !app_assoc; reflexivity).
    rewrite app_nth2 by (rewrite app_length, repeat_length; lia). rewrite app_length, repeat_length.
    replace (length P + k + j - (k + length P)) with j by lia.
    apply app_nth1. rewrite !app_length, !repeat_length. lia.
  Qed.

  Definition piece (pad : nat) (s : list A) : list A := if 0 <? length s then repeat d pad ++ s else [].
  Definition flat (pad : nat) (seqs : list (list A)) : list A :=
    concat (map (piece pad) seqs) ++ (if 0 <? length (concat seqs) then repeat d pad else []).

  Lemma follow pad rest : exists Q, concat (map (piece pad) rest) ++ repeat d pad = repeat d pad ++ Q.
  Proof.
    induction rest as [|s rest [Q IH]]; cbn [map concat].
    - exists []. now rewrite app_nil_r.
    - unfold piece at 1. destruct (0 <? length s); [|now exists Q]. rewrite <- !app_assoc. eexists. reflexivity.
  Qed.

  Lemma firstn_map_seq {C} (h : nat -> C) n : forall a m, n <= m -> firstn n (map h (seq a m)) = map h (seq a n).
  Proof.
    induction n as [|n IH]; intros a [|m] H; try reflexivity; [lia|]. cbn [seq map firstn]. f_equal. apply IH. lia.
  Qed.
  Lemma skipn_map_seq {C} (h : nat -> C) n : forall a m, skipn n (map h (seq a m)) = map h (seq (a + n) (m - n)).
  Proof.
    induction n as [|n IH]; intros a [|m]; cbn [seq map skipn Nat.sub]; try reflexivity.
    - now rewrite Nat.add_0_r.
    - rewrite IH. do 2 f_equal. lia.
  Qed.

  Lemma local_length (l : list A) : length (local k d f l) = length l.
  Proof. unfold local. now rewrite map_length, seq_length. Qed.

  Lemma local_flat pad seqs : k <= pad ->
    map (skipn pad) (chop (plens pad (map (@length _) seqs)) (local k d f (flat pad seqs))) = map (local k d f) seqs.
  Proof.
    intros Hk. set (W := flat pad seqs). set (h := fun i => f (window k d W i)).
    assert (G : forall suf pre tl, W = pre ++ concat (map (piece pad) suf) ++ tl -> (concat suf <> [] -> tl = repeat d pad) ->
      map (skipn pad) (chop (plens pad (map (@length _) suf)) (map h (seq (length pre) (length W - length pre)))) = map (local k d f) suf).
    { induction suf as [|s suf IH]; intros pre tl EW Htl; [reflexivity|]. cbn [map plens]. unfold plens. cbn [map]. fold (plens pad (map (@length _) suf)).
      cbn [chop map]. cbn [map concat] in EW. destruct (Nat.ltb_spec 0 (length s)) as [Hs|Hs].
      - assert (Ep : piece pad s = repeat d pad ++ s) by (unfold piece; destruct (Nat.ltb_spec 0 (length s)); [reflexivity | lia]).
        rewrite Ep in EW. assert (Hl : length pre + (length s + pad) <= length W) by (rewrite EW, !app_length, repeat_length; lia).
        f_equal.
        + rewrite firstn_map_seq by lia. rewrite skipn_map_seq. replace (length s + pad - pad) with (length s) by lia.
          unfold local. replace (length pre + pad) with ((length pre + pad) + 0) by lia. rewrite map_seq_add. apply map_ext_in. intros i Hi. apply in_seq in Hi.
          unfold h. f_equal. rewrite EW.
          assert (Ht : tl = repeat d pad) by (apply Htl; cbn; destruct s; [cbn in Hs; lia | discriminate]). subst tl.
          destruct (follow pad suf) as [Q HQ]. rewrite <- app_assoc. cbn [app]. rewrite <- !app_assoc. rewrite HQ.
          replace (repeat d pad) with (repeat d (pad - k) ++ repeat d k) at 1 by (rewrite <- repeat_app; f_equal; lia).
          replace (repeat d pad ++ Q) with (repeat d k ++ (repeat d (pad - k) ++ Q)) by (rewrite app_assoc, <- repeat_app; do 2 f_equal; lia).
          rewrite <- (window_inner (pre ++ repeat d (pad - k)) (repeat d (pad - k) ++ Q) s i) by lia.
          rewrite !app_length, !repeat_length. rewrite <- !app_assoc. f_equal. lia.
        + rewrite skipn_map_seq. specialize (IH (pre ++ repeat d pad ++ s) tl). rewrite !app_length, !repeat_length in IH.
          replace (length pre + (length s + pad)) with (length pre + (pad + length s)) by lia.
          replace (length W - length pre - (length s + pad)) with (length W - (length pre + (pad + length s))) by lia. apply IH.
          * rewrite EW. rewrite <- !app_assoc. reflexivity.
          * intros Hne. apply Htl. cbn. destruct s; [cbn in Hs; lia | discriminate].
      - assert (Es : s = []) by (destruct s; [reflexivity | cbn in Hs; lia]). subst s. cbn [firstn skipn piece length Nat.ltb Nat.leb app] in *.
        rewrite skipn_nil. cbn [local length seq map]. f_equal. apply (IH pre tl EW). exact Htl. }
    specialize (G seqs [] (if 0 <? length (concat seqs) then repeat d pad else []) eq_refl). cbn [length] in G. rewrite Nat.sub_0_r in G. apply G.
    intros Hne. destruct (concat seqs); [congruence | reflexivity].
  Qed.

End Local.

Lemma local0 {A B} (d : A) (f : list A -> B) l : local 0 d f l = map (fun x => f [x]) l.
Proof.
  unfold local, window. cbn [repeat app Nat.mul Nat.add seq map]. apply nth_error_ext. intros i.
  destruct (Nat.lt_ge_cases i (length l)) as [Hi|Hi].
  - rewrite map_seq_nth_error by exact Hi. rewrite (map_nth_error _ _ _ (nth_error_nth' l d Hi)). now rewrite app_nil_r.
  - rewrite !(proj2 (nth_error_None _ _)); [reflexivity | now rewrite map_length | now rewrite map_length, seq_length].
Qed.

Lemma combine_app {A B} (l1 : list A) : forall (m1 : list B) l2 m2, length l1 = length m1 -> combine (l1 ++ l2) (m1 ++ m2) = combine l1 m1 ++ combine l2 m2.
Proof. induction l1 as [|x l1 IH]; intros [|y m1] l2 m2 E; try discriminate; [reflexivity|]. cbn. now rewrite IH by (cbn in E; lia). Qed.
Lemma combine_repeat {A B} (x : A) (y : B) n : combine (repeat x n) (repeat y n) = repeat (x, y) n.
Proof. induction n as [|n IH]; cbn; [reflexivity | now rewrite IH]. Qed.

Definition zips {A B} (seqs : list (list A)) (dseqs : list (list B)) : list (list (A * B)) :=
  map (fun q => combine (fst q) (snd q)) (combine seqs dseqs).

Lemma combine_concat {A B} (seqs : list (list A)) : forall dseqs : list (list B), map (@length _) dseqs = map (@length _) seqs ->
  combine (concat seqs) (concat dseqs) = concat (zips seqs dseqs).
Proof.
  unfold zips. induction seqs as [|s seqs IH]; intros [|t dseqs] E; try discriminate; [reflexivity|].
  cbn in E. injection E as E1 E2. cbn [concat combine map fst snd]. rewrite combine_app by congruence. now rewrite IH.
Qed.

Lemma combine_flat {A B} (d : A) (e : B) pad (seqs : list (list A)) (dseqs : list (list B)) :
  map (@length _) dseqs = map (@length _) seqs ->
  combine (flat d pad seqs) (flat e pad dseqs) = flat (d, e) pad (zips seqs dseqs).
Proof.
  intros E. unfold flat. rewrite combine_app.
  - rewrite <- (combine_concat seqs dseqs E), combine_length. rewrite <- (sum_concat dseqs), E, sum_concat, Nat.min_id. f_equal.
    + clear -E. revert dseqs E. unfold zips. induction seqs as [|s seqs IH]; intros [|t dseqs] E; try discriminate; [reflexivity|].
      cbn in E. injection E as E1 E2. cbn [map concat combine fst snd]. rewrite combine_app.
      * rewrite IH by exact E2. f_equal. unfold piece. rewrite combine_length, E1, Nat.min_id. destruct (0 <? length s); [|reflexivity].
        rewrite combine_app by now rewrite !repeat_length. now rewrite combine_repeat.
      * unfold piece. rewrite E1. destruct (0 <? length s); [|reflexivity]. rewrite !app_length, !repeat_length. lia.
    + destruct (0 <? length (concat seqs)); [apply combine_repeat | reflexivity].
  - clear -E. revert dseqs E. induction seqs as [|s seqs IH]; intros [|t dseqs] E; try discriminate; [reflexivity|].
    cbn in E. injection E as E1 E2. cbn [map concat]. rewrite !app_length, (IH dseqs E2). f_equal.
    unfold piece. rewrite E1. destruct (0 <? length s); [|reflexivity]. rewrite !app_length, !repeat_length. lia.
Qed.

Section WithArray.
  Context {T : Type} (z : T).
  Local Notation sq := (list (list T)).
  Implicit Types (seqs : list sq) (p : padded T) (r : ragged T).

  Lemma flatten_flat w seqs pad : 0 < w -> Forall (width w) seqs -> seqs <> [] ->
    flatten z (arrs w seqs) pad 2 = Ok (mkA [w] (flat (zero_row z [w]) pad seqs)).
  Proof.
    intros Hw H Hne. rewrite (flatten_eq z [w]).
    - do 2 f_equal. destruct (nonempty (arrs w seqs)) eqn:En.
      + apply nonempty_nil_rows in En. unfold flat. assert (E : Forall (fun s => s = []) seqs).
        { unfold arrs in En. rewrite Forall_map in En. exact En. }
        clear -E. assert (Hc : concat seqs = []) by (induction E as [|s l -> E IH]; [reflexivity | exact IH]). rewrite Hc. cbn [length Nat.ltb Nat.leb].
        rewrite app_nil_r. induction E as [|s l -> E IH]; [reflexivity|]. cbn in *. now apply IH.
      + rewrite <- En. rewrite (filter_concat_rows z [w]) by now apply like_arrs. unfold flat. f_equal.
        * unfold arrs. rewrite map_map. reflexivity.
        * assert (Hc : 0 < length (concat seqs)); [|destruct (Nat.ltb_spec 0 (length (concat seqs))); [reflexivity | lia]].
          assert (Hin : In n (nonempty (arrs w seqs))) by (rewrite En; now left). unfold nonempty in Hin. apply filter_In in Hin as [Hin Hn].
          unfold arrs in Hin. apply in_map_iff in Hin as (s & <- & Hs). apply in_split in Hs as (l1 & l2 & ->).
          rewrite concat_app. cbn [concat]. rewrite !app_length. unfold a_len in Hn. cbn [a_rows] in Hn. destruct (Nat.eqb_spec (length s) 0); [discriminate | lia].
    - cbn. lia.
    - now apply like_arrs.
    - destruct seqs; [congruence | discriminate].
  Qed.

  Lemma width_flat w pad seqs : Forall (width w) seqs -> width w (flat (zero_row z [w]) pad seqs).
  Proof.
    intros H. assert (Hz : width w (repeat (zero_row z [w]) pad)).
    { apply Forall_forall. intros x Hx. apply repeat_spec in Hx. subst x. unfold zero_row. rewrite repeat_length. cbn. lia. }
    unfold flat. apply Forall_app. split.
    - apply width_concat. apply Forall_map. eapply Forall_impl; [|exact H]. intros s Hs. unfold piece. destruct (0 <? length s); [|constructor]. now apply Forall_app.
    - destruct (0 <? _); [exact Hz | constructor].
  Qed.
  Lemma wf_width w rows : width w rows -> wf_nda (@mkA T [w] rows).
  Proof. intros H. unfold wf_nda. cbn [a_rows a_tail]. eapply Forall_impl; [|exact H]. intros x ->. cbn. lia. Qed.

  Lemma flat_len (A B : Type) (d : A) (e : B) pad (seqs : list (list A)) (dseqs : list (list B)) : map (@length _) dseqs = map (@length _) seqs ->
    length (flat e pad dseqs) = length (flat d pad seqs).
  Proof.
    intros E. unfold flat. rewrite !app_length, <- (sum_concat dseqs), E, sum_concat. f_equal.
    - revert dseqs E. induction seqs as [|s seqs IH]; intros [|t dseqs] E; try discriminate; [reflexivity|].
      cbn in E. injection E as E1 E2. cbn [map concat]. rewrite !app_length, (IH dseqs E2). f_equal.
      unfold piece. rewrite E1. destruct (0 <? length s); [|reflexivity]. rewrite !app_length, !repeat_length. lia.
    - destruct (0 <? _); [now rewrite !repeat_length | reflexivity].
  Qed.

  Lemma unflatten_all (X : nda T) lens pad : unflatten X lens pad = map (fun l => mkA (a_tail X) (skipn pad l)) (chop (plens pad lens) (a_rows X)).
  Proof.
    destruct (Nat.eq_dec pad 0) as [->|Hp]; [|apply unflatten_chop_pad; lia]. rewrite unflatten_chop.
    assert (E : plens 0 lens = lens).
    { unfold plens. rewrite <- (map_id lens) at 2. apply map_ext. intros [|n]; cbn; lia. }
    rewrite E. apply map_ext. reflexivity.
  Qed.

  Lemma unflatten_local {A} w pad k (d : A) (f : list A -> list T) (seqs : list (list A)) lens : k <= pad -> lens = map (@length _) seqs ->
    unflatten (mkA [w] (local k d f (flat d pad seqs))) lens pad = arrs w (map (local k d f) seqs).
  Proof.
    intros Hk ->. rewrite unflatten_all. cbn [a_tail a_rows]. unfold arrs. rewrite <- (local_flat k d f pad seqs Hk), map_map. reflexivity.
  Qed.

  Lemma zips_lens {A B} (seqs : list (list A)) : forall dseqs : list (list B), map (@length _) dseqs = map (@length _) seqs ->
    map (@length _) (zips seqs dseqs) = map (@length _) seqs.
  Proof.
    unfold zips. induction seqs as [|s seqs IH]; intros [|t dseqs] E; try discriminate; [reflexivity|]. cbn in E. injection E as E1 E2.
    cbn [combine map fst snd]. rewrite IH by exact E2. f_equal. rewrite combine_length. lia.
  Qed.

    Lemma ragged_of_all w seqs : 0 < w -> Forall (width w) seqs ->
      is_ragged w (VRagged (mk_ragged (mkA [w] (concat seqs)) (map (@length _) seqs))) seqs.
    Proof.
      intros Hw H. destruct (concat seqs) as [|x l] eqn:E.
      - assert (Er : ragged_seqs (@mkRag T (mkA [0] []) (map (@length _) seqs) [w]) = seqs).
        { unfold ragged_seqs. cbn. rewrite <- E. rewrite <- (app_nil_r (concat seqs)). apply chop_concat. }
        split; [|eexists; reflexivity]. unfold mk_ragged. cbn [a_size a_len a_rows length Nat.mul Nat.eqb a_tail].
        rewrite <- Er at 2. constructor; [|reflexivity]. split; [cbn; lia|]. split; [constructor|]. split; [|left; split; reflexivity].
        cbn. rewrite sum_concat, E. reflexivity.
      - rewrite <- E. apply ragged_of; [assumption..|]. unfold some_row. rewrite E. discriminate.
    Qed.
    Lemma ragged_inv_all w r seqs : is_ragged w (VRagged r) seqs ->
      dataXd r = mkA [w] (concat seqs) /\ r_lengths r = map (@length _) seqs /\ Forall (width w) seqs.
    Proof.
      intros [H _]. inversion H as [|r' Hwf Ht E1 E2|]; subst. destruct Hwf as (Hs & Hw & Hsum & Hd).
      destruct r as [[tl rows] lens rt]. cbn [r_tail r_data r_lengths a_tail a_rows a_len ragged_seqs dataXd] in *. subst rt.
      unfold ragged_seqs in *. cbn [r_lengths r_data a_rows dataXd r_tail] in *. rewrite concat_chop by exact Hsum. rewrite chop_lengths by exact Hsum.
      unfold dataXd. cbn. split; [reflexivity|]. split; [reflexivity|].
      destruct Hd as [[-> _]|[_ Htl]].
      - clear. induction lens as [|n lens IH]; cbn; [constructor|]. rewrite firstn_nil, skipn_nil. constructor; [constructor | exact IH].
      - cbn in Htl. rewrite Nat.mul_1_r in Htl. subst tl. pose proof (like_chop (mkA [w] rows) lens Hw) as Hl. cbn [a_tail a_rows] in Hl. apply like_arrs_inv in Hl as [_ Hl].
        rewrite map_map, map_id in Hl. exact Hl.
    Qed.

  Section Fun.
    Context {wi wo : nat} (F : seqfun T wi wo) (Hwi : 0 < wi) (Hwo : 0 < wo).

    Lemma wa_list_ok k pad f g (L : slayer T) : k <= pad -> local_layer z k wi wo f g L ->
      (forall s, sf F s = local k (zero_row z [wi]) f s) ->
      (forall s d, sf_back F s d = local k (zero_row z [wi], zero_row z [wo]) g (combine s d)) ->
      forall seqs, Forall (width wi) seqs -> seqs <> [] ->
      exists y b, wa_list z L pad (arrs wi seqs) = Ok (y, b) /\ is_list wo y (map (sf F) seqs) /\
        forall dy dseqs, is_list wo dy dseqs -> map (@length _) dseqs = map (@length _) seqs ->
          exists dx, b dy = Ok dx /\ is_list wi dx (back F seqs dseqs).
    Proof.
      intros Hk HL Hf Hg seqs Hw Hne. unfold wa_list. rewrite (flatten_flat wi) by assumption. cbn [bind]. rewrite arrs_len.
      destruct (HL (mkA [wi] (flat (zero_row z [wi]) pad seqs)) eq_refl (wf_width _ _ (width_flat wi pad seqs Hw))) as (b & E & Hb).
      rewrite E. cbn [bind fst snd as_arr a_rows].
      rewrite (unflatten_local wo pad k (zero_row z [wi]) f seqs) by (assumption || reflexivity).
      eexists. eexists. split; [reflexivity|]. split.
      { erewrite (map_ext (sf F)); [|exact Hf]. apply list_of. rewrite <- (map_ext (sf F) _ Hf). now apply out_width. }
      intros dy dseqs Hdy Hl. destruct (list_inv _ _ _ Hdy) as [-> Hwd]. cbn [as_list bind].
      rewrite (flatten_flat wo) by (assumption || (destruct dseqs, seqs; try discriminate; congruence)). cbn [bind].
      rewrite Hb; [|reflexivity | apply wf_width; now apply width_flat | unfold a_len; cbn [a_rows]; now apply flat_len].
      cbn [bind as_arr a_rows]. rewrite combine_flat by exact Hl.
      rewrite (unflatten_local wi pad k _ g (zips seqs dseqs)) by (try assumption; symmetry; now apply zips_lens).
      eexists. split; [reflexivity|]. destruct (back_ok F seqs dseqs Hw Hwd Hl) as [B1 _].
      assert (Eb : map (local k (zero_row z [wi], zero_row z [wo]) g) (zips seqs dseqs) = back F seqs dseqs).
      { unfold zips, back. rewrite map_map. apply map_ext. intros [s d]. cbn [fst snd]. symmetry. apply Hg. }
      rewrite Eb. now apply list_of.
    Qed.

    Lemma with_array_list k pad f g (L : slayer T) : k <= pad -> local_layer z k wi wo f g L ->
      (forall s, sf F s = local k (zero_row z [wi]) f s) ->
      (forall s d, sf_back F s d = local k (zero_row z [wi], zero_row z [wo]) g (combine s d)) ->
      applies is_list is_list (fun seqs => seqs <> []) (with_array z L pad) F.
    Proof.
      intros Hk HL Hf Hg x seqs Hx Hne. destruct (list_inv _ _ _ Hx) as [-> Hw]. cbn [with_array].
      destruct (wa_list_ok k pad f g L Hk HL Hf Hg seqs Hw Hne) as (y & b & E & H1 & H2). exists y, b. split; [exact E|]. split; [exact H1|]. intros dy dseqs Hdy _ Hl. now apply H2.
    Qed.
    Lemma with_array2d_list k pad f g (L : slayer T) : k <= pad -> local_layer z k wi wo f g L ->
      (forall s, sf F s = local k (zero_row z [wi]) f s) ->
      (forall s d, sf_back F s d = local k (zero_row z [wi], zero_row z [wo]) g (combine s d)) ->
      applies is_list is_list (fun seqs => seqs <> []) (with_array2d z L pad) F.
    Proof.
      intros Hk HL Hf Hg x seqs Hx Hne. destruct (list_inv _ _ _ Hx) as [-> Hw]. cbn [with_array2d].
      destruct (wa_list_ok k pad f g L Hk HL Hf Hg seqs Hw Hne) as (y & b & E & H1 & H2). exists y, b. split; [exact E|]. split; [exact H1|]. intros dy dseqs Hdy _ Hl. now apply H2.
    Qed.

    (** Ragged: row-wise layers. *)
    Lemma concat_sf f seqs : (forall s, sf F s = local 0 (zero_row z [wi]) f s) ->
      local 0 (zero_row z [wi]) f (concat seqs) = concat (map (sf F) seqs).
    Proof. intros Hf. rewrite local0, concat_map. f_equal. apply map_ext. intros s. now rewrite Hf, local0. Qed.
    Lemma concat_back g seqs dseqs : (forall s d, sf_back F s d = local 0 (zero_row z [wi], zero_row z [wo]) g (combine s d)) ->
      map (@length _) dseqs = map (@length _) seqs ->
      local 0 (zero_row z [wi], zero_row z [wo]) g (combine (concat seqs) (concat dseqs)) = concat (back F seqs dseqs).
    Proof.
      intros Hg E. rewrite local0, combine_concat by exact E. rewrite concat_map. f_equal. unfold zips, back. rewrite map_map. apply map_ext.
      intros [s d]. cbn [fst snd]. now rewrite Hg, local0.
    Qed.

    Lemma with_array_ragged pad f g (L : slayer T) : local_layer z 0 wi wo f g L ->
      (forall s, sf F s = local 0 (zero_row z [wi]) f s) ->
      (forall s d, sf_back F s d = local 0 (zero_row z [wi], zero_row z [wo]) g (combine s d)) ->
      applies is_ragged is_ragged (fun _ => True) (with_array z L pad) F.
    Proof.
      intros HL Hf Hg x seqs Hx _. pose proof Hx as [_ [r ->]]. destruct (ragged_inv_all _ _ _ Hx) as (Er & El & Hw). cbn [with_array]. unfold wa_ragged. rewrite Er.
      destruct (HL (mkA [wi] (concat seqs)) eq_refl (wf_width _ _ (width_concat _ _ Hw))) as (b & E & Hb). rewrite E. cbn [bind fst snd as_arr a_rows].
      rewrite El. eexists. eexists. split; [reflexivity|]. rewrite (concat_sf f seqs Hf).
      split; [rewrite <- (out_lens F seqs Hw); apply ragged_of_all; [assumption | now apply out_width]|].
      intros dy dseqs Hdy _ Hl. pose proof Hdy as [_ [dr ->]]. destruct (ragged_inv_all _ _ _ Hdy) as (Edr & Edl & Hwd). cbn [as_ragged bind]. rewrite Edr, Edl.
      rewrite Hb; [|reflexivity | apply wf_width; now apply width_concat | unfold a_len; cbn [a_rows]; rewrite <- !sum_concat; now rewrite Hl].
      cbn [bind as_arr a_rows]. rewrite (concat_back g seqs dseqs Hg Hl). eexists. split; [reflexivity|].
      destruct (back_ok F seqs dseqs Hw Hwd Hl) as [B1 B2]. rewrite Hl, <- B2. apply ragged_of_all; [assumption | exact B1].
    Qed.

    Lemma reshape_to_same w rows n : width w rows -> length rows = n -> reshape_to (@mkA T [w] rows) n [w] = Ok (mkA [w] rows).
    Proof.
      intros H <-. unfold reshape_to, a_size, a_len. cbn [a_rows a_tail shape_size fold_right]. rewrite Nat.eqb_refl, Nat.mul_1_r. do 2 f_equal.
      assert (G : forall rs (pre : list (list T)), width w pre -> width w rs ->
        map (fun i => firstn w (skipn (i * w) (concat (pre ++ rs)))) (seq (length pre) (length rs)) = rs).
      { induction rs as [|x rs IH]; intros pre Hp Hr; [reflexivity|]. inversion Hr; subst. cbn [length seq map]. f_equal.
        - rewrite concat_app. assert (El : length pre * length x = length (concat pre)).
          { clear -Hp. induction Hp as [|y l Ey Hp IH]; cbn; [reflexivity|]. rewrite app_length, <- IH, Ey. lia. }
          rewrite El, skipn_app, skipn_all, Nat.sub_diag. cbn [skipn app concat]. rewrite firstn_app, firstn_all, Nat.sub_diag, firstn_O. apply app_nil_r.
        - specialize (IH (pre ++ [x])). rewrite app_length in IH. cbn [length] in IH. rewrite Nat.add_1_r, <- app_assoc in IH. apply IH; [|assumption].
          apply Forall_app. split; [exact Hp | repeat constructor]. }
      apply (G rows []); [constructor | exact H].
    Qed.

    Lemma with_array2d_ragged pad f g (L : slayer T) : local_layer z 0 wi wo f g L ->
      (forall s, sf F s = local 0 (zero_row z [wi]) f s) ->
      (forall s d, sf_back F s d = local 0 (zero_row z [wi], zero_row z [wo]) g (combine s d)) ->
      applies is_ragged is_ragged some_row (with_array2d z L pad) F.
    Proof.
      intros HL Hf Hg x seqs Hx Hr. pose proof Hx as [_ [r ->]]. destruct (ragged_inv _ _ _ Hx Hr) as (-> & Hw & _). cbn [with_array2d]. unfold wa2_ragged. cbn [r_data r_lengths r_tail].
      destruct (HL (mkA [wi] (concat seqs)) eq_refl (wf_width _ _ (width_concat _ _ Hw))) as (b & E & Hb). rewrite E. cbn [bind fst snd as_arr a_rows].
      eexists. eexists. split; [reflexivity|]. rewrite (concat_sf f seqs Hf).
      split; [rewrite <- (out_lens F seqs Hw); apply ragged_of_all; [assumption | now apply out_width]|].
      intros dy dseqs Hdy _ Hl. pose proof Hdy as [_ [dr ->]]. destruct (ragged_inv_all _ _ _ Hdy) as (Edr & Edl & Hwd). cbn [as_ragged bind]. rewrite Edr, Edl.
      rewrite Hb; [|reflexivity | apply wf_width; now apply width_concat | unfold a_len; cbn [a_rows]; rewrite <- !sum_concat; now rewrite Hl].
      cbn [bind as_arr a_rows]. rewrite (concat_back g seqs dseqs Hg Hl).
      destruct (back_ok F seqs dseqs Hw Hwd Hl) as [B1 B2].
      rewrite reshape_to_same; [|now apply width_concat|].
      - cbn [bind]. eexists. split; [reflexivity|]. rewrite Hl, <- B2. apply ragged_of_all; [assumption | exact B1].
      - unfold a_len, dataXd. cbn [a_rows r_data]. rewrite <- !sum_concat. now rewrite B2.
    Qed.

    (** Padded batches. *)
    Lemma pads_map f p seqs : pads wi p seqs -> (forall s, sf F s = map f s) -> (forall x, length x = wi -> length (f x) = wo) ->
      pads wo (mkPad (mkA3 (a3_n1 (p_data p)) [wo] (map (map f) (a3_cells (p_data p)))) (p_size_at_t p) (p_lengths p) (p_indices p)) (map (sf F) seqs).
    Proof.
      intros P Hf Hwf. pose proof (pads_width _ _ _ P) as Hw. destruct P.
      assert (Hn : forall j, length (nth j (map (sf F) seqs) []) = length (nth j seqs [])).
      { intros j. destruct (Nat.lt_ge_cases j (length seqs)) as [Hj|Hj]; [|now rewrite !nth_overflow by (rewrite ?map_length; assumption)].
        rewrite (nth_error_nth_some _ _ _ [] (map_nth_error (sf F) _ _ (nth_error_nth' seqs [] Hj))). rewrite Hf. apply map_length. }
      constructor; cbn [p_data p_indices p_lengths p_size_at_t a3_tail a3_n1 a3_cells]; rewrite ?map_length.
      - reflexivity.
      - exact pf_n1.
      - exact pf_perm.
      - rewrite pf_lens. apply map_ext. intros j. now rewrite Hn.
      - apply Forall_map. eapply Forall_impl; [|exact pf_max]. intros s Hs. cbn beta. rewrite Hf, map_length. exact Hs.
      - apply Forall_map. eapply Forall_impl; [|exact pf_cells]. intros c [Hc1 Hc2]. rewrite map_length. split; [exact Hc1|].
        apply Forall_map. eapply Forall_impl; [|exact Hc2]. intros x Hx. now apply Hwf.
      - intros i j t Ei Ht. rewrite Hn in Ht. pose proof (perm_seq_bound _ _ _ _ pf_perm Ei) as Hj.
        rewrite Forall_forall in pf_max. pose proof (pf_max _ (nth_In seqs [] Hj)) as Hm.
        assert (Hc : t < length (a3_cells (p_data p))) by lia. pose proof (nth_error_nth' (a3_cells (p_data p)) [] Hc) as Ec.
        rewrite (nth_error_nth_some _ _ _ [] (map_nth_error (map f) _ _ Ec)).
        assert (Hi : i < length (nth t (a3_cells (p_data p)) [])).
        { rewrite Forall_forall in pf_cells. rewrite (proj1 (pf_cells _ (nth_In _ [] Hc))). apply nth_error_lt_some in Ei.
          rewrite (Permutation_length pf_perm), seq_length in Ei. exact Ei. }
        rewrite (nth_error_nth_some _ _ _ [] (map_nth_error f _ _ (nth_error_nth' _ [] Hi))). rewrite (pf_data i j t Ei Ht).
        rewrite (nth_error_nth_some _ _ _ [] (map_nth_error (sf F) _ _ (nth_error_nth' seqs [] Hj))), Hf.
        symmetry. apply nth_error_nth_some, map_nth_error. now apply nth_error_nth'.
    Qed.

    Definition cells_back (g : list T -> list T -> list T) (c d : list sq) : list sq :=
      map (fun q => map (fun u => g (fst u) (snd u)) (combine (fst q) (snd q))) (combine c d).

    Lemma pads_back g p q seqs dseqs : pads wi p seqs -> pads wo q dseqs -> p_indices p = p_indices q ->
      length (a3_cells (p_data p)) = length (a3_cells (p_data q)) -> map (@length _) dseqs = map (@length _) seqs ->
      (forall s d, sf_back F s d = map (fun u => g (fst u) (snd u)) (combine s d)) ->
      (forall x y, length x = wi -> length y = wo -> length (g x y) = wi) ->
      pads wi (mkPad (mkA3 (a3_n1 (p_data p)) [wi] (cells_back g (a3_cells (p_data p)) (a3_cells (p_data q)))) (p_size_at_t q) (p_lengths q) (p_indices q)) (back F seqs dseqs).
    Proof.
      intros P Q Ei Ec El Hg Hwg. pose proof (pads_width _ _ _ P) as Hw. pose proof (pads_width _ _ _ Q) as Hwd.
      destruct (back_ok F seqs dseqs Hw Hwd El) as [B1 B2].
      assert (Lb : length (back F seqs dseqs) = length seqs) by (rewrite <- (map_length (@length _)), B2; apply map_length).
      assert (Ld : length dseqs = length seqs) by (rewrite <- (map_length (@length _)), El; apply map_length).
      assert (Hbn : forall j, j < length seqs -> nth j (back F seqs dseqs) [] = sf_back F (nth j seqs []) (nth j dseqs [])).
      { intros j Hj. unfold back. apply nth_error_nth_some.
        assert (Ecj : nth_error (combine seqs dseqs) j = Some (nth j seqs [], nth j dseqs [])) by (apply map_nth_error_combine; apply nth_error_nth'; lia).
        now rewrite (map_nth_error _ _ _ Ecj). }
      assert (Hln : forall j, length (nth j dseqs []) = length (nth j seqs [])).
      { intros j. rewrite <- (map_nth (@length _) dseqs), <- (map_nth (@length _) seqs). now rewrite El. }
      assert (Hlb : forall j, length (nth j (back F seqs dseqs) []) = length (nth j seqs [])).
      { intros j. rewrite <- (map_nth (@length _) (back F seqs dseqs)), <- (map_nth (@length _) seqs). now rewrite B2. }
      destruct P as [P1 P2 P3 P4 P5 P6 P7]. destruct Q as [Q1 Q2 Q3 Q4 Q5 Q6 Q7].
      assert (Hcl : length (cells_back g (a3_cells (p_data p)) (a3_cells (p_data q))) = length (a3_cells (p_data p))).
      { unfold cells_back. rewrite map_length, combine_length. lia. }
      assert (Hcn : forall t, t < length (a3_cells (p_data p)) -> nth t (cells_back g (a3_cells (p_data p)) (a3_cells (p_data q))) [] =
         map (fun u => g (fst u) (snd u)) (combine (nth t (a3_cells (p_data p)) []) (nth t (a3_cells (p_data q)) []))).
      { intros t Ht. unfold cells_back. apply nth_error_nth_some.
        assert (Et : nth_error (combine (a3_cells (p_data p)) (a3_cells (p_data q))) t = Some (nth t (a3_cells (p_data p)) [], nth t (a3_cells (p_data q)) []))
          by (apply map_nth_error_combine; apply nth_error_nth'; lia).
        now rewrite (map_nth_error _ _ _ Et). }
      rewrite Forall_forall in P5, P6, Q6. constructor; cbn [p_data p_indices p_lengths p_size_at_t a3_tail a3_n1 a3_cells]; rewrite ?Lb.
      - reflexivity.
      - exact P2.
      - rewrite <- Ei. exact P3.
      - rewrite Q4. apply map_ext. intros j. now rewrite Hlb, Hln.
      - apply Forall_forall. intros s Hs. apply In_nth with (d := []) in Hs as (j & Hj & <-). rewrite Hlb, Hcl. apply P5. apply nth_In. lia.
      - apply Forall_forall. intros c Hc. apply In_nth with (d := []) in Hc as (t & Ht & <-). rewrite Hcl in Ht. rewrite (Hcn t Ht).
        destruct (P6 _ (nth_In _ [] Ht)) as [A1 A2]. destruct (Q6 (nth t (a3_cells (p_data q)) [])) as [C1 C2]; [apply nth_In; lia|].
        rewrite map_length, combine_length. split; [lia|]. apply Forall_map. apply Forall_forall. intros [x y] Hxy. cbn [fst snd].
        unfold width in A2, C2. rewrite Forall_forall in A2, C2. apply Hwg; [apply A2; now apply in_combine_l in Hxy | apply C2; now apply in_combine_r in Hxy].
      - intros i j t Eij Ht. rewrite Hlb in Ht. pose proof Eij as Eij'. rewrite <- Ei in Eij. pose proof (perm_seq_bound _ _ _ _ P3 Eij) as Hj.
        pose proof (P5 _ (nth_In seqs [] Hj)) as Hm. assert (Hc : t < length (a3_cells (p_data p))) by lia. rewrite (Hcn t Hc), (Hbn j Hj), Hg.
        destruct (P6 _ (nth_In _ [] Hc)) as [A1 _]. destruct (Q6 (nth t (a3_cells (p_data q)) [])) as [C1 _]; [apply nth_In; lia|].
        assert (Hi : i < length seqs) by (apply nth_error_lt_some in Eij; rewrite (Permutation_length P3), seq_length in Eij; exact Eij).
        assert (E1 : nth_error (combine (nth t (a3_cells (p_data p)) []) (nth t (a3_cells (p_data q)) [])) i =
          Some (nth t (nth j seqs []) [], nth t (nth j dseqs []) [])).
        { rewrite <- (P7 i j t Eij Ht). rewrite <- (Q7 i j t Eij') by (rewrite Hln; exact Ht). apply map_nth_error_combine; apply nth_error_nth'; lia. }
        rewrite (nth_error_nth_some _ _ _ [] (map_nth_error (fun u => g (fst u) (snd u)) _ _ E1)). cbn [fst snd].
        symmetry. apply nth_error_nth_some.
        assert (E2 : nth_error (combine (nth j seqs []) (nth j dseqs [])) t = Some (nth t (nth j seqs []) [], nth t (nth j dseqs []) [])).
        { apply map_nth_error_combine; apply nth_error_nth'; [exact Ht | rewrite Hln; exact Ht]. }
        now rewrite (map_nth_error _ _ _ E2).
    Qed.

    Lemma with_array_padded pad f g (L : slayer T) : cell_layer wi wo f g L ->
      (forall s, sf F s = map f s) -> (forall s d, sf_back F s d = map (fun u => g (fst u) (snd u)) (combine s d)) ->
      (forall x, length x = wi -> length (f x) = wo) -> (forall x y, length x = wi -> length y = wo -> length (g x y) = wi) ->
      applies is_padded is_padded (fun _ => True) (with_array z L pad) F.
    Proof.
      intros HL Hf Hg Hwf Hwg x seqs Hx _. pose proof Hx as [_ [p ->]]. pose proof (padded_inv _ _ _ Hx) as P. cbn [with_array]. unfold wa_padded.
      destruct (HL (p_data p)) as (b & E & Hb).
      { apply (pf_tail _ _ _ P). }
      { rewrite (pf_n1 _ _ _ P). apply (pf_cells _ _ _ P). }
      rewrite E. cbn [bind fst snd as_arr3]. eexists. eexists. split; [reflexivity|].
      split; [split; [constructor; now apply pads_map | eexists; reflexivity]|].
      intros dy dseqs Hdy Hal Hl. pose proof Hdy as [_ [q ->]]. pose proof (padded_inv _ _ _ Hdy) as Q. destruct Hal as [Hi Hc].
      assert (Ld : length dseqs = length seqs) by (rewrite <- (map_length (@length _)), Hl; apply map_length).
      rewrite Hb.
      - cbn [bind as_arr3]. eexists. split; [reflexivity|]. split; [|eexists; reflexivity]. constructor. now apply pads_back.
      - apply (pf_tail _ _ _ Q).
      - rewrite (pf_n1 _ _ _ Q). apply (pf_cells _ _ _ Q).
      - rewrite (pf_n1 _ _ _ Q), (pf_n1 _ _ _ P). exact Ld.
      - now symmetry.
    Qed.

    Lemma regroup n (cells : list sq) : Forall (fun c => length c = n) cells ->
      map (fun i => firstn n (skipn (i * n) (concat cells))) (seq 0 (length cells)) = cells.
    Proof.
      intros H. assert (G : forall cs pre, Forall (fun c : sq => length c = n) pre -> Forall (fun c => length c = n) cs ->
        map (fun i => firstn n (skipn (i * n) (concat (pre ++ cs)))) (seq (length pre) (length cs)) = cs).
      { induction cs as [|x cs IH]; intros pre Hp Hr; [reflexivity|]. inversion Hr; subst. cbn [length seq map]. f_equal.
        - rewrite concat_app. assert (El : length pre * length x = length (concat pre)).
          { clear -Hp. induction Hp as [|y l Ey Hp IH]; cbn; [reflexivity|]. rewrite app_length, <- IH, Ey. lia. }
          rewrite El, skipn_app, skipn_all, Nat.sub_diag. cbn [skipn app concat]. rewrite firstn_app, firstn_all, Nat.sub_diag, firstn_O. apply app_nil_r.
        - specialize (IH (pre ++ [x])). rewrite app_length in IH. cbn [length] in IH. rewrite Nat.add_1_r, <- app_assoc in IH. apply IH; [|assumption].
          apply Forall_app. split; [exact Hp | repeat constructor]. }
      apply (G cells []); [constructor | exact H].
    Qed.
    Lemma concat_len n (cells : list sq) : Forall (fun c => length c = n) cells -> length (concat cells) = length cells * n.
    Proof. induction 1 as [|c l E H IH]; cbn; [reflexivity|]. rewrite app_length, IH, E. lia. Qed.

    Lemma with_array2d_padded pad f g (L : slayer T) : local_layer z 0 wi wo f g L ->
      (forall s, sf F s = local 0 (zero_row z [wi]) f s) ->
      (forall s d, sf_back F s d = local 0 (zero_row z [wi], zero_row z [wo]) g (combine s d)) ->
      (forall x, length x = wi -> length (f [x]) = wo) -> (forall x y, length x = wi -> length y = wo -> length (g [(x, y)]) = wi) ->
      applies is_padded is_padded (fun _ => True) (with_array2d z L pad) F.
    Proof.
      intros HL Hf Hg Hwf Hwg x seqs Hx _. pose proof Hx as [_ [p ->]]. pose proof (padded_inv _ _ _ Hx) as P. cbn [with_array2d]. unfold wa2_padded.
      pose proof (pf_tail _ _ _ P) as Ht. pose proof (pf_cells _ _ _ P) as Hc. pose proof (pf_n1 _ _ _ P) as Hn.
      assert (Hc1 : Forall (fun c => length c = length seqs) (a3_cells (p_data p))) by (eapply Forall_impl; [|exact Hc]; intros ? [? ?]; assumption).
      assert (Hc2 : Forall (width wi) (a3_cells (p_data p))) by (eapply Forall_impl; [|exact Hc]; intros ? [? ?]; assumption).
      unfold reshape2 at 1. rewrite Ht. cbn [bind].
      destruct (HL (mkA [wi] (concat (a3_cells (p_data p)))) eq_refl (wf_width _ _ (width_concat _ _ Hc2))) as (b & E & Hb). rewrite E. cbn [bind fst snd as_arr a_rows].
      rewrite local0, concat_map. set (f' := fun x => f [x]). set (g' := fun x y => g [(x, y)]).
      assert (R3 : forall w (cells : list sq), Forall (fun c => length c = length seqs) cells ->
        reshape3 (mkA [w] (concat cells)) (length cells) (length seqs) = Ok (mkA3 (length seqs) [w] cells)).
      { intros w cells Hcs. unfold reshape3, a_len. cbn [a_tail a_rows]. rewrite (concat_len _ _ Hcs), Nat.eqb_refl. do 2 f_equal. now apply regroup. }
      rewrite Hn. rewrite <- (map_length (map f') (a3_cells (p_data p))). rewrite R3; [|apply Forall_map; eapply Forall_impl; [|exact Hc1]; intros c Hcc; now rewrite map_length].
      cbn [bind]. eexists. eexists. split; [reflexivity|]. split.
      { split; [|eexists; reflexivity]. constructor. rewrite <- Hn. apply pads_map; [exact P | intros s; now rewrite Hf, local0 | exact Hwf]. }
      intros dy dseqs Hdy Hal Hl. pose proof Hdy as [_ [q ->]]. pose proof (padded_inv _ _ _ Hdy) as Q. destruct Hal as [Hi Hcl].
      assert (Ld : length dseqs = length seqs) by (rewrite <- (map_length (@length _)), Hl; apply map_length).
      pose proof (pf_tail _ _ _ Q) as Htq. pose proof (pf_cells _ _ _ Q) as Hcq. pose proof (pf_n1 _ _ _ Q) as Hnq. rewrite Ld in Hcq, Hnq.
      assert (Hq1 : Forall (fun c => length c = length seqs) (a3_cells (p_data q))) by (eapply Forall_impl; [|exact Hcq]; intros ? [? ?]; assumption).
      assert (Hq2 : Forall (width wo) (a3_cells (p_data q))) by (eapply Forall_impl; [|exact Hcq]; intros ? [? ?]; assumption).
      unfold reshape2. rewrite Htq. cbn [bind].
      rewrite Hb; [|reflexivity | apply wf_width; now apply width_concat | unfold a_len; cbn [a_rows]; rewrite (concat_len _ _ Hq1), (concat_len _ _ Hc1); now rewrite Hcl].
      cbn [bind as_arr a_rows]. rewrite local0.
      assert (Hll : map (@length _) (a3_cells (p_data q)) = map (@length _) (a3_cells (p_data p))).
      { apply nth_error_ext. intros t. destruct (Nat.lt_ge_cases t (length (a3_cells (p_data p)))) as [Hlt|Hge].
        - assert (Hlq : t < length (a3_cells (p_data q))) by lia.
          rewrite (map_nth_error _ _ _ (nth_error_nth' (a3_cells (p_data q)) [] Hlq)), (map_nth_error _ _ _ (nth_error_nth' (a3_cells (p_data p)) [] Hlt)).
          rewrite Forall_forall in Hq1, Hc1. rewrite (Hq1 _ (nth_In _ [] Hlq)), (Hc1 _ (nth_In _ [] Hlt)). reflexivity.
        - rewrite !(proj2 (nth_error_None _ _)); [reflexivity | rewrite map_length; lia | rewrite map_length; lia]. }
      rewrite (combine_concat _ _ Hll), concat_map.
      assert (Ecb : map (map (fun x => g [x])) (zips (a3_cells (p_data p)) (a3_cells (p_data q))) = cells_back g' (a3_cells (p_data p)) (a3_cells (p_data q))).
      { unfold zips, cells_back. rewrite map_map. apply map_ext. intros c. apply map_ext. intros [u v]. reflexivity. }
      rewrite Ecb, Hnq, <- Hcl.
      assert (Lcb : length (cells_back g' (a3_cells (p_data p)) (a3_cells (p_data q))) = length (a3_cells (p_data p))).
      { unfold cells_back. rewrite map_length, combine_length. lia. }
      rewrite <- Lcb. rewrite R3.
      - cbn [bind]. eexists. split; [reflexivity|]. split; [|eexists; reflexivity]. constructor. rewrite <- Hn. apply pads_back; try assumption.
        intros s d. rewrite Hg, local0. apply map_ext. intros [u v]. reflexivity.
      - unfold cells_back. apply Forall_map, Forall_forall. intros [c d] Hcd. cbn [fst snd]. rewrite map_length, combine_length.
        rewrite Forall_forall in Hq1, Hc1. pose proof (Hc1 c (in_combine_l _ _ _ _ Hcd)). pose proof (Hq1 d (in_combine_r _ _ _ _ Hcd)). lia.
    Qed.
  End Fun.

  (** Conversion layers. *)
  Lemma dseqs_ne seqs (dseqs : list sq) : map (@length _) dseqs = map (@length _) seqs -> seqs <> [] -> dseqs <> [].
  Proof. destruct dseqs, seqs; try discriminate; congruence. Qed.

  Lemma list2array_ok : converts is_list is_array (fun seqs => seqs <> []) (list2array z).
  Proof.
    intros w x seqs Hw Hx Hne. destruct (list_inv _ _ _ Hx) as [-> Hl]. unfold list2array. cbn [as_list bind].
    rewrite (flatten_arrs z w) by assumption. cbn [bind]. rewrite arrs_len. eexists. eexists. split; [reflexivity|]. split; [split; [reflexivity | exact Hl]|].
    intros dy dseqs [-> Hd] El. cbn [as_arr bind]. rewrite <- El, unflatten_ragged by exact Hd. eexists. split; [reflexivity|]. now apply list_of.
  Qed.
  Lemma list2ragged_ok : converts is_list is_ragged some_row (list2ragged_layer z).
  Proof.
    intros w x seqs Hw Hx Hr. destruct (list_inv _ _ _ Hx) as [-> Hl]. unfold list2ragged_layer. cbn [as_list bind].
    rewrite (flatten_arrs z w) by (try assumption; now apply some_row_ne). cbn [bind]. rewrite arrs_len. eexists. eexists. split; [reflexivity|].
    split; [now apply ragged_of_all|].
    intros dy dseqs Hd El. pose proof Hd as [_ [r ->]]. destruct (ragged_inv _ _ _ Hd) as (-> & Hwd & _); [now apply (some_row_len seqs)|].
    cbn [as_ragged bind r_data r_lengths]. rewrite unflatten_ragged by exact Hwd. eexists. split; [reflexivity|]. now apply list_of.
  Qed.
  Lemma ragged2list_ok : converts is_ragged is_list (fun seqs => seqs <> []) (ragged2list z).
  Proof.
    intros w x seqs Hw Hx Hne. pose proof Hx as [_ [r ->]]. destruct (ragged_inv_all _ _ _ Hx) as (Er & El & Hl). unfold ragged2list. cbn [as_ragged bind].
    rewrite Er, El, unflatten_ragged by exact Hl. eexists. eexists. split; [reflexivity|]. split; [now apply list_of|].
    intros dy dseqs Hd Eld. destruct (list_inv _ _ _ Hd) as [-> Hwd]. cbn [as_list bind].
    rewrite (flatten_arrs z w) by (try assumption; now apply (dseqs_ne seqs)). cbn [bind]. eexists. split; [reflexivity|]. rewrite <- Eld. now apply ragged_of_all.
  Qed.
  Lemma list2padded_layer_ok : converts is_list is_padded (fun seqs => seqs <> []) (list2padded_layer z).
  Proof.
    intros w x seqs Hw Hx Hne. destruct (list_inv _ _ _ Hx) as [-> Hl]. unfold list2padded_layer. cbn [as_list bind].
    destruct (pads_of z w seqs Hl Hne) as (p & E & P & _). rewrite E. cbn [bind]. eexists. eexists. split; [reflexivity|].
    split; [split; [now constructor | now eexists]|].
    intros dy dseqs Hd El. pose proof Hd as [_ [q ->]]. pose proof (padded_inv _ _ _ Hd) as Q. cbn [as_padded bind]. rewrite (pads_list _ _ _ Q). cbn [bind].
    eexists. split; [reflexivity|]. apply list_of. now apply (pads_width _ _ _ Q).
  Qed.
  Lemma padded2list_layer_ok : converts is_padded is_list (fun seqs => seqs <> []) (padded2list_layer z).
  Proof.
    intros w x seqs Hw Hx Hne. pose proof Hx as [_ [p ->]]. pose proof (padded_inv _ _ _ Hx) as P. unfold padded2list_layer. cbn [as_padded bind].
    rewrite (pads_list _ _ _ P). cbn [bind]. eexists. eexists. split; [reflexivity|]. split; [apply list_of; now apply (pads_width _ _ _ P)|].
    intros dy dseqs Hd El. destruct (list_inv _ _ _ Hd) as [-> Hwd]. cbn [as_list bind].
    destruct (pads_of z w dseqs Hwd (dseqs_ne _ _ El Hne)) as (q & E & Q & _). rewrite E. cbn [bind]. eexists. split; [reflexivity|]. split; [now constructor | now eexists].
  Qed.

  (** Inputs already in the wrapped layer's format. *)
  Lemma passes_through (L : slayer T) : (forall r, with_ragged z L (VRagged r) = L (VRagged r)) /\
    (forall p, with_padded z L (VPadded p) = L (VPadded p)) /\ (forall l, with_list z L (VList l) = L (VList l)) /\
    (forall a pad, with_array z L pad (VArr a) = L (VArr a) /\ with_array2d z L pad (VArr a) = L (VArr a)).
  Proof. repeat split. Qed.
End WithArray.

Definition id_layer {T} : slayer T := fun x => Ok (x, Ok).
Lemma id_layer_ragged {T} w : @applies T w w is_ragged is_ragged (fun _ => True) id_layer (mkSF (fun s => s) (fun _ d => d) (fun s H => conj H eq_refl) (fun s d _ H E => conj H E)).
Proof.
  intros x seqs Hx _. eexists. eexists. split; [reflexivity|]. cbn [sf sf_back]. rewrite map_id. split; [exact Hx|].
  intros dy dseqs Hd _ El. eexists. split; [reflexivity|]. replace (map _ (combine seqs dseqs)) with dseqs; [exact Hd|].
  apply (f_equal (@length _)) in El. rewrite !map_length in El. clear -El. revert dseqs El. induction seqs as [|s seqs IH]; intros [|t dseqs] El; try discriminate; [reflexivity|].
  cbn. f_equal. apply IH. cbn in El. lia.
Qed.

Lemma no_rows_lost : exists r : ragged nat, is_ragged 2 (VRagged r) [[]; []] /\
  exists y b, with_list 0 id_layer (VRagged r) = Ok (y, b) /\ forall seqs, ~ is_ragged 2 y seqs.
Proof.
  exists (mk_ragged (mkA [2] []) [0; 0]). split; [apply (ragged_of_all 2 [[]; []]); [lia | repeat constructor]|].
  eexists. eexists. split; [reflexivity|]. intros seqs [H _]. inversion H as [|r Hwf Ht|]; subst. discriminate.
Qed.

(** A layer whose input gradient is its input. *)
Definition self_layer {T} : slayer T := fun x => Ok (x, fun _ => Ok x).
Lemma order_matters : exists (x dy : seqval nat) y b dx, is_padded 1 x [[[1]]; [[2]]] /\ is_padded 1 dy [[[7]]; [[8]]] /\
  cell_layer 1 1 (fun r => r) (fun r _ => r) (@self_layer nat) /\
  with_array 0 self_layer 0 x = Ok (y, b) /\ b dy = Ok dx /\ is_padded 1 dx [[[2]]; [[1]]].
Proof.
  assert (P : forall (d : list (list nat)) i j u v, (i, j) = (0, 1) /\ d = [[u]; [v]] \/ (i, j) = (1, 0) /\ d = [[v]; [u]] ->
    is_padded 1 (VPadded (mkPad (mkA3 2 [1] [d]) [2] [1; 1] [i; j])) [[[u]]; [[v]]]).
  { intros d i j u v H. split; [|eexists; reflexivity]. constructor.
    destruct H as [[E ->]|[E ->]]; injection E as -> ->; constructor; cbn [p_data p_indices p_lengths a3_tail a3_n1 a3_cells]; try reflexivity;
      try (repeat constructor; fail).
    - intros a b t Ea Ht. destruct a as [|[|[|]]]; cbn in Ea; try discriminate; injection Ea as <-; cbn in Ht; assert (t = 0) by lia; subst t; reflexivity.
    - intros a b t Ea Ht. destruct a as [|[|[|]]]; cbn in Ea; try discriminate; injection Ea as <-; cbn in Ht; assert (t = 0) by lia; subst t; reflexivity. }
  exists (VPadded (mkPad (mkA3 2 [1] [[[1]; [2]]]) [2] [1; 1] [0; 1])), (VPadded (mkPad (mkA3 2 [1] [[[8]; [7]]]) [2] [1; 1] [1; 0])).
  eexists. eexists. eexists. split; [apply P; left; split; reflexivity|]. split; [apply P; right; split; reflexivity|]. split; [|split; [reflexivity|]].
  - intros X Ht Hc. exists (fun _ => Ok (VArr3 X)). split.
    + unfold self_layer. destruct X as [n1 tl cells]. cbn in *. subst tl. do 4 f_equal. rewrite <- (map_id cells) at 1. apply map_ext. intros c. now rewrite map_id.
    + intros dY Htd Hcd En El. destruct X as [n1 tl cells], dY as [m1 tm celld]. cbn in *. subst tl. do 3 f_equal. subst m1.
      revert celld El Hcd. induction cells as [|c cells IH]; intros [|d celld] El Hcd; try discriminate; [reflexivity|]. inversion Hc; subst. inversion Hcd; subst. cbn. f_equal.
      * destruct H1 as [H1 _], H3 as [H3 _]. rewrite <- H3 in H1. clear -H1. revert d H1. induction c as [|u c IH]; intros [|v d] E; try discriminate; [reflexivity|]. cbn. f_equal. apply IH. cbn in E. lia.
      * apply IH; [assumption | cbn in El; lia | assumption].
  - split; [reflexivity|]. apply P. right. split; reflexivity.
Qed.

Section Bundles.
  Context {T : Type} (z : T) (wi wo : nat) (F : seqfun T wi wo).

  Lemma with_list_all L : 0 < wi -> 0 < wo -> applies is_list is_list some_row L F ->
    applies is_list is_list some_row (with_list z L) F /\ applies is_ragged is_ragged some_row (with_list z L) F /\
    applies is_padded (is_clean z) some_row (with_list z L) F.
  Proof. intros Hi Ho H. split; [now apply with_list_list|]. split; [now apply with_list_ragged | now apply with_list_padded]. Qed.
  Lemma with_ragged_all L : 0 < wi -> 0 < wo -> applies is_ragged is_ragged some_row L F ->
    applies is_list is_list some_row (with_ragged z L) F /\ applies is_ragged is_ragged some_row (with_ragged z L) F /\
    applies is_padded (is_clean z) some_row (with_ragged z L) F.
  Proof.
    intros Hi Ho H. split; [now apply with_ragged_list|]. split; [|now apply with_ragged_padded].
    intros x seqs Hx Hr. destruct (H x seqs Hx Hr) as (y & b & E & H1). exists y, b. destruct Hx as [_ [r ->]]. split; [exact E | exact H1].
  Qed.
  Lemma with_padded_all L : 0 < wi -> 0 < wo -> applies (is_clean z) is_padded some_row L F ->
    applies is_list is_list some_row (with_padded z L) F /\ applies is_ragged is_ragged some_row (with_padded z L) F /\
    applies (is_clean z) is_padded some_row (with_padded z L) F.
  Proof.
    intros Hi Ho H. split; [now apply with_padded_list|]. split; [now apply with_padded_ragged|].
    intros x seqs Hx Hr. destruct (H x seqs Hx Hr) as (y & b & E & H1). exists y, b. destruct Hx as (p & -> & _). split; [exact E | exact H1].
  Qed.
  Lemma with_array_windows k pad f g L : 0 < wi -> 0 < wo -> k <= pad -> local_layer z k wi wo f g L -> local_fun z k f g F ->
    applies is_list is_list (fun seqs => seqs <> []) (with_array z L pad) F /\
    applies is_list is_list (fun seqs => seqs <> []) (with_array2d z L pad) F.
  Proof. intros Hi Ho Hk HL [Hf Hg]. split; [now apply (with_array_list z F Hi Ho k pad f g) | now apply (with_array2d_list z F Hi Ho k pad f g)]. Qed.
  Lemma with_array_rows pad f g L : 0 < wi -> 0 < wo -> local_layer z 0 wi wo f g L -> local_fun z 0 f g F ->
    applies is_ragged is_ragged (fun _ => True) (with_array z L pad) F /\ applies is_ragged is_ragged some_row (with_array2d z L pad) F.
  Proof. intros Hi Ho HL [Hf Hg]. split; [now apply (with_array_ragged z F Hi Ho pad f g) | now apply (with_array2d_ragged z F Hi Ho pad f g)]. Qed.
  Lemma with_array_cells pad f g L : 0 < wi -> 0 < wo -> cell_layer wi wo f g L -> cell_fun f g F ->
    applies is_padded is_padded (fun _ => True) (with_array z L pad) F.
  Proof. intros Hi Ho HL (Hf & Hg & H1 & H2). now apply (with_array_padded z F Hi Ho pad f g). Qed.
  Lemma with_array2d_cells pad f g L : 0 < wi -> 0 < wo -> local_layer z 0 wi wo f g L ->
    cell_fun (fun x => f [x]) (fun x y => g [(x, y)]) F ->
    applies is_padded is_padded (fun _ => True) (with_array2d z L pad) F.
  Proof.
    intros Hi Ho HL (Hf & Hg & H1 & H2). apply (with_array2d_padded z F Hi Ho pad f g); try assumption.
    - intros s. now rewrite local0, Hf.
    - intros s d. rewrite local0, Hg. apply map_ext. intros [u v]. reflexivity.
  Qed.
  Lemma conversions : converts is_list is_array (fun seqs => seqs <> []) (list2array z) /\ converts is_list is_ragged some_row (list2ragged_layer z) /\
    converts is_ragged is_list (fun seqs => seqs <> []) (ragged2list z) /\ converts is_list is_padded (fun seqs => seqs <> []) (list2padded_layer z) /\
    converts is_padded is_list (fun seqs => seqs <> []) (padded2list_layer z).
  Proof. split; [apply list2array_ok|]. split; [apply list2ragged_ok|]. split; [apply ragged2list_ok|]. split; [apply list2padded_layer_ok | apply padded2list_layer_ok]. Qed.
End Bundles.
