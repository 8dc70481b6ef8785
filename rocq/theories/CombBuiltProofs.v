(** The chain rule for concatenation, residual, siamese, clone and the wrappers, and for any nesting. *)
From Verif Require Import CombModel CombSpec CombProofs CombDiffProofs MatProofs BaseFacts ReduceMaxProofs.
From Coq Require Import Reals Lra Lia.
Set Default Goal Selector "!".
Local Open Scope R_scope.

(** ** concatenate on arrays *)

Definition mm {A B} (f : A -> B) (m : mat A) : mat B := mkM (m_cols m) (map (map f) (m_rows m)).
Definition hst {T} (n : nat) (ms : list (mat T)) : mat T :=
  mkM (list_sum (map m_cols ms)) (map (fun i => concat (map (fun m => nth i (m_rows m) []) ms)) (seq 0 n)).
Fixpoint slices (D : mat R) (a : nat) (ws : list nat) : list (value R) :=
  match ws with [] => [] | w :: r => Arr2 (cols_of D a w) :: slices D (a + w) r end.
Fixpoint acc_all (dX : value R) (dXs : list (value R)) : result (value R) :=
  match dXs with [] => Ok dX | d :: r => let* x := acc_grad dX d in acc_all x r end.

Lemma hstack_ok {T} n (ms : list (mat T)) : ms <> [] -> Forall (fun m => length (m_rows m) = n) ms -> hstack ms = Ok (hst n ms).
Proof.
  intros Hne Hn. destruct ms as [|m ms]; [contradiction|]. unfold hstack.
  pose proof (Forall_inv Hn) as Hm. cbn in Hm. rewrite Hm.
  replace (forallb _ (m :: ms)) with true; [reflexivity|]. symmetry. apply forallb_forall. intros x Hx.
  rewrite Forall_forall in Hn. apply Nat.eqb_eq. now apply Hn.
Qed.
Lemma hst_mm {A B} (f : A -> B) n ms : mm f (hst n ms) = hst n (map (mm f) ms).
Proof.
  unfold mm, hst. cbn. rewrite !map_map. cbn. f_equal. apply map_ext. intros i. rewrite concat_map, !map_map. f_equal.
  apply map_ext. intros m. cbn. change (@nil B) with (map f []). now rewrite map_nth.
Qed.
Lemma nth_Forall {A} (P : A -> Prop) d l i : Forall P l -> (i < length l)%nat -> P (nth i l d).
Proof. intros H Hi. rewrite Forall_forall in H. apply H. now apply nth_In. Qed.
Lemma hst_row_length {T} n (ms : list (mat T)) i : Forall wf_mat ms -> Forall (fun m => length (m_rows m) = n) ms -> (i < n)%nat ->
  length (concat (map (fun m => nth i (m_rows m) []) ms)) = list_sum (map m_cols ms).
Proof.
  intros W L Hi. induction ms as [|m ms IH]; [reflexivity|].
  apply Forall_cons_iff in W as [Wm W]. apply Forall_cons_iff in L as [Lm L]. cbn. rewrite app_length, IH by assumption.
  f_equal. apply (nth_Forall (fun r => length r = m_cols m) [] (m_rows m) i Wm). lia.
Qed.
Lemma wf_hst {T} n (ms : list (mat T)) : Forall wf_mat ms -> Forall (fun m => length (m_rows m) = n) ms -> wf_mat (hst n ms).
Proof.
  intros W L. unfold wf_mat, hst. cbn. rewrite Forall_map, Forall_forall. intros i Hi. apply in_seq in Hi.
  apply (hst_row_length n); [exact W|exact L|lia].
Qed.

Lemma concat_back_split cbs D : forall ws a dX g dXs g' Z, call_back cbs (slices D a ws) g = Ok (dXs, g') ->
  acc_all dX dXs = Ok Z -> concat_back cbs ws a D dX g = Ok (Z, g').
Proof.
  induction cbs as [|c cbs IH]; intros ws a dX g dXs g' Z E EZ; cbn in E.
  - injection E as <- <-. cbn in EZ. injection EZ as <-. destruct ws; reflexivity.
  - destruct ws as [|w ws]; cbn in E.
    + injection E as <- <-. cbn in EZ. injection EZ as <-. reflexivity.
    + destruct (c (Arr2 (cols_of D a w)) g) as [p|e] eqn:Ec; [|discriminate]. cbn in E.
      destruct (call_back cbs (slices D (a + w) ws) (snd p)) as [[ds g1]|e] eqn:Er; [|discriminate].
      cbn in E. injection E as <- <-. cbn in EZ. destruct (acc_grad dX (fst p)) as [d|e] eqn:Ed; [|discriminate].
      cbn in *. rewrite Ec. cbn. rewrite Ed. cbn. now apply (IH ws (a + w)%nat d (snd p) ds g1 Z).
Qed.
Lemma acc_all_ok (l : list (value R)) : forall a, has_data a -> Forall (fun b => like b a) l ->
  acc_all a l = Ok (fold_left zadd l a).
Proof.
  induction l as [|b l IH]; intros a Ha Hl; cbn; [reflexivity|].
  apply Forall_cons_iff in Hl as [Hb Hl]. rewrite acc_grad_ok by (try assumption; now apply like_sym). cbn.
  pose proof (zadd_like a b Ha (like_sym _ _ Hb)) as L. apply IH.
  - now apply (has_data_like _ a).
  - eapply Forall_impl; [|exact Hl]. intros c Hc. eapply like_trans; [exact Hc|]. now apply like_sym.
Qed.

Lemma lens_const {A} n w (rows : list (list A)) : length rows = n -> Forall (fun r => length r = w) rows ->
  map (@length _) rows = repeat w n.
Proof. intros <-. induction 1; cbn; congruence. Qed.
Lemma list_sum_cons x l : list_sum (x :: l) = (x + list_sum l)%nat. Proof. reflexivity. Qed.
Lemma slices_like D : forall (ms : list (mat R)) a n, Forall wf_mat ms -> Forall (fun m => length (m_rows m) = n) ms ->
  length (m_rows D) = n -> m_cols D = (a + list_sum (map m_cols ms))%nat -> wf_mat D ->
  Forall2 like (slices D a (map m_cols ms)) (map Arr2 ms).
Proof.
  induction ms as [|m ms IH]; intros a n W L LD CD WD; cbn; constructor.
  - apply Forall_inv in W, L. apply like_Arr2_iff; cbn.
    + cbn [map] in CD. rewrite list_sum_cons in CD. lia.
    + rewrite (lens_const n (m_cols m) (m_rows m)) by assumption. apply lens_const; [now rewrite map_length|].
      rewrite Forall_map. eapply Forall_impl; [|exact WD]. intros r Hr. rewrite firstn_length, skipn_length, Hr, CD. cbn [map]. rewrite list_sum_cons. lia.
  - apply (IH _ n); try assumption.
    + eapply Forall_inv_tail; eassumption.
    + eapply Forall_inv_tail; eassumption.
    + rewrite CD. cbn [map]. rewrite list_sum_cons. lia.
Qed.
Lemma dot_concat (A : list (list R)) : forall B, map (@length _) A = map (@length _) B -> dot (concat A) (concat B) = mdot A B.
Proof.
  induction A as [|a A IH]; intros [|b B] E; cbn in E; try discriminate; [reflexivity|].
  injection E as E1 E2. cbn [concat]. rewrite dot_app by exact E1. rewrite mdot_cons, IH by exact E2. reflexivity.
Qed.
Lemma mdot_nth n (A B : list (list R)) : length A = n -> length B = n ->
  mdot A B = msum (map (fun i => dot (nth i A []) (nth i B [])) (seq 0 n)).
Proof.
  intros <-. revert B. induction A as [|a A IH]; intros [|b B] E; cbn in E; try discriminate; [reflexivity|].
  rewrite mdot_cons. cbn [length seq map]. rewrite msum_cons. cbn [nth]. f_equal.
  rewrite <- seq_shift, map_map. apply IH. congruence.
Qed.
Definition isumR (ds Vs : list (value R)) : R := msum (map (fun p => inner (fst p) (snd p)) (combine ds Vs)).
Lemma dot_nil_r a : dot a [] = 0. Proof. destruct a; reflexivity. Qed.
Lemma nth_map_d {A B} (f : A -> B) l i d d' : (i < length l)%nat -> nth i (map f l) d' = f (nth i l d).
Proof. intros Hi. rewrite (nth_indep _ d' (f d)) by now rewrite map_length. apply map_nth. Qed.
Lemma slices_sum D n : wf_mat D -> length (m_rows D) = n -> forall (vs : list (mat R)) a, Forall wf_mat vs ->
  Forall (fun m => length (m_rows m) = n) vs -> m_cols D = (a + list_sum (map m_cols vs))%nat ->
  isumR (slices D a (map m_cols vs)) (map Arr2 vs)
  = msum (map (fun i => dot (skipn a (nth i (m_rows D) [])) (concat (map (fun m => nth i (m_rows m) []) vs))) (seq 0 n)).
Proof.
  intros WD LD. induction vs as [|v vs IH]; intros a W L CD.
  - unfold isumR. cbn [map slices combine]. symmetry. transitivity (msum (map (fun _ : nat => 0) (seq 0 n))); [|apply msum_zero].
    apply msum_ext_in. intros i _. cbn. apply dot_nil_r.
  - pose proof (slices_like D (v :: vs) a n W L LD CD WD) as HL.
    apply Forall_cons_iff in W as [Wv W]. apply Forall_cons_iff in L as [Lv L].
    unfold isumR in *. cbn [map slices combine fst snd]. rewrite msum_cons. rewrite IH by (try assumption; rewrite CD; cbn [map]; rewrite list_sum_cons; lia).
    inversion HL as [|? ? ? ? H1 _]; subst. clear HL. apply like_Arr2 in H1 as (v' & Ev & E1 & E2). injection Ev as <-.
    unfold inner at 1. cbn [leaves]. rewrite dot_concat by exact E2.
    rewrite (mdot_nth (length (m_rows D))) by (try assumption; cbn; now rewrite map_length).
    rewrite <- msum_plus. apply msum_ext_in. intros i Hi. apply in_seq in Hi. cbn [m_rows cols_of].
    rewrite (nth_map_d _ _ i []) by lia.
    pose proof (nth_Forall (fun r => length r = m_cols D) [] (m_rows D) i WD ltac:(lia)) as Hr. cbn in Hr.
    cbn [map] in CD. rewrite list_sum_cons in CD. cbn [map concat].
    rewrite <- (firstn_skipn (m_cols v) (skipn a (nth i (m_rows D) []))) at 2. rewrite dot_app.
    + rewrite skipn_skipn. reflexivity.
    + rewrite firstn_length, skipn_length, Hr, CD.
      pose proof (nth_Forall (fun r => length r = m_cols v) [] (m_rows v) i Wv ltac:(lia)) as Hv. cbn in Hv. rewrite Hv. lia.
Qed.

Lemma all_mats {A} (Ys : list (value A)) : Forall is_mat Ys -> exists ms, Ys = map Arr2 ms.
Proof.
  induction 1 as [|Y Ys HY _ (ms & ->)]; [now exists []|]. destruct Y as [| |m| | | |]; try contradiction. now exists (m :: ms).
Qed.
Lemma as_mats {T} (ms : list (mat T)) : mapM as_mat (map Arr2 ms) = Ok ms.
Proof. induction ms as [|m ms IH]; cbn; [reflexivity|]. now rewrite IH. Qed.
Lemma mats_like (Ks : list (value jet)) : forall ms, map (vmap (at_time 0)) Ks = map Arr2 ms -> exists ks, Ks = map Arr2 ks /\ map (mm (at_time 0)) ks = ms.
Proof.
  induction Ks as [|K Ks IH]; intros [|m ms] E; cbn in E; try discriminate; [now exists []|].
  injection E as E1 E2. destruct (IH ms E2) as (ks & -> & E3). destruct K as [| |k| | | |]; cbn in E1; try discriminate.
  exists (k :: ks). split; [reflexivity|]. cbn. f_equal; [|exact E3]. unfold mm. now injection E1.
Qed.
Lemma mm_wf {A B} (f : A -> B) m : wf_mat m -> wf_mat (mm f m).
Proof. unfold wf_mat, mm. cbn. intros W. rewrite Forall_map. eapply Forall_impl; [|exact W]. intros r Hr. now rewrite map_length. Qed.
Lemma mm_wf_inv {A B} (f : A -> B) m : wf_mat (mm f m) -> wf_mat m.
Proof. unfold wf_mat, mm. cbn. intros W. rewrite Forall_map in W. eapply Forall_impl; [|exact W]. cbn. intros r Hr. now rewrite map_length in Hr. Qed.
Lemma mm_len {A B} (f : A -> B) m : length (m_rows (mm f m)) = length (m_rows m).
Proof. apply map_length. Qed.

Lemma array_forward_ok (ms : list (mat R)) cbs n : ms <> [] -> Forall (fun m => length (m_rows m) = n) ms ->
  exists b, array_forward (map Arr2 ms) cbs = Ok (Arr2 (hst n ms), b).
Proof. intros Hne L. unfold array_forward. rewrite as_mats. cbn. rewrite (hstack_ok n) by assumption. eexists. reflexivity. Qed.

Lemma concat_smooth (kms : list (mat jet)) n : Forall (fun m => length (m_rows m) = n) kms ->
  all_smooth (map Arr2 kms) -> Forall smooth (leaves (Arr2 (hst n kms))).
Proof.
  intros L S. cbn. apply Forall_forall. intros j Hj. apply in_concat in Hj as (row & Hrow & Hj).
  apply in_map_iff in Hrow as (i & <- & Hi). apply in_seq in Hi. apply in_concat in Hj as (r & Hr & Hj).
  apply in_map_iff in Hr as (m & <- & Hm). unfold all_smooth in S. rewrite Forall_map, Forall_forall in S.
  specialize (S m Hm). cbn in S. rewrite Forall_forall in S. apply S. apply in_concat.
  exists (nth i (m_rows m) []). split; [|exact Hj]. apply nth_In. rewrite Forall_forall in L. rewrite (L m Hm). lia.
Qed.

Lemma concat_ok tr theta ls X ms n : has_data X -> ls <> [] ->
  Forall2 (fun l Y => differentiates l tr theta X Y) ls (map Arr2 ms) ->
  Forall (fun m => length (m_rows m) = n) ms ->
  differentiates (concatenation ls) tr theta X (Arr2 (hst n ms)).
Proof.
  intros HX Hne HF HL. destruct (fan_ok tr theta ls X _ HF) as (cbs & Lc & Ec & Wc & Bc).
  assert (Hms : ms <> []).
  { intros ->. apply Forall2_len in HF. destruct ls; [contradiction|discriminate]. }
  assert (W : Forall wf_mat ms) by (rewrite Forall_map in Wc; exact Wc).
  unfold differentiates, concatenation. rewrite Ec. cbn [bind]. rewrite map_fst_combine, map_snd_combine by exact Lc.
  rewrite map_length in Lc.
  assert (Hd : forall (f : mat R -> mat R), match map Arr2 (map f ms) with
      | [] => Err ValueError | PyList _ :: _ => list_forward X (map Arr2 (map f ms)) cbs
      | Rag _ _ _ :: _ => ragged_forward (map Arr2 (map f ms)) cbs | _ => array_forward (map Arr2 (map f ms)) cbs end
      = array_forward (map Arr2 (map f ms)) cbs).
  { intros f. destruct ms; [contradiction|reflexivity]. }
  specialize (Hd (fun m => m)). rewrite map_id in Hd. rewrite Hd. clear Hd.
  unfold array_forward at 1. rewrite as_mats. cbn [bind]. rewrite (hstack_ok n) by assumption. cbn [bind].
  eexists. split; [reflexivity|]. split; [now apply wf_hst|]. intros dY g HdY Hg.
  destruct (like_Arr2 _ _ (like_sym _ _ HdY)) as (D & -> & CD & RD). cbn [as_mat bind].
  assert (LD : length (m_rows D) = n).
  { rewrite <- (lens_length _ _ RD). cbn. now rewrite map_length, seq_length. }
  assert (WD : wf_mat D) by (apply (wf_mat_lens D (hst n ms)); [now symmetry|now symmetry|now apply wf_hst]).
  assert (CD' : m_cols D = (0 + list_sum (map m_cols ms))%nat) by (rewrite <- CD; reflexivity).
  pose proof (slices_like D ms 0 n W HL LD CD' WD) as HS.
  destruct (Bc _ g HS Hg) as (dXs & g' & E2 & L2 & Ln & Lg & C2).
  destruct cbs as [|c cbs].
  { exfalso. destruct ms; [contradiction|discriminate]. }
  destruct ms as [|m ms]; [contradiction|]. cbn [map slices call_back] in E2. cbn [map].
  destruct (c (Arr2 (cols_of D 0 (m_cols m))) g) as [[dX g1]|e] eqn:E1; [|discriminate].
  cbn [bind fst snd] in *.
  destruct (call_back cbs (slices D (0 + m_cols m) (map m_cols ms)) g1) as [[dXs' g2]|e] eqn:E3; [|discriminate].
  cbn [bind fst snd] in *. injection E2 as <- <-.
  apply Forall_cons_iff in L2 as [L1 L2].
  assert (HdXs : Forall (fun d => like d dX) dXs').
  { eapply Forall_impl; [|exact L2]. intros d Hd. eapply like_trans; [exact Hd|now apply like_sym]. }
  assert (DdX : has_data dX) by now apply (has_data_like _ X).
  exists (fold_left zadd dXs' dX), g2. split.
  { apply (concat_back_split cbs D (map m_cols ms) (m_cols m) dX g1 dXs' g2); [exact E3|]. now apply acc_all_ok. }
  split; [eapply like_trans; [now apply zsum_like|exact L1]|]. split; [exact Lg|].
  intros P K HP HK SP SK. destruct (C2 P K HP HK SP SK) as (Ks & LK & SKs & FK & AK).
  assert (Lc' : length (c :: cbs) = length (map (@Arr2 R) (m :: ms))) by (rewrite map_length; exact Lc).
  assert (Bs : map (vmap (at_time 0)) Ks = map Arr2 (m :: ms)) by exact (at_zero_all _ _ _ _ _ _ _ _ _ Ec Lc' HP HK LK FK).
  destruct (mats_like Ks (m :: ms) Bs) as (ks & -> & Eks).
  assert (Lks : Forall (fun k => length (m_rows k) = n) ks).
  { rewrite <- Eks in HL. rewrite Forall_map in HL. eapply Forall_impl; [|exact HL]. cbn. intros k Hk. now rewrite map_length in Hk. }
  assert (Wks : Forall wf_mat ks).
  { rewrite <- Eks in W. rewrite Forall_map in W. eapply Forall_impl; [|exact W]. cbn. intros k Hk. now apply (mm_wf_inv (at_time 0)). }
  assert (Hks : ks <> []) by (intros ->; discriminate).
  exists (Arr2 (hst n ks)). split; [now apply concat_smooth|]. split.
  - intros s. destruct (FK s) as (cbs' & L' & Ec'). rewrite Ec'. cbn [bind].
    rewrite map_fst_combine, map_snd_combine by (rewrite !map_length in *; congruence).
    replace (map (vmap (at_time s)) (map Arr2 ks)) with (map Arr2 (map (mm (at_time s)) ks)) by (rewrite !map_map; reflexivity).
    destruct (array_forward_ok (map (mm (at_time s)) ks) cbs' n) as (b' & Eb').
    + intros E. apply map_eq_nil in E. contradiction.
    + rewrite Forall_map. eapply Forall_impl; [|exact Lks]. intros k Hk. now rewrite mm_len.
    + exists b'. cbn [vmap]. change (mkM _ _) with (mm (at_time s) (hst n ks)). rewrite hst_mm, <- Eb'.
      destruct ks; [contradiction|reflexivity].
  - cbn [vmap]. change (mkM _ _) with (mm velocity (hst n ks)). rewrite hst_mm.
    assert (Wv : Forall wf_mat (map (mm velocity) ks)).
    { rewrite Forall_map. eapply Forall_impl; [|exact Wks]. intros k Hk. now apply mm_wf. }
    assert (Lv : Forall (fun k => length (m_rows k) = n) (map (mm velocity) ks)).
    { rewrite Forall_map. eapply Forall_impl; [|exact Lks]. intros k Hk. now rewrite mm_len. }
    assert (Cv : map m_cols (map (mm velocity) ks) = map m_cols (m :: ms)).
    { rewrite <- Eks. rewrite !map_map. reflexivity. }
    pose proof (slices_sum D n WD LD (map (mm velocity) ks) 0 Wv Lv) as Q. rewrite Cv in Q. specialize (Q CD').
    assert (Q1 : inner (Arr2 D) (Arr2 (hst n (map (mm velocity) ks)))
                 = isumR (slices D 0 (map m_cols (m :: ms))) (map Arr2 (map (mm velocity) ks))).
    { rewrite Q. unfold inner. cbn [leaves]. rewrite dot_concat.
      - rewrite (mdot_nth n) by (try exact LD; cbn; now rewrite map_length, seq_length).
        apply msum_ext_in. intros i Hi. apply in_seq in Hi. cbn [skipn hst m_rows].
        rewrite (nth_map_d _ _ i 0%nat) by (rewrite seq_length; lia). rewrite seq_nth by lia. reflexivity.
      - rewrite (lens_const n (m_cols D) (m_rows D) LD WD). symmetry. apply lens_const.
        + cbn. now rewrite map_length, seq_length.
        + pose proof (wf_hst n _ Wv Lv) as W2. unfold wf_mat in W2. cbn [m_cols hst] in W2. rewrite Cv in W2.
          rewrite CD'. exact W2. }
    rewrite Q1. rewrite inner_zsum_l by assumption.
    transitivity (isum (slices D 0 (map m_cols (m :: ms))) (map Arr2 ks)).
    + unfold isumR, isum. clear. revert ks. generalize (slices D 0 (map m_cols (m :: ms))). intros sl.
      induction sl as [|d sl IH]; intros [|k ks]; cbn [map combine]; try reflexivity. rewrite !msum_cons. f_equal. apply IH.
    + rewrite AK. cbn [map]. rewrite msum_cons. ring.
Qed.

(** ** residual *)

Definition zaddl {T} `{Num T} (a b : value T) : value T :=
  match a, b with
  | PyList l, PyList l' => PyList (map (fun p => zadd (fst p) (snd p)) (combine l l'))
  | Pad _ _ _ _ _, _ => zadd b a
  | _, _ => zadd a b
  end.
Lemma can_residual_like {A B} (v : value A) (w : value B) : like v w -> can_residual w -> can_residual v.
Proof.
  intros E. destruct v as [|u|m|m k l|k d s l i|l|l], w as [|u'|m'|m' k' l'|k' d' s' l' i'|l'|l']; unfold like in E; cbn in E; try discriminate; cbn; try tauto.
  - intros H. injection E as E1 E2 _ _. rewrite E1. apply units2_eq in E2. now rewrite (lens_length _ _ E2).
  - injection E as E. apply units_items in E. intros H. clear -E H. induction E as [|x y l l' Hx _ IH]; [constructor|].
    apply Forall_cons_iff in H as [H1 H2]. constructor; [now apply (is_array_like _ y)|now apply IH].
Qed.
Lemma zaddl_like {T} `{Num T} (a b : value T) : can_residual a -> like b a -> like (zaddl a b) a.
Proof.
  intros Ha E. destruct a as [|u|m|m k l|k d s l i|l|l]; try contradiction.
  - now apply zadd_like; [|apply like_sym].
  - now apply zadd_like; [|apply like_sym].
  - now apply zadd_like; [|apply like_sym].
  - eapply like_trans; [|exact E]. apply (zadd_like b); [|exact E]. now apply (has_data_like _ (Pad k d s l i)).
  - destruct (like_PyList _ _ (like_sym _ _ E)) as (l' & -> & E1). cbn in *. apply like_items_list. clear E.
    induction E1 as [|x y l l' Hx _ IH]; cbn; [constructor|]. apply Forall_cons_iff in Ha as [H1 H2].
    constructor; [|now apply IH]. apply zadd_like; [now apply array_has_data|exact Hx].
Qed.
Lemma zaddl_inner_r d (a b : value R) : can_residual a -> like b a -> like d a -> inner d (zaddl a b) = inner d a + inner d b.
Proof.
  intros Ha E Ed. destruct a as [|u|m|m k l|k e s l i|l|l]; try contradiction.
  - now apply inner_zadd_r; [|apply like_sym].
  - now apply inner_zadd_r; [|apply like_sym].
  - now apply inner_zadd_r; [|apply like_sym].
  - cbn [zaddl]. rewrite inner_zadd_r; [ring|now apply (has_data_like _ (Pad k e s l i))|exact E].
  - destruct (like_PyList _ _ (like_sym _ _ E)) as (l' & -> & E1).
    destruct (like_PyList _ _ (like_sym _ _ Ed)) as (ds & -> & E2). clear E Ed. cbn in Ha. unfold inner. cbn [leaves zaddl].
    revert ds E2. induction E1 as [|x y l l' Hx _ IH]; intros ds E2; inversion E2 as [|? d0 ? ds' H3 H4]; subst; [cbn; ring|].
    apply Forall_cons_iff in Ha as [H1 H2]. cbn [map combine concat fst snd].
    rewrite !dot_app.
    + rewrite (IH H2 ds' H4). pose proof (inner_zadd_r d0 x y (array_has_data _ H1) Hx) as Q. unfold inner in Q. rewrite Q. ring.
    + apply like_leaves. eapply like_trans; [apply like_sym; exact H3|exact Hx].
    + now apply like_leaves, like_sym.
    + apply like_leaves. eapply like_trans; [apply like_sym; exact H3|]. apply like_sym. apply zadd_like; [now apply array_has_data|exact Hx].
Qed.
Lemma zaddl_inner_l d (a b : value R) : can_residual a -> like b a -> like d a -> inner (zaddl a b) d = inner a d + inner b d.
Proof. intros. rewrite inner_comm, zaddl_inner_r by assumption. now rewrite (inner_comm d a), (inner_comm d b). Qed.
Lemma zaddl_vmap {A B} `{Num A} `{Num B} (h : A -> B) : (forall x y, h (nadd x y) = nadd (h x) (h y)) ->
  forall a b, vmap h (zaddl a b) = zaddl (vmap h a) (vmap h b).
Proof.
  intros Hh a b. destruct a as [|u|m|m k l|k d s l i|l|l], b as [|u'|m'|m' k' l'|k' d' s' l' i'|l'|l']; try reflexivity;
    try (change (vmap h (zadd ?a ?b)) with (vmap h (zadd a b))); cbn [zaddl vmap].
  all: try exact (zadd_vmap h Hh (Arr1 u) (Arr1 u')).
  all: try exact (zadd_vmap h Hh (Arr2 m) (Arr2 m')).
  all: try exact (zadd_vmap h Hh (Rag m k l) (Rag m' k' l')).
  all: try exact (zadd_vmap h Hh (Pad k' d' s' l' i') (Pad k d s l i)).
  f_equal. revert l'. induction l as [|x l IH]; intros [|y l']; try reflexivity. cbn. f_equal; [now apply zadd_vmap|apply IH].
Qed.
Lemma zaddl_smooth a b : can_residual a -> like b a -> Forall smooth (leaves a) -> Forall smooth (leaves b) -> Forall smooth (leaves (zaddl a b)).
Proof.
  intros Ha E Sa Sb. destruct a as [|u|m|m k l|k e s l i|l|l]; try contradiction.
  - now apply smooth_zadd; [|apply like_sym| |].
  - now apply smooth_zadd; [|apply like_sym| |].
  - now apply smooth_zadd; [|apply like_sym| |].
  - apply (smooth_zadd b); try assumption. now apply (has_data_like _ (Pad k e s l i)).
  - destruct (like_PyList _ _ (like_sym _ _ E)) as (l' & -> & E1). clear E. cbn in *.
    induction E1 as [|x y l l' Hx _ IH]; cbn in *; [constructor|]. apply Forall_cons_iff in Ha as [H1 H2].
    apply Forall_app in Sa as [Sx Sa]. apply Forall_app in Sb as [Sy Sb]. apply Forall_app. split; [|now apply IH].
    apply smooth_zadd; try assumption. now apply array_has_data.
Qed.
Lemma add_items_ok {T} `{Num T} (a b : list (value T)) : Forall is_array a -> Forall2 like a b ->
  add_items a b = Ok (map (fun p => zadd (fst p) (snd p)) (combine a b)).
Proof.
  intros Ha E. induction E as [|x y a b Hx _ IH]; cbn; [reflexivity|]. apply Forall_cons_iff in Ha as [H1 H2].
  rewrite vadd_ok by assumption. cbn. now rewrite IH.
Qed.

(** The two places where [residual] adds. *)
Definition res_out {T} `{Num T} (X Y : value T) : result (value T) :=
  match X with
  | PyList xs => let* ys := as_seq Y in let* r := add_items xs ys in Ok (PyList r)
  | Rag m w lens => let* y := as_rag Y in let* r := madd m (fst (fst y)) in Ok (mk_rag r lens)
  | Pad w d s le i => match Y with
                      | Pad w' d' s' le' i' => let* r := add3 w' d' w d in Ok (Pad w' r s' le' i')
                      | _ => Err TypeError
                      end
  | _ => vadd X Y
  end.
Definition res_back {T} `{Num T} (X d_output dX : value T) : result (value T) :=
  match d_output with
  | PyList ds => let* xs := as_seq dX in let* r := add_items ds xs in Ok (PyList r)
  | Rag m w lens => let* x := as_rag dX in let* r := madd m (fst (fst x)) in Ok (mk_rag r (snd x))
  | _ => match X, dX, d_output with
         | Pad _ _ _ _ _, Pad w d s le i, Pad w' d' _ _ _ => let* r := add3 w d w' d' in Ok (Pad w r s le i)
         | Pad _ _ _ _ _, _, _ => Err TypeError
         | _, x, _ => vadd d_output x
         end
  end.
Lemma residual_eq (l : layer R) tr theta X : residual l tr theta X =
  let* yb := l tr theta X in let* Y := res_out X (fst yb) in
  Ok (Y, fun d_output g => let* p := snd yb d_output g in let* dX := res_back X d_output (fst p) in Ok (dX, snd p)).
Proof. reflexivity. Qed.

Lemma mk_rag_sum {T} `{Num T} (m n : mat T) w lens : wfv (Rag m w lens) -> (length (m_rows m) * m_cols m)%nat <> 0%nat ->
  map (@length _) (m_rows m) = map (@length _) (m_rows n) ->
  mk_rag (mkM (m_cols m) (rows_add (m_rows m) (m_rows n))) lens = Rag (mkM (m_cols m) (rows_add (m_rows m) (m_rows n))) w lens.
Proof.
  intros [_ W] Hne E. unfold mk_rag. cbn [m_rows m_cols]. rewrite rows_add_length by now apply lens_length.
  apply Nat.eqb_neq in Hne. rewrite Hne in *. now subst w.
Qed.
Lemma res_out_ok {T} `{Num T} (X Y : value T) : can_residual X -> wfv X -> like Y X -> res_out X Y = Ok (zaddl X Y).
Proof.
  intros HX W E. apply like_sym in E. destruct X as [|u|m|m k l|k d s l i|l|l]; try contradiction.
  - now apply vadd_ok.
  - now apply vadd_ok.
  - destruct (like_Rag _ _ _ _ E) as (n & -> & E1 & E2). cbn. rewrite madd_ok by assumption. cbn.
    f_equal. now apply mk_rag_sum.
  - destruct (like_Pad _ _ _ _ _ _ E) as (e & -> & E1). cbn. rewrite add3_ok by now symmetry. reflexivity.
  - destruct (like_PyList _ _ E) as (l' & -> & E1). cbn. rewrite add_items_ok by assumption. reflexivity.
Qed.
Lemma res_back_ok {T} `{Num T} (X D dX : value T) : can_residual X -> wfv X -> like D X -> like dX X -> res_back X D dX = Ok (zaddl D dX).
Proof.
  intros HX W ED E. assert (HD : can_residual D) by now apply (can_residual_like _ X).
  assert (WD : wfv D) by now apply (wfv_like X).
  assert (E' : like D dX) by (eapply like_trans; [exact ED|now apply like_sym]). clear E.
  destruct D as [|u|m|m k l|k d s l i|l|l]; try contradiction.
  - destruct (like_Arr1 _ _ ED) as (v & -> & _). cbn [res_back]. now apply vadd_ok.
  - destruct (like_Arr2 _ _ ED) as (v & -> & _). cbn [res_back]. now apply vadd_ok.
  - destruct (like_Rag _ _ _ _ E') as (n & -> & E1 & E2). cbn. rewrite madd_ok by assumption. cbn.
    f_equal. now apply mk_rag_sum.
  - destruct (like_Pad _ _ _ _ _ _ ED) as (x & -> & _). destruct (like_Pad _ _ _ _ _ _ E') as (e & -> & E1). cbn.
    rewrite add3_ok by now symmetry. reflexivity.
  - destruct (like_PyList _ _ E') as (l' & -> & E1). cbn. rewrite add_items_ok by assumption. reflexivity.
Qed.

Lemma residual_ok tr theta l X Y : can_residual X -> wfv X -> like Y X -> differentiates l tr theta X Y ->
  differentiates (residual l) tr theta X (zaddl X Y).
Proof.
  intros HX WX LY (b & Eb & Wb & Bb). unfold differentiates. rewrite residual_eq, Eb. cbn [bind fst snd].
  rewrite res_out_ok by assumption. cbn [bind]. pose proof (zaddl_like X Y HX LY) as LZ.
  eexists. split; [reflexivity|]. split; [now apply (wfv_like X)|]. intros dY g HdY Hg.
  assert (LdX : like dY X) by (eapply like_trans; [exact HdY|exact LZ]).
  assert (LdY : like dY Y) by (eapply like_trans; [exact LdX|now apply like_sym]).
  destruct (Bb dY g LdY Hg) as (dX & g' & E1 & L1 & Lg & C). rewrite E1. cbn [bind fst snd].
  rewrite res_back_ok by assumption. cbn [bind]. eexists _, g'. split; [reflexivity|].
  assert (HD : can_residual dY) by now apply (can_residual_like _ X).
  assert (LD : like dX dY) by (eapply like_trans; [exact L1|now apply like_sym]).
  split; [eapply like_trans; [now apply zaddl_like|exact LdX]|]. split; [exact Lg|].
  intros P K HP HK SP SK. destruct (C P K HP HK SP SK) as (K' & SK' & F & A).
  assert (B' : vmap (at_time 0) K' = Y).
  { destruct (F 0) as (b' & E'). rewrite HP, HK, Eb in E'. now injection E'. }
  assert (LK : like K X) by (rewrite <- HK; apply like_sym, like_vmap).
  assert (LK' : like K' Y) by (rewrite <- B'; apply like_sym, like_vmap).
  assert (LKK : like K' K) by (eapply like_trans; [exact LK'|]; eapply like_trans; [exact LY|now apply like_sym]).
  assert (RK : can_residual K) by now apply (can_residual_like _ X).
  exists (zaddl K K'). split; [now apply zaddl_smooth|]. split.
  - intros s. destruct (F s) as (b' & E'). rewrite residual_eq, E'. cbn [bind fst snd]. rewrite res_out_ok.
    + cbn [bind]. rewrite (@zaddl_vmap jet R num_jet num_R (at_time s) (at_add s)). eexists. reflexivity.
    + apply (can_residual_like _ K); [apply like_vmap|exact RK].
    + apply (wfv_like X); [|exact WX]. eapply like_trans; [apply like_vmap|exact LK].
    + eapply like_trans; [apply like_vmap|]. eapply like_trans; [exact LKK|]. apply like_sym, like_vmap.
  - rewrite (@zaddl_vmap jet R num_jet num_R velocity velocity_add).
    assert (LV : like (vmap velocity K) X) by (eapply like_trans; [apply like_vmap|exact LK]).
    rewrite zaddl_inner_r.
    + rewrite zaddl_inner_l; [rewrite A; ring|assumption|assumption|].
      eapply like_trans; [exact LV|now apply like_sym].
    + apply (can_residual_like _ X); [exact LV|exact HX].
    + eapply like_trans; [apply like_vmap|]. eapply like_trans; [exact LKK|]. apply like_sym, like_vmap.
    + eapply like_trans; [exact LdX|now apply like_sym].
Qed.

(** ** siamese, clone and the wrappers *)

Lemma siamese_ok tr theta l sim X1 X2 Y1 Y2 Z :
  differentiates l tr theta X1 Y1 -> differentiates l tr theta X2 Y2 -> differentiates sim tr theta (PyTup [Y1; Y2]) Z ->
  differentiates (siamese l sim) tr theta (PyTup [X1; X2]) Z.
Proof.
  intros (b1 & E1 & W1 & B1) (b2 & E2 & W2 & B2) (b3 & E3 & W3 & B3).
  unfold differentiates, siamese. cbn [as_pair bind fst snd]. rewrite E1. cbn [bind fst snd]. rewrite E2. cbn [bind fst snd].
  rewrite E3. cbn [bind fst snd]. eexists. split; [reflexivity|]. split; [exact W3|]. intros dY g HdY Hg.
  destruct (B3 dY g HdY Hg) as (dV & g3 & F3 & L3 & Lg3 & C3). rewrite F3. cbn [bind fst snd].
  destruct (like_PyTup _ _ (like_sym _ _ L3)) as (ds & -> & Lds).
  inversion Lds as [|? d1 ? ds' H1 Lds']; subst. inversion Lds' as [|? d2 ? ds'' H2 Lds'']; subst. inversion Lds''; subst.
  cbn [as_pair bind fst snd]. clear Lds Lds' Lds''. apply like_sym in H1, H2.
  destruct (B1 d1 g3 H1 Lg3) as (dX1 & g1 & F1 & L1 & Lg1 & C1). rewrite F1. cbn [bind fst snd].
  destruct (B2 d2 g1 H2 Lg1) as (dX2 & g2 & F2 & L2 & Lg2 & C2). rewrite F2. cbn [bind fst snd].
  eexists _, g2. split; [reflexivity|]. split; [apply like_items_tup; repeat constructor; assumption|]. split; [exact Lg2|].
  intros P K HP HK SP SK. destruct K as [| | | | | |Ks]; cbn in HK; try discriminate.
  destruct Ks as [|K1 [|K2 [|]]]; cbn in HK; try discriminate. injection HK as HK1 HK2.
  cbn in SK. apply Forall_app in SK as [SK1 SK]. rewrite app_nil_r in SK.
  destruct (C1 P K1 HP HK1 SP SK1) as (V1 & SV1 & G1 & A1). destruct (C2 P K2 HP HK2 SP SK) as (V2 & SV2 & G2 & A2).
  assert (HV1 : vmap (at_time 0) V1 = Y1). { destruct (G1 0) as (b' & E'). rewrite HP, HK1, E1 in E'. now injection E'. }
  assert (HV2 : vmap (at_time 0) V2 = Y2). { destruct (G2 0) as (b' & E'). rewrite HP, HK2, E2 in E'. now injection E'. }
  destruct (C3 P (PyTup [V1; V2]) HP) as (Z' & SZ & G3 & A3).
  - cbn. congruence.
  - exact SP.
  - cbn. apply Forall_app. split; [exact SV1|]. now rewrite app_nil_r.
  - exists Z'. split; [exact SZ|]. split.
    + intros s. destruct (G1 s) as (b1' & E1'). destruct (G2 s) as (b2' & E2'). destruct (G3 s) as (b3' & E3').
      cbn [vmap map as_pair bind fst snd]. rewrite E1'. cbn [bind fst snd]. rewrite E2'. cbn [bind fst snd].
      cbn [vmap map] in E3'. rewrite E3'. eexists. reflexivity.
    + rewrite A3. rewrite !tuple_leaves_sum.
      * unfold isum. cbn [combine map fst snd]. rewrite !msum_cons. change (msum []) with 0. rewrite A1, A2. ring.
      * repeat constructor; [eapply like_trans; [exact L1|]; rewrite <- HK1; apply like_vmap|eapply like_trans; [exact L2|]; rewrite <- HK2; apply like_vmap].
      * repeat constructor; [eapply like_trans; [exact H1|]; rewrite <- HV1; apply like_vmap|eapply like_trans; [exact H2|]; rewrite <- HV2; apply like_vmap].
Qed.
Lemma clone_ok tr theta l copies n c X Y : clone l copies n = Ok c -> (n <> 0)%Z ->
  chained (fun l X Y => differentiates l tr theta X Y) (l :: map copies (seq 0 (Z.to_nat (n - 1)))) X Y ->
  differentiates c tr theta X Y.
Proof.
  unfold clone. intros E Hn H. apply Z.eqb_neq in Hn. rewrite Hn in E. destruct (Z.eqb n 1) eqn:E1.
  - injection E as <-. apply Z.eqb_eq in E1. subst n. cbn in H. inversion H as [? ? ? H1|? ? ? ? ? H1 H2]; subst; [exact H1|]. inversion H2.
  - destruct (n <? 0)%Z; [discriminate|]. injection E as <-. now apply chain_ok.
Qed.
Lemma clone_zero tr theta l copies X : wfv X -> exists c, clone l copies 0 = Ok c /\ differentiates c tr theta X X.
Proof. intros W. exists noop. split; [reflexivity|now apply noop_ok]. Qed.
Lemma debug_ok tr theta l f h X Y : (forall X' tr', f X' tr' = Ok tt) -> (forall d, h d = Ok tt) ->
  differentiates l tr theta X Y -> differentiates (with_debug l f h) tr theta X Y.
Proof.
  intros Hf Hh (b & E & W & B). unfold differentiates, with_debug. rewrite Hf. cbn [bind]. rewrite E. cbn [bind fst snd].
  eexists. split; [reflexivity|]. split; [exact W|]. intros dY g H1 H2. rewrite Hh. cbn [bind].
  destruct (B dY g H1 H2) as (dX & g' & E' & L & Lg & C). exists dX, g'. repeat split; try assumption.
  intros P K HP HK SP SK. destruct (C P K HP HK SP SK) as (K' & S' & F & A). exists K'. repeat split; try assumption.
  intros s. destruct (F s) as (b' & Eb). rewrite Hf. cbn [bind]. rewrite Eb. eexists. reflexivity.
Qed.
Lemma resizable_ok tr theta l X Y : differentiates l tr theta X Y -> differentiates (resizable l) tr theta X Y.
Proof.
  intros (b & E & W & B). unfold differentiates, resizable. rewrite E. cbn [bind fst snd].
  eexists. split; [reflexivity|]. split; [exact W|]. intros dY g H1 H2.
  destruct (B dY g H1 H2) as (dX & g' & E' & L & Lg & C). exists dX, g'. repeat split; try assumption.
  intros P K HP HK SP SK. destruct (C P K HP HK SP SK) as (K' & S' & F & A). exists K'. repeat split; try assumption.
  intros s. destruct (F s) as (b' & Eb). rewrite Eb. eexists. reflexivity.
Qed.

(** ** Any nesting *)

Lemma gives_unique L tr theta X Y Z : differentiates L tr theta X Y -> gives L tr theta X Z -> differentiates L tr theta X Z.
Proof. intros (b & E & H) (b' & E'). rewrite E in E'. injection E' as <- <-. exists b. split; [exact E|exact H]. Qed.

Scheme built_mut := Induction for built Sort Prop
with built_chain_mut := Induction for built_chain Sort Prop
with built_all_mut := Induction for built_all Sort Prop
with built_map_mut := Induction for built_map Sort Prop.

Lemma built_ok tr theta l X Y : built tr theta l X Y -> differentiates l tr theta X Y.
Proof.
  revert l X Y.
  apply (built_mut tr theta (fun l X Y _ => differentiates l tr theta X Y)
           (fun ls X Y _ => chained (fun l X Y => differentiates l tr theta X Y) ls X Y)
           (fun ls X Ys _ => Forall2 (fun l Y => differentiates l tr theta X Y) ls Ys)
           (fun l Xs Ys _ => Forall2 (fun X Y => differentiates l tr theta X Y) Xs Ys)); intros.
  - assumption.
  - now apply noop_ok.
  - now apply chain_ok.
  - eapply gives_unique; [|eassumption]. eapply add_ok; eassumption.
  - match goal with H : Forall is_mat _ |- _ => destruct (all_mats _ H) as (ms & ->) end.
    eapply gives_unique; [|eassumption].
    apply (concat_ok tr theta ls X ms n); try assumption.
    match goal with H : Forall (fun Y => rows_in Y = n) _ |- _ => rewrite Forall_map in H; exact H end.
  - eapply gives_unique; [|eassumption]. eapply residual_ok; eassumption.
  - now apply tuplify_ok.
  - eapply siamese_ok; eassumption.
  - now apply map_list_ok.
  - eapply clone_ok; eassumption.
  - now apply debug_ok.
  - now apply resizable_ok.
  - now constructor.
  - econstructor; eassumption.
  - constructor.
  - now constructor.
  - constructor.
  - now constructor.
Qed.

Lemma add_ex tr theta l ls X Y Ys : is_array X -> is_array Y ->
  differentiates l tr theta X Y -> Forall2 (fun l Y => differentiates l tr theta X Y) ls Ys ->
  Forall (fun Y' => like Y' Y) Ys -> exists Z, iadd_all Y Ys = Ok Z /\ differentiates (add (l :: ls)) tr theta X Z.
Proof. intros. eexists. split; [now apply iadd_all_ok|]. now apply add_ok. Qed.
Lemma concat_ex tr theta ls X ms n : has_data X -> ls <> [] ->
  Forall2 (fun l m => differentiates l tr theta X (Arr2 m)) ls ms -> Forall (fun m => length (m_rows m) = n) ms ->
  exists m, hstack ms = Ok m /\ differentiates (concatenation ls) tr theta X (Arr2 m).
Proof.
  intros HX Hne HF HL. exists (hst n ms). split.
  - apply hstack_ok; [|exact HL]. intros ->. inversion HF; subst. contradiction.
  - apply concat_ok; try assumption. clear -HF. induction HF; cbn; constructor; assumption.
Qed.
Lemma residual_ex tr theta l X Y : can_residual X -> wfv X -> like Y X -> differentiates l tr theta X Y ->
  exists Z, gives (residual l) tr theta X Z /\ like Z X /\ differentiates (residual l) tr theta X Z.
Proof.
  intros HX W L H. pose proof (residual_ok tr theta l X Y HX W L H) as D. exists (zaddl X Y).
  split; [|split; [now apply zaddl_like|exact D]]. destruct D as (b & E & _). now exists b.
Qed.

(** ** The example layer *)

Lemma dot_set_nth i x : forall (g v : list R) , (i < length g)%nat -> length g = length v ->
  dot (set_nth i x g) v = dot g v + (x - nth i g 0) * nth i v 0.
Proof.
  induction i as [|i IH]; intros [|a g] [|b v] Hi L; cbn in Hi, L; try lia.
  - cbn [set_nth nth]. rewrite !dot_cons. ring.
  - cbn [set_nth nth]. rewrite !dot_cons, IH by lia. ring.
Qed.
Lemma leaves_mat_map {A B} (f : A -> B) (m : mat A) : concat (map (map f) (m_rows m)) = map f (concat (m_rows m)).
Proof. symmetry. apply concat_map. Qed.
Lemma set_nth_len {A} i (x : A) : forall l, length (set_nth i x l) = length l.
Proof. intros l. apply set_nth_length. Qed.
Lemma scale_vel_dot p : forall d ks, length d = length ks ->
  dot d (map velocity (map (nmul p) ks)) = at_time 0 p * dot d (map velocity ks) + velocity p * dot d (map (at_time 0) ks).
Proof.
  induction d as [|x d IH]; intros [|k ks] E; cbn in E; try discriminate; [cbn; ring|].
  injection E as E. cbn [map]. rewrite !dot_cons, IH by exact E. unfold velocity at 1. cbn. unfold velocity, at_time. ring.
Qed.
Lemma scale_ok i tr theta m : wf_mat m -> (i < length theta)%nat ->
  differentiates (scale i) tr theta (Arr2 m) (Arr2 (mkM (m_cols m) (map (map (Rmult (nth i theta 0))) (m_rows m)))).
Proof.
  intros W Hi. unfold differentiates, scale.
  rewrite (nth_error_nth' theta 0 Hi).
  eexists. split; [reflexivity|]. split.
  { cbn. unfold wf_mat. cbn. rewrite Forall_map. eapply Forall_impl; [|exact W]. intros r Hr. now rewrite map_length. }
  intros dY g HdY Hg. destruct (like_Arr2 _ _ (like_sym _ _ HdY)) as (d & -> & C & R). cbn [m_cols m_rows] in *.
  assert (R' : map (@length _) (m_rows m) = map (@length _) (m_rows d)).
  { rewrite map_map in R. erewrite map_ext in R; [exact R|]. intros r. apply map_length. }
  eexists _, _. split; [reflexivity|]. split.
  { apply like_Arr2_iff; cbn; [congruence|]. rewrite R'. rewrite map_map. apply map_ext. intros r. apply map_length. }
  split; [now rewrite set_nth_len|]. intros P K HP HK SP SK.
  destruct K as [| |k| | | |]; cbn in HK; try discriminate. injection HK as HK.
  assert (Hp : (i < length P)%nat) by (rewrite <- HP, map_length in Hi; exact Hi).
  set (p := nth i P (nZ 0)).
  assert (Ep : forall s, nth_error (map (at_time s) P) i = Some (at_time s p)).
  { intros s. rewrite nth_error_map. now rewrite (nth_error_nth' P (nZ 0) Hp). }
  assert (E0 : nth i theta 0 = at_time 0 p).
  { rewrite <- HP. specialize (Ep 0). apply nth_error_nth with (d := 0) in Ep. exact Ep. }
  assert (Sp : smooth p) by (rewrite Forall_forall in SP; apply SP; now apply nth_In).
  exists (Arr2 (mkM (m_cols k) (map (map (nmul p)) (m_rows k)))). split; [|split].
  - cbn [leaves m_rows]. rewrite leaves_mat_map. cbn in SK. rewrite Forall_map. eapply Forall_impl; [|exact SK].
    intros j Hj. now apply smooth_mul.
  - intros s. rewrite Ep. cbn [vmap].
    replace (map (map (at_time s)) (m_rows (mkM (m_cols k) (map (map (nmul p)) (m_rows k)))))
      with (map (map (nmul (at_time s p))) (map (map (at_time s)) (m_rows k))).
    + eexists. reflexivity.
    + cbn. rewrite !map_map. apply map_ext. intros r. rewrite !map_map. reflexivity.
  - unfold inner. cbn [leaves vmap m_rows]. rewrite <- !concat_map.
    assert (Lk : length (concat (m_rows d)) = length (concat (m_rows k))).
    { rewrite <- (map_length (at_time 0) (concat (m_rows k))), concat_map. apply (f_equal m_rows) in HK. cbn in HK. rewrite HK.
      clear -R'. revert R'. generalize (m_rows m). intros rows. revert rows. induction (m_rows d) as [|a l IH]; intros [|b rows] E; cbn in E; try discriminate; [reflexivity|].
      injection E as E1 E2. cbn. rewrite !app_length. f_equal; [congruence|now apply IH]. }
    rewrite scale_vel_dot by exact Lk. rewrite E0.
    assert (LV : length g = length (map velocity P)) by (rewrite map_length; rewrite <- HP, map_length in Hg; exact Hg).
    rewrite dot_set_nth by (try exact LV; rewrite Hg; exact Hi).
    replace (nth i (map velocity P) 0) with (velocity p).
    2:{ symmetry. apply (nth_map_d velocity P i (nZ 0) 0 Hp). }
    change (map (nmul (at_time 0 p)) (concat (m_rows d))) with (map (fun x => at_time 0 p * x) (concat (m_rows d))).
    rewrite dot_scale_l. rewrite nsum_msum.
    change (msum (vmap2 nmul (concat (m_rows d)) (concat (m_rows m)))) with (dot (concat (m_rows d)) (concat (m_rows m))).
    apply (f_equal m_rows) in HK. cbn [m_rows] in HK. rewrite <- HK, leaves_mat_map. cbn. ring.
Qed.

(** ** Values that cannot be added *)

Lemma add_ragged_raises tr theta l1 l2 ls X m w lens b1 Y2 b2 :
  l1 tr theta X = Ok (Rag m w lens, b1) -> l2 tr theta X = Ok (Y2, b2) -> @add R _ (l1 :: l2 :: ls) tr theta X = Err TypeError.
Proof. intros E1 E2. unfold add. rewrite E1. cbn. rewrite E2. destruct Y2; reflexivity. Qed.

Definition ex_list : value R := PyList [Arr2 (mkM 1 [[1]; [2]])].
Definition ex_grad : value R := PyList [Arr2 (mkM 2 [[1; 2]; [3; 4]])].
Lemma list_concat_refuted : exists Y b dX, concatenation [noop; noop] true [] ex_list = Ok (Y, b) /\
  differentiates noop true [] ex_list ex_list /\ like ex_grad Y /\ b ex_grad [] = Ok (dX, []) /\
  leaves dX = [1; 3; 2; 4] /\ ~ like dX ex_list.
Proof.
  eexists _, _, _. split; [reflexivity|]. split.
  { apply noop_ok. cbn. repeat split. unfold wf_mat. cbn. repeat constructor. }
  split; [reflexivity|]. split; [reflexivity|]. split; [reflexivity|]. unfold like. cbn. discriminate.
Qed.
Definition ex_ragged : value R := Rag (mkM 1 [[1]; [2]]) 1 [2%Z].
Lemma ragged_concat_refuted : exists Y b, concatenation [noop; noop] true [] ex_ragged = Ok (Y, b) /\
  differentiates noop true [] ex_ragged ex_ragged /\ leaves Y = [1; 1; 2; 2] /\ b Y [] = Err TypeError.
Proof.
  eexists _, _. split; [reflexivity|]. split.
  { apply noop_ok. cbn. repeat split. unfold wf_mat. cbn. repeat constructor. }
  split; reflexivity.
Qed.

(** ** An example of nesting *)

Definition ex_X : value R := Arr2 (mkM 2 [[1; 2]; [3; 4]]).
Lemma ex_built : exists Y, built true [2; 3] (chain [add [scale 0; noop]; residual (scale 1); concatenation [noop; scale 0]]) ex_X Y.
Proof.
  eexists. apply b_chain. eapply bc_more; [|eapply bc_more; [|apply bc_one]].
  - eapply b_add with (Ys := [ex_X]) (Y := Arr2 (mkM 2 (map (map (Rmult 2)) [[1; 2]; [3; 4]]))).
    + exact I.
    + exact I.
    + apply b_child. apply (scale_ok 0 true [2; 3]); [unfold wf_mat; cbn; repeat constructor|cbn; lia].
    + constructor; [|constructor]. apply b_noop. unfold wf_mat; cbn. repeat constructor.
    + constructor; [reflexivity|constructor].
    + eexists. reflexivity.
  - eapply b_residual; [| | |apply b_child; apply (scale_ok 1 true [2; 3]); cbn| eexists; reflexivity].
    + exact I.
    + unfold wf_mat; cbn; repeat constructor.
    + reflexivity.
    + unfold wf_mat; cbn; repeat constructor.
    + lia.
  - eapply b_concat with (n := 2%nat); [exact I|discriminate| | | |eexists; reflexivity].
    + constructor; [|constructor; [|constructor]].
      * apply b_noop. unfold wf_mat; cbn; repeat constructor.
      * apply b_child. apply (scale_ok 0 true [2; 3]); [unfold wf_mat; cbn; repeat constructor|cbn; lia].
    + repeat constructor.
    + repeat constructor.
Qed.
