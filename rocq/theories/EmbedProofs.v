From Verif Require Import BaseFacts KernelSpec HashSpec EmbedSpec SeqProofs PaddedProofs PackProofs AdaptProofs MatProofs ReduceProofs ReduceMaxProofs ReduceFirstProofs Seq2colBackProofs KernelProofs GatherProofs HashProofs.
Set Default Goal Selector "!".
Local Open Scope R_scope.
Local Notation wide O := (Forall (fun r : list R => length r = O)).

Lemma vmap2_mul_length (r m : list R) : length r = length m -> length (vmap2 nmul r m) = length r.
Proof. intros E. unfold vmap2. rewrite map_length, combine_length. lia. Qed.
Lemma mask_wf mask (x : mat R) : mask_ok (m_cols x) mask -> wf_mat x -> wf_mat (apply_mask mask x).
Proof.
  intros Hm Hw. destruct mask as [m|]; [|exact Hw]. unfold wf_mat, apply_mask. cbn [m_cols m_rows]. apply Forall_map. eapply Forall_impl; [|exact Hw]. intros r Hr. cbn in *. rewrite vmap2_mul_length; congruence.
Qed.
Lemma mask_cols mask (x : mat R) : m_cols (apply_mask mask x) = m_cols x. Proof. destruct mask; reflexivity. Qed.
Lemma mask_len mask (x : mat R) : m_len (apply_mask mask x) = m_len x. Proof. destruct mask; [apply map_length | reflexivity]. Qed.
Lemma dot_mask (r m : list R) : forall b, dot (vmap2 nmul r m) b = dot r (vmap2 nmul b m).
Proof.
  revert m. induction r as [|x r IH]; intros [|y m] [|z b]; try reflexivity. unfold vmap2 in *. cbn [combine map fst snd]. rewrite !dot_cons, IH. cbn. lra.
Qed.
Lemma mdot_mask mask (x : mat R) : forall O B, mdot (m_rows (apply_mask mask x)) B = mdot (m_rows x) (m_rows (apply_mask mask (mkM O B))).
Proof.
  intros O B. destruct mask as [m|]; [|reflexivity]. cbn [apply_mask m_rows]. revert B. induction (m_rows x) as [|r rs IH]; intros [|b B]; try reflexivity. cbn [map]. rewrite !mdot_cons, IH, dot_mask. reflexivity.
Qed.
Lemma getz_all (E : list (list R)) ids : ids_in (length E) ids -> mapM (py_getz E) ids = Ok (lookup E ids).
Proof. intros H. apply mapM_ok_map. unfold ids_in in H. rewrite Forall_forall in H. intros k Hk. apply getz_in. now apply H. Qed.
Lemma mzeros_wf O n : wf_mat (@mzeros R _ n O).
Proof. unfold wf_mat, mzeros. cbn [m_cols m_rows]. apply Forall_forall. intros r Hr. apply repeat_spec in Hr. subst. apply repeat_length. Qed.
Lemma mzeros_len O n : m_len (@mzeros R _ n O) = n. Proof. apply repeat_length. Qed.
Lemma mzeros_dot O n B : mdot (m_rows (@mzeros R _ n O)) B = 0. Proof. apply mdot_zeros. Qed.

Lemma embed_adjoint fast (E dY : mat R) ids is_train mask Y : wf_mat E -> ids_in (m_len E) ids -> mask_ok (m_cols E) mask -> (is_train = false -> mask = None) ->
  wf_mat dY -> m_cols dY = m_cols E -> m_len dY = length ids ->
  embed_forward E ids is_train mask = Ok Y ->
  exists dE d', embed_backward fast (m_len E) (m_cols E) ids mask dY = Ok (dE, repeat 0%Z (length ids), d') /\ wf_mat dE /\ m_len dE = m_len E /\ m_cols dE = m_cols E /\
    mdot (m_rows dE) (m_rows E) = mdot (m_rows dY) (m_rows Y).
Proof.
  intros Hw Hi Hm Ht Hd Hc Hl F. unfold embed_forward in F. rewrite getz_all in F by exact Hi. cbn [bind] in F. injection F as <-.
  unfold embed_backward. assert (Hd' : wf_mat (apply_mask mask dY)) by (apply mask_wf; [now rewrite Hc | exact Hd]).
  assert (Hc' : m_cols (apply_mask mask dY) = m_cols (@mzeros R _ (m_len E) (m_cols E))) by (rewrite mask_cols; exact Hc).
  assert (Hl' : m_len (apply_mask mask dY) = length ids) by (rewrite mask_len; exact Hl).
  assert (Hi' : ids_in (m_len (@mzeros R _ (m_len E) (m_cols E))) ids) by (now rewrite mzeros_len).
  destruct (scatter_rows fast (mzeros (m_len E) (m_cols E)) (apply_mask mask dY) ids (mzeros_wf _ _) Hd' Hc' Hl' Hi') as (dE & R1 & R2 & R3 & R4 & _).
  rewrite R1. cbn [bind]. exists dE, (apply_mask mask dY). split; [reflexivity|]. split; [exact R4|]. split; [rewrite R3; apply mzeros_len|]. split; [exact R2|].
  rewrite (scatter_adjoint fast _ _ E ids dE (mzeros_wf _ _) Hd' Hc' Hl' Hi' ltac:(now rewrite mzeros_len) R1), mzeros_dot, Rplus_0_l, (mdot_mask mask dY (m_cols E)). f_equal.
  destruct is_train; [reflexivity|]. rewrite (Ht eq_refl). reflexivity.
Qed.
Lemma embed_range (E : mat R) ids is_train mask : ~ Forall (fun k => (- Z.of_nat (m_len E) <= k < Z.of_nat (m_len E))%Z) ids -> embed_forward E ids is_train mask = Err IndexError.
Proof.
  intros Hi. unfold embed_forward. assert (G : mapM (py_getz (m_rows E)) ids = Err IndexError); [|now rewrite G]. unfold m_len in *.
  induction ids as [|k ids IH]; [exfalso; apply Hi; constructor|]. cbn [mapM]. unfold py_getz at 1, norm_index.
  destruct (Z.ltb_spec k 0); [destruct (Z.leb_spec 0 (k + Z.of_nat (length (m_rows E)))) | destruct (Z.ltb_spec k (Z.of_nat (length (m_rows E))))]; try reflexivity;
    (unfold py_get; match goal with |- context [nth_error ?l ?i] => destruct (nth_error l i) end; [|reflexivity]; cbn [bind]; rewrite IH; [reflexivity|]; intros C; apply Hi; constructor; [lia | exact C]).
Qed.

(** ** HashEmbed *)
Lemma keys_ok ids seed nV : word 32 seed -> nV <> 0%nat ->
  exists keys, hash_keys ids seed nV = Ok keys /\ length keys = length ids /\ Forall (fun k => length k = 4%nat) keys /\ Forall (ids_in nV) keys.
Proof.
  intros Hs HV. destruct (hash_ok ids seed Hs) as (h & Eh & Lh & Wh & _). unfold hash_keys. rewrite Eh. cbn [bind]. destruct (Nat.eqb_spec nV 0) as [|_]; [contradiction|].
  eexists. split; [reflexivity|]. split; [rewrite map_length; exact Lh|]. split; apply Forall_map; (eapply Forall_impl; [|exact Wh]); intros r [L4 _]; [now rewrite map_length|].
  apply Forall_map. apply Forall_forall. intros w _. apply Z.mod_pos_bound. lia.
Qed.
Lemma scatter_columns_ok fast keys nV O (d G : mat R) columns : forall dE : mat R, wf_mat dE -> m_len dE = nV -> m_cols dE = O -> wf_mat d -> m_cols d = O -> m_len d = length keys -> m_len G = nV ->
  Forall (fun i => Forall (fun k => (0 <= nth i k 0 < Z.of_nat nV)%Z) keys) columns ->
  exists dE', scatter_columns fast keys columns d dE = Ok dE' /\ wf_mat dE' /\ m_len dE' = nV /\ m_cols dE' = O /\
    mdot (m_rows dE') (m_rows G) = mdot (m_rows dE) (m_rows G) + msum (map (fun i => mdot (m_rows d) (lookup (m_rows G) (map (fun k => nth i k 0%Z) keys))) columns).
Proof.
  induction columns as [|i columns IH]; intros dE Hw Hl Hc Hd Hdc Hdl HG Hk.
  - exists dE. split; [reflexivity|]. repeat split; try assumption. cbn. lra.
  - apply Forall_cons_iff in Hk as [Hk1 Hk2]. cbn [scatter_columns]. assert (Hi : ids_in (m_len dE) (map (fun k => nth i k 0%Z) keys)) by (apply Forall_map; rewrite Hl; exact Hk1).
    assert (Hl' : m_len d = length (map (fun k => nth i k 0%Z) keys)) by (now rewrite map_length).
    destruct (scatter_rows fast dE d _ Hw Hd ltac:(congruence) Hl' Hi) as (dE1 & R1 & R2 & R3 & R4 & _). rewrite R1. cbn [bind].
    destruct (IH dE1 R4 ltac:(congruence) ltac:(congruence) Hd Hdc Hdl HG Hk2) as (dE' & -> & W' & L' & C' & D'). exists dE'. split; [reflexivity|]. repeat split; try assumption.
    rewrite D', (scatter_adjoint fast dE d G _ dE1 Hw Hd ltac:(congruence) Hl' Hi ltac:(congruence) R1). cbn [map]. rewrite msum_cons. lra.
Qed.
Lemma nth4 {A} (d : A) k : length k = 4%nat -> k = [nth 0 k d; nth 1 k d; nth 2 k d; nth 3 k d].
Proof. intros E. do 4 (destruct k as [|? k]; [discriminate|]). destruct k; [reflexivity | discriminate]. Qed.
Lemma gather_columns O (E : list (list R)) keys : forall d : list (list R), wide O E -> Forall (fun k => length k = 4%nat) keys -> Forall (ids_in (length E)) keys -> length d = length keys -> wide O d ->
  msum (map (fun i => mdot d (lookup E (map (fun k => nth i k 0%Z) keys))) (seq 0 4)) = mdot d (map (fun ids => colsum O (lookup E ids)) keys).
Proof.
  induction keys as [|k keys IH]; intros [|r d] Hw H4 Hi L Hd; try discriminate; [cbn; lra|].
  apply Forall_cons_iff in H4 as [H4 H4']. apply Forall_cons_iff in Hi as [Hi Hi']. apply Forall_cons_iff in Hd as [Hd Hd']. cbn [map]. rewrite mdot_cons, <- (IH d Hw H4' Hi' ltac:(cbn in L; lia) Hd').
  rewrite dot_colsum by (try exact Hd; now apply lookup_wide). unfold lookup. cbn [seq map]. rewrite !mdot_cons. rewrite (nth4 0%Z k H4) at 5. cbn [map]. rewrite !msum_cons. change (msum []) with 0. lra.
Qed.
Lemma hashembed_adjoint fast (E dY : mat R) seed ids is_train mask : wf_mat E -> m_len E <> 0%nat -> m_cols E <> 0%nat -> word 32 seed -> ids <> [] -> mask_ok (m_cols E) mask -> (is_train = false -> mask = None) ->
  wf_mat dY -> m_cols dY = m_cols E -> m_len dY = length ids ->
  exists Y keys dE d', hashembed_forward E seed ids is_train mask = Ok (Y, Some keys) /\ Forall (ids_in (m_len E)) keys /\ m_len Y = length ids /\ m_cols Y = m_cols E /\ wf_mat Y /\
    hashembed_backward fast (m_len E) (m_cols E) (Some keys) mask dY = Ok (dE, repeat 0%Z (length ids), d') /\ wf_mat dE /\ m_len dE = m_len E /\ m_cols dE = m_cols E /\
    mdot (m_rows dE) (m_rows E) = mdot (m_rows dY) (m_rows Y).
Proof.
  intros Hw HV HO Hs Hne Hm Ht Hd Hc Hl. destruct (keys_ok ids seed (m_len E) Hs HV) as (keys & Ek & Lk & K4 & Ki).
  assert (Hkn : keys <> []) by (intros ->; destruct ids; [congruence | discriminate]).
  destruct (gather_ok E 4 keys Hw HV HO Hkn ltac:(discriminate) Ki) as [G _]. set (out := mkM (m_cols E) (map (fun ids => colsum (m_cols E) (lookup (m_rows E) ids)) keys)) in *.
  assert (Wout : wf_mat out) by (apply Forall_map; apply Forall_forall; intros k _; apply colsum_length).
  assert (Hf : hashembed_forward E seed ids is_train mask = Ok (apply_mask mask out, Some keys)).
  { unfold hashembed_forward. destruct ids as [|i ids]; [congruence|]. rewrite Ek. cbn [bind]. rewrite G. cbn [bind]. destruct is_train; [reflexivity|]. now rewrite (Ht eq_refl). }
  assert (Hd' : wf_mat (apply_mask mask dY)) by (apply mask_wf; [now rewrite Hc | exact Hd]).
  destruct (scatter_columns_ok fast keys (m_len E) (m_cols E) (apply_mask mask dY) E (seq 0 4) (mzeros (m_len E) (m_cols E)) (mzeros_wf _ _) (mzeros_len _ _) eq_refl Hd'
    ltac:(rewrite mask_cols; exact Hc) ltac:(rewrite mask_len; congruence) eq_refl) as (dE & S1 & S2 & S3 & S4 & S5).
  { apply Forall_forall. intros i Hin. apply in_seq in Hin. rewrite Forall_forall in K4, Ki |- *. intros k Hk. specialize (K4 k Hk). specialize (Ki k Hk). unfold ids_in in Ki. rewrite Forall_forall in Ki. apply Ki. apply nth_In. lia. }
  eexists. exists keys, dE. eexists. split; [exact Hf|]. split; [exact Ki|]. split; [rewrite mask_len; unfold out, m_len; cbn [m_rows]; rewrite map_length; exact Lk|]. split; [rewrite mask_cols; reflexivity|].
  split; [apply mask_wf; assumption|]. split; [unfold hashembed_backward; rewrite S1; cbn [bind]; rewrite Lk; reflexivity|]. split; [exact S2|]. split; [exact S3|]. split; [exact S4|].
  rewrite S5, mzeros_dot, Rplus_0_l. rewrite (gather_columns (m_cols E)); [|exact Hw | exact K4 | exact Ki | fold (m_len (apply_mask mask dY)); rewrite mask_len; congruence | unfold wf_mat in Hd'; rewrite mask_cols, Hc in Hd'; exact Hd'].
  apply (mdot_mask mask dY (m_cols E)).
Qed.
Lemma hashembed_values (E : mat R) seed ids Y keys : wf_mat E -> m_len E <> 0%nat -> m_cols E <> 0%nat -> word 32 seed -> ids <> [] ->
  hashembed_forward E seed ids false None = Ok (Y, Some keys) ->
  keys = map (fun id => map (fun w => w mod Z.of_nat (m_len E))%Z (murmur128 id seed)) ids /\
  m_rows Y = map (fun k => colsum (m_cols E) (lookup (m_rows E) k)) keys.
Proof.
  intros Hw HV HO Hs Hne F. destruct (keys_ok ids seed (m_len E) Hs HV) as (keys' & Ek & Lk & K4 & Ki). assert (Hkn : keys' <> []) by (intros ->; destruct ids; [congruence | discriminate]).
  destruct (gather_ok E 4 keys' Hw HV HO Hkn ltac:(discriminate) Ki) as [G _]. unfold hashembed_forward in F. destruct ids as [|i ids]; [congruence|]. rewrite Ek in F. cbn [bind] in F. rewrite G in F. cbn [bind] in F. injection F as <- <-. split; [|reflexivity].
  unfold hash_keys, np_hash in Ek. unfold word in Hs. destruct (Z.ltb_spec seed 0); [lia|]. destruct (Z.leb_spec (2 ^ 32) seed); [lia|]. cbn [orb bind] in Ek. destruct (Nat.eqb_spec (m_len E) 0); [contradiction|].
  assert (Q : forall a b : list (list Z), Ok a = Ok b -> b = a) by (intros a b Q; now injection Q). apply Q in Ek. rewrite Ek, map_map. reflexivity.
Qed.
Lemma hashembed_empty {T} `{Num T} fast (E : mat T) seed is_train mask dY : hashembed_forward E seed [] is_train mask = Ok (mkM (m_cols E) [], None) /\
  hashembed_backward fast (m_len E) (m_cols E) None mask dY = Err NameError.
Proof. split; reflexivity. Qed.
Lemma embed_negative (a b d : R) : embed_forward (mkM 1 [[a]; [b]]) [-1]%Z true None = Ok (mkM 1 [[b]]) /\
  embed_backward true 2 1 [-1]%Z None (mkM 1 [[d]]) = Ok (mkM 1 [[0]; [0]], [0%Z], mkM 1 [[d]]) /\
  exists d1, embed_backward false 2 1 [-1]%Z None (mkM 1 [[d]]) = Ok (mkM 1 [[0]; [d1]], [0%Z], mkM 1 [[d]]) /\ d1 = d.
Proof. split; [reflexivity|]. split; [reflexivity|]. eexists. split; [reflexivity|]. cbn. lra. Qed.
Lemma embed_twice (m d : R) : exists d' d'', embed_backward true 1 1 [0]%Z (Some [m]) (mkM 1 [[d]]) = Ok (mkM 1 [[0 + 1 * (d * m)]], [0%Z], d') /\
  embed_backward true 1 1 [0]%Z (Some [m]) d' = Ok (mkM 1 [[0 + 1 * (d * m * m)]], [0%Z], d'').
Proof. eexists. eexists. split; reflexivity. Qed.
