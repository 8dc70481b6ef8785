(** Dropout. *)
From Coq Require Import Reals Lra Lia.
From Verif Require Import CombModel CombSpec DenseModel DropModel DropSpec MatProofs BaseFacts CombProofs CombDiffProofs KernelProofs MkProofs ActLayerProofs.
Set Default Goal Selector "!".
Local Open Scope R_scope.

(** ** A function of position and element, applied throughout a value *)
Section Index.
  Context {A B : Type} (f : nat -> A -> B).
  Fixpoint il (pos : nat) (l : list A) : list B := match l with [] => [] | x :: l' => f pos x :: il (S pos) l' end.
  Fixpoint ir (pos : nat) (rows : list (list A)) : list (list B) := match rows with [] => [] | r :: rs => il pos r :: ir (pos + length r) rs end.
  Fixpoint ib (pos : nat) (d : list (list (list A))) : list (list (list B)) := match d with [] => [] | b :: d' => ir pos b :: ib (pos + length (concat b)) d' end.
  Definition ia (pos : nat) (v : value A) : value B :=
    match v with
    | Arr1 u => Arr1 (il pos u)
    | Arr2 m => Arr2 (mkM (m_cols m) (ir pos (m_rows m)))
    | _ => PyList []
    end.
  Fixpoint ivs (pos : nat) (l : list (value A)) : list (value B) := match l with [] => [] | v :: l' => ia pos v :: ivs (pos + length (leaves v)) l' end.
  Definition iv (pos : nat) (v : value A) : value B :=
    match v with
    | Rag m w lens => Rag (mkM (m_cols m) (ir pos (m_rows m))) w lens
    | Pad w d s l i => Pad w (ib pos d) s l i
    | PyList l => PyList (ivs pos l)
    | PyTup l => PyTup (ivs pos l)
    | _ => ia pos v
    end.
  Lemma il_length l : forall pos, length (il pos l) = length l.
  Proof. induction l as [|x l IH]; intros pos; [reflexivity|]. cbn. now rewrite IH. Qed.
  Lemma il_app l : forall pos l', il pos (l ++ l') = il pos l ++ il (pos + length l) l'.
  Proof. induction l as [|x l IH]; intros pos l'; [now rewrite Nat.add_0_r|]. cbn [app il length]. rewrite IH. do 3 f_equal. lia. Qed.
  Lemma ir_concat rows : forall pos, concat (ir pos rows) = il pos (concat rows).
  Proof. induction rows as [|r rows IH]; intros pos; [reflexivity|]. cbn [ir concat]. now rewrite IH, il_app. Qed.
  Lemma ir_length rows : forall pos, length (ir pos rows) = length rows.
  Proof. induction rows as [|r rows IH]; intros pos; [reflexivity|]. cbn. now rewrite IH. Qed.
  Lemma ib_concat d : forall pos, concat (map (@concat B) (ib pos d)) = il pos (concat (map (@concat A) d)).
  Proof. induction d as [|b d IH]; intros pos; [reflexivity|]. cbn [ib map concat]. now rewrite IH, ir_concat, il_app. Qed.
  Lemma ia_leaves pos v : is_array v -> leaves (ia pos v) = il pos (leaves v).
  Proof. destruct v; intros H; try contradiction H; [reflexivity|]. apply ir_concat. Qed.
  Lemma ivs_leaves l : Forall is_array l -> forall pos, concat (map leaves (ivs pos l)) = il pos (concat (map leaves l)).
  Proof. induction 1 as [|v l H1 H2 IH]; intros pos; [reflexivity|]. cbn [ivs map concat]. now rewrite IH, ia_leaves, il_app. Qed.
  Lemma iv_leaves pos v : droppable v -> leaves (iv pos v) = il pos (leaves v).
  Proof.
    destruct v; intros H; [contradiction H|..]; cbn [iv].
    - now apply ia_leaves. - now apply ia_leaves. - apply ir_concat. - apply ib_concat. - now apply ivs_leaves. - now apply ivs_leaves.
  Qed.
End Index.
Lemma il_ext {A B C D} (f : nat -> A -> B) (g : nat -> C -> D) (h : B -> D) (h' : A -> C) : (forall k x, h (f k x) = g k (h' x)) ->
  forall l pos, map h (il f pos l) = il g pos (map h' l).
Proof. intros E. induction l as [|x l IH]; intros pos; [reflexivity|]. cbn. now rewrite E, IH. Qed.
Lemma ir_ext {A B C D} (f : nat -> A -> B) (g : nat -> C -> D) (h : B -> D) (h' : A -> C) : (forall k x, h (f k x) = g k (h' x)) ->
  forall l pos, map (map h) (ir f pos l) = ir g pos (map (map h') l).
Proof. intros E. induction l as [|x l IH]; intros pos; [reflexivity|]. cbn [ir map]. now rewrite (il_ext f g h h' E), IH, map_length. Qed.
Lemma concat_map_len {A B} (h : A -> B) l : length (concat (map (map h) l)) = length (concat l).
Proof. now rewrite <- concat_map, map_length. Qed.
Lemma ib_ext {A B C D} (f : nat -> A -> B) (g : nat -> C -> D) (h : B -> D) (h' : A -> C) : (forall k x, h (f k x) = g k (h' x)) ->
  forall l pos, map (map (map h)) (ib f pos l) = ib g pos (map (map (map h')) l).
Proof. intros E. induction l as [|x l IH]; intros pos; [reflexivity|]. cbn [ib map]. now rewrite (ir_ext f g h h' E), IH, concat_map_len. Qed.
Lemma ia_ext {A B C D} (f : nat -> A -> B) (g : nat -> C -> D) (h : B -> D) (h' : A -> C) : (forall k x, h (f k x) = g k (h' x)) ->
  forall v pos, is_array v -> vmap h (ia f pos v) = ia g pos (vmap h' v).
Proof.
  intros E v pos Hv. destruct v; try contradiction Hv; cbn [ia vmap m_cols m_rows].
  - now rewrite (il_ext f g h h' E). - now rewrite (ir_ext f g h h' E).
Qed.
Lemma leaves_len {A B} (h : A -> B) v : is_array v -> length (leaves (vmap h v)) = length (leaves v).
Proof. destruct v; intros H; try contradiction H; cbn [vmap leaves m_rows]; [apply map_length|apply concat_map_len]. Qed.
Lemma ivs_ext {A B C D} (f : nat -> A -> B) (g : nat -> C -> D) (h : B -> D) (h' : A -> C) : (forall k x, h (f k x) = g k (h' x)) ->
  forall l pos, Forall is_array l -> map (vmap h) (ivs f pos l) = ivs g pos (map (vmap h') l).
Proof.
  intros E l pos Hl. revert pos. induction Hl as [|v l H1 H2 IH]; intros pos; [reflexivity|]. cbn [ivs map]. now rewrite (ia_ext f g h h' E), IH, leaves_len.
Qed.
Lemma iv_ext {A B C D} (f : nat -> A -> B) (g : nat -> C -> D) (h : B -> D) (h' : A -> C) : (forall k x, h (f k x) = g k (h' x)) ->
  forall v pos, droppable v -> vmap h (iv f pos v) = iv g pos (vmap h' v).
Proof.
  intros E v pos Hv. destruct v; [contradiction Hv|..]; cbn [iv vmap m_cols m_rows].
  - now apply (ia_ext f g h h' E (Arr1 _)). - now apply (ia_ext f g h h' E (Arr2 _)). - now rewrite (ir_ext f g h h' E). - now rewrite (ib_ext f g h h' E).
  - now rewrite (ivs_ext f g h h' E). - now rewrite (ivs_ext f g h h' E).
Qed.
Lemma il_id {A} l : forall pos, il (fun _ (x : A) => x) pos l = l.
Proof. induction l as [|x l IH]; intros pos; [reflexivity|]. cbn. now rewrite IH. Qed.
Lemma ir_id {A} l : forall pos, ir (fun _ (x : A) => x) pos l = l.
Proof. induction l as [|x l IH]; intros pos; [reflexivity|]. cbn. now rewrite il_id, IH. Qed.
Lemma ib_id {A} l : forall pos, ib (fun _ (x : A) => x) pos l = l.
Proof. induction l as [|x l IH]; intros pos; [reflexivity|]. cbn. now rewrite ir_id, IH. Qed.
Lemma ia_id {A} pos v : is_array v -> ia (fun _ (x : A) => x) pos v = v.
Proof. destruct v; intros H; try contradiction H; cbn; [now rewrite il_id|]. rewrite ir_id. now destruct m. Qed.
Lemma ivs_id {A} l : Forall is_array l -> forall pos, ivs (fun _ (x : A) => x) pos l = l.
Proof. induction 1 as [|v l H1 H2 IH]; intros pos; [reflexivity|]. cbn. now rewrite ia_id, IH. Qed.
Lemma iv_id {A} pos v : droppable v -> iv (fun _ (x : A) => x) pos v = v.
Proof.
  destruct v; intros H; [contradiction H|..]; cbn [iv].
  - now apply ia_id. - now apply ia_id. - rewrite ir_id. now destruct m. - now rewrite ib_id. - now rewrite ivs_id. - now rewrite ivs_id.
Qed.
Lemma droppable_vmap {A B} (h : A -> B) v : droppable (vmap h v) <-> droppable v.
Proof.
  destruct v; cbn [vmap droppable m_rows m_cols]; rewrite ?map_length; try reflexivity; rewrite Forall_map; split; apply Forall_impl; intros a; now destruct a.
Qed.
Lemma iv_like {A B} (f : nat -> A -> B) pos v : droppable v -> like (iv f pos v) v.
Proof.
  intros Hv. unfold like. rewrite (iv_ext f (fun _ (x : unit) => x) (fun _ => tt) (fun _ => tt)) by (reflexivity || exact Hv).
  rewrite iv_id; [reflexivity|]. now apply droppable_vmap.
Qed.

Section Shift.
  Context {A B : Type} (f : nat -> A -> B) (p q : nat) (E : forall k x, f (p + k)%nat x = f (q + k)%nat x).
  Lemma il_shift l : forall k, il f (p + k) l = il f (q + k) l.
  Proof. induction l as [|x l IH]; intros k; [reflexivity|]. cbn [il]. rewrite E. f_equal. rewrite <- !Nat.add_succ_r. apply IH. Qed.
  Lemma ir_shift l : forall k, ir f (p + k) l = ir f (q + k) l.
  Proof. induction l as [|x l IH]; intros k; [reflexivity|]. cbn [ir]. rewrite il_shift. f_equal. rewrite <- !Nat.add_assoc. apply IH. Qed.
  Lemma ia_shift v k : ia f (p + k) v = ia f (q + k) v.
  Proof. destruct v; try reflexivity; cbn [ia]; now rewrite ?il_shift, ?ir_shift. Qed.
  Lemma ivs_shift_k l : forall k, ivs f (p + k) l = ivs f (q + k) l.
  Proof. induction l as [|v l IH]; intros k; [reflexivity|]. cbn [ivs]. rewrite ia_shift. f_equal. rewrite <- !Nat.add_assoc. apply IH. Qed.
  Lemma ivs_shift l : ivs f p l = ivs f q l.
  Proof. rewrite <- (Nat.add_0_r p), <- (Nat.add_0_r q). apply ivs_shift_k. Qed.
End Shift.
(** ** Masks *)
Lemma keep_neg rate (flips : nat -> R) : (exists d, rate = Some d /\ 0 < d < 1) \/ (forall a b, keep rate (flips a) = keep rate (flips b)) /\ (forall n, draws rate n = 0%nat).
Proof.
  destruct rate as [d|]; [|right; split; reflexivity]. unfold keep, draws. destruct (Rle_dec d 0); [right; split; reflexivity|]. destruct (Rle_dec 1 d); [right; split; reflexivity|].
  left. exists d. split; [reflexivity|lra].
Qed.
Lemma mask_flat (flips : nat -> R) pos n rate :
  get_dropout_mask flips pos n rate = (map (fun k => keep rate (flips k)) (seq pos n), (pos + draws rate n)%nat).
Proof.
  assert (RP : forall c : R, repeat c n = map (fun _ : nat => c) (seq pos n)).
  { intros c. generalize pos. induction n as [|m IH]; intros p; [reflexivity|]. cbn. now rewrite <- IH. }
  destruct rate as [d|]; cbn [get_dropout_mask keep draws]; [|now rewrite RP, Nat.add_0_r].
  destruct (nltb_case (nZ 0) d) as [[-> H]|[-> H]]; cbn in H; cbn [negb].
  - destruct (Rle_dec d 0); [lra|]. destruct (nltb_case d (nZ 1)) as [[-> H']|[-> H']]; cbn in H'; cbn [negb].
    + destruct (Rle_dec 1 d); [lra|]. f_equal. apply map_ext. intros k. destruct (nltb_case (flips k) d) as [[-> H2]|[-> H2]]; destruct (Rle_dec d (flips k)); try lra; cbn; unfold Rdiv; ring.
    + destruct (Rle_dec 1 d); [|lra]. now rewrite RP, Nat.add_0_r.
  - destruct (Rle_dec d 0); [|lra]. now rewrite RP, Nat.add_0_r.
Qed.
Section Mask.
  Context (rate : option R) (flips : nat -> R).
  Let c (k : nat) : R := keep rate (flips k).
  Let F (k : nat) (x : R) : R := x * c k.
  Lemma il_mul l : forall pos, vmap2 nmul l (map c (seq pos (length l))) = il F pos l.
  Proof. induction l as [|x l IH]; intros pos; [reflexivity|]. cbn [length seq map il]. rewrite <- IH. reflexivity. Qed.
  Lemma cells_il w rows : Forall (fun r : list R => length r = w) rows -> forall pos tail,
    cells_of w (length rows) (map c (seq pos (length rows * w)) ++ tail) = ir (fun k _ => c k) pos rows.
  Proof.
    induction 1 as [|r rows H1 H2 IH]; intros pos tail; [reflexivity|]. cbn [length cells_of ir Nat.mul]. rewrite seq_app, map_app, <- app_assoc.
    rewrite firstn_app, skipn_app, map_length, seq_length, Nat.sub_diag, firstn_all2, skipn_all2 by (rewrite map_length, seq_length; lia). cbn [firstn skipn app]. rewrite app_nil_r, H1, IH. f_equal.
    clear -H1. revert pos w H1. induction r as [|x r IH]; intros pos w H1; cbn in H1; subst w; [reflexivity|]. cbn [seq map il]. f_equal. now apply IH.
  Qed.
  Lemma ir_mul rows : forall pos, map (fun p => vmap2 nmul (fst p) (snd p)) (combine rows (ir (fun k _ => c k) pos rows)) = ir F pos rows.
  Proof.
    induction rows as [|r rows IH]; intros pos; [reflexivity|]. cbn [ir combine map fst snd]. rewrite IH. f_equal. clear IH. revert pos. induction r as [|x r IH]; intros pos; [reflexivity|].
    cbn [il]. rewrite <- IH. reflexivity.
  Qed.
  Definition mask2 (pos : nat) (m : mat R) : mat R := mkM (m_cols m) (ir (fun k _ => c k) pos (m_rows m)).
  Lemma mask2_eq pos m : wf_mat m -> mkM (m_cols m) (cells_of (m_cols m) (length (m_rows m)) (map c (seq pos (length (m_rows m) * m_cols m)))) = mask2 pos m.
  Proof. intros Hm. unfold mask2. f_equal. rewrite <- (app_nil_r (map c _)). now apply cells_il. Qed.
  Lemma mul_mask2 pos (m m' : mat R) : length (m_rows m') = length (m_rows m) -> Forall2 (fun a b : list R => length a = length b) (m_rows m') (m_rows m) -> m_cols m' = m_cols m ->
    mbin nmul m' (mask2 pos m) = Ok (mkM (m_cols m) (ir F pos (m_rows m'))).
  Proof.
    intros L HF C. unfold mbin, mshape_eq, mask2. cbn [m_rows m_cols]. rewrite ir_length, L, C, !Nat.eqb_refl. cbn [andb]. do 2 f_equal.
    rewrite <- ir_mul. f_equal. f_equal. clear L C. revert pos. induction HF as [|a b l l' H1 H2 IH]; intros pos; [reflexivity|]. cbn [ir]. rewrite IH, H1. f_equal.
    clear -H1. revert pos b H1. induction a as [|x a IH]; intros pos [|y b] H1; try discriminate; [reflexivity|]. cbn. f_equal. apply IH. cbn in H1. lia.
  Qed.
  Lemma il_mul' l (l' : list R) : length l = length l' -> forall pos, vmap2 nmul l (map c (seq pos (length l'))) = il F pos l.
  Proof. intros E pos. rewrite <- E. apply il_mul. Qed.
  Lemma mul_mask1 pos (u u' : list R) : length u' = length u -> vmul (Arr1 u') (Arr1 (map c (seq pos (length u)))) = Ok (Arr1 (il F pos u')).
  Proof.
    intros E. unfold vmul, mbin, mshape_eq, as_row. cbn [m_rows m_cols length]. rewrite map_length, seq_length, E, !Nat.eqb_refl. cbn [andb bind first_row m_rows combine map nth fst snd]. now rewrite il_mul'.
  Qed.
  Lemma like_rows {A B} (m' : mat A) (m : mat B) : mkM (m_cols m') (map (map (fun _ => tt)) (m_rows m')) = mkM (m_cols m) (map (map (fun _ => tt)) (m_rows m)) ->
    length (m_rows m') = length (m_rows m) /\ Forall2 (fun a b => length a = length b) (m_rows m') (m_rows m) /\ m_cols m' = m_cols m.
  Proof.
    intros E. injection E as E1 E2. split; [apply (f_equal (@length _)) in E2; now rewrite !map_length in E2|]. split; [|exact E1]. clear E1.
    revert E2. generalize (m_rows m') (m_rows m). intros l. induction l as [|a l IH]; intros [|b l'] E; try discriminate; constructor.
    - injection E as E _. apply (f_equal (@length _)) in E. now rewrite !map_length in E.
    - apply IH. now injection E.
  Qed.
  (** One array *)
  Lemma mask_array pos X : is_array X -> wfv X -> exists M, mask_for flips pos rate X = Ok (M, (pos + draws rate (length (leaves X)))%nat) /\
    forall X', like X' X -> vmul X' M = Ok (ia F pos X').
  Proof.
    destruct X as [|u|m| | | |]; intros HX HW; try contradiction HX; unfold mask_for; rewrite mask_flat; cbn [fst snd].
    - eexists. split; [reflexivity|]. intros X' HL. destruct X'; try discriminate HL. injection HL as HL. apply mul_mask1. apply (f_equal (@length _)) in HL. now rewrite !map_length in HL.
    - fold c. change (fun k : nat => keep rate (flips k)) with c. rewrite mask2_eq by exact HW. eexists. split; [cbn [leaves]; rewrite (concat_length_const (m_cols m)) by exact HW; reflexivity|].
      intros X' HL. destruct X' as [| |m'| | | |]; try discriminate HL. injection HL as HL1 HL2. destruct (like_rows m' m) as (L1 & L2 & L3); [now rewrite HL1, HL2|]. cbn [vmul]. rewrite mul_mask2 by assumption.
      cbn [bind ia]. now rewrite L3.
  Qed.
  Lemma draws_0 : draws rate 0 = 0%nat.
  Proof. unfold draws. destruct rate as [d|]; [|reflexivity]. destruct (Rle_dec d 0); [reflexivity|]. now destruct (Rle_dec 1 d). Qed.
  Lemma draws_add a b : (draws rate a + draws rate b)%nat = draws rate (a + b).
  Proof. unfold draws. destruct rate as [d|]; [|reflexivity]. destruct (Rle_dec d 0); [reflexivity|]. now destruct (Rle_dec 1 d). Qed.
  Lemma F_move n pos k x : F (pos + draws rate n + k) x = F (pos + n + k) x.
  Proof.
    unfold F, c. destruct (keep_neg rate flips) as [(d & E & Hd)|[E1 E2]].
    - unfold draws. rewrite E. destruct (Rle_dec d 0); [lra|]. destruct (Rle_dec 1 d); [lra|]. reflexivity.
    - now rewrite (E1 _ (pos + n + k)%nat).
  Qed.
  Lemma mask_list l : Forall is_array l -> Forall wfv l -> forall pos, exists Ms, masks_for flips pos rate l = Ok (Ms, (pos + draws rate (length (concat (map leaves l))))%nat) /\
    forall l', Forall2 like l' l -> mul_lists l' Ms = Ok (ivs F pos l').
  Proof.
    induction l as [|X l IH]; intros HA HW pos.
    - exists []. split; [cbn [masks_for map concat length]; rewrite draws_0, Nat.add_0_r; reflexivity|]. intros l' HL. inversion HL. reflexivity.
    - apply Forall_cons_iff in HA as [HA1 HA2]. apply Forall_cons_iff in HW as [HW1 HW2]. destruct (mask_array pos X HA1 HW1) as (M & E & EM).
      destruct (IH HA2 HW2 (pos + draws rate (length (leaves X)))%nat) as (Ms & E' & EM'). exists (M :: Ms). split.
      + cbn [masks_for]. rewrite E. cbn [bind fst snd]. rewrite E'. cbn [bind fst snd map concat]. rewrite app_length, <- draws_add, Nat.add_assoc. reflexivity.
      + intros l' HL. destruct l' as [|X' l']; [inversion HL|]. inversion HL as [|? ? ? ? HL1 HL2 Q1 Q2]. unfold mul_lists. cbn [combine mapM fst snd]. rewrite EM by exact HL1. cbn [bind].
        unfold mul_lists in EM'. rewrite EM' by exact HL2. cbn [bind ivs]. do 2 f_equal. rewrite (like_leaves _ _ HL1).
        apply ivs_shift. intros ? ?. apply F_move.
  Qed.
  Fixpoint blocks (pos : nat) (d : list (list (list R))) : list (list (list R)) :=
    match d with [] => [] | b :: d' => ir (fun k _ => c k) pos b :: blocks (pos + length (concat b)) d' end.
  Lemma size3_len w d : Forall (Forall (fun r : list R => length r = w)) d -> size3 w d = length (concat (map (@concat R) d)).
  Proof.
    induction 1 as [|b d H1 H2 IH]; [reflexivity|]. unfold size3 in *. cbn [map fold_right concat]. rewrite IH, app_length. f_equal. symmetry. now apply concat_length_const.
  Qed.
  Lemma cells3_blocks w d : Forall (Forall (fun r : list R => length r = w)) d -> forall pos, cells3 w d (map c (seq pos (size3 w d))) = blocks pos d.
  Proof.
    induction 1 as [|b d H1 H2 IH]; intros pos; [reflexivity|]. unfold size3. cbn [map fold_right cells3 blocks]. fold (size3 w d).
    rewrite seq_app, map_app, cells_il by exact H1. f_equal. rewrite skipn_app, skipn_all2, map_length, seq_length, Nat.sub_diag by (rewrite map_length, seq_length; lia). cbn [skipn app].
    rewrite IH. f_equal. now rewrite (concat_length_const w).
  Qed.
  Lemma mul_blocks d : forall d' pos, Forall2 (Forall2 (fun a b : list R => length a = length b)) d' d ->
    map (fun p => map (fun q => vmap2 nmul (fst q) (snd q)) (combine (fst p) (snd p))) (combine d' (blocks pos d)) = ib F pos d' /\ shape3 d' = shape3 (blocks pos d).
  Proof.
    induction d as [|b d IH]; intros d' pos HF; inversion HF as [|b' b0 e' d0 Hb Hd]; subst; [split; reflexivity|]. cbn [blocks combine map ib fst snd shape3].
    destruct (IH e' (pos + length (concat b))%nat Hd) as [E1 E2]. unfold shape3 in E2. rewrite E1, E2. split.
    - f_equal.
      + clear -Hb. revert pos. induction Hb as [|a b l l' H1 H2 IH]; intros pos; [reflexivity|]. cbn [ir combine map fst snd]. rewrite IH. f_equal.
        * clear -H1. revert pos b H1. induction a as [|x a IH]; intros pos [|y b] H1; try discriminate; [reflexivity|]. cbn [il]. rewrite <- (IH (S pos) b) by (cbn in H1; lia). reflexivity.
        * now rewrite H1.
      + f_equal. f_equal. clear -Hb. induction Hb as [|a b l l' H1 H2 IH]; [reflexivity|]. cbn [concat]. rewrite !app_length. lia.
    - f_equal. rewrite ir_length. clear -Hb. induction Hb; cbn; congruence.
  Qed.
End Mask.

(** ** The layer in training *)
Section Train.
  Context (rate : option R) (flips : nat -> R).
  Let F (k : nat) (x : R) : R := x * keep rate (flips k).
  Lemma like_blocks {A B} (d' : list (list (list A))) (d : list (list (list B))) :
    map (map (map (fun _ => tt))) d' = map (map (map (fun _ => tt))) d -> Forall2 (Forall2 (fun a b => length a = length b)) d' d.
  Proof.
    revert d. induction d' as [|b' d' IH]; intros [|b d] E; try discriminate; constructor.
    - injection E as E _. revert b E. induction b' as [|a b' IHb]; intros [|a0 b] E; try discriminate; constructor.
      + injection E as E _. apply (f_equal (@length _)) in E. now rewrite !map_length in E.
      + apply IHb. now injection E.
    - apply IH. now injection E.
  Qed.
  Lemma like_list {A B} (l' : list (value A)) (l : list (value B)) : map (vmap (fun _ => tt)) l' = map (vmap (fun _ => tt)) l -> Forall2 like l' l.
  Proof. revert l. induction l' as [|v l' IH]; intros [|w l] E; try discriminate; constructor; [now injection E|apply IH; now injection E]. Qed.
  Lemma wfv_list (l : list (value R)) : fold_right and True (map wfv l) -> Forall wfv l.
  Proof. induction l as [|v l IH]; intros H; constructor; [apply H|apply IH, H]. Qed.
  Lemma blocks_ok w d pos : Forall (Forall (fun r : list R => length r = w)) d ->
    forall d', Forall2 (Forall2 (fun a b => length a = length b)) d' d -> mul3 w d' w (cells3 w d (map (fun k => keep rate (flips k)) (seq pos (size3 w d)))) = Ok (ib F pos d').
  Proof.
    intros Hd d' HF. rewrite (cells3_blocks rate flips) by exact Hd. destruct (mul_blocks rate flips d d' pos HF) as [E1 E2]. unfold mul3. rewrite Nat.eqb_refl, E1. cbn [andb].
    destruct (list_eq_dec Nat.eq_dec (shape3 d') (shape3 (blocks rate flips pos d))); [reflexivity|contradiction].
  Qed.
  Lemma mk_rag_full (m : mat R) lens : (length (m_rows m) * m_cols m)%nat <> 0%nat -> mk_rag m lens = Rag m (m_cols m) lens.
  Proof. intros H. unfold mk_rag. destruct (Nat.eqb_spec (length (m_rows m) * m_cols m) 0); [contradiction|reflexivity]. Qed.
  Lemma train_ok pos X : droppable X -> wfv X -> (forall r, rate = Some r -> r <> 0) ->
    exists b, dropout flips pos rate true true X = Ok (iv F pos (listed X), b, (pos + draws rate (length (leaves X)))%nat) /\
      forall dY, like dY (listed X) -> b dY = Ok (iv F pos dY).
  Proof.
    intros HD HW HR. unfold dropout. replace (match rate with Some r => neqb r (nZ 0) | None => false end) with false.
    2: { destruct rate as [r|]; [|reflexivity]. cbn. destruct (Req_EM_T r 0) as [E|]; [|reflexivity]. now destruct (HR r eq_refl). }
    cbn [orb negb andb]. destruct X as [x|u|m|m w lens|w d sizes lens idx|l|l]; [contradiction HD|..]; cbn [listed].
    - destruct (mask_array rate flips pos (Arr1 u) I HW) as (M & E & EM). unfold dropout_array. rewrite E. cbn [bind fst snd]. rewrite EM by reflexivity. cbn [bind].
      eexists. split; [reflexivity|]. intros dY HL. cbv beta. rewrite EM by exact HL. destruct dY; try discriminate HL. reflexivity.
    - destruct (mask_array rate flips pos (Arr2 m) I HW) as (M & E & EM). unfold dropout_array. rewrite E. cbn [bind fst snd]. rewrite EM by reflexivity. cbn [bind].
      eexists. split; [reflexivity|]. intros dY HL. cbv beta. rewrite EM by exact HL. destruct dY; try discriminate HL. reflexivity.
    - destruct HW as [HW1 HW2]. cbn in HD. destruct (Nat.eqb_spec (length (m_rows m) * m_cols m) 0); [contradiction|]. subst w.
      unfold dropout_ragged. rewrite mask_flat. cbn [fst snd]. rewrite (mask2_eq rate flips) by exact HW1.
      assert (R0 : Forall2 (fun a b : list R => length a = length b) (m_rows m) (m_rows m)) by (clear; induction (m_rows m); constructor; auto).
      rewrite (mul_mask2 rate flips pos m m) by (reflexivity || exact R0). cbn [bind]. rewrite mk_rag_full by (cbn [m_rows m_cols]; now rewrite ir_length). cbn [m_cols].
      eexists. split; [cbn [leaves]; rewrite (concat_length_const (m_cols m)) by exact HW1; reflexivity|]. intros dY HL. destruct dY as [| | |m' w' lens'| | |]; try discriminate HL.
      injection HL as HL1 HL2 HL3 HL4. destruct (like_rows m' m) as (L1 & L2 & L3); [now rewrite HL1, HL2|].
      rewrite (mul_mask2 rate flips pos m m') by assumption. cbn [bind]. rewrite mk_rag_full by (cbn [m_rows m_cols]; now rewrite ir_length, L1). cbn [m_cols iv]. rewrite L3. subst. reflexivity.
    - unfold dropout_padded. rewrite mask_flat. cbn [fst snd]. cbn in HW.
      assert (R0 : Forall2 (Forall2 (fun a b : list R => length a = length b)) d d) by (clear; induction d as [|b d IH]; constructor; auto; induction b; constructor; auto).
      rewrite (blocks_ok w d pos HW d R0). cbn [bind]. eexists. split; [cbn [leaves iv]; now rewrite (size3_len w) by exact HW|].
      intros dY HL. destruct dY as [| | | |w' d' sizes' lens' idx'| |]; try discriminate HL. injection HL as HL1 HL2 HL3 HL4 HL5. subst. cbv beta iota. rewrite <- (size3_len w) by exact HW. rewrite (blocks_ok _ d pos HW d') by now apply like_blocks. reflexivity.
    - unfold dropout_lists. destruct (mask_list rate flips l HD (wfv_list l HW) pos) as (Ms & E & EM). rewrite E. cbn [bind fst snd].
      rewrite EM by (clear; induction l; constructor; auto; reflexivity). cbn [bind]. eexists. split; [reflexivity|]. intros dY HL. destruct dY as [| | | | |l'|]; try discriminate HL. injection HL as HL. rewrite EM by now apply like_list. reflexivity.
    - unfold dropout_lists. destruct (mask_list rate flips l HD (wfv_list l HW) pos) as (Ms & E & EM). rewrite E. cbn [bind fst snd].
      rewrite EM by (clear; induction l; constructor; auto; reflexivity). cbn [bind]. eexists. split; [reflexivity|]. intros dY HL. destruct dY as [| | | | |l'|]; try discriminate HL. injection HL as HL. rewrite EM by now apply like_list. reflexivity.
  Qed.
  Lemma il_nth l : forall pos k x, nth_error l k = Some x -> nth_error (il F pos l) k = Some (F (pos + k) x).
  Proof.
    induction l as [|y l IH]; intros pos [|k] x E; try discriminate; cbn in *; [rewrite Nat.add_0_r; congruence|]. rewrite (IH (S pos) k x E). do 2 f_equal. lia.
  Qed.
  Lemma il_masked pos l : masked rate flips pos l (il F pos l).
  Proof. split; [apply il_length|]. intros k x E. now apply il_nth. Qed.
  Lemma droppable_listed (X : value R) : droppable X -> droppable (listed X). Proof. destruct X; auto. Qed.
  Lemma leaves_listed (X : value R) : leaves (listed X) = leaves X. Proof. now destruct X. Qed.
  Lemma like_droppable (v w : value R) : like v w -> droppable w -> droppable v.
  Proof. intros HL HD. apply (droppable_vmap (fun _ => tt)). rewrite HL. now apply droppable_vmap. Qed.
  Lemma dropout_train pos X : droppable X -> wfv X -> (forall r, rate = Some r -> r <> 0) ->
    exists Y b, dropout flips pos rate true true X = Ok (Y, b, (pos + draws rate (length (leaves X)))%nat) /\ like Y (listed X) /\ masked rate flips pos (leaves X) (leaves Y) /\
      forall dY, like dY Y -> exists dX, b dY = Ok dX /\ like dX dY /\ masked rate flips pos (leaves dY) (leaves dX).
  Proof.
    intros HD HW HR. destruct (train_ok pos X HD HW HR) as (b & E & EB). pose proof (droppable_listed X HD) as HD'. eexists _, b. split; [exact E|]. split; [now apply iv_like|].
    split; [rewrite iv_leaves, leaves_listed by exact HD'; apply il_masked|].
    intros dY HL. assert (HL' : like dY (listed X)) by (eapply like_trans; [exact HL|now apply iv_like]). rewrite EB by exact HL'. assert (droppable dY) by (eapply like_droppable; [exact HL'|exact HD']).
    eexists. split; [reflexivity|]. split; [now apply iv_like|]. rewrite iv_leaves by assumption. apply il_masked.
  Qed.
  Lemma il_dot (a b : list R) : forall pos, dot a (il F pos b) = dot (il F pos a) b.
  Proof.
    revert b. induction a as [|x a IH]; intros [|y b] pos; try reflexivity. change (dot (x :: a) (il F pos (y :: b))) with (x * F pos y + dot a (il F (S pos) b)).
    change (dot (il F pos (x :: a)) (y :: b)) with (F pos x * y + dot (il F (S pos) a) b). rewrite IH. unfold F. ring.
  Qed.
  Lemma il_smooth (l : list jet) : Forall smooth l -> forall pos, Forall smooth (il (fun k (j : jet) => ((fun s => fst j s * keep rate (flips k)), snd j * keep rate (flips k)) : jet) pos l).
  Proof.
    induction 1 as [|j l Hj Hl IH]; intros pos; constructor; [|apply IH]. unfold smooth. cbn [fst snd].
    replace (snd j * keep rate (flips pos)) with (snd j * keep rate (flips pos) + fst j 0 * 0) by ring.
    apply (derivable_pt_lim_mult (fst j) (fun _ => keep rate (flips pos)) 0); [exact Hj|apply derivable_pt_lim_const].
  Qed.
  Lemma wfv_like_listed (X : value R) pos : droppable X -> wfv X -> wfv (iv F pos (listed X)).
  Proof.
    intros HD HW. assert (HW' : wfv (listed X)) by (destruct X; exact HW). refine (wfv_like _ _ _ HW'). apply iv_like. now apply droppable_listed.
  Qed.
  Lemma dropout_diff_train pos theta X : droppable X -> listed X = X -> wfv X -> (forall r, rate = Some r -> r <> 0) ->
    exists Y, differentiates (Dropout flips pos rate true) true theta X Y /\ masked rate flips pos (leaves X) (leaves Y).
  Proof.
    intros HD HLi HW HR. exists (iv F pos X). split; [|rewrite iv_leaves by exact HD; apply il_masked].
    destruct (train_ok pos X HD HW HR) as (b & E & EB). rewrite HLi in *. unfold Dropout. eexists. split; [rewrite E; reflexivity|].
    split; [rewrite <- HLi at 1; now apply wfv_like_listed|].
    cbn [fst snd]. intros dY g LdY Lg. assert (HL : like dY X) by (eapply like_trans; [exact LdY|now apply iv_like]). rewrite EB by exact HL. cbn [bind].
    assert (HDY : droppable dY) by (eapply like_droppable; eassumption).
    eexists _, g. split; [reflexivity|]. split; [eapply like_trans; [now apply iv_like|exact HL]|]. split; [exact Lg|].
    intros P K HP HK SP SK. assert (HDK : droppable K) by (apply (droppable_vmap (at_time 0)); rewrite HK; exact HD).
    set (G := fun k (j : jet) => ((fun s => fst j s * keep rate (flips k)), snd j * keep rate (flips k)) : jet).
    exists (iv G pos K). split; [rewrite iv_leaves by exact HDK; now apply il_smooth|]. split.
    - intros s. rewrite (iv_ext G F (at_time s) (at_time s)) by (reflexivity || exact HDK). set (Xs := vmap (at_time s) K).
      assert (HDs : droppable Xs) by now apply droppable_vmap.
      assert (HLs : like Xs X) by (rewrite <- HK; eapply like_trans; [apply like_vmap|apply like_sym, like_vmap]).
      destruct (train_ok pos Xs HDs (wfv_like _ _ HLs HW) HR) as (bs & Es & _).
      assert (Hls : listed Xs = Xs) by (destruct X; try discriminate HLi; destruct Xs; try discriminate HLs; reflexivity). rewrite Hls in Es. rewrite Es. eexists. reflexivity.
    - rewrite Rminus_diag_eq, Rplus_0_r by reflexivity. rewrite (iv_ext G F velocity velocity) by (reflexivity || exact HDK).
      unfold inner. rewrite !iv_leaves by (now apply droppable_vmap || exact HDY). apply il_dot.
  Qed.
End Train.

(** ** Switched off *)
Lemma dropout_off {T} `{Num T} (flips : nat -> T) pos rate enabled tr X :
  (exists r, rate = Some r /\ neqb r (nZ 0) = true) \/ enabled = false \/ tr = false ->
  exists b, dropout flips pos rate enabled tr X = Ok (X, b, pos) /\ forall dY, b dY = Ok dY.
Proof.
  intros H0. exists (fun dY => Ok dY). split; [|reflexivity]. unfold dropout.
  replace ((match rate with Some r => neqb r (nZ 0) | None => false end) || negb (enabled && tr)) with true; [reflexivity|].
  destruct H0 as [(r & -> & ->)|[-> | ->]]; [reflexivity|now rewrite orb_true_r|now rewrite andb_false_r, orb_true_r].
Qed.
Lemma keep_range d flip : 0 < d < 1 -> (d <= flip -> keep (Some d) flip = 1 / (1 - d)) /\ (flip < d -> keep (Some d) flip = 0).
Proof. intros Hd. unfold keep. destruct (Rle_dec d 0); [lra|]. destruct (Rle_dec 1 d); [lra|]. split; intros; destruct (Rle_dec d flip); try lra; reflexivity. Qed.
Lemma keep_edge flip : keep None flip = 1 /\ (forall d, d <= 0 -> keep (Some d) flip = 1) /\ (forall d, 1 <= d -> keep (Some d) flip = 0).
Proof. repeat split; intros; unfold keep; destruct (Rle_dec d 0); try lra; try reflexivity. destruct (Rle_dec 1 d); [reflexivity|lra]. Qed.
Lemma drop_errors {T} `{Num T} (flips : nat -> T) pos rate X : (forall r, rate = Some r -> neqb r (nZ 0) = false) ->
  (forall x, X = Sc x -> dropout flips pos rate true true X = Err AttributeError) /\
  (forall l, X = PyList l \/ X = PyTup l -> ~ Forall is_array l -> dropout flips pos rate true true X = Err AttributeError).
Proof.
  intros HR. unfold dropout. replace (match rate with Some r => neqb r (nZ 0) | None => false end) with false by (destruct rate; [now rewrite HR|reflexivity]). cbn [orb andb negb]. split.
  - intros x ->. reflexivity.
  - intros l HX HN. assert (E : forall p, masks_for flips p rate l = Err AttributeError).
    { clear HX. induction l as [|v l IH]; intros p; [destruct HN; constructor|]. cbn [masks_for]. destruct v as [|u|m| | | |]; try reflexivity; cbn [mask_for bind fst snd].
      - rewrite IH; [reflexivity|]. intros HF. apply HN. constructor; [exact I|exact HF].
      - rewrite IH; [reflexivity|]. intros HF. apply HN. constructor; [exact I|exact HF]. }
    destruct HX as [-> | ->]; unfold dropout_lists; now rewrite E.
Qed.
Lemma half_mask : (neqb (1/2) (nZ 0) = false) /\ nltb (nZ 0) (1/2) = true /\ nltb (1/2) (nZ 1) = true.
Proof. split; [cbn; destruct (Req_EM_T (1/2) 0); [lra|reflexivity]|]. split; apply nltb_R; cbn; lra. Qed.
Lemma drop_short : exists Y b p, dropout (fun _ => 1) 0 (Some (1/2)) true true (PyList [Arr1 [1]; Arr1 [1]]) = Ok (Y, b, p) /\ exists x, b (PyList [Arr1 [1]]) = Ok (PyList [Arr1 [x]]).
Proof.
  destruct half_mask as (E1 & E2 & E3). unfold dropout. rewrite E1. cbn [orb andb negb]. unfold dropout_lists. cbn [masks_for mask_for get_dropout_mask length]. rewrite E2, E3. cbn [negb].
  eexists _, _, _. split; [reflexivity|]. eexists. reflexivity.
Qed.
Lemma drop_empty_ragged : exists b p, dropout (fun _ => 1) 0 (Some (1/2)) true true (Rag (mkM 0 []) 5 [0%Z]) = Ok (Rag (mkM 0 []) 0 [0%Z], b, p).
Proof.
  destruct half_mask as (E1 & E2 & E3). unfold dropout. rewrite E1. cbn [orb andb negb]. unfold dropout_ragged. cbn [get_dropout_mask length m_rows m_cols]. rewrite E2, E3. eexists _, _. reflexivity.
Qed.
Lemma drop_list_gradient {T} {N : Num T} (flips : nat -> T) pos rate Xs Y b p : (forall r, rate = Some r -> neqb r (nZ 0) = false) -> dropout flips pos rate true true (PyList Xs) = Ok (Y, b, p) ->
  forall dY, (exists x, dY = Sc x) -> b dY = Err TypeError.
Proof.
  intros HR E dY (x & ->). unfold dropout in E. replace (match rate with Some r => neqb r (nZ 0) | None => false end) with false in E by (destruct rate; [symmetry; now apply HR|reflexivity]). cbn [orb negb andb] in E.
  unfold dropout_lists in E. apply bind_ok in E as (mp & E1 & E). apply bind_ok in E as (Ys & E2 & E). injection E as <- <- <-. reflexivity.
Qed.
