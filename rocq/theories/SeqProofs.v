From Verif Require Import BaseFacts SeqSpec.
Set Default Goal Selector "!".

Lemma same_shape_refl l : same_shape l l = true.
Proof. unfold same_shape. destruct (list_eq_dec Nat.eq_dec l l); congruence. Qed.
Lemma same_shape_eq a b : same_shape a b = true -> a = b.
Proof. unfold same_shape. destruct (list_eq_dec Nat.eq_dec a b); congruence. Qed.

Section Seq.
  Context {T : Type} (z : T).
  Implicit Types (X : nda T) (Xs : list (nda T)).

  Lemma concatenate_ok tail Xs : Forall (fun x => a_tail x = tail) Xs -> Xs <> [] ->
    concatenate Xs = Ok (mkA tail (concat (map a_rows Xs))).
  Proof.
    intros Hf Hne. destruct Xs as [|x Xs]; [congruence|]. unfold concatenate.
    inversion Hf as [|? ? E Hf']; subst.
    replace (forallb _ (x :: Xs)) with true; [reflexivity|]. symmetry. apply forallb_forall.
    intros y Hy. rewrite Forall_forall in Hf. rewrite (Hf y Hy). apply same_shape_refl.
  Qed.

  (** *** flatten *)
  Lemma size_len tail x : shape_size tail <> 0 -> a_tail x = tail -> Nat.eqb (a_size x) 0 = Nat.eqb (@a_len T x) 0.
  Proof.
    intros Hs E. unfold a_size. rewrite E. destruct (Nat.eqb_spec (a_len x * shape_size tail) 0), (Nat.eqb_spec (a_len x) 0); nia || reflexivity.
  Qed.

  Lemma filter_nonempty tail Xs : shape_size tail <> 0 -> like tail Xs ->
    filter (fun x => negb (Nat.eqb (a_size x) 0)) Xs = nonempty Xs.
  Proof.
    intros Hs Hl. unfold nonempty. induction Hl as [|x Xs [E _] Hl IH]; [reflexivity|].
    cbn [filter]. rewrite (size_len tail x Hs E), IH. reflexivity.
  Qed.

  Lemma like_filter tail Xs f : like tail Xs -> like tail (filter f Xs).
  Proof. intros Hl. induction Hl as [|x Xs E Hl IH]; [constructor|]. cbn. destruct (f x); [constructor; assumption | exact IH]. Qed.

  Lemma like_tails tail Xs : like tail Xs -> Forall (fun x => a_tail x = tail) Xs.
  Proof. intros Hl. eapply Forall_impl; [|exact Hl]. intros a [E _]. exact E. Qed.

  Lemma flatten_padded_rows tail pad Xs : like tail Xs -> Xs <> [] ->
    Forall (fun x => a_tail x = tail) (flatten_padded z pad Xs) /\
    concat (map a_rows (flatten_padded z pad Xs)) = concat (map (fun x => zero_rows z pad tail ++ a_rows x) Xs) ++ zero_rows z pad tail.
  Proof.
    intros Hl Hne. unfold flatten_padded.
    assert (H1 : Forall (fun x => a_tail x = tail) (concat (map (fun x => [mkA (a_tail x) (zero_rows z pad (a_tail x)); x]) Xs)) /\
      concat (map a_rows (concat (map (fun x => [mkA (a_tail x) (zero_rows z pad (a_tail x)); x]) Xs))) = concat (map (fun x => zero_rows z pad tail ++ a_rows x) Xs)).
    { clear Hne. induction Hl as [|x Xs [E _] Hl [IH1 IH2]]; [split; [constructor | reflexivity]|].
      cbn [map concat app]. split; [constructor; [exact E|]; constructor; assumption|]. rewrite IH2, E. cbn [a_rows]. now rewrite app_assoc. }
    destruct H1 as [H1 H2]. destruct (rev Xs) as [|y ys] eqn:Er.
    - apply (f_equal (@rev _)) in Er. rewrite rev_involutive in Er. cbn in Er. congruence.
    - assert (Hy : a_tail y = tail).
      { assert (In y Xs) by (apply in_rev; rewrite Er; now left). unfold like in Hl. rewrite Forall_forall in Hl. now apply Hl. }
      split; [apply Forall_app; split; [exact H1 | now repeat constructor]|].
      rewrite map_app, concat_app, H2. cbn. now rewrite app_nil_r, Hy.
  Qed.

  Lemma flatten_eq tail Xs pad nd : shape_size tail <> 0 -> like tail Xs -> Xs <> [] ->
    flatten z Xs pad nd = Ok (mkA tail (match nonempty Xs with
      | [] => []
      | _ => concat (map (fun x => zero_rows z pad tail ++ a_rows x) (nonempty Xs)) ++ zero_rows z pad tail
      end)).
  Proof.
    intros Hs Hl Hne. unfold flatten. destruct Xs as [|x0 Xs0] eqn:EX; [congruence|]. rewrite <- EX in *.
    rewrite (filter_nonempty tail Xs Hs Hl). pose proof (like_filter tail Xs (fun x => negb (Nat.eqb (a_len x) 0)) Hl) as Hl'. fold (nonempty Xs) in Hl'.
    destruct (nonempty Xs) as [|y ys] eqn:En.
    - assert (a_len x0 = 0).
      { destruct (Nat.eqb_spec (a_len x0) 0) as [|Hne']; [assumption|]. subst Xs. unfold nonempty in En. cbn [filter] in En.
        destruct (Nat.eqb_spec (a_len x0) 0); [assumption | discriminate]. }
      assert (a_tail x0 = tail) by (subst Xs; inversion Hl; subst; tauto). rewrite H, H0. reflexivity.
    - rewrite <- En in *. assert (nonempty Xs <> []) by congruence.
      destruct (Nat.leb_spec 1 pad).
      + destruct (flatten_padded_rows tail pad (nonempty Xs) Hl' H) as [A B].
        rewrite (concatenate_ok tail _ A).
        * now rewrite B.
        * rewrite En. unfold flatten_padded. cbn. discriminate.
      + replace pad with 0 by lia. rewrite (concatenate_ok tail _ (like_tails _ _ Hl') H). cbn [zero_rows repeat app]. now rewrite app_nil_r.
  Qed.

  Lemma flatten_empty pad nd : flatten z [] pad nd = Ok (mkA (repeat 0 (nd - 1)) []).
  Proof. reflexivity. Qed.

  Lemma forallb_false {A} (f : A -> bool) l x : In x l -> f x = false -> forallb f l = false.
  Proof. intros Hin Hf. destruct (forallb f l) eqn:E; [|reflexivity]. rewrite forallb_forall in E. rewrite (E x Hin) in Hf. discriminate. Qed.

  Lemma flatten_mismatch Xs pad nd x y : In x Xs -> In y Xs -> a_size x <> 0 -> a_size y <> 0 -> a_tail x <> a_tail y ->
    flatten z Xs pad nd = Err ValueError.
  Proof.
    intros Hx Hy Sx Sy Hne. unfold flatten. destruct Xs as [|x0 Xs0] eqn:EX; [contradiction|]. rewrite <- EX in *. clear EX.
    set (X' := filter _ Xs).
    assert (In x X') by (apply filter_In; split; [assumption|]; destruct (Nat.eqb_spec (a_size x) 0); [contradiction | reflexivity]).
    assert (In y X') by (apply filter_In; split; [assumption|]; destruct (Nat.eqb_spec (a_size y) 0); [contradiction | reflexivity]).
    destruct X' as [|w ws] eqn:EX; [contradiction|]. rewrite <- EX in *. clear EX.
    assert (C : forall L, In x L -> In y L -> @concatenate T L = Err ValueError).
    { intros L Lx Ly. unfold concatenate. destruct L as [|l0 L0] eqn:EL; [contradiction|]. rewrite <- EL in *.
      destruct (same_shape (a_tail l0) (a_tail x)) eqn:E1.
      - rewrite (forallb_false _ L y Ly); [reflexivity|]. apply same_shape_eq in E1.
        unfold same_shape. destruct (list_eq_dec Nat.eq_dec (a_tail l0) (a_tail y)); congruence.
      - now rewrite (forallb_false _ L x Lx E1). }
    assert (D : forall v, In v X' -> In v (if 1 <=? pad then flatten_padded z pad X' else X')).
    { intros v Hv. destruct (1 <=? pad); [|exact Hv]. unfold flatten_padded. apply in_or_app. left. apply in_concat.
      exists [mkA (a_tail v) (zero_rows z pad (a_tail v)); v]. split; [apply (in_map (fun x => [mkA (a_tail x) (zero_rows z pad (a_tail x)); x])); exact Hv | right; now left]. }
    apply C; apply D; assumption.
  Qed.

  (** *** unflatten *)
  Lemma cumsum_from_shift acc l : cumsum_from acc l = map (Nat.add acc) (cumsum l).
  Proof.
    unfold cumsum. revert acc. induction l as [|x l IH]; intros acc; [reflexivity|].
    cbn [cumsum_from map]. rewrite (IH (acc + x)), (IH (0 + x)), map_map. f_equal. apply map_ext. intros. lia.
  Qed.

  Lemma split_chop lens : forall st X, removelast (split_from st (cumsum_from st lens) X) = map (mkA (a_tail X)) (chop lens (skipn st (a_rows X))).
  Proof.
    induction lens as [|n lens IH]; intros st X; [reflexivity|].
    cbn [cumsum_from split_from chop map].
    assert (Hne : forall a l, split_from a l X <> []) by (intros a [|? ?]; discriminate).
    change (removelast (?a :: ?l)) with (match l with [] => [] | _ :: _ => a :: removelast l end).
    destruct (split_from (st + n) (cumsum_from (st + n) lens) X) as [|y ys] eqn:E; [now apply Hne in E|]. rewrite <- E, IH.
    f_equal.
    - unfold slice_rows. do 2 f_equal. lia.
    - f_equal. f_equal. now rewrite skipn_skipn.
  Qed.

  Lemma unflatten_chop X lens : unflatten X lens 0 = map (mkA (a_tail X)) (chop lens (a_rows X)).
  Proof. unfold unflatten. cbn [Nat.ltb Nat.leb]. apply (split_chop lens 0 X). Qed.

  Definition plens (pad : nat) (lens : list nat) : list nat := map (fun n => if 0 <? n then n + pad else 0) lens.

  Lemma unflatten_chop_pad X lens pad : 0 < pad ->
    unflatten X lens pad = map (fun l => mkA (a_tail X) (skipn pad l)) (chop (plens pad lens) (a_rows X)).
  Proof.
    intros Hp. unfold unflatten. destruct (Nat.ltb_spec 0 pad); [|lia].
    unfold cumsum. rewrite (split_chop _ 0 X), map_map. apply map_ext. reflexivity.
  Qed.

  Lemma chop_concat {A} (ls : list (list A)) rest : chop (map (@length _) ls) (concat ls ++ rest) = ls.
  Proof.
    induction ls as [|l ls IH]; [reflexivity|]. cbn [map concat chop]. rewrite <- app_assoc.
    rewrite firstn_app, firstn_all, Nat.sub_diag, firstn_O, app_nil_r. f_equal.
    rewrite skipn_app, skipn_all, Nat.sub_diag. cbn. exact IH.
  Qed.

  Lemma concat_chop {A} lens : forall l : list A, list_sum_nat lens = length l -> concat (chop lens l) = l.
  Proof.
    induction lens as [|n lens IH]; intros l E; cbn in *.
    - now destruct l.
    - rewrite IH; [apply firstn_skipn|]. rewrite skipn_length. unfold list_sum_nat in *. lia.
  Qed.
  Lemma chop_lengths {A} lens : forall l : list A, list_sum_nat lens = length l -> map (@length _) (chop lens l) = lens.
  Proof.
    induction lens as [|n lens IH]; intros l E; cbn in *; [reflexivity|]. unfold list_sum_nat in *. f_equal.
    - rewrite firstn_length. lia.
    - apply IH. rewrite skipn_length. lia.
  Qed.
  Lemma chop_length {A} lens : forall l : list A, length (chop lens l) = length lens.
  Proof. induction lens as [|n lens IH]; intros l; cbn; [reflexivity|]. now rewrite IH. Qed.

  Lemma filter_concat_rows tail pad Xs : like tail Xs ->
    concat (map (fun x => zero_rows z pad tail ++ a_rows x) (nonempty Xs)) =
    concat (map (fun x => if 0 <? a_len x then zero_rows z pad tail ++ a_rows x else []) Xs).
  Proof.
    intros Hl. unfold nonempty. induction Xs as [|x Xs IH]; [reflexivity|]. inversion Hl; subst. cbn [filter map concat].
    destruct (Nat.eqb_spec (a_len x) 0) as [E|E]; cbn [negb].
    - rewrite E. cbn. now apply IH.
    - destruct (Nat.ltb_spec 0 (a_len x)); [|lia]. cbn [map concat]. now rewrite IH.
  Qed.

  Lemma nda_eta X tail : a_tail X = tail -> mkA tail (a_rows X) = X.
  Proof. intros <-. now destruct X. Qed.

  Lemma nonempty_nil_rows Xs : nonempty Xs = [] -> Forall (fun x => a_rows x = []) Xs.
  Proof.
    unfold nonempty. induction Xs as [|x Xs IH]; intros E; [constructor|]. cbn in E.
    destruct (Nat.eqb_spec (a_len x) 0) as [E0|E0]; [|discriminate]. constructor; [|auto].
    unfold a_len in E0. now destruct (a_rows x).
  Qed.

  Lemma unflatten_flatten tail Xs pad nd : shape_size tail <> 0 -> like tail Xs ->
    exists F, flatten z Xs pad nd = Ok F /\ unflatten F (map a_len Xs) pad = Xs.
  Proof.
    intros Hs Hl. destruct Xs as [|x0 Xs0] eqn:EX.
    { eexists. split; [reflexivity|]. unfold unflatten. destruct (0 <? pad); reflexivity. }
    assert (Hne : Xs <> []) by (rewrite EX; discriminate).
    rewrite <- EX in *. rewrite (flatten_eq tail) by assumption.
    eexists. split; [reflexivity|].
    set (R := match nonempty Xs with [] => [] | _ => _ end).
    assert (HR : exists rest, R = concat (map (fun x => if 0 <? a_len x then zero_rows z pad tail ++ a_rows x else []) Xs) ++ rest).
    { unfold R. destruct (nonempty Xs) eqn:En.
      - exists []. rewrite app_nil_r. apply nonempty_nil_rows in En. clear R Hs EX Hl Hne. induction En as [|x Xs E En IH]; [reflexivity|].
        cbn [map concat]. unfold a_len at 1. rewrite E. cbn. exact IH.
      - rewrite <- En, (filter_concat_rows tail pad Xs Hl). eexists. reflexivity. }
    destruct HR as [rest ->]. destruct (Nat.eq_dec pad 0) as [->|Hp].
    - rewrite unflatten_chop. cbn [a_tail a_rows].
      replace (map (fun x => if 0 <? a_len x then zero_rows z 0 tail ++ a_rows x else []) Xs) with (map a_rows Xs).
      + replace (map a_len Xs) with (map (@length _) (map a_rows Xs)) by (rewrite map_map; reflexivity).
        rewrite chop_concat, map_map. rewrite <- (map_id Xs) at 2. apply map_ext_in. intros x Hx. apply nda_eta.
        unfold like in Hl. rewrite Forall_forall in Hl. now apply Hl.
      + apply map_ext. intros x. destruct (Nat.ltb_spec 0 (a_len x)) as [E|E]; [reflexivity|]. unfold a_len in E. destruct (a_rows x); [reflexivity | cbn in E; lia].
    - rewrite unflatten_chop_pad by lia. cbn [a_tail a_rows].
      set (g := fun x => if 0 <? a_len x then zero_rows z pad tail ++ a_rows x else []).
      replace (plens pad (map a_len Xs)) with (map (@length _) (map g Xs)).
      + rewrite chop_concat, map_map. rewrite <- (map_id Xs) at 2. apply map_ext_in. intros x Hx.
        unfold like in Hl. rewrite Forall_forall in Hl. rewrite <- (nda_eta x tail) at 2 by now apply Hl. f_equal. unfold g.
        destruct (Nat.ltb_spec 0 (a_len x)) as [E|E].
        * rewrite skipn_app. unfold zero_rows. rewrite skipn_all2 by (rewrite repeat_length; lia). rewrite repeat_length, Nat.sub_diag. reflexivity.
        * rewrite skipn_nil. unfold a_len in E. destruct (a_rows x); [reflexivity | cbn in E; lia].
      + unfold plens. rewrite !map_map. apply map_ext. intros x. unfold g. destruct (0 <? a_len x); [|reflexivity].
        rewrite app_length. unfold zero_rows. rewrite repeat_length. unfold a_len. lia.
  Qed.

  Lemma flatten_rows0 tail Xs nd : shape_size tail <> 0 -> like tail Xs -> Xs <> [] ->
    flatten z Xs 0 nd = Ok (mkA tail (concat (map a_rows Xs))).
  Proof.
    intros Hs Hl Hne. rewrite (flatten_eq tail) by assumption. do 2 f_equal. destruct (nonempty Xs) eqn:En.
    - apply nonempty_nil_rows in En. clear Hl Hne. induction En as [|x Xs E En IH]; [reflexivity|]. cbn. now rewrite E.
    - rewrite <- En. unfold zero_rows. cbn [repeat app]. rewrite app_nil_r. unfold nonempty. clear.
      induction Xs as [|x Xs IH]; [reflexivity|]. cbn [filter map concat]. destruct (Nat.eqb_spec (a_len x) 0) as [E|E]; cbn [negb].
      + unfold a_len in E. destruct (a_rows x) eqn:Ex; [exact IH | discriminate].
      + cbn [map concat]. now rewrite IH.
  Qed.

  Lemma like_chop X lens : wf_nda X -> like (a_tail X) (map (mkA (a_tail X)) (chop lens (a_rows X))).
  Proof.
    unfold wf_nda. generalize (a_rows X). induction lens as [|n lens IH]; intros l Hw; cbn; [constructor|].
    assert (Hw' : Forall (fun r => length r = shape_size (a_tail X)) (firstn n l ++ skipn n l)) by (rewrite firstn_skipn; exact Hw).
    apply Forall_app in Hw' as [A B]. constructor; [split; [reflexivity | exact A] | apply IH; exact B].
  Qed.

  Lemma flatten_unflatten X lens nd : shape_size (a_tail X) <> 0 -> wf_nda X -> lens <> [] -> list_sum_nat lens = a_len X ->
    flatten z (unflatten X lens 0) 0 nd = Ok X.
  Proof.
    intros Hs Hw Hne Hsum. rewrite unflatten_chop. rewrite (flatten_rows0 (a_tail X)).
    - rewrite map_map. cbn [a_rows]. rewrite map_id, concat_chop by exact Hsum. now destruct X.
    - exact Hs.
    - now apply like_chop.
    - destruct lens; [congruence | discriminate].
  Qed.

  (** *** pad *)
  Lemma neg_mod m r : 0 < r -> let k := Z.to_nat (- Z.of_nat m mod Z.of_nat r) in (m + k) mod r = 0 /\ k < r.
  Proof.
    intros Hr k. assert (Hk : (0 <= - Z.of_nat m mod Z.of_nat r < Z.of_nat r)%Z) by (apply Z.mod_pos_bound; lia).
    split; [|unfold k; lia]. apply Nat2Z.inj. rewrite Nat2Z.inj_mod, Nat2Z.inj_add. unfold k. rewrite Z2Nat.id by lia.
    rewrite Zplus_mod_idemp_r. replace (Z.of_nat m + - Z.of_nat m)%Z with 0%Z by lia. now rewrite Zmod_0_l.
  Qed.

  Lemma pad_ok tail seqs r : like tail seqs -> seqs <> [] -> 1 <= r ->
    exists L, pad_seqs z seqs r = Ok (mkA3 L tail (map (fun s => a_rows s ++ zero_rows z (L - a_len s) tail) seqs)) /\
      L mod r = 0 /\ max_len seqs <= L < max_len seqs + r.
  Proof.
    intros Hl Hne Hr. unfold pad_seqs. destruct (Nat.ltb_spec r 1); [lia|]. destruct seqs as [|s0 ss] eqn:ES; [congruence|]. rewrite <- ES in *.
    assert (E0 : a_tail s0 = tail) by (subst seqs; inversion Hl; tauto).
    rewrite (proj2 (forallb_forall _ seqs)).
    2:{ intros s Hs. unfold like in Hl. rewrite Forall_forall in Hl. destruct (Hl s Hs) as [-> _]. rewrite E0. apply Nat.eqb_refl. }
    rewrite (proj2 (forallb_forall _ seqs)).
    2:{ intros s Hs. unfold like in Hl. rewrite Forall_forall in Hl. destruct (Hl s Hs) as [-> _]. rewrite E0. apply same_shape_refl. }
    cbn [negb]. rewrite E0. eexists. split; [reflexivity|]. fold (max_len seqs).
    destruct (neg_mod (max_len seqs) r ltac:(lia)) as [A B]. split; [exact A | lia].
  Qed.

  Lemma max_len_le seqs s : In s seqs -> @a_len T s <= max_len seqs.
  Proof.
    unfold max_len. induction seqs as [|x l IH]; intros Hin; [contradiction|]. cbn. destruct Hin as [->|Hin]; [lia|]. specialize (IH Hin). lia.
  Qed.

  Lemma unpad_gen tail cells : forall lens, length cells = length lens ->
    unpad (mkA3 0 tail cells) lens = Ok (map (fun p => @mkA T tail (firstn (snd p) (fst p))) (combine cells lens)).
  Proof.
    intros lens E. unfold unpad. cbn [a3_cells a3_tail].
    assert (G : forall pre cs ls, length cs = length ls ->
      mapM (fun p => let* c := py_get (pre ++ cs) (fst p) in Ok (mkA tail (firstn (snd p) c))) (combine (seq (length pre) (length ls)) ls)
      = Ok (map (fun p => @mkA T tail (firstn (snd p) (fst p))) (combine cs ls))).
    { intros pre cs. revert pre. induction cs as [|c cs IH]; intros pre [|n ls] El; try discriminate; [reflexivity|].
      cbn [length seq combine mapM map fst snd]. unfold py_get at 1. rewrite nth_error_app2, Nat.sub_diag by lia. cbn [nth_error bind].
      specialize (IH (pre ++ [c]) ls). rewrite app_length in IH. cbn [length] in IH. rewrite Nat.add_1_r, <- app_assoc in IH. cbn [app] in IH.
      rewrite IH by (cbn in El; lia). reflexivity. }
    apply (G [] cells lens E).
  Qed.

  Lemma unpad_n1 n m tail cells lens : unpad (mkA3 n tail cells) lens = @unpad T (mkA3 m tail cells) lens.
  Proof. reflexivity. Qed.

  Lemma unpad_pad tail seqs r : like tail seqs -> seqs <> [] -> 1 <= r ->
    exists a, pad_seqs z seqs r = Ok a /\ unpad a (map a_len seqs) = Ok seqs.
  Proof.
    intros Hl Hne Hr. destruct (pad_ok tail seqs r Hl Hne Hr) as (L & -> & _). eexists. split; [reflexivity|].
    rewrite (unpad_n1 L 0), unpad_gen by now rewrite !map_length. f_equal. clear Hne.
    induction Hl as [|s seqs [E _] Hl IH]; [reflexivity|]. cbn [map combine fst snd]. rewrite IH. f_equal.
    unfold a_len. rewrite firstn_app, firstn_all, Nat.sub_diag, firstn_O, app_nil_r. now apply nda_eta.
  Qed.

  Lemma pad_errors seqs r : r < 1 \/ seqs = [] \/ (exists s t, In s seqs /\ In t seqs /\ a_tail s <> a_tail t) ->
    pad_seqs z seqs r = Err ValueError.
  Proof.
    intros H. unfold pad_seqs. destruct (Nat.ltb_spec r 1); [reflexivity|]. destruct seqs as [|s0 ss] eqn:ES; [reflexivity|]. rewrite <- ES in *.
    destruct H as [H|[H|(s & t & Hs & Ht & Hne)]]; [lia | congruence|].
    destruct (forallb (fun s1 => Nat.eqb _ _) seqs); [|reflexivity]. cbn [negb].
    destruct (same_shape (a_tail s) (a_tail s0)) eqn:E.
    - rewrite (forallb_false _ seqs t Ht); [reflexivity|]. apply same_shape_eq in E. unfold same_shape.
      destruct (list_eq_dec Nat.eq_dec (a_tail t) (a_tail s0)); congruence.
    - now rewrite (forallb_false _ seqs s Hs E).
  Qed.
End Seq.
Lemma ragged_get_errors {T} (r : ragged T) sl : ragged_get r RTuple = Err IndexError /\ (sl_step sl = 0 -> ragged_get r (RSlice sl) = Err ValueError) /\
  (sl_step sl <> 0 -> py_slice_get (r_lengths r) sl = [] -> shape_size (r_tail r) <> 0 -> exists r', ragged_get r (RSlice sl) = Ok r' /\ r_lengths r' = [] /\ a_rows (r_data r') = []).
Proof.
  split; [reflexivity|]. split; cbn [ragged_get].
  - intros ->. reflexivity.
  - intros Hs E Ht. destruct (Nat.eqb_spec (sl_step sl) 0); [lia|]. cbv zeta. rewrite E. unfold reshape_tail. destruct (Nat.eqb_spec (shape_size (r_tail r)) 0); [lia|]. cbn [bind]. eexists. split; [reflexivity|]. split; reflexivity.
Qed.
