From Coq Require Import QArith Permutation.
From Verif Require Import BaseFacts BatchModel.
Require Import ZifyBool ZifyNat.
Open Scope nat_scope.

Lemma py_int_inject z : py_int (inject_Z z) = z.
Proof. unfold py_int, inject_Z; simpl. apply Z.quot_1_r. Qed.

Lemma inject_plus a b : (inject_Z a + inject_Z b)%Q = inject_Z (a + b).
Proof. unfold Qplus, inject_Z; simpl. f_equal. lia. Qed.

Lemma Qle_bool_inject a b : Qle_bool (inject_Z a) (inject_Z b) = (a <=? b)%Z.
Proof. unfold Qle_bool, inject_Z; simpl. rewrite !Z.mul_1_r. reflexivity. Qed.

Fixpoint zsum (l : list Z) : Z := match l with [] => 0%Z | z :: l' => (z + zsum l')%Z end.

Lemma zsum_fold l : zsum l = fold_right Z.add 0%Z l.
Proof. induction l as [|z l IH]; simpl; congruence. Qed.

Lemma zsum_app a b : zsum (a ++ b) = (zsum a + zsum b)%Z.
Proof. induction a as [|x a IH]; simpl; lia. Qed.

Lemma zsum_nonneg l : (forall z, In z l -> 0 <= z)%Z -> (0 <= zsum l)%Z.
Proof.
  induction l as [|z l IH]; simpl; intros H; [lia|].
  assert (0 <= z)%Z by (apply H; left; reflexivity).
  specialize (IH (fun y Hy => H y (or_intror Hy))). lia.
Qed.

(** The batch sizes drawn: a prefix of the source that just covers the length. *)
Lemma get_batch_sizes_int fuel len s k i out :
  (forall j, 1 <= s j)%Z -> (Z.to_nat (len - i) < fuel)%nat ->
  exists m, get_batch_sizes fuel len (int_sizes s) k (inject_Z i) out
            = Ok (out ++ map inject_Z (map s (seq k m)))
            /\ (len <= i + zsum (map s (seq k m)))%Z
            /\ (forall m', m' < m -> (i + zsum (map s (seq k m')) < len)%Z).
Proof.
  intros Hs. revert k i out. induction fuel as [|fuel IH]; intros k i out Hf; [lia|].
  cbn [get_batch_sizes]. rewrite Qle_bool_inject.
  destruct (Z.leb_spec len i) as [Hle|Hlt]; cbn [negb].
  - exists 0. simpl. rewrite app_nil_r. split; [reflexivity|]. split; [lia|]. intros m' Hm'; lia.
  - unfold int_sizes at 1. cbn. rewrite inject_plus.
    destruct (IH (S k) (i + s k)%Z (out ++ [inject_Z (s k)])) as (m & Heq & Hcov & Hmin).
    { specialize (Hs k). lia. }
    exists (S m). rewrite Heq. cbn [seq map zsum]. rewrite <- app_assoc. split; [reflexivity|].
    split; [lia|]. intros m' Hm'. destruct m' as [|m']; cbn [seq map zsum]; [lia|].
    specialize (Hmin m'). lia.
Qed.

(** What the generator yields does not depend on buffering. *)
Fixpoint slices (indices : list nat) (sizes : list Q) (i : Z) : list (list nat) :=
  match sizes with
  | [] => []
  | s :: sizes' => py_slice indices i (i + py_int s) :: slices indices sizes' (i + py_int s)
  end.

Lemma iter_items_eq {B} (mk : list nat -> result B) indices buffer sizes i queue yielded :
  iter_items mk indices buffer sizes i queue yielded =
  let* bs := mapM mk (slices indices sizes i) in Ok (yielded ++ queue ++ bs).
Proof.
  revert i queue yielded; induction sizes as [|s sizes IH]; intros i queue yielded; simpl.
  - rewrite app_nil_r; reflexivity.
  - destruct (mk (py_slice indices i (i + py_int s))) as [b|e]; simpl; [|reflexivity].
    destruct (Z.leb_spec buffer (Z.of_nat (length (queue ++ [b])))); rewrite IH;
      destruct (mapM mk (slices indices sizes (i + py_int s))) as [bs|e]; simpl;
      try reflexivity; rewrite <- !app_assoc; reflexivity.
Qed.

(** Cutting a list into pieces of given sizes. *)
Fixpoint cut {A} (zs : list Z) (l : list A) : list (list A) :=
  match zs with
  | [] => []
  | z :: zs' => firstn (Z.to_nat z) l :: cut zs' (skipn (Z.to_nat z) l)
  end.

Lemma slices_cut indices zs i :
  (forall z, In z zs -> 0 <= z)%Z -> (0 <= i)%Z ->
  slices indices (map inject_Z zs) i = cut zs (skipn (Z.to_nat i) indices).
Proof.
  revert i; induction zs as [|z zs IH]; intros i Hz Hi; simpl; [reflexivity|].
  assert (0 <= z)%Z by (apply Hz; left; reflexivity).
  rewrite py_int_inject, IH; [|intros y Hy; apply Hz; right; exact Hy|lia].
  rewrite py_slice_nonneg by lia. f_equal.
  - f_equal; lia.
  - rewrite skipn_skipn. f_equal; f_equal; lia.
Qed.

Lemma cut_concat {A} zs (l : list A) :
  (forall z, In z zs -> 0 <= z)%Z -> (Z.of_nat (length l) <= zsum zs)%Z -> concat (cut zs l) = l.
Proof.
  revert l; induction zs as [|z zs IH]; intros l Hz Hlen; simpl in *.
  - destruct l as [|a l]; [reflexivity|simpl in Hlen; lia].
  - assert (0 <= z)%Z by (apply Hz; left; reflexivity).
    rewrite IH; [apply firstn_skipn|intros; apply Hz; right; auto|].
    rewrite skipn_length.
    pose proof (zsum_nonneg zs (fun y Hy => Hz y (or_intror Hy))). lia.
Qed.

Lemma cut_length {A} zs (l : list A) : length (cut zs l) = length zs.
Proof. revert l; induction zs as [|z zs IH]; intros l; simpl; auto. Qed.

Lemma cut_nth {A} zs (l : list A) k c :
  (forall z, In z zs -> 0 <= z)%Z -> nth_error (cut zs l) k = Some c ->
  exists z, nth_error zs k = Some z /\
    Z.of_nat (length c) = Z.min z (Z.max 0 (Z.of_nat (length l) - zsum (firstn k zs))).
Proof.
  revert l k; induction zs as [|z zs IH]; intros l k Hz Hk; simpl in *; [destruct k; discriminate|].
  assert (0 <= z)%Z by (apply Hz; left; reflexivity).
  destruct k as [|k]; simpl in *.
  - inversion Hk; subst. exists z; split; [reflexivity|]. rewrite firstn_length. lia.
  - destruct (IH (skipn (Z.to_nat z) l) k) as (z' & Hz' & Hl); [intros; apply Hz; auto|auto|].
    exists z'; split; [exact Hz'|]. rewrite skipn_length in Hl.
    assert (0 <= zsum (firstn k zs))%Z.
    { apply zsum_nonneg. intros y Hy. apply Hz. right.
      rewrite <- (firstn_skipn k zs). apply in_or_app; left; exact Hy. }
    lia.
Qed.

Lemma firstn_map_seq {A} (f : nat -> A) k a m :
  k <= m -> firstn k (map f (seq a m)) = map f (seq a k).
Proof.
  revert a m; induction k as [|k IH]; intros a m H; [reflexivity|].
  destruct m as [|m]; [lia|]. cbn [seq map firstn]. rewrite IH by lia; reflexivity.
Qed.

(** The index batches handed out for integer sizes. *)
Lemma index_batches fuel (n : nat) s indices :
  (forall j, 1 <= s j)%Z -> n < fuel -> length indices = n ->
  exists idxs szs,
    get_batch_sizes fuel (Z.of_nat n) (int_sizes s) 0 0%Q [] = Ok szs /\
    slices indices szs 0 = idxs /\ length szs = length idxs /\
    concat idxs = indices /\
    (forall k c, nth_error idxs k = Some c ->
       c <> [] /\ (Z.of_nat (length c) <= s k)%Z /\
       (S k < length idxs -> Z.of_nat (length c) = s k)).
Proof.
  intros Hs Hf Hn.
  destruct (get_batch_sizes_int fuel (Z.of_nat n) s 0 0%Z [] Hs) as (m & Heq & Hcov & Hmin); [lia|].
  change (inject_Z 0) with 0%Q in Heq. cbn [app] in Heq.
  set (zs := map s (seq 0 m)) in *.
  assert (Hpos : forall z, In z zs -> (0 <= z)%Z).
  { intros z Hz. unfold zs in Hz. apply in_map_iff in Hz. destruct Hz as (j & <- & _).
    specialize (Hs j); lia. }
  exists (cut zs indices), (map inject_Z zs).
  assert (Hlen : length (cut zs indices) = m).
  { rewrite cut_length. unfold zs. rewrite map_length, seq_length. reflexivity. }
  split; [exact Heq|]. split; [rewrite slices_cut by (auto; lia); reflexivity|].
  split; [rewrite map_length, cut_length; reflexivity|].
  split; [apply cut_concat; [auto|]; rewrite Hn; lia|].
  intros k c Hk. destruct (cut_nth zs indices k c Hpos Hk) as (z & Hz & Hc).
  assert (Hkm : k < m). { rewrite <- Hlen. apply nth_error_Some. congruence. }
  assert (z = s k).
  { unfold zs in Hz. rewrite nth_error_map in Hz.
    rewrite nth_error_nth' with (d := 0) in Hz by (rewrite seq_length; lia).
    rewrite seq_nth in Hz by lia. simpl in Hz. congruence. }
  subst z. assert (Hfirst : firstn k zs = map s (seq 0 k)) by (unfold zs; apply firstn_map_seq; lia).
  rewrite Hfirst, Hn in Hc. pose proof (Hmin k Hkm) as Hk1. pose proof (Hs k) as Hsk.
  split; [intros ->; simpl in Hc; lia|]. split; [lia|].
  intros HSk. rewrite Hlen in HSk. specialize (Hmin (S k) HSk).
  replace (map s (seq 0 (S k))) with (map s (seq 0 k) ++ [s k]) in Hmin
    by (rewrite seq_S, map_app; reflexivity).
  rewrite zsum_app in Hmin. simpl in Hmin. lia.
Qed.

Lemma nth_error_mapM_inv {A B} (f : A -> result B) l bs k b :
  mapM f l = Ok bs -> nth_error bs k = Some b -> exists a, nth_error l k = Some a /\ f a = Ok b.
Proof.
  intros H Hk. assert (k < length l).
  { rewrite <- (mapM_length _ _ _ H). apply nth_error_Some; congruence. }
  destruct (nth_error l k) as [a|] eqn:Ha; [|apply nth_error_None in Ha; lia].
  destruct (mapM_nth_error f l bs k a H Ha) as (b' & Hb' & Hk'). exists a. split; congruence.
Qed.

Lemma minibatch_partition_lemma {A} (data : list A) (s : nat -> Z) indices buffer fuel :
  (forall k, 1 <= s k)%Z -> Permutation indices (seq 0 (length data)) -> length data < fuel ->
  exists batches,
    minibatch fuel (int_sizes s) data indices buffer = Ok (SizedGen (length batches) (Ok batches)) /\
    mapM (py_get data) indices = Ok (concat batches) /\
    Permutation (concat batches) data /\
    (forall k b, nth_error batches k = Some b ->
       b <> [] /\ (Z.of_nat (length b) <= s k)%Z /\
       (S k < length batches -> Z.of_nat (length b) = s k)).
Proof.
  intros Hs HP Hf.
  assert (Hlen : length indices = length data).
  { rewrite (Permutation_length HP), seq_length; reflexivity. }
  destruct (index_batches fuel (length data) s indices Hs Hf Hlen)
    as (idxs & szs & Hsz & Hsl & Hl & Hcat & Hk).
  assert (Hin : forall i, In i indices -> i < length data).
  { intros i Hi. apply (Permutation_in i HP) in Hi. apply in_seq in Hi; lia. }
  destruct (mapM_exists (get_batch data) idxs) as [bs Hbs].
  { intros idx Hidx. apply mapM_exists. intros i Hi. apply py_get_exists, Hin.
    rewrite <- Hcat. apply in_concat. eauto. }
  exists bs. unfold minibatch. rewrite Hsz. cbn [bind].
  rewrite iter_items_eq, Hsl, Hbs. cbn [bind app].
  pose proof (mapM_length _ _ _ Hbs) as HL. rewrite Hl, HL. split; [reflexivity|].
  pose proof (mapM_concat _ _ _ Hbs) as HC. rewrite Hcat in HC. split; [exact HC|].
  split; [eapply mapM_perm; [exact HP|exact HC|apply mapM_py_get_seq]|].
  intros k b Hb. destruct (nth_error_mapM_inv _ _ _ _ _ Hbs Hb) as (c & Hc & Hcb).
  unfold get_batch in Hcb. apply mapM_length in Hcb.
  destruct (Hk k c Hc) as (H1 & H2 & H3). rewrite Hcb.
  split; [|split; auto]. intros ->. destruct c; [congruence|discriminate].
Qed.

Lemma minibatch_in_order_lemma {A} (data : list A) (s : nat -> Z) buffer fuel :
  (forall k, 1 <= s k)%Z -> length data < fuel ->
  exists batches,
    minibatch fuel (int_sizes s) data (seq 0 (length data)) buffer
      = Ok (SizedGen (length batches) (Ok batches)) /\
    concat batches = data.
Proof.
  intros Hs Hf.
  destruct (minibatch_partition_lemma data s _ buffer fuel Hs (Permutation_refl _) Hf)
    as (bs & H1 & H2 & _).
  exists bs. split; [exact H1|]. rewrite mapM_py_get_seq in H2. congruence.
Qed.

Lemma minibatch_buffer_lemma {A} fuel size (data : list A) indices b1 b2 :
  minibatch fuel size data indices b1 = minibatch fuel size data indices b2.
Proof.
  unfold minibatch. destruct (get_batch_sizes _ _ _ _ _ _); cbn [bind]; [|reflexivity].
  rewrite !iter_items_eq; reflexivity.
Qed.

Lemma get_batch_sizes_exhausted fuel len s m k i out :
  (forall j, 1 <= s j)%Z -> k <= m -> (i + zsum (map s (seq k (m - k))) < len)%Z ->
  m - k < fuel ->
  get_batch_sizes fuel len (fun j => if j <? m then int_sizes s j else None) k (inject_Z i) out
  = Err StopIteration.
Proof.
  intros Hs. revert k i out. induction fuel as [|fuel IH]; intros k i out Hk Hsum Hf; [lia|].
  cbn [get_batch_sizes]. rewrite Qle_bool_inject.
  assert (0 <= zsum (map s (seq k (m - k))))%Z.
  { generalize (seq k (m - k)). intros l; induction l as [|x l IHl]; simpl; [lia|].
    specialize (Hs x); lia. }
  destruct (Z.leb_spec len i) as [Hle|Hlt]; cbn [negb]; [lia|].
  destruct (Nat.ltb_spec k m) as [Hkm|Hkm]; [|reflexivity].
  unfold int_sizes at 1. rewrite inject_plus. apply IH; [lia| |lia].
  replace (m - k) with (S (m - S k)) in Hsum by lia. cbn [seq map zsum] in Hsum. lia.
Qed.

Lemma multibatch_aligned_lemma {A} (data : list A) (others : list (list A)) (s : nat -> Z)
      indices buffer fuel :
  (forall k, 1 <= s k)%Z -> Permutation indices (seq 0 (length data)) -> length data < fuel ->
  (forall o, In o others -> length o = length data) ->
  exists idxs batches,
    multibatch fuel (int_sizes s) data others indices buffer
      = Ok (SizedGen (length batches) (Ok batches)) /\
    concat idxs = indices /\ length batches = length idxs /\
    (forall k b idx, nth_error batches k = Some b -> nth_error idxs k = Some idx ->
       idx <> [] /\ (Z.of_nat (length idx) <= s k)%Z /\
       (S k < length batches -> Z.of_nat (length idx) = s k) /\
       length b = S (length others) /\
       forall j sj bj, nth_error (data :: others) j = Some sj -> nth_error b j = Some bj ->
         length bj = length idx /\
         forall r i, nth_error idx r = Some i -> nth_error bj r = nth_error sj i /\ i < length sj).
Proof.
  intros Hs HP Hf Ho.
  assert (Hlen : length indices = length data).
  { rewrite (Permutation_length HP), seq_length; reflexivity. }
  destruct (index_batches fuel (length data) s indices Hs Hf Hlen)
    as (idxs & szs & Hsz & Hsl & Hl & Hcat & Hk).
  assert (Hin : forall i, In i indices -> i < length data).
  { intros i Hi. apply (Permutation_in i HP) in Hi. apply in_seq in Hi; lia. }
  assert (Hall : forall o, In o (data :: others) -> length o = length data).
  { intros o [<-|Ho']; auto. }
  destruct (mapM_exists (fun idx => mapM (fun sq => get_batch sq idx) (data :: others)) idxs)
    as [bs Hbs].
  { intros idx Hidx. apply mapM_exists. intros sq Hsq. apply mapM_exists. intros i Hi.
    apply py_get_exists. rewrite (Hall sq Hsq). apply Hin.
    rewrite <- Hcat. apply in_concat. eauto. }
  exists idxs, bs. unfold multibatch. rewrite Hsz. cbn [bind].
  rewrite iter_items_eq, Hsl, Hbs. cbn [bind app].
  pose proof (mapM_length _ _ _ Hbs) as HL. rewrite Hl, HL. split; [reflexivity|].
  split; [exact Hcat|]. split; [reflexivity|].
  intros k b idx Hb Hidx. destruct (Hk k idx Hidx) as (H1 & H2 & H3).
  destruct (mapM_nth_error _ _ _ _ _ Hbs Hidx) as (b' & Hb' & Hkb).
  assert (b' = b) by congruence; subst b'.
  split; [exact H1|]. split; [exact H2|]. split; [exact H3|].
  split; [apply mapM_length in Hb'; exact Hb'|].
  intros j sj bj Hj Hbj. destruct (mapM_nth_error _ _ _ _ _ Hb' Hj) as (bj' & Hbj' & Hbj2).
  assert (bj' = bj) by congruence; subst bj'. unfold get_batch in Hbj'.
  split; [apply mapM_length in Hbj'; exact Hbj'|].
  intros r i Hr. destruct (mapM_nth_error _ _ _ _ _ Hbj' Hr) as (a & Ha & Hra).
  unfold py_get in Ha. destruct (nth_error sj i) as [a'|] eqn:E; [|discriminate].
  split; [congruence|]. apply nth_error_Some; congruence.
Qed.

Lemma get_batch_sizes_zero fuel len k out :
  (0 < len)%Z -> get_batch_sizes fuel len (repeat_size 0) k (inject_Z 0) out = Err OutOfFuel.
Proof.
  intros Hlen. revert k out. induction fuel as [|fuel IH]; intros k out; [reflexivity|].
  cbn [get_batch_sizes]. rewrite Qle_bool_inject.
  destruct (Z.leb_spec len 0); [lia|]. cbn [negb]. unfold repeat_size at 1.
  rewrite inject_plus. apply IH.
Qed.

Lemma minibatch_zero_size_lemma {A} fuel (data : list A) indices buffer :
  data <> [] -> minibatch fuel (repeat_size 0) data indices buffer = Err OutOfFuel.
Proof.
  intros Hd. unfold minibatch. change 0%Q with (inject_Z 0).
  rewrite get_batch_sizes_zero; [reflexivity|].
  destruct data; [congruence|]. simpl; lia.
Qed.

Lemma minibatch_exhausted_lemma {A} fuel (s : nat -> Z) m (data : list A) indices buffer :
  (forall k, 1 <= s k)%Z ->
  (fold_right Z.add 0 (map s (seq 0 m)) < Z.of_nat (length data))%Z -> m < fuel ->
  minibatch fuel (fun j => if j <? m then int_sizes s j else None) data indices buffer
  = Err StopIteration.
Proof.
  intros Hs Hsum Hf. rewrite <- zsum_fold in Hsum. unfold minibatch. change 0%Q with (inject_Z 0).
  rewrite (get_batch_sizes_exhausted fuel _ s m 0 0 []); [reflexivity|auto|lia| |lia].
  rewrite Nat.sub_0_r. lia.
Qed.

Lemma minibatch_fractional_refuted_lemma :
  exists (data : list nat) (size : size_source) batches,
    (forall k q, size k = Some q -> (1 <= q)%Q) /\
    minibatch 10 size data (seq 0 (length data)) 1 = Ok (SizedGen 2 (Ok batches)) /\
    ~ Permutation (concat batches) data.
Proof.
  exists [7; 8; 9], (fun _ => Some (3 # 2)%Q), [[7]; [8]].
  split; [intros k q H; inversion H; subst; discriminate|].
  split; [vm_compute; reflexivity|].
  intros H; apply Permutation_length in H; discriminate.
Qed.

Lemma multibatch_length_refuted_lemma :
  exists (xs ys : list nat) batches,
    length xs <> length ys /\
    multibatch 10 (repeat_size 2) xs [ys] (seq 0 (length xs)) 1 = Ok (SizedGen 1 (Ok batches)) /\
    forall b, In b batches -> exists bx by', b = [bx; by'] /\ ~ In 9 by' /\ In 9 ys.
Proof.
  exists [1; 2], [7; 8; 9], [[[1; 2]; [7; 8]]].
  split; [discriminate|]. split; [vm_compute; reflexivity|].
  intros b [<-|[]]. exists [1; 2], [7; 8]. simpl. split; [reflexivity|].
  split; [intros [H|[H|[]]]; discriminate|auto].
Qed.
