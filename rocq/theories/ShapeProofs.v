(** Proofs about the shape adapters. *)
From Verif Require Import BaseFacts.
From Verif Require Export ShapeSpec.
Set Default Goal Selector "!".

(** ** with_getitem *)
Lemma py_slice_front : forall A (a b : list A), py_slice (a ++ b) 0 (Z.of_nat (length a)) = a.
Proof.
  intros A a b. unfold py_slice, clamp_index. rewrite app_length. destruct (Z.ltb_spec 0 0); [lia|]. destruct (Z.ltb_spec (Z.of_nat (length a)) 0); [lia|].
  rewrite Nat2Z.id. cbn [Z.to_nat Nat.min skipn]. replace (Nat.min (length a) (length a + length b) - 0) with (length a) by lia.
  rewrite firstn_app, Nat.sub_diag, firstn_all. cbn. apply app_nil_r.
Qed.
Lemma py_slice_back : forall A (a b : list A), py_slice (a ++ b) (Z.of_nat (length a)) (Z.of_nat (length (a ++ b))) = b.
Proof.
  intros A a b. unfold py_slice, clamp_index. rewrite !app_length. destruct (Z.ltb_spec (Z.of_nat (length a)) 0); [lia|]. destruct (Z.ltb_spec (Z.of_nat (length a + length b)) 0); [lia|].
  rewrite !Nat2Z.id. rewrite (Nat.min_l (length a)) by lia. rewrite ?Nat.min_id. rewrite skipn_app, Nat.sub_diag, skipn_all. cbn [app skipn]. replace (length a + length b - length a) with (length b) by lia. apply firstn_all.
Qed.
Lemma py_slice_front_neg : forall A (a b : list A), b <> [] -> py_slice (a ++ b) 0 (- Z.of_nat (length b)) = a.
Proof.
  intros A a b Hb. assert (Hl : 0 < length b) by (destruct b; [congruence | cbn; lia]). unfold py_slice, clamp_index. rewrite app_length. destruct (Z.ltb_spec 0 0); [lia|]. destruct (Z.ltb_spec (- Z.of_nat (length b)) 0); [|lia].
  replace (Z.to_nat (Z.max 0 (- Z.of_nat (length b) + Z.of_nat (length a + length b)))) with (length a) by lia. cbn [Z.to_nat Nat.min skipn]. rewrite Nat.sub_0_r.
  rewrite firstn_app, Nat.sub_diag, firstn_all. cbn. apply app_nil_r.
Qed.
Lemma py_slice_back_neg : forall A (a b : list A), b <> [] -> py_slice (a ++ b) (- Z.of_nat (length b)) (Z.of_nat (length (a ++ b))) = b.
Proof.
  intros A a b Hb. assert (Hl : 0 < length b) by (destruct b; [congruence | cbn; lia]). unfold py_slice, clamp_index. rewrite !app_length. destruct (Z.ltb_spec (- Z.of_nat (length b)) 0); [|lia]. destruct (Z.ltb_spec (Z.of_nat (length a + length b)) 0); [lia|].
  replace (Z.to_nat (Z.max 0 (- Z.of_nat (length b) + Z.of_nat (length a + length b)))) with (length a) by lia. rewrite !Nat2Z.id, Nat.min_id. rewrite skipn_app, Nat.sub_diag, skipn_all. cbn [app skipn]. replace (length a + length b - length a) with (length b) by lia. apply firstn_all.
Qed.
Lemma getz_pos : forall A (a b : list A) x, py_getz (a ++ x :: b) (Z.of_nat (length a)) = Ok x.
Proof.
  intros A a b x. unfold py_getz, norm_index. rewrite app_length. cbn [length]. destruct (Z.ltb_spec (Z.of_nat (length a)) 0); [lia|]. destruct (Z.ltb_spec (Z.of_nat (length a)) (Z.of_nat (length a + S (length b)))); [|lia].
  rewrite Nat2Z.id. unfold py_get. rewrite nth_error_app2, Nat.sub_diag by lia. reflexivity.
Qed.
Lemma getz_neg : forall A (a b : list A) x, py_getz (a ++ x :: b) (- Z.of_nat (length (x :: b))) = Ok x.
Proof.
  intros A a b x. unfold py_getz, norm_index. rewrite app_length. cbn [length]. destruct (Z.ltb_spec (- Z.of_nat (S (length b))) 0); [|lia]. destruct (Z.leb_spec 0 (- Z.of_nat (S (length b)) + Z.of_nat (length a + S (length b)))); [|lia].
  replace (Z.to_nat (- Z.of_nat (S (length b)) + Z.of_nat (length a + S (length b)))) with (length a) by lia. unfold py_get. rewrite nth_error_app2, Nat.sub_diag by lia. reflexivity.
Qed.
(** The slices around an item *)
Lemma around_pos : forall A (a b : list A) x y, py_slice (a ++ x :: b) 0 (Z.of_nat (length a)) ++ [y] ++ py_slice (a ++ x :: b) (Z.of_nat (length a) + 1) (Z.of_nat (length (a ++ x :: b))) = a ++ y :: b.
Proof.
  intros A a b x y. rewrite py_slice_front. replace (a ++ x :: b) with ((a ++ [x]) ++ b) by (rewrite <- app_assoc; reflexivity).
  replace (Z.of_nat (length a) + 1)%Z with (Z.of_nat (length (a ++ [x]))) by (rewrite app_length; cbn; lia). rewrite py_slice_back. reflexivity.
Qed.
Lemma around_neg : forall A (a b : list A) x y, b <> [] -> py_slice (a ++ x :: b) 0 (- Z.of_nat (length (x :: b))) ++ [y] ++ py_slice (a ++ x :: b) (- Z.of_nat (length (x :: b)) + 1) (Z.of_nat (length (a ++ x :: b))) = a ++ y :: b.
Proof.
  intros A a b x y Hb. rewrite py_slice_front_neg by discriminate. replace (a ++ x :: b) with ((a ++ [x]) ++ b) by (rewrite <- app_assoc; reflexivity).
  replace (- Z.of_nat (length (x :: b)) + 1)%Z with (- Z.of_nat (length b))%Z by (cbn [length]; lia). rewrite py_slice_back_neg by exact Hb. reflexivity.
Qed.
Lemma getitem_pos : forall G V (layer : slayer G V V) pre x post y b, layer x = Ok (y, b) ->
  exists b', with_getitem (Z.of_nat (length pre)) layer (pre ++ x :: post) = Ok (pre ++ y :: post, b') /\
  forall dpre d dpost s, length dpre = length pre ->
    b' (dpre ++ d :: dpost) s = match b d s with Ok (d', s') => Ok (dpre ++ d' :: dpost, s') | Err e => Err e end.
Proof.
  intros G V layer pre x post y b Hb. unfold with_getitem. rewrite getz_pos. cbn [bind]. rewrite Hb. cbn [bind]. rewrite around_pos. eexists. split; [reflexivity|].
  intros dpre d dpost s Hl. cbv beta. rewrite <- Hl, getz_pos. cbn [bind]. destruct (b d s) as [[d' s']|e]; [|reflexivity]. cbn [bind]. rewrite around_pos. reflexivity.
Qed.
Lemma getitem_neg : forall G V (layer : slayer G V V) pre x post y b, layer x = Ok (y, b) -> post <> [] ->
  exists b', with_getitem (- Z.of_nat (length (x :: post))) layer (pre ++ x :: post) = Ok (pre ++ y :: post, b') /\
  forall dpre d dpost s, length dpost = length post ->
    b' (dpre ++ d :: dpost) s = match b d s with Ok (d', s') => Ok (dpre ++ d' :: dpost, s') | Err e => Err e end.
Proof.
  intros G V layer pre x post y b Hb Hp. unfold with_getitem. rewrite getz_neg. cbn [bind]. rewrite Hb. cbn [bind]. rewrite around_neg by exact Hp. eexists. split; [reflexivity|].
  intros dpre d dpost s Hl. cbv beta. replace (length (x :: post)) with (length (d :: dpost)) by (cbn; congruence). rewrite getz_neg. cbn [bind]. destruct (b d s) as [[d' s']|e]; [|reflexivity]. cbn [bind].
  rewrite around_neg by (destruct post; [congruence | destruct dpost; discriminate]). reflexivity.
Qed.
Lemma getitem_last : forall G V (layer : slayer G V V) pre x y b, layer x = Ok (y, b) ->
  exists b', with_getitem (-1) layer (pre ++ [x]) = Ok (pre ++ [y] ++ pre ++ [x], b') /\
  forall dpre d s, b' (dpre ++ [d]) s = match b d s with Ok (d', s') => Ok (dpre ++ [d'] ++ dpre ++ [d], s') | Err e => Err e end.
Proof.
  intros G V layer pre x y b Hb.
  assert (E : forall A (a : list A) u v, py_slice (a ++ [u]) 0 (-1) ++ [v] ++ py_slice (a ++ [u]) (-1 + 1) (Z.of_nat (length (a ++ [u]))) = a ++ [v] ++ a ++ [u]).
  { intros A a u v. pose proof (py_slice_front_neg _ a [u] ltac:(discriminate)) as E1. change (- Z.of_nat (length [u]))%Z with (-1)%Z in E1. rewrite E1. f_equal. f_equal. exact (py_slice_back _ [] (a ++ [u])). }
  unfold with_getitem. pose proof (getz_neg _ pre [] x) as E1. change (- Z.of_nat (length [x]))%Z with (-1)%Z in E1. rewrite E1. cbn [bind]. rewrite Hb. cbn [bind]. rewrite E. eexists. split; [reflexivity|].
  intros dpre d s. cbv beta. pose proof (getz_neg _ dpre [] d) as E2. change (- Z.of_nat (length [d]))%Z with (-1)%Z in E2. rewrite E2. cbn [bind]. destruct (b d s) as [[d' s']|e]; [|reflexivity]. cbn [bind]. rewrite E. reflexivity.
Qed.
Lemma getitem_range : forall G V idx (layer : slayer G V V) items, (idx < - Z.of_nat (length items) \/ Z.of_nat (length items) <= idx)%Z -> with_getitem idx layer items = Err IndexError.
Proof.
  intros G V idx layer items H. unfold with_getitem, py_getz, norm_index. destruct (Z.ltb_spec idx 0); [destruct (Z.leb_spec 0 (idx + Z.of_nat (length items))); [lia | reflexivity]|].
  destruct (Z.ltb_spec idx (Z.of_nat (length items))); [lia | reflexivity].
Qed.

(** ** with_flatten *)
Lemma v2_back : forall A (flat : list A) lens, list_sum_nat lens = length flat -> concat (v2_unflatten flat lens) = flat /\ map (@length A) (v2_unflatten flat lens) = lens.
Proof.
  intros A flat lens. revert flat. induction lens as [|l lens IH]; intros flat H.
  - destruct flat; [split; reflexivity | discriminate].
  - cbn in H. fold (list_sum_nat lens) in H. cbn [v2_unflatten concat map]. destruct (IH (skipn l flat)) as [E1 E2]; [rewrite skipn_length; lia|]. rewrite E1, E2, firstn_skipn, firstn_length_le by lia. split; reflexivity.
Qed.
Lemma sum_lens : forall A (l : list (list A)), list_sum_nat (map (@length A) l) = length (concat l).
Proof. induction l as [|x l IH]; [reflexivity|]. cbn. rewrite app_length, <- IH. reflexivity. Qed.
Lemma flatten_v2 : forall G A B (layer : slayer G (list A) (list B)) X Y b, layer (concat X) = Ok (Y, b) -> length Y = length (concat X) ->
  exists Ynest b', with_flatten_v2 layer X = Ok (Ynest, b') /\ concat Ynest = Y /\ map (@length B) Ynest = map (@length A) X /\
  forall dYnest s, (forall e, b (concat dYnest) s = Err e -> b' dYnest s = Err e) /\
    forall dX s', b (concat dYnest) s = Ok (dX, s') -> length dX = length (concat X) ->
      exists dXnest, b' dYnest s = Ok (dXnest, s') /\ concat dXnest = dX /\ map (@length A) dXnest = map (@length A) X.
Proof.
  intros G A B layer X Y b Hb Hl. unfold with_flatten_v2, v2_flatten. rewrite Hb. cbn [bind].
  destruct (v2_back _ Y (map (@length A) X)) as [E1 E2]; [rewrite sum_lens; congruence|]. eexists. eexists. split; [reflexivity|]. split; [exact E1|]. split; [exact E2|].
  intros dYnest s. split; [intros e He; cbv beta; rewrite He; reflexivity|]. intros dX s' Hd Hld. cbv beta. rewrite Hd. cbn [bind]. eexists. split; [reflexivity|].
  apply v2_back. rewrite sum_lens. congruence.
Qed.

Lemma split_is : forall T (X : nda T) lens st, st + list_sum_nat lens <= a_len X ->
  let pieces := split_from st (cumsum_from st lens) X in
  concat (map a_rows pieces) = skipn st (a_rows X) /\ map a_len pieces = lens ++ [a_len X - (st + list_sum_nat lens)] /\ Forall (fun a => a_tail a = a_tail X) pieces.
Proof.
  intros T X lens. induction lens as [|l lens IH]; intros st H; cbn [cumsum_from split_from map concat list_sum_nat fold_right] in *.
  - split; [apply app_nil_r|]. split; [|constructor; [reflexivity | constructor]]. unfold a_len. cbn [a_rows]. rewrite skipn_length. cbn. f_equal. lia.
  - fold (list_sum_nat lens) in *. destruct (IH (st + l)) as [E1 [E2 E3]]; [lia|]. split; [|split].
    + rewrite E1. cbn [a_rows]. unfold slice_rows. replace (st + l - st) with l by lia. rewrite <- (firstn_skipn l (skipn st (a_rows X))) at 2. f_equal. rewrite skipn_skipn. reflexivity.
    + rewrite E2. cbn. f_equal; [|f_equal; f_equal; lia]. unfold a_len. cbn [a_rows]. unfold slice_rows. rewrite firstn_length, skipn_length. unfold a_len in H. lia.
    + constructor; [reflexivity | exact E3].
Qed.
Lemma removelast_sum : forall A (X : list (list A)) , X <> [] -> map (@length A) X = map (@length A) (removelast X) ++ [length (concat X) - list_sum_nat (map (@length A) (removelast X))] /\ list_sum_nat (map (@length A) (removelast X)) <= length (concat X).
Proof.
  intros A X HX. destruct (exists_last HX) as [X' [x ->]]. rewrite removelast_last, map_app, sum_lens, concat_app, app_length. cbn. rewrite app_nil_r. split; [f_equal; f_equal; lia | lia].
Qed.
Lemma split_all : forall T A (X : list (list A)) (Y : nda T), X <> [] -> a_len Y = length (concat X) ->
  let pieces := split_from 0 (cumsum (map (@length A) (removelast X))) Y in
  concat (map a_rows pieces) = a_rows Y /\ map a_len pieces = map (@length A) X /\ Forall (fun a => a_tail a = a_tail Y) pieces.
Proof.
  intros T A X Y HX Hl. destruct (removelast_sum A X HX) as [E1 E2]. unfold cumsum. destruct (split_is T Y (map (@length A) (removelast X)) 0) as [S1 [S2 S3]]; [cbn; lia|].
  split; [exact S1|]. split; [|exact S3]. rewrite S2, E1. cbn. f_equal. f_equal. lia.
Qed.
Lemma flatten_v1 : forall G A T (z : T) (layer : list A -> result (nda T * back G (nda T) (nda T))) X Y b, X <> [] -> layer (concat X) = Ok (Y, b) -> a_len Y = length (concat X) ->
  exists Ynest b', with_flatten_v1 z layer X = Ok (Ynest, b') /\ concat (map a_rows Ynest) = a_rows Y /\ map a_len Ynest = map (@length A) X /\ Forall (fun a => a_tail a = a_tail Y) Ynest /\
  forall dYnest dY s dX s', flatten z dYnest 0 2 = Ok dY -> b dY s = Ok (dX, s') -> a_len dX = length (concat X) ->
    exists dXnest, b' dYnest s = Ok (dXnest, s') /\
      (a_tail dX = [] -> concat (map a_rows dXnest) = a_rows dX /\ map a_len dXnest = map (@length A) X) /\
      (forall n, a_tail dX = [n] -> map a_len dXnest = map (fun _ => length (concat X)) X).
Proof.
  intros G A T z layer X Y b HX Hb Hl. unfold with_flatten_v1. rewrite Hb. cbn [bind]. destruct (split_all T A X Y HX Hl) as [S1 [S2 S3]].
  eexists. eexists. split; [reflexivity|]. split; [exact S1|]. split; [exact S2|]. split; [exact S3|]. intros dYnest dY s dX s' Hf Hd Hld. cbv beta. rewrite Hf. cbn [bind]. rewrite Hd. cbn [bind].
  eexists. split; [reflexivity|]. split.
  - intro Ht. unfold split_last. rewrite Ht. destruct (split_all T A X dX HX Hld) as [P1 [P2 _]]. split; assumption.
  - intros n Ht. unfold split_last. rewrite Ht.
    assert (E : forall ps st, map a_len (split_cols st ps n (a_rows dX)) = repeat (a_len dX) (S (length ps))).
    { induction ps as [|p ps IH]; intro st; [cbn; unfold a_len; cbn [a_rows]; rewrite map_length; reflexivity|]. cbn [split_cols map]. rewrite IH. unfold a_len at 1. cbn [a_rows]. rewrite map_length. reflexivity. }
    rewrite E, Hld. assert (EL : S (length (cumsum (map (@length A) (removelast X)))) = length X).
    { unfold cumsum. assert (C : forall l a, length (cumsum_from a l) = length l) by (induction l as [|x l IH]; intro a; [reflexivity | cbn; rewrite IH; reflexivity]). rewrite C, map_length.
      destruct (exists_last HX) as [X' [x ->]]. rewrite removelast_last, app_length. cbn. lia. }
    rewrite EL. generalize (length (concat X)) as k. intro k. clear. induction X as [|y X IH]; [reflexivity|]. cbn. f_equal. exact IH.
Qed.
Lemma cols_is T n (rows : list (list T)) : Forall (fun r => length r = n) rows -> forall lens st,
  let pieces := split_cols st (cumsum_from st lens) n rows in
  (forall i, i < length rows -> concat (map (fun a => nth i (a_rows a) []) pieces) = skipn st (nth i rows [])) /\
  Forall (fun a => Forall (fun r => a_tail a = [length r]) (a_rows a)) pieces /\
  (st + list_sum_nat lens <= n -> map a_tail (removelast pieces) = map (fun l => [l]) lens).
Proof.
  intros HR. assert (HN : forall (f : list T -> list T) i, i < length rows -> nth i (map f rows) [] = f (nth i rows [])) by (intros f i Hi; rewrite (nth_indep _ [] (f [])) by (rewrite map_length; exact Hi); apply map_nth).
  induction lens as [|l lens IH]; intros st; cbn [cumsum_from split_cols map concat a_rows removelast].
  - split; [intros i Hi; rewrite app_nil_r; now apply HN|]. split; [|reflexivity]. constructor; [|constructor]. cbn [a_rows a_tail]. apply Forall_map. eapply Forall_impl; [|exact HR]. intros r L. cbv beta. now rewrite skipn_length, L.
  - destruct (IH (st + l)) as (E1 & E2 & E3). split; [|split].
    + intros i Hi. rewrite E1, HN by exact Hi. unfold slice_rows. replace (st + l - st) with l by lia. rewrite <- (firstn_skipn l (skipn st (nth i rows []))) at 2. f_equal. now rewrite skipn_skipn.
    + constructor; [|exact E2]. cbn [a_rows a_tail]. apply Forall_map. eapply Forall_impl; [|exact HR]. intros r L. cbv beta. unfold slice_rows. rewrite firstn_length, skipn_length, L. f_equal. lia.
    + cbn [list_sum_nat fold_right]. fold (list_sum_nat lens). intros H. destruct (split_cols (st + l) (cumsum_from (st + l) lens) n rows) as [|p ps] eqn:E.
      * exfalso. destruct lens; discriminate.
      * cbn [map a_tail]. rewrite E3 by lia. f_equal. f_equal. lia.
Qed.
Lemma flatten_v1_columns : forall G A T (z : T) (layer : list A -> result (nda T * back G (nda T) (nda T))) X Y b n, X <> [] -> layer (concat X) = Ok (Y, b) -> a_len Y = length (concat X) ->
  exists Ynest b', with_flatten_v1 z layer X = Ok (Ynest, b') /\
  forall dYnest dY s dX s', flatten z dYnest 0 2 = Ok dY -> b dY s = Ok (dX, s') -> a_tail dX = [n] -> Forall (fun r => length r = n) (a_rows dX) ->
    exists dXnest, b' dYnest s = Ok (dXnest, s') /\
      (forall i, i < a_len dX -> concat (map (fun a => nth i (a_rows a) []) dXnest) = nth i (a_rows dX) []) /\
      Forall (fun a => Forall (fun r => a_tail a = [length r]) (a_rows a)) dXnest /\
      (length (concat X) <= n -> map a_tail (removelast dXnest) = map (fun x => [length x]) (removelast X)).
Proof.
  intros G A T z layer X Y b n HX Hb Hl. unfold with_flatten_v1. rewrite Hb. cbn [bind]. do 2 eexists. split; [reflexivity|].
  intros dYnest dY s dX s' Hf Hd Ht HR. cbv beta. rewrite Hf. cbn [bind]. rewrite Hd. cbn [bind]. eexists. split; [reflexivity|]. unfold split_last. rewrite Ht.
  destruct (cols_is T n (a_rows dX) HR (map (@length A) (removelast X)) 0) as (E1 & E2 & E3). unfold cumsum. split; [exact E1|]. split; [exact E2|].
  intros H. rewrite E3, map_map; [reflexivity|]. destruct (removelast_sum A X HX) as [_ E]. cbn. lia.
Qed.
Lemma flatten_v1_empty : forall G A T (z : T) (layer : list A -> result (nda T * back G (nda T) (nda T))) Y b, layer [] = Ok (Y, b) -> exists b', with_flatten_v1 z layer [] = Ok ([Y], b').
Proof. intros G A T z layer Y b Hb. unfold with_flatten_v1. cbn [concat]. rewrite Hb. cbn. eexists. destruct Y. reflexivity. Qed.

(** ** with_reshape *)
Lemma reshape_forward : forall G T (layer : slayer G (nd T) (nd T)) nB nT nI nO data yd b, length data = nB * nT * nI -> nI <> 0 -> layer (mkNd [nB * nT; nI] data) = Ok (mkNd [nB * nT; nO] yd, b) -> length yd = nB * nT * nO ->
  exists b', with_reshape (Ok nO) layer (mkNd [nB; nT; nI] data) = Ok (mkNd [nB; nT; nO] yd, b') /\
  forall dd s, length dd = nB * nT * nO -> (nB * nT = 0 -> b' (mkNd [nB; nT; nO] dd) s = Err ValueError) /\
    (nB * nT <> 0 -> nI <> nO -> b' (mkNd [nB; nT; nO] dd) s = Err ValueError) /\ (nB * nT <> 0 -> nI = nO -> b' (mkNd [nB; nT; nO] dd) s = b (mkNd [nB; nT; nI] dd) s).
Proof.
  intros G T layer nB nT nI nO data yd b Hd HI Hb Hy. unfold with_reshape. cbn [nd_shape bind removelast app py_get nth_error].
  assert (E1 : reshape (mkNd [nB; nT; nI] data) [None; Some nI] = Ok (mkNd [nB * nT; nI] data)).
  { unfold reshape. cbn [filter length map shape_size fold_right nd_data]. rewrite Nat.mul_1_r, Nat.mul_1_l. destruct (Nat.eqb_spec nI 0); [congruence|]. rewrite Hd, Nat.mod_mul by exact HI. cbn [Nat.eqb]. rewrite Nat.div_mul by exact HI. reflexivity. }
  rewrite E1. cbn [bind]. rewrite Hb. cbn [bind].
  assert (E2 : forall (l : list T) k sh, length l = nB * nT * k -> reshape (mkNd sh l) [Some nB; Some nT; Some k] = Ok (mkNd [nB; nT; k] l)).
  { intros l k sh Hl. unfold reshape. cbn [filter length map shape_size fold_right nd_data]. destruct (Nat.eqb_spec (length l) (nB * (nT * (k * 1)))); [reflexivity | nia]. }
  rewrite E2 by exact Hy. cbn [bind]. eexists. split; [reflexivity|]. intros dd s Hl. cbv beta.
  assert (E3 : forall sh, reshape (mkNd sh dd) [Some (nB * nT); None] = if nB * nT =? 0 then Err ValueError else Ok (mkNd [nB * nT; nO] dd)).
  { intro sh. unfold reshape. cbn [filter length map shape_size fold_right nd_data]. rewrite !Nat.mul_1_r. destruct (Nat.eqb_spec (nB * nT) 0) as [E|E]; [reflexivity|]. rewrite Hl, (Nat.mul_comm (nB * nT) nO), Nat.mod_mul, Nat.div_mul by exact E. reflexivity. }
  rewrite E3. split; [intro H0; rewrite H0; reflexivity|].
  split; intros H0 H1; (destruct (Nat.eqb_spec (nB * nT) 0); [congruence|]; cbn [bind]).
  - unfold reshape. cbn [filter length map shape_size fold_right nd_data]. destruct (Nat.eqb_spec (length dd) (nB * (nT * (nI * 1)))) as [E|]; [|reflexivity]. exfalso. rewrite Nat.mul_1_r, Nat.mul_assoc, Hl in E. apply Nat.mul_cancel_l in E; [congruence | exact H0].
  - rewrite E2 by congruence. reflexivity.
Qed.

(** ** array_getitem: the index *)
Lemma rising_unique : forall l1 l2, rising l1 -> rising l2 -> (forall k, In k l1 <-> In k l2) -> l1 = l2.
Proof.
  intros l1 l2 H1. revert l2. induction H1 as [|k l Hk H IH]; intros l2 H2 HI.
  - destruct l2 as [|x l2]; [reflexivity|]. exfalso. apply (HI x). left. reflexivity.
  - destruct H2 as [|k2 l2 Hk2 H2]; [exfalso; apply (HI k); left; reflexivity|]. rewrite Forall_forall in Hk, Hk2.
    assert (E : k = k2). { destruct (proj1 (HI k) (or_introl eq_refl)) as [E|E1]; [congruence|]. destruct (proj2 (HI k2) (or_introl eq_refl)) as [E|E2]; [congruence|]. specialize (Hk _ E2). specialize (Hk2 _ E1). lia. }
    subst k2. f_equal. apply IH; [exact H2|]. intro x. specialize (HI x). cbn in HI. split; intro Hx.
    + destruct (proj1 HI (or_intror Hx)) as [E|E]; [|exact E]. specialize (Hk _ Hx). lia.
    + destruct (proj2 HI (or_intror Hx)) as [E|E]; [|exact E]. specialize (Hk2 _ Hx). lia.
Qed.
Lemma rising_filter_seq : forall f n a, rising (filter f (seq a n)).
Proof.
  induction n as [|n IH]; intro a; [constructor|]. cbn. destruct (f a); [|apply IH]. constructor; [|apply IH]. apply Forall_forall. intros x Hx. apply filter_In in Hx as [Hx _]. apply in_seq in Hx. lia.
Qed.
Lemma rising_nodup : forall l, rising l -> NoDup l.
Proof. induction 1 as [|k l Hk H IH]; constructor; [|exact IH]. intro Hi. rewrite Forall_forall in Hk. specialize (Hk _ Hi). lia. Qed.
Lemma clamp_bound : forall n i, Z.of_nat (clamp_index n i) = if (i <? 0)%Z then Z.max 0 (i + Z.of_nat n) else Z.min i (Z.of_nat n).
Proof. intros n i. unfold clamp_index. destruct (Z.ltb_spec i 0); lia. Qed.
Lemma positions_slices : forall n s, 0 < sl_step s -> slices n s (slice_positions n s).
Proof.
  intros n s Hs. split; [exact Hs|]. unfold slice_positions. set (a := match sl_start s with Some i => clamp_index n i | None => 0 end). set (b := match sl_stop s with Some i => clamp_index n i | None => n end).
  assert (Ea : bound n 0 (sl_start s) = Z.of_nat a). { unfold a, bound. destruct (sl_start s) as [i|]; [symmetry; apply clamp_bound | reflexivity]. }
  assert (Eb : bound n n (sl_stop s) = Z.of_nat b). { unfold b, bound. destruct (sl_stop s) as [i|]; [symmetry; apply clamp_bound | reflexivity]. }
  split; [apply rising_filter_seq|]. intro k. rewrite Ea, Eb, filter_In, in_seq, Nat.eqb_eq. split.
  - intros [H1 H2]. split; [lia|]. exists ((k - a) / sl_step s). rewrite <- Nat2Z.inj_add. f_equal. pose proof (Nat.div_mod (k - a) (sl_step s)). lia.
  - intros [H1 [m Hm]]. split; [lia|]. replace (k - a) with (m * sl_step s) by lia. apply Nat.mod_mul. lia.
Qed.
Lemma slices_is : forall n s ps, slices n s ps -> ps = slice_positions n s.
Proof.
  intros n s ps [Hs [Hr HI]]. destruct (positions_slices n s Hs) as [_ [Hr' HI']]. apply rising_unique; [exact Hr | exact Hr'|]. intro k. rewrite HI, HI'. reflexivity.
Qed.
Lemma names_is : forall n i k, names n i k <-> norm_index n i = Some k.
Proof.
  intros n i k. unfold names, norm_index. destruct (Z.ltb_spec i 0); [destruct (Z.leb_spec 0 (i + Z.of_nat n))|destruct (Z.ltb_spec i (Z.of_nat n))]; split; intro H1; try (injection H1 as <-); try (f_equal); try discriminate; lia.
Qed.
Lemma axis_iff : forall n a p, axis n a = Ok p <-> axis_is n a p.
Proof.
  intros n [i|s] p; cbn.
  - split.
    + destruct (norm_index n i) as [k|] eqn:E; [|discriminate]. intro H. injection H as <-. exists k. split; [apply names_is; exact E | reflexivity].
    + intros [k [H ->]]. apply names_is in H. rewrite H. reflexivity.
  - split.
    + destruct (Nat.eqb_spec (sl_step s) 0); [discriminate|]. intro H. injection H as <-. eexists. split; [apply positions_slices; lia | reflexivity].
    + intros [ps [H ->]]. pose proof (proj1 H) as Hs. apply slices_is in H. subst ps. destruct (Nat.eqb_spec (sl_step s) 0); [lia | reflexivity].
Qed.
Lemma axes_iff : forall l dims sel, axes dims (map (fun a n => axis n a) l) = Ok sel <-> axes_are dims l sel.
Proof.
  induction l as [|a l IH]; intros dims sel; cbn [map axes].
  - destruct dims; (split; [intro H; injection H as <-; constructor | intro H; inversion H; reflexivity]).
  - destruct dims as [|n dims]; [cbn [axes]; split; [discriminate | intro H; inversion H]|]. cbn [axes]. split.
    + destruct (axis n a) as [p|] eqn:Ea; [|discriminate]. cbn [bind]. destruct (axes dims _) as [r|] eqn:Er; [|discriminate]. cbn [bind]. intro H. injection H as <-. constructor; [apply axis_iff; exact Ea | apply IH; exact Er].
    + intro H. inversion H as [|? ? ? ? p r Ha Hr]; subst. apply axis_iff in Ha. apply IH in Hr. rewrite Ha. cbn [bind]. rewrite Hr. reflexivity.
Qed.
Lemma axes_app : forall l1 l2 dims, axes dims (l1 ++ l2) = let* s1 := axes (firstn (length l1) dims) l1 in let* s2 := axes (skipn (length l1) dims) l2 in Ok (s1 ++ s2).
Proof.
  induction l1 as [|f l1 IH]; intros l2 dims; cbn [app length firstn skipn].
  - cbn [axes]. destruct dims; cbn [bind]; destruct (axes _ l2); reflexivity.
  - destruct dims as [|n dims]; [reflexivity|]. cbn [axes firstn skipn]. destruct (f n); [|reflexivity]. cbn [bind]. rewrite IH. destruct (axes (firstn _ _) l1); [|reflexivity]. cbn [bind]. destruct (axes _ l2); reflexivity.
Qed.
Lemma ids_iff : forall n ids ks, mapM (fun i => match norm_index n i with Some k => Ok k | None => Err IndexError end) ids = Ok ks <-> Forall2 (names n) ids ks.
Proof.
  intros n. induction ids as [|i ids IH]; intro ks; cbn [mapM].
  - split; [intro H; injection H as <-; constructor | intro H; inversion H; reflexivity].
  - split.
    + destruct (norm_index n i) as [k|] eqn:E; [|discriminate]. cbn [bind]. destruct (mapM (fun i => match norm_index n i with Some k => Ok k | None => Err IndexError end) ids) as [r|] eqn:Er; [|discriminate]. cbn [bind]. intro H. injection H as <-. constructor; [apply names_is; exact E | apply IH; reflexivity].
    + intro H. inversion H as [|? k ? r Hk Hr]; subst. apply names_is in Hk. rewrite Hk. cbn [bind]. apply IH in Hr. rewrite Hr. reflexivity.
Qed.
Lemma index_iff : forall dims ix sel, index_axes dims ix = Ok sel <-> selects dims ix sel.
Proof.
  intros dims [l|pre ids post] sel; unfold index_axes, selects; [apply axes_iff|].
  assert (EM : forall l, map (fun s n => axis n (ASlice s)) l = map (fun a n => axis n a) (map ASlice l)) by (intro l; rewrite map_map; reflexivity).
  rewrite !EM, axes_app, !map_length. split.
  - destruct (axes (firstn _ _) _) as [s1|] eqn:E1; [|discriminate]. cbn [bind]. apply axes_iff in E1. cbn [app axes]. destruct (skipn (length pre) dims) as [|n rest] eqn:Es; [cbn [axes]; discriminate|]. cbn [axes].
    unfold axis_ids. destruct (mapM (fun i => match norm_index n i with Some k => Ok k | None => Err IndexError end) ids) as [ks|] eqn:Ek; [|discriminate]. cbn [bind]. destruct (axes rest _) as [s2|] eqn:E2; [|discriminate]. cbn [bind]. intro H. injection H as <-.
    apply ids_iff in Ek. apply axes_iff in E2. exists s1, ks, s2, n. split; [reflexivity|]. split; [exact E1|].
    assert (Er : skipn (S (length pre)) dims = rest). { replace (S (length pre)) with (length pre + 1) by lia. rewrite <- skipn_skipn, Es. reflexivity. }
    split; [rewrite <- (firstn_skipn (length pre) dims), Es; rewrite nth_error_app2; rewrite firstn_length_le; rewrite ?Nat.sub_diag; try reflexivity; (assert (length (skipn (length pre) dims) <> 0) by (rewrite Es; cbn; lia)); rewrite skipn_length in *; lia|].
    split; [exact Ek|]. rewrite Er. exact E2.
  - intros (s1 & ks & s2 & n & -> & H1 & Hn & Hk & H2). apply axes_iff in H1. apply ids_iff in Hk. apply axes_iff in H2. rewrite H1. cbn [bind app axes].
    destruct (nth_error_split _ _ Hn) as (l1 & l2 & -> & El). rewrite <- El in *.
    assert (Er : skipn (S (length l1)) (l1 ++ n :: l2) = l2) by (replace (S (length l1)) with (length (l1 ++ [n])) by (rewrite app_length; cbn; lia); replace (l1 ++ n :: l2) with ((l1 ++ [n]) ++ l2) by (rewrite <- app_assoc; reflexivity); rewrite skipn_app, skipn_all, Nat.sub_diag; reflexivity).
    rewrite Er in H2. rewrite skipn_app, skipn_all, Nat.sub_diag. cbn [app skipn axes]. unfold axis_ids. rewrite Hk. cbn [bind]. rewrite H2. reflexivity.
Qed.
Lemma index_error : forall dims ix e, steps_ok ix -> index_axes dims ix = Err e -> e = IndexError.
Proof.
  intros dims ix e Hs. unfold index_axes.
  assert (HA : forall l dims e, (forall f n e, In f l -> f n = Err e -> e = IndexError) -> axes dims l = Err e -> e = IndexError).
  { clear. induction l as [|f l IH]; intros dims e Hf H; [discriminate|]. cbn in H. destruct dims as [|n dims]; [injection H as <-; reflexivity|].
    destruct (f n) as [p|e'] eqn:E; cbn [bind] in H; [|injection H as <-; apply (Hf f n e'); [left; reflexivity | exact E]].
    destruct (axes dims l) as [r|e'] eqn:Er; cbn [bind] in H; [discriminate|]. injection H as <-. apply (IH dims e'); [intros g m e2 Hg; apply Hf; right; exact Hg | exact Er]. }
  assert (HX : forall n a e, match a with AInt _ => True | ASlice s => 0 < sl_step s end -> axis n a = Err e -> e = IndexError).
  { clear. intros n [i|s] e Hp; cbn; [destruct (norm_index n i); [discriminate | intro H; injection H as <-; reflexivity]|]. destruct (Nat.eqb_spec (sl_step s) 0); [lia | discriminate]. }
  apply HA. intros f n e' Hf Hfe. destruct ix as [l|pre ids post]; cbn in Hs; rewrite Forall_forall in Hs.
  - apply in_map_iff in Hf as [a [<- Ha]]. exact (HX n a e' (Hs a Ha) Hfe).
  - apply in_app_iff in Hf as [Hf|Hf]; [|apply in_app_iff in Hf as [Hf|Hf]].
    + apply in_map_iff in Hf as [a [<- Ha]]. apply (HX n (ASlice a) e'); [apply Hs; apply in_app_iff; left; exact Ha | exact Hfe].
    + destruct Hf as [<-|[]]. unfold axis_ids in Hfe. destruct (mapM (fun i => match norm_index n i with Some k => Ok k | None => Err IndexError end) ids) as [r|e2] eqn:Er; cbn [bind] in Hfe; [discriminate|]. injection Hfe as <-. clear - Er. revert e2 Er. induction ids as [|i ids IH]; intros e2 Er; [discriminate|]. cbn in Er. destruct (norm_index n i); cbn [bind] in Er; [|injection Er as <-; reflexivity]. destruct (mapM (fun i => match norm_index n i with Some k => Ok k | None => Err IndexError end) ids); cbn [bind] in Er; [discriminate|]. injection Er as <-. apply IH. reflexivity.
    + apply in_map_iff in Hf as [a [<- Ha]]. apply (HX n (ASlice a) e'); [apply Hs; apply in_app_iff; right; exact Ha | exact Hfe].
Qed.

(** ** The selected positions *)
Definition sel_ok (sel : list (bool * list nat)) (dims : list nat) : Prop :=
  length sel <= length dims /\ (forall j p, nth_error sel j = Some p -> (fst p = false -> length (snd p) = 1) /\ Forall (fun k => k < nth j dims 0) (snd p)).
Lemma sel_ok_nil : forall dims, sel_ok [] dims.
Proof. intro dims. split; [cbn; lia|]. intros [|j] p H; discriminate. Qed.
Lemma sel_ok_cons : forall p sel n dims, (fst p = false -> length (snd p) = 1) -> Forall (fun k => k < n) (snd p) -> sel_ok sel dims -> sel_ok (p :: sel) (n :: dims).
Proof. intros p sel n dims H1 H2 [H3 H4]. split; [cbn; lia|]. intros [|j] q Hq; [injection Hq as <-; split; assumption|]. cbn in Hq. exact (H4 j q Hq). Qed.
Lemma sel_ok_inv : forall p sel n dims, sel_ok (p :: sel) (n :: dims) -> (fst p = false -> length (snd p) = 1) /\ Forall (fun k => k < n) (snd p) /\ sel_ok sel dims.
Proof.
  intros p sel n dims [H1 H2]. destruct (H2 0 p eq_refl) as [H3 H4]. split; [exact H3|]. split; [exact H4|]. split; [cbn in H1; lia|]. intros j q Hq. exact (H2 (S j) q Hq).
Qed.
Lemma axis_ok : forall n a p, axis n a = Ok p -> (fst p = false -> length (snd p) = 1) /\ Forall (fun k => k < n) (snd p).
Proof.
  intros n [i|s] p; cbn.
  - destruct (norm_index n i) as [k|] eqn:E; [|discriminate]. intro H. injection H as <-. split; [reflexivity|]. constructor; [|constructor]. apply names_is in E. exact (proj1 E).
  - destruct (Nat.eqb_spec (sl_step s) 0); [discriminate|]. intro H. injection H as <-. split; [discriminate|]. apply Forall_forall. intros k Hk. cbn [snd] in Hk. unfold slice_positions in Hk. apply filter_In in Hk as [Hk _]. apply in_seq in Hk.
    assert (Hb : match sl_stop s with Some i => clamp_index n i | None => n end <= n) by (destruct (sl_stop s) as [i|]; [pose proof (clamp_bound n i); destruct (Z.ltb_spec i 0); lia | lia]). lia.
Qed.
Lemma index_sel_ok : forall dims ix sel, index_axes dims ix = Ok sel -> sel_ok sel dims.
Proof.
  intros dims ix sel. unfold index_axes.
  assert (HA : forall l dims sel, (forall f n p, In f l -> f n = Ok p -> (fst p = false -> length (snd p) = 1) /\ Forall (fun k => k < n) (snd p)) -> axes dims l = Ok sel -> sel_ok sel dims).
  { clear. induction l as [|f l IH]; intros dims sel Hf H; [cbn in H; injection H as <-; apply sel_ok_nil|]. cbn in H. destruct dims as [|n dims]; [discriminate|].
    destruct (f n) as [p|] eqn:E; cbn [bind] in H; [|discriminate]. destruct (axes dims l) as [r|] eqn:Er; cbn [bind] in H; [|discriminate]. injection H as <-.
    destruct (Hf f n p (or_introl eq_refl) E). apply sel_ok_cons; [assumption | assumption|]. apply IH; [intros g m q Hg; apply Hf; right; exact Hg | exact Er]. }
  apply HA. intros f n p Hf Hp. destruct ix as [l|pre ids post].
  - apply in_map_iff in Hf as [a [<- Ha]]. exact (axis_ok n a p Hp).
  - apply in_app_iff in Hf as [Hf|Hf]; [|apply in_app_iff in Hf as [Hf|Hf]].
    + apply in_map_iff in Hf as [a [<- Ha]]. exact (axis_ok n (ASlice a) p Hp).
    + destruct Hf as [<-|[]]. unfold axis_ids in Hp. destruct (mapM (fun i => match norm_index n i with Some k => Ok k | None => Err IndexError end) ids) as [ks|] eqn:Ek; cbn [bind] in Hp; [|discriminate]. injection Hp as <-. split; [discriminate|]. cbn [snd]. apply ids_iff in Ek. clear - Ek. induction Ek as [|i k ids ks Hk H IH]; constructor; [exact (proj1 Hk) | exact IH].
    + apply in_map_iff in Hf as [a [<- Ha]]. exact (axis_ok n (ASlice a) p Hp).
Qed.

Lemma offset_lt : forall dims ks, inside dims ks -> offset dims ks < shape_size dims.
Proof.
  intros dims ks H. induction H as [|k d ks dims Hk H IH]; [cbn; lia|]. cbn [offset shape_size fold_right]. fold (shape_size dims). change (fold_right Nat.mul 1 dims) with (shape_size dims) in *. nia.
Qed.
Lemma sel_dims_cons : forall p sel n dims, sel_dims (p :: sel) (n :: dims) = length (snd p) :: sel_dims sel dims.
Proof. reflexivity. Qed.
Lemma source_cons : forall p sel k ks, source (p :: sel) (k :: ks) = nth k (snd p) 0 :: source sel ks.
Proof. reflexivity. Qed.
Lemma keep_cons : forall p sel k ks, keep_axes (p :: sel) (k :: ks) = if fst p then k :: keep_axes sel ks else keep_axes sel ks.
Proof. intros [[] ps] sel k ks; reflexivity. Qed.
Lemma cells_length : forall sel dims, sel_ok sel dims -> length (cells sel dims) = shape_size (sel_dims sel dims).
Proof.
  induction sel as [|[b ps] sel IH]; intros dims H.
  - unfold sel_dims. cbn. destruct dims; apply seq_length.
  - destruct dims as [|n dims]; [destruct H as [H _]; cbn in H; lia|]. apply sel_ok_inv in H as [_ [_ H]]. rewrite sel_dims_cons. cbn [cells snd shape_size fold_right]. change (fold_right Nat.mul 1 (sel_dims sel dims)) with (shape_size (sel_dims sel dims)). rewrite <- (IH dims H).
    induction ps as [|p ps IHp]; [reflexivity|]. cbn [flat_map length]. rewrite app_length, map_length, IHp. reflexivity.
Qed.
Lemma nth_flat_blocks : forall A B (f : A -> list B) L l k q z za, (forall a, length (f a) = L) -> k < length l -> q < L -> nth (k * L + q) (flat_map f l) z = nth q (f (nth k l za)) z.
Proof.
  intros A B f L l k q z za Hf. revert k. induction l as [|a l IH]; intros k Hk Hq; [cbn in Hk; lia|]. cbn [flat_map]. destruct k as [|k].
  - cbn [Nat.mul plus nth]. apply app_nth1. rewrite Hf. exact Hq.
  - rewrite app_nth2 by (rewrite Hf; nia). rewrite Hf. replace (S k * L + q - L) with (k * L + q) by nia. cbn in Hk. apply IH; lia.
Qed.
Lemma cells_nth : forall sel dims ks, sel_ok sel dims -> inside (sel_dims sel dims) ks -> nth (offset (sel_dims sel dims) ks) (cells sel dims) 0 = offset dims (source sel ks).
Proof.
  induction sel as [|[b ps] sel IH]; intros dims ks H Hi.
  - unfold sel_dims in *. cbn [map length skipn app] in *. unfold source. cbn [combine map app length skipn]. pose proof (offset_lt dims ks Hi) as Hlt. destruct dims as [|d dims]; cbn [cells]; rewrite seq_nth by exact Hlt; reflexivity.
  - destruct dims as [|n dims]; [destruct H as [H _]; cbn in H; lia|]. apply sel_ok_inv in H as [_ [_ H]]. rewrite sel_dims_cons in *. cbn [snd] in *. inversion Hi as [|k d ks' ds Hk Hi' E1 E2]; subst. rewrite source_cons. cbn [cells offset snd].
    rewrite (nth_flat_blocks _ _ _ (shape_size (sel_dims sel dims)) ps k (offset (sel_dims sel dims) ks') 0 0);
      [|intro a; rewrite map_length; apply cells_length; exact H | exact Hk | apply offset_lt; exact Hi'].
    rewrite (nth_indep _ 0 (nth k ps 0 * shape_size dims + 0)) by (rewrite map_length, (cells_length _ _ H); apply offset_lt; exact Hi').
    rewrite (map_nth (fun q => nth k ps 0 * shape_size dims + q)), (IH dims ks' H Hi'). reflexivity.
Qed.
Lemma keep_shape : forall sel dims, sel_ok sel dims -> sel_shape sel dims = keep_axes sel (sel_dims sel dims) /\ shape_size (sel_shape sel dims) = shape_size (sel_dims sel dims).
Proof.
  induction sel as [|[b ps] sel IH]; intros dims H.
  - unfold sel_dims, keep_axes. cbn [map length skipn app combine filter]. destruct dims; split; reflexivity.
  - destruct dims as [|n dims]; [destruct H as [H _]; cbn in H; lia|]. apply sel_ok_inv in H as [H1 [_ H]]. destruct (IH dims H) as [E1 E2]. rewrite sel_dims_cons, keep_cons. cbn [sel_shape fst snd] in *.
    destruct b; cbn [shape_size fold_right]; (change (fold_right Nat.mul 1 (sel_dims sel dims)) with (shape_size (sel_dims sel dims))).
    + change (fold_right Nat.mul 1 (sel_shape sel dims)) with (shape_size (sel_shape sel dims)). rewrite E1, <- E2, E1. split; reflexivity.
    + rewrite (H1 eq_refl), <- E2, Nat.mul_1_l. split; [exact E1 | reflexivity].
Qed.
Lemma keep_offset : forall sel dims ks, sel_ok sel dims -> inside (sel_dims sel dims) ks -> offset (sel_shape sel dims) (keep_axes sel ks) = offset (sel_dims sel dims) ks /\ inside (sel_shape sel dims) (keep_axes sel ks).
Proof.
  induction sel as [|[b ps] sel IH]; intros dims ks H Hi.
  - unfold sel_dims, keep_axes in *. cbn [map length skipn app combine filter] in *. destruct dims; split; try reflexivity; exact Hi.
  - destruct dims as [|n dims]; [destruct H as [H _]; cbn in H; lia|]. pose proof H as H0. apply sel_ok_inv in H as [H1 [_ H]]. rewrite sel_dims_cons in *. cbn [fst snd] in *. inversion Hi as [|k d ks' ds Hk Hi' E1 E2]; subst. destruct (IH dims ks' H Hi') as [F1 F2].
    rewrite keep_cons. cbn [sel_shape fst]. destruct b.
    + split; [|constructor; assumption]. cbn [offset]. rewrite F1. f_equal. f_equal. apply (proj2 (keep_shape sel dims H)).
    + split; [|exact F2]. cbn [offset]. rewrite F1. rewrite (H1 eq_refl) in Hk. replace k with 0 by lia. reflexivity.
Qed.
Lemma keep_inside_inv : forall sel dims l, sel_ok sel dims -> inside (sel_shape sel dims) l -> exists ks, inside (sel_dims sel dims) ks /\ keep_axes sel ks = l.
Proof.
  induction sel as [|[b ps] sel IH]; intros dims l H Hi.
  - exists l. unfold sel_dims, keep_axes. cbn [map length skipn app combine filter]. destruct dims; split; try reflexivity; exact Hi.
  - destruct dims as [|n dims]; [destruct H as [H _]; cbn in H; lia|]. apply sel_ok_inv in H as [H1 [_ H]]. cbn [fst snd] in *. cbn [sel_shape] in Hi. rewrite sel_dims_cons. cbn [snd]. destruct b.
    + inversion Hi as [|k d l' ds Hk Hi' E1 E2]; subst. destruct (IH dims l' H Hi') as [ks [F1 F2]]. exists (k :: ks). split; [constructor; assumption|]. rewrite keep_cons. cbn. f_equal. exact F2.
    + destruct (IH dims l H Hi) as [ks [F1 F2]]. exists (0 :: ks). split; [constructor; [rewrite (H1 eq_refl); lia | exact F1]|]. rewrite keep_cons. exact F2.
Qed.
Lemma source_inside : forall sel dims ks, sel_ok sel dims -> inside (sel_dims sel dims) ks -> inside dims (source sel ks).
Proof.
  induction sel as [|[b ps] sel IH]; intros dims ks H Hi; [exact Hi|]. destruct dims as [|n dims]; [destruct H as [H _]; cbn in H; lia|]. apply sel_ok_inv in H as [_ [H1 H]]. rewrite sel_dims_cons in *. cbn [snd] in *. inversion Hi as [|k d ks' ds Hk Hi' E1 E2]; subst.
  rewrite source_cons. constructor; [|apply IH; assumption]. cbn [snd]. rewrite Forall_forall in H1. apply H1. apply nth_In. exact Hk.
Qed.
(** *** Which positions are selected *)
Lemma cells_bound : forall sel dims, sel_ok sel dims -> Forall (fun c => c < shape_size dims) (cells sel dims).
Proof.
  induction sel as [|[b ps] sel IH]; intros dims H.
  - apply Forall_forall. intros c Hc. destruct dims; cbn [cells] in Hc; apply in_seq in Hc; lia.
  - destruct dims as [|n dims]; [destruct H as [H _]; cbn in H; lia|]. apply sel_ok_inv in H as [_ [H1 H]]. specialize (IH dims H). rewrite Forall_forall in *. cbn [snd] in H1. intros c Hc. cbn [cells] in Hc. apply in_flat_map in Hc as [p [Hp Hc]]. apply in_map_iff in Hc as [q [<- Hq]]. specialize (IH q Hq). specialize (H1 p Hp). cbn [shape_size fold_right]. change (fold_right Nat.mul 1 dims) with (shape_size dims). nia.
Qed.
Lemma digits : forall a b q r m, q < m -> r < m -> a * m + q = b * m + r -> a = b /\ q = r.
Proof.
  intros a b q r m Hq Hr E. assert (a = b); [|subst; split; [reflexivity | lia]]. destruct (Nat.lt_trichotomy a b) as [L|[L|L]]; [|exact L|]; exfalso; nia.
Qed.
Lemma in_cells : forall sel dims ks j p, sel_ok sel dims -> inside dims ks -> In (offset dims ks) (cells sel dims) -> nth_error sel j = Some p -> In (nth j ks 0) (snd p).
Proof.
  induction sel as [|[b ps] sel IH]; intros dims ks j p H Hi Hc Hj; [destruct j; discriminate|]. destruct dims as [|n dims]; [destruct H as [H _]; cbn in H; lia|]. apply sel_ok_inv in H as [_ [_ H]]. inversion Hi as [|k d ks' ds Hk Hi' E1 E2]; subst.
  cbn [cells offset] in Hc. apply in_flat_map in Hc as [x [Hx Hc]]. apply in_map_iff in Hc as [q [Eq Hq]]. change (fold_right Nat.mul 1 dims) with (shape_size dims) in Eq.
  pose proof (offset_lt dims ks' Hi') as Hlt. pose proof (cells_bound sel dims H) as HB. rewrite Forall_forall in HB. specialize (HB q Hq).
  assert (Ex : x = k /\ q = offset dims ks') by (exact (digits _ _ _ _ _ HB Hlt Eq)). destruct Ex as [-> ->]. destruct j as [|j]; [injection Hj as <-; exact Hx|]. cbn in Hj. cbn [nth]. exact (IH dims ks' j p H Hi' Hq Hj).
Qed.
Lemma cells_nodup : forall sel dims, sel_ok sel dims -> Forall (fun p => NoDup (snd p)) sel -> NoDup (cells sel dims).
Proof.
  induction sel as [|[b ps] sel IH]; intros dims H HN.
  - destruct dims; apply seq_NoDup.
  - destruct dims as [|n dims]; [destruct H as [H _]; cbn in H; lia|]. apply sel_ok_inv in H as [_ [_ H]]. inversion HN as [|? ? HN1 HN2]; subst. specialize (IH dims H HN2). pose proof (cells_bound sel dims H) as HB. rewrite Forall_forall in HB. cbn [cells snd] in *.
    induction HN1 as [|p ps Hp HN1 IHp]; [constructor|]. cbn [flat_map]. assert (HN' : Forall (fun p => NoDup (snd p)) ((b, ps) :: sel)) by (constructor; [exact HN1 | exact HN2]). specialize (IHp HN').
    revert IHp. generalize (flat_map (fun p => map (fun q => p * shape_size dims + q) (cells sel dims)) ps) (fun x => in_flat_map (fun p => map (fun q => p * shape_size dims + q) (cells sel dims)) ps x). intros R HR IHp.
    assert (HD : forall x, In x (map (fun q => p * shape_size dims + q) (cells sel dims)) -> ~ In x R).
    { intros x Hx HxR. apply in_map_iff in Hx as [q [<- Hq]]. apply HR in HxR as [p' [Hp' Hx]]. apply in_map_iff in Hx as [q' [Eq Hq']]. assert (p' = p) by (exact (proj1 (digits _ _ _ _ _ (HB q' Hq') (HB q Hq) Eq))). subst p'. contradiction. }
    assert (HM : NoDup (map (fun q => p * shape_size dims + q) (cells sel dims))).
    { apply FinFun.Injective_map_NoDup; [intros u v Huv; lia | exact IH]. }
    clear - HD HM IHp. induction HM as [|x l Hx HM IHl]; [exact IHp|]. cbn. constructor; [rewrite in_app_iff; intros [|Hc]; [contradiction | exact (HD x (or_introl eq_refl) Hc)]|]. apply IHl. intros y Hy. apply HD. right. exact Hy.
Qed.
(** *** Writing *)
Lemma set_nth_nth : forall A (l : list A) i j x z, nth j (set_nth i x l) z = if (j =? i) && (i <? length l) then x else nth j l z.
Proof.
  induction l as [|a l IH]; intros i j x z; [rewrite Bool.andb_false_r; destruct i; reflexivity|]. destruct i as [|i], j as [|j]; try reflexivity. cbn [set_nth nth length]. rewrite IH. reflexivity.
Qed.
Lemma write_length : forall A cs (vs l : list A), length (write cs vs l) = length l.
Proof.
  induction cs as [|c cs IH]; intros [|v vs] l; try reflexivity. cbn. rewrite IH. clear. revert c. induction l as [|a l IH]; intros [|c]; try reflexivity. cbn. rewrite IH. reflexivity.
Qed.
Lemma write_other : forall A cs (vs l : list A) j z, ~ In j cs -> nth j (write cs vs l) z = nth j l z.
Proof.
  induction cs as [|c cs IH]; intros [|v vs] l j z H; try reflexivity. cbn [write]. rewrite IH by (intro Hj; apply H; right; exact Hj). rewrite set_nth_nth. destruct (Nat.eqb_spec j c) as [->|]; [|reflexivity]. exfalso. apply H. left. reflexivity.
Qed.
Lemma write_at : forall A cs (vs l : list A) i z, NoDup cs -> Forall (fun c => c < length l) cs -> length vs = length cs -> i < length cs -> nth (nth i cs 0) (write cs vs l) z = nth i vs z.
Proof.
  induction cs as [|c cs IH]; intros vs l i z HN HF HL Hi; [cbn in Hi; lia|]. destruct vs as [|v vs]; [discriminate|]. inversion HN as [|? ? H1 H2]; subst. inversion HF as [|? ? F1 F2]; subst. cbn [write]. destruct i as [|i].
  - cbn [nth]. rewrite write_other by exact H1. rewrite set_nth_nth, Nat.eqb_refl. destruct (Nat.ltb_spec c (length l)); [reflexivity | lia].
  - cbn [nth]. apply IH; [exact H2 | | cbn in HL; lia | cbn in Hi; lia]. assert (E : length (set_nth c v l) = length l) by (clear; revert c; induction l as [|a l IH]; intros [|c]; try reflexivity; cbn; rewrite IH; reflexivity). rewrite E. exact F2.
Qed.
Lemma expand_same : forall A dims (data : list A), length data = shape_size dims -> expand dims dims data = Ok data.
Proof.
  induction dims as [|d dims IH]; intros data H; [reflexivity|]. cbn [expand]. rewrite Nat.eqb_refl. cbn [shape_size fold_right] in H. change (fold_right Nat.mul 1 dims) with (shape_size dims) in H.
  assert (E : forall n a, (a + n) * shape_size dims <= length data -> mapM (fun i => expand dims dims (slice_rows (i * shape_size dims) (S i * shape_size dims) data)) (seq a n) = Ok (map (fun i => slice_rows (i * shape_size dims) (S i * shape_size dims) data) (seq a n))).
  { induction n as [|n IHn]; intros a Ha; [reflexivity|]. cbn [seq mapM map]. rewrite IH; [|unfold slice_rows; rewrite firstn_length, skipn_length; nia]. cbn [bind]. rewrite IHn by nia. reflexivity. }
  rewrite E by (cbn; lia). cbn [bind]. f_equal.
  assert (EC : forall n a, (a + n) * shape_size dims = length data -> concat (map (fun i => slice_rows (i * shape_size dims) (S i * shape_size dims) data) (seq a n)) = skipn (a * shape_size dims) data).
  { induction n as [|n IHn]; intros a Ha; [cbn; rewrite skipn_all2 by nia; reflexivity|]. cbn [seq map concat]. rewrite IHn by nia. unfold slice_rows. replace (S a * shape_size dims - a * shape_size dims) with (shape_size dims) by nia.
    rewrite <- (firstn_skipn (shape_size dims) (skipn (a * shape_size dims) data)) at 2. f_equal. rewrite skipn_skipn. f_equal. nia. }
  rewrite EC by (cbn; lia). reflexivity.
Qed.
Lemma broadcast_same : forall A (a : nd A), nd_wf a -> broadcast_to (nd_shape a) a = Ok (nd_data a).
Proof. intros A a H. unfold broadcast_to. rewrite Nat.sub_diag. cbn [drop_ones bind]. rewrite Nat.sub_diag. cbn [repeat app]. apply expand_same. exact H. Qed.

Lemma array_getitem_ok : forall G T (z : T) ix X sel, nd_wf X -> nth 0 (nd_shape X) 0 <> 0 -> selects (nd_shape X) ix sel ->
  exists Y b, array_getitem (G := G) z ix X = Ok (Y, b) /\ nd_wf Y /\ nd_shape Y = keep_axes sel (sel_dims sel (nd_shape X)) /\
  (forall l, inside (nd_shape Y) l -> exists ks, inside (sel_dims sel (nd_shape X)) ks /\ keep_axes sel ks = l) /\
  (forall ks, inside (sel_dims sel (nd_shape X)) ks -> inside (nd_shape X) (source sel ks) /\ entry z Y (keep_axes sel ks) = entry z X (source sel ks)) /\
  (Forall (fun p => NoDup (snd p)) sel -> forall dY s, nd_wf dY -> nd_shape dY = nd_shape Y -> exists dX, b dY s = Ok (dX, s) /\ nd_wf dX /\ nd_shape dX = nd_shape X /\
    (forall ks, inside (sel_dims sel (nd_shape X)) ks -> entry z dX (source sel ks) = entry z dY (keep_axes sel ks)) /\
    (forall ks j p, inside (nd_shape X) ks -> nth_error sel j = Some p -> ~ In (nth j ks 0) (snd p) -> entry z dX ks = z)).
Proof.
  intros G T z ix X sel HX H0 Hs. apply index_iff in Hs. pose proof (index_sel_ok _ _ _ Hs) as HK. destruct (keep_shape _ _ HK) as [KS1 KS2]. unfold array_getitem. destruct (nd_shape X) as [|d dims] eqn:Esh; [cbn in H0; congruence|]. destruct d as [|d]; [cbn in H0; congruence|]. rewrite <- Esh in *. rewrite Hs. cbn [bind].
  eexists. eexists. split; [reflexivity|]. cbn [nd_shape].
  assert (HL : length (cells sel (nd_shape X)) = shape_size (sel_shape sel (nd_shape X))) by (rewrite KS2; apply cells_length; exact HK).
  split; [unfold nd_wf; cbn [nd_data nd_shape]; rewrite map_length; exact HL|]. split; [exact KS1|]. split; [intros l Hl; apply keep_inside_inv; assumption|]. split.
  - intros ks Hi. split; [apply source_inside; assumption|]. unfold entry. cbn [nd_shape nd_data]. rewrite (proj1 (keep_offset _ _ _ HK Hi)).
    assert (Hlt : offset (sel_dims sel (nd_shape X)) ks < length (cells sel (nd_shape X))) by (rewrite cells_length by exact HK; apply offset_lt; exact Hi).
    rewrite (nth_indep _ z (nth 0 (nd_data X) z)) by (rewrite map_length; exact Hlt). rewrite (map_nth (fun c => nth c (nd_data X) z)). rewrite cells_nth by assumption. reflexivity.
  - intros HN dY s HdY Es. cbv beta. rewrite <- Es, (broadcast_same _ dY HdY). cbn [bind]. eexists. split; [reflexivity|]. split; [unfold nd_wf; cbn [nd_shape nd_data]; rewrite write_length, repeat_length; reflexivity|]. split; [reflexivity|].
    assert (HLd : length (nd_data dY) = length (cells sel (nd_shape X))) by (rewrite HdY, HL, Es; reflexivity).
    split.
    + intros ks Hi. unfold entry. cbn [nd_shape nd_data]. rewrite <- (cells_nth sel (nd_shape X) ks HK Hi). rewrite Es, (proj1 (keep_offset _ _ _ HK Hi)). apply write_at; [apply cells_nodup; assumption | | exact HLd | rewrite cells_length by exact HK; apply offset_lt; exact Hi].
      rewrite repeat_length. apply cells_bound. exact HK.
    + intros ks j p Hi Hj Hn. unfold entry. cbn [nd_shape nd_data]. rewrite write_other; [apply nth_repeat|]. intro Hc. apply Hn. exact (in_cells sel (nd_shape X) ks j p HK Hi Hc Hj).
Qed.
Lemma array_getitem_err : forall G T (z : T) ix X, nd_shape X <> [] -> nth 0 (nd_shape X) 0 <> 0 -> steps_ok ix -> (forall sel, ~ selects (nd_shape X) ix sel) -> array_getitem (G := G) z ix X = Err IndexError.
Proof.
  intros G T z ix X Hne H0 Hst Hs. unfold array_getitem. destruct (index_axes (nd_shape X) ix) as [sel|e] eqn:E; [exfalso; apply (Hs sel); apply index_iff; exact E|]. pose proof (index_error _ _ _ Hst E). subst e.
  destruct (nd_shape X) as [|[|d] dims]; cbn in H0; try congruence. reflexivity.
Qed.
Lemma basic_nodup : forall dims l sel, axes_are dims l sel -> Forall (fun p => NoDup (snd p)) sel.
Proof.
  intros dims l sel H. induction H as [|n dims a l p sel Ha H IH]; constructor; [|exact IH]. destruct a as [i|s]; destruct Ha as [k [Hk ->]]; cbn [snd]; [constructor; [intros [] | constructor]|]. apply rising_nodup. exact (proj1 (proj2 Hk)).
Qed.
Lemma array_getitem_empty : forall G T (z : T) ix dims data, exists b, array_getitem (G := G) z ix (mkNd (0 :: dims) data) = Ok (mkNd (0 :: dims) data, b).
Proof. intros. eexists. reflexivity. Qed.

(** ** Witnesses *)
Lemma flatten_v2_count : exists (layer : slayer unit (list nat) (list nat)) X Y b b', layer (concat X) = Ok (Y, b) /\ Y = [1; 1; 2; 2] /\ with_flatten_v2 layer X = Ok ([[1]; [1]], b').
Proof. exists (fun xs => Ok (flat_map (fun x => [x; x]) xs, fun d s => Ok (d, s))), [[1]; [2]]. do 3 eexists. repeat split; reflexivity. Qed.
Lemma flatten_v1_grad : exists X Y b' dX, with_flatten_v1 0 pairs X = Ok (Y, b') /\ b' Y tt = Ok (dX, tt) /\ map a_len Y = [2; 1] /\ map a_len dX = [3; 3].
Proof. exists [[1; 2]; [3]]. do 3 eexists. repeat split; reflexivity. Qed.
Lemma reshape_grad : exists b', with_reshape (Ok 1) heads (mkNd [1; 2; 1] [1; 4]) = Ok (mkNd [1; 2; 1] [1; 4], b') /\ forall dY s, nd_shape dY = [1; 2; 1] -> length (nd_data dY) = 2 -> b' dY s = Err ValueError.
Proof. eexists. split; [reflexivity|]. intros [sh [|u [|v [|w l]]]] s E H; try discriminate. reflexivity. Qed.
Lemma sel_example : selects [2; 3] (Basic [ASlice (mkSlice None None 1); AInt (-1)]) [(true, [0; 1]); (false, [2])].
Proof. apply index_iff. reflexivity. Qed.
Lemma getitem_repeated : exists b, array_getitem (G := unit) 0 (Fancy [] [0; 0]%Z []) (mkNd [2] [10; 20]) = Ok (mkNd [2] [10; 10], b) /\ b (mkNd [2] [1; 2]) tt = Ok (mkNd [2] [2; 0], tt).
Proof. eexists. split; reflexivity. Qed.
Lemma getitem_empty_grad : exists b, array_getitem (G := unit) 0 (Basic [ASlice (mkSlice None None 1); AInt 0]) (mkNd [0; 3] []) = Ok (mkNd [0; 3] [], b) /\ b (mkNd [0; 3] []) tt = Err ValueError.
Proof. eexists. split; reflexivity. Qed.
