(** Proofs about bidirectional. *)
From Verif Require Import BidiModel BidiSpec BaseFacts NumR NumQ CombProofs.
From Coq Require Import Lia Reals Lra.
Set Default Goal Selector "!".
Local Open Scope nat_scope.

Section Generic.
  Context {T : Type} `{N : Num T}.
  Lemma reverse_same (X : value T) : is_pad X -> reverse_padded X = Ok X.
  Proof.
    destruct X; try contradiction. intros _. cbn. repeat f_equal. unfold py_slice, clamp_index.
    cbn [Z.ltb]. rewrite !Z.max_r by lia.
    destruct (Z.ltb_spec 0 0); [lia|]. destruct (Z.ltb_spec (Z.of_nat (length d)) 0); [lia|].
    rewrite ?Z.min_l by lia. cbn [Z.to_nat]. rewrite ?Nat2Z.id. cbn [skipn]. rewrite ?Nat.min_id, ?Nat.min_0_l, Nat.sub_0_r. cbn [skipn]. apply firstn_all.
  Qed.
  Lemma nth_error_combine {A B} : forall (l : list A) (m : list B) i x y, nth_error l i = Some x -> nth_error m i = Some y ->
    nth_error (combine l m) i = Some (x, y).
  Proof. induction l as [|a l IH]; intros [|b m] [|i] x y E1 E2; cbn in *; try discriminate; [now injection E1 as ->; injection E2 as ->|now apply IH]. Qed.
  Lemma concat_side (Y1 Y2 : value T) : same_steps Y1 Y2 -> exists Z, concat_padded Y1 Y2 = Ok Z /\ side_by_side Y1 Y2 Z.
  Proof.
    destruct Y1 as [| | | |w1 d1 s1 l1 i1| |], Y2 as [| | | |w2 d2 s2 l2 i2| |]; try contradiction. cbn. intros E. unfold shape3. destruct (list_eq_dec _ _ _) as [_|C]; [|contradiction].
    eexists. split; [reflexivity|]. cbn. repeat split.
    - rewrite map_length, combine_length. apply (f_equal (@length _)) in E. rewrite !map_length in E. lia.
    - intros t b r1 r2 (x1 & Ex1 & Er1) (x2 & Ex2 & Er2).
      exists (map (fun q => fst q ++ snd q) (combine x1 x2)). split.
      + now rewrite (map_nth_error _ _ _ (nth_error_combine _ _ _ _ _ Ex1 Ex2)).
      + now rewrite (map_nth_error _ _ _ (nth_error_combine _ _ _ _ _ Er1 Er2)).
  Qed.
  Lemma forward_unreversed (l r : layer T) tr theta X Y1 b1 Y2 b2 : is_pad X -> l tr theta X = Ok (Y1, b1) -> r tr theta X = Ok (Y2, b2) ->
    same_steps Y1 Y2 -> exists Z b, bidirectional l r tr theta X = Ok (Z, b) /\ side_by_side Y1 Y2 Z.
  Proof.
    intros HX E1 E2 HS. unfold bidirectional. rewrite (reverse_same X HX). cbn [bind]. rewrite E1. cbn [bind]. rewrite E2. cbn [bind fst snd].
    destruct (concat_side Y1 Y2 HS) as (Z & EZ & SZ). rewrite EZ. cbn [bind]. eexists _, _. split; [reflexivity|exact SZ].
  Qed.
  Lemma split_first (dZ : value T) : is_pad dZ -> split_padded dZ = Ok (first_columns (Nat.div (width_of dZ) 2) dZ, first_columns (Nat.div (width_of dZ) 2) dZ).
  Proof.
    destruct dZ; try contradiction. intros _. unfold split_padded, first_columns, width_of.
    rewrite Nat.min_l; [reflexivity|]. apply (Nat.le_trans _ (w / 1)); [|rewrite Nat.div_1_r; lia].
    apply Nat.div_le_compat_l. lia.
  Qed.
  Lemma backward_first_half (l r : layer T) tr theta X Z b : bidirectional l r tr theta X = Ok (Z, b) ->
    exists Y1 b1 Y2 b2, l tr theta X = Ok (Y1, b1) /\ r tr theta X = Ok (Y2, b2) /\
    forall dZ g x1 g1 x2 g2 dX, is_pad dZ -> b1 (first_columns (Nat.div (width_of dZ) 2) dZ) g = Ok (x1, g1) ->
      b2 (first_columns (Nat.div (width_of dZ) 2) dZ) g1 = Ok (x2, g2) -> sum_padded x1 x2 = Ok dX -> b dZ g = Ok (dX, g2).
  Proof.
    unfold bidirectional. intros E. apply bind_ok in E as (Xr & Er & E). assert (HX : is_pad X) by (destruct X; [discriminate..| |discriminate|discriminate]; exact I).
    rewrite (reverse_same X HX) in Er. injection Er as <-.
    apply bind_ok in E as ([Y1 b1] & E1 & E). apply bind_ok in E as ([Y2 b2] & E2 & E). apply bind_ok in E as (Z' & EZ & E).
    cbn [fst snd] in E. injection E as <- <-. exists Y1, b1, Y2, b2. split; [exact E1|]. split; [exact E2|].
    intros dZ g x1 g1 x2 g2 dX HP B1 B2 S. rewrite (split_first dZ HP). cbn [bind fst snd]. rewrite B1. cbn [bind fst snd]. rewrite B2. cbn [bind fst snd].
    now rewrite S.
  Qed.
  Lemma backward_ignores (l r : layer T) tr theta X Z b : bidirectional l r tr theta X = Ok (Z, b) ->
    forall dZ dZ' g, is_pad dZ -> is_pad dZ' -> width_of dZ' = width_of dZ ->
      first_columns (Nat.div (width_of dZ) 2) dZ' = first_columns (Nat.div (width_of dZ) 2) dZ -> b dZ' g = b dZ g.
  Proof.
    unfold bidirectional. intros E. apply bind_ok in E as (Xr & Er & E).
    apply bind_ok in E as ([Y1 b1] & E1 & E). apply bind_ok in E as ([Y2 b2] & E2 & E). apply bind_ok in E as (Z' & EZ & E).
    cbn [fst snd] in E. injection E as <- <-. intros dZ dZ' g H1 H2 HW HF.
    rewrite (split_first dZ H1), (split_first dZ' H2), HW, HF. reflexivity.
  Qed.
End Generic.

Lemma bidi_noop_wrong : ~ differentiates (bidirectional noop noop) true [] (one_step 0%R) (Pad 2 [[[0%R; 0%R]]] [1] [1] [0]).
Proof.
  intros (b & E & _ & D). specialize (D (Pad 2 [[[0%R; 1%R]]] [1] [1] [0]) [] eq_refl eq_refl).
  destruct D as (dX & g' & Eb & _ & _ & D).
  specialize (D [] (Pad 1 [[[(fun s => s, 1%R)]]] [1] [1] [0]) eq_refl eq_refl (Forall_nil _)).
  destruct D as (K' & HK & HA & HI).
  - constructor; [|constructor]. unfold smooth. cbn. apply derivable_pt_lim_id.
  - cbn in E. injection E as <-. cbn in Eb. injection Eb as <- <-.
    assert (EK : forall s, vmap (at_time s) K' = Pad 2 [[[s; s]]] [1] [1] [0]).
    { intros s. destruct (HA s) as (b' & Eb'). cbn in Eb'. injection Eb' as Eb' _. symmetry. exact Eb'. }
    destruct K' as [| | | |w d s l i| |]; try (specialize (EK 0%R); discriminate).
    pose proof (EK 0%R) as E0. cbn in E0.
    destruct d as [|[|[|j1 [|j2 [|? ?]]] [|? ?]] [|? ?]]; try discriminate. clear E0.
    cbn in HK. assert (Hj1 : forall s, fst j1 s = s) by (intros u; specialize (EK u); cbn in EK; now injection EK).
    assert (Hj2 : forall s, fst j2 s = s) by (intros u; specialize (EK u); cbn in EK; now injection EK).
    apply Forall_cons_iff in HK as [_ HK]. apply Forall_cons_iff in HK as [S2 _]. unfold smooth in S2.
    assert (V2 : snd j2 = 1%R).
    { apply (uniqueness_limite (fst j2) 0%R); [exact S2|].
      intros eps He. destruct (derivable_pt_lim_id 0%R eps He) as (dl & Hd). exists dl. intros h Hh Hl. rewrite !Hj2. now apply Hd. }
    unfold inner, dot in HI. cbn in HI. unfold velocity in HI. rewrite V2 in HI. cbn in HI. lra.
Qed.
Lemma bidi_not_reversed : exists (X Z : value QArith_base.Q) b, bidirectional noop noop true [] X = Ok (Z, b) /\ ~ side_by_side X (backwards X) Z.
Proof.
  exists (Pad 1 [[[QArith_base.inject_Z 1]]; [[QArith_base.inject_Z 2]]] [1; 1] [2] [0]). eexists _, _. split; [reflexivity|].
  cbn. intros (_ & _ & _ & _ & _ & S). specialize (S 0 0 [QArith_base.inject_Z 1] [QArith_base.inject_Z 2]).
  destruct S as (x & E1 & E2); [eexists; split; reflexivity..|]. cbn in E1. injection E1 as <-. cbn in E2. discriminate.
Qed.
Lemma bidi_errors {T} {N : Num T} (l r : layer T) tr theta X :
  (~ is_pad X -> bidirectional l r tr theta X = Err AttributeError) /\
  forall Z b, bidirectional l r tr theta X = Ok (Z, b) ->
    (forall dZ g, ~ is_pad dZ -> b dZ g = Err AttributeError) /\
    exists Y1 b1 Y2 b2, l tr theta X = Ok (Y1, b1) /\ r tr theta X = Ok (Y2, b2) /\
    forall dZ g x1 g1 x2 g2, is_pad dZ -> b1 (first_columns (Nat.div (width_of dZ) 2) dZ) g = Ok (x1, g1) ->
      b2 (first_columns (Nat.div (width_of dZ) 2) dZ) g1 = Ok (x2, g2) -> ~ is_pad x1 \/ ~ is_pad x2 -> b dZ g = Err AttributeError.
Proof.
  split.
  - intros H. destruct X; try reflexivity. exfalso. apply H. exact I.
  - intros Z b E. unfold bidirectional in E. assert (HR : reverse_padded X = Ok X) by (apply reverse_same; destruct X; [discriminate..|exact I|discriminate|discriminate]). rewrite HR in E. cbn [bind] in E.
    destruct (l tr theta X) as [[Y1 b1]|]; [|discriminate]. cbn [bind fst snd] in E. destruct (r tr theta X) as [[Y2 b2]|]; [|discriminate]. cbn [bind fst snd] in E.
    destruct (concat_padded Y1 Y2); [|discriminate]. cbn [bind] in E. injection E as <- <-. split.
    + intros dZ g H. destruct dZ; try reflexivity. exfalso. apply H. exact I.
    + exists Y1, b1, Y2, b2. split; [reflexivity|]. split; [reflexivity|]. intros dZ g x1 g1 x2 g2 HP E1 E2 H. rewrite (split_first dZ HP). cbn [bind fst snd]. rewrite E1. cbn [bind fst snd]. rewrite E2. cbn [bind fst snd].
      destruct x1; try reflexivity. destruct x2; try reflexivity. exfalso. cbn in H. tauto.
Qed.
