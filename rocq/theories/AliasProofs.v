(** Proofs about aliasing. *)
From Verif Require Import AliasModel AliasSpec BaseFacts.
From Coq Require Import Lia.
Set Default Goal Selector "!".

Section Proofs.
  Context {T : Type} `{Num T}.
  Implicit Types (h : heap T) (m : mat T).

  Lemma nth_some_lt {A} (l : list A) i x : nth_error l i = Some x -> i < length l.
  Proof. intros E. apply nth_error_Some. congruence. Qed.
  Lemma nth_app_l {A} (l e : list A) i x : nth_error l i = Some x -> nth_error (l ++ e) i = Some x.
  Proof. intros E. rewrite nth_error_app1; [exact E|now apply (nth_some_lt _ _ x)]. Qed.
  Lemma kept_app h e : kept h (h ++ e). Proof. intros i m. apply nth_app_l. Qed.
  Lemma kept_trans h1 h2 h3 : kept h1 h2 -> kept h2 h3 -> kept h1 h3. Proof. intros H1 H2 i m E. now apply H2, H1. Qed.
  Lemma kept_refl h : kept h h. Proof. now intros i m. Qed.

  (** Unchanged except at one address. *)
  Definition kept_but (y : nat) h h' : Prop := forall i m, i <> y -> nth_error h i = Some m -> nth_error h' i = Some m.
  Lemma kept_but_trans y h1 h2 h3 : kept_but y h1 h2 -> kept_but y h2 h3 -> kept_but y h1 h3.
  Proof. intros H1 H2 i m Hi E. apply H2; [exact Hi|]. now apply H1. Qed.
  Lemma kept_kept_but y h h' : kept h h' -> kept_but y h h'. Proof. intros H1 i m _. apply H1. Qed.

  Lemma h_iadd_ok y x h m n r : nth_error h y = Some m -> nth_error h x = Some n -> miadd m n = Ok r ->
    h_iadd y x h = Ok (set_nth y r h) /\ nth_error (set_nth y r h) y = Some r /\ kept_but y h (set_nth y r h) /\
    length (set_nth y r h) = length h.
  Proof.
    intros E1 E2 Er. unfold h_iadd, load. rewrite E1, E2. cbn. rewrite Er. cbn. split; [reflexivity|].
    split; [apply nth_error_set_nth_eq; now apply (nth_some_lt _ _ m)|]. split; [|apply set_nth_length].
    intros i k Hi Ek. rewrite nth_error_set_nth_neq; [exact Ek|congruence].
  Qed.

  (** A callback that works in every heap that still holds what h holds, except at y. *)
  Definition cb_good (b : hcallback T) (v : mat T -> mat T) (y : nat) h : Prop :=
    forall h2 d dm, kept_but y h h2 -> nth_error h2 d = Some dm ->
    exists x e2, b d h2 = Ok (x, h2 ++ e2) /\ nth_error (h2 ++ e2) x = Some (v dm).
  Lemma cb_good_mono b v y h h' : kept_but y h h' -> cb_good b v y h -> cb_good b v y h'.
  Proof. intros K G h2 d dm K2 Ed. apply G; [|exact Ed]. now apply (kept_but_trans y h h'). Qed.

  Lemma add_loop_ok a m : forall ls fs gs, Forall2 (fun l fg => acts l (fst fg) (snd fg)) ls (combine fs gs) -> length gs = length fs ->
    forall y h1 s z, a <> y -> nth_error h1 a = Some m -> nth_error h1 y = Some s -> sums s (map (fun f => f m) fs) = Ok z ->
    exists cbs h', h_add_loop ls a y h1 = Ok (cbs, h') /\ kept_but y h1 h' /\ nth_error h' y = Some z /\
      Forall2 (fun b g => cb_good b (g m) y h') cbs gs.
  Proof.
    induction ls as [|l ls IH]; intros fs gs HF HL y h1 s z Hay Ea Ey Es.
    - destruct fs as [|f fs], gs as [|g gs]; cbn in HL; try discriminate; [|inversion HF].
      cbn in Es. injection Es as <-. exists [], h1. repeat split; [now intros i k|exact Ey|constructor].
    - destruct fs as [|f fs], gs as [|g gs]; cbn in HL; try discriminate; inversion HF as [|? ? ? ? H1 HF']; subst.
      cbn in H1, Es. destruct (H1 h1 a m Ea) as (yl & b & e & El & Eyl & Hb).
      destruct (miadd s (f m)) as [s'|] eqn:Em; [|discriminate]. cbn in Es.
      destruct (h_iadd_ok y yl (h1 ++ e) s (f m) s' (nth_app_l _ _ _ _ Ey) Eyl Em) as (E1 & E2 & K1 & L1).
      set (h1' := set_nth y s' (h1 ++ e)) in *.
      assert (K0 : kept_but y h1 h1').
      { intros i k Hi Ek. apply K1; [exact Hi|]. now apply nth_app_l. }
      assert (Ea' : nth_error h1' a = Some m) by now apply K0.
      destruct (IH fs gs HF' ltac:(now injection HL) y h1' s' z Hay Ea' E2 Es) as (cbs & h' & Eh & Kh & Ez & Hc).
      exists (b :: cbs), h'. cbn. rewrite El. cbn. rewrite E1. cbn. rewrite Eh. cbn.
      split; [reflexivity|]. split; [now apply (kept_but_trans y h1 h1')|]. split; [exact Ez|]. constructor; [|exact Hc].
      apply (cb_good_mono b (g m) y h1' h' Kh). intros h2 d dm K2 Ed. apply Hb; [now apply K2| |exact Ed].
      intros i Hi. destruct (nth_error (h1 ++ e) i) as [k|] eqn:Ei.
      + apply K2; [|apply K1; [|exact Ei]]; pose proof (nth_some_lt _ _ _ Ey); lia.
      + exfalso. apply nth_error_None in Ei. rewrite app_length in Ei. lia.
  Qed.

  Lemma add_back_ok y h' hb d dm : kept_but y h' hb -> nth_error hb d = Some dm ->
    forall cbs vs, Forall2 (fun b v => cb_good b v y h') cbs vs ->
    forall x h2 s z, length hb <= x -> kept hb h2 -> nth_error h2 x = Some s -> sums s (map (fun v => v dm) vs) = Ok z ->
    exists h3, h_add_back cbs d x h2 = Ok h3 /\ kept hb h3 /\ nth_error h3 x = Some z.
  Proof.
    intros Kb Ed cbs vs HF. induction HF as [|b v cbs vs Hb _ IH]; intros x h2 s z Hx K2 Ex Es; cbn in Es |- *.
    - injection Es as <-. exists h2. now repeat split.
    - destruct (miadd s (v dm)) as [s'|] eqn:Em; [|discriminate]. cbn in Es.
      destruct (Hb h2 d dm) as (w & e2 & Ew & Ev).
      + apply (kept_but_trans y h' hb); [exact Kb|now apply kept_kept_but].
      + now apply K2.
      + rewrite Ew. cbn. destruct (h_iadd_ok x w (h2 ++ e2) s (v dm) s' (nth_app_l _ _ _ _ Ex) Ev Em) as (E1 & E2 & K1 & L1).
        rewrite E1. cbn. apply (IH x _ s' z Hx); [|exact E2|exact Es].
        intros i k Ei. apply K1; [pose proof (nth_some_lt _ _ _ Ei); lia|]. now apply nth_app_l, K2.
  Qed.

  (** The sum of layers whose first layer returns new arrays and does not look back at its output. *)
  Lemma add_fresh_ok l f0 g0 ls fs gs : acts_fresh l f0 g0 -> Forall2 (fun l fg => acts l (fst fg) (snd fg)) ls (combine fs gs) ->
    length gs = length fs -> forall h a m z, nth_error h a = Some m -> sums (f0 m) (map (fun f => f m) fs) = Ok z ->
    exists y b h', h_add (l :: ls) a h = Ok (y, b, h') /\ kept h h' /\ nth_error h' y = Some z /\
    forall h2 d dm w, kept h' h2 -> nth_error h2 d = Some dm -> sums (g0 m dm) (map (fun g => g m dm) gs) = Ok w ->
    exists x h3, b d h2 = Ok (x, h3) /\ kept h2 h3 /\ nth_error h3 x = Some w.
  Proof.
    intros H0 HF HL h a m z Ea Es. destruct (H0 h a m Ea) as (y & b & e & El & Ey & Hy & Hb).
    pose proof (nth_some_lt _ _ _ Ea) as Ha.
    destruct (add_loop_ok a m ls fs gs HF HL y (h ++ e) (f0 m) z ltac:(lia) (nth_app_l _ _ _ _ Ea) Ey Es) as (cbs & h' & Eh & Kh & Ez & Hc).
    unfold h_add. rewrite El. cbn [bind fst snd]. rewrite Eh. cbn [bind fst snd]. eexists _, _, _. split; [reflexivity|].
    split.
    { intros i k Ei. apply Kh; [pose proof (nth_some_lt _ _ _ Ei); lia|]. now apply nth_app_l. }
    split; [exact Ez|]. intros h2 d dm w K2 Ed Ew.
    destruct (Hb h2 d dm) as (x & e2 & Ex & Ev & Hx).
    { apply K2, Kh; [lia|]. now apply nth_app_l. }
    { intros i Hi Hne. destruct (nth_error (h ++ e) i) as [k|] eqn:Ei.
      - apply K2. now apply Kh.
      - exfalso. apply nth_error_None in Ei. rewrite app_length in Ei. lia. }
    { exact Ed. }
    rewrite Ex. cbn [bind fst snd].
    destruct (add_back_ok y h' h2 d dm (kept_kept_but y _ _ K2) Ed cbs (map (fun g => g m) gs)) with (x := x) (h2 := h2 ++ e2) (s := g0 m dm) (z := w)
      as (h3 & E3 & K3 & Ez3).
    { clear -Hc. induction Hc; cbn; constructor; assumption. }
    { exact Hx. }
    { apply kept_app. }
    { exact Ev. }
    { rewrite map_map. exact Ew. }
    rewrite E3. cbn. exists x, h3. now repeat split.
  Qed.

  (** What happens when the first layer returns its input: the input is overwritten, the second layer sees the original
      and the third the sum of the first two. *)
  Lemma add_noop_overwrites l1 f1 g1 l2 f2 g2 : acts l1 f1 g1 -> acts l2 f2 g2 ->
    forall h a m s z, nth_error h a = Some m -> miadd m (f1 m) = Ok s -> miadd s (f2 s) = Ok z ->
    exists b h', h_add [h_noop; l1; l2] a h = Ok (a, b, h') /\ nth_error h' a = Some z /\ length h <= length h'.
  Proof.
    intros H1 H2 h a m s z Ea Es Ez. unfold h_add, h_noop. cbn [bind fst snd h_add_loop].
    destruct (H1 h a m Ea) as (y1 & b1 & e1 & E1 & Ey1 & _). rewrite E1. cbn [bind fst snd].
    destruct (h_iadd_ok a y1 (h ++ e1) m (f1 m) s (nth_app_l _ _ _ _ Ea) Ey1 Es) as (Ei & Ea1 & K1 & L1).
    rewrite Ei. cbn [bind fst snd].
    destruct (H2 _ a s Ea1) as (y2 & b2 & e2 & E2 & Ey2 & _). rewrite E2. cbn [bind fst snd].
    destruct (h_iadd_ok a y2 _ s (f2 s) z (nth_app_l _ _ _ _ Ea1) Ey2 Ez) as (Ei2 & Ea2 & K2 & L2).
    rewrite Ei2. cbn [bind fst snd]. eexists _, _. split; [reflexivity|]. split; [exact Ea2|].
    rewrite L2, app_length, L1, app_length. lia.
  Qed.
  Lemma add_noop_one l1 f1 g1 : acts l1 f1 g1 -> forall h a m s, nth_error h a = Some m -> miadd m (f1 m) = Ok s ->
    exists b h', h_add [h_noop; l1] a h = Ok (a, b, h') /\ nth_error h' a = Some s.
  Proof.
    intros H1 h a m s Ea Es. unfold h_add, h_noop. cbn [bind fst snd h_add_loop].
    destruct (H1 h a m Ea) as (y1 & b1 & e1 & E1 & Ey1 & _). rewrite E1. cbn [bind fst snd].
    destruct (h_iadd_ok a y1 (h ++ e1) m (f1 m) s (nth_app_l _ _ _ _ Ea) Ey1 Es) as (Ei & Ea1 & K1 & L1).
    rewrite Ei. cbn [bind fst snd]. eexists _, _. split; [reflexivity|exact Ea1].
  Qed.

  (** A first layer that keeps its output for the callback: the gradient is gated by the sum, not by the output of Relu. *)
  Lemma add_relu_gate l1 f1 g1 : acts l1 f1 g1 -> forall h a m s, nth_error h a = Some m -> miadd (relu_mat m) (f1 m) = Ok s ->
    exists y b h', h_add [h_relu; l1] a h = Ok (y, b, h') /\ nth_error h' y = Some s /\
    forall h2 d dm w, kept h' h2 -> nth_error h2 d = Some dm -> miadd (gate_mat dm s) (g1 m dm) = Ok w ->
    exists x h3, b d h2 = Ok (x, h3) /\ nth_error h3 x = Some w.
  Proof.
    intros H1 h a m s Ea Es. unfold h_add, h_relu, load. rewrite Ea. cbn [bind fst snd h_add_loop alloc].
    pose proof (nth_some_lt _ _ _ Ea) as Ha.
    assert (Ey : nth_error (h ++ [relu_mat m]) (length h) = Some (relu_mat m)) by (rewrite nth_error_app2 by lia; now rewrite Nat.sub_diag).
    destruct (H1 _ a m (nth_app_l h [relu_mat m] _ _ Ea)) as (y1 & b1 & e1 & E1 & Ey1 & Hb). rewrite E1. cbn [bind fst snd].
    destruct (h_iadd_ok (length h) y1 _ _ (f1 m) s (nth_app_l _ _ _ _ Ey) Ey1 Es) as (Ei & Ea1 & K1 & L1).
    rewrite Ei. cbn [bind fst snd]. eexists _, _, _. split; [reflexivity|]. split; [exact Ea1|].
    intros h2 d dm w K2 Ed Ew. unfold load. rewrite Ed. cbn [bind].
    rewrite (K2 _ _ Ea1). cbn [bind fst snd alloc h_add_back].
    destruct (Hb (h2 ++ [gate_mat dm s]) d dm) as (x & e2 & Ex & Ev).
    { apply nth_app_l, K2, K1; [lia|]. now apply nth_app_l, nth_app_l. }
    { intros i Hi. rewrite app_length in Hi. cbn in Hi. destruct (nth_error ((h ++ [relu_mat m]) ++ e1) i) as [k|] eqn:Ei2.
      - apply nth_app_l, K2, K1; [lia|exact Ei2].
      - exfalso. apply nth_error_None in Ei2. rewrite !app_length in Ei2. cbn in Ei2. lia. }
    { now apply nth_app_l. }
    rewrite Ex. cbn [bind fst snd].
    assert (Eg : nth_error (h2 ++ [gate_mat dm s]) (length h2) = Some (gate_mat dm s)) by (rewrite nth_error_app2 by lia; now rewrite Nat.sub_diag).
    destruct (h_iadd_ok (length h2) x _ _ (g1 m dm) w (nth_app_l _ _ _ _ Eg) Ev Ew) as (E3 & E4 & _).
    rewrite E3. cbn. exists (length h2). eexists. split; [reflexivity|exact E4].
  Qed.

  (** residual on arrays never changes an existing array. *)
  Lemma residual_kept l f g : acts l f g -> forall h a m z, nth_error h a = Some m -> madd m (f m) = Ok z ->
    exists y b h', h_residual l a h = Ok (y, b, h') /\ kept h h' /\ nth_error h' y = Some z /\
    forall h2 d dm w, kept h' h2 -> nth_error h2 d = Some dm -> madd dm (g m dm) = Ok w ->
    exists x h3, b d h2 = Ok (x, h3) /\ kept h2 h3 /\ nth_error h3 x = Some w.
  Proof.
    intros H1 h a m z Ea Ez. destruct (H1 h a m Ea) as (y & b & e & El & Ey & Hb).
    unfold h_residual, h_sum, load. rewrite El. cbn [bind fst snd]. rewrite (nth_app_l _ e _ _ Ea), Ey. cbn [bind]. rewrite Ez. cbn [bind alloc fst snd].
    eexists _, _, _. split; [reflexivity|]. split; [apply (kept_trans _ (h ++ e)); apply kept_app|].
    split; [rewrite nth_error_app2 by lia; now rewrite Nat.sub_diag|].
    intros h2 d dm w K2 Ed Ew. destruct (Hb h2 d dm) as (x & e2 & Ex & Ev).
    { now apply K2, nth_app_l, nth_app_l. }
    { intros i Hi. destruct (nth_error (h ++ e) i) as [k|] eqn:Ei.
      - now apply K2, nth_app_l.
      - exfalso. apply nth_error_None in Ei. rewrite app_length in Ei. lia. }
    { exact Ed. }
    rewrite Ex. cbn [bind fst snd]. rewrite (nth_app_l _ e2 _ _ Ed), Ev. cbn [bind]. rewrite Ew. cbn [bind alloc fst snd].
    eexists _, _. split; [reflexivity|]. split; [apply (kept_trans _ (h2 ++ e2)); apply kept_app|].
    rewrite nth_error_app2 by lia. now rewrite Nat.sub_diag.
  Qed.
  (** on Padded, a layer that returns its input gets the caller's data doubled *)
  Lemma residual_padded_noop h a m z : nth_error h a = Some m -> miadd m m = Ok z ->
    exists b h', h_residual_padded h_noop a h = Ok (a, b, h') /\ nth_error h' a = Some z.
  Proof.
    intros Ea Ez. unfold h_residual_padded, h_noop. cbn [bind fst snd].
    destruct (h_iadd_ok a a h m m z Ea Ea Ez) as (E1 & E2 & _). rewrite E1. cbn. eexists _, _. split; [reflexivity|exact E2].
  Qed.

  (** tuplify's callback overwrites the first gradient when its first layer passes gradients through *)
  Lemma tuplify_noop_overwrites l1 f1 g1 : acts l1 f1 g1 -> forall h a m, nth_error h a = Some m ->
    exists ys b h', h_tuplify [h_noop; l1] a h = Ok (ys, b, h') /\ kept h h' /\
    forall h2 d1 d2 m1 m2 w, kept h' h2 -> nth_error h2 d1 = Some m1 -> nth_error h2 d2 = Some m2 -> miadd m1 (g1 m m2) = Ok w ->
    exists h3, b [d1; d2] h2 = Ok (d1, h3) /\ nth_error h3 d1 = Some w.
  Proof.
    intros H1 h a m Ea. destruct (H1 h a m Ea) as (y & b & e & El & Ey & Hb).
    unfold h_tuplify, h_tup_loop, h_noop. cbn [bind fst snd]. rewrite El. cbn [bind fst snd map].
    eexists _, _, _. split; [reflexivity|]. split; [apply kept_app|].
    intros h2 d1 d2 m1 m2 w K2 E1 E2 Ew. unfold h_tup_back, h_tup_calls. cbn [bind fst snd].
    destruct (Hb h2 d2 m2) as (x & e2 & Ex & Ev).
    { now apply K2, nth_app_l. }
    { intros i Hi. destruct (nth_error (h ++ e) i) as [k|] eqn:Ei.
      - now apply K2.
      - exfalso. apply nth_error_None in Ei. rewrite app_length in Ei. lia. }
    { exact E2. }
    rewrite Ex. cbn [bind fst snd h_iadds].
    destruct (h_iadd_ok d1 x _ _ _ w (nth_app_l _ e2 _ _ E1) Ev Ew) as (E3 & E4 & _). rewrite E3. cbn. eexists. split; [reflexivity|exact E4].
  Qed.

  (** The layers used in the examples. *)
  Lemma nth_app_len (h : list (mat T)) m : nth_error (h ++ [m]) (length h) = Some m.
  Proof. rewrite nth_error_app2 by lia. now rewrite Nat.sub_diag. Qed.
  Lemma scale_acts_fresh c : acts_fresh (h_scale c) (scale_mat c) (fun _ => scale_mat c).
  Proof.
    intros h a m Ea. unfold h_scale, load. rewrite Ea. cbn [bind alloc].
    eexists _, _, _. split; [reflexivity|]. split; [apply nth_app_len|]. split; [lia|].
    intros h2 d dm _ _ Ed. rewrite Ed. cbn. eexists _, _. split; [reflexivity|]. split; [apply nth_app_len|lia].
  Qed.
  Lemma fresh_acts (l : hlayer T) f g : acts_fresh l f g -> acts l f g.
  Proof.
    intros F h a m Ea. destruct (F h a m Ea) as (y & b & e & El & Ey & _ & Hb). exists y, b, e. repeat split; try assumption.
    intros h2 d dm E1 E2 E3. destruct (Hb h2 d dm E1 (fun i Hi _ => E2 i Hi) E3) as (x & e2 & Ex & Ev & _). now exists x, e2.
  Qed.
  Lemma noop_acts : acts (T := T) h_noop (fun m => m) (fun _ d => d).
  Proof.
    intros h a m Ea. exists a, (fun d h' => Ok (d, h')), []. rewrite app_nil_r. repeat split; [exact Ea|].
    intros h2 d dm _ _ Ed. exists d, []. rewrite app_nil_r. now split.
  Qed.
  Lemma relu_acts : acts (T := T) h_relu relu_mat (fun m d => gate_mat d (relu_mat m)).
  Proof.
    intros h a m Ea. unfold h_relu, load. rewrite Ea. cbn [bind alloc].
    eexists _, _, _. split; [reflexivity|]. split; [apply nth_app_len|].
    intros h2 d dm _ E2 Ed. rewrite Ed. cbn [bind].
    assert (Ey : nth_error h2 (length h) = Some (relu_mat m)) by (rewrite E2 by (cbn; lia); apply nth_app_len).
    rewrite Ey. cbn. eexists _, _. split; [reflexivity|apply nth_app_len].
  Qed.
  (** tuplify over layers that return new arrays. *)
  Definition cb_fresh (b : hcallback T) (v : mat T -> mat T) h : Prop :=
    forall h2 d dm, kept h h2 -> nth_error h2 d = Some dm ->
    exists x e2, b d h2 = Ok (x, h2 ++ e2) /\ nth_error (h2 ++ e2) x = Some (v dm) /\ length h2 <= x.
  Lemma tup_loop_ok a m : forall ls fs gs, Forall2 (fun l fg => acts_fresh l (fst fg) (snd fg)) ls (combine fs gs) -> length gs = length fs ->
    forall h, nth_error h a = Some m ->
    exists qs h', h_tup_loop ls a h = Ok (qs, h') /\ kept h h' /\ Forall2 (fun q f => nth_error h' (fst q) = Some (f m)) qs fs /\
      Forall2 (fun q g => cb_fresh (snd q) (g m) h') qs gs.
  Proof.
    induction ls as [|l ls IH]; intros fs gs HF HL h Ea.
    - destruct fs as [|f fs], gs as [|g gs]; cbn in HL; try discriminate; [|inversion HF].
      exists [], h. repeat split; try constructor. apply kept_refl.
    - destruct fs as [|f fs], gs as [|g gs]; cbn in HL; try discriminate; inversion HF as [|? ? ? ? H1 HF']; subst.
      destruct (H1 h a m Ea) as (y & b & e & El & Ey & _ & Hb). cbn in Ey, Hb.
      destruct (IH fs gs HF' ltac:(now injection HL) (h ++ e) (nth_app_l _ _ _ _ Ea)) as (qs & h' & Eq & K & F1 & F2).
      exists ((y, b) :: qs), h'. cbn. rewrite El. cbn. rewrite Eq. cbn. split; [reflexivity|].
      split; [now apply (kept_trans h (h ++ e)); [apply kept_app|]|]. split; constructor; try assumption; cbn.
      + now apply K.
      + intros h2 d dm K2 Ed. apply Hb; [|intros i Hi _|exact Ed].
        * now apply K2, K, nth_app_l.
        * destruct (nth_error (h ++ e) i) as [k|] eqn:Ei; [now apply K2, K|].
          exfalso. apply nth_error_None in Ei. rewrite app_length in Ei. lia.
  Qed.
  Lemma tup_calls_ok h' : forall cbs vs, Forall2 (fun b v => cb_fresh b v h') cbs vs -> forall ds dms h2, kept h' h2 ->
    Forall2 (fun d dm => nth_error h2 d = Some dm) ds dms -> length ds = length cbs ->
    exists xs h3, h_tup_calls cbs ds h2 = Ok (xs, h3) /\ kept h2 h3 /\ length h2 <= length h3 /\
      Forall2 (fun x w => nth_error h3 x = Some w) xs (map (fun p => fst p (snd p)) (combine vs dms)) /\
      Forall (fun x => length h2 <= x) xs /\ NoDup xs.
  Proof.
    intros cbs vs HF. induction HF as [|b v cbs vs Hb _ IH]; intros ds dms h2 K2 HD HL.
    - destruct ds; [|discriminate]. exists [], h2. cbn. repeat split; try constructor. apply kept_refl.
    - destruct ds as [|d ds]; [discriminate|]. inversion HD as [|? dm ? dms' Ed HD']; subst.
      destruct (Hb h2 d dm K2 Ed) as (x & e2 & Ex & Ev & Hx).
      assert (HD2 : Forall2 (fun d dm => nth_error (h2 ++ e2) d = Some dm) ds dms').
      { clear -HD'. induction HD'; constructor; [now apply nth_app_l|assumption]. }
      destruct (IH ds dms' (h2 ++ e2) (kept_trans _ _ _ K2 (kept_app h2 e2)) HD2 ltac:(now injection HL)) as (xs & h3 & E3 & K3 & L3 & F3 & G3 & N3).
      exists (x :: xs), h3. cbn. rewrite Ex. cbn. rewrite E3. cbn. split; [reflexivity|].
      split; [now apply (kept_trans h2 (h2 ++ e2)); [apply kept_app|]|].
      rewrite app_length in L3, G3. split; [lia|]. split; [constructor; [now apply K3|exact F3]|].
      split; [constructor; [exact Hx|]|].
      + eapply Forall_impl; [|exact G3]. cbn. lia.
      + constructor; [|exact N3]. intros Hi. rewrite Forall_forall in G3. specialize (G3 _ Hi).
        apply nth_some_lt in Ev. rewrite app_length in Ev. lia.
  Qed.
  Lemma iadds_ok n x : n <= x -> forall xs ws h s z, Forall2 (fun x w => nth_error h x = Some w) xs ws -> ~ In x xs ->
    nth_error h x = Some s -> sums s ws = Ok z ->
    exists h3, h_iadds x xs h = Ok h3 /\ kept_but x h h3 /\ nth_error h3 x = Some z.
  Proof.
    intros Hn. induction xs as [|x' xs IH]; intros ws h s z HF Hx Es Ez; inversion HF as [|? w ? ws' Ew HF']; subst; cbn in Ez |- *.
    - injection Ez as <-. exists h. repeat split; [|exact Es]. now intros i k.
    - destruct (miadd s w) as [s'|] eqn:Em; [|discriminate]. cbn in Ez.
      destruct (h_iadd_ok x x' h s w s' Es Ew Em) as (E1 & E2 & K1 & _). rewrite E1. cbn.
      assert (Hx2 : ~ In x xs) by (intros Hi; apply Hx; now right).
      assert (HF2 : Forall2 (fun i w => nth_error (set_nth x s' h) i = Some w) xs ws').
      { clear -HF' K1 Hx2. induction HF'; constructor.
        - apply K1; [|assumption]. intros ->. apply Hx2. now left.
        - apply IHHF'. intros Hi. apply Hx2. now right. }
      destruct (IH ws' _ s' z HF2 Hx2 E2 Ez) as (h3 & E3 & K3 & E4). exists h3. rewrite E3.
      split; [reflexivity|]. split; [now apply (kept_but_trans x _ (set_nth x s' h))|exact E4].
  Qed.
  Lemma tuplify_fresh_ok l f0 g0 ls fs gs : acts_fresh l f0 g0 -> Forall2 (fun l fg => acts_fresh l (fst fg) (snd fg)) ls (combine fs gs) ->
    length gs = length fs -> forall h a m, nth_error h a = Some m ->
    exists ys b h', h_tuplify (l :: ls) a h = Ok (ys, b, h') /\ kept h h' /\ Forall2 (fun y f => nth_error h' y = Some (f m)) ys (f0 :: fs) /\
    forall h2 d0 m0 ds dms w, kept h' h2 -> nth_error h2 d0 = Some m0 -> Forall2 (fun d dm => nth_error h2 d = Some dm) ds dms -> length ds = length gs ->
    sums (g0 m m0) (map (fun p => fst p m (snd p)) (combine gs dms)) = Ok w ->
    exists x h3, b (d0 :: ds) h2 = Ok (x, h3) /\ kept h2 h3 /\ nth_error h3 x = Some w.
  Proof.
    intros H0 HF HL h a m Ea.
    destruct (tup_loop_ok a m (l :: ls) (f0 :: fs) (g0 :: gs) ltac:(constructor; assumption) ltac:(cbn; now rewrite HL) h Ea) as (qs & h' & Eq & K & F1 & F2).
    unfold h_tuplify. rewrite Eq. cbn [bind fst snd]. eexists _, _, _. split; [reflexivity|]. split; [exact K|].
    split. { clear -F1. induction F1; cbn; constructor; assumption. }
    intros h2 d0 m0 ds dms w K2 E0 ED HLd Ew.
    assert (FC : Forall2 (fun b v => cb_fresh b v h') (map snd qs) (map (fun g => g m) (g0 :: gs))).
    { clear -F2. induction F2; cbn; constructor; assumption. }
    assert (HLq : length (map snd qs) = S (length gs)).
    { rewrite map_length. clear -F2. remember (g0 :: gs) as G eqn:EG. replace (S (length gs)) with (length G) by now rewrite EG.
      clear EG. induction F2; cbn; congruence. }
    destruct (tup_calls_ok h' _ _ FC (d0 :: ds) (m0 :: dms) h2 K2 ltac:(constructor; assumption) ltac:(cbn [length]; congruence))
      as (xs & h3 & E3 & K3 & L3 & F3 & G3 & N3).
    unfold h_tup_back. rewrite E3. cbn [bind fst snd]. cbn [map combine fst snd] in F3.
    inversion F3 as [|x ? xs' ? Ex FX]; subst. apply Forall_cons_iff in G3 as [Hx _]. apply NoDup_cons_iff in N3 as [Nx _].
    assert (Ew2 : sums (g0 m m0) (map (fun p => fst p (snd p)) (combine (map (fun g => g m) gs) dms)) = Ok w).
    { rewrite <- Ew. f_equal. clear. revert dms. induction gs as [|g gs IH]; intros [|dm dms]; cbn; [reflexivity..|]. now rewrite IH. }
    destruct (iadds_ok (length h2) x Hx xs' _ h3 _ w FX Nx Ex Ew2) as (h4 & E4 & K4 & Ez).
    rewrite E4. cbn. exists x, h4. repeat split; [|exact Ez]. intros i k Ei.
    apply K4; [pose proof (nth_some_lt _ _ _ Ei); lia|]. now apply K3.
  Qed.
End Proofs.
