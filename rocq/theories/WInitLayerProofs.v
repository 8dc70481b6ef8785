(** Initialization of single layers: assertions, widths that do not fit, data that is ignored, and counterexamples. *)
From Coq Require Import Reals String Lia Lra.
From Verif Require Import Base BaseFacts DictModel DictFacts NodeModel InitModel InitSpec InitProofs InitFrameProofs InitChainProofs WInitModel WInitSpec WInitProofs WInitShapeProofs WInitWrapProofs NumR ActSpec.
Set Default Goal Selector "!".
Local Open Scope string_scope.
Local Open Scope nat_scope.

Section Layers.
  Context {T : Type} `{Num T} `{Trans T}.
  Notation act := (act (T := T)).
  Notation inode := (inode (T := T)).
  Notation ist := (ist (T := T)).
  Notation sub := (sub (T := T)).
  Variable draw : nat -> list Z -> result (arr T).
  Variable to_int : T -> Z.
  Variable conv : conversion -> value T -> result (value T).
  Variable fwd : list inode -> wnet -> value T -> result (value T).
  Notation winit := (winitialize draw to_int conv fwd).

  (** ** The assertion in the LSTM *)
  Definition calm {A} (m : act A) : Prop := forall s s', m s = (s', Err AssertionError) -> exists n sh, draw n sh = Err AssertionError.
  Lemma seqa_err {A B} (m : act A) (k : A -> act B) s s' e : seqa m k s = (s', Err e) -> m s = (s', Err e) \/ exists s1 x, m s = (s1, Ok x) /\ k x s1 = (s', Err e).
  Proof. unfold seqa. destruct (m s) as [s1 [x|e']]; [eauto|]. intros [= <- <-]. now left. Qed.
  Lemma calm_seqa {A B} (m : act A) (k : A -> act B) : calm m -> (forall x, calm (k x)) -> calm (seqa m k).
  Proof. intros Hm Hk s s' E. apply seqa_err in E as [E|(s1 & x & _ & E)]; [exact (Hm _ _ E)|exact (Hk _ _ _ E)]. Qed.
  Lemma calm_lift {A} (r : result A) : r <> Err AssertionError -> calm (lift r).
  Proof. intros Hr s s' E. injection E as _ E. now elim Hr. Qed.
  Lemma calm_get_dim a name : calm (node_get_dim a name).
  Proof.
    intros s s' E. unfold node_get_dim, seqa, self, lift, get_dim in E. destruct (nth_error (i_heap s) a) as [n|]; [|discriminate].
    destruct (dget name (n_dims n)) as [[v|]|]; discriminate.
  Qed.
  Lemma calm_set_dim a name v : calm (node_set_dim a name v).
  Proof.
    intros s s' E. rewrite set_dim_run in E. destruct (nth_error (i_heap s) a) as [n|]; [|discriminate]. injection E as _ E.
    unfold set_dim in E. destruct (dget name (n_dims n)) as [o|]; [|discriminate].
    match type of E with context [if ?b then _ else _] => destruct b end; discriminate.
  Qed.
  Lemma width_calm : forall v : value T, get_width to_int v <> Err AssertionError.
  Proof.
    fix IH 1. intros [x|v|m|m w l|w d a b c|l|l]; cbn; try discriminate.
    - destruct v; discriminate.
    - destruct l as [|x l]; [discriminate|]. apply IH.
    - destruct l as [|x l]; [discriminate|]. apply IH.
  Qed.
  Lemma calm_width X a name : calm (with_width to_int X (node_set_dim a name)).
  Proof. destruct X as [x|]; cbn; [apply calm_seqa; [apply calm_lift, width_calm|intros; apply calm_set_dim]|apply calm_lift; discriminate]. Qed.
  Lemma calm_draw_all shs : calm (draw_all draw shs).
  Proof. intros s s' E. exact (draw_all_err _ _ _ _ _ E). Qed.
  Hypothesis HD : shape_ok draw.
  Lemma lstm_calm a X Y s s' : lstm_init draw to_int a X Y s = (s', Err AssertionError) -> exists n sh, draw n sh = Err AssertionError.
  Proof.
    change (calm (lstm_init draw to_int a X Y)) || idtac. revert s s'. change (calm (lstm_init draw to_int a X Y)).
    unfold lstm_init. do 2 (apply calm_seqa; [apply calm_width|intros _]). do 2 (apply calm_seqa; [apply calm_get_dim|intros ?]).
    apply calm_seqa; [apply calm_lift; match goal with |- context [(?b =? 0)%Z] => destruct (b =? 0)%Z; discriminate end|intros nH].
    apply calm_seqa; [apply calm_get_dim|intros nI]. apply calm_seqa; [apply calm_get_dim|intros depth]. apply calm_seqa; [apply calm_get_dim|intros dirs].
    intros s s' E. apply seqa_err in E as [E|(s1 & params & E1 & E)]; [exact (calm_draw_all _ _ _ E)|].
    apply (draw_all_run draw HD) in E1 as [F _]. destruct params as [|q qs]; [apply seqa_err in E as [E|(s2 & all & E2 & E)]; discriminate|].
    apply seqa_err in E as [E|(s2 & all & E2 & E)]; [discriminate|]. assert (Eall : all = concat (map a_data (q :: qs))) by (unfold lift in E2; congruence). clear E2.
    destruct (lstm_pieces (q :: qs) depth dirs nH nI ltac:(discriminate) F) as [Hl _]. rewrite <- Eall in Hl.
    apply seqa_err in E as [E|(s3 & [] & E3 & E)]; [rewrite set_param_run in E; destruct (nth_error (i_heap s2) a); discriminate|].
    rewrite set_param_run in E3. destruct (nth_error (i_heap s2) a) as [n|] eqn:En; [|discriminate].
    assert (En3 : nth_error (i_heap s3) a = Some (set_param n "LSTM" (Some (mkArr [length all] all)))).
    { injection E3 as <-. cbn [i_heap]. apply nth_error_set_nth_eq. apply nth_error_Some. congruence. }
    clear E3. apply seqa_err in E as [E|(s4 & HC0 & E4 & E)].
    { unfold lift, alloc_zeros in E. destruct (forallb _ _); discriminate. }
    injection E4 as <- _. apply seqa_err in E as [E|(s5 & [] & E5 & E)]; [rewrite set_param_run in E; destruct (nth_error (i_heap s3) a); discriminate|].
    rewrite set_param_run, En3 in E5. apply seqa_err in E as [E|(s6 & m & E6 & E)]; [unfold self in E; destruct (nth_error (i_heap s5) a); discriminate|].
    assert (Em : m = set_param (set_param n "LSTM" (Some (mkArr [length all] all))) "HC0" (Some HC0)).
    { injection E5 as <-. unfold self in E6. cbn [i_heap] in E6. rewrite nth_error_set_nth_eq in E6 by (apply nth_error_Some; rewrite En3; discriminate). injection E6 as _ E6. now symmetry. }
    apply seqa_err in E as [E|(s7 & P & E7 & E)].
    { unfold lift, get_param in E. destruct (dget "LSTM" (n_has m)); [|discriminate]. destruct (dget "LSTM" (n_params m)); discriminate. }
    assert (EP : P = mkArr [length all] all).
    { subst m. unfold lift, get_param in E7. cbn -[dset dget] in E7. injection E7 as _ E7. rewrite !dget_dset_other in E7 by discriminate. rewrite !dget_dset_same in E7. rewrite dget_dset_other in E7 by discriminate. rewrite dget_dset_same in E7. injection E7 as E7. now symmetry. }
    subst P. cbn [a_data] in E. rewrite Hl, Z.eqb_refl in E. discriminate.
  Qed.

  (** ** Widths that do not fit *)
  Lemma set_dim_clash a name v w (s : ist) : dim_at s a name = Some v -> v <> w -> node_set_dim a name w s = (s, Err ValueError).
  Proof.
    intros D Hv. rewrite set_dim_run. unfold dim_at, dim_of in D. destruct (nth_error (i_heap s) a) as [n|] eqn:En; [|discriminate].
    unfold set_dim. destruct (dget name (n_dims n)) as [o|] eqn:Eo; [|discriminate]. subst o. apply Z.eqb_neq in Hv. rewrite Hv. cbn.
    f_equal. destruct s as [h d]. cbn in *. f_equal. clear -En. revert a En. induction h as [|m h IH]; intros [|a] En; cbn in *; try discriminate; [now injection En as ->|]. now rewrite IH.
  Qed.
  Lemma dense_clash a x Y (s : ist) v w n : nth_error (i_heap s) a = Some n -> n_func n <= 3 \/ n_func n = 4 \/ n_func n = 11 \/ n_func n = 17 ->
    dim_at s a "nI" = Some v -> get_width to_int x = Ok w -> v <> w -> winit (WLeaf a) (Some x) Y s = (s, Err ValueError).
  Proof.
    intros En Hk D Ew Hv. cbn [winitialize].
    assert (R : forall k : unit -> act unit, seqa (with_width to_int (Some x) (node_set_dim a "nI")) k s = (s, Err ValueError)).
    { intros k. unfold seqa, with_width, lift. rewrite Ew. unfold seqa. now rewrite (set_dim_clash a "nI" v w s D Hv). }
    unfold wleaf_init, seqa at 1, self. rewrite En.
    assert (O : n_func n <= 3 \/ n_func n = 4 -> leaf_init draw to_int a (Some x) Y s = (s, Err ValueError)).
    { intros Ho. unfold leaf_init, seqa at 1, self. rewrite En. revert Ho. generalize (n_func n) as k. intros k Ho.
      do 3 (destruct k as [|k]; [apply R|]). destruct k as [|k]; [apply R|]. destruct k as [|k]; [|lia].
      unfold layernorm_init. unfold seqa at 1, seqa at 1, lift. rewrite Ew. unfold seqa at 1. now rewrite (set_dim_clash a "nI" v w s D Hv). }
    revert Hk O. generalize (n_func n) as k. intros k Hk O. do 10 (destruct k as [|k]; [apply O; lia|]). destruct k as [|k]; [lia|].
    destruct k as [|k]; [apply R|]. do 5 (destruct k as [|k]; [lia|]). destruct k as [|k]; [apply R|]. lia.
  Qed.

  (** ** Data that is ignored *)
  Lemma multisoftmax_ignores a X Y (s : ist) n : nth_error (i_heap s) a = Some n -> n_func n = 11 -> winit (WLeaf a) X Y s = winit (WLeaf a) X None s.
  Proof. intros En Ek. cbn [winitialize]. unfold wleaf_init, seqa, self. rewrite En, Ek. reflexivity. Qed.
  Lemma hashembed_ignores a X Y (s : ist) n : nth_error (i_heap s) a = Some n -> n_func n = 13 ->
    winit (WLeaf a) X Y s = winit (WLeaf a) None None s /\ forall name, dim_at (fst (winit (WLeaf a) X Y s)) a name = dim_at s a name.
  Proof.
    intros En Ek. cbn [winitialize]. unfold wleaf_init, seqa, self. rewrite En, Ek. split; [reflexivity|].
    intros name. unfold hashembed_init, node_get_dim, seqa, self, lift, initializer. rewrite En.
    destruct (get_dim n "nV"); [|reflexivity]. rewrite En. destruct (get_dim n "nO"); [|reflexivity]. destruct (draw _ _); [|reflexivity].
    rewrite set_param_run. cbn [i_heap]. rewrite En. unfold dim_at. cbn [fst i_heap]. rewrite nth_error_set_nth_eq by (apply nth_error_Some; congruence). now rewrite En.
  Qed.

  (** ** Wrappers *)
  Lemma pass_run c cX cY a p X Y X' Y' s : In (c, (cX, cY)) [(KList, (CList, CList)); (KRagged, (CRagged, CRagged)); (KPadded, (CPadded, CPadded)); (KFlatten, (CFlatten, CHstack)); (KFlatten2, (CFlatten2, CHstack))] ->
    conv_opt (conv cX) X = Ok X' -> conv_opt (conv cY) Y = Ok Y' -> winit (WNode c a [p]) X Y s = winit p X' Y' s.
  Proof.
    intros Hc EX EY. assert (R : pass_init conv (map (fun q => mkSub (waddr q) (winit q) (wpredict fwd q)) [p]) cX cY X Y s = winit p X' Y' s).
    { unfold pass_init, at_layer. cbn [map nth_error]. unfold seqa at 1. rewrite if_some_run, EX. unfold seqa at 1. rewrite if_some_run, EY. reflexivity. }
    cbn in Hc. repeat (destruct Hc as [[= <- <- <-]|Hc]; [exact R|]). destruct Hc.
  Qed.
  Lemma bidirectional_run a p q X Y Y1 Y2 s :
    Y = None /\ Y1 = None /\ Y2 = None \/ (exists y y1 y2, Y = Some y /\ split_padded y = Ok (y1, y2) /\ Y1 = Some y1 /\ Y2 = Some y2) ->
    winit (WNode KBidirectional a [p; q]) X Y s =
      match winit p X Y1 s with (s1, Ok tt) => winit q X Y2 s1 | other => other end.
  Proof.
    intros HY. cbn [winitialize node_init]. unfold bidirectional_init, at_layer. cbn [map nth_error].
    assert (E : if_some split_padded Y s = (s, Ok (match Y1, Y2 with Some y1, Some y2 => Some (y1, y2) | _, _ => None end))).
    { destruct HY as [(-> & -> & ->)|(y & y1 & y2 & -> & E & -> & ->)]; [reflexivity|]. unfold if_some, seqa, lift. now rewrite E. }
    unfold seqa at 1. rewrite E. assert (Es : option_map fst (match Y1, Y2 with Some y1, Some y2 => Some (y1, y2) | _, _ => None end) = Y1 /\
      option_map snd (match Y1, Y2 with Some y1, Some y2 => Some (y1, y2) | _, _ => None end) = Y2)
      by (destruct HY as [(_ & -> & ->)|(y & y1 & y2 & _ & _ & -> & ->)]; split; reflexivity).
    destruct Es as [-> ->]. unfold seqa at 1. cbn [s_init]. destruct (winit p X Y1 s) as [s1 [[]|e]]; reflexivity.
  Qed.
  Lemma map_list_run a p X Y X' Y' s : head_item X X' -> head_item Y Y' -> winit (WNode KMapList a [p]) X Y s = winit p X' Y' s.
  Proof.
    intros HX HY. cbn [winitialize node_init]. unfold map_list_init, at_layer. cbn [map nth_error]. unfold seqa at 1, lift.
    assert (R : forall Z Z', head_item Z Z' -> first_item (T := T) Z = Ok Z') by (intros Z Z' []; reflexivity).
    rewrite (R _ _ HX). unfold seqa. rewrite (R _ _ HY). reflexivity.
  Qed.
  Lemma same_run c a p X Y s : c = KResizable \/ c = KCpu -> winit (WNode c a [p]) X Y s = winit p X Y s.
  Proof. intros [-> | ->]; reflexivity. Qed.
  Lemma reshape_twice a p s s' : winit (WNode KReshape a [p]) None None s = (s', Ok tt) ->
    exists s1 s2, winit p None None s = (s1, Ok tt) /\ winit p None None s1 = (s2, Ok tt) /\ i_draws s' = i_draws s2.
  Proof.
    cbn. unfold reshape_init, at_layer. cbn. intros E. apply seqa_inv in E as (s1 & [] & E1 & E2). unfold seqa at 1 in E2. cbn in E2. unfold seqa at 1 in E2. cbn in E2.
    apply seqa_inv in E2 as (s2 & [] & E2 & E3). exists s1, s2. split; [exact E1|split; [exact E2|]].
    apply seqa_inv in E3 as (s3 & [] & E3 & E4). destruct (quiet_copy draw a "nI" _ _ _ _ E3) as [D3 _]. destruct (quiet_copy draw a "nO" _ _ _ _ E4) as [D4 _]. unfold none in *. lia.
  Qed.
  Lemma siamese_skips a p q Y s s' r b : winit (WNode KSiamese a [p; q]) None Y s = (s', r) -> ~ In b (a :: waddrs q) -> nth_error (i_heap s') b = nth_error (i_heap s) b.
  Proof.
    intros E Hb. set (Sc := fun b => In b (a :: waddrs q)).
    assert (K : keeps Sc (winit (WNode KSiamese a [p; q]) None Y)).
    { cbn [winitialize map node_init]. unfold siamese_init, at_layer. cbn [nth_error]. assert (Sa : Sc a) by now left.
      apply keeps_seqa; [apply keeps_pure|intros X]. cbn [s_init s_addr].
      apply keeps_seqa; [apply (w_keeps draw to_int conv fwd Sc q); intros c Hc; now right|intros _].
      apply keeps_seqa; [apply keeps_get_dim|intros nI]. apply keeps_seqa; [now apply keeps_set_dim|intros _].
      apply keeps_seqa; [apply keeps_get_dim|intros nO]. now apply keeps_set_dim. }
    specialize (K s b Hb). now rewrite E in K.
  Qed.
  Lemma siamese_clash a p q x0 x1 Y (s : ist) v w : dim_at s (waddr p) "nI" = Some v -> get_width to_int x1 = Ok w -> v <> w ->
    winit (WNode KSiamese a [p; q]) (Some (PyTup [x0; x1])) Y s = (s, Err ValueError).
  Proof.
    intros D Ew Hv. cbn [winitialize map node_init]. unfold siamese_init, at_layer. cbn [nth_error item s_addr]. unfold seqa, lift. rewrite Ew.
    now rewrite (set_dim_clash _ _ _ _ s D Hv).
  Qed.
  Lemma siamese_one a p q x0 Y (s : ist) : winit (WNode KSiamese a [p; q]) (Some (PyTup [x0])) Y s = (s, Err IndexError).
  Proof. cbn [winitialize map node_init]. unfold siamese_init, at_layer. cbn [nth_error item]. reflexivity. Qed.
  Lemma multisoftmax_width id nOs nI : dget "nO" (n_dims (new_multisoftmax (T := T) id nOs nI)) = Some (Some (fold_left Z.add nOs 0%Z)).
  Proof.
    cbn. do 2 f_equal. symmetry. apply fold_symmetric; intros; lia.
  Qed.
  Lemma siamese_needs id l1 l2 (n1 n2 : inode) : has_dim n1 "nI" <> Some true -> exists e, new_siamese id l1 l2 n1 n2 = Err e.
  Proof. unfold has_dim, new_siamese, get_dim. destruct (dget "nI" (n_dims n1)) as [[v|]|]; cbn; [congruence|eauto|eauto]. Qed.
  Lemma bidirectional_halves (v v1 v2 : value T) : split_padded v = Ok (v1, v2) -> v1 = v2.
  Proof. unfold split_padded. destruct v; try discriminate. intros [= <- <-]. reflexivity. Qed.

  (** ** Parameters that are not drawn *)
  Lemma param_set a name (v : arr T) (s s' : ist) : node_set_param a name v s = (s', Ok tt) -> param_at s' a name = Some v /\ forall other, other <> name -> param_at s' a other = param_at s a other.
  Proof.
    rewrite set_param_run. destruct (nth_error (i_heap s) a) as [n|] eqn:En; [|discriminate]. intros E. injection E as <-. unfold param_at. cbn [i_heap].
    rewrite nth_error_set_nth_eq by (apply nth_error_Some; congruence). rewrite En. cbn [set_param with_params n_params]. split; [apply dget_dset_same|]. intros other Ho. apply dget_dset_other. exact Ho.
  Qed.
  Lemma zeros_run shape (v : arr T) (s s' : ist) : lift (alloc_zeros (T := T) shape) s = (s', Ok v) -> s' = s /\ filled_with (nZ 0) (Some v).
  Proof.
    unfold lift, alloc_zeros. destruct (forallb _ shape); [|discriminate]. intros E. injection E as <- <-. split; [reflexivity|]. eexists. split; [reflexivity|]. apply Forall_forall. intros x Hx. apply repeat_spec in Hx. now symmetry.
  Qed.
  Lemma constants a X Y (s s' : ist) n : nth_error (i_heap s) a = Some n -> winit (WLeaf a) X Y s = (s', Ok tt) ->
    (n_func n = 14 -> filled_with (nZ 1) (param_at s' a "W")) /\
    (n_func n = 11 \/ n_func n = 16 -> filled_with (nZ 0) (param_at s' a "W") /\ filled_with (nZ 0) (param_at s' a "b")).
  Proof.
    intros En E. cbn [winitialize] in E. unfold wleaf_init, seqa at 1, self in E. rewrite En in E.
    assert (TWO : forall sh1 sh2 s0, seqa (lift (alloc_zeros sh1)) (fun W => seqa (node_set_param a "W" W) (fun _ => seqa (lift (alloc_zeros sh2)) (fun b => node_set_param a "b" b))) s0 = (s', Ok tt) ->
      filled_with (nZ 0) (param_at s' a "W") /\ filled_with (nZ 0) (param_at s' a "b")).
    { intros sh1 sh2 s0 E0. apply seqa_inv in E0 as (s1 & W & E1 & E0). apply zeros_run in E1 as [-> CW]. apply seqa_inv in E0 as (s2 & [] & E2 & E0). apply seqa_inv in E0 as (s3 & b & E3 & E0). apply zeros_run in E3 as [-> Cb].
      apply param_set in E2 as [P1 _]. apply param_set in E0 as [P2 P3]. rewrite (P3 "W"%string) by discriminate. rewrite P1, P2. split; assumption. }
    split.
    - intros Ek. rewrite Ek in E. unfold cauchy_init in E. apply seqa_inv in E as (s1 & [] & _ & E). apply seqa_inv in E as (s2 & nI & _ & E). apply seqa_inv in E as (s3 & W & E1 & E). unfold lift, filled in E1. destruct (nI <? 0)%Z; [discriminate|]. injection E1 as <- <-.
      apply param_set in E as [-> _]. eexists. split; [reflexivity|]. apply Forall_forall. intros x Hx. apply repeat_spec in Hx. now symmetry.
    - intros [Ek|Ek]; rewrite Ek in E.
      + unfold multisoftmax_init in E. apply seqa_inv in E as (s1 & [] & _ & E). apply seqa_inv in E as (s2 & nO & _ & E). apply seqa_inv in E as (s3 & nI & _ & E). exact (TWO _ _ _ E).
      + unfold sparselinear_init in E. apply seqa_inv in E as (s1 & [] & _ & E). apply seqa_inv in E as (s2 & nO & _ & E). apply seqa_inv in E as (s3 & nI & _ & E). exact (TWO _ _ _ E).
  Qed.
  Lemma getitem_run a p i X Y X' Y' s : item_of i X X' -> item_of i Y Y' -> winit (WNode (KGetitem i) a [p]) X Y s = winit p X' Y' s.
  Proof.
    intros HX HY. cbn [winitialize node_init]. unfold getitem_init, at_layer. cbn [map nth_error].
    assert (R : forall Z Z', item_of i Z Z' -> forall (k : option (value T) -> act unit), seqa (if_some (fun X => item X i) Z) k s = k Z' s).
    { intros Z Z' [|l x E|l x E] k; [reflexivity| |]; unfold seqa at 1, if_some, seqa, lift, item; rewrite E; reflexivity. }
    rewrite (R _ _ HX). rewrite (R _ _ HY). reflexivity.
  Qed.
End Layers.

(** ** Counterexamples *)
Local Notation wrun := (winitialize (T := R) zero_draw Int_part no_conv no_fwd).
Lemma add_of_wrapped : exists (s s' : ist (T := R)) e X, let p := WNode KAdd 0 [WNode KCpu 1 [WLeaf 2]; WNode KCpu 3 [WLeaf 4]] in
  wrun p (Some X) None s = (s', Err e) /\ nth_error (i_heap s) 1 = option_map (new_wrapper 7 "with_cpu(layernorm)" 2) (nth_error (i_heap s) 2) /\
  nth_error (i_heap s) 2 = Some (new_layernorm 1 None) /\ dim_at s' 2 "nO" = Some 1%Z /\ dim_at s' 4 "nO" = Some 1%Z /\ dim_at s' 1 "nO" = None /\ dim_at s' 3 "nO" = None.
Proof.
  exists (mkIst [fresh_node 9 "add" 9 [1; 3] [("nO", None); ("nI", None)] []; new_wrapper 7 "with_cpu(layernorm)" 2 (new_layernorm 1 None); new_layernorm 1 None;
                 new_wrapper 8 "with_cpu(layernorm)" 4 (new_layernorm 2 None); new_layernorm 2 None] 0).
  eexists. eexists. exists (Arr2 (mkM 1 [[1%R]])). cbv zeta. split; [calc|]. repeat split; calc.
Qed.
Lemma sigmoid_takes : exists (s s' : ist (T := R)) m, wf_mat m /\ dim_at s 0 "nI" = Some 3%Z /\ m_cols m = 1 /\ wrun (WLeaf 0) (Some (Arr2 m)) None s = (s', Ok tt) /\
  nth_error (i_heap s) 0 = Some (new_sigmoid 1 (Some 1%Z) (Some 3%Z)) /\ dim_at s' 0 "nI" = Some 3%Z.
Proof.
  exists (mkIst [new_sigmoid 1 (Some 1%Z) (Some 3%Z)] 0). eexists. exists (mkM 1 [[1%R]]). split; [repeat constructor|]. split; [calc|]. split; [reflexivity|]. split; [calc|]. split; calc.
Qed.
Lemma lstm_odd : exists (s s' : ist (T := R)) n hc, new_lstm 1 (Some 3%Z) (Some 1%Z) true 1%Z = Ok n /\ nth_error (i_heap s) 0 = Some n /\
  wrun (WLeaf 0) None None s = (s', Ok tt) /\ dim_at s' 0 "nO" = Some 3%Z /\
  match nth_error (i_heap s') 0 with Some n' => dget "HC0" (n_params n') = Some hc /\ a_shape hc = [2; 1; 2; 1] | None => False end.
Proof.
  eexists (mkIst [_] 0). eexists. eexists. eexists. split; [reflexivity|]. split; [reflexivity|]. split; [calc|]. split; [calc|]. split; calc.
Qed.
Lemma key_unset : exists (s s1 s2 : ist (T := R)) e X Y, let p := WNode KAttention 0 [WLeaf 1] in
  nth_error (i_heap s) 0 = Some (new_attention2 2 None 1) /\ nth_error (i_heap s) 1 = Some (new_linear 1 None None) /\
  wrun p (Some X) None s = (s1, Err e) /\ wrun p (Some X) (Some Y) s = (s2, Ok tt) /\ dim_at s2 0 "nO" = Some 2%Z /\ dim_at s2 1 "nI" = Some 2%Z /\ dim_at s2 1 "nO" = Some 1%Z.
Proof.
  exists (mkIst [new_attention2 2 None 1; new_linear 1 None None] 0). eexists. eexists. eexists. exists (Rag (mkM 2 [[1; 1]%R]) 2 [1%Z]), (Rag (mkM 1 [[1%R]]) 1 [1%Z]). cbv zeta.
  split; [reflexivity|]. split; [reflexivity|]. split; [calc|]. split; [calc|]. repeat split; calc.
Qed.

Lemma lstm_built {T} id nO nI bi depth :
  match new_lstm (T := T) id nO nI bi depth with
  | Ok n => depth <> 0%Z /\ dget "dirs" (n_dims n) = Some (Some (if bi then 2 else 1)%Z) /\ dget "depth" (n_dims n) = Some (Some depth) /\
    dget "nO" (n_dims n) = Some nO /\ dget "nI" (n_dims n) = Some nI
  | Err e => depth = 0%Z /\ e = ValueError
  end.
Proof. unfold new_lstm. destruct (Z.eqb_spec depth 0); [now split|]. repeat split; assumption. Qed.
