(** Resizable layers. *)
From Coq Require Import String Reals Lra Lia.
From Verif Require Import NumR BaseFacts MatSpec MatProofs CombProofs MkProofs LinearProofs DenseProofs DictFacts.
From Verif Require Import ResizeModel ResizeSpec.
Set Default Goal Selector "!".

Section Generic.
  Context {T : Type} `{Num T} {A : Type}.
  Lemma bcast_same (m : mat T) : rows_by (length (m_rows m)) (m_cols m) m ->
    map (fun i => map (fun j => bget m i j) (seq 0 (m_cols m))) (seq 0 (length (m_rows m))) = m_rows m.
  Proof.
    intros (_ & _ & F). apply nth_ext with (d := []) (d' := []); [now rewrite map_length, seq_length|]. intros i Hi. rewrite map_length, seq_length in Hi.
    rewrite (nth_indep _ [] (map (fun j => bget m 0 j) (seq 0 (m_cols m)))) by (now rewrite map_length, seq_length). rewrite (map_nth (fun i => map (fun j => bget m i j) (seq 0 (m_cols m))) (seq 0 (length (m_rows m))) 0 i), seq_nth by exact Hi. cbn [Nat.add].
    assert (Li : length (nth i (m_rows m) []) = m_cols m) by (rewrite Forall_forall in F; apply F, nth_In, Hi).
    apply nth_ext with (d := nZ 0) (d' := nZ 0); [rewrite map_length, seq_length; congruence|]. intros j Hj. rewrite map_length, seq_length in Hj.
    rewrite (nth_indep _ (nZ 0) (bget m i 0)) by (now rewrite map_length, seq_length). rewrite (map_nth (fun j => bget m i j) (seq 0 (m_cols m)) 0 j), seq_nth by exact Hj. cbn [Nat.add]. unfold bget.
    destruct (Nat.eqb_spec (m_cols m) 1) as [E1|E1]; destruct (Nat.eqb_spec (length (m_rows m)) 1) as [E2|E2]; try (replace j with 0 by lia); try (replace i with 0 by lia); reflexivity.
  Qed.
  Lemma overwrite_fits (large small : parr T) filler : fits small large -> overwrite large small filler = Ok (grown small large filler).
  Proof.
    destruct small as [v|m], large as [w|n]; cbn [fits]; try contradiction.
    - intros L. cbn [overwrite plen to_shape1 grown]. rewrite Nat.min_l by exact L. now rewrite Nat.eqb_refl.
    - intros [Hm L]. pose proof Hm as (C & _ & F). unfold overwrite, to_shape2, grown, plen; cbv zeta. rewrite Nat.min_l by exact L. rewrite Nat.eqb_refl, C, Nat.eqb_refl. cbn [andb orb bind]. rewrite <- C in *. now rewrite bcast_same.
  Qed.
  Lemma get_set_same (n : pnode T A) nm p : get_param (set_param n nm (Some p)) nm = Ok p.
  Proof. unfold get_param, set_param. cbn. now rewrite !dget_dset_same. Qed.
  Lemma get_set_other (n : pnode T A) nm nm' p : nm <> nm' -> get_param (set_param n nm (Some p)) nm' = get_param n nm'.
  Proof. intros Hne. unfold get_param, set_param. cbn. rewrite !dget_dset_other by congruence. reflexivity. Qed.
  Lemma resize_all_ok (layer : pnode T A) fd : forall names n1, NoDup names ->
    (forall nm, In nm names -> has_param layer nm = Some true -> exists p q, get_param layer nm = Ok p /\ get_param n1 nm = Ok q /\ fits p q) ->
    exists n2, resize_all names fd layer n1 = Ok n2 /\ n_dims n2 = n_dims n1 /\
      (forall nm p q, In nm names -> has_param layer nm = Some true -> get_param layer nm = Ok p -> get_param n1 nm = Ok q -> get_param n2 nm = Ok (grown p q (filler_of fd nm))) /\
      (forall nm, ~ (In nm names /\ has_param layer nm = Some true) -> get_param n2 nm = get_param n1 nm).
  Proof.
    induction names as [|nm names IH]; intros n1 ND Hp; [exists n1; split; [reflexivity|]; split; [reflexivity|]; split; [intros ? ? ? []|reflexivity]|]. apply NoDup_cons_iff in ND as [Nin ND]. cbn [resize_all].
    destruct (has_param layer nm) as [[|]|] eqn:Eh.
    - destruct (Hp nm (or_introl eq_refl) Eh) as (p & q & Gp & Gq & F). unfold resize_parameter. rewrite Gq, Gp. cbn [bind]. rewrite (overwrite_fits q p _ F). cbn [bind]. fold (filler_of fd nm).
      destruct (IH (set_param n1 nm (Some (grown p q (filler_of fd nm)))) ND) as (n2 & E & D & G1 & G2).
      { intros nm' Hin Hh. destruct (Hp nm' (or_intror Hin) Hh) as (p' & q' & Gp' & Gq' & F'). exists p', q'. split; [exact Gp'|]. split; [|exact F']. rewrite get_set_other; [exact Gq'|]. intros ->. contradiction. }
      exists n2. split; [exact E|]. split; [exact D|]. split.
      + intros nm' p' q' [<-|Hin] Hh Gp' Gq'.
        * rewrite G2 by (intros [Hin _]; contradiction). rewrite get_set_same. congruence.
        * apply G1; try assumption. rewrite get_set_other; [exact Gq'|]. intros ->. contradiction.
      + intros nm' Hn. rewrite G2 by (intros [Hin Hh]; apply Hn; split; [now right|exact Hh]). apply get_set_other. intros ->. apply Hn. split; [now left|exact Eh].
    - destruct (IH n1 ND) as (n2 & E & D & G1 & G2); [intros nm' Hin Hh; apply Hp; [now right|exact Hh]|]. exists n2. split; [exact E|]. split; [exact D|]. split.
      + intros nm' p' q' [<-|Hin] Hh Gp' Gq'; [congruence|now apply G1].
      + intros nm' Hn. apply G2. intros [Hin Hh]. apply Hn. split; [now right|exact Hh].
    - destruct (IH n1 ND) as (n2 & E & D & G1 & G2); [intros nm' Hin Hh; apply Hp; [now right|exact Hh]|]. exists n2. split; [exact E|]. split; [exact D|]. split.
      + intros nm' p' q' [<-|Hin] Hh Gp' Gq'; [congruence|now apply G1].
      + intros nm' Hn. apply G2. intros [Hin Hh]. apply Hn. split; [now right|exact Hh].
  Qed.
  Lemma has_param_in (layer : pnode T A) nm : has_param layer nm = Some true -> In nm (param_names layer).
  Proof. unfold has_param. destruct (dget nm (n_has layer)) as [b|] eqn:E; [|discriminate]. intros _. now apply dget_some_key in E. Qed.
  Lemma resize_params init new_id (layer : pnode T A) new_nO fd nO n1 : plain layer -> get_dim layer "nO" = Ok nO -> new_nO <> nO -> has_dim layer "nI" <> None -> init (blank new_id layer new_nO) = Ok n1 -> NoDup (param_names layer) ->
    (forall nm, has_param layer nm = Some true -> exists p q, get_param layer nm = Ok p /\ get_param n1 nm = Ok q /\ fits p q) ->
    exists n2, resize_linear_weighted init new_id layer new_nO fd = (layer, Ok (Some n2)) /\ n_dims n2 = n_dims n1 /\
      (forall nm p q, has_param layer nm = Some true -> get_param layer nm = Ok p -> get_param n1 nm = Ok q -> get_param n2 nm = Ok (grown p q (filler_of fd nm))) /\
      (forall nm, has_param layer nm <> Some true -> get_param n2 nm = get_param n1 nm).
  Proof.
    intros (P1' & P2' & P3') Hd Hne Hi En ND Hp. unfold resize_linear_weighted. rewrite P1', P2', P3'. replace (has_dim layer "nO") with (Some true).
    2: { unfold has_dim, get_dim in *. destruct (dget "nO"%string (n_dims layer)) as [[v|]|]; [reflexivity|discriminate|discriminate]. }
    rewrite Hd. destruct (Z.eqb_spec new_nO nO); [contradiction|]. destruct (has_dim layer "nI") as [b|]; [|congruence].
    destruct (resize_all_ok layer fd (param_names layer) n1 ND) as (n2 & E & D & G1 & G2); [intros nm _; apply Hp|]. exists n2. rewrite En. cbn [bind]. rewrite E. cbn [bind]. split; [reflexivity|]. split; [exact D|]. split.
    - intros nm p q Hh. apply G1; [now apply has_param_in|exact Hh].
    - intros nm Hn. apply G2. intros [_ Hh]. contradiction.
  Qed.
  (** Same size, or dimensions not set yet *)
  Lemma resize_same init new_id (layer : pnode T A) nO fd : plain layer -> get_dim layer "nO" = Ok nO -> resize_linear_weighted init new_id layer nO fd = (layer, Ok None).
  Proof.
    intros (P1' & P2' & P3') Hd. unfold resize_linear_weighted. rewrite P1', P2', P3', Hd, Z.eqb_refl. unfold has_dim, get_dim in *. destruct (dget "nO"%string (n_dims layer)) as [[v|]|]; [reflexivity|discriminate|discriminate].
  Qed.
  Lemma resize_unset init new_id (layer : pnode T A) nO fd : plain layer -> has_dim layer "nO" = None ->
    exists l', resize_linear_weighted init new_id layer nO fd = (l', Ok None) /\ get_dim l' "nO" = Ok nO /\ n_params l' = n_params layer.
  Proof.
    intros (P1' & P2' & P3') Hd. unfold resize_linear_weighted. rewrite P1', P2', P3', Hd. unfold has_dim, set_dim in *. destruct (dget "nO"%string (n_dims layer)) as [[v|]|] eqn:E; try discriminate. cbn. eexists. split; [reflexivity|].
    unfold get_dim. cbn. rewrite dget_dset_same. split; reflexivity.
  Qed.
  Lemma resize_no_inputs init new_id (layer : pnode T A) nO new fd : plain layer -> get_dim layer "nO" = Ok nO -> has_dim layer "nI" = None -> forallb (fun p => negb (snd p)) (n_has layer) = true ->
    exists l', resize_linear_weighted init new_id layer new fd = (l', Ok None) /\ get_dim l' "nO" = Ok new.
  Proof.
    intros Pl Hd Hi Hf. destruct (Z.eq_dec new nO) as [->|Hne]; [exists layer; split; [now apply resize_same|exact Hd]|]. destruct Pl as (P1' & P2' & P3').
    assert (Ex : existsb (fun p => snd p) (n_has layer) = false) by (clear - Hf; induction (n_has layer) as [|[k b] l IH]; [reflexivity|]; cbn in *; destruct b; [discriminate|]; apply IH, Hf).
    unfold resize_linear_weighted. rewrite P1', P2', P3', Hd, Hi. replace (has_dim layer "nO") with (Some true).
    2: { unfold has_dim, get_dim in *. destruct (dget "nO"%string (n_dims layer)) as [[v|]|]; [reflexivity|discriminate|discriminate]. }
    destruct (Z.eqb_spec new nO); [contradiction|]. unfold set_dim. unfold get_dim in Hd. destruct (dget "nO"%string (n_dims layer)) as [[v|]|] eqn:E; try discriminate. rewrite Ex. cbn [negb orb andb]. rewrite Bool.andb_false_r. cbn [fst snd bind].
    eexists. split; [reflexivity|]. unfold get_dim. cbn. now rewrite dget_dset_same.
  Qed.
  Lemma resize_nested init new_id (layer : pnode T A) nO fd : ~ plain layer -> resize_linear_weighted init new_id layer nO fd = (layer, Err AssertionError).
  Proof.
    intros Hn. unfold resize_linear_weighted. destruct (n_layers layer) eqn:E1; [|reflexivity]. destruct (n_refs layer) eqn:E2; [|reflexivity]. destruct (n_shims layer) eqn:E3; [|reflexivity]. exfalso. apply Hn. repeat split; assumption.
  Qed.
  (** The container keeps its own dimension *)
  Lemma wrapper_dim init new_id fd nodes (model : pnode T A) new_nO nodes' model' r : resize_model init new_id fd nodes model new_nO = (nodes', model', r) -> n_dims model' = n_dims model.
  Proof.
    unfold resize_model. destruct (n_layers model) as [|l rest]; [intros E; congruence|]. destruct (nth_error nodes l) as [layer|]; [|intros E; congruence].
    destruct (snd (resize_linear_weighted init new_id layer new_nO fd)) as [[n|]|e]; intros E; [|congruence|congruence]. injection E as <- <- <-. reflexivity.
  Qed.
  Lemma model_layer init new_id fd nodes (model : pnode T A) l rest layer n new_nO layer' : n_layers model = l :: rest -> nth_error nodes l = Some layer -> resize_linear_weighted init new_id layer new_nO fd = (layer', Ok (Some n)) ->
    exists nodes' model' a, resize_model init new_id fd nodes model new_nO = (nodes', model', Ok tt) /\ n_layers model' = a :: rest /\ nth_error nodes' a = Some n.
  Proof.
    intros E1 E2 E3. unfold resize_model. rewrite E1, E2, E3. cbn [fst snd]. set (nodes1 := (firstn l nodes ++ layer' :: skipn (S l) nodes)%list). do 2 eexists. exists (length nodes1). split; [reflexivity|]. split; [reflexivity|].
    rewrite nth_error_app2, Nat.sub_diag; [reflexivity|lia].
  Qed.
End Generic.

(** ** Linear layers *)
Lemma affine_score nO nI W b X : rows_by nO nI W -> length b = nO -> input_of nI X -> affine X W b = Ok (by_row nO (score W b) X).
Proof.
  intros (CW & LW & FW) Lb HX. assert (HW : input_of nI W) by (split; [unfold wf_mat; rewrite CW; exact FW|exact CW]).
  transitivity (affine (mk (length (m_rows X)) nI (ent X)) (mk nO nI (ent W)) (vec nO (fun i => nth i b 0%R))).
  { f_equal; [now apply as_mk|rewrite <- LW; now apply as_mk|rewrite <- Lb; apply vec_of]. }
  rewrite affine_mk, by_row_mk. f_equal. apply mk_ext. intros i j Hi Hj. unfold score. rewrite (row_vec nI X HX) by exact Hi. rewrite (row_vec nI W HW) by lia. rewrite dot_S, nsum_S. reflexivity.
Qed.
Lemma predict_score {A} (n : pnode R A) nO nI W b X : get_param n "W" = Ok (P2 W) -> get_param n "b" = Ok (P1 b) -> rows_by nO nI W -> length b = nO -> input_of nI X ->
  linear_predict n X = Ok (by_row nO (score W b) X).
Proof. intros GW Gb HW Lb HX. unfold linear_predict. rewrite GW, Gb. cbn [bind]. exact (affine_score nO nI W b X HW Lb HX). Qed.
Lemma by_row_ext nO f g X : (forall x j, In x (m_rows X) -> (j < nO)%nat -> f x j = g x j) -> by_row nO f X = by_row nO g X.
Proof. intros E. unfold by_row. f_equal. apply map_ext_in. intros x Hx. apply map_ext_in. intros j Hj. apply in_seq in Hj. apply E; [exact Hx|lia]. Qed.
Lemma dot_repeat x f : dot x (repeat f (length x)) = (f * msum x)%R.
Proof. unfold dot. induction x as [|a x IH]; [cbn; ring|]. cbn [length repeat combine map fst snd]. rewrite !msum_cons, IH. ring. Qed.
Lemma linear_facts {A} (layer : pnode R A) nO nI W b : is_linear layer nO nI W b ->
  get_dim layer "nO" = Ok (Z.of_nat nO) /\ has_dim layer "nI" = Some true /\ param_names layer = ["W"%string; "b"%string] /\ get_param layer "W" = Ok (P2 W) /\ get_param layer "b" = Ok (P1 b) /\
  (forall nm, has_param layer nm = Some true -> nm = "W"%string \/ nm = "b"%string) /\ has_param layer "W" = Some true /\ has_param layer "b" = Some true.
Proof.
  intros (_ & D & Hh & GW & Gb & _). unfold get_dim, has_dim, param_names, get_param, has_param. rewrite D, Hh, GW, Gb. repeat split.
  intros nm. cbn. destruct (eqd nm "W"%string) as [->|]; [now left|]. destruct (eqd nm "b"%string) as [->|]; [now right|]. discriminate.
Qed.
Lemma linear_init_ok {A} (layer : pnode R A) nO nI W b init_W init_b new_id new : is_linear layer nO nI W b ->
  exists n1, linear_init init_W init_b (blank new_id layer (Z.of_nat new)) = Ok n1 /\ get_param n1 "W" = Ok (P2 (init_W new nI)) /\ get_param n1 "b" = Ok (P1 (init_b new)) /\ n_dims n1 = [("nO"%string, Some (Z.of_nat new)); ("nI"%string, Some (Z.of_nat nI))].
Proof.
  intros (_ & D & Hh & _). unfold linear_init, blank, get_dim. cbn [n_dims]. rewrite D. cbn [dset eqd eqd_string string_dec dget]. cbn.
  destruct (Z.ltb_spec (Z.of_nat new) 0); [lia|]. destruct (Z.ltb_spec (Z.of_nat nI) 0); [lia|]. cbn [orb]. rewrite !Nat2Z.id. eexists. split; [reflexivity|]. rewrite Hh. cbn. repeat split.
Qed.
Lemma linear_grow {A} (layer : pnode R A) nO nI W b init_W init_b new_id new fd X : is_linear layer nO nI W b -> nO < new -> (forall r c, rows_by r c (init_W r c)) -> (forall n, length (init_b n) = n) -> input_of nI X ->
  exists n2, resize_linear_weighted (linear_init init_W init_b) new_id layer (Z.of_nat new) fd = (layer, Ok (Some n2)) /\ get_dim n2 "nO" = Ok (Z.of_nat new) /\ get_dim n2 "nI" = Ok (Z.of_nat nI) /\
    linear_predict layer X = Ok (by_row nO (score W b) X) /\
    linear_predict n2 X = Ok (by_row new (fun x j => if Nat.ltb j nO then score W b x j else (filler_of fd "W" * msum x + filler_of fd "b")%R) X).
Proof.
  intros HL Hn HW Hb HX. pose proof (linear_facts _ _ _ _ _ HL) as (F1 & F2 & F3 & F4 & F5 & F6 & F7 & F8). pose proof HL as (Pl & _ & _ & _ & _ & SW & Lb). pose proof SW as (CW & LW & FW).
  destruct (linear_init_ok layer nO nI W b init_W init_b new_id new HL) as (n1 & E1 & G1 & G2 & D1). destruct (HW new nI) as (C1 & L1 & W1).
  assert (FtW : fits (P2 W) (P2 (init_W new nI))) by (cbn; rewrite C1, LW, L1; split; [exact SW|lia]). assert (Ftb : fits (P1 b) (P1 (init_b new))) by (cbn; rewrite Hb; lia).
  destruct (resize_params (linear_init init_W init_b) new_id layer (Z.of_nat new) fd (Z.of_nat nO) n1 Pl F1) as (n2 & E2 & D2 & R1 & _).
  - lia.
  - congruence.
  - exact E1.
  - rewrite F3. repeat constructor; cbn; intuition discriminate.
  - intros nm Hh. destruct (F6 nm Hh) as [-> | ->]; [exists (P2 W), (P2 (init_W new nI))|exists (P1 b), (P1 (init_b new))]; repeat split; assumption || apply FtW || apply Ftb.
  - exists n2. split; [exact E2|]. unfold get_dim. rewrite D2, D1. split; [reflexivity|]. split; [reflexivity|]. split; [now apply (predict_score layer nO nI)|].
    pose proof (R1 _ _ _ F7 F4 G1) as RW. pose proof (R1 _ _ _ F8 F5 G2) as Rb. cbn [grown] in RW, Rb. rewrite CW, LW, L1 in RW. rewrite Hb, Lb in Rb.
    rewrite (predict_score n2 new nI _ _ X RW Rb); [| |rewrite app_length, repeat_length; lia|exact HX].
    + f_equal. apply by_row_ext. intros x j Hx Hj. unfold score. cbn [m_rows]. destruct (Nat.ltb_spec j nO) as [H|H].
      * rewrite !app_nth1 by lia. reflexivity.
      * rewrite !app_nth2 by lia. rewrite LW, Lb. set (f := filler_of fd "W") in *. set (g := filler_of fd "b") in *. rewrite (nth_indep _ [] (repeat f nI)) by (rewrite repeat_length; lia). rewrite nth_repeat.
        rewrite (nth_indep _ 0%R g) by (rewrite repeat_length; lia). rewrite nth_repeat. destruct HX as [X1 X2]. unfold wf_mat in X1. rewrite Forall_forall in X1. rewrite <- X2, <- (X1 x Hx). now rewrite dot_repeat.
    + split; [reflexivity|]. split; [cbn [m_rows]; rewrite app_length, repeat_length; lia|]. cbn [m_rows]. apply Forall_app. split; [exact FW|]. apply Forall_forall. intros r Hr. apply repeat_spec in Hr. subst r. apply repeat_length.
Qed.
Lemma linear_shrink {A} (layer : pnode R A) nO nI W b init_W init_b new_id new fd : is_linear layer nO nI W b -> new < nO -> 1 < nO -> (forall r c, rows_by r c (init_W r c)) ->
  resize_linear_weighted (linear_init init_W init_b) new_id layer (Z.of_nat new) fd = (layer, Err ValueError).
Proof.
  intros HL Hn H1 HW. pose proof (linear_facts _ _ _ _ _ HL) as (F1 & F2 & F3 & F4 & F5 & F6 & F7 & F8). pose proof HL as ((P1' & P2' & P3') & _ & _ & _ & _ & SW & Lb). pose proof SW as (CW & LW & FW).
  destruct (linear_init_ok layer nO nI W b init_W init_b new_id new HL) as (n1 & E1 & G1 & G2 & D1). destruct (HW new nI) as (C1 & L1 & W1).
  unfold resize_linear_weighted. rewrite P1', P2', P3', F1, F2, E1, F3. replace (has_dim layer "nO") with (Some true).
  2: { unfold has_dim, get_dim in *. destruct (dget "nO"%string (n_dims layer)) as [[v|]|]; [reflexivity|discriminate|discriminate]. }
  destruct (Z.eqb_spec (Z.of_nat new) (Z.of_nat nO)); [lia|]. cbn [bind resize_all]. rewrite F7. unfold resize_parameter. rewrite G1, F4. cbn [bind]. unfold overwrite, to_shape2, plen. cbv zeta. rewrite LW, L1, Nat.min_r by lia.
  destruct (Nat.eqb_spec nO new); [lia|]. destruct (Nat.eqb_spec nO 1); [lia|]. reflexivity.
Qed.
Lemma linear_to_none {A} (layer : pnode R A) nI W b init_W init_b new_id fd : is_linear layer 1 nI W b -> (forall r c, rows_by r c (init_W r c)) -> (forall n, length (init_b n) = n) ->
  exists n2, resize_linear_weighted (linear_init init_W init_b) new_id layer 0 fd = (layer, Ok (Some n2)) /\ get_dim n2 "nO" = Ok 0%Z /\ get_param n2 "W" = Ok (P2 (mkM nI [])) /\ get_param n2 "b" = Ok (P1 []).
Proof.
  intros HL HW Hb. pose proof (linear_facts _ _ _ _ _ HL) as (F1 & F2 & F3 & F4 & F5 & F6 & F7 & F8). pose proof HL as ((P1' & P2' & P3') & _ & _ & _ & _ & SW & Lb). pose proof SW as (CW & LW & FW).
  destruct (linear_init_ok layer 1 nI W b init_W init_b new_id 0 HL) as (n1 & E1 & G1 & G2 & D1). destruct (HW 0 nI) as (C1 & L1 & W1). change 0%Z with (Z.of_nat 0).
  unfold resize_linear_weighted. rewrite P1', P2', P3', F1, F2, E1, F3. replace (has_dim layer "nO") with (Some true).
  2: { unfold has_dim, get_dim in *. destruct (dget "nO"%string (n_dims layer)) as [[v|]|]; [reflexivity|discriminate|discriminate]. }
  cbn [bind resize_all]. rewrite F7, F8. unfold resize_parameter. rewrite G1, F4. cbn [bind]. unfold overwrite at 1, to_shape2, plen. cbv zeta. rewrite LW, L1, CW, C1, Nat.eqb_refl. cbn [Nat.min Nat.eqb orb andb bind seq map app Nat.sub repeat].
  rewrite (Nat.eqb_refl nI). cbn [orb bind app]. change (Z.of_nat 0 =? Z.of_nat 1)%Z with false. cbv iota. rewrite get_set_other by discriminate. rewrite G2, F5. cbn [bind]. pose proof (Hb 0) as L0. destruct (init_b 0) as [|]; [|discriminate]. destruct b as [|b0 [|]]; try discriminate. cbn [overwrite plen length Nat.min to_shape1 Nat.eqb bind nth repeat app Nat.sub].
  eexists. split; [reflexivity|]. split; [unfold get_dim, set_param, with_params; cbn [n_dims]; rewrite D1; reflexivity|]. split; [rewrite get_set_other by discriminate|]; now rewrite get_set_same.
Qed.
