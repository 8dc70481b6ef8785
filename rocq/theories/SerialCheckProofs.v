From Coq Require Import String.
From Verif Require Import BaseFacts DictFacts GraphModel GraphSpec GraphProofs NodeModel NodeSpec NodeProofs
  EditSpec EditProofs SerialModel SerialSpec SerialProofs.

Set Default Goal Selector "!".

Section Check.
  Context {V A Y S : Type} `{EqD Y}.
  Notation node := (node V A).
  Notation heap := (heap V A).
  Notation sstate := (sstate V A S).
  Notation message := (message V Y).
  Variable ser : A -> option Y.
  Variable deser : option A -> Y -> A.
  Variable shim_to : S -> Y.
  Variable shim_from : S -> Y -> S.
  Variable shape : V -> list nat.

  Lemma load_dims_conv dims : forall (h : heap) h' a (n : node), a < length h -> NoDup (dkeys dims) ->
    load_dims (set_nth a n h) a dims = (h', Ok tt) ->
    forall d v, dget d dims = Some (Some v) -> dget d (n_dims n) = Some None \/ dget d (n_dims n) = Some (Some v).
  Proof.
    induction dims as [|[d [v|]] dims IH]; intros h h' a n Ha Hnd; cbn [load_dims].
    - intros _ d v Hd. discriminate.
    - cbn [dkeys map fst] in Hnd. inversion Hnd as [|? ? Hd Hnd']; subst.
      unfold on_node. rewrite set_nth_at by exact Ha.
      destruct (set_dim n d v false) as [n1 r] eqn:Es. rewrite set_nth_twice. intros Hl.
      assert (Hr : r = Ok tt) by (destruct r as [[]|]; [reflexivity|discriminate]). subst r. cbn [andthen] in Hl.
      unfold set_dim in Es. intros d' v' Hg. cbn [dget] in Hg.
      destruct (eqd d' d) as [->|Hne].
      + injection Hg as ->. destruct (dget d (n_dims n)) as [[w|]|]; [right|now left|discriminate].
        cbn [negb orb andb] in Es. destruct (Z.eqb_spec w v') as [He|Hw]; [now rewrite He|discriminate].
      + specialize (IH h h' a n1 Ha Hnd' Hl d' v' Hg).
        assert (Hd1 : dget d' (n_dims n1) = dget d' (n_dims n)).
        { destruct (dget d (n_dims n)) as [o|]; [|discriminate]. cbn zeta in Es.
          match type of Es with (if ?c then _ else _) = _ => destruct c end; [discriminate|].
          injection Es as <-. cbn. now apply dget_dset_other. }
        rewrite Hd1 in IH. exact IH.
    - cbn [dkeys map fst] in Hnd. inversion Hnd as [|? ? Hd Hnd']; subst. intros Hl d' v' Hg. cbn [dget] in Hg.
      destruct (eqd d' d) as [->|Hne]; [discriminate|]. exact (IH h h' a n Ha Hnd' Hl d' v' Hg).
  Qed.

  Lemma load_refs_conv nodes refs : forall (h : heap) h' a (n0 n : node),
    nth_error h a = Some n0 -> n_layers n = n_layers n0 -> NoDup (dkeys refs) ->
    load_refs (set_nth a n h) a nodes refs = (h', Ok tt) ->
    forall nm j, dget nm refs = Some (Some j) -> exists b, nth_error nodes j = Some b /\ reach (graph_of h) a b.
  Proof.
    induction refs as [|[nm o] refs IH]; intros h h' a n0 n Hn Hl Hnd; [discriminate|].
    assert (Ha : a < length h) by (apply nth_error_Some; congruence).
    cbn [dkeys map fst] in Hnd. inversion Hnd as [|? ? Hd Hnd']; subst. intros Hload nm' j Hg. cbn [dget] in Hg.
    assert (Hstep : exists v, load_refs (set_nth a (with_refs n (dset nm v (n_refs n))) h) a nodes refs = (h', Ok tt) /\
       forall i, o = Some i -> exists b, nth_error nodes i = Some b /\ reach (graph_of h) a b).
    { destruct o as [i|]; cbn [load_refs] in Hload.
      - destruct (nth_error nodes i) as [b|] eqn:Eb; [|discriminate].
        unfold set_ref in Hload. rewrite (graph_set _ _ _ _ Hn Hl) in Hload.
        destruct (memb b (walk (graph_of h) Bfs a)) eqn:Em; [|discriminate].
        cbn [andthen] in Hload. rewrite upd_set in Hload by exact Ha. exists (Some b). split; [exact Hload|].
        intros i' He. injection He as <-. exists b. split; [exact Eb|]. apply (walk_exact (graph_of h) Bfs a). now apply memb_true.
      - rewrite (set_ref_at h a n0 n nm None Hn Hl) in Hload by discriminate. cbn [andthen] in Hload.
        exists None. split; [exact Hload|discriminate]. }
    destruct Hstep as (v & Hload' & Hi). destruct (eqd nm' nm) as [->|Hne].
    - injection Hg as ->. now apply Hi.
    - exact (IH h h' a n0 (with_refs n (dset nm v (n_refs n))) Hn Hl Hnd' Hload' nm' j Hg).
  Qed.

  Lemma load_shims_conv own : forall data i (shims shims' : list S),
    load_shims shim_from shims own i data = (shims', Ok tt) -> data <> [] -> length data + i <= length own.
  Proof.
    induction data as [|y data IH]; intros i shims shims' Hl Hne; [congruence|]. cbn [load_shims] in Hl.
    destruct (nth_error own i) as [z|] eqn:Ez; [|discriminate].
    assert (Hi : i < length own) by (apply nth_error_Some; congruence).
    destruct (nth_error shims z) as [v|]; [|discriminate]. cbn [length].
    destruct data as [|y' data]; [cbn; lia|]. apply IH in Hl; [lia|discriminate].
  Qed.

  (** Everything about an entry that does not depend on it being loadable. *)
  Definition entry_at (s : sstate) (msg : message) i (n : node) inf attrs params data :=
    nth_error (m_nodes msg) i = Some inf /\ nth_error (m_attrs msg) i = Some attrs /\
    nth_error (m_params msg) i = Some params /\ nth_error (m_shims msg) i = Some data /\
    (NoDup (dkeys (i_dims inf)) /\ NoDup (dkeys (i_refs inf)) /\ NoDup (dkeys attrs) /\ NoDup (dkeys params)) /\
    forall x, In x (n_shims n) -> x < length (s_shims s).

  Lemma load_node_conv (s s' : sstate) nodes msg i a n inf attrs params data :
    nth_error (s_nodes s) a = Some n -> entry_at s msg i n inf attrs params data ->
    load_node deser shim_from s nodes msg i a = (s', Ok tt) ->
    loadable s nodes msg i a n inf attrs params data.
  Proof.
    intros Hn (M1 & M2 & M3 & M4 & (K1 & K2 & K3 & K4) & Hown) Hl.
    assert (Ha : a < length (s_nodes s)) by (apply nth_error_Some; congruence).
    unfold load_node in Hl. rewrite M1 in Hl.
    assert (E0 : upd (s_nodes s) a (fun n => with_name n (i_name inf)) = set_nth a (with_name n (i_name inf)) (s_nodes s)).
    { unfold upd. now rewrite Hn. }
    rewrite E0 in Hl.
    destruct (load_dims (set_nth a (with_name n (i_name inf)) (s_nodes s)) a (i_dims inf)) as [h1 rd] eqn:Ed.
    destruct rd as [[]|e]; [|cbn in Hl; discriminate]. cbn [andthen] in Hl.
    pose proof (load_dims_conv _ _ _ _ _ Ha K1 Ed) as Hdims.
    destruct (load_dims_ok (i_dims inf) (s_nodes s) a (with_name n (i_name inf)) Ha K1 Hdims) as (dd & D1 & D2 & D3).
    rewrite Ed in D1. injection D1 as ->.
    destruct (load_refs (set_nth a (with_dims (with_name n (i_name inf)) dd) (s_nodes s)) a nodes (i_refs inf)) as [h2 rr] eqn:Er.
    destruct rr as [[]|e]; [|discriminate].
    pose proof (load_refs_conv nodes _ _ _ _ n (with_dims (with_name n (i_name inf)) dd) Hn eq_refl K2 Er) as Hrefs.
    destruct (load_refs_ok nodes (i_refs inf) (s_nodes s) a n (with_dims (with_name n (i_name inf)) dd) Hn eq_refl K2 Hrefs)
      as (rr & R1 & R2 & R3).
    rewrite Er in R1. injection R1 as ->. rewrite M2 in Hl.
    rewrite (upd_set (s_nodes s)) in Hl by exact Ha. rewrite M3 in Hl. rewrite (upd_set (s_nodes s)) in Hl by exact Ha. rewrite M4 in Hl.
    rewrite set_nth_at in Hl by exact Ha.
    destruct (load_attrs_ok deser attrs (with_refs (with_dims (with_name n (i_name inf)) dd) rr) K3) as (aa & A1 & A2 & A3).
    rewrite A1 in Hl.
    destruct (load_params_ok params (with_attrs (with_refs (with_dims (with_name n (i_name inf)) dd) rr) aa) K4) as (hh & pp & P1 & P2 & P3 & P4).
    rewrite P1 in Hl. cbn [n_shims with_params with_attrs with_refs with_dims with_name] in Hl.
    destruct (load_shims shim_from (s_shims s) (n_shims n) 0 data) as [sh rs] eqn:Es. injection Hl as _ ->.
    split; try assumption; [split; [exact K1|split; [exact K2|split; [exact K3|exact K4]]]|].
    destruct data as [|y data]; [cbn; lia|]. apply load_shims_conv in Es; [lia|discriminate].
  Qed.

  Lemma load_nodes_conv nodes msg todo : forall i (s s' : sstate),
    NoDup todo ->
    (forall k a, nth_error todo k = Some a -> exists n inf attrs params data,
       nth_error (s_nodes s) a = Some n /\ entry_at s msg (i + k) n inf attrs params data) ->
    load_nodes deser shim_from s nodes msg i todo = (s', Ok tt) ->
    forall k a n inf attrs params data, nth_error todo k = Some a -> nth_error (s_nodes s) a = Some n ->
      entry_at s msg (i + k) n inf attrs params data -> loadable s nodes msg (i + k) a n inf attrs params data.
  Proof.
    induction todo as [|a todo IH]; intros i s s' Hnd Hall Hl; [intros [|k]; discriminate|]. cbn [load_nodes] in Hl.
    inversion Hnd as [|? ? Hna Hnd']; subst.
    destruct (load_node deser shim_from s nodes msg i a) as [s1 r] eqn:E1. destruct r as [[]|e]; [|discriminate]. cbn [andthen] in Hl.
    destruct (Hall 0 a eq_refl) as (n & inf & attrs & params & data & Hn & He). rewrite Nat.add_0_r in He.
    pose proof (load_node_conv _ _ _ _ _ _ _ _ _ _ _ Hn He E1) as Hload.
    destruct (load_node_ok deser shim_to shim_from s nodes msg i a n inf attrs params data Hn Hload) as (n' & shims' & E1' & Ld & Ls & Sh).
    rewrite E1 in E1'. injection E1' as ->.
    assert (Hg1 : graph_of (set_nth a n' (s_nodes s)) = graph_of (s_nodes s)).
    { apply (graph_set _ _ _ _ Hn). destruct (ld_rest _ _ _ _ _ _ _ Ld) as (_ & _ & Hlay & _). exact Hlay. }
    intros [|k] b m inf' attrs' params' data' Hk Hm Hm'.
    - injection Hk as <-. rewrite Hn in Hm. injection Hm as <-. rewrite Nat.add_0_r in *.
      destruct He as (A1 & A2 & A3 & A4 & _). destruct Hm' as (B1 & B2 & B3 & B4 & _).
      assert (inf' = inf) as -> by congruence. assert (attrs' = attrs) as -> by congruence.
      assert (params' = params) as -> by congruence. assert (data' = data) as -> by congruence. exact Hload.
    - cbn in Hk. replace (i + Datatypes.S k) with (i + 1 + k) in * by lia.
      assert (Hback : forall c, In c todo -> nth_error (set_nth a n' (s_nodes s)) c = nth_error (s_nodes s) c).
      { intros c Hc. apply set_nth_other. intros <-. contradiction. }
      assert (G : loadable (mkS (set_nth a n' (s_nodes s)) shims') nodes msg (i + 1 + k) b m inf' attrs' params' data').
      { apply (IH (i + 1) _ s' Hnd').
        - intros k' c Hc. destruct (Hall (Datatypes.S k') c Hc) as (m2 & i2 & a2 & p2 & d2 & Hm2 & He2).
          exists m2, i2, a2, p2, d2. cbn [s_nodes]. split; [rewrite Hback; [exact Hm2|now apply nth_error_In in Hc]|].
          replace (i + 1 + k') with (i + Datatypes.S k') by lia. unfold entry_at in *. cbn [s_shims]. rewrite Ls. exact He2.
        - exact Hl.
        - exact Hk.
        - cbn [s_nodes]. rewrite Hback; [exact Hm|now apply nth_error_In in Hk].
        - unfold entry_at in *. cbn [s_shims]. rewrite Ls. exact Hm'. }
      destruct G as [G1 G2 G3 G4 G5 G6 G7 G8 G9]. cbn [s_nodes s_shims] in *. rewrite Hg1 in G7. rewrite Ls in G9. now split.
  Qed.

  Lemma entries_exist (s : sstate) root msg : wf_model s root -> wf_message msg ->
    length (m_nodes msg) = length (walk (graph_of (s_nodes s)) Bfs root) ->
    forall i a, nth_error (walk (graph_of (s_nodes s)) Bfs root) i = Some a ->
      exists n inf attrs params data, entry s root msg i a n inf attrs params data /\ entry_at s msg i n inf attrs params data.
  Proof.
    intros W M Hlen i a Hi.
    assert (Hlt : i < length (m_nodes msg)) by (rewrite Hlen; apply nth_error_Some; congruence).
    assert (Ha : a < length (s_nodes s)).
    { apply (reach_in_heap (s_nodes s) root a); [intros y m l; apply (ws_closed _ _ W)|apply W|].
      apply (walk_exact (graph_of (s_nodes s)) Bfs root). now apply nth_error_In in Hi. }
    destruct (nth_error (s_nodes s) a) as [n|] eqn:En; [|apply nth_error_None in En; lia].
    destruct (nth_error (m_nodes msg) i) as [inf|] eqn:E1; [|apply nth_error_None in E1; lia].
    destruct (nth_error (m_attrs msg) i) as [at'|] eqn:E2; [|apply nth_error_None in E2; rewrite (wm_attrs _ M) in E2; lia].
    destruct (nth_error (m_params msg) i) as [pa|] eqn:E3; [|apply nth_error_None in E3; rewrite (wm_params _ M) in E3; lia].
    destruct (nth_error (m_shims msg) i) as [da|] eqn:E4; [|apply nth_error_None in E4; rewrite (wm_shims _ M) in E4; lia].
    exists n, inf, at', pa, da. unfold entry, entry_at. rewrite Hi, En, E1, E2, E3, E4. repeat split; try reflexivity.
    - apply (wm_info_keys _ M). now apply nth_error_In in E1.
    - apply (wm_info_keys _ M). now apply nth_error_In in E1.
    - apply (wm_attr_keys _ M). now apply nth_error_In in E2.
    - apply (wm_param_keys _ M). now apply nth_error_In in E3.
    - intros x. exact (ws_shims _ _ W a n x En).
  Qed.

  Lemma from_dict_iff (s : sstate) root msg : wf_model s root -> wf_message msg ->
    (snd (from_dict deser shim_from s root msg) = Ok tt <->
     length (m_nodes msg) = length (walk (graph_of (s_nodes s)) Bfs root) /\
     forall i a n inf attrs params data, entry s root msg i a n inf attrs params data ->
       (forall d v, dget d (i_dims inf) = Some (Some v) -> dget d (n_dims n) = Some None \/ dget d (n_dims n) = Some (Some v)) /\
       (forall nm j, dget nm (i_refs inf) = Some (Some j) ->
          exists b, nth_error (walk (graph_of (s_nodes s)) Bfs root) j = Some b /\ reach (graph_of (s_nodes s)) a b) /\
       length data <= length (n_shims n)).
  Proof.
    intros W M. split.
    - unfold from_dict. destruct (Nat.eqb_spec (length (m_nodes msg)) (length (walk (graph_of (s_nodes s)) Bfs root))) as [Hlen|Hne]; [|discriminate].
      intros Hok. split; [exact Hlen|]. intros i a n inf attrs params data (E1 & E2 & E3 & E4 & E5 & E6).
      destruct (load_nodes deser shim_from s (walk (graph_of (s_nodes s)) Bfs root) msg 0 (walk (graph_of (s_nodes s)) Bfs root)) as [s' r] eqn:El.
      cbn in Hok. subst r.
      assert (L : loadable s (walk (graph_of (s_nodes s)) Bfs root) msg (0 + i) a n inf attrs params data).
      { apply (load_nodes_conv _ msg (walk (graph_of (s_nodes s)) Bfs root) 0 s s'); try assumption.
        - apply walk_exact.
        - intros k c Hc. destruct (entries_exist s root msg W M Hlen k c Hc) as (n2 & i2 & a2 & p2 & d2 & He & Hat).
          exists n2, i2, a2, p2, d2. split; [apply He|exact Hat].
        - destruct (entries_exist s root msg W M Hlen i a E1) as (n2 & i2 & a2 & p2 & d2 & (_ & F2 & F3 & F4 & F5 & F6) & Hat).
          assert (n2 = n) as -> by congruence. assert (i2 = inf) as -> by congruence. assert (a2 = attrs) as -> by congruence.
          assert (p2 = params) as -> by congruence. assert (d2 = data) as -> by congruence. exact Hat. }
      destruct L as [_ _ _ _ _ L6 L7 L8 _]. auto.
    - intros [Hlen Hall]. destruct (from_dict_ok deser shim_to shim_from s root msg Hlen) as (s' & F1 & _); [|now rewrite F1].
      intros i a Hi. destruct (entries_exist s root msg W M Hlen i a Hi) as (n & inf & at' & pa & da & He & Hat).
      exists n, inf, at', pa, da. split; [apply He|]. destruct (Hall _ _ _ _ _ _ _ He) as (G1 & G2 & G3).
      destruct Hat as (A1 & A2 & A3 & A4 & A5 & A6). now split.
  Qed.

  (** ** [can_from_dict] *)
  Lemma can_node_ok strict (n : node) (msg : message) i inf attrs params data :
    nth_error (m_nodes msg) i = Some inf -> nth_error (m_attrs msg) i = Some attrs ->
    nth_error (m_params msg) i = Some params -> nth_error (m_shims msg) i = Some data ->
    (forall nm, dget nm (n_has n) = Some true -> exists v, dget nm (n_params n) = Some v) ->
    exists b, can_node ser shape strict n msg i = Ok b /\ (b = true <-> accepts ser shape strict n inf attrs params data).
  Proof.
    intros E1 E2 E3 E4 Hal. unfold can_node. rewrite E1, E2, E3, E4.
    destruct (strict && negb (String.eqb (i_name inf) (n_name n))) eqn:Cn.
    { exists false. split; [reflexivity|]. split; [discriminate|]. intros [G1 _ _ _ _].
      apply andb_true_iff in Cn. destruct Cn as [-> Cn]. apply negb_true_iff, String.eqb_neq in Cn. exfalso. apply Cn. now apply G1. }
    destruct (negb (length data =? length (n_shims n))) eqn:Cs.
    { exists false. split; [reflexivity|]. split; [discriminate|]. intros [_ G2 _ _ _].
      apply negb_true_iff, Nat.eqb_neq in Cs. contradiction. }
    assert (Hdims : can_dims n (i_dims inf) = true <->
       forall d o, In (d, o) (i_dims inf) -> dget d (n_dims n) = Some None \/ (exists v, dget d (n_dims n) = Some (Some v) /\ o = Some v)).
    { unfold can_dims. rewrite forallb_forall. split; intros G.
      - intros d o Hin. specialize (G (d, o) Hin). cbn [fst snd] in G. unfold has_dim, get_dim in G.
        destruct (dget d (n_dims n)) as [[v|]|]; [|now left|discriminate].
        right. exists v. split; [reflexivity|]. destruct o as [w|]; [|discriminate]. apply Z.eqb_eq in G. now subst.
      - intros [d o] Hin. cbn [fst snd]. unfold has_dim, get_dim. destruct (G d o Hin) as [->|(v & -> & ->)]; [reflexivity|apply Z.eqb_refl]. }
    destruct (can_dims n (i_dims inf)) eqn:Cd; cbn [negb].
    2:{ exists false. split; [reflexivity|]. split; [discriminate|]. intros [_ _ G3 _ _]. now apply Hdims. }
    assert (Hpar : can_params shape n params = true <-> forall nm o, In (nm, o) params ->
      dget nm (n_has n) = Some false \/
      (dget nm (n_has n) = Some true /\ forall v, o = Some v -> exists w, dget nm (n_params n) = Some w /\ shape w = shape v)).
    { unfold can_params. rewrite forallb_forall. split; intros G.
      - intros nm o Hin. specialize (G (nm, o) Hin). cbn [fst snd] in G. unfold has_param, get_param in G.
        destruct (dget nm (n_has n)) as [[|]|] eqn:Eh; [right|now left|discriminate]. split; [reflexivity|].
        intros v ->. destruct (dget nm (n_params n)) as [w|]; [|discriminate]. exists w. split; [reflexivity|].
        now destruct (list_eq_dec Nat.eq_dec (shape w) (shape v)).
      - intros [nm o] Hin. cbn [fst snd]. unfold has_param, get_param. destruct (G nm o Hin) as [->|(-> & Hv)]; [now destruct o|].
        destruct o as [v|]; [|reflexivity]. destruct (Hv v eq_refl) as (w & -> & Hs).
        now destruct (list_eq_dec Nat.eq_dec (shape w) (shape v)). }
    destruct (can_params shape n params) eqn:Cp; cbn [negb].
    2:{ exists false. split; [reflexivity|]. split; [discriminate|]. intros [_ _ _ G4 _]. now apply Hpar. }
    apply negb_false_iff, Nat.eqb_eq in Cs.
    destruct strict; cbn [andb] in Cn.
    - apply negb_false_iff, String.eqb_eq in Cn. exists (can_attrs ser n attrs). split; [reflexivity|].
      unfold can_attrs. rewrite forallb_forall. split.
      + intros G. split; [now intros _|exact Cs|now apply Hdims|now apply Hpar|].
        intros _ k y v z Hin Hv Hz. specialize (G (k, y) Hin). cbn [fst snd] in G. rewrite Hv, Hz in G. now destruct (eqd z y).
      + intros [_ _ _ _ G5] [k y] Hin. cbn [fst snd]. destruct (dget k (n_attrs n)) as [v|] eqn:Ev; [|reflexivity].
        destruct (ser v) as [z|] eqn:Ez; [|reflexivity]. rewrite (G5 eq_refl k y v z Hin Ev Ez). apply eqd_refl.
    - exists true. split; [reflexivity|]. split; [|reflexivity]. intros _.
      split; [discriminate|exact Cs|now apply Hdims|now apply Hpar|discriminate].
  Qed.

  Lemma can_nodes_ok strict (h : heap) (msg : message) todo : forall i,
    (forall k a, nth_error todo k = Some a -> exists n b, nth_error h a = Some n /\ can_node ser shape strict n msg (i + k) = Ok b) ->
    exists b, can_nodes ser shape strict h msg i todo = Ok b /\
      (b = true <-> forall k a n, nth_error todo k = Some a -> nth_error h a = Some n -> can_node ser shape strict n msg (i + k) = Ok true).
  Proof.
    induction todo as [|a todo IH]; intros i Hall; cbn [can_nodes].
    - exists true. split; [reflexivity|]. split; [intros _ [|k]; discriminate|reflexivity].
    - destruct (Hall 0 a eq_refl) as (n & b & Hn & Hb). rewrite Nat.add_0_r in Hb. rewrite Hn, Hb. cbn [bind].
      destruct b.
      + destruct (IH (i + 1)) as (b' & E & Hiff).
        { intros k c Hc. destruct (Hall (Datatypes.S k) c Hc) as (m & b' & Hm & Hb'). exists m, b'. split; [exact Hm|].
          replace (i + 1 + k) with (i + Datatypes.S k) by lia. exact Hb'. }
        exists b'. split; [exact E|]. rewrite Hiff. split.
        * intros G [|k] c m Hc Hm; [injection Hc as <-; rewrite Hn in Hm; injection Hm as <-; now rewrite Nat.add_0_r|].
          replace (i + Datatypes.S k) with (i + 1 + k) by lia. now apply (G k c).
        * intros G k c m Hc Hm. replace (i + 1 + k) with (i + Datatypes.S k) by lia. now apply (G (Datatypes.S k) c).
      + exists false. split; [reflexivity|]. split; [discriminate|]. intros G.
        specialize (G 0 a n eq_refl Hn). rewrite Nat.add_0_r in G. congruence.
  Qed.

  Lemma can_from_dict_iff strict (s : sstate) root msg : wf_model s root -> wf_message msg ->
    exists b, can_from_dict ser shape strict s root msg = Ok b /\
      (b = true <-> length (m_nodes msg) = length (walk (graph_of (s_nodes s)) Bfs root) /\
         forall i a n inf attrs params data, entry s root msg i a n inf attrs params data ->
           accepts ser shape strict n inf attrs params data).
  Proof.
    intros W M. unfold can_from_dict.
    destruct (Nat.eqb_spec (length (m_nodes msg)) (length (walk (graph_of (s_nodes s)) Bfs root))) as [Hlen|Hne].
    2:{ exists false. split; [reflexivity|]. split; [discriminate|]. intros [Hl _]. contradiction. }
    assert (Hnode : forall i a n inf attrs params data, entry s root msg i a n inf attrs params data ->
       exists b, can_node ser shape strict n msg i = Ok b /\ (b = true <-> accepts ser shape strict n inf attrs params data)).
    { intros i a n inf attrs params data (E1 & E2 & E3 & E4 & E5 & E6). apply can_node_ok; try assumption.
      intros nm. exact (ws_alloc _ _ W a n nm E2). }
    destruct (can_nodes_ok strict (s_nodes s) msg (walk (graph_of (s_nodes s)) Bfs root) 0) as (b & E & Hiff).
    { intros k a Hk. destruct (entries_exist s root msg W M Hlen k a Hk) as (n & inf & at' & pa & da & He & _).
      destruct (Hnode _ _ _ _ _ _ _ He) as (b & Hb & _). exists n, b. split; [apply He|exact Hb]. }
    exists b. split; [exact E|]. rewrite Hiff. split.
    - intros G. split; [exact Hlen|]. intros i a n inf attrs params data He. destruct (Hnode _ _ _ _ _ _ _ He) as (b' & Hb' & Hb'iff).
      apply Hb'iff. destruct He as (H1 & H2 & _). specialize (G i a n H1 H2). cbn in G. congruence.
    - intros [_ G] k a n Hk Hn. destruct (entries_exist s root msg W M Hlen k a Hk) as (n' & inf & at' & pa & da & He & _).
      destruct (Hnode _ _ _ _ _ _ _ He) as (b' & Hb' & Hb'iff). pose proof (G _ _ _ _ _ _ _ He) as Hacc.
      apply Hb'iff in Hacc. subst b'. destruct He as (_ & H2 & _). rewrite Hn in H2. injection H2 as <-. exact Hb'.
  Qed.

  Lemma accepted_loads strict (s : sstate) root msg : wf_model s root -> wf_message msg ->
    can_from_dict ser shape strict s root msg = Ok true ->
    (forall i a n inf attrs params data, entry s root msg i a n inf attrs params data ->
       forall nm j, dget nm (i_refs inf) = Some (Some j) ->
          exists b, nth_error (walk (graph_of (s_nodes s)) Bfs root) j = Some b /\ reach (graph_of (s_nodes s)) a b) ->
    snd (from_dict deser shim_from s root msg) = Ok tt.
  Proof.
    intros W M Hc Hr. destruct (can_from_dict_iff strict s root msg W M) as (b & Hb & Hiff). rewrite Hc in Hb. injection Hb as <-.
    destruct (proj1 Hiff eq_refl) as [Hlen Hacc]. apply from_dict_iff; [exact W|exact M|]. split; [exact Hlen|].
    intros i a n inf attrs params data He. destruct (Hacc _ _ _ _ _ _ _ He) as [_ G2 G3 _ _]. split; [|split].
    - intros d v Hd. apply (dget_in d) in Hd. destruct (G3 _ _ Hd) as [G|(w & G & Hw)]; [now left|right]. congruence.
    - exact (Hr _ _ _ _ _ _ _ He).
    - lia.
  Qed.

  Lemma length_mismatch strict (s : sstate) root (msg : message) :
    length (m_nodes msg) <> length (walk (graph_of (s_nodes s)) Bfs root) ->
    from_dict deser shim_from s root msg = (s, Err ValueError) /\ can_from_dict ser shape strict s root msg = Ok false.
  Proof.
    intros Hne. unfold from_dict, can_from_dict.
    destruct (Nat.eqb_spec (length (m_nodes msg)) (length (walk (graph_of (s_nodes s)) Bfs root))); [contradiction|]. split; reflexivity.
  Qed.
End Check.

(** ** Witnesses *)
Section Witnesses.
  Open Scope string_scope.
  (** Layers 1 and 2 below 0; layer 1 was constructed with a reference to its sibling. *)
  Definition w_heap (nm : string) : sstate Z Z Z :=
    mkS [mkNode 1%Z nm 0 [1; 2] [] [] [] [] [] [] [];
         mkNode 2%Z "l" 0 [] [] [] [] [] [] [("sib", Some 2)] [];
         mkNode 3%Z "r" 0 [] [] [] [] [] [] [] []] [].

  Lemma serial_refs_witness :
    exists (s : sstate Z Z Z) msg s', to_dict Some (fun v => v) s 0 = Ok msg /\
      from_dict (fun _ y => y) (fun _ y => y) s 0 msg = (s', Err ValueError) /\
      can_from_dict Some (fun _ => []) true s 0 msg = Ok true.
  Proof. exists (w_heap "top"). do 2 eexists. split; [vm_compute; reflexivity|]. split; vm_compute; reflexivity. Qed.

  Lemma serial_partial_witness :
    exists (s : sstate Z Z Z) msg s' e, from_dict (fun _ y => y) (fun _ y => y) s 0 msg = (s', Err e) /\
      map n_name (s_nodes s') <> map n_name (s_nodes s).
  Proof.
    exists (w_heap "top"), (mkMsg [mkInfo "new" [] []; mkInfo "l" [("nO", Some 1%Z)] []; mkInfo "r" [] []] [[]; []; []] [[]; []; []] [[]; []; []]).
    do 2 eexists. split; [vm_compute; reflexivity|]. vm_compute. discriminate.
  Qed.
End Witnesses.

(** Checks [wf_model] of a concrete heap. *)
Ltac ex_keys H :=
  repeat (match type of H with context [eqd ?x ?y] => destruct (eqd x y); try discriminate end).
Tactic Notation "ex_wf" integer(k) :=
  split;
  [cbn; lia
  |intros a n l Hn Hl; do k (destruct a as [|a]; [injection Hn as <-; cbn in *; lia|]); destruct a; discriminate
  |intros a n Hn; do k (destruct a as [|a]; [injection Hn as <-; cbn in *; repeat split; repeat constructor; cbn; intuition congruence|]); destruct a; discriminate
  |intros a n nm Hn Hl; do k (destruct a as [|a]; [injection Hn as <-; cbn in Hl |- *; try discriminate; ex_keys Hl; eexists; reflexivity|]); destruct a; discriminate
  |intros a n nm b Hn Hl; do k (destruct a as [|a]; [injection Hn as <-; cbn in Hl; try discriminate; ex_keys Hl; injection Hl as <-;
     match goal with |- reach ?g ?r ?x => apply (proj2 (walk_exact g Bfs r) x) end; vm_compute; tauto|]); destruct a; discriminate
  |intros a b na nb Ha Hb He;
   do k (destruct a as [|a]; [injection Ha as <-; do k (destruct b as [|b]; [injection Hb as <-; cbn in He; first [reflexivity|discriminate]|]); destruct b; discriminate|]);
   destruct a; discriminate
  |intros a n x Hn Hx; do k (destruct a as [|a]; [injection Hn as <-; cbn in *; lia|]); destruct a; discriminate].
