(** Proofs for C67: gemm and adam. *)
From Coq Require Import Lia ZArith List Bool.
From Verif Require Import BaseFacts ViewSpec ViewProofs MatProofs MkProofs OptProofs.
Import ListNotations.
Local Open Scope Z_scope.
Set Default Goal Selector "!".

Section View.
  Context {T : Type} {NT : Num T}.
  Implicit Types h : heap T.

  Lemma contig_ok h v M : elements h v = Ok M -> exists e y, as_contig h v = Ok (h ++ e, y) /\ contiguous y = true /\ same_shape y v /\ elements (h ++ e) y = Ok M /\
    (contiguous v = true -> e = [] /\ y = v) /\ (contiguous v = false -> v_buf y = length h).
  Proof.
    intros E. unfold as_contig. destruct (contiguous v) eqn:Hc.
    - exists [], v. rewrite app_nil_r. split; [reflexivity|]. split; [exact Hc|]. split; [split; reflexivity|]. split; [exact E|]. split; [auto|discriminate].
    - rewrite E. cbn [bind]. destruct (elements_tab _ _ _ E) as (g & -> & G). eexists. eexists. split; [unfold new_c; reflexivity|]. split; [unfold contiguous; cbn; rewrite Z.eqb_refl; now rewrite !orb_true_r|].
      split; [split; reflexivity|]. split; [|split; [discriminate|reflexivity]].
      refine (elements_intro _ _ g _). cbn [v_rows v_cols v_buf]. intros i j Hi Hj. rewrite addr_c. apply (new_c_load h (v_rows v) (v_cols v) g i j Hi Hj).
  Qed.

  Lemma store_run_app a : forall h b p l, store_run h b p (a ++ l) = (let* h := store_run h b p a in store_run h b (p + Z.of_nat (length a)) l).
  Proof.
    induction a as [|x a IH]; intros h b p l; cbn [app store_run length].
    - cbn [bind]. f_equal. lia.
    - destruct (store h b p x) as [h1|]; [|reflexivity]. cbn [bind]. rewrite IH. destruct (store_run h1 b (p + 1) a); [|reflexivity]. cbn [bind]. f_equal. lia.
  Qed.
  Lemma store_rows_run c rows : forall h b p, Forall (fun r => length r = c) rows -> store_rows h b p (Z.of_nat c) rows = store_run h b p (concat rows).
  Proof.
    induction rows as [|r rows IH]; intros h b p Hw; [reflexivity|]. inversion Hw; subst. cbn [store_rows concat]. rewrite store_run_app. destruct (store_run h b p r); [|reflexivity]. cbn [bind]. now apply IH.
  Qed.
  Lemma tab_wide r c (g : nat -> nat -> T) : Forall (fun x => length x = c) (tab r c g).
  Proof. unfold tab. apply Forall_forall. intros x Hx. apply in_map_iff in Hx. destruct Hx as (i & <- & _). now rewrite map_length, seq_length. Qed.
  Lemma concat_tab_length r c (g : nat -> nat -> T) : length (concat (tab r c g)) = (r * c)%nat.
  Proof. rewrite concat_tab. now rewrite map_length, seq_length. Qed.

  (** Storing a result in an array of its shape *)
  Lemma store_view h v O r c g : elements h v = Ok O -> contiguous v = true -> v_rows v = r -> v_cols v = c ->
    exists h', store_rows h (v_buf v) (v_off v) (Z.of_nat (v_cols v)) (tab r c g) = Ok h' /\ length h' = length h /\ elements h' v = Ok (mkM c (tab r c g)) /\ untouched v h h'.
  Proof.
    intros E Hc <- <-. rewrite store_rows_run by apply tab_wide.
    destruct (store_run_ok (concat (tab (v_rows v) (v_cols v) g)) h (v_buf v) (v_off v)) as (h' & E' & L' & G').
    { rewrite concat_tab_length. apply (dense_cells h v O); [now left | exact E]. }
    rewrite concat_tab_length in G'. exists h'. split; [exact E'|]. split; [exact L'|]. split.
    - apply elements_intro. intros i j Hi Hj. rewrite G'. pose proof (dense_within v (or_introl Hc) i j Hi Hj) as W. unfold size in W. rewrite Nat.eqb_refl. rewrite (proj2 (Z.leb_le _ _)) by lia. rewrite (proj2 (Z.ltb_lt _ _)) by lia. cbn [andb].
      f_equal. apply nth_error_nth with (d := nZ 0). rewrite (contiguous_addr v Hc i j Hi Hj). replace (Z.to_nat _) with (i * v_cols v + j)%nat by lia. now apply nth_error_tab.
    - intros b p Hbp. rewrite G'. destruct (Nat.eqb_spec b (v_buf v)); [|reflexivity]. destruct (Z.leb_spec (v_off v) p); [|reflexivity]. destruct (Z.ltb_spec p (v_off v + Z.of_nat (v_rows v * v_cols v))); [|reflexivity]. exfalso. unfold size in Hbp. destruct Hbp as [?|[?|?]]; [congruence|lia|lia].
  Qed.

  (** Products *)
  Definition rows_of (v : view) (tr : bool) := if tr then v_cols v else v_rows v.
  Definition cols_of (v : view) (tr : bool) := if tr then v_rows v else v_cols v.
  Lemma gemm_tab x y gx gy t1 t2 R : gemm (mkM (v_cols x) (tab (v_rows x) (v_cols x) gx)) (mkM (v_cols y) (tab (v_rows y) (v_cols y) gy)) t1 t2 = Ok R ->
    cols_of x t1 = rows_of y t2 /\ exists g : nat -> nat -> T, R = mkM (cols_of y t2) (tab (rows_of x t1) (cols_of y t2) g).
  Proof.
    unfold gemm. assert (Ex : exists f, (if t1 then transpose (mkM (v_cols x) (tab (v_rows x) (v_cols x) gx)) else mkM (v_cols x) (tab (v_rows x) (v_cols x) gx)) = mk (rows_of x t1) (cols_of x t1) f).
    { destruct t1; [exists (fun j i => gx i j); apply transpose_tab | exists gx; reflexivity]. }
    assert (Ey : exists f, (if t2 then transpose (mkM (v_cols y) (tab (v_rows y) (v_cols y) gy)) else mkM (v_cols y) (tab (v_rows y) (v_cols y) gy)) = mk (rows_of y t2) (cols_of y t2) f).
    { destruct t2; [exists (fun j i => gy i j); apply transpose_tab | exists gy; reflexivity]. }
    destruct Ex as [f ->], Ey as [f' ->]. intros E. destruct (Nat.eq_dec (cols_of x t1) (rows_of y t2)) as [Hk|Hk].
    - split; [exact Hk|]. rewrite Hk in E. rewrite matmul_mk in E. injection E as <-. eexists. reflexivity.
    - exfalso. revert E. unfold matmul. rewrite mk_cols, mk_rows. rewrite (proj2 (Nat.eqb_neq _ _) Hk). discriminate.
  Qed.
  Lemma rows_same u v t : same_shape u v -> rows_of u t = rows_of v t /\ cols_of u t = cols_of v t.
  Proof. intros [Hr Hc]. unfold rows_of, cols_of. destruct t; split; congruence. Qed.

  (** gemm up to the array for the result *)
  Lemma gemm_run junk h x y out X Y R t1 t2 : elements h x = Ok X -> elements h y = Ok Y -> gemm X Y t1 t2 = Ok R ->
    (forall e, match out with Some o => exists O, elements (h ++ e) o = Ok O /\ v_rows o = rows_of x t1 /\ v_cols o = cols_of y t2 | None => True end) ->
    exists e h' z, np_gemm junk true h x y out t1 t2 = Ok (h', z) /\ elements h' z = Ok R /\ untouched z (h ++ e) h' /\
      match out with Some o => if contiguous o then z = o else (length h <= v_buf z)%nat | None => (length h <= v_buf z)%nat end.
  Proof.
    intros Ex Ey ER Ho. destruct (contig_ok h x X Ex) as (e1 & x' & C1 & K1 & S1 & E1 & _ & _). pose proof (elements_app h e1 y Y Ey) as Ey1. destruct (contig_ok _ y Y Ey1) as (e2 & y' & C2 & K2 & S2 & E2 & _ & _).
    pose proof (elements_app _ e2 x' X E1) as E1'. rewrite <- app_assoc in C2, E2, E1'.
    destruct (elements_tab _ _ _ Ex) as (gx & -> & _). destruct (elements_tab _ _ _ Ey) as (gy & -> & _). destruct (gemm_tab _ _ _ _ _ _ _ ER) as (Hk & g & ->).
    destruct (rows_same _ _ t1 S1) as [R1 R2]. destruct (rows_same _ _ t2 S2) as [R3 R4].
    assert (A : exists e3 z O, (match out with Some out => as_contig (h ++ e1 ++ e2) out | None => Ok (new_c (h ++ e1 ++ e2) (rows_of x t1) (cols_of y t2) (mkM (cols_of y t2) (repeat (repeat junk (cols_of y t2)) (rows_of x t1)))) end) = Ok ((h ++ e1 ++ e2) ++ e3, z) /\ contiguous z = true /\ v_rows z = rows_of x t1 /\ v_cols z = cols_of y t2 /\ elements ((h ++ e1 ++ e2) ++ e3) z = Ok O /\
      match out with Some o => if contiguous o then z = o else (length h <= v_buf z)%nat | None => (length h <= v_buf z)%nat end).
    { destruct out as [o|].
      - destruct (Ho (e1 ++ e2)) as (O & EO & Or & Oc). destruct (contig_ok _ o O EO) as (e3 & z & C3 & K3 & S3 & E3 & Y3 & N3). exists e3, z, O. split; [exact C3|]. split; [exact K3|]. destruct S3 as [S3 S3']. split; [congruence|]. split; [congruence|]. split; [exact E3|].
        destruct (contiguous o) eqn:Hco; [apply (Y3 eq_refl) | rewrite (N3 eq_refl); rewrite app_length; lia].
      - eexists. eexists. exists (mkM (cols_of y t2) (tab (rows_of x t1) (cols_of y t2) (fun _ _ => junk))). split; [unfold new_c; reflexivity|]. split; [unfold contiguous; cbn; rewrite Z.eqb_refl; now rewrite !orb_true_r|]. split; [reflexivity|]. split; [reflexivity|]. split.
        + refine (elements_intro _ _ (fun _ _ => junk) _). cbn [v_rows v_cols v_buf]. intros i j Hi Hj. rewrite addr_c. rewrite <- (new_c_load (h ++ e1 ++ e2) (rows_of x t1) (cols_of y t2) (fun _ _ => junk) i j Hi Hj). unfold new_c. cbn [fst m_rows]. do 4 f_equal.
          unfold tab. assert (EE : forall (A : Type) (a : A) n, map (fun _ => a) (seq 0 n) = repeat a n). { intros A a n. generalize 0%nat. induction n as [|n IH]; intros k; [reflexivity|]. cbn. now rewrite IH. }
          rewrite !EE. reflexivity.
        + cbn [v_buf]. rewrite app_length. lia. }
    destruct A as (e3 & z & O & C3 & K3 & Zr & Zc & E3 & ZZ).
    destruct (store_view _ z O (rows_of x t1) (cols_of y t2) g E3 K3 Zr Zc) as (h' & W1 & W2 & W3 & W4). exists (e1 ++ e2 ++ e3), h', z. split.
    - unfold np_gemm. rewrite C1. cbn [bind]. rewrite C2. cbn [bind].
      change (if t1 then v_cols x' else v_rows x') with (rows_of x' t1). change (if t1 then v_rows x' else v_cols x') with (cols_of x' t1). change (if t2 then v_cols y' else v_rows y') with (rows_of y' t2). change (if t2 then v_rows y' else v_cols y') with (cols_of y' t2).
      rewrite R1, R2, R3, R4. rewrite (proj2 (Nat.eqb_eq _ _) Hk). cbn [negb]. rewrite C3. cbn [bind].
      rewrite (at_pointer_ok _ x' _ K1 (elements_app _ e3 _ _ E1')). cbn [bind]. rewrite (at_pointer_ok _ y' _ K2 (elements_app _ e3 _ _ E2)). cbn [bind]. rewrite ER. cbn [bind m_rows]. rewrite W1. reflexivity.
    - split; [exact W3|]. split; [|exact ZZ]. rewrite <- !app_assoc in W4. exact W4.
  Qed.
  Lemma gemm_new junk h x y X Y R t1 t2 : elements h x = Ok X -> elements h y = Ok Y -> gemm X Y t1 t2 = Ok R ->
    exists h' z, np_gemm junk true h x y None t1 t2 = Ok (h', z) /\ elements h' z = Ok R /\ (length h <= v_buf z)%nat /\ forall b p, (b < length h)%nat -> load h' b p = load h b p.
  Proof.
    intros Ex Ey ER. destruct (gemm_run junk h x y None X Y R t1 t2 Ex Ey ER) as (e & h' & z & G1 & G2 & G3 & G4); [intros e; exact I|]. exists h', z. split; [exact G1|]. split; [exact G2|]. split; [exact G4|].
    intros b p Hb. rewrite G3 by (left; lia). now apply load_app_err.
  Qed.
  Lemma gemm_out junk h x y o X Y R O t1 t2 : elements h x = Ok X -> elements h y = Ok Y -> gemm X Y t1 t2 = Ok R -> elements h o = Ok O -> v_rows o = length (m_rows R) -> v_cols o = m_cols R ->
    v_buf o <> v_buf x -> v_buf o <> v_buf y -> contiguous o = true ->
    exists h', np_gemm junk true h x y (Some o) t1 t2 = Ok (h', o) /\ elements h' o = Ok R /\ forall b p, (b < length h)%nat -> (b <> v_buf o \/ p < v_off o \/ v_off o + Z.of_nat (size o) <= p) -> load h' b p = load h b p.
  Proof.
    intros Ex Ey ER Eo Hr Hc _ _ Hk. destruct (elements_tab _ _ _ Ex) as (gx & -> & _). destruct (elements_tab _ _ _ Ey) as (gy & -> & _). destruct (gemm_tab _ _ _ _ _ _ _ ER) as (Hk' & g & ->). cbn [m_rows m_cols] in Hr, Hc. rewrite tab_length in Hr.
    destruct (gemm_run junk h x y (Some o) _ _ _ t1 t2 Ex Ey ER) as (e & h' & z & G1 & G2 & G3 & G4); [intros e; exists O; split; [now apply elements_app|]; split; assumption|]. rewrite Hk in G4. subst z. exists h'. split; [exact G1|]. split; [exact G2|].
    intros b p Hb Hbp. rewrite G3 by exact Hbp. now apply load_app_err.
  Qed.
  Lemma gemm_out_strided junk h x y o X Y R O t1 t2 : elements h x = Ok X -> elements h y = Ok Y -> gemm X Y t1 t2 = Ok R -> elements h o = Ok O -> v_rows o = length (m_rows R) -> v_cols o = m_cols R -> contiguous o = false ->
    exists h' z, np_gemm junk true h x y (Some o) t1 t2 = Ok (h', z) /\ elements h' z = Ok R /\ elements h' o = Ok O.
  Proof.
    intros Ex Ey ER Eo Hr Hc Hk. destruct (elements_tab _ _ _ Ex) as (gx & -> & _). destruct (elements_tab _ _ _ Ey) as (gy & -> & _). destruct (gemm_tab _ _ _ _ _ _ _ ER) as (Hk' & g & ->). cbn [m_rows m_cols] in Hr, Hc. rewrite tab_length in Hr.
    destruct (gemm_run junk h x y (Some o) _ _ _ t1 t2 Ex Ey ER) as (e & h' & z & G1 & G2 & G3 & G4); [intros e; exists O; split; [now apply elements_app|]; split; assumption|]. rewrite Hk in G4. exists h', z. split; [exact G1|]. split; [exact G2|].
    destruct (elements_tab _ _ _ Eo) as (go & -> & Go). apply elements_intro. intros i j Hi Hj. pose proof (Go i j Hi Hj) as L. pose proof (load_buf _ _ _ _ L). rewrite G3 by (left; lia). now apply load_app.
  Qed.
  Lemma gemm_errors junk h x y out X Y (t1 t2 : bool) : elements h x = Ok X -> elements h y = Ok Y -> (if t1 then v_rows x else v_cols x) <> (if t2 then v_cols y else v_rows y) -> forall supported, np_gemm junk supported h x y out t1 t2 = Err ValueError.
  Proof.
    intros Ex Ey Hk supported. destruct (contig_ok h x X Ex) as (e1 & x' & C1 & _ & [S1 S1'] & _). destruct (contig_ok _ y Y (elements_app h e1 y Y Ey)) as (e2 & y' & C2 & _ & [S2 S2'] & _).
    unfold np_gemm. rewrite C1. cbn [bind]. rewrite C2. cbn [bind]. rewrite S1, S1', S2, S2'. rewrite (proj2 (Nat.eqb_neq _ _) Hk). reflexivity.
  Qed.

  (** ** adam *)
  Lemma plain_elements h v n l : plain1 v n -> elements h v = Ok (mkM n [l]) -> length l = n /\ forall k, (k < n)%nat -> load h (v_buf v) (v_off v + Z.of_nat k) = Ok (nth k l (nZ 0)).
  Proof.
    intros (Hr & Hc & Hs) E. destruct (elements_tab _ _ _ E) as (g & EM & G). rewrite Hr, Hc in *. unfold tab in EM. cbn [seq map] in EM. injection EM as ->. split; [now rewrite map_length, seq_length|].
    intros k Hk. specialize (G 0%nat k ltac:(lia) Hk). unfold addr in G. rewrite Hs in G. replace (v_off v + Z.of_nat k) with (v_off v + Z.of_nat 0 * v_s0 v + Z.of_nat k * 1) by lia. rewrite G. f_equal.
    rewrite (nth_indep _ (nZ 0) (g 0%nat 0%nat)) by (rewrite map_length, seq_length; lia). rewrite map_nth, seq_nth by lia. reflexivity.
  Qed.
  Lemma plain_intro h v n l : plain1 v n -> length l = n -> (forall k, (k < n)%nat -> load h (v_buf v) (v_off v + Z.of_nat k) = Ok (nth k l (nZ 0))) -> elements h v = Ok (mkM n [l]).
  Proof.
    intros (Hr & Hc & Hs) Hl G. rewrite (elements_intro h v (fun _ j => nth j l (nZ 0))).
    - rewrite Hr, Hc. unfold tab. cbn [seq map]. do 3 f_equal. clear G. subst n. rewrite <- Hl. clear. induction l as [|x l IH]; [reflexivity|]. cbn [length seq map nth]. f_equal. rewrite <- seq_shift, map_map. exact IH.
    - rewrite Hr, Hc. intros i j Hi Hj. rewrite <- (G j Hj). unfold addr. rewrite Hs. f_equal. replace i with 0%nat by lia. lia.
  Qed.
  Lemma load_run_list h b n l : forall p, length l = n -> (forall k, (k < n)%nat -> load h b (p + Z.of_nat k) = Ok (nth k l (nZ 0))) -> load_run h b p n = Ok l.
  Proof.
    intros p Hl G. rewrite (load_run_ok h b n p (fun k => nth k l (nZ 0)) G). f_equal. subst n. clear. induction l as [|x l IH]; [reflexivity|]. cbn [length seq map nth]. f_equal. rewrite <- seq_shift, map_map. exact IH.
  Qed.
  Lemma store_plain h v n l l' : plain1 v n -> elements h v = Ok (mkM n [l]) -> length l' = n ->
    exists h', store_run h (v_buf v) (v_off v) l' = Ok h' /\ elements h' v = Ok (mkM n [l']) /\ forall b p, b <> v_buf v -> load h' b p = load h b p.
  Proof.
    intros Hp E Hl. destruct (plain_elements h v n l Hp E) as [L G]. destruct (store_run_ok l' h (v_buf v) (v_off v)) as (h' & E' & _ & G').
    { intros k Hk. eexists. apply G. lia. }
    exists h'. split; [exact E'|]. split.
    - apply plain_intro; [exact Hp | exact Hl|]. intros k Hk. rewrite G'. rewrite Nat.eqb_refl. rewrite (proj2 (Z.leb_le _ _)) by lia. rewrite (proj2 (Z.ltb_lt _ _)) by lia. cbn [andb]. do 2 f_equal. lia.
    - intros b p Hb. rewrite G'. destruct (Nat.eqb_spec b (v_buf v)); [congruence|reflexivity].
  Qed.
  Lemma plain_other h h' v w n l : plain1 w n -> elements h w = Ok (mkM n [l]) -> v_buf w <> v_buf v -> (forall b p, b <> v_buf v -> load h' b p = load h b p) -> elements h' w = Ok (mkM n [l]).
  Proof.
    intros Hp E Hb Hl. destruct (plain_elements h w n l Hp E) as [L G]. apply plain_intro; [exact Hp | exact L|]. intros k Hk. rewrite Hl by exact Hb. now apply G.
  Qed.
  Lemma numpy_adam_lengths (w g m1 m2 : list T) b1 b2 eps lr n : length w = n -> length g = n -> length m1 = n -> length m2 = n ->
    let '(w', g', m1', m2') := numpy_adam w g m1 m2 b1 b2 eps lr in length w' = n /\ length g' = n /\ length m1' = n /\ length m2' = n.
  Proof.
    intros Lw Lg L1 L2. unfold numpy_adam. pose proof (momentum_elementwise g m1 m2 b1 b2 eps ltac:(lia) ltac:(lia)) as M. destruct (adam_momentum g m1 m2 b1 b2 eps) as [[g' m1'] m2']. destruct M as (M1 & M2 & M3 & _).
    rewrite map_length. unfold vmap2. rewrite map_length, combine_length. lia.
  Qed.
  Lemma adam_ok h w g m1 m2 n lw lg l1 l2 b1 b2 eps lr w' g' m1' m2' : NoDup [v_buf w; v_buf g; v_buf m1; v_buf m2] -> plain1 w n -> plain1 g n -> plain1 m1 n -> plain1 m2 n ->
    elements h w = Ok (mkM n [lw]) -> elements h g = Ok (mkM n [lg]) -> elements h m1 = Ok (mkM n [l1]) -> elements h m2 = Ok (mkM n [l2]) -> numpy_adam lw lg l1 l2 b1 b2 eps lr = (w', g', m1', m2') ->
    exists h', np_adam h w g m1 m2 b1 b2 eps lr = Ok h' /\ elements h' w = Ok (mkM n [w']) /\ elements h' g = Ok (mkM n [g']) /\ elements h' m1 = Ok (mkM n [m1']) /\ elements h' m2 = Ok (mkM n [m2']).
  Proof.
    intros ND Pw Pg P1 P2 Ew Eg E1 E2 EA. destruct (plain_elements _ _ _ _ Pw Ew) as [Lw Gw]. destruct (plain_elements _ _ _ _ Pg Eg) as [Lg Gg]. destruct (plain_elements _ _ _ _ P1 E1) as [L1 G1]. destruct (plain_elements _ _ _ _ P2 E2) as [L2 G2].
    pose proof (numpy_adam_lengths lw lg l1 l2 b1 b2 eps lr n Lw Lg L1 L2) as LL. rewrite EA in LL. destruct LL as (LL1 & LL2 & LL3 & LL4).
    assert (D : v_buf w <> v_buf g /\ v_buf w <> v_buf m1 /\ v_buf w <> v_buf m2 /\ v_buf g <> v_buf m1 /\ v_buf g <> v_buf m2 /\ v_buf m1 <> v_buf m2).
    { inversion ND as [|? ? N1 ND1]; subst. inversion ND1 as [|? ? N2 ND2]; subst. inversion ND2 as [|? ? N3 ND3]; subst. cbn in N1, N2, N3. intuition congruence. }
    destruct D as (D1 & D2 & D3 & D4 & D5 & D6).
    unfold np_adam. rewrite !check_same by (unfold same_shape, plain1 in *; intuition congruence). cbn [bind]. rewrite (proj1 (proj2 Pw)).
    rewrite (load_run_list h (v_buf w) n lw (v_off w) Lw Gw), (load_run_list h (v_buf g) n lg (v_off g) Lg Gg), (load_run_list h (v_buf m1) n l1 (v_off m1) L1 G1), (load_run_list h (v_buf m2) n l2 (v_off m2) L2 G2). cbn [bind]. rewrite EA.
    destruct (store_plain h m1 n l1 m1' P1 E1 LL3) as (h1 & -> & F1 & U1). cbn [bind].
    pose proof (plain_other h h1 m1 m2 n l2 P2 E2 ltac:(congruence) U1) as E2a. pose proof (plain_other h h1 m1 w n lw Pw Ew D2 U1) as Ewa. pose proof (plain_other h h1 m1 g n lg Pg Eg D4 U1) as Ega.
    destruct (store_plain h1 m2 n l2 m2' P2 E2a LL4) as (h2 & -> & F2 & U2). cbn [bind].
    pose proof (plain_other h1 h2 m2 m1 n m1' P1 F1 D6 U2) as F1a. pose proof (plain_other h1 h2 m2 w n lw Pw Ewa D3 U2) as Ewb. pose proof (plain_other h1 h2 m2 g n lg Pg Ega D5 U2) as Egb.
    destruct (store_plain h2 w n lw w' Pw Ewb LL1) as (h3 & -> & F3 & U3). cbn [bind].
    pose proof (plain_other h2 h3 w m1 n m1' P1 F1a ltac:(congruence) U3) as F1b. pose proof (plain_other h2 h3 w m2 n m2' P2 F2 ltac:(congruence) U3) as F2b. pose proof (plain_other h2 h3 w g n lg Pg Egb ltac:(congruence) U3) as Egc.
    destruct (store_plain h3 g n lg g' Pg Egc LL2) as (h4 & E4 & F4 & U4). exists h4. split; [exact E4|].
    split; [apply (plain_other h3 h4 g w n w' Pw F3 D1 U4)|]. split; [exact F4|]. split; [apply (plain_other h3 h4 g m1 n m1' P1 F1b ltac:(congruence) U4) | apply (plain_other h3 h4 g m2 n m2' P2 F2b ltac:(congruence) U4)].
  Qed.
End View.

(** ** Arrays with gaps *)
Lemma unary_strided : forall T (NT : Num T) super (f : T -> T) (a b c : T), let X := mkView 0 0 1 2 4 2 in
  elements [[a; b; c]] X = Ok (mkM 2 [[a; c]]) /\ np_unary super f Float32 [[a; b; c]] X true = Ok ([[f a; f b; c]], X) /\ elements [[f a; f b; c]] X = Ok (mkM 2 [[f a; c]]).
Proof. intros. split; [reflexivity|]. split; reflexivity. Qed.
Lemma unary_reversed : forall T (NT : Num T) super (f : T -> T) (a b : T), let X := mkView 0 1 1 2 2 (-1) in
  elements [[a; b]] X = Ok (mkM 2 [[b; a]]) /\ np_unary super f Float32 [[a; b]] X true = Err MemFault.
Proof. intros. split; reflexivity. Qed.
Lemma binary_order : forall T (NT : Num T) super (f : T -> T -> T) (d00 d01 d10 d11 x00 x01 x10 x11 : T),
  let h := [[d00; d10; d01; d11]; [x00; x01; x10; x11]] in let dY := mkView 0 0 2 2 1 2 in let X := mkView 1 0 2 2 2 1 in
  elements h dY = Ok (mkM 2 [[d00; d01]; [d10; d11]]) /\ elements h X = Ok (mkM 2 [[x00; x01]; [x10; x11]]) /\
  exists h' dX, np_binary super false f Float32 Float32 h dY X false = Ok (h', dX) /\ elements h' dX = Ok (mkM 2 [[f d00 x00; f d01 x10]; [f d10 x01; f d11 x11]]).
Proof. intros. split; [reflexivity|]. split; [reflexivity|]. do 2 eexists. split; reflexivity. Qed.
Lemma binary_gaps : forall T (NT : Num T) super (f : T -> T -> T) (d0 d1 x0 other x1 : T),
  let h := [[d0; d1]; [x0; other; x1]] in let dY := mkView 0 0 1 2 2 1 in let X := mkView 1 0 1 2 4 2 in
  elements h X = Ok (mkM 2 [[x0; x1]]) /\ exists h' dX, np_binary super false f Float32 Float32 h dY X false = Ok (h', dX) /\ elements h' dX = Ok (mkM 2 [[f d0 x0; f d1 other]]).
Proof. intros. split; [reflexivity|]. do 2 eexists. split; reflexivity. Qed.
Lemma mish_other : forall T (NT : Num T) super (cpu_mish : T -> T -> T) threshold (h : heap T) X inplace, np_mish super cpu_mish OtherType threshold h X inplace = super (nZ 20) h X inplace.
Proof. reflexivity. Qed.
Lemma gemm_small : forall T (NT : Num T) junk (a b o : T), np_gemm junk true [[a]; [b; b]; [o]] (mkView 0 0 1 1 1 1) (mkView 1 0 1 2 2 1) (Some (mkView 2 0 1 1 1 1)) false false = Err MemFault.
Proof. reflexivity. Qed.
Lemma adam_strided : forall T (NT : Num T) (w0 w1 w2 g0 g1 g2 m0 m1 m2 v0 v1 v2 b1 b2 eps lr : T), let at_ b := mkView b 0 1 2 4 2 in
  let '(w, g, m, v) := numpy_adam [w0; w1] [g0; g1] [m0; m1] [v0; v1] b1 b2 eps lr in
  np_adam [[w0; w1; w2]; [g0; g1; g2]; [m0; m1; m2]; [v0; v1; v2]] (at_ 0%nat) (at_ 1%nat) (at_ 2%nat) (at_ 3%nat) b1 b2 eps lr = Ok [w ++ [w2]; g ++ [g2]; m ++ [m2]; v ++ [v2]] /\
  elements [[w0; w1; w2]; [g0; g1; g2]; [m0; m1; m2]; [v0; v1; v2]] (at_ 0%nat) = Ok (mkM 2 [[w0; w2]]).
Proof. intros. cbn. split; reflexivity. Qed.
