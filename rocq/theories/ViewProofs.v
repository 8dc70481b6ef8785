(** Proofs for C67. *)
From Coq Require Import Lia ZArith List Bool.
From Verif Require Import BaseFacts ViewSpec MatProofs CudaRowProofs.
Import ListNotations.
Local Open Scope Z_scope.
Set Default Goal Selector "!".

Definition tab {A} (r c : nat) (g : nat -> nat -> A) : list (list A) := map (fun i => map (g i) (seq 0 c)) (seq 0 r).

Lemma tab_ext {A} r c (g g' : nat -> nat -> A) : (forall i j, (i < r)%nat -> (j < c)%nat -> g i j = g' i j) -> tab r c g = tab r c g'.
Proof.
  intros E. unfold tab. apply map_ext_in. intros i Hi. apply in_seq in Hi. apply map_ext_in. intros j Hj. apply in_seq in Hj. apply E; lia.
Qed.
Lemma tab_length {A} r c (g : nat -> nat -> A) : length (tab r c g) = r. Proof. unfold tab. now rewrite map_length, seq_length. Qed.
Lemma concat_tab {A} r c (g : nat -> nat -> A) : concat (tab r c g) = map (fun k => g (k / c) (k mod c))%nat (seq 0 (r * c)).
Proof.
  destruct (Nat.eq_dec c 0) as [->|Hc].
  - rewrite Nat.mul_0_r. cbn [seq map]. unfold tab. cbn [seq map]. induction (seq 0 r) as [|x l IH]; [reflexivity|exact IH].
  - unfold tab. assert (E : forall k, concat (map (fun i => map (g i) (seq 0 c)) (seq k r)) = map (fun k => g (k / c) (k mod c))%nat (seq (k * c) (r * c))); [|apply (E 0%nat)].
    induction r as [|r IH]; intros k; [reflexivity|]. cbn [seq map concat]. replace (S r * c)%nat with (c + r * c)%nat by lia. rewrite seq_app, map_app.
    rewrite IH. replace (S k * c)%nat with (k * c + c)%nat by lia. f_equal.
    assert (E : forall n m, seq (m + n) c = map (fun j => (m + j)%nat) (seq n c)).
    { clear. induction c as [|c IH]; intros n m; [reflexivity|]. cbn. f_equal. rewrite <- IH. f_equal. lia. }
    specialize (E 0%nat (k * c)%nat). rewrite Nat.add_0_r in E. rewrite E, map_map. apply map_ext_in. intros j Hj. apply in_seq in Hj.
    rewrite Nat.add_comm, Nat.div_add, Nat.mod_add, Nat.div_small, Nat.mod_small by lia. reflexivity.
Qed.
Lemma nth_error_tab {A} r c (g : nat -> nat -> A) i j : (i < r)%nat -> (j < c)%nat -> nth_error (concat (tab r c g)) (i * c + j) = Some (g i j).
Proof.
  intros Hi Hj. rewrite concat_tab. rewrite nth_error_map. assert (E : (i * c + j < r * c)%nat) by nia.
  rewrite (nth_error_nth' _ 0%nat) by (now rewrite seq_length). rewrite seq_nth by assumption. cbn [option_map Nat.add].
  rewrite (Nat.add_comm (i * c)), Nat.div_add, Nat.mod_add, Nat.div_small, Nat.mod_small by lia. reflexivity.
Qed.

Section View.
  Context {T : Type} {NT : Num T}.
  Implicit Types h : heap T.

  (** ** Loads and stores *)
  Lemma load_nonneg h b p x : load h b p = Ok x -> 0 <= p. Proof. unfold load. destruct (Z.ltb_spec p 0); [discriminate|lia]. Qed.
  Lemma load_buf h b p x : load h b p = Ok x -> (b < length h)%nat.
  Proof. unfold load. destruct (p <? 0); [discriminate|]. destruct (nth_error h b) eqn:E; [|discriminate]. intros _. apply nth_error_Some. congruence. Qed.
  Lemma load_app h e b p x : load h b p = Ok x -> load (h ++ e) b p = Ok x.
  Proof. intros E. pose proof (load_buf _ _ _ _ E). revert E. unfold load. rewrite nth_error_app1 by assumption. auto. Qed.
  Lemma load_app_err h e b p : (b < length h)%nat -> load (h ++ e) b p = load h b p.
  Proof. intros Hb. unfold load. now rewrite nth_error_app1. Qed.
  Lemma store_load h b p x y : load h b p = Ok y -> exists h', store h b p x = Ok h' /\ length h' = length h /\
    forall b' q, load h' b' q = if (Nat.eqb b' b && (q =? p))%bool then Ok x else load h b' q.
  Proof.
    intros E. unfold store. rewrite E. cbn [bind]. pose proof (load_nonneg _ _ _ _ E) as Hp. pose proof (load_buf _ _ _ _ E) as Hb. revert E. unfold load at 1. destruct (Z.ltb_spec p 0); [lia|].
    destruct (nth_error h b) as [m|] eqn:Em; [|discriminate]. destruct (nth_error m (Z.to_nat p)) as [z|] eqn:Ez; [|discriminate]. intros _. eexists. split; [reflexivity|]. split; [apply set_nth_length|].
    intros b' q. unfold load. destruct (Nat.eqb_spec b' b) as [->|Hn]; cbn [andb].
    - rewrite nth_error_set_nth_eq by assumption. rewrite Em. destruct (Z.eqb_spec q p) as [->|Hq].
      + destruct (Z.ltb_spec p 0); [lia|]. rewrite nth_error_set_nth_eq; [reflexivity|]. apply nth_error_Some. congruence.
      + destruct (Z.ltb_spec q 0); [reflexivity|]. rewrite nth_error_set_nth_neq; [reflexivity | lia].
    - now rewrite nth_error_set_nth_neq by congruence.
  Qed.

  (** ** Views *)
  Lemma elements_tab h v M : elements h v = Ok M -> exists g, M = mkM (v_cols v) (tab (v_rows v) (v_cols v) g) /\
    forall i j, (i < v_rows v)%nat -> (j < v_cols v)%nat -> load h (v_buf v) (addr v i j) = Ok (g i j).
  Proof.
    unfold elements. destruct (mapM _ _) as [rows|] eqn:E; [|discriminate]. cbn [bind]. injection 1 as <-.
    set (g := fun i j => match load h (v_buf v) (addr v i j) with Ok x => x | Err _ => nZ 0 end).
    assert (G : forall i j, (i < v_rows v)%nat -> (j < v_cols v)%nat -> load h (v_buf v) (addr v i j) = Ok (g i j)).
    { intros i j Hi Hj. assert (Ei : nth_error (seq 0 (v_rows v)) i = Some i) by (rewrite (nth_error_nth' _ 0%nat) by (now rewrite seq_length); now rewrite seq_nth).
      destruct (mapM_nth_error _ _ _ _ _ E Ei) as (row & Er & _). 
      assert (Ej : nth_error (seq 0 (v_cols v)) j = Some j) by (rewrite (nth_error_nth' _ 0%nat) by (now rewrite seq_length); now rewrite seq_nth).
      destruct (mapM_nth_error _ _ _ _ _ Er Ej) as (x & Ex & _). unfold g. now rewrite Ex. }
    exists g. split; [|exact G]. f_equal. enough (Ok rows = Ok (tab (v_rows v) (v_cols v) g)) by congruence. rewrite <- E. unfold tab. apply mapM_ok_map.
    intros i Hi. apply in_seq in Hi. apply mapM_ok_map. intros j Hj. apply in_seq in Hj. apply G; lia.
  Qed.
  Lemma elements_intro h v g : (forall i j, (i < v_rows v)%nat -> (j < v_cols v)%nat -> load h (v_buf v) (addr v i j) = Ok (g i j)) ->
    elements h v = Ok (mkM (v_cols v) (tab (v_rows v) (v_cols v) g)).
  Proof.
    intros G. unfold elements. erewrite mapM_ok_map; [reflexivity|]. intros i Hi. apply in_seq in Hi. apply mapM_ok_map. intros j Hj. apply in_seq in Hj. apply G; lia.
  Qed.
  Lemma transpose_tab r c (g : nat -> nat -> T) : transpose (mkM c (tab r c g)) = mkM r (tab c r (fun j i => g i j)).
  Proof.
    unfold transpose. cbn [m_rows m_cols]. rewrite tab_length. f_equal. unfold tab. apply map_ext_in. intros j Hj. apply in_seq in Hj. unfold col. rewrite map_map. apply map_ext_in.
    intros i Hi. rewrite (nth_indep _ (nZ 0) (g i 0%nat)) by (rewrite map_length, seq_length; lia). rewrite map_nth. rewrite seq_nth by lia. reflexivity.
  Qed.
  Lemma mmap_tab f r c (g : nat -> nat -> T) : mmap f (mkM c (tab r c g)) = mkM c (tab r c (fun i j => f (g i j))).
  Proof. unfold mmap, tab. cbn [m_rows m_cols]. f_equal. rewrite map_map. apply map_ext. intros i. now rewrite map_map. Qed.
  Lemma combine_map {A B C} (f : A -> B) (g : A -> C) l : combine (map f l) (map g l) = map (fun x => (f x, g x)) l.
  Proof. induction l as [|x l IH]; [reflexivity|]. cbn. now rewrite IH. Qed.
  Lemma mbin_tab f r c (g g' : nat -> nat -> T) : mbin f (mkM c (tab r c g)) (mkM c (tab r c g')) = Ok (mkM c (tab r c (fun i j => f (g i j) (g' i j)))).
  Proof.
    unfold mbin, mshape_eq. cbn [m_rows m_cols]. rewrite !tab_length, !Nat.eqb_refl. cbn [andb]. do 2 f_equal. unfold tab. rewrite combine_map, map_map. apply map_ext. intros i. cbn [fst snd].
    unfold vmap2. now rewrite combine_map, map_map.
  Qed.
  (** New arrays *)
  Lemma load_new h m p x : 0 <= p -> nth_error m (Z.to_nat p) = Some x -> load (h ++ [m]) (length h) p = Ok x.
  Proof. intros Hp E. unfold load. destruct (Z.ltb_spec p 0); [lia|]. rewrite nth_error_app2 by lia. rewrite Nat.sub_diag. cbn. now rewrite E. Qed.
  Lemma new_c_load h r c g i j : (i < r)%nat -> (j < c)%nat -> load (fst (new_c h r c (mkM c (tab r c g)))) (length h) (Z.of_nat i * Z.of_nat c + Z.of_nat j) = Ok (g i j).
  Proof.
    intros Hi Hj. unfold new_c. cbn [fst m_rows]. apply load_new; [lia|]. replace (Z.to_nat (Z.of_nat i * Z.of_nat c + Z.of_nat j)) with (i * c + j)%nat by lia. now apply nth_error_tab.
  Qed.
  Lemma new_f_load h r c g i j : (i < r)%nat -> (j < c)%nat -> load (fst (new_f h r c (mkM c (tab r c g)))) (length h) (Z.of_nat j * Z.of_nat r + Z.of_nat i) = Ok (g i j).
  Proof.
    intros Hi Hj. unfold new_f. rewrite transpose_tab. cbn [fst m_rows]. apply load_new; [lia|]. replace (Z.to_nat (Z.of_nat j * Z.of_nat r + Z.of_nat i)) with (j * r + i)%nat by lia.
    now rewrite (nth_error_tab c r (fun j i => g i j)).
  Qed.
  Lemma addr_c b r c i j : addr (mkView b 0 r c (Z.of_nat c) 1) i j = Z.of_nat i * Z.of_nat c + Z.of_nat j. Proof. unfold addr. cbn. lia. Qed.
  Lemma addr_f b r c i j : addr (mkView b 0 r c 1 (Z.of_nat r)) i j = Z.of_nat j * Z.of_nat r + Z.of_nat i. Proof. unfold addr. cbn. lia. Qed.

  Lemma contiguous_addr v : contiguous v = true -> forall i j, (i < v_rows v)%nat -> (j < v_cols v)%nat -> addr v i j = v_off v + Z.of_nat i * Z.of_nat (v_cols v) + Z.of_nat j.
  Proof.
    unfold contiguous, addr, size. intros E i j Hi Hj. apply orb_prop in E. destruct E as [E|E]; [apply Nat.eqb_eq in E; nia|]. apply andb_prop in E. destruct E as [E1 E2]. apply orb_prop in E1, E2.
    assert (F1 : Z.of_nat i * v_s0 v = Z.of_nat i * Z.of_nat (v_cols v)).
    { destruct E1 as [E1|E1]; [apply Nat.eqb_eq in E1; replace i with 0%nat by lia; reflexivity | apply Z.eqb_eq in E1; now rewrite E1]. }
    assert (F2 : Z.of_nat j * v_s1 v = Z.of_nat j).
    { destruct E2 as [E2|E2]; [apply Nat.eqb_eq in E2; replace j with 0%nat by lia; reflexivity | apply Z.eqb_eq in E2; rewrite E2; lia]. }
    lia.
  Qed.
  Lemma flip_addr v i j : addr (flip v) i j = addr v j i. Proof. unfold addr, flip. cbn. lia. Qed.
  Lemma dense_within v : dense v -> forall i j, (i < v_rows v)%nat -> (j < v_cols v)%nat -> v_off v <= addr v i j < v_off v + Z.of_nat (size v).
  Proof.
    intros [E|E] i j Hi Hj; unfold size.
    - rewrite (contiguous_addr v E i j Hi Hj). nia.
    - rewrite <- flip_addr. rewrite (contiguous_addr _ E j i) by (cbn; assumption). cbn. nia.
  Qed.
  (** Every piece of the memory of a dense array is an element *)
  Lemma dense_cells h v M : dense v -> elements h v = Ok M -> forall k, (k < size v)%nat -> exists x, load h (v_buf v) (v_off v + Z.of_nat k) = Ok x.
  Proof.
    intros Hd E k Hk. destruct (elements_tab _ _ _ E) as (g & _ & G). unfold size in Hk. destruct Hd as [Hd|Hd].
    - pose proof (Nat.div_mod k (v_cols v) ltac:(nia)) as D. pose proof (Nat.mod_upper_bound k (v_cols v) ltac:(nia)) as D2. assert (D3 : (k / v_cols v < v_rows v)%nat) by (apply Nat.div_lt_upper_bound; nia).
      specialize (G _ _ D3 D2). rewrite (contiguous_addr v Hd _ _ D3 D2) in G. eexists. rewrite <- G. f_equal. nia.
    - pose proof (Nat.div_mod k (v_rows v) ltac:(nia)) as D. pose proof (Nat.mod_upper_bound k (v_rows v) ltac:(nia)) as D2. assert (D3 : (k / v_rows v < v_cols v)%nat) by (apply Nat.div_lt_upper_bound; nia).
      specialize (G _ _ D2 D3). rewrite <- flip_addr in G. rewrite (contiguous_addr _ Hd _ _) in G by (cbn; assumption). cbn in G. eexists. rewrite <- G. f_equal. nia.
  Qed.

  (** ** Loops *)
  Lemma each_ok f n : forall h b p, (forall k, (k < n)%nat -> exists x, load h b (p + Z.of_nat k) = Ok x) ->
    exists h', each f h b p n = Ok h' /\ length h' = length h /\
      forall b' q, load h' b' q = if (Nat.eqb b' b && (p <=? q) && (q <? p + Z.of_nat n))%bool then (let* x := load h b q in Ok (f x)) else load h b' q.
  Proof.
    induction n as [|n IH]; intros h b p Hl.
    - exists h. split; [reflexivity|]. split; [reflexivity|]. intros b' q. replace (_ && _ && _)%bool with false; [reflexivity|]. symmetry. rewrite <- andb_assoc. apply andb_false_intro2. destruct (Z.leb_spec p q); [|reflexivity]. apply Z.ltb_ge. lia.
    - destruct (Hl 0%nat ltac:(lia)) as (x & E0). rewrite Z.add_0_r in E0. cbn [each]. rewrite E0. cbn [bind]. destruct (store_load h b p (f x) x E0) as (h1 & -> & L1 & G1). cbn [bind].
      destruct (IH h1 b (p + 1)) as (h2 & E2 & L2 & G2).
      { intros k Hk. rewrite G1. rewrite Nat.eqb_refl. destruct (Z.eqb_spec (p + 1 + Z.of_nat k) p); [lia|]. cbn [andb]. destruct (Hl (S k) ltac:(lia)) as (y & Ey). exists y. rewrite <- Ey. f_equal. lia. }
      exists h2. split; [exact E2|]. split; [congruence|]. intros b' q. rewrite G2. rewrite !G1. destruct (Nat.eqb_spec b' b) as [->|Hb]; cbn [andb]; [|reflexivity]. rewrite Nat.eqb_refl. cbn [andb].
      destruct (Z.eqb_spec q p) as [->|Hq].
      + rewrite (proj2 (Z.leb_gt (p + 1) p)) by lia. rewrite Z.leb_refl. rewrite (proj2 (Z.ltb_lt p (p + Z.of_nat (S n)))) by lia. cbn [andb]. now rewrite E0.
      + destruct (Z.leb_spec (p + 1) q); destruct (Z.leb_spec p q); try lia; cbn [andb]; [|reflexivity]. replace (q <? p + 1 + Z.of_nat n) with (q <? p + Z.of_nat (S n)); [reflexivity|]. f_equal. lia.
  Qed.
  Lemma each2_ok f n : forall h b p b' q, b <> b' -> (forall k, (k < n)%nat -> exists x, load h b (p + Z.of_nat k) = Ok x) -> (forall k, (k < n)%nat -> exists x, load h b' (q + Z.of_nat k) = Ok x) ->
    exists h', each2 f h b p b' q n = Ok h' /\ length h' = length h /\
      forall b1 a, load h' b1 a = if (Nat.eqb b1 b && (p <=? a) && (a <? p + Z.of_nat n))%bool then (let* x := load h b a in let* y := load h b' (q + (a - p)) in Ok (f x y)) else load h b1 a.
  Proof.
    induction n as [|n IH]; intros h b p b' q Hb Hl Hr.
    - exists h. split; [reflexivity|]. split; [reflexivity|]. intros b1 a. replace (_ && _ && _)%bool with false; [reflexivity|]. symmetry. rewrite <- andb_assoc. apply andb_false_intro2. destruct (Z.leb_spec p a); [|reflexivity]. apply Z.ltb_ge. lia.
    - destruct (Hl 0%nat ltac:(lia)) as (x & E0). rewrite Z.add_0_r in E0. destruct (Hr 0%nat ltac:(lia)) as (y & F0). rewrite Z.add_0_r in F0. cbn [each2]. rewrite F0. cbn [bind]. rewrite E0. cbn [bind]. destruct (store_load h b p (f x y) x E0) as (h1 & -> & L1 & G1). cbn [bind].
      assert (G' : forall a, load h1 b' a = load h b' a) by (intros a; rewrite G1; destruct (Nat.eqb_spec b' b); [congruence|reflexivity]).
      destruct (IH h1 b (p + 1) b' (q + 1) Hb) as (h2 & E2 & L2 & G2).
      { intros k Hk. rewrite G1. rewrite Nat.eqb_refl. destruct (Z.eqb_spec (p + 1 + Z.of_nat k) p); [lia|]. cbn [andb]. destruct (Hl (S k) ltac:(lia)) as (z & Ez). exists z. rewrite <- Ez. f_equal. lia. }
      { intros k Hk. rewrite G'. destruct (Hr (S k) ltac:(lia)) as (z & Ez). exists z. rewrite <- Ez. f_equal. lia. }
      exists h2. split; [exact E2|]. split; [congruence|]. intros b1 a. rewrite G2. rewrite G'. rewrite !G1. destruct (Nat.eqb_spec b1 b) as [->|Hb1]; cbn [andb]; [|reflexivity]. rewrite Nat.eqb_refl. cbn [andb].
      destruct (Z.eqb_spec a p) as [->|Ha].
      + rewrite (proj2 (Z.leb_gt (p + 1) p)) by lia. rewrite Z.leb_refl. rewrite (proj2 (Z.ltb_lt p (p + Z.of_nat (S n)))) by lia. cbn [andb]. rewrite E0, Z.sub_diag, Z.add_0_r, F0. reflexivity.
      + destruct (Z.leb_spec (p + 1) a); destruct (Z.leb_spec p a); try lia; cbn [andb]; [|reflexivity]. replace (a <? p + 1 + Z.of_nat n) with (a <? p + Z.of_nat (S n)) by (f_equal; lia). replace (q + 1 + (a - (p + 1))) with (q + (a - p)) by lia. reflexivity.
  Qed.
  Lemma load_run_ok h b n : forall p (g : nat -> T), (forall k, (k < n)%nat -> load h b (p + Z.of_nat k) = Ok (g k)) -> load_run h b p n = Ok (map g (seq 0 n)).
  Proof.
    induction n as [|n IH]; intros p g Hg; [reflexivity|]. cbn [load_run seq map]. pose proof (Hg 0%nat ltac:(lia)) as E. rewrite Z.add_0_r in E. rewrite E. cbn [bind]. rewrite (IH (p + 1) (fun k => g (S k))).
    - cbn [bind]. do 2 f_equal. now rewrite <- seq_shift, map_map.
    - intros k Hk. rewrite <- Hg by lia. f_equal. lia.
  Qed.
  Lemma store_run_ok l : forall h b p, (forall k, (k < length l)%nat -> exists x, load h b (p + Z.of_nat k) = Ok x) ->
    exists h', store_run h b p l = Ok h' /\ length h' = length h /\
      forall b' q, load h' b' q = if (Nat.eqb b' b && (p <=? q) && (q <? p + Z.of_nat (length l)))%bool then Ok (nth (Z.to_nat (q - p)) l (nZ 0)) else load h b' q.
  Proof.
    induction l as [|x l IH]; intros h b p Hl; cbn [length] in *.
    - exists h. split; [reflexivity|]. split; [reflexivity|]. intros b' q. replace (_ && _ && _)%bool with false; [reflexivity|]. symmetry. rewrite <- andb_assoc. apply andb_false_intro2. destruct (Z.leb_spec p q); [|reflexivity]. apply Z.ltb_ge. lia.
    - destruct (Hl 0%nat ltac:(lia)) as (y & E0). rewrite Z.add_0_r in E0. cbn [store_run]. destruct (store_load h b p x y E0) as (h1 & -> & L1 & G1). cbn [bind].
      destruct (IH h1 b (p + 1)) as (h2 & E2 & L2 & G2).
      { intros k Hk. rewrite G1. rewrite Nat.eqb_refl. destruct (Z.eqb_spec (p + 1 + Z.of_nat k) p); [lia|]. cbn [andb]. destruct (Hl (S k) ltac:(lia)) as (z & Ez). exists z. rewrite <- Ez. f_equal. lia. }
      exists h2. split; [exact E2|]. split; [congruence|]. intros b' q. rewrite G2. rewrite G1. destruct (Nat.eqb_spec b' b) as [->|Hb]; cbn [andb]; [|reflexivity].
      destruct (Z.eqb_spec q p) as [->|Hq].
      + rewrite (proj2 (Z.leb_gt (p + 1) p)) by lia. rewrite Z.leb_refl. rewrite (proj2 (Z.ltb_lt p (p + Z.of_nat (S (length l))))) by lia. cbn [andb]. now rewrite Z.sub_diag.
      + destruct (Z.leb_spec (p + 1) q); destruct (Z.leb_spec p q); try lia; cbn [andb]; [|reflexivity]. replace (q <? p + 1 + Z.of_nat (length l)) with (q <? p + Z.of_nat (S (length l))) by (f_equal; lia).
        destruct (q <? p + Z.of_nat (S (length l))); [|reflexivity]. replace (Z.to_nat (q - p)) with (S (Z.to_nat (q - (p + 1)))) by lia. reflexivity.
  Qed.

  (** ** Copies *)
  Lemma copy_ok h v M : elements h v = Ok M -> exists m y, numpy_array h v = Ok (h ++ [m], y) /\ v_buf y = length h /\ v_off y = 0 /\ same_shape y v /\ elements (h ++ [m]) y = Ok M /\
    (if Z.abs (v_s0 v) <? Z.abs (v_s1 v) then contiguous (flip y) = true else contiguous y = true).
  Proof.
    intros E. destruct (elements_tab _ _ _ E) as (g & -> & G). unfold numpy_array. rewrite E. cbn [bind]. destruct (Z.abs (v_s0 v) <? Z.abs (v_s1 v)).
    - eexists. eexists. split; [unfold new_f; reflexivity|]. split; [reflexivity|]. split; [reflexivity|]. split; [split; reflexivity|]. split.
      + refine (elements_intro _ _ g _). cbn [v_rows v_cols v_buf]. intros i j Hi Hj. rewrite addr_f. apply (new_f_load h (v_rows v) (v_cols v) g i j Hi Hj).
      + unfold contiguous, flip. cbn. rewrite Z.eqb_refl. now rewrite !orb_true_r.
    - eexists. eexists. split; [unfold new_c; reflexivity|]. split; [reflexivity|]. split; [reflexivity|]. split; [split; reflexivity|]. split.
      + refine (elements_intro _ _ g _). cbn [v_rows v_cols v_buf]. intros i j Hi Hj. rewrite addr_c. apply (new_c_load h (v_rows v) (v_cols v) g i j Hi Hj).
      + unfold contiguous. cbn. rewrite Z.eqb_refl. now rewrite !orb_true_r.
  Qed.
  Lemma copy_dense h v m y : numpy_array h v = Ok (h ++ [m], y) -> (if Z.abs (v_s0 v) <? Z.abs (v_s1 v) then contiguous (flip y) = true else contiguous y = true) -> dense y.
  Proof. intros _ Hc. destruct (_ <? _); [now right | now left]. Qed.
  Lemma heap_ext_app h h' m : length h' = S (length h) -> (forall b p, b <> length h -> load h' b p = load (h ++ [m]) b p) -> forall b p, (b < length h)%nat -> load h' b p = load h b p.
  Proof. intros _ Hl b p Hb. rewrite Hl by lia. now apply load_app_err. Qed.

  (** ** Unary kernels *)
  Lemma each_view f h v M : dense v -> elements h v = Ok M -> exists h', each f h (v_buf v) (v_off v) (size v) = Ok h' /\ length h' = length h /\ elements h' v = Ok (mmap f M) /\ untouched v h h'.
  Proof.
    intros Hd E. destruct (each_ok f (size v) h (v_buf v) (v_off v) (dense_cells h v M Hd E)) as (h' & E' & L' & G'). exists h'. split; [exact E'|]. split; [exact L'|].
    destruct (elements_tab _ _ _ E) as (g & -> & G). split.
    - rewrite mmap_tab. apply elements_intro. intros i j Hi Hj. rewrite G'. pose proof (dense_within v Hd i j Hi Hj) as W. rewrite Nat.eqb_refl. rewrite (proj2 (Z.leb_le _ _)) by lia. rewrite (proj2 (Z.ltb_lt _ _)) by lia. cbn [andb]. now rewrite G.
    - intros b p Hbp. rewrite G'. destruct (Nat.eqb_spec b (v_buf v)); [|reflexivity]. destruct (Z.leb_spec (v_off v) p); [|reflexivity]. destruct (Z.ltb_spec p (v_off v + Z.of_nat (size v))); [|reflexivity]. exfalso. destruct Hbp as [?|[?|?]]; [congruence|lia|lia].
  Qed.
  Lemma unary_copy super f t h X M : elements h X = Ok M -> t <> OtherType ->
    exists h' Y, np_unary super f t h X false = Ok (h', Y) /\ elements h' Y = Ok (mmap f M) /\ v_buf Y = length h /\ forall b p, (b < length h)%nat -> load h' b p = load h b p.
  Proof.
    intros E Ht. destruct (copy_ok h X M E) as (m & y & Ey & Hb & Ho & [Hr Hc] & E' & Hl). pose proof (copy_dense _ _ _ _ Ey Hl) as Hd. destruct (each_view f _ _ _ Hd E') as (h' & F & L & F' & U).
    exists h', y. assert (EQ : np_unary super f t h X false = Ok (h', y)).
    { unfold np_unary, inplace_or_copy. rewrite Ey. cbn [bind]. rewrite F. cbn [bind]. destruct t; [reflexivity | reflexivity | congruence]. }
    split; [exact EQ|]. split; [exact F'|]. split; [exact Hb|]. intros b p Hbl. rewrite U by (left; lia). now apply load_app_err.
  Qed.
  Lemma unary_inplace super f t h X M : elements h X = Ok M -> dense X -> t <> OtherType ->
    exists h', np_unary super f t h X true = Ok (h', X) /\ elements h' X = Ok (mmap f M) /\ untouched X h h'.
  Proof.
    intros E Hd Ht. destruct (each_view f _ _ _ Hd E) as (h' & F & L & F' & U). exists h'. split; [|split; [exact F' | exact U]].
    unfold np_unary, inplace_or_copy. cbn [bind]. rewrite F. cbn [bind]. destruct t; [reflexivity | reflexivity | congruence].
  Qed.

  (** ** Binary kernels *)
  Lemma each2_view f h v w D M : v_buf v <> v_buf w -> same_shape v w -> (contiguous v = true /\ contiguous w = true \/ contiguous (flip v) = true /\ contiguous (flip w) = true) -> elements h v = Ok D -> elements h w = Ok M ->
    exists h', each2 f h (v_buf v) (v_off v) (v_buf w) (v_off w) (size w) = Ok h' /\ length h' = length h /\ elements h' v = mbin f D M /\ untouched v h h'.
  Proof.
    intros Hb [Hr Hc] Hl E F. assert (Hd : dense v /\ dense w) by (unfold dense; tauto). destruct Hd as [Hd Hd']. assert (Es : size w = size v) by (unfold size; congruence). pose proof (dense_cells h w M Hd' F) as C2. rewrite Es in C2 |- *.
    destruct (each2_ok f (size v) h (v_buf v) (v_off v) (v_buf w) (v_off w) Hb (dense_cells h v D Hd E) C2) as (h' & E' & L' & G'). exists h'. split; [exact E'|]. split; [exact L'|].
    destruct (elements_tab _ _ _ E) as (g & -> & G). destruct (elements_tab _ _ _ F) as (g' & -> & G2). rewrite <- Hr, <- Hc in G2 |- *. split.
    - rewrite mbin_tab. apply elements_intro. intros i j Hi Hj. rewrite G'. pose proof (dense_within v Hd i j Hi Hj) as W. rewrite Nat.eqb_refl. rewrite (proj2 (Z.leb_le _ _)) by lia. rewrite (proj2 (Z.ltb_lt _ _)) by lia. cbn [andb]. rewrite G by assumption. cbn [bind].
      replace (v_off w + (addr v i j - v_off v)) with (addr w i j); [now rewrite G2|]. destruct Hl as [[L1 L2]|[L1 L2]].
      + rewrite (contiguous_addr v L1 i j Hi Hj). rewrite (contiguous_addr w L2 i j) by (rewrite <- ?Hr, <- ?Hc; assumption). rewrite Hc. lia.
      + rewrite <- (flip_addr v), <- (flip_addr w). rewrite (contiguous_addr _ L1 j i) by (cbn; assumption). rewrite (contiguous_addr _ L2 j i) by (cbn; rewrite <- ?Hr, <- ?Hc; assumption). cbn. rewrite Hr. lia.
    - intros b p Hbp. rewrite G'. destruct (Nat.eqb_spec b (v_buf v)); [|reflexivity]. destruct (Z.leb_spec (v_off v) p); [|reflexivity]. destruct (Z.ltb_spec p (v_off v + Z.of_nat (size v))); [|reflexivity]. exfalso. destruct Hbp as [?|[?|?]]; [congruence|lia|lia].
  Qed.
  Lemma check_same u v : same_shape u v -> check_compatible_shape u v = Ok tt.
  Proof. intros [Hr Hc]. unfold check_compatible_shape. rewrite Hr, Hc, !Nat.eqb_refl. reflexivity. Qed.
  Lemma check_other u v : ~ same_shape u v -> check_compatible_shape u v = Err ValueError.
  Proof. intros Hn. unfold check_compatible_shape. destruct (Nat.eqb_spec (v_rows u) (v_rows v)); [|reflexivity]. destruct (Nat.eqb_spec (v_cols u) (v_cols v)); [|reflexivity]. exfalso. apply Hn. split; assumption. Qed.
  Lemma elements_app h e v M : elements h v = Ok M -> elements (h ++ e) v = Ok M.
  Proof. intros E. destruct (elements_tab _ _ _ E) as (g & -> & G). apply elements_intro. intros i j Hi Hj. apply load_app. now apply G. Qed.
  (** An array with elements has its buffer; without, it does not matter *)
  Lemma each2_empty f h b p b' q : each2 f h b p b' q 0 = Ok h. Proof. reflexivity. Qed.
  Lemma buf_old h v M : elements h v = Ok M -> (0 < size v)%nat -> (v_buf v < length h)%nat.
  Proof. intros E Hs. destruct (elements_tab _ _ _ E) as (g & -> & G). unfold size in Hs. apply (load_buf h (v_buf v) (addr v 0 0) (g 0%nat 0%nat)). apply G; nia. Qed.
  Lemma binary_copy super f td tx (doubles : bool) h dY X D M : elements h dY = Ok D -> elements h X = Ok M -> same_shape dY X -> (td = Float32 /\ tx = Float32 \/ doubles = true /\ td = Float64 /\ tx = Float64) ->
    (contiguous X = true /\ Z.abs (v_s1 dY) <= Z.abs (v_s0 dY) \/ contiguous (flip X) = true /\ Z.abs (v_s0 dY) < Z.abs (v_s1 dY)) ->
    exists h' dX, np_binary super doubles f td tx h dY X false = Ok (h', dX) /\ elements h' dX = mbin f D M /\ v_buf dX = length h /\ forall b p, (b < length h)%nat -> load h' b p = load h b p.
  Proof.
    intros E F Hs Ht Hl. destruct (copy_ok h dY D E) as (m & y & Ey & Hb & Ho & Hsy & E' & Hly).
    assert (Hsz : same_shape y X) by (unfold same_shape in *; intuition congruence).
    assert (K : exists h', each2 f (h ++ [m]) (v_buf y) (v_off y) (v_buf X) (v_off X) (size X) = Ok h' /\ length h' = length (h ++ [m]) /\ elements h' y = mbin f D M /\ untouched y (h ++ [m]) h').
    { destruct (Nat.eq_dec (size X) 0) as [Hz|Hz].
      - exists (h ++ [m]). rewrite Hz. split; [reflexivity|]. split; [reflexivity|]. split; [|intros b p _; reflexivity]. destruct (elements_tab _ _ _ E) as (g & -> & G). destruct (elements_tab _ _ _ F) as (g' & -> & G'). destruct Hs as [Hr Hc]. rewrite <- Hr, <- Hc. rewrite mbin_tab. rewrite E'. do 2 f_equal. apply tab_ext. intros i j Hi Hj. unfold size in Hz. exfalso. rewrite <- Hr, <- Hc in Hz. nia.
      - apply each2_view; [|exact Hsz| |exact E'|now apply elements_app].
        + rewrite Hb. pose proof (buf_old h X M F ltac:(lia)). lia.
        + destruct Hl as [[L1 L2]|[L1 L2]].
          * left. split; [|exact L1]. destruct (Z.ltb_spec (Z.abs (v_s0 dY)) (Z.abs (v_s1 dY))); [lia|exact Hly].
          * right. split; [|exact L1]. destruct (Z.ltb_spec (Z.abs (v_s0 dY)) (Z.abs (v_s1 dY))); [exact Hly|lia]. }
    destruct K as (h' & K1 & K2 & K3 & K4). exists h', y. split.
    - unfold np_binary. rewrite check_same by exact Hs. cbn [bind]. unfold inplace_or_copy. rewrite Ey. cbn [bind]. rewrite K1. cbn [bind]. destruct Ht as [[-> ->]|(-> & -> & ->)]; reflexivity.
    - split; [exact K3|]. split; [exact Hb|]. intros b p Hbl. rewrite K4 by (left; lia). now apply load_app_err.
  Qed.
  Lemma binary_inplace super f td tx (doubles : bool) h dY X D M : elements h dY = Ok D -> elements h X = Ok M -> same_shape dY X -> (td = Float32 /\ tx = Float32 \/ doubles = true /\ td = Float64 /\ tx = Float64) -> v_buf dY <> v_buf X ->
    (contiguous dY = true /\ contiguous X = true \/ contiguous (flip dY) = true /\ contiguous (flip X) = true) ->
    exists h', np_binary super doubles f td tx h dY X true = Ok (h', dY) /\ elements h' dY = mbin f D M /\ untouched dY h h'.
  Proof.
    intros E F Hs Ht Hb Hl. destruct (each2_view f h dY X D M Hb Hs Hl E F) as (h' & K1 & K2 & K3 & K4). exists h'. split; [|split; assumption].
    unfold np_binary. rewrite check_same by exact Hs. unfold inplace_or_copy. cbn [bind]. rewrite K1. cbn [bind]. destruct Ht as [[-> ->]|(-> & -> & ->)]; reflexivity.
  Qed.
  Lemma binary_shape super f td tx doubles h dY X inplace : ~ same_shape dY X -> np_binary super doubles f td tx h dY X inplace = Err ValueError.
  Proof. intros Hn. unfold np_binary. now rewrite check_other. Qed.

  (** ** Memoryviews *)
  Lemma at_pointer_ok h v M : contiguous v = true -> elements h v = Ok M -> at_pointer h v = Ok M.
  Proof.
    intros Hc E. destruct (elements_tab _ _ _ E) as (g & -> & G). unfold at_pointer. unfold size. rewrite (load_run_ok h (v_buf v) (v_rows v * v_cols v) (v_off v) (fun k => g (k / v_cols v) (k mod v_cols v))%nat).
    - cbn [bind]. do 2 f_equal. rewrite cells_map. unfold vec, tab. apply map_ext_in. intros i Hi. apply map_ext_in. intros j Hj. apply in_seq in Hi, Hj. rewrite (Nat.add_comm (i * v_cols v)), Nat.div_add, Nat.mod_add, Nat.div_small, Nat.mod_small by lia. reflexivity.
    - intros k Hk. pose proof (Nat.div_mod k (v_cols v) ltac:(nia)) as D. pose proof (Nat.mod_upper_bound k (v_cols v) ltac:(nia)) as D2. assert (D3 : (k / v_cols v < v_rows v)%nat) by (apply Nat.div_lt_upper_bound; nia).
      rewrite <- (G _ _ D3 D2). rewrite (contiguous_addr v Hc _ _ D3 D2). f_equal. nia.
  Qed.
  Lemma memoryview_ok h v : (forall M, contiguous v = true -> elements h v = Ok M -> memoryview h v = Ok M) /\ (contiguous v = false -> memoryview h v = Err ValueError).
  Proof. split; [intros M Hc E; unfold memoryview; rewrite Hc; now apply at_pointer_ok | intros Hc; unfold memoryview; now rewrite Hc]. Qed.
End View.
