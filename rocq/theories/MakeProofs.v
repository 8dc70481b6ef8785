From Coq Require Import String Lia.
From Verif Require Import Base MakeModel MakeSpec.
Set Default Goal Selector "!".

(** ** Shapes *)
Local Notation unknown l := (length (filter (fun d => negb (is_known d)) l)).
Lemma count_fill n l : count (fill_in n l) = known l * n ^ unknown l.
Proof.
  induction l as [|d l IH]; [reflexivity|]. unfold known in *. cbn [fill_in map filter]. fold (fill_in n l).
  destruct (is_known d) eqn:E; cbn [map negb length count fold_right Nat.pow]; fold (count (fill_in n l)); rewrite IH.
  - fold (count (map Z.to_nat (filter is_known l))). lia.
  - cbn [Nat.pow]. lia.
Qed.
Lemma known_pos d : is_known d = true <-> (0 <= d)%Z. Proof. unfold is_known. apply Z.leb_le. Qed.
Lemma known_neg d : is_known d = false <-> (d < 0)%Z. Proof. unfold is_known. apply Z.leb_gt. Qed.
Lemma fill_fits n l : fits l (fill_in n l).
Proof.
  unfold fits, fill_in. induction l as [|d l IH]; constructor; auto. destruct (is_known d) eqn:E.
  - right. apply known_pos in E. lia.
  - left. now apply known_neg.
Qed.
Lemma fits0 l sh : unknown l = 0 -> fits l sh -> sh = fill_in 0 l.
Proof.
  intros U F. unfold fits in F. induction F as [|d n l sh H F IH]; [reflexivity|]. cbn in *. destruct (is_known d) eqn:E; cbn in U; [|discriminate].
  f_equal; [|auto]. apply known_pos in E. lia.
Qed.
Lemma fits1 l sh : unknown l = 1 -> fits l sh -> exists n, sh = fill_in n l.
Proof.
  intros U F. unfold fits in F. induction F as [|d n l sh H F IH]; [discriminate|]. cbn in *. destruct (is_known d) eqn:E; cbn in U.
  - destruct (IH U) as [m ->]. exists m. f_equal. apply known_pos in E. lia.
  - exists n. f_equal. injection U as U. pose proof (fits0 l sh U F) as ->. clear - U. unfold fill_in. apply map_ext_in. intros d Hd.
    destruct (is_known d) eqn:E; [reflexivity|]. exfalso. assert (In d (filter (fun d => negb (is_known d)) l)) as K by (apply filter_In; now rewrite E).
    destruct (filter _ l); [contradiction|discriminate].
Qed.
Lemma fill_inj l n m : unknown l <> 0 -> fill_in n l = fill_in m l -> n = m.
Proof.
  induction l as [|d l IH]; cbn; [congruence|]. destruct (is_known d) eqn:E; cbn; intros U H.
  - injection H as H. auto.
  - now injection H.
Qed.
Lemma one_negative l : at_most_one_negative l <-> unknown l <= 1.
Proof.
  split.
  - unfold at_most_one_negative. induction l as [|d l IH]; intros H; [cbn; lia|]. cbn. destruct (is_known d) eqn:E; cbn.
    + apply IH. intros i j x y Hi Hj Hx Hy. specialize (H (S i) (S j) x y Hi Hj Hx Hy). lia.
    + destruct (filter _ l) as [|x r] eqn:F; [cbn; lia|]. exfalso. assert (In x l /\ negb (is_known x) = true) as [K N] by (apply (filter_In (fun d => negb (is_known d))); rewrite F; now left).
      apply In_nth_error in K as [j Hj]. apply Bool.negb_true_iff in N. specialize (H 0 (S j) d x eq_refl Hj). apply known_neg in E, N. specialize (H E N). lia.
  - intros U i j d e Hi Hj Hd He. revert i j Hi Hj. induction l as [|x l IH]; intros i j Hi Hj; [now destruct i|]. cbn in U.
    assert (forall k y, nth_error l k = Some y -> (y < 0)%Z -> 1 <= unknown l) as P.
    { intros k y Hk Hy. apply nth_error_In in Hk. assert (In y (filter (fun d => negb (is_known d)) l)) as K by (apply filter_In; apply known_neg in Hy; now rewrite Hy).
      destruct (filter _ l); [contradiction|cbn; lia]. }
    destruct (is_known x) eqn:E; cbn in U.
    + apply known_pos in E. destruct i as [|i], j as [|j]; cbn in Hi, Hj; try (injection Hi as ->; lia); try (injection Hj as ->; lia). f_equal. auto.
    + destruct i as [|i], j as [|j]; cbn in Hi, Hj; [reflexivity| | |].
      * specialize (P _ _ Hj He). lia.
      * specialize (P _ _ Hi Hd). lia.
      * specialize (P _ _ Hi Hd). lia.
Qed.
Lemma complete_exact size l sh : complete size l = Ok sh <->
  at_most_one_negative l /\ fits l sh /\ count sh = size /\ (forall sh', fits l sh' -> count sh' = size -> sh' = sh).
Proof.
  rewrite one_negative. unfold complete. destruct (unknown l) as [|[|u]] eqn:U.
  - pose proof (count_fill 0 l) as C. rewrite U in C. cbn [Nat.pow] in C. destruct (Nat.eqb_spec (known l) size) as [E|E].
    + split.
      * intros [= <-]. split; [lia|]. split; [apply fill_fits|]. split; [lia|]. intros sh' F _. now apply fits0.
      * intros (_ & F & _). now rewrite (fits0 _ _ U F).
    + split; [discriminate|]. intros (_ & F & Cs & _). rewrite (fits0 _ _ U F) in Cs. lia.
  - assert (forall n, count (fill_in n l) = known l * n) as C by (intros n; rewrite count_fill, U; cbn; lia).
    destruct (Nat.eqb_spec (known l) 0) as [Z0|Z0].
    + split; [discriminate|]. intros (_ & F & Cs & Un). destruct (fits1 _ _ U F) as [n ->]. exfalso.
      assert (size = 0) as -> by (rewrite <- Cs, C, Z0; lia).
      assert (fill_in (S n) l = fill_in n l) as K by (apply Un; [apply fill_fits|rewrite C, Z0; lia]). apply fill_inj in K; lia.
    + destruct (Nat.eqb_spec (size mod known l) 0) as [M|M].
      * assert (known l * (size / known l) = size) as D by (pose proof (Nat.div_mod size (known l) Z0); lia). split.
        -- intros [= <-]. split; [lia|]. split; [apply fill_fits|]. split; [now rewrite C|]. intros sh' F Cs. destruct (fits1 _ _ U F) as [n ->]. f_equal.
           rewrite C in Cs. nia.
        -- intros (_ & F & Cs & _). destruct (fits1 _ _ U F) as [n ->]. do 2 f_equal. rewrite C in Cs. nia.
      * split; [discriminate|]. intros (_ & F & Cs & _). destruct (fits1 _ _ U F) as [n ->]. exfalso. apply M. rewrite C in Cs. subst size. rewrite Nat.mul_comm. now apply Nat.mod_mul.
  - split; [discriminate|]. intros (H & _). lia.
Qed.
Lemma complete_error size l e : complete size l = Err e -> e = ValueError.
Proof. unfold complete. destruct (unknown l) as [|[|u]]; repeat match goal with |- context [if ?c then _ else _] => destruct c end; congruence. Qed.
Lemma complete_self sh : complete (count sh) (map Z.of_nat sh) = Ok sh.
Proof.
  apply complete_exact.
  assert (forall s', fits (map Z.of_nat sh) s' <-> s' = sh) as F.
  { intros s'. unfold fits. split.
    - revert s'. induction sh as [|n sh IH]; intros s' F; inversion F; subst; [reflexivity|]. f_equal; [lia|auto].
    - intros ->. induction sh; constructor; auto. }
  repeat split.
  - intros i j d e Hi Hj Hd. apply nth_error_In, in_map_iff in Hi as (n & <- & _). lia.
  - now apply F.
  - intros s' Hs _. now apply F.
Qed.

Section Make.
  Context {T : Type} (zero : T) (garbage : nat -> T) (cast : string -> T -> T) (infer : list T -> string) (native : order).

  Lemma reshape_exact (a b : arr T) s : reshape a s = Ok b <->
    a_buf b = a_buf a /\ a_gpu b = a_gpu a /\ a_dtype b = a_dtype a /\ a_data b = a_data a /\
    at_most_one_negative (as_tuple s) /\ fits (as_tuple s) (a_shape b) /\ whole b /\
    (forall sh, fits (as_tuple s) sh -> count sh = length (a_data a) -> sh = a_shape b).
  Proof.
    unfold reshape, whole. split.
    - destruct (complete _ _) as [sh|e] eqn:C; cbn; [|discriminate]. intros [= <-]. cbn. apply complete_exact in C as (O & F & N & U). now repeat split.
    - intros (B & G & D & L & O & F & W & U). destruct b as [bb bg bd bs bl]. cbn in *. subst. rewrite (proj2 (complete_exact _ _ bs)); [reflexivity|]. now repeat split.
  Qed.
  Lemma reshape_error (a : arr T) s e : reshape a s = Err e -> e = ValueError.
  Proof. unfold reshape. destruct (complete _ _) eqn:C; cbn; [discriminate|]. intros [= <-]. eapply complete_error, C. Qed.
  Lemma reshape_back (a b : arr T) s : whole a -> reshape a s = Ok b -> reshape b (ShTup (map Z.of_nat (a_shape a))) = Ok a.
  Proof.
    intros W R. apply reshape_exact in R as (B & G & D & L & _). unfold reshape. cbn [as_tuple]. rewrite L, W, complete_self. cbn. destruct a, b. cbn in *. now subst.
  Qed.

  (** ** Allocation *)
  Lemma dims_exact l sh : dims l = Ok sh <-> l = map Z.of_nat sh.
  Proof.
    revert sh. induction l as [|d l IH]; intros sh; cbn.
    - split; [intros [= <-]; reflexivity|]. destruct sh; [reflexivity|discriminate].
    - destruct (Z.ltb_spec d 0) as [N|N].
      + split; [discriminate|]. destruct sh; [discriminate|]. intros [= -> _]. lia.
      + destruct (dims l) as [r|e] eqn:E; cbn.
        * split; [intros [= <-]|].
          -- cbn. f_equal; [lia|]. now apply IH.
          -- destruct sh as [|n sh]; [discriminate|]. intros [= -> H]. apply IH in H. injection H as ->. do 2 f_equal. lia.
        * split; [discriminate|]. destruct sh as [|n sh]; [discriminate|]. intros [= -> H]. apply IH in H. discriminate.
  Qed.
  Lemma dims_error l e : dims l = Err e -> e = ValueError /\ Exists (fun d => (d < 0)%Z) l.
  Proof.
    induction l as [|d l IH]; cbn; [discriminate|]. destruct (Z.ltb_spec d 0); [intros [= <-]; auto|].
    destruct (dims l); cbn; [discriminate|]. intros [= <-]. destruct (IH eq_refl). auto.
  Qed.
  Lemma alloc_exact fresh gpu s dt zeros a : alloc zero garbage native fresh gpu s dt zeros = Ok a ->
    map Z.of_nat (a_shape a) = as_tuple s /\ whole a /\ a_buf a = fresh /\ a_gpu a = gpu /\
    a_dtype a = mkD (match dt with Some k => k | None => "float64" end) native /\ (zeros = true -> Forall (eq zero) (a_data a)).
  Proof.
    unfold alloc. destruct (dims _) as [sh|e] eqn:E; cbn; [|discriminate]. intros [= <-]. cbn. apply dims_exact in E. repeat split.
    - congruence.
    - unfold whole. cbn. destruct zeros; [apply repeat_length|]. now rewrite map_length, seq_length.
    - intros ->. apply Forall_forall. intros x H. symmetry. eapply repeat_spec, H.
  Qed.
  Lemma alloc_error fresh gpu s dt zeros e : alloc zero garbage native fresh gpu s dt zeros = Err e <->
    e = ValueError /\ Exists (fun d => (d < 0)%Z) (as_tuple s).
  Proof.
    unfold alloc. destruct (dims _) as [sh|e'] eqn:E; cbn.
    - split; [discriminate|]. intros [_ H]. apply dims_exact in E. rewrite E in H. apply Exists_exists in H as (d & H & N). apply in_map_iff in H as (n & <- & _). lia.
    - apply dims_error in E as [-> H]. split; [intros [= <-]; auto|]. now intros [-> _].
  Qed.

  (** ** Nested sequences *)
  Lemma nested_rect' (P : nested T -> Prop) : (forall x, P (Leaf x)) -> (forall l, Forall P l -> P (Nest l)) -> forall t, P t.
  Proof.
    intros L N. fix IH 1. intros [x|l]; [apply L|]. apply N. induction l; constructor; auto.
  Qed.
  Lemma shape_eqb_eq a b : shape_eqb a b = true <-> a = b.
  Proof.
    revert b. induction a as [|x a IH]; destruct b as [|y b]; cbn; try (split; congruence). rewrite Bool.andb_true_iff, Nat.eqb_eq, IH. split; [intros [-> ->]; auto|intros [= -> ->]; auto].
  Qed.
  Local Notation go := (fix go (l : list (nested T)) : result (list (list nat * list T)) :=
    match l with [] => Ok [] | t :: l => let* r := flat t in let* rs := go l in Ok (r :: rs) end).
  Lemma go_spec l rs : go l = Ok rs <-> Forall2 (fun t r => flat t = Ok r) l rs.
  Proof.
    revert rs. induction l as [|t l IH]; intros rs.
    - split; [intros [= <-]; constructor|]. intros H. now inversion H.
    - cbn. destruct (flat t) as [r|e] eqn:E; cbn.
      + destruct (go l) as [rs'|e] eqn:G.
        * cbn. split; [intros [= <-]; constructor; [auto|now apply IH]|]. intros H. inversion H; subst. rewrite E in *. assert (Ok rs' = Ok l' :> result _) as K by now apply IH. congruence.
        * cbn. split; [discriminate|]. intros H. inversion H; subst. assert (Err e = Ok l' :> result _) as K by now apply IH. discriminate.
      + split; [discriminate|]. intros H. inversion H; congruence.
  Qed.
  Lemma flat_nest (l : list (nested T)) r : flat (Nest l) = Ok r <-> exists rs : list (list nat * list T), Forall2 (fun t r => flat t = Ok r) l rs /\
    match rs with [] => r = ([0], []) | (sh, _) :: _ => Forall (fun r => fst r = sh) rs /\ r = (length rs :: sh, concat (map snd rs)) end.
  Proof.
    cbn [flat]. split.
    - destruct (go l) as [rs|e] eqn:G; cbn; [|discriminate]. intros H. exists rs. split; [now apply go_spec|]. destruct rs as [|[sh d] rs]; [congruence|].
      destruct (forallb _ _) eqn:F; [|discriminate]. split; [|congruence]. apply Forall_forall. rewrite forallb_forall in F. intros x Hx. now apply shape_eqb_eq, F.
    - intros (rs & G & H). apply go_spec in G. rewrite G. cbn. destruct rs as [|[sh d] rs]; [now subst|]. destruct H as [F ->].
      replace (forallb _ _) with true; [reflexivity|]. symmetry. apply forallb_forall. rewrite Forall_forall in F. intros x Hx. now apply shape_eqb_eq, F.
  Qed.
  Lemma flat_exact (t : nested T) : forall sh d, flat t = Ok (sh, d) <-> regular sh t /\ d = leaves t.
  Proof.
    induction t as [x|l IH] using nested_rect'; intros sh d.
    - cbn. split; [intros [= <- <-]; split; [constructor|reflexivity]|]. intros [R ->]. now inversion R.
    - rewrite flat_nest. split.
      + intros (rs & F & H). destruct rs as [|[s d0] rs].
        * inversion F; subst. injection H as -> ->. split; [constructor|reflexivity].
        * destruct H as [S H]. injection H as -> ->. inversion F as [|t ? l' ? Ht F']; subst. inversion IH as [|? ? It Il]; subst. apply It in Ht as [Rt ->].
          inversion S as [|? ? _ S']; subst.
          assert (length rs = length l' /\ Forall (regular s) l' /\ concat (map snd rs) = flat_map leaves l') as (Len & R & C).
          { clear - F' Il S'. induction F' as [|t r l rs H F IH]; [repeat split; constructor|]. destruct r as [s' d']. inversion Il as [|? ? J1 J2]; subst. inversion S' as [|? ? K1 K2]; cbn in K1; subst. destruct (IH J2 K2) as (A & B & C).
            cbn in *. apply J1 in H as [Rt ->]. repeat split; [congruence|constructor; auto|congruence]. }
          cbn [length map snd concat leaves flat_map]. rewrite Len, C. split; [now constructor|reflexivity].
      + intros [R ->]. inversion R as [| |s t l' Rt Rl]; subst.
        * exists []. repeat split. constructor.
        * inversion IH as [|? ? It Il]; subst.
          exists ((s, leaves t) :: map (fun t => (s, leaves t)) l'). split; [|split].
          -- constructor; [now apply It|]. clear - Il Rl. induction l' as [|t l IH]; [constructor|]. inversion Il; inversion Rl; subst. constructor; [now apply H1|auto].
          -- constructor; [reflexivity|]. apply Forall_forall. intros x H. apply in_map_iff in H as (y & <- & _). reflexivity.
          -- cbn [length map snd concat leaves flat_map]. rewrite map_length, map_map. cbn. now rewrite flat_map_concat_map.
  Qed.
  Lemma flat_error (t : nested T) e : flat t = Err e -> e = ValueError.
  Proof.
    revert e. induction t as [x|l IH] using nested_rect'; intros e; [discriminate|]. cbn [flat].
    assert (forall e, go l = Err e -> e = ValueError) as G.
    { induction IH as [|t l Ht F IHl]; [discriminate|]. intros e'. cbn. destruct (flat t) as [r|] eqn:E; cbn; [|intros [= <-]; auto]. destruct (go l); cbn; [discriminate|]. intros [= <-]. auto. }
    destruct (go l) as [rs|e'] eqn:E; cbn; [|intros [= <-]; auto]. destruct rs as [|[? ?] rs]; [discriminate|]. destruct (forallb _ _); congruence.
  Qed.
  Lemma regular_count sh (t : nested T) : regular sh t -> length (leaves t) = count sh.
  Proof.
    revert sh. induction t as [x|l IH] using nested_rect'; intros sh R; inversion R as [| |s t l' Rt Rl]; subst; try reflexivity.
    inversion IH as [|? ? It Il]; subst. cbn [leaves flat_map count fold_right Nat.mul]. fold (count s). rewrite app_length, (It _ Rt). f_equal. clear - Il Rl.
    induction l' as [|t l IH]; [reflexivity|]. inversion Il; inversion Rl; subst. cbn [flat_map length Nat.mul]. rewrite app_length, (H1 _ H5), IH; auto.
  Qed.
  Lemma regular_index sh (t : nested T) : regular sh t -> forall idx, in_range sh idx -> exists x, lookup t idx = Some x /\ nth_error (leaves t) (ravel sh idx) = Some x.
  Proof.
    revert sh. induction t as [x|l IH] using nested_rect'; intros sh R idx I; inversion R as [| |s t0 l' Rt Rl]; subst; inversion I as [|n i ? is Hi Is]; subst.
    - exists x. auto.
    - lia.
    - assert (Forall (regular s) (t0 :: l')) as RA by now constructor. clear Rt Rl R I. cbn [length lookup leaves ravel] in *.
      remember (t0 :: l') as l eqn:El. assert (i < length l) as Hl by (subst l; cbn; lia). clear El Hi t0 l'.
      revert i Hl. induction l as [|t l IHl]; intros i Hl; [cbn in Hl; lia|]. inversion IH as [|? ? It Il]; subst. inversion RA as [|? ? Rt Rl]; subst. cbn [flat_map].
      pose proof (regular_count _ _ Rt) as C. destruct i as [|i]; cbn [nth_error].
      + destruct (It _ Rt _ Is) as (x & L & N). exists x. split; [auto|]. cbn [Nat.mul Nat.add]. rewrite nth_error_app1; [auto|]. apply nth_error_Some. congruence.
      + destruct (IHl Il Rl i) as (x & L & N); [cbn in Hl; lia|]. exists x. split; [auto|]. rewrite nth_error_app2; [|cbn; lia]. rewrite C.
        replace (S i * count s + ravel s is - count s) with (i * count s + ravel s is); [auto|cbn; lia].
  Qed.
  Lemma new_exact fresh gpu t dt a : new_array cast infer native fresh gpu t dt = Ok a <->
    exists k, k = match dt with Some k => k | None => infer (leaves t) end /\ regular (a_shape a) t /\
      a = mkA fresh gpu (mkD k native) (a_shape a) (map (cast k) (leaves t)).
  Proof.
    unfold new_array. destruct (flat t) as [[sh d]|e] eqn:E; cbn.
    - apply flat_exact in E as [R ->]. split.
      + intros [= <-]. eexists. split; [reflexivity|]. split; [exact R|reflexivity].
      + intros (k & -> & R' & ->). cbn. do 2 f_equal.
        assert (Ok (sh, leaves t) = Ok (a_shape a, leaves t)) as K by (rewrite <- (proj2 (flat_exact t sh _)), <- (proj2 (flat_exact t (a_shape a) _)); auto). congruence.
    - split; [discriminate|]. intros (k & _ & R & _). rewrite (proj2 (flat_exact t (a_shape a) (leaves t))) in E; [discriminate|auto].
  Qed.

  (** ** Casting *)
  Lemma dtype_eqb_eq a b : dtype_eqb a b = true <-> a = b.
  Proof.
    destruct a as [k o], b as [k' o']. unfold dtype_eqb. cbn [d_kind d_order]. destruct (string_dec k k') as [->|N]; cbn.
    - destruct o, o'; cbn; split; (discriminate || reflexivity).
    - split; [discriminate|]. intros [= H _]. contradiction.
  Qed.
  Lemma astype_spec fresh a d : let b := astype cast fresh a d in
    a_dtype b = d /\ a_gpu b = a_gpu a /\ a_shape b = a_shape a /\ (a_dtype a = d -> b = a) /\ (a_dtype a <> d -> a_buf b = fresh) /\
    (typed cast a -> a_data b = map (cast (d_kind d)) (a_data a)).
  Proof.
    unfold astype. destruct (dtype_eqb (a_dtype a) d) eqn:E.
    - apply dtype_eqb_eq in E. cbn. repeat split; auto; [contradiction|]. subst d. unfold typed. intros H. rewrite <- (map_id (a_data a)) at 1. apply map_ext_in. rewrite Forall_forall in H. intros x Hx. symmetry. auto.
    - cbn. assert (a_dtype a <> d) as N by (intros H; apply dtype_eqb_eq in H; congruence). repeat split; auto. contradiction.
  Qed.
End Make.

Section Asarray.
  Context {T : Type} (cast : string -> T -> T) (infer : list T -> string) (native : order).

  Lemma astype_opt_spec fresh (a : arr T) dt : let b := astype_opt cast native fresh a dt in
    (forall k, dt = Some k -> a_dtype b = mkD k native) /\ a_gpu b = a_gpu a /\ a_shape b = a_shape a.
  Proof.
    destruct dt as [k|]; cbn; [|repeat split; congruence]. destruct (astype_spec cast fresh a (named native k)) as (D & G & S & _). repeat split; auto. intros ? [= <-]. exact D.
  Qed.
  Lemma np_dtype fresh data dt a : np_asarray cast infer native fresh data dt = Ok a ->
    a_gpu a = false /\ forall k, dt = Some k -> a_dtype a = mkD k native.
  Proof.
    unfold np_asarray. intros H. destruct (match data with SArray _ => _ | _ => _ end) as [b|e] eqn:E; cbn in H; [|discriminate]. injection H as <-.
    destruct (astype_opt_spec fresh b dt) as (D & G & _). split; [|auto]. rewrite G. destruct data as [x|x|t]; cbn in E.
    - destruct (a_gpu x) eqn:X; injection E as <-; auto.
    - unfold tensor_numpy in E. destruct (a_gpu x) eqn:X; [discriminate|]. now injection E as <-.
    - apply new_exact in E as (k & _ & _ & ->). reflexivity.
  Qed.
  Lemma cupy_dtype fresh data dt a : cupy_asarray cast infer native fresh data dt = Ok a ->
    a_gpu a = true /\ forall k, dt = Some k -> a_dtype a = mkD k native.
  Proof.
    unfold cupy_asarray. intros H. destruct (match data with SArray _ => _ | _ => _ end) as [b|e] eqn:E; cbn in H; [|discriminate]. injection H as <-.
    destruct (astype_opt_spec fresh b dt) as (D & G & _). split; [|auto]. rewrite G. destruct data as [x|x|t]; cbn in E.
    - destruct (a_gpu x) eqn:X; injection E as <-; [|auto]. destruct (astype_opt_spec fresh x dt) as (_ & -> & _). auto.
    - destruct (a_gpu x) eqn:X; injection E as <-; auto.
    - apply new_exact in E as (k & _ & _ & ->). reflexivity.
  Qed.
  Lemma astype_opt_same fresh (a : arr T) dt : (forall k, dt = Some k -> a_dtype a = mkD k native) -> astype_opt cast native fresh a dt = a.
  Proof.
    intros H. destruct dt as [k|]; [|reflexivity]. cbn. destruct (astype_spec cast fresh a (named native k)) as (_ & _ & _ & S & _). apply S. now apply H.
  Qed.
  Lemma as_is fresh a dt : (forall k, dt = Some k -> a_dtype a = mkD k native) ->
    (a_gpu a = false -> ops_asarray cast infer native fresh (SArray a) dt = Ok a /\ np_asarray cast infer native fresh (SArray a) dt = Ok a /\
                        np_asarray cast infer native fresh (STensor a) dt = Ok a) /\
    (a_gpu a = true -> cupy_asarray cast infer native fresh (SArray a) dt = Ok a /\ cupy_asarray cast infer native fresh (STensor a) dt = Ok a).
  Proof.
    intros H. pose proof (astype_opt_same fresh a dt H) as S. split; intros G; repeat split; unfold ops_asarray, np_asarray, cupy_asarray, tensor_numpy; rewrite ?G; cbn [bind]; now rewrite ?S.
  Qed.
  Lemma astype_data fresh (a : arr T) d : typed cast a -> a_data (astype cast fresh a d) = map (cast (d_kind d)) (a_data a).
  Proof. apply (astype_spec cast fresh a d). Qed.
  Lemma astype_typed fresh (a : arr T) d : idempotent cast -> typed cast a -> typed cast (astype cast fresh a d).
  Proof.
    intros I H. unfold typed. rewrite astype_data by auto. destruct (astype_spec cast fresh a d) as (D & _). rewrite D. apply Forall_forall. intros x Hx.
    apply in_map_iff in Hx as (y & <- & _). apply I.
  Qed.
  Lemma astype_opt_data fresh (a : arr T) dt : typed cast a -> a_data (astype_opt cast native fresh a dt) = match dt with Some k => map (cast k) (a_data a) | None => a_data a end.
  Proof. intros H. destruct dt as [k|]; [|reflexivity]. now apply astype_data. Qed.
  Lemma array_total fresh a dt : idempotent cast -> typed cast a -> exists b c,
    np_asarray cast infer native fresh (SArray a) dt = Ok b /\ cupy_asarray cast infer native fresh (SArray a) dt = Ok c /\
    a_shape b = a_shape a /\ a_shape c = a_shape a /\
    a_data b = match dt with Some k => map (cast k) (a_data a) | None => a_data a end /\ a_data c = a_data b.
  Proof.
    intros I H. unfold np_asarray, cupy_asarray. destruct (a_gpu a) eqn:G; cbn [bind]; do 2 eexists; (split; [reflexivity|]); (split; [reflexivity|]).
    - destruct (astype_opt_spec fresh (get fresh a) dt) as (_ & _ & ->). destruct (astype_opt_spec fresh (astype_opt cast native fresh a dt) dt) as (_ & _ & ->).
      destruct (astype_opt_spec fresh a dt) as (D & _ & ->). split; [reflexivity|]. split; [reflexivity|].
      rewrite (astype_opt_data fresh (get fresh a)) by exact H. split; [reflexivity|]. rewrite (astype_opt_same fresh _ dt D). rewrite astype_opt_data by exact H. reflexivity.
    - destruct (astype_opt_spec fresh a dt) as (D & _ & S). rewrite S. match goal with |- context [astype_opt cast native fresh (mkA ?f ?g ?d ?s ?l) dt] => set (x := mkA f g d s l) end.
      rewrite (astype_opt_same fresh x dt D). cbn. repeat split. all: rewrite ?astype_opt_data by exact H; auto.
  Qed.
  Lemma nested_total fresh t dt : (forall sh, ~ regular sh t) ->
    ops_asarray cast infer native fresh (SNested t) dt = Err ValueError /\ np_asarray cast infer native fresh (SNested t) dt = Err ValueError /\
    cupy_asarray cast infer native fresh (SNested t) dt = Err ValueError.
  Proof.
    intros N. assert (flat t = Err ValueError) as F.
    { destruct (flat t) as [[sh d]|e] eqn:E; [apply flat_exact in E as [R _]; now apply N in R|]. now rewrite (flat_error _ _ E). }
    unfold np_asarray, cupy_asarray, ops_asarray, new_array. now rewrite F.
  Qed.
  Lemma nested_value sh t : regular sh t -> idempotent cast -> forall fresh dt, exists a, a_shape a = sh /\
    ops_asarray cast infer native fresh (SNested t) dt = Ok a /\ np_asarray cast infer native fresh (SNested t) dt = Ok a /\
    (exists b, cupy_asarray cast infer native fresh (SNested t) dt = Ok b /\ a_shape b = sh /\ a_data b = a_data a) /\
    exists k, a_dtype a = mkD k native /\ (forall k', dt = Some k' -> k = k') /\
    forall idx, in_range sh idx -> exists x, lookup t idx = Some x /\ nth_error (a_data a) (ravel sh idx) = Some (cast k x).
  Proof.
    intros R I fresh dt. pose proof (proj2 (flat_exact t sh _) (conj R eq_refl)) as F. unfold ops_asarray, np_asarray, cupy_asarray, new_array. rewrite F. cbn [bind fst snd].
    set (k := match dt with Some k => k | None => infer (leaves t) end).
    assert (forall k', dt = Some k' -> k = k') as K by (intros k' ->; reflexivity).
    eexists (mkA fresh false (named native k) sh (map (cast k) (leaves t))). split; [reflexivity|]. split; [reflexivity|]. split; [|split].
    - rewrite astype_opt_same; [reflexivity|]. intros k' E. now rewrite <- (K _ E).
    - eexists. split; [reflexivity|]. rewrite astype_opt_same; [split; reflexivity|]. intros k' E. now rewrite <- (K _ E).
    - exists k. split; [reflexivity|]. split; [exact K|]. intros idx Hi. destruct (regular_index sh t R idx Hi) as (x & L & N). exists x. split; [auto|]. cbn. now apply map_nth_error.
  Qed.

  (** ** Bytes *)
  Context {B : Type} (enc : string -> T -> list B) (dec : string -> list B -> T) (size : string -> nat).
  Lemma astype_order fresh (a : arr T) o : typed cast a -> let b := astype cast fresh a (mkD (d_kind (a_dtype a)) o) in
    a_dtype b = mkD (d_kind (a_dtype a)) o /\ a_gpu b = a_gpu a /\ a_shape b = a_shape a /\ a_data b = a_data a.
  Proof.
    intros H. destruct (astype_spec cast fresh a (mkD (d_kind (a_dtype a)) o)) as (D & G & S & _ & _ & L). repeat split; auto. rewrite (L H). cbn.
    rewrite <- map_id. apply map_ext_in. intros x Hx. unfold typed in H. rewrite Forall_forall in H. auto.
  Qed.
End Asarray.
Lemma order_kept {T} (cast : string -> T -> T) native fresh (a : arr T) b : typed cast a -> same_numbers (ordered cast native fresh a b) a.
Proof.
  intros H. destruct b as [b|]; cbn; [|now repeat split]. unfold newbyteorder. destruct (astype_order cast fresh a (match b with BLittle => Little | BBig => Big | BNative => native | BSwap => swap (d_order (a_dtype a)) end) H) as (D & _ & S & L).
  unfold same_numbers. rewrite S, L, D. now repeat split.
Qed.
Lemma portable {T B} (cast : string -> T -> T) (enc : string -> T -> list B) n1 n2 f1 f2 (a b : arr T) : typed cast a -> typed cast b -> same_numbers a b ->
  a_gpu a = false -> np_send cast n1 enc f1 a = Ok (cupy_send cast n2 enc f2 b).
Proof.
  intros Ha Hb (K & S & L) G. unfold np_send, cupy_send, ops_to_numpy, cupy_to_numpy. rewrite G. cbn [bind]. unfold ordered, newbyteorder. f_equal.
  set (b' := if a_gpu b then get f2 b else b). assert (typed cast b') as Hb' by (subst b'; destruct (a_gpu b); exact Hb).
  assert (same_numbers b' b) as (K' & S' & L') by (subst b'; destruct (a_gpu b); now repeat split).
  destruct (astype_order cast f1 a Little Ha) as (D1 & _ & S1 & L1). destruct (astype_order cast f2 b' Little Hb') as (D2 & _ & S2 & L2).
  unfold store, tobytes. rewrite D1, D2, S1, S2, L1, L2. now rewrite K, S, L, K', S', L'.
Qed.
Lemma chunks_bytes {B X} (f : X -> list B) w l : (forall x, length (f x) = w) -> chunks (length l) w (flat_map f l) = map f l.
Proof.
  intros H. induction l as [|x l IH]; [reflexivity|]. cbn [length chunks flat_map map]. rewrite firstn_app, skipn_app, H, Nat.sub_diag. cbn [firstn skipn]. rewrite app_nil_r, <- (H x) at 1. rewrite firstn_all. rewrite (skipn_all2 (f x)) by (rewrite H; lia). cbn [app]. now rewrite IH.
Qed.
Lemma bytes_length {B X} (f : X -> list B) w l : (forall x, length (f x) = w) -> length (flat_map f l) = length l * w.
Proof. intros H. induction l as [|x l IH]; [reflexivity|]. cbn. now rewrite app_length, H, IH. Qed.
Lemma stored_back {T B} (cast : string -> T -> T) (enc : string -> T -> list B) dec size fresh (a : arr T) : codec cast enc dec size -> typed cast a -> whole a ->
  load dec size fresh (store enc a) = Ok (mkA fresh false (a_dtype a) (a_shape a) (a_data a)).
Proof.
  intros C Ht W. unfold load, store, tobytes. cbn [st_bytes st_shape st_dtype].
  assert (forall x, length (item_bytes enc (a_dtype a) x) = size (d_kind (a_dtype a))) as Len.
  { intros x. unfold item_bytes. destruct (d_order _); rewrite ?rev_length; apply C. }
  rewrite (bytes_length _ _ _ Len), W, Nat.eqb_refl, <- W. rewrite (chunks_bytes _ _ _ Len), map_map. do 2 f_equal.
  rewrite <- map_id. apply map_ext_in. intros x Hx. unfold typed in Ht. rewrite Forall_forall in Ht. specialize (Ht x Hx).
  unfold item_of, item_bytes. destruct (d_order _); rewrite ?rev_involutive; now apply C.
Qed.
Lemma sent_back {T B} (cast : string -> T -> T) infer (enc : string -> T -> list B) dec size n1 n2 f1 f2 (a : arr T) s : codec cast enc dec size -> typed cast a -> whole a ->
  s = cupy_send cast n1 enc f1 a -> exists b c, np_receive cast infer n2 dec size f2 s = Ok b /\ cupy_receive cast infer n2 dec size f2 s = Ok c /\
    same_numbers b a /\ same_numbers c a /\ a_gpu b = false /\ a_gpu c = true /\ d_order (a_dtype b) = Little.
Proof.
  intros C Ht W ->. unfold np_receive, cupy_receive, cupy_send. unfold cupy_to_numpy. unfold ordered, newbyteorder.
  set (a' := if a_gpu a then get f1 a else a). assert (typed cast a') as Ht' by (subst a'; destruct (a_gpu a); exact Ht).
  assert (same_numbers a' a) as (K' & S' & L') by (subst a'; destruct (a_gpu a); now repeat split).
  destruct (astype_order cast f1 a' Little Ht') as (D & _ & S & L). set (x := astype cast f1 a' _) in *.
  rewrite (stored_back cast).
  - cbn. do 2 eexists. split; [reflexivity|]. split; [reflexivity|]. unfold same_numbers. cbn. rewrite D, S, L. cbn. now rewrite K', S', L'.
  - exact C.
  - unfold typed. rewrite D, L. exact Ht'.
  - unfold whole. rewrite S, L, S', L'. exact W.
Qed.

(** ** Refutations *)
Lemma base_dtype_refuted : exists (a b : arr nat) k, ops_asarray no_cast (fun _ => "int64"%string) Little 0 (STensor a) (Some k) = Ok b /\ a_dtype b <> mkD k Little.
Proof. exists (mkA 0 false (mkD "int64" Little) [1] [0]), (mkA 0 false (mkD "int64" Little) [1] [0]), "int32"%string. split; [reflexivity|discriminate]. Qed.
Lemma byte_order_refuted : exists (a b : arr nat) s, a_dtype a = mkD "int16" Big /\ np_send no_cast Big enc16 0 a = Ok s /\
  np_receive no_cast (fun _ => "int64"%string) Big dec16 (fun _ => 2) 0 s = Ok b /\ a_dtype b <> a_dtype a.
Proof.
  exists (mkA 0 false (mkD "int16" Big) [1] [258]), (mkA 0 false (mkD "int16" Little) [1] [258]), (mkStored (mkD "int16" Little) [1] [2; 1]).
  split; [reflexivity|]. split; [reflexivity|]. split; [reflexivity|discriminate].
Qed.
Lemma codec16 : codec no_cast enc16 dec16 (fun _ => 2).
Proof. intros k x. split; [reflexivity|]. intros _. unfold dec16, enc16. pose proof (Nat.div_mod x 256). lia. Qed.

(** ** insert_into *)
Lemma insert_row_ok {T} (zero : T) w m x : length x <= m -> exists r, insert_row zero w m x = Ok r /\ length r = m /\
  forall j, j < m -> nth_error r j = Some (if Nat.ltb j (length x) then nth j x [] else repeat zero w).
Proof.
  intros H. unfold insert_row. rewrite (proj2 (Nat.leb_le _ _) H). eexists. split; [reflexivity|]. split; [rewrite app_length, repeat_length; lia|].
  intros j Hj. destruct (Nat.ltb_spec j (length x)) as [L|L].
  - rewrite nth_error_app1 by auto. now apply nth_error_nth'.
  - rewrite nth_error_app2 by auto. apply nth_error_repeat. lia.
Qed.
Lemma insert_ok {T} (zero : T) n m w Xs : Xs <> [] -> length Xs <= n -> Forall (fun x => length x <= m) Xs -> exists out, insert_into zero n m w Xs = Ok out /\ length out = n /\
  forall i j, i < n -> j < m -> exists r, nth_error out i = Some r /\ length r = m /\
    nth_error r j = Some (if Nat.ltb j (length (nth i Xs [])) then nth j (nth i Xs []) [] else repeat zero w).
Proof.
  intros N L F. unfold insert_into. destruct Xs as [|x0 Xs0] eqn:E; [congruence|]. rewrite <- E in *. clear E N x0 Xs0.
  revert n L. induction F as [|x Xs Hx F IH]; intros n L.
  - cbn. eexists. split; [now destruct n|]. split; [apply repeat_length|]. intros i j Hi Hj. exists (repeat (repeat zero w) m). split; [now apply nth_error_repeat|]. split; [apply repeat_length|].
    destruct i; cbn; now apply nth_error_repeat.
  - destruct n as [|n]; [cbn in L; lia|]. destruct (insert_row_ok zero w m x Hx) as (r & R & Rl & Rj). destruct (IH n) as (out & O & Ol & Oj); [cbn in L; lia|].
    cbn [insert_rows]. rewrite R, O. cbn. eexists. split; [reflexivity|]. split; [cbn; congruence|]. intros [|i] j Hi Hj.
    + exists r. cbn [nth_error nth]. split; [reflexivity|]. split; [exact Rl|]. now apply Rj.
    + cbn [nth_error nth]. apply Oj; [lia|auto].
Qed.
Lemma insert_many {T} (zero : T) n m w Xs : n < length Xs -> Forall (fun x => length x <= m) Xs -> insert_into zero n m w Xs = Err IndexError.
Proof.
  intros L F. unfold insert_into. destruct Xs as [|x0 Xs0] eqn:E; [reflexivity|]. rewrite <- E in *. clear E x0 Xs0. revert n L.
  induction F as [|x Xs Hx F IH]; intros n L; [cbn in L; lia|]. destruct n as [|n]; [reflexivity|]. cbn [insert_rows]. destruct (insert_row_ok zero w m x Hx) as (r & -> & _). cbn. rewrite IH; [reflexivity|]. cbn in L. lia.
Qed.

(** ** Refusals *)
Section Refusals.
  Context {T : Type} (zero : T) (cast : string -> T -> T) (infer : list T -> string) (native : order).
  Lemma gpu_refused fresh (a : arr T) dt b : a_gpu a = true ->
    ops_asarray cast infer native fresh (SArray a) dt = Err TypeError /\ ops_asarray cast infer native fresh (STensor a) dt = Err TypeError /\
    np_asarray cast infer native fresh (STensor a) dt = Err TypeError /\ ops_to_numpy cast native fresh (SArray a) b = Err ValueError /\
    util_to_numpy cast infer native fresh (STensor a) = Err TypeError.
  Proof. intros H. unfold ops_asarray, np_asarray, ops_to_numpy, util_to_numpy, tensor_numpy. rewrite H. repeat split. Qed.
  Lemma to_numpy_arrays fresh (d : source T) b : (forall a, d <> SArray a) -> ops_to_numpy cast native fresh d b = Err ValueError.
  Proof. intros H. destruct d; try reflexivity. exfalso. apply (H a). reflexivity. Qed.
  Lemma util_to_numpy_ok fresh (d : source T) a : util_to_numpy cast infer native fresh d = Ok a -> a_gpu a = false /\
    forall x, d = SArray x \/ d = STensor x -> a_dtype a = a_dtype x /\ a_shape a = a_shape x /\ a_data a = a_data x /\
      (a_buf a = fresh \/ (a = x /\ d = SArray x /\ a_gpu x = false)).
  Proof.
    destruct d as [x|x|t]; cbn [util_to_numpy].
    - destruct (a_gpu x) eqn:G; intros E; injection E as <-.
      + split; [reflexivity|]. intros y [H|H]; [|discriminate]. injection H as <-. repeat split. left. reflexivity.
      + split; [exact G|]. intros y [H|H]; [|discriminate]. injection H as <-. repeat split. right. repeat split. exact G.
    - unfold tensor_numpy. destruct (a_gpu x) eqn:G; cbn [bind]; [discriminate|]. intros E. injection E as <-. split; [reflexivity|].
      intros y [H|H]; [discriminate|]. injection H as <-. repeat split. left. reflexivity.
    - unfold new_array. destruct (flat t) as [r|e]; cbn [bind]; [|discriminate]. intros E. injection E as <-. split; [reflexivity|]. intros y [H|H]; discriminate.
  Qed.
  Lemma insert_long n m w (Xs : list (list (list T))) : insert_into zero n m w [] = Err IndexError /\
    forall e, insert_into zero n m w Xs = Err e -> e = IndexError \/ (e = ValueError /\ Exists (fun x => m < length x /\ length x <> 1) Xs).
  Proof.
    split; [reflexivity|]. intros e. unfold insert_into. destruct Xs as [|x0 Xs0]; [intros E; cbn in E; injection E as <-; left; reflexivity|].
    change (insert_rows zero w m n (x0 :: Xs0)%list = Err e -> e = IndexError \/ (e = ValueError /\ Exists (fun x => m < length x /\ length x <> 1) (x0 :: Xs0)%list)). generalize (x0 :: Xs0)%list as Ys. intros Ys. revert n. induction Ys as [|x Ys IH]; intros n; [destruct n; cbn; discriminate|]. destruct n as [|n]; [intros E; injection E as <-; left; reflexivity|].
    cbn [insert_rows]. unfold insert_row. destruct (Nat.leb (length x) m) eqn:L; cbn [bind].
    - destruct (insert_rows zero w m n Ys) eqn:R; cbn [bind]; [discriminate|]. intros E. injection E as <-. destruct (IH n R) as [->|[-> X]]; [left; reflexivity | right; split; [reflexivity | right; exact X]].
    - apply Nat.leb_gt in L. destruct (Nat.eqb (length x) 1) eqn:O; cbn [bind].
      + destruct (insert_rows zero w m n Ys) eqn:R; cbn [bind]; [discriminate|]. intros E. injection E as <-. destruct (IH n R) as [->|[-> X]]; [left; reflexivity | right; split; [reflexivity | right; exact X]].
      + intros E. injection E as <-. right. split; [reflexivity|]. left. split; [exact L|]. apply Nat.eqb_neq. exact O.
  Qed.
  Context {B : Type} (dec : string -> list B -> T) (size : string -> nat).
  Lemma load_refused fresh s : length (st_bytes s) <> count (st_shape s) * size (d_kind (st_dtype s)) ->
    np_receive cast infer native dec size fresh s = Err ValueError /\ cupy_receive cast infer native dec size fresh s = Err ValueError.
  Proof. intros H. unfold np_receive, cupy_receive, load. apply Nat.eqb_neq in H. rewrite H. split; reflexivity. Qed.
End Refusals.
