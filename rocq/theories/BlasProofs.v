From Coq Require Import Lia.
From Verif Require Import DenseModel MatProofs BaseFacts BlasModel BlasSpec.
From Verif Require Import MkProofs.
Set Default Goal Selector "!".
Local Open Scope nat_scope.

Lemma loop_app {X} (f : nat -> X -> result X) a b s : loop f (a ++ b) s = let* s := loop f a s in loop f b s.
Proof. revert s. induction a as [|i a IH]; intros s; [reflexivity|]. cbn. destruct (f i s); cbn; auto. Qed.
(** A loop keeps an invariant that speaks about how far it got. *)
Lemma loop_inv {X} (P : nat -> X -> Prop) (f : nat -> X -> result X) n s : P 0 s -> (forall i s, i < n -> P i s -> exists s', f i s = Ok s' /\ P (S i) s') ->
  exists s', loop f (seq 0 n) s = Ok s' /\ P n s'.
Proof.
  intros H0 St. induction n as [|n IH]; [exists s; auto|]. destruct IH as (s1 & L & P1); [intros; apply St; auto|].
  replace (S n) with (n + 1) by lia. rewrite seq_app, loop_app, L. cbn. destruct (St n s1 (Nat.lt_succ_diag_r n) P1) as (s2 & E & P2). rewrite E. cbn. exists s2. split; [auto|]. now rewrite Nat.add_1_r.
Qed.

Section Blas.
  Context {T : Type} `{N : Num T}.
  Local Notation d := (nZ 0 : T).
  Lemma ld_ok (m : list T) p : p < length m -> ld m p = Ok (nth p m d).
  Proof. intros L. unfold ld. now rewrite (nth_error_nth' m d L). Qed.
  Lemma set_nth_len (m : list T) p x : length (set_nth p x m) = length m.
  Proof. apply set_nth_length. Qed.
  Lemma nth_set (m : list T) p q x : p < length m -> nth q (set_nth p x m) d = if Nat.eqb q p then x else nth q m d.
  Proof.
    revert p q. induction m as [|y m IH]; intros p q L; [cbn in L; lia|]. destruct p as [|p], q as [|q]; cbn; try reflexivity. cbn in L. apply IH. lia.
  Qed.
  Lemma fold_map {A} (f : A -> T) l z : fold_left nadd (map f l) z = fold_left (fun s x => nadd s (f x)) l z.
  Proof. revert z. induction l; intros z; cbn; auto. Qed.
  Lemma dot_ok A B tA tB lda ldb i j K : (forall l, l < K -> pos tA lda i l < length A) -> (forall l, l < K -> pos tB ldb l j < length B) ->
    loop (fun l s => let* a := ld A (pos tA lda i l) in let* b := ld B (pos tB ldb l j) in Ok (nadd s (nmul a b))) (seq 0 K) (nZ 0) =
    Ok (nsum (map (fun l => nmul (nth (pos tA lda i l) A d) (nth (pos tB ldb l j) B d)) (seq 0 K))).
  Proof.
    intros HA HB. unfold nsum. rewrite fold_map.
    destruct (loop_inv (fun n s => s = fold_left (fun s l => nadd s (nmul (nth (pos tA lda i l) A d) (nth (pos tB ldb l j) B d))) (seq 0 n) (nZ 0))
      (fun l s => let* a := ld A (pos tA lda i l) in let* b := ld B (pos tB ldb l j) in Ok (nadd s (nmul a b))) K (nZ 0)) as (s' & E & ->); [reflexivity| |exact E].
    intros l s Hl ->. rewrite (ld_ok A) by auto. cbn [bind]. rewrite (ld_ok B) by auto. cbn [bind]. eexists. split; [reflexivity|].
    cbv beta. replace (S l) with (l + 1) by lia. now rewrite seq_app, fold_left_app.
  Qed.
  (** Every entry of the result is written once, and nothing else is. *)
  Lemma sgemm_ok tA tB M Nn K A lda B ldb beta C ldc :
    (forall i l, i < M -> l < K -> pos tA lda i l < length A) -> (forall l j, l < K -> j < Nn -> pos tB ldb l j < length B) ->
    Nn <= ldc -> (forall i j, i < M -> j < Nn -> i * ldc + j < length C) ->
    exists C', sgemm tA tB M Nn K A lda B ldb beta C ldc = Ok C' /\ length C' = length C /\
      (forall i j, i < M -> j < Nn -> nth (i * ldc + j) C' d =
        let s := nsum (map (fun l => nmul (nth (pos tA lda i l) A d) (nth (pos tB ldb l j) B d)) (seq 0 K)) in
        match beta with None => s | Some b => nadd s (nmul b (nth (i * ldc + j) C d)) end) /\
      (forall p, (forall i j, i < M -> j < Nn -> p <> i * ldc + j) -> nth p C' d = nth p C d).
  Proof.
    intros HA HB HN HC. set (v := fun i j => let s := nsum (map (fun l => nmul (nth (pos tA lda i l) A d) (nth (pos tB ldb l j) B d)) (seq 0 K)) in
      match beta with None => s | Some b => nadd s (nmul b (nth (i * ldc + j) C d)) end).
    unfold sgemm.
    set (P := fun n (X : list T) => length X = length C /\ (forall i j, i < n -> j < Nn -> nth (i * ldc + j) X d = v i j) /\
      (forall p, (forall i j, i < n -> j < Nn -> p <> i * ldc + j) -> nth p X d = nth p C d)).
    match goal with |- context [loop ?F (seq 0 M) C] => destruct (loop_inv P F M C) as (C' & E & PL & PV & PF) end.
    - split; [reflexivity|]. split; [intros; lia|reflexivity].
    - intros i X Hi (XL & XV & XF).
      set (Q := fun n (Y : list T) => length Y = length C /\ (forall i' j, i' < i -> j < Nn -> nth (i' * ldc + j) Y d = v i' j) /\
        (forall j, j < n -> nth (i * ldc + j) Y d = v i j) /\
        (forall p, (forall i' j, i' < i -> j < Nn -> p <> i' * ldc + j) -> (forall j, j < n -> p <> i * ldc + j) -> nth p Y d = nth p C d)).
      match goal with |- context [loop ?F (seq 0 Nn) X] => destruct (loop_inv Q F Nn X) as (X' & E & QL & QO & QV & QF) end.
      + split; [auto|]. split; [auto|]. split; [intros; lia|]. intros p Hp _. now apply XF.
      + intros j Y Hj (YL & YO & YV & YF). rewrite dot_ok; [|intros l Hl; now apply HA|intros l Hl; now apply HB]. cbn [bind]. unfold st.
        assert (i * ldc + j < length Y) as IB by (rewrite YL; now apply HC).
        match goal with |- context [bind ?m (fun s => if _ then _ else _)] => assert (m = Ok (v i j)) as -> end.
        { subst v. cbv zeta beta. destruct beta as [b|]; [|reflexivity]. rewrite ld_ok by auto. cbn [bind]. do 3 f_equal. apply YF; [intros; nia|intros; lia]. }
        cbn [bind]. rewrite (proj2 (Nat.ltb_lt _ _) IB).
        eexists. split; [reflexivity|]. split; [now rewrite set_nth_len|]. split; [|split].
        * intros i' j' Hi' Hj'. rewrite nth_set by auto. destruct (Nat.eqb_spec (i' * ldc + j') (i * ldc + j)) as [Eq|_]; [nia|]. now apply YO.
        * intros j' Hj'. rewrite nth_set by auto. destruct (Nat.eqb_spec (i * ldc + j') (i * ldc + j)) as [Eq|Ne].
          -- assert (j' = j) as -> by lia. reflexivity.
          -- apply YV. lia.
        * intros p Hp Hq. rewrite nth_set by auto. destruct (Nat.eqb_spec p (i * ldc + j)) as [Eq|Ne]; [exfalso; apply (Hq j); auto; lia|]. apply YF; [auto|]. intros j' Hj'. apply Hq. lia.
      + exists X'. split; [exact E|]. split; [auto|]. split.
        * intros i' j Hi' Hj. destruct (Nat.eq_dec i' i) as [->|]; [now apply QV|]. apply QO; [lia|auto].
        * intros p Hp. apply QF; [intros; apply Hp; [lia|auto]|]. intros j Hj. apply Hp; [lia|auto].
    - exists C'. auto.
  Qed.
  Lemma pos_in (t : bool) (a : arr2 T) i l : full a -> i < op_rows t a -> l < op_cols t a -> pos t (f_cols a) i l < length (f_data a).
  Proof. unfold full, op_rows, op_cols, pos. intros -> Hi Hl. destruct t; nia. Qed.
  Lemma pos_item (t : bool) (a : arr2 T) i l : nth (pos t (f_cols a) i l) (f_data a) d = op_item t a i l.
  Proof. unfold op_item, item, pos. now destruct t. Qed.
  Lemma sgemm_holds t1 t2 A B C : full A -> full B -> full C -> op_cols t1 A = op_rows t2 B -> f_rows C = op_rows t1 A -> f_cols C = op_cols t2 B ->
    exists data, sgemm t1 t2 (op_rows t1 A) (op_cols t2 B) (op_cols t1 A) (f_data A) (f_cols A) (f_data B) (f_cols B) None (f_data C) (f_cols C) = Ok data /\
      holds (mkF true (f_rows C) (f_cols C) data) (op_rows t1 A) (op_cols t2 B) (product t1 t2 A B).
  Proof.
    intros FA FB FC K R Cc.
    destruct (sgemm_ok t1 t2 (op_rows t1 A) (op_cols t2 B) (op_cols t1 A) (f_data A) (f_cols A) (f_data B) (f_cols B) None (f_data C) (f_cols C)) as (data & E & L & V & _).
    - intros i l Hi Hl. now apply pos_in.
    - intros l j Hl Hj. apply pos_in; [auto|congruence|auto].
    - rewrite Cc. lia.
    - intros i j Hi Hj. unfold full in FC. rewrite FC, R, Cc. nia.
    - exists data. split; [exact E|]. unfold holds, full. cbn. repeat split; [unfold full in FC; congruence|auto|auto|]. intros i j Hi Hj. unfold item. cbn. rewrite V by auto.
      unfold product. f_equal. apply map_ext. intros l. now rewrite !pos_item.
  Qed.
  Lemma empty_full (junk : T) r c : full (empty junk r c). Proof. unfold full. cbn. apply repeat_length. Qed.

  Lemma apple_product (junk : T) A B t1 t2 out : full A -> full B -> f_ok A = true -> f_ok B = true -> op_cols t1 A = op_rows t2 B -> op_cols t1 A <> 0 ->
    match out with None => True | Some C => full C /\ f_ok C = true /\ f_rows C = op_rows t1 A /\ f_cols C = op_cols t2 B end ->
    exists R, apple_gemm junk A B t1 t2 out = Ok R /\ holds R (op_rows t1 A) (op_cols t2 B) (product t1 t2 A B).
  Proof.
    intros FA FB OA OB K K0 HO. unfold apple_gemm, float_view. rewrite OA, OB. cbn [bind].
    fold (op_rows t1 A). fold (op_cols t1 A). fold (op_cols t2 B). change (if t2 then f_cols B else f_rows B) with (op_rows t2 B).
    set (C := match out with None => empty junk (op_rows t1 A) (op_cols t2 B) | Some C => C end).
    assert (full C /\ f_rows C = op_rows t1 A /\ f_cols C = op_cols t2 B) as (FC & R & Cc).
    { subst C. destruct out as [C|]; [tauto|]. split; [apply empty_full|]. split; reflexivity. }
    match goal with |- context [bind ?m _] => assert (m = Ok C) as -> end.
    { subst C. destruct out as [C|]; [|reflexivity]. destruct HO as (_ & OC & RC & CC). rewrite OC. cbn [bind]. rewrite RC, CC, !Nat.eqb_refl. reflexivity. }
    cbn [bind]. change (if t2 then f_rows B else f_cols B) with (op_cols t2 B) in *. rewrite K, Nat.eqb_refl. cbn [negb]. rewrite <- K. rewrite (proj2 (Nat.eqb_neq _ _) K0), Bool.orb_false_r.
    destruct (Nat.eqb_spec (op_rows t1 A) 0) as [Z1|N1]; cbn [orb].
    - exists C. split; [reflexivity|]. split; [auto|]. split; [auto|]. split; [auto|]. intros i j Hi. lia.
    - destruct (Nat.eqb_spec (op_cols t2 B) 0) as [Z2|N2].
      + exists C. split; [reflexivity|]. split; [auto|]. split; [auto|]. split; [auto|]. intros i j _ Hj. lia.
      + destruct (sgemm_holds t1 t2 A B C FA FB FC K R Cc) as (data & E & HH). rewrite E. cbn. eexists. split; [reflexivity|exact HH].
  Qed.
  Lemma blis_product (junk : T) A B t1 t2 out : full A -> full B -> op_cols t1 A = op_rows t2 B ->
    match out with None => True | Some C => full C /\ f_rows C = op_rows t1 A /\ f_cols C = op_cols t2 B end ->
    exists R, blis_gemm junk A B t1 t2 out = Ok R /\ holds R (op_rows t1 A) (op_cols t2 B) (product t1 t2 A B).
  Proof.
    intros FA FB K HO. unfold blis_gemm.
    fold (op_rows t1 A). fold (op_cols t1 A). change (if t2 then f_cols B else f_rows B) with (op_rows t2 B). change (if t2 then f_rows B else f_cols B) with (op_cols t2 B).
    rewrite K, Nat.eqb_refl. cbn [negb]. rewrite <- K.
    set (C := match out with None => empty junk (op_rows t1 A) (op_cols t2 B) | Some C => C end).
    assert (full C /\ f_rows C = op_rows t1 A /\ f_cols C = op_cols t2 B) as (FC & R & Cc).
    { subst C. destruct out as [C|]; [tauto|]. split; [apply empty_full|]. split; reflexivity. }
    destruct (sgemm_holds t1 t2 A B C FA FB FC K R Cc) as (data & E & HH). rewrite E. cbn. eexists. split; [reflexivity|exact HH].
  Qed.
  Lemma list_vec (l : list T) : l = vec (length l) (fun i => nth i l d).
  Proof. apply (nth_ext _ _ d d); [now rewrite vec_length|]. intros i Hi. now rewrite nth_vec. Qed.
  Lemma as_mat_mk (a : arr2 T) : full a -> as_mat a = mk (f_rows a) (f_cols a) (item a).
  Proof. unfold full, as_mat, mk. intros F. f_equal. rewrite (list_vec (f_data a)), F. now rewrite cells_of_vec. Qed.
  Lemma op_mat (t : bool) (a : arr2 T) : full a -> (if t then transpose (as_mat a) else as_mat a) = mk (op_rows t a) (op_cols t a) (op_item t a).
  Proof. intros F. rewrite as_mat_mk by auto. destruct t; [apply transpose_mk|reflexivity]. Qed.
  Lemma holds_gemm t1 t2 A B R : full A -> full B -> op_cols t1 A = op_rows t2 B -> holds R (op_rows t1 A) (op_cols t2 B) (product t1 t2 A B) ->
    gemm (as_mat A) (as_mat B) t1 t2 = Ok (as_mat R).
  Proof.
    intros FA FB K (FR & RR & RC & RI). unfold gemm. rewrite !op_mat by auto. rewrite <- K, matmul_mk. f_equal. rewrite as_mat_mk by auto. rewrite RR, RC.
    unfold mk. f_equal. apply vec_ext. intros i Hi. apply vec_ext. intros j Hj. now rewrite RI.
  Qed.
  Lemma apple_dense (junk : T) A B t1 t2 : full A -> full B -> f_ok A = true -> f_ok B = true -> op_cols t1 A = op_rows t2 B -> op_cols t1 A <> 0 ->
    exists R, apple_gemm junk A B t1 t2 None = Ok R /\ blis_gemm junk A B t1 t2 None = Ok R /\ gemm (as_mat A) (as_mat B) t1 t2 = Ok (as_mat R).
  Proof.
    intros FA FB OA OB K K0. destruct (apple_product junk A B t1 t2 None) as (R & E & HR); auto. destruct (blis_product junk A B t1 t2 None) as (R' & E' & HR'); auto.
    exists R. split; [auto|]. split; [|now apply holds_gemm]. rewrite E'. f_equal.
    destruct HR as (F1 & A1 & B1 & C1), HR' as (F2 & A2 & B2 & C2).
    assert (f_ok R = true /\ f_ok R' = true) as [O1 O2].
    { split.
      - unfold apple_gemm in E. destruct (float_view A); [|discriminate]. destruct (float_view B); [|discriminate]. cbn [bind] in E.
        repeat match type of E with context [if ?c then _ else _] => destruct c end; try discriminate; try (injection E as <-; reflexivity); destruct (sgemm _ _ _ _ _ _ _ _ _ _ _ _); cbn in E; try discriminate; injection E as <-; reflexivity.
      - unfold blis_gemm in E'. destruct (negb _); [discriminate|]. destruct (sgemm _ _ _ _ _ _ _ _ _ _ _ _); cbn in E'; [|discriminate]. now injection E' as <-. }
    destruct R as [o r c l], R' as [o' r' c' l']. unfold full, item in *. cbn [f_ok f_rows f_cols f_data] in *. subst. f_equal. apply (nth_ext _ _ d d); [congruence|]. intros p Hp.
    set (n := op_cols t2 B) in *. assert (n <> 0) as N0 by (intros Z; rewrite Z in F2; lia).
    rewrite (Nat.div_mod p n N0), (Nat.mul_comm n). assert (p / n < op_rows t1 A) by (apply Nat.div_lt_upper_bound; lia). assert (p mod n < n) by (now apply Nat.mod_upper_bound).
    rewrite C1, C2; auto.
  Qed.
  Lemma apple_errors (junk : T) A B t1 t2 out e : full A -> full B -> match out with None => True | Some C => full C end -> apple_gemm junk A B t1 t2 out = Err e ->
    e = ValueError /\ (f_ok A = false \/ f_ok B = false \/ op_cols t1 A <> op_rows t2 B \/
      exists C, out = Some C /\ (f_ok C = false \/ f_rows C <> op_rows t1 A \/ f_cols C <> op_cols t2 B)).
  Proof.
    intros FA FB FO E. destruct (f_ok A) eqn:OA; [|unfold apple_gemm, float_view in E; rewrite OA in E; injection E as <-; auto].
    destruct (f_ok B) eqn:OB; [|unfold apple_gemm, float_view in E; rewrite OA, OB in E; injection E as <-; auto].
    destruct (Nat.eq_dec (op_cols t1 A) (op_rows t2 B)) as [K|K].
    - assert (forall C, out = Some C -> f_ok C = true -> f_rows C = op_rows t1 A -> f_cols C = op_cols t2 B -> False) as NC.
      { intros C -> OC RC CC. destruct (Nat.eq_dec (op_cols t1 A) 0) as [Z|Z].
        - unfold apple_gemm, float_view in E. rewrite OA, OB, OC in E. cbn [bind] in E. unfold op_rows, op_cols in *. rewrite RC, CC, !Nat.eqb_refl in E. cbn in E. rewrite K, Nat.eqb_refl in E. cbn in E.
          rewrite <- K, Z in E. rewrite Nat.eqb_refl, Bool.orb_true_r in E. discriminate.
        - destruct (apple_product junk A B t1 t2 (Some C)) as (R & E' & _); auto. congruence. }
      destruct out as [C|].
      + destruct (f_ok C) eqn:OC.
        * assert (f_rows C <> op_rows t1 A \/ f_cols C <> op_cols t2 B) as D.
          { destruct (Nat.eq_dec (f_rows C) (op_rows t1 A)); [|auto]. destruct (Nat.eq_dec (f_cols C) (op_cols t2 B)); [|auto]. exfalso. eauto. }
          split; [|right; right; right; exists C; tauto]. unfold apple_gemm, float_view in E. rewrite OA, OB, OC in E. cbn [bind] in E. unfold op_rows, op_cols in D.
          destruct D as [D|D]; rewrite (proj2 (Nat.eqb_neq _ _) D) in E; cbn in E; rewrite ?Bool.orb_true_r in E; cbn in E; now injection E as <-.
        * split; [|right; right; right; exists C; tauto]. unfold apple_gemm, float_view in E. rewrite OA, OB, OC in E. cbn in E. now injection E as <-.
      + exfalso. destruct (Nat.eq_dec (op_cols t1 A) 0) as [Z|Z].
        * unfold apple_gemm, float_view in E. rewrite OA, OB in E. cbn [bind] in E. unfold op_rows, op_cols in *. rewrite K, Nat.eqb_refl in E. cbn in E. rewrite <- K, Z, Nat.eqb_refl, Bool.orb_true_r in E. discriminate.
        * destruct (apple_product junk A B t1 t2 None) as (R & E' & _); auto. congruence.
    - split; [|auto]. unfold apple_gemm, float_view in E. rewrite OA, OB in E. cbn [bind] in E. unfold op_rows, op_cols in K.
      destruct out as [C|]; cbn [bind] in E.
      + destruct (f_ok C); cbn [bind] in E; [|now injection E as <-]. destruct (_ || _); cbn [bind] in E; [now injection E as <-|]. rewrite (proj2 (Nat.eqb_neq _ _) K) in E. now injection E as <-.
      + rewrite (proj2 (Nat.eqb_neq _ _) K) in E. now injection E as <-.
  Qed.
  Lemma apple_inner_refuted (junk : T) r c : 0 < r -> 0 < c -> let A := mkF true r 0 [] in let B := mkF true 0 c [] in
    apple_gemm junk A B false false None = Ok (mkF true r c (repeat junk (r * c))) /\
    blis_gemm junk A B false false None = Ok (mkF true r c (repeat (nZ 0) (r * c))).
  Proof.
    intros Hr Hc. cbn zeta. split.
    - unfold apple_gemm. cbn. now rewrite Bool.orb_true_r.
    - destruct (blis_product junk (mkF true r 0 []) (mkF true 0 c []) false false None) as (R & E & F & RR & RC & RI); try (unfold full; cbn; lia).
      rewrite E. f_equal. assert (f_ok R = true) as O.
      { unfold blis_gemm in E. cbn [f_rows f_cols f_data] in E. destruct (negb _); [discriminate|]. destruct (sgemm _ _ _ _ _ _ _ _ _ _ _ _); cbn in E; [|discriminate]. now injection E as <-. }
      destruct R as [o r' c' l]. unfold full, item in *. cbn in *. subst. f_equal. apply (nth_ext _ _ d d); [now rewrite repeat_length|]. intros p Hp.
      rewrite nth_repeat. rewrite (Nat.div_mod p c) by lia. rewrite (Nat.mul_comm c). apply RI; [apply Nat.div_lt_upper_bound; lia|apply Nat.mod_upper_bound; lia].
  Qed.
End Blas.
Lemma blis_out_refuted : exists (A B C : arr2 nat) (NN : Num nat), full A /\ full B /\ full C /\ op_cols false A = op_rows false B /\
  blis_gemm 0 A B false false (Some C) = Err MemFault.
Proof.
  exists (mkF true 1 1 [1]), (mkF true 1 2 [1; 1]), (mkF true 1 1 [0]).
  exists {| nZ := Z.to_nat; nadd := Nat.add; nsub := Nat.sub; nmul := Nat.mul; ndiv := Nat.div; nopp := fun x => x; nsqrt := Nat.sqrt; nltb := Nat.ltb; neqb := Nat.eqb |}.
  repeat split.
Qed.

Lemma cblas_functions f : apple_cblas = f -> saxpy f = Accelerate /\ sgemm_of f = Accelerate /\
  daxpy f = daxpy cblas_new /\ dgemm_of f = dgemm_of cblas_new /\ sscal f = sscal cblas_new /\ dscal f = dscal cblas_new /\
  cblas_new = mkFuncs Blis Blis Blis Blis Blis Blis.
Proof. intros <-. repeat split. Qed.
