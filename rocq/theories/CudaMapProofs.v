From Coq Require Import Reals Lra Lia.
From Verif Require Import BaseFacts CudaSpec CudaProofs SeqModel SeqProofs MatProofs ReduceProofs KernelProofs CudaRowProofs CudaMaxProofs CudaSeqProofs CudaWinProofs KernelModel KernelSpec CudaSpec.
Set Default Goal Selector "!".
Local Open Scope nat_scope.

(** ** Elementwise kernels *)
Section Maps.
  Context {T : Type} `{Num T}.
  Lemma launch_cells (d : T) (g : nat -> T) c n body m : has_threads c -> length m = n ->
    (forall i, i < n -> exists op, body i = Ok [op] /\ target op = i /\ (match op with Wr _ v => v | Rmw _ f => f (nth i m d) end) = g i) ->
    launch c n (stateless body) tt m = Ok (vec n g).
  Proof.
    intros HT HL Hb. set (work := fun i => match body i with Ok l => l | Err _ => [] end).
    rewrite (launch_ok d (fun a => a) (fun _ (_ : unit) => True) work); auto.
    - rewrite HL. f_equal. apply vec_ext. intros i Hi. destruct (Nat.ltb_spec i n); [|lia]. destruct (Hb i Hi) as (op & E & Et & Ev). unfold work. rewrite E. rewrite upd_here by exact Et. exact Ev.
    - intros b [] Hi _. exists tt. split; [|auto]. destruct (Hb b Hi) as (op & E & _ & _). unfold stateless, work. now rewrite E.
    - intros b i Hi Hin. destruct (Hb b Hi) as (op & E & Et & _). unfold work in Hin. rewrite E in Hin. destruct Hin as [<-|[]]. rewrite Et. lia.
  Qed.
  Lemma map_cu c junk inplace (f : T -> T) X : has_threads c -> cu_map c junk inplace f X = Ok (map f X).
  Proof.
    intros HT. assert (E : vec (length X) (fun i => f (nth i X (nZ 0))) = map f X) by (symmetry; rewrite (vec_of (nZ 0) X) at 1; now rewrite map_vec).
    unfold cu_map. destruct inplace.
    - rewrite (launch_cells (nZ 0) (fun i => f (nth i X (nZ 0)))); [now rewrite E|exact HT|reflexivity|]. intros i Hi. eexists. split; [reflexivity|]. split; reflexivity.
    - rewrite (launch_cells (nZ 0) (fun i => f (nth i X (nZ 0)))); [now rewrite E|exact HT|now rewrite map_length, seq_length|]. intros i Hi. unfold k_map. rewrite (load_nth (nZ 0)) by exact Hi. cbn [bind]. eexists. split; [reflexivity|]. split; reflexivity.
  Qed.
  Lemma map2_cu c junk inplace (f : T -> T -> T) dY X : has_threads c -> length X = length dY ->
    cu_map2 c junk inplace f dY X = Ok (map (fun p => f (fst p) (snd p)) (combine dY X)).
  Proof.
    intros HT HL. assert (E : vec (length dY) (fun i => f (nth i dY (nZ 0)) (nth i X (nZ 0))) = map (fun p => f (fst p) (snd p)) (combine dY X)).
    { symmetry. rewrite (vec_of (nZ 0) dY) at 1. rewrite (vec_of_len (nZ 0) (length dY) X HL) at 1. rewrite combine_vec, map_vec. reflexivity. }
    unfold cu_map2. rewrite HL, Nat.eqb_refl. cbn [negb]. destruct inplace.
    - rewrite (launch_cells (nZ 0) (fun i => f (nth i dY (nZ 0)) (nth i X (nZ 0)))); [now rewrite E|exact HT|reflexivity|].
      intros i Hi. unfold k_map_inplace. rewrite (load_nth (nZ 0)) by lia. cbn [bind]. eexists. split; [reflexivity|]. split; reflexivity.
    - rewrite (launch_cells (nZ 0) (fun i => f (nth i dY (nZ 0)) (nth i X (nZ 0)))); [now rewrite E|exact HT|now rewrite map_length, seq_length|].
      intros i Hi. unfold k_map. rewrite !(load_nth (nZ 0)) by lia. cbn [bind]. eexists. split; [reflexivity|]. split; reflexivity.
  Qed.
  Lemma map3_cu c junk inplace (f : T -> T -> T -> T) dY X Y : has_threads c -> length X = length dY -> length Y = length dY ->
    cu_map3 c junk inplace f dY X Y = Ok (map (fun p => f (fst p) (fst (snd p)) (snd (snd p))) (combine dY (combine X Y))).
  Proof.
    intros HT HL HL'. assert (E : vec (length dY) (fun i => f (nth i dY (nZ 0)) (nth i X (nZ 0)) (nth i Y (nZ 0))) = map (fun p => f (fst p) (fst (snd p)) (snd (snd p))) (combine dY (combine X Y))).
    { symmetry. rewrite (vec_of (nZ 0) dY) at 1. rewrite (vec_of_len (nZ 0) (length dY) X HL) at 1. rewrite (vec_of_len (nZ 0) (length dY) Y HL') at 1. rewrite !combine_vec, map_vec. reflexivity. }
    unfold cu_map3. rewrite HL, HL', Nat.eqb_refl. cbn [negb]. destruct inplace.
    - rewrite (launch_cells (nZ 0) (fun i => f (nth i dY (nZ 0)) (nth i X (nZ 0)) (nth i Y (nZ 0)))); [now rewrite E|exact HT|reflexivity|].
      intros i Hi. unfold k_map_inplace. rewrite !(load_nth (nZ 0)) by lia. cbn [bind]. eexists. split; [reflexivity|]. split; reflexivity.
    - rewrite (launch_cells (nZ 0) (fun i => f (nth i dY (nZ 0)) (nth i X (nZ 0)) (nth i Y (nZ 0)))); [now rewrite E|exact HT|now rewrite map_length, seq_length|].
      intros i Hi. unfold k_map. rewrite !(load_nth (nZ 0)) by lia. cbn [bind]. eexists. split; [reflexivity|]. split; reflexivity.
  Qed.
  Lemma shapes_cu c junk inplace f g dY X Y :
    (length X <> length dY -> cu_map2 (T := T) c junk inplace f dY X = Err ValueError /\ cu_map3 c junk inplace g dY X Y = Err ValueError) /\
    (length X = length dY -> length Y <> length dY -> cu_map3 (T := T) c junk inplace g dY X Y = Err ValueError).
  Proof.
    split.
    - intros Hx. unfold cu_map2, cu_map3. rewrite (proj2 (Nat.eqb_neq _ _) Hx). split; reflexivity.
    - intros Hx Hy. unfold cu_map3. rewrite Hx, Nat.eqb_refl. now rewrite (proj2 (Nat.eqb_neq _ _) Hy).
  Qed.

  (** ** pad *)
  Lemma max_ge l x : In x l -> x <= fold_right Nat.max 0 l.
  Proof. induction l as [|y l IH]; [contradiction|]. intros [->|Hx]; cbn; [lia|]. specialize (IH Hx). lia. Qed.
  Lemma pad_cu c junk (seqs : list (mat T)) I r : has_threads c -> r <> 0 -> seqs <> [] -> Forall (fun s => wf_mat s /\ m_cols s = I) seqs ->
    exists a, pad_seqs (nZ 0) (map (fun s => mkA [m_cols s] (m_rows s)) seqs) r = Ok a /\
      cu_pad c junk seqs (Z.of_nat r) = Ok (a3_n1 a, I, concat (map (@concat T) (a3_cells a))).
  Proof.
    intros HT Hr Hne Hw. destruct seqs as [|s0 l0] eqn:Es; [congruence|]. rewrite <- Es in *. clear Hne.
    assert (H0 : m_cols s0 = I). { rewrite Es in Hw. apply Forall_cons_iff in Hw. tauto. }
    set (Lz := (Z.of_nat (fold_right Nat.max 0%nat (map m_len seqs)) + (- Z.of_nat (fold_right Nat.max 0%nat (map m_len seqs))) mod Z.of_nat r)%Z). set (L := Z.to_nat Lz).
    assert (HL : forall s, In s seqs -> m_len s <= L).
    { intros s Hs. pose proof (max_ge (map m_len seqs) (m_len s) (in_map m_len _ _ Hs)). pose proof (Z.mod_pos_bound (- Z.of_nat (fold_right Nat.max 0%nat (map m_len seqs))) (Z.of_nat r) ltac:(lia)). unfold L, Lz. lia. }
    exists (mkA3 L [I] (map (fun s => m_rows s ++ zero_rows (nZ 0) (L - m_len s) [I]) seqs)). split.
    - unfold pad_seqs. destruct (Nat.ltb_spec r 1); [lia|]. assert (Eml : map (fun s => mkA [m_cols s] (m_rows s)) seqs = mkA [m_cols s0] (m_rows s0) :: map (fun s => mkA [m_cols s] (m_rows s)) l0) by (rewrite Es; reflexivity).
      rewrite Eml at 1. cbv beta iota. clear Eml.
      assert (F1 : forallb (fun s => length (a_tail s) =? length (a_tail (mkA [m_cols s0] (m_rows s0)))) (map (fun s => mkA [m_cols s] (m_rows s)) seqs) = true).
      { apply forallb_forall. intros a Ha. apply in_map_iff in Ha. destruct Ha as (s & <- & _). reflexivity. }
      rewrite F1. cbn [negb].
      assert (F2 : forallb (fun s => same_shape (a_tail s) (a_tail (mkA [m_cols s0] (m_rows s0)))) (map (fun s => mkA [m_cols s] (m_rows s)) seqs) = true).
      { apply forallb_forall. intros a Ha. apply in_map_iff in Ha. destruct Ha as (s & <- & Hs). cbn [a_tail]. rewrite Forall_forall in Hw. destruct (Hw s Hs) as [_ E]. rewrite E, H0. unfold same_shape. destruct (list_eq_dec Nat.eq_dec [I] [I]); [reflexivity|congruence]. }
      rewrite F2. cbn [negb]. rewrite !map_map.
      assert (EL : fold_right Nat.max 0%nat (map (fun x => a_len (mkA [m_cols x] (m_rows x))) seqs) + Z.to_nat ((- Z.of_nat (fold_right Nat.max 0%nat (map (fun x => a_len (mkA [m_cols x] (m_rows x))) seqs))) mod Z.of_nat r) = L).
      { change (map (fun x => a_len (mkA [m_cols x] (m_rows x))) seqs) with (map m_len seqs). pose proof (Z.mod_pos_bound (- Z.of_nat (fold_right Nat.max 0%nat (map m_len seqs))) (Z.of_nat r) ltac:(lia)). unfold L, Lz. lia. }
      rewrite EL. cbn [a_tail]. rewrite H0. reflexivity.
    - unfold cu_pad. destruct (Z.ltb_spec (Z.of_nat r) 1); [lia|]. rewrite Es at 1. fold Lz. fold L. rewrite H0. set (N := length seqs). cbn [a3_n1 a3_cells].
      set (v := fun j i => if i <? length (m_rows (nth j seqs (mkM 0 []))) * I then nth i (flat (nth j seqs (mkM 0 []))) (nZ 0) else nZ 0).
      set (work := fun i => concat (map (fun j => [Wr (j * L * I + i) (v j i)]) (seq 0 N))).
      rewrite (launch_ok (nZ 0) (fun a => a mod (L * I)) (fun _ (_ : unit) => True) work); auto.
      + cbn [bind]. do 2 f_equal. rewrite map_length, seq_length. rewrite <- Nat.mul_assoc.
        match goal with |- ?l = _ => assert (Ll : length l = N * (L * I)) by (now rewrite map_length, seq_length); rewrite <- (cells_of_flat (L * I) N l Ll) end.
        f_equal. rewrite cells_map. rewrite map_map. symmetry. rewrite (vec_of (mkM 0 []) seqs) at 1. rewrite map_vec. apply vec_ext. intros j Hj.
        set (s := nth j seqs (mkM 0 [])) in *. assert (Hs : In s seqs) by (apply nth_In; exact Hj). rewrite Forall_forall in Hw. destruct (Hw s Hs) as [Ws Cs]. specialize (HL s Hs). rewrite concat_app.
        assert (Lf : length (flat s) = m_len s * I) by (apply concat_length_const; rewrite <- Cs; exact Ws).
        assert (Ez : concat (zero_rows (nZ 0) (L - m_len s) [I]) = repeat (nZ 0) ((L - m_len s) * I)).
        { unfold zero_rows, zero_row, shape_size. cbn. rewrite Nat.mul_1_r. generalize (L - m_len s). intros k. induction k as [|k IH]; [reflexivity|]. cbn. rewrite IH, <- repeat_app. reflexivity. }
        rewrite Ez. fold (flat s). rewrite (vec_of_len (nZ 0) (L * I) (flat s ++ _)) by (rewrite app_length, repeat_length; nia). apply vec_ext. intros i Hi.
        replace ((j * (L * I) + i) mod (L * I)) with i. 2: { rewrite Nat.add_comm, Nat.mod_add, Nat.mod_small by lia. reflexivity. }
        destruct (Nat.ltb_spec i (L * I)); [|lia]. unfold work.
        rewrite (cellf_owner (j * (L * I) + i) (fun j => [Wr (j * L * I + i) (v j i)]) (fun a => a / (L * I))); [|apply seq_NoDup|].
        * replace ((j * (L * I) + i) / (L * I)) with j by (rewrite Nat.div_add_l, Nat.div_small by lia; lia). destruct (in_dec Nat.eq_dec j (seq 0 N)) as [_|Hno]; [|exfalso; apply Hno, in_seq; unfold N; lia].
          rewrite upd_here by (cbn; lia). unfold v. fold s. fold (m_len s). destruct (Nat.ltb_spec i (m_len s * I)).
          -- now rewrite app_nth1 by lia.
          -- rewrite app_nth2 by lia. apply nth_repeat.
        * intros b op Hb [<-|[]]. cbn. rewrite <- Nat.mul_assoc, Nat.div_add_l, Nat.div_small by lia. lia.
      + intros b [] Hb _. exists tt. split; [|auto]. unfold stateless, k_pad. rewrite (for_n_ok N _ (fun j => [Wr (j * L * I + b) (v j b)])); [reflexivity|]. intros j Hj.
        rewrite (load_nth (flat (mkM 0 []))) by (now rewrite map_length). cbn [bind]. rewrite map_nth. rewrite (load_nth ((fun s : mat T => Z.of_nat (m_len s)) (mkM 0 []))) by (now rewrite map_length). cbn [bind].
        rewrite (map_nth (fun s : mat T => Z.of_nat (m_len s))). unfold v. set (s := nth j seqs (mkM 0 [])). assert (Hs : In s seqs) by (apply nth_In; exact Hj). rewrite Forall_forall in Hw. destruct (Hw s Hs) as [Ws Cs].
        assert (Lf : length (flat s) = m_len s * I) by (apply concat_length_const; rewrite <- Cs; exact Ws).
        fold (m_len s). destruct (Z.ltb_spec (Z.of_nat b) (Z.of_nat (m_len s) * Z.of_nat I)); destruct (Nat.ltb_spec b (m_len s * I)); try nia; [|reflexivity].
        rewrite (load_nth (nZ 0)) by lia. reflexivity.
      + intros b i Hb Hi. unfold work in Hi. apply in_loop in Hi. destruct Hi as (j & Hj & [<-|[]]). rewrite map_length, seq_length. cbn [target]. split; [rewrite <- !Nat.mul_assoc; nia|].
        rewrite <- Nat.mul_assoc, Nat.add_comm, Nat.mod_add, Nat.mod_small by lia. reflexivity.
  Qed.
  Lemma pad_cu_err c junk (seqs : list (mat T)) r : (r < 1)%Z \/ seqs = [] -> cu_pad c junk seqs r = Err ValueError.
  Proof. intros [Hr | ->]; unfold cu_pad; [destruct (Z.ltb_spec r 1); [reflexivity|lia]|]. now destruct (r <? 1)%Z. Qed.
End Maps.
