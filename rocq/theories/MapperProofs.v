(** Proofs about mapping ids. *)
From Coq Require Import Lia.
From Verif Require Import MapperSpec BaseFacts.
Set Default Goal Selector "!".
Local Open Scope Z_scope.

Section Proofs.
  Context {K : Type} (keq : K -> K -> bool) (int_key : Z -> K).
  Lemma table_get_mapped : forall table default x, mapped keq table default x (table_get keq table x default).
  Proof.
    induction table as [|[k v] table IH]; intros default x; cbn [table_get].
    - right. split; [intros k w [] | reflexivity].
    - destruct (keq k x) eqn:Ek; [left; exists k; split; [left; reflexivity | exact Ek]|]. destruct (IH default x) as [[k' [Hin Hk']] | [Hno Hd]].
      + left. exists k'. split; [right; exact Hin | exact Hk'].
      + right. split; [|exact Hd]. intros k' w [E | Hin]; [injection E as <- <-; exact Ek | exact (Hno _ _ Hin)].
  Qed.
  Lemma mapped_unique : forall table default x v w, functional keq table -> mapped keq table default x v -> mapped keq table default x w -> v = w.
  Proof.
    intros table default x v w Hf [[k [Hk Hkx]] | [Hno ->]] [[k' [Hk' Hkx']] | [Hno' ->]].
    - exact (Hf x k v k' w Hk Hk' Hkx Hkx').
    - rewrite (Hno' _ _ Hk) in Hkx. discriminate.
    - rewrite (Hno _ _ Hk') in Hkx'. discriminate.
    - reflexivity.
  Qed.
  Lemma int32_ok v : in_int32 v -> int32 v = Ok v.
  Proof. intros [H1 H2]. unfold int32. apply Z.leb_le in H1. apply Z.ltb_lt in H2. rewrite H1, H2. reflexivity. Qed.
  Lemma int32_err v : ~ in_int32 v -> int32 v = Err OverflowError.
  Proof. intro Hn. unfold int32, in_int32 in *. destruct (Z.leb_spec (- 2 ^ 31) v); [|reflexivity]. destruct (Z.ltb_spec v (2 ^ 31)); [|reflexivity]. exfalso. apply Hn. split; assumption. Qed.
  Lemma get_fits table default x : fits table default -> in_int32 (table_get keq table x default).
  Proof. intros [Hd Ht]. destruct (table_get_mapped table default x) as [[k [Hin _]] | [_ ->]]; [exact (Ht _ _ Hin) | exact Hd]. Qed.
  Lemma values_ok table default keys : fits table default -> mapM (fun x => int32 (table_get keq table x default)) keys = Ok (map (fun x => table_get keq table x default) keys).
  Proof. intro Hf. induction keys as [|x keys IH]; [reflexivity|]. cbn [mapM map]. rewrite int32_ok by (apply get_fits; exact Hf). cbn [bind]. rewrite IH. reflexivity. Qed.
  Lemma values_err table default : forall keys x, In x keys -> ~ in_int32 (table_get keq table x default) -> mapM (fun x => int32 (table_get keq table x default)) keys = Err OverflowError.
  Proof.
    induction keys as [|y keys IH]; intros x Hin Hx; [destruct Hin|]. cbn [mapM]. destruct (Z_lt_dec (table_get keq table y default) (- 2 ^ 31)) as [Hlt|Hge]; [rewrite int32_err; [reflexivity | unfold in_int32; lia]|].
    destruct (Z_lt_dec (table_get keq table y default) (2 ^ 31)) as [Hlt|Hge2]; [|rewrite int32_err; [reflexivity | unfold in_int32; lia]]. rewrite int32_ok by (unfold in_int32; lia). cbn [bind].
    destruct Hin as [-> | Hin]; [exfalso; apply Hx; unfold in_int32; lia|]. rewrite (IH x Hin Hx). reflexivity.
  Qed.
  Definition rows_of (table : list (K * Z)) (default : Z) (keys : list K) : list (list Z) := column_of (map (fun x => table_get keq table x default) keys).
  Lemma rows_mapped table default keys : Forall2 (fun x row => exists v, row = [v] /\ mapped keq table default x v) keys (rows_of table default keys).
  Proof. unfold rows_of, column_of. rewrite map_map. induction keys as [|x keys IH]; constructor; [eexists; split; [reflexivity | apply table_get_mapped] | exact IH]. Qed.

  Lemma remap_ok : forall table default inputs keys arr, fits table default -> selected int_key inputs None keys arr ->
    exists Y bp, remap_forward keq int_key table default inputs = Ok (Y, bp) /\ Forall2 (fun x row => exists v, row = [v] /\ mapped keq table default x v) keys Y /\ forall dY, bp dY = NoGrad.
  Proof.
    intros table default inputs keys arr Hf Hs. exists (rows_of table default keys). inversion Hs as [l c | dt l |]; subst; unfold remap_forward; cbn [bind]; rewrite values_ok by exact Hf; eexists; (split; [reflexivity|]); (split; [apply rows_mapped | reflexivity]).
  Qed.
  Lemma take_column_ok : forall w rows c i l, (if c <? 0 then c + Z.of_nat w else c) = Z.of_nat i -> (i < w)%nat -> Forall2 (fun row v => nth_error row i = Some v) rows l -> take_column w rows c = Ok l.
  Proof.
    intros w rows c i l Hi Hw Hr. unfold take_column. replace ((- Z.of_nat w <=? c) && (c <? Z.of_nat w)) with true; [|symmetry; apply andb_true_intro; rewrite Z.leb_le, Z.ltb_lt; destruct (Z.ltb_spec c 0); lia].
    rewrite Hi, Nat2Z.id. f_equal. induction Hr as [|row v rows l Hrow Hr IH]; [reflexivity|]. cbn [map]. rewrite IH. f_equal. apply nth_error_nth. exact Hrow.
  Qed.
  Lemma v2_ok : forall table default column inputs keys arr, fits table default -> selected int_key inputs column keys arr ->
    exists Y bp, remap_forward_v2 keq int_key (Some table) default column inputs = Ok (Y, bp) /\ Forall2 (fun x row => exists v, row = [v] /\ mapped keq table default x v) keys Y /\
      forall dY, length dY = length keys -> (forall row, In row dY -> length row = 1%nat) -> bp dY = if arr then Uninitialised [length keys; 1%nat] else NoGrad.
  Proof.
    intros table default column inputs keys arr Hf Hs. exists (rows_of table default keys). inversion Hs as [l c | dt l | dt w rows c i l Hi Hw Hr]; subst; unfold remap_forward_v2.
    3: rewrite (take_column_ok w rows c i l Hi Hw Hr).
    all: cbn [bind]; rewrite values_ok by exact Hf; eexists; (split; [reflexivity|]); (split; [apply rows_mapped|]); intros dY Hl Hr'; try reflexivity; rewrite Hl; (destruct dY as [|row dY]; [reflexivity | rewrite (Hr' row) by (left; reflexivity); reflexivity]).
  Qed.
  Lemma v2_errors : forall table default column inputs,
    remap_forward_v2 keq int_key None default column inputs = Err ValueError /\
    (forall dt w row rows, inputs = Ids2 dt w (row :: rows) -> column = None -> remap_forward_v2 keq int_key (Some table) default column inputs = Err TypeError) /\
    (forall dt l c, inputs = Ids1 dt l -> column = Some c -> remap_forward_v2 keq int_key (Some table) default column inputs = Err IndexError) /\
    (forall dt w rows c, inputs = Ids2 dt w rows -> column = Some c -> c < - Z.of_nat w \/ Z.of_nat w <= c -> remap_forward_v2 keq int_key (Some table) default column inputs = Err IndexError) /\
    (forall keys arr x v, selected int_key inputs column keys arr -> functional keq table -> In x keys -> mapped keq table default x v -> ~ in_int32 v -> remap_forward_v2 keq int_key (Some table) default column inputs = Err OverflowError).
  Proof.
    intros table default column inputs. split; [reflexivity|]. split; [intros dt w row rows -> ->; reflexivity|]. split; [intros dt l c -> ->; reflexivity|]. split.
    - intros dt w rows c -> -> Hc. unfold remap_forward_v2, take_column. replace ((- Z.of_nat w <=? c) && (c <? Z.of_nat w)) with false; [reflexivity|]. symmetry. apply Bool.andb_false_iff. rewrite Z.leb_gt, Z.ltb_ge. lia.
    - intros keys arr x v Hs Hfun Hin Hm Hv. rewrite (mapped_unique table default x v _ Hfun Hm (table_get_mapped table default x)) in Hv.
      inversion Hs as [l c | dt l | dt w rows c i l Hi Hw Hr]; subst; unfold remap_forward_v2; [| |rewrite (take_column_ok w rows c i l Hi Hw Hr)]; cbn [bind]; rewrite (values_err table default _ x Hin Hv); reflexivity.
  Qed.
End Proofs.

Lemma int64_ok v : - 2 ^ 63 <= v < 2 ^ 63 -> int64 v = Ok v.
Proof. intros [H1 H2]. unfold int64. apply Z.leb_le in H1. apply Z.ltb_lt in H2. rewrite H1, H2. reflexivity. Qed.
Lemma wrap32_id v : in_int32 v -> wrap32 v = v.
Proof. intros [H1 H2]. unfold wrap32. rewrite Z.mod_small by lia. lia. Qed.
Lemma wrap32_low v : in_int32 (wrap32 v) /\ (wrap32 v) mod 2 ^ 32 = v mod 2 ^ 32.
Proof.
  unfold wrap32, in_int32. pose proof (Z.mod_pos_bound (v + 2 ^ 31) (2 ^ 32) ltac:(lia)) as Hb. split; [lia|]. rewrite Zminus_mod_idemp_l. f_equal. lia.
Qed.
Section Presh.
  Context {K P : Type} (empty : P) (set : P -> Z -> Z -> result P) (get : P -> Z -> result (option Z)).
  Notation u64 k := (0 <= k < 2 ^ 64).
  Lemma fill_ok : presh_laws empty set get -> forall table m, (forall k v, In (k, v) table -> u64 k /\ u64 v) -> NoDup (map fst table) ->
    exists m', presh_fill set (map Some table) m = Ok m' /\ forall j, u64 j -> get m' j = match find (fun p => Z.eqb (fst p) j) table with Some (_, v) => Ok (Some v) | None => get m j end.
  Proof.
    intro L. induction table as [|[k v] table IH]; intros m Hr Hnd; cbn [map presh_fill].
    - exists m. split; [reflexivity | reflexivity].
    - destruct (Hr k v (or_introl eq_refl)) as [Hk Hv]. destruct (presh_put _ _ _ L m k v Hk Hv) as [m1 [E1 [E2 E3]]]. rewrite E1. cbn [bind]. inversion Hnd as [|? ? Hni Hnd']; subst.
      destruct (IH m1) as [m' [E4 E5]]; [intros k' v' Hin; apply Hr; right; exact Hin | exact Hnd'|]. exists m'. split; [exact E4|]. intros j Hj. rewrite E5 by exact Hj. cbn [find fst]. destruct (Z.eqb_spec k j) as [->|Hne].
      + destruct (find _ table) as [[k' v']|] eqn:Ef; [|exact E2]. apply find_some in Ef. destruct Ef as [Hin Hk']. cbn in Hk'. apply Z.eqb_eq in Hk'. subst k'. exfalso. apply Hni. apply in_map_iff. exists (j, v'). split; [reflexivity | exact Hin].
      + destruct (find _ table) as [[k' v']|]; [reflexivity|]. apply E3; [exact Hj | intro; subst; apply Hne; reflexivity].
  Qed.
  Lemma find_get : forall table j default, match find (fun p => Z.eqb (fst p) j) table with Some (_, v) => v | None => default end = table_get Z.eqb table j default.
  Proof. induction table as [|[k v] table IH]; intros j default; cbn; [reflexivity|]. destruct (Z.eqb k j); [reflexivity | apply IH]. Qed.

  Lemma lookup_ok : presh_laws empty set get -> forall table default keys m, (forall k v, In (k, v) table -> u64 k /\ 0 <= v < 2 ^ 63) -> NoDup (map fst table) -> - 2 ^ 63 <= default < 2 ^ 63 -> (forall k, In k keys -> 0 <= k) -> (forall k, In k keys -> k < 2 ^ 63) ->
    premap_ids empty set (map Some table) = Ok m -> lookup get m keys default = Ok (map (fun k => table_get Z.eqb table k default) keys).
  Proof.
    intros L table default keys m Hr Hnd Hd Hk Hk' Hm. unfold premap_ids in Hm. destruct (fill_ok L table empty) as [m' [E1 E2]]; [intros k v Hin; destruct (Hr k v Hin); lia | exact Hnd |]. rewrite Hm in E1. injection E1 as <-.
    unfold lookup. rewrite int64_ok by exact Hd. cbn [bind]. apply mapM_ok_map. intros k Hin. rewrite E2 by (pose proof (Hk k Hin); pose proof (Hk' k Hin); lia). rewrite <- find_get.
    destruct (find _ table) as [[k' v]|] eqn:Ef.
    - cbn [bind]. apply find_some in Ef. destruct Ef as [Hin' _]. destruct (Hr _ _ Hin') as [_ Hv]. apply int64_ok. lia.
    - rewrite (presh_none _ _ _ L); [reflexivity | pose proof (Hk k Hin); pose proof (Hk' k Hin); lia].
  Qed.
  Lemma premap_built : presh_laws empty set get -> forall table, (forall k v, In (k, v) table -> u64 k /\ u64 v) -> NoDup (map fst table) -> exists m, premap_ids empty set (map Some table) = Ok m.
  Proof. intros L table Hr Hnd. destruct (fill_ok L table empty Hr Hnd) as [m [E _]]. exists m. exact E. Qed.
  Lemma premap_ok : presh_laws empty set get -> forall table default column (inputs : ids Z) keys arr, (forall k v, In (k, v) table -> u64 k /\ 0 <= v < 2 ^ 63) -> NoDup (map fst table) -> - 2 ^ 63 <= default < 2 ^ 63 ->
    selected (fun k => k) inputs column keys arr -> match inputs with Ids1 Int64 _ | Ids2 Int64 _ _ => True | _ => False end -> (forall k, In k keys -> 0 <= k < 2 ^ 63) ->
    exists m Y bp, premap_ids empty set (map Some table) = Ok m /\ premap_forward get m default column inputs = Ok (Y, bp) /\
      Forall2 (fun x row => exists v w, row = [w] /\ mapped Z.eqb table default x v /\ in_int32 w /\ w mod 2 ^ 32 = v mod 2 ^ 32) keys Y /\
      (forall dY, bp dY = Zeros match inputs with Ids2 _ w rows => [length rows; w] | _ => [length keys] end).
  Proof.
    intros L table default column inputs keys arr Hr Hnd Hd Hs Hi Hk. destruct (premap_built L table) as [m Hm]; [intros k v Hin; destruct (Hr k v Hin); lia | exact Hnd |].
    assert (Hl : lookup get m keys default = Ok (map (fun k => table_get Z.eqb table k default) keys)) by (apply (lookup_ok L table); try assumption; intros k Hin; apply Hk in Hin; lia).
    exists m, (column_of (map wrap32 (map (fun k => table_get Z.eqb table k default) keys))). inversion Hs as [l c | dt l | dt w rows c i l Hic Hw Hrows]; subst; [destruct Hi | |].
    - destruct dt; try destruct Hi. rewrite map_id in *. eexists. split; [exact Hm|]. unfold premap_forward. cbn [bind]. rewrite Hl. cbn [bind]. split; [reflexivity|]. split; [|reflexivity].
      unfold column_of. rewrite !map_map. clear. induction l as [|x l IH]; constructor; [|exact IH]. do 2 eexists. split; [reflexivity|]. split; [apply table_get_mapped | apply wrap32_low].
    - destruct dt; try destruct Hi. rewrite map_id in *. eexists. split; [exact Hm|]. unfold premap_forward. rewrite (take_column_ok (K := Z) Z.eqb (fun k => k) w rows c i l Hic Hw Hrows). cbn [bind]. rewrite Hl. cbn [bind]. split; [reflexivity|]. split; [|reflexivity].
      unfold column_of. rewrite !map_map. clear. induction l as [|x l IH]; constructor; [|exact IH]. do 2 eexists. split; [reflexivity|]. split; [apply table_get_mapped | apply wrap32_low].
  Qed.
  Lemma premap_remap : presh_laws empty set get -> forall table default column (inputs : ids Z) keys arr, (forall k v, In (k, v) table -> u64 k /\ 0 <= v < 2 ^ 31) -> NoDup (map fst table) -> in_int32 default ->
    selected (fun k => k) inputs column keys arr -> match inputs with Ids1 Int64 _ | Ids2 Int64 _ _ => True | _ => False end -> (forall k, In k keys -> 0 <= k < 2 ^ 63) ->
    exists m Y bp bp', premap_ids empty set (map Some table) = Ok m /\ premap_forward get m default column inputs = Ok (Y, bp) /\ remap_forward_v2 Z.eqb (fun k => k) (Some table) default column inputs = Ok (Y, bp').
  Proof.
    intros L table default column inputs keys arr Hr Hnd Hd Hs Hi Hk. unfold in_int32 in Hd.
    destruct (premap_ok L table default column inputs keys arr) as [m [Y [bp [E1 [E2 [HY _]]]]]]; try assumption; [intros k v Hin; destruct (Hr k v Hin); split; [assumption | lia] | lia |].
    assert (Hf : fits table default) by (split; [exact Hd | intros k v Hin; destruct (Hr k v Hin); unfold in_int32; lia]).
    destruct (v2_ok Z.eqb (fun k => k) table default column inputs keys arr Hf Hs) as [Y' [bp' [E3 [HY' _]]]]. exists m, Y, bp, bp'. split; [exact E1|]. split; [exact E2|]. rewrite E3. do 2 f_equal.
    assert (Hfun : functional Z.eqb table).
    { intros x k v k' v' H1 H2 H3 H4. apply Z.eqb_eq in H3, H4. subst k k'. clear - Hnd H1 H2. induction table as [|[k w] table IH]; [destruct H1|]. cbn in Hnd. inversion Hnd as [|? ? Hni Hnd']; subst. destruct H1 as [E1 | H1], H2 as [E2 | H2].
      - congruence.
      - injection E1 as -> ->. exfalso. apply Hni. apply in_map_iff. exists (x, v'). split; [reflexivity | exact H2].
      - injection E2 as -> ->. exfalso. apply Hni. apply in_map_iff. exists (x, v). split; [reflexivity | exact H1].
      - apply IH; assumption. }
    clear - HY HY' Hfun Hf. revert Y' HY'. induction HY as [|x row keys Y [v [w [-> [Hm [Hw Hmod]]]]] HY IH]; intros Y' HY'; inversion HY' as [|? ? ? Y'' [v' [-> Hm']] HY'']; subst; [reflexivity|]. f_equal; [|apply IH; exact HY''].
    pose proof (mapped_unique Z.eqb table default x v v' Hfun Hm Hm') as <-. assert (Hv : in_int32 v) by (destruct Hf as [Hf1 Hf2]; destruct Hm as [[k [Hin _]] | [_ ->]]; [exact (Hf2 _ _ Hin) | exact Hf1]).
    f_equal. destruct Hv, Hw. assert (E : (w - v) mod 2 ^ 32 = 0) by (rewrite Zminus_mod, Hmod, Z.sub_diag; reflexivity). apply Z.mod_divide in E; [|lia]. destruct E as [q Hq]. assert (q = 0) by nia. lia.
  Qed.
End Presh.

Lemma shared_table {K} (keq : K -> K -> bool) (int_key : Z -> K) : (forall k, keq k k = true) -> forall h k v d, h <> [] -> in_int32 v ->
  exists bp, remap_call keq int_key (remap_ids None d) (Keys [k]) (add_entry (remap_ids None 0) k v h) = Ok ([[v]], bp).
Proof.
  intros Hrefl h k v d Hh Hv. destruct h as [|t h]; [contradiction|]. eexists. unfold remap_call, remap_ids, add_entry, remap_forward. cbn [r_table r_default set_nth nth mapM bind table_get]. rewrite Hrefl. rewrite int32_ok by exact Hv. reflexivity.
Qed.

Lemma premap_errors : forall P (empty : P) set (get : P -> Z -> result (option Z)),
  (forall items, premap_ids empty set (None :: items) = Err ValueError) /\
  (forall m default l dt, dt <> Int64 -> premap_forward (K := Z) get m default None (Ids1 dt l) = Err ValueError) /\
  (forall m default dt w rows, premap_forward (K := Z) get m default None (Ids2 dt w rows) = Err ValueError).
Proof. intros P empty set get. split; [reflexivity|]. split; [intros m default l [] Hdt; [reflexivity | contradiction | reflexivity] | reflexivity]. Qed.

Lemma strings_ok : forall Str (hash : Str -> Z) Xs, let (Y, bp) := strings_forward hash Xs in
  Forall2 (Forall2 (fun word row => exists v, row = [v] /\ 0 <= v < 2 ^ 64 /\ (v - hash word) mod 2 ^ 64 = 0)) Xs Y /\ forall dY, bp dY = NoGrad.
Proof.
  intros Str hash Xs. unfold strings_forward. split; [|reflexivity]. induction Xs as [|X Xs IH]; constructor; [|exact IH]. unfold column_of. rewrite map_map. induction X as [|w X IHX]; constructor; [|exact IHX].
  eexists. split; [reflexivity|]. split; [apply Z.mod_pos_bound; lia|]. rewrite Zminus_mod_idemp_l, Z.sub_diag. reflexivity.
Qed.

Lemma v1_matrix : forall K keq (int_key : Z -> K) table default,
  (forall dt w, exists bp, remap_forward keq int_key table default (Ids2 dt w []) = Ok ([], bp)) /\
  (forall dt w row rows, remap_forward keq int_key table default (Ids2 dt w (row :: rows)) = Err TypeError).
Proof. intros. split; [|reflexivity]. intros dt w. eexists. reflexivity. Qed.
