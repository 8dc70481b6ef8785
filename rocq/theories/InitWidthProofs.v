(** The width of data. *)
From Coq Require Import Reals Lra Lia String.
From Verif Require Import Base NodeModel SoftModel CombModel InitModel InitSpec InitWidthSpec NumR.
Set Default Goal Selector "!".
Local Open Scope nat_scope.

Lemma max_of_ids l : forall x : Z,
  exists m, fold_left (fun m y => if nltb m y then y else m) (map IZR l) (IZR x) = IZR m /\ (x <= m)%Z /\
    (forall i, In i l -> (i <= m)%Z) /\ (m = x \/ In m l).
Proof.
  induction l as [|y l IH]; intros x; cbn [map fold_left].
  - exists x. split; [reflexivity|]. split; [lia|]. split; [intros ? []|left; reflexivity].
  - assert (L : nltb (IZR x) (IZR y) = (x <? y)%Z).
    { cbn. destruct (Rlt_dec (IZR x) (IZR y)) as [H|H]; symmetry.
      - apply Z.ltb_lt. apply lt_IZR. exact H.
      - apply Z.ltb_ge. apply Z.nlt_ge. intros G. apply H. apply IZR_lt. exact G. }
    rewrite L. destruct (x <? y)%Z eqn:E.
    + apply Z.ltb_lt in E. destruct (IH y) as (m & -> & Hm & Hl & Hi). exists m. split; [reflexivity|]. split; [lia|]. split.
      * intros i [<-|H]; [exact Hm|exact (Hl i H)].
      * right. destruct Hi as [->|Hi]; [left; reflexivity|right; exact Hi].
    + apply Z.ltb_ge in E. destruct (IH x) as (m & -> & Hm & Hl & Hi). exists m. split; [reflexivity|]. split; [exact Hm|]. split.
      * intros i [<-|H]; [lia|exact (Hl i H)].
      * destruct Hi as [->|Hi]; [left; reflexivity|right; right; exact Hi].
Qed.

Lemma width_ids (to_int : R -> Z) (ids : list Z) : (forall z, to_int (IZR z) = z) -> ids <> [] ->
  exists w, get_width to_int (Arr1 (map IZR ids)) = Ok w /\ (forall i, In i ids -> (i < w)%Z) /\ In (w - 1)%Z ids.
Proof.
  intros Hz Hne. destruct ids as [|x l]; [congruence|]. destruct (max_of_ids l x) as (m & E & Hx & Hl & Hi).
  exists (m + 1)%Z. split; [|split].
  - cbn [get_width map row_max bind]. rewrite E. cbn [bind]. rewrite Hz. reflexivity.
  - intros i [<-|H]; [lia|]. specialize (Hl i H). lia.
  - replace (m + 1 - 1)%Z with m by lia. destruct Hi as [->|Hi]; [left; reflexivity|right; exact Hi].
Qed.

Section W.
  Context {T : Type} {NT : Num T} {TT : Trans T}.

  Lemma width_first (to_int : T -> Z) x l : get_width to_int (PyList (x :: l)) = get_width to_int x /\
    get_width to_int (PyTup (x :: l)) = get_width to_int x.
  Proof. split; reflexivity. Qed.

  Lemma width_raises (to_int : T -> Z) (X : value T) e : get_width to_int X = Err e <-> e = ValueError /\ first_leaf X = Some (Arr1 []).
  Proof.
    revert X. fix IH 1. intros [x|v|m|m ls d|w a b c d|l|l]; cbn [get_width first_leaf].
    - split; [discriminate|intros (_ & E); discriminate].
    - clear IH. destruct v as [|x v]; cbn [row_max bind]; split.
      + intros E. injection E as <-. split; reflexivity.
      + intros (-> & _). reflexivity.
      + discriminate.
      + intros (_ & E). discriminate.
    - split; [discriminate|intros (_ & E); discriminate].
    - split; [discriminate|intros (_ & E); discriminate].
    - split; [discriminate|intros (_ & E); discriminate].
    - destruct l as [|x l]; [split; [discriminate|intros (_ & E); discriminate]|apply IH].
    - destruct l as [|x l]; [split; [discriminate|intros (_ & E); discriminate]|apply IH].
  Qed.
End W.
