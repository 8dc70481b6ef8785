(** Vocabulary of the theorems about resizable layers. *)
From Coq Require Import String Reals.
From Verif Require Export NumR DenseSpec LstmSpec ResizeModel.

(** [small] can become the first part of [large]: same number of dimensions, same width, not more rows. *)
Definition fits {T} (small large : parr T) : Prop :=
  match small, large with
  | P1 v, P1 w => length v <= length w
  | P2 m, P2 n => rows_by (length (m_rows m)) (m_cols n) m /\ length (m_rows m) <= length (m_rows n)
  | _, _ => False
  end.
(** The elements of [small], and then [filler] up to the size of [large] *)
Definition grown {T} (small large : parr T) (filler : T) : parr T :=
  match small, large with
  | P1 v, P1 w => P1 (v ++ repeat filler (length w - length v))
  | P2 m, P2 n => P2 (mkM (m_cols m) (m_rows m ++ repeat (repeat filler (m_cols m)) (length (m_rows n) - length (m_rows m))))
  | _, _ => large
  end.
Definition filler_of {T} `{Num T} (fill_defaults : dict string T) (name : string) : T := match dget name fill_defaults with Some f => f | None => nZ 0 end.
(** A layer without sublayers, references and shims *)
Definition plain {T A} (layer : pnode T A) : Prop := n_layers layer = [] /\ n_refs layer = [] /\ n_shims layer = [].
(** An initialized linear layer *)
Definition is_linear {A} (layer : pnode R A) (nO nI : nat) (W : mat R) (b : list R) : Prop :=
  plain layer /\ n_dims layer = [("nO"%string, Some (Z.of_nat nO)); ("nI"%string, Some (Z.of_nat nI))] /\ n_has layer = [("W"%string, true); ("b"%string, true)] /\
  dget "W"%string (n_params layer) = Some (P2 W) /\ dget "b"%string (n_params layer) = Some (P1 b) /\ rows_by nO nI W /\ length b = nO.
Definition score (W : mat R) (b : list R) (x : list R) (j : nat) : R := (dot x (nth j (m_rows W) []) + nth j b 0)%R.
