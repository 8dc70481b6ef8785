(** C53: the layers that change the shape of what another layer gets. *)
From Verif Require Import ShapeProofs.

(** with_getitem replaces exactly the selected item, in the output and (in the callback) in the gradient. *)
Theorem C53_getitem : forall G V (layer : slayer G V V) pre x post y b, layer x = Ok (y, b) ->
  exists b', with_getitem (Z.of_nat (length pre)) layer (pre ++ x :: post) = Ok (pre ++ y :: post, b') /\
  forall dpre d dpost s, length dpre = length pre ->
    b' (dpre ++ d :: dpost) s = match b d s with Ok (d', s') => Ok (dpre ++ d' :: dpost, s') | Err e => Err e end.
Proof. exact getitem_pos. Qed.
Print Assumptions C53_getitem.
(** Likewise for negative indices, except -1. *)
Theorem C53_getitem_negative : forall G V (layer : slayer G V V) pre x post y b, layer x = Ok (y, b) -> post <> [] ->
  exists b', with_getitem (- Z.of_nat (length (x :: post))) layer (pre ++ x :: post) = Ok (pre ++ y :: post, b') /\
  forall dpre d dpost s, length dpost = length post ->
    b' (dpre ++ d :: dpost) s = match b d s with Ok (d', s') => Ok (dpre ++ d' :: dpost, s') | Err e => Err e end.
Proof. exact getitem_neg. Qed.
Print Assumptions C53_getitem_negative.
(** With -1 all items follow once more after the replaced one: [items[idx + 1:]] is [items[0:]]. *)
Theorem C53_getitem_last_refuted : forall G V (layer : slayer G V V) pre x y b, layer x = Ok (y, b) ->
  exists b', with_getitem (-1) layer (pre ++ [x]) = Ok (pre ++ [y] ++ pre ++ [x], b') /\
  forall dpre d s, b' (dpre ++ [d]) s = match b d s with Ok (d', s') => Ok (dpre ++ [d'] ++ dpre ++ [d], s') | Err e => Err e end.
Proof. exact getitem_last. Qed.
Print Assumptions C53_getitem_last_refuted.
Theorem C53_getitem_range : forall G V idx (layer : slayer G V V) items, (idx < - Z.of_nat (length items) \/ Z.of_nat (length items) <= idx)%Z -> with_getitem idx layer items = Err IndexError.
Proof. exact getitem_range. Qed.
Print Assumptions C53_getitem_range.
(** A layer that adds 10; its callback counts calls. *)
Definition plus10 : slayer nat nat nat := fun x => Ok (x + 10, fun d s => Ok (d * 2, S s)).
Example C53_getitem_ex : exists b', with_getitem 1 plus10 [1; 2; 3] = Ok ([1; 12; 3], b') /\ b' [5; 6; 7] 0 = Ok ([5; 12; 7], 1).
Proof. eexists. split; reflexivity. Qed.
Example C53_getitem_negative_ex : exists b', with_getitem (-2) plus10 [1; 2; 3] = Ok ([1; 12; 3], b') /\ b' [5; 6; 7] 0 = Ok ([5; 12; 7], 1).
Proof. eexists. split; reflexivity. Qed.
Example C53_getitem_last_ex : exists b', with_getitem (-1) plus10 [1; 2; 3] = Ok ([1; 2; 13; 1; 2; 3], b') /\ b' [5; 6; 7] 0 = Ok ([5; 6; 14; 5; 6; 7], 1).
Proof. eexists. split; reflexivity. Qed.
Example C53_getitem_range_ex : with_getitem 3 plus10 [1; 2; 3] = Err IndexError.
Proof. reflexivity. Qed.

(** with_flatten.v2: the layer sees all items in order; its output, and the gradient, take the structure of the input. *)
Theorem C53_flatten_v2 : forall G A B (layer : slayer G (list A) (list B)) X Y b, layer (concat X) = Ok (Y, b) -> length Y = length (concat X) ->
  exists Ynest b', with_flatten_v2 layer X = Ok (Ynest, b') /\ concat Ynest = Y /\ map (@length B) Ynest = map (@length A) X /\
  forall dYnest s, (forall e, b (concat dYnest) s = Err e -> b' dYnest s = Err e) /\
    forall dX s', b (concat dYnest) s = Ok (dX, s') -> length dX = length (concat X) ->
      exists dXnest, b' dYnest s = Ok (dXnest, s') /\ concat dXnest = dX /\ map (@length A) dXnest = map (@length A) X.
Proof. exact flatten_v2. Qed.
Print Assumptions C53_flatten_v2.
Definition each10 : slayer nat (list nat) (list nat) := fun xs => Ok (map (plus 10) xs, fun ds s => Ok (map (Nat.mul 2) ds, s + length ds)).
Example C53_flatten_v2_ex : exists b', with_flatten_v2 each10 [[1; 2]; []; [3]] = Ok ([[11; 12]; []; [13]], b') /\ b' [[1; 2]; []; [3]] 0 = Ok ([[2; 4]; []; [6]], 3).
Proof. eexists. split; reflexivity. Qed.
(** A layer that gives more items loses them without an error. *)
Theorem C53_flatten_v2_count_refuted : exists (layer : slayer unit (list nat) (list nat)) X Y b b', layer (concat X) = Ok (Y, b) /\ Y = [1; 1; 2; 2] /\ with_flatten_v2 layer X = Ok ([[1]; [1]], b').
Proof. exact flatten_v2_count. Qed.
Print Assumptions C53_flatten_v2_count_refuted.

(** with_flatten.v1: the output is split among the sequences. The gradient is too if it has one axis; a gradient with two axes is
    split along its columns, so every sequence gets all the rows. *)
Theorem C53_flatten_v1 : forall G A T (z : T) (layer : list A -> result (nda T * back G (nda T) (nda T))) X Y b, X <> [] -> layer (concat X) = Ok (Y, b) -> a_len Y = length (concat X) ->
  exists Ynest b', with_flatten_v1 z layer X = Ok (Ynest, b') /\ concat (map a_rows Ynest) = a_rows Y /\ map a_len Ynest = map (@length A) X /\ Forall (fun a => a_tail a = a_tail Y) Ynest /\
  forall dYnest dY s dX s', flatten z dYnest 0 2 = Ok dY -> b dY s = Ok (dX, s') -> a_len dX = length (concat X) ->
    exists dXnest, b' dYnest s = Ok (dXnest, s') /\
      (a_tail dX = [] -> concat (map a_rows dXnest) = a_rows dX /\ map a_len dXnest = map (@length A) X) /\
      (forall n, a_tail dX = [n] -> map a_len dXnest = map (fun _ => length (concat X)) X).
Proof. exact flatten_v1. Qed.
Print Assumptions C53_flatten_v1.
(** In full for 2d gradients: side by side, the pieces are the gradient, and they are as wide as the sequences are long. *)
Theorem C53_flatten_v1_columns_refuted : forall G A T (z : T) (layer : list A -> result (nda T * back G (nda T) (nda T))) X Y b n, X <> [] -> layer (concat X) = Ok (Y, b) -> a_len Y = length (concat X) ->
  exists Ynest b', with_flatten_v1 z layer X = Ok (Ynest, b') /\
  forall dYnest dY s dX s', flatten z dYnest 0 2 = Ok dY -> b dY s = Ok (dX, s') -> a_tail dX = [n] -> Forall (fun r => length r = n) (a_rows dX) ->
    exists dXnest, b' dYnest s = Ok (dXnest, s') /\
      (forall i, i < a_len dX -> concat (map (fun a => nth i (a_rows a) []) dXnest) = nth i (a_rows dX) []) /\
      Forall (fun a => Forall (fun r => a_tail a = [length r]) (a_rows a)) dXnest /\
      (length (concat X) <= n -> map a_tail (removelast dXnest) = map (fun x => [length x]) (removelast X)).
Proof. exact flatten_v1_columns. Qed.
Print Assumptions C53_flatten_v1_columns_refuted.
Example C53_flatten_v1_ex : exists b', with_flatten_v1 0 pairs [[1; 2]; [3]] = Ok ([mkA [2] [[1; 2]; [2; 3]]; mkA [2] [[3; 4]]], b') /\
  b' [mkA [] [[1]; [2]]; mkA [] [[3]]] tt = Ok ([mkA [] [[1]; [2]]; mkA [] [[3]]], tt).
Proof. eexists. split; reflexivity. Qed.
Theorem C53_flatten_v1_gradient_refuted : exists X Y b' dX, with_flatten_v1 0 pairs X = Ok (Y, b') /\ b' Y tt = Ok (dX, tt) /\ map a_len Y = [2; 1] /\ map a_len dX = [3; 3].
Proof. exact flatten_v1_grad. Qed.
Print Assumptions C53_flatten_v1_gradient_refuted.
(** No sequences: one output. *)
Theorem C53_flatten_v1_empty_refuted : forall G A T (z : T) (layer : list A -> result (nda T * back G (nda T) (nda T))) Y b, layer [] = Ok (Y, b) -> exists b', with_flatten_v1 z layer [] = Ok ([Y], b').
Proof. exact flatten_v1_empty. Qed.
Print Assumptions C53_flatten_v1_empty_refuted.

(** with_reshape: the layer gets the rows of all sequences. The callback does not give the layer's callback the rows: it raises
    ValueError if the widths differ (or there are no rows), and otherwise passes an array with three axes. *)
Theorem C53_reshape : forall G T (layer : slayer G (nd T) (nd T)) nB nT nI nO data yd b, length data = nB * nT * nI -> nI <> 0 -> layer (mkNd [nB * nT; nI] data) = Ok (mkNd [nB * nT; nO] yd, b) -> length yd = nB * nT * nO ->
  exists b', with_reshape (Ok nO) layer (mkNd [nB; nT; nI] data) = Ok (mkNd [nB; nT; nO] yd, b') /\
  forall dd s, length dd = nB * nT * nO -> (nB * nT = 0 -> b' (mkNd [nB; nT; nO] dd) s = Err ValueError) /\
    (nB * nT <> 0 -> nI <> nO -> b' (mkNd [nB; nT; nO] dd) s = Err ValueError) /\ (nB * nT <> 0 -> nI = nO -> b' (mkNd [nB; nT; nO] dd) s = b (mkNd [nB; nT; nI] dd) s).
Proof. exact reshape_forward. Qed.
Print Assumptions C53_reshape.
Example C53_reshape_ex : exists b', with_reshape (Ok 1) heads (mkNd [1; 2; 3] [1; 2; 3; 4; 5; 6]) = Ok (mkNd [1; 2; 1] [1; 4], b') /\ b' (mkNd [1; 2; 1] [7; 8]) tt = Err ValueError.
Proof. eexists. split; reflexivity. Qed.
(** So a layer of equal widths fails too. *)
Theorem C53_reshape_gradient_refuted : exists b', with_reshape (Ok 1) heads (mkNd [1; 2; 1] [1; 4]) = Ok (mkNd [1; 2; 1] [1; 4], b') /\ forall dY s, nd_shape dY = [1; 2; 1] -> length (nd_data dY) = 2 -> b' dY s = Err ValueError.
Proof. exact reshape_grad. Qed.
Print Assumptions C53_reshape_gradient_refuted.

(** array_getitem: every entry of the output is the entry of the input that the index names; the gradient has the shape of the
    input, the output's gradient at the selected entries and zero elsewhere, if the index names no position twice. *)
Theorem C53_array_getitem : forall G T (z : T) ix X sel, nd_wf X -> nth 0 (nd_shape X) 0 <> 0 -> selects (nd_shape X) ix sel ->
  exists Y b, array_getitem (G := G) z ix X = Ok (Y, b) /\ nd_wf Y /\ nd_shape Y = keep_axes sel (sel_dims sel (nd_shape X)) /\
  (forall l, inside (nd_shape Y) l -> exists ks, inside (sel_dims sel (nd_shape X)) ks /\ keep_axes sel ks = l) /\
  (forall ks, inside (sel_dims sel (nd_shape X)) ks -> inside (nd_shape X) (source sel ks) /\ entry z Y (keep_axes sel ks) = entry z X (source sel ks)) /\
  (Forall (fun p => NoDup (snd p)) sel -> forall dY s, nd_wf dY -> nd_shape dY = nd_shape Y -> exists dX, b dY s = Ok (dX, s) /\ nd_wf dX /\ nd_shape dX = nd_shape X /\
    (forall ks, inside (sel_dims sel (nd_shape X)) ks -> entry z dX (source sel ks) = entry z dY (keep_axes sel ks)) /\
    (forall ks j p, inside (nd_shape X) ks -> nth_error sel j = Some p -> ~ In (nth j ks 0) (snd p) -> entry z dX ks = z)).
Proof. exact array_getitem_ok. Qed.
Print Assumptions C53_array_getitem.
(** Integers and slices never name a position twice. *)
Theorem C53_array_getitem_basic : forall dims l sel, axes_are dims l sel -> Forall (fun p => NoDup (snd p)) sel.
Proof. exact basic_nodup. Qed.
Print Assumptions C53_array_getitem_basic.
Theorem C53_array_getitem_range : forall G T (z : T) ix X, nd_shape X <> [] -> nth 0 (nd_shape X) 0 <> 0 -> steps_ok ix -> (forall sel, ~ selects (nd_shape X) ix sel) -> array_getitem (G := G) z ix X = Err IndexError.
Proof. exact array_getitem_err. Qed.
Print Assumptions C53_array_getitem_range.
Example C53_array_getitem_ex : exists b, array_getitem (G := unit) 0 (Basic [ASlice (mkSlice None None 1); AInt (-1)]) (mkNd [2; 3] [1; 2; 3; 4; 5; 6]) = Ok (mkNd [2] [3; 6], b) /\
  b (mkNd [2] [7; 8]) tt = Ok (mkNd [2; 3] [0; 0; 7; 0; 0; 8], tt).
Proof. eexists. split; reflexivity. Qed.
Example C53_array_getitem_sel_ex : selects [2; 3] (Basic [ASlice (mkSlice None None 1); AInt (-1)]) [(true, [0; 1]); (false, [2])].
Proof. exact sel_example. Qed.
Example C53_array_getitem_range_ex : array_getitem (G := unit) 0 (Basic [AInt 2]) (mkNd [2; 3] [1; 2; 3; 4; 5; 6]) = Err IndexError.
Proof. reflexivity. Qed.
(** A position named twice: the gradients are not added, the last one counts. *)
Theorem C53_array_getitem_repeated_refuted : exists b, array_getitem (G := unit) 0 (Fancy [] [0; 0]%Z []) (mkNd [2] [10; 20]) = Ok (mkNd [2] [10; 10], b) /\ b (mkNd [2] [1; 2]) tt = Ok (mkNd [2] [2; 0], tt).
Proof. exact getitem_repeated. Qed.
Print Assumptions C53_array_getitem_repeated_refuted.
(** Arrays without rows are returned as they are, and the callback then refuses a gradient of the output's shape. *)
Theorem C53_array_getitem_empty_refuted : forall G T (z : T) ix dims data, exists b, array_getitem (G := G) z ix (mkNd (0 :: dims) data) = Ok (mkNd (0 :: dims) data, b).
Proof. exact array_getitem_empty. Qed.
Print Assumptions C53_array_getitem_empty_refuted.
Theorem C53_array_getitem_empty_gradient_refuted : exists b, array_getitem (G := unit) 0 (Basic [ASlice (mkSlice None None 1); AInt 0]) (mkNd [0; 3] []) = Ok (mkNd [0; 3] [], b) /\ b (mkNd [0; 3] []) tt = Err ValueError.
Proof. exact getitem_empty_grad. Qed.
Print Assumptions C53_array_getitem_empty_gradient_refuted.
