(** C65: layers that map ids and strings to ids. *)
From Coq Require Import Lia.
From Verif Require Import MapperModel MapperSpec MapperProofs.
Local Open Scope Z_scope.

(** [remap_ids] gives for every key, in order, a row with the value of the table or the default; its callback gives back no
    gradient. Keys are the elements of a sequence or of a vector. *)
Theorem C65_remap : forall K keq (int_key : Z -> K) table default inputs keys arr, fits table default -> selected int_key inputs None keys arr ->
  exists Y bp, remap_forward keq int_key table default inputs = Ok (Y, bp) /\ Forall2 (fun x row => exists v, row = [v] /\ mapped keq table default x v) keys Y /\ forall dY, bp dY = NoGrad.
Proof. exact @remap_ok. Qed.
Print Assumptions C65_remap.

(** Version 2 also takes a column of a matrix; for arrays its callback gives back memory it has not initialised, with the shape of
    the output's gradient. *)
Theorem C65_remap_v2 : forall K keq (int_key : Z -> K) table default column inputs keys arr, fits table default -> selected int_key inputs column keys arr ->
  exists Y bp, remap_forward_v2 keq int_key (Some table) default column inputs = Ok (Y, bp) /\ Forall2 (fun x row => exists v, row = [v] /\ mapped keq table default x v) keys Y /\
    forall dY, length dY = length keys -> (forall row, In row dY -> length row = 1%nat) -> bp dY = if arr then Uninitialised [length keys; 1%nat] else NoGrad.
Proof. exact @v2_ok. Qed.
Print Assumptions C65_remap_v2.
Theorem C65_remap_v2_errors : forall K keq (int_key : Z -> K) table default column inputs,
  remap_forward_v2 keq int_key None default column inputs = Err ValueError /\
  (forall dt w row rows, inputs = Ids2 dt w (row :: rows) -> column = None -> remap_forward_v2 keq int_key (Some table) default column inputs = Err TypeError) /\
  (forall dt l c, inputs = Ids1 dt l -> column = Some c -> remap_forward_v2 keq int_key (Some table) default column inputs = Err IndexError) /\
  (forall dt w rows c, inputs = Ids2 dt w rows -> column = Some c -> c < - Z.of_nat w \/ Z.of_nat w <= c -> remap_forward_v2 keq int_key (Some table) default column inputs = Err IndexError) /\
  (forall keys arr x v, selected int_key inputs column keys arr -> functional keq table -> In x keys -> mapped keq table default x v -> ~ in_int32 v -> remap_forward_v2 keq int_key (Some table) default column inputs = Err OverflowError).
Proof. exact @v2_errors. Qed.
Print Assumptions C65_remap_v2_errors.
(** The first version takes no matrices, except those without rows. *)
Theorem C65_remap_matrix : forall K keq (int_key : Z -> K) table default,
  (forall dt w, exists bp, remap_forward keq int_key table default (Ids2 dt w []) = Ok ([], bp)) /\
  (forall dt w row rows, remap_forward keq int_key table default (Ids2 dt w (row :: rows)) = Err TypeError).
Proof. exact v1_matrix. Qed.
Print Assumptions C65_remap_matrix.

(** [premap_ids], if preshed's maps behave like dicts: the same, for int64 arrays, except that values are cut to 32 bits; its
    callback gives back zeros of the shape of the input. *)
Theorem C65_premap : forall P (empty : P) set get, presh_laws empty set get -> forall table default column (inputs : ids Z) keys arr, (forall k v, In (k, v) table -> 0 <= k < 2 ^ 64 /\ 0 <= v < 2 ^ 63) -> NoDup (map fst table) -> - 2 ^ 63 <= default < 2 ^ 63 ->
  selected (fun k => k) inputs column keys arr -> match inputs with Ids1 Int64 _ | Ids2 Int64 _ _ => True | _ => False end -> (forall k, In k keys -> 0 <= k < 2 ^ 63) ->
  exists m Y bp, premap_ids empty set (map Some table) = Ok m /\ premap_forward get m default column inputs = Ok (Y, bp) /\
    Forall2 (fun x row => exists v w, row = [w] /\ mapped Z.eqb table default x v /\ in_int32 w /\ w mod 2 ^ 32 = v mod 2 ^ 32) keys Y /\
    (forall dY, bp dY = Zeros match inputs with Ids2 _ w rows => [length rows; w] | _ => [length keys] end).
Proof. exact @premap_ok. Qed.
Print Assumptions C65_premap.
(** It gives what [remap_ids] gives. *)
Theorem C65_premap_remap : forall P (empty : P) set get, presh_laws empty set get -> forall table default column (inputs : ids Z) keys arr, (forall k v, In (k, v) table -> 0 <= k < 2 ^ 64 /\ 0 <= v < 2 ^ 31) -> NoDup (map fst table) -> in_int32 default ->
  selected (fun k => k) inputs column keys arr -> match inputs with Ids1 Int64 _ | Ids2 Int64 _ _ => True | _ => False end -> (forall k, In k keys -> 0 <= k < 2 ^ 63) ->
  exists m Y bp bp', premap_ids empty set (map Some table) = Ok m /\ premap_forward get m default column inputs = Ok (Y, bp) /\ remap_forward_v2 Z.eqb (fun k => k) (Some table) default column inputs = Ok (Y, bp').
Proof. exact @premap_remap. Qed.
Print Assumptions C65_premap_remap.
(** A mapping with something else than ints is refused; so are arrays of another type than int64, and matrices without a column. *)
Theorem C65_premap_errors : forall P (empty : P) set (get : P -> Z -> result (option Z)),
  (forall items, premap_ids empty set (None :: items) = Err ValueError) /\
  (forall m default l dt, dt <> Int64 -> premap_forward (K := Z) get m default None (Ids1 dt l) = Err ValueError) /\
  (forall m default dt w rows, premap_forward (K := Z) get m default None (Ids2 dt w rows) = Err ValueError).
Proof. exact premap_errors. Qed.
Print Assumptions C65_premap_errors.

(** [strings2arrays]: one array per sequence with one row per word, whose number only depends on the word, is congruent to its hash
    modulo 2^64 and at least 0. *)
Theorem C65_strings : forall Str (hash : Str -> Z) Xs, let (Y, bp) := strings_forward hash Xs in
  Forall2 (Forall2 (fun word row => exists v, row = [v] /\ 0 <= v < 2 ^ 64 /\ (v - hash word) mod 2 ^ 64 = 0)) Xs Y /\ forall dY, bp dY = NoGrad.
Proof. exact strings_ok. Qed.
Print Assumptions C65_strings.

(** ** Examples, with association lists as preshed's maps *)
Definition toy_set (m : list (Z * Z)) (k v : Z) : result (list (Z * Z)) := Ok ((k, v) :: m).
Definition toy_get (m : list (Z * Z)) (k : Z) : result (option Z) := Ok (option_map snd (find (fun p => Z.eqb (fst p) k) m)).
Example C65_premap_ex : presh_laws [] toy_set toy_get /\
  exists bp, (let* m := premap_ids [] toy_set (map Some [(4, 0); (2, 1); (30, 2 ^ 32 + 7)]) in premap_forward (K := Z) toy_get m 99 (Some (-1)) (Ids2 Int64 2 [[0; 4]; [4; 5]; [0; 30]])) = Ok ([[0]; [99]; [7]], bp) /\ forall dY, bp dY = Zeros [3; 2]%nat.
Proof.
  split.
  - split; [reflexivity|]. intros m k v Hk Hv. exists ((k, v) :: m). split; [reflexivity|]. split; [unfold toy_get; cbn; rewrite Z.eqb_refl; reflexivity|]. intros j Hj Hne. unfold toy_get. cbn. destruct (Z.eqb_spec k j); [subst; contradiction | reflexivity].
  - eexists. split; [vm_compute; reflexivity | reflexivity].
Qed.
Example C65_remap_ex : selected (fun k : Z => k) (Ids1 Int32 [4; 5; 2]) None [4; 5; 2] true /\ fits [(4, 0); (2, 1)] 99 /\ functional Z.eqb [(4, 0); (2, 1)] /\
  exists bp, remap_forward Z.eqb (fun k => k) [(4, 0); (2, 1)] 99 (Ids1 Int32 [4; 5; 2]) = Ok ([[0]; [99]; [1]], bp).
Proof.
  split; [apply (sel_vector (fun k => k))|]. split; [split; [unfold in_int32; lia|]; intros k v [E | [E | []]]; injection E as <- <-; unfold in_int32; lia|]. split.
  - intros x k v k' v' [E | [E | []]] [E' | [E' | []]]; injection E as <- <-; injection E' as <- <-; rewrite !Z.eqb_eq; intros H1 H2; try reflexivity; subst x; discriminate H2.
  - eexists. vm_compute. reflexivity.
Qed.
(** Finding: for a matrix, the callback of [remap_ids] version 2 gives back uninitialised memory of another shape than the input. *)
Theorem C65_gradient_refuted : exists (inputs : ids Z) Y bp, inputs = Ids2 Int64 3 [[1; 2; 3]; [4; 5; 6]] /\ remap_forward_v2 Z.eqb (fun k => k) (Some []) 0 (Some 1) inputs = Ok (Y, bp) /\ bp Y = Uninitialised [2; 1]%nat.
Proof. do 3 eexists. split; [reflexivity|]. split; [vm_compute; reflexivity | reflexivity]. Qed.
Print Assumptions C65_gradient_refuted.
(** Finding: layers made by [remap_ids] without a table share one: an entry added to the table of one shows in another. *)
Theorem C65_shared_refuted : forall K (keq : K -> K -> bool) int_key, (forall k, keq k k = true) -> forall h k v d, h <> [] -> in_int32 v ->
  exists bp, remap_call keq int_key (remap_ids None d) (Keys [k]) (add_entry (remap_ids None 0) k v h) = Ok ([[v]], bp).
Proof. exact @shared_table. Qed.
Print Assumptions C65_shared_refuted.
Example C65_shared_ex : exists bp bp', remap_call Z.eqb (fun k => k) (remap_ids None 9) (Keys [5]) [[]] = Ok ([[9]], bp) /\
  remap_call Z.eqb (fun k => k) (remap_ids None 9) (Keys [5]) (add_entry (remap_ids None 0) 5 7 [[]]) = Ok ([[7]], bp').
Proof. do 2 eexists. split; vm_compute; reflexivity. Qed.
Example C65_strings_ex : fst (strings_forward (fun w : nat => Z.of_nat w - 2) [[1; 2]; []; [3]]%nat) = [[[2 ^ 64 - 1]; [0]]; []; [[1]]].
Proof. vm_compute. reflexivity. Qed.
