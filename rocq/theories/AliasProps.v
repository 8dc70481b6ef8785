(** C51: add, tuplify and residual and the caller's arrays. [kept h h'] says that no array of h was changed;
    [acts l f g] that the layer computes f and its callback g without changing arrays; [acts_fresh] that it also
    returns new arrays and does not look back at its output. [sums m ms] is the sum of arrays. *)
From Coq Require Import QArith.
From Verif Require Import NumQ AliasSpec AliasProofs.
Local Open Scope nat_scope.

(** If the first layer returns new arrays, add changes no array of the caller, forward or backward, and computes
    the sum of the outputs and the sum of the gradients. *)
Theorem C51_add :
  forall (T : Type) (N : Num T) (l : hlayer T) f0 g0 ls fs gs, acts_fresh l f0 g0 ->
    Forall2 (fun l fg => acts l (fst fg) (snd fg)) ls (combine fs gs) -> length gs = length fs ->
    forall h a m z, nth_error h a = Some m -> sums (f0 m) (map (fun f => f m) fs) = Ok z ->
    exists y b h', h_add (l :: ls) a h = Ok (y, b, h') /\ kept h h' /\ nth_error h' y = Some z /\
    forall h2 d dm w, kept h' h2 -> nth_error h2 d = Some dm -> sums (g0 m dm) (map (fun g => g m dm) gs) = Ok w ->
    exists x h3, b d h2 = Ok (x, h3) /\ kept h2 h3 /\ nth_error h3 x = Some w.
Proof. exact @add_fresh_ok. Qed.
Print Assumptions C51_add.
Theorem C51_noop : forall T : Type, acts (T := T) h_noop (fun m => m) (fun _ d => d).
Proof. exact @noop_acts. Qed.
Print Assumptions C51_noop.
Theorem C51_relu : forall (T : Type) (N : Num T), acts (T := T) h_relu relu_mat (fun m d => gate_mat d (relu_mat m)).
Proof. exact @relu_acts. Qed.
Print Assumptions C51_relu.
Definition exM : mat Q := mkM 2 [[-1; 2]; [3; 0]]%Q.
Example C51_add_ex : acts_fresh (h_scale (3 # 1)) (scale_mat (3 # 1)) (fun _ => scale_mat (3 # 1)) /\
  exists b, h_add [h_scale (3 # 1)%Q; h_noop; h_relu] 0 [exM] = Ok (1, b, [exM; mkM 2 [[-4; 10]; [15; 0]]; mkM 2 [[0; 2]; [3; 0]]]%Q) /\
  exists h3, b 0 [exM; mkM 2 [[-4; 10]; [15; 0]]; mkM 2 [[0; 2]; [3; 0]]]%Q = Ok (3, h3) /\ kept [exM] h3.
Proof.
  split; [apply scale_acts_fresh|]. eexists. split; [reflexivity|]. eexists. split; [reflexivity|].
  intros [|[|i]] m; cbn; intros E; [exact E|discriminate..].
Qed.

(** Finding: if the first layer returns its input (noop, disabled Dropout), add overwrites the caller's array with
    the sum; a third layer then computes on that sum instead of on the input. *)
Theorem C51_add_overwrites_input_refuted :
  forall (T : Type) (N : Num T) (l1 : hlayer T) f1 g1, acts l1 f1 g1 ->
    forall h a m s, nth_error h a = Some m -> miadd m (f1 m) = Ok s ->
    exists b h', h_add [h_noop; l1] a h = Ok (a, b, h') /\ nth_error h' a = Some s.
Proof. exact @add_noop_one. Qed.
Print Assumptions C51_add_overwrites_input_refuted.
Theorem C51_add_later_layers_refuted :
  forall (T : Type) (N : Num T) (l1 : hlayer T) f1 g1 (l2 : hlayer T) f2 g2, acts l1 f1 g1 -> acts l2 f2 g2 ->
    forall h a m s z, nth_error h a = Some m -> miadd m (f1 m) = Ok s -> miadd s (f2 s) = Ok z ->
    exists b h', h_add [h_noop; l1; l2] a h = Ok (a, b, h') /\ nth_error h' a = Some z /\ length h <= length h'.
Proof. exact @add_noop_overwrites. Qed.
Print Assumptions C51_add_later_layers_refuted.
Example C51_overwrite_ex :
  exists b h', h_add [h_noop; h_scale (2 # 1)%Q; h_scale (10 # 1)%Q] 0 [mkM 1 [[1]]]%Q = Ok (0, b, h') /\ nth_error h' 0 = Some (mkM 1 [[33]])%Q.
Proof. eexists _, _. split; reflexivity. Qed.

(** Finding: Relu keeps its output for its callback, and add writes the sum over that output. The gradient that
    comes back is gated by the sum of all outputs instead of by Relu's own. *)
Theorem C51_add_relu_gradient_refuted :
  forall (T : Type) (N : Num T) (l1 : hlayer T) f1 g1, acts l1 f1 g1 ->
    forall h a m s, nth_error h a = Some m -> miadd (relu_mat m) (f1 m) = Ok s ->
    exists y b h', h_add [h_relu; l1] a h = Ok (y, b, h') /\ nth_error h' y = Some s /\
    forall h2 d dm w, kept h' h2 -> nth_error h2 d = Some dm -> miadd (gate_mat dm s) (g1 m dm) = Ok w ->
    exists x h3, b d h2 = Ok (x, h3) /\ nth_error h3 x = Some w.
Proof. exact @add_relu_gate. Qed.
Print Assumptions C51_add_relu_gradient_refuted.
(** The input is -1, so Relu passes no gradient and the gradient of relu(x) + (-2) x is -2; what comes back is -1. *)
Example C51_relu_ex :
  exists b h', h_add [h_relu; h_scale (- (2 # 1))%Q] 0 [mkM 1 [[-1]]; mkM 1 [[1]]]%Q = Ok (2, b, h') /\
  exists h3, b 1 h' = Ok (4, h3) /\ nth_error h3 4 = Some (mkM 1 [[-1]])%Q /\
  (miadd (gate_mat (mkM 1 [[1]]) (relu_mat (mkM 1 [[-1]]))) (scale_mat (- (2 # 1)) (mkM 1 [[1]])) = Ok (mkM 1 [[-2]]))%Q.
Proof. eexists _, _. split; [reflexivity|]. eexists. split; [reflexivity|]. split; reflexivity. Qed.

(** tuplify over layers that return new arrays changes nothing of the caller's, and its callback sums the gradients. *)
Theorem C51_tuplify :
  forall (T : Type) (N : Num T) (l : hlayer T) f0 g0 ls fs gs, acts_fresh l f0 g0 ->
    Forall2 (fun l fg => acts_fresh l (fst fg) (snd fg)) ls (combine fs gs) -> length gs = length fs ->
    forall h a m, nth_error h a = Some m ->
    exists ys b h', h_tuplify (l :: ls) a h = Ok (ys, b, h') /\ kept h h' /\ Forall2 (fun y f => nth_error h' y = Some (f m)) ys (f0 :: fs) /\
    forall h2 d0 m0 ds dms w, kept h' h2 -> nth_error h2 d0 = Some m0 -> Forall2 (fun d dm => nth_error h2 d = Some dm) ds dms ->
    length ds = length gs -> sums (g0 m m0) (map (fun p => fst p m (snd p)) (combine gs dms)) = Ok w ->
    exists x h3, b (d0 :: ds) h2 = Ok (x, h3) /\ kept h2 h3 /\ nth_error h3 x = Some w.
Proof. exact @tuplify_fresh_ok. Qed.
Print Assumptions C51_tuplify.
Example C51_tuplify_ex :
  exists b h', h_tuplify [h_scale (3 # 1)%Q; h_scale (5 # 1)%Q] 0 [exM] = Ok ([1; 2], b, h') /\
  exists h3, b [0; 0] h' = Ok (3, h3) /\ nth_error h3 3 = Some (mkM 2 [[-8; 16]; [24; 0]])%Q /\ kept h' h3.
Proof.
  eexists _, _. split; [reflexivity|]. eexists. split; [reflexivity|]. split; [reflexivity|].
  intros [|[|[|i]]] m; cbn; intros E; [exact E|exact E|exact E|destruct i; discriminate].
Qed.
(** Finding: with a first layer that passes gradients through, tuplify's callback adds the other gradients into the
    caller's first gradient array. *)
Theorem C51_tuplify_overwrites_gradient_refuted :
  forall (T : Type) (N : Num T) (l1 : hlayer T) f1 g1, acts l1 f1 g1 -> forall h a m, nth_error h a = Some m ->
    exists ys b h', h_tuplify [h_noop; l1] a h = Ok (ys, b, h') /\ kept h h' /\
    forall h2 d1 d2 m1 m2 w, kept h' h2 -> nth_error h2 d1 = Some m1 -> nth_error h2 d2 = Some m2 -> miadd m1 (g1 m m2) = Ok w ->
    exists h3, b [d1; d2] h2 = Ok (d1, h3) /\ nth_error h3 d1 = Some w.
Proof. exact @tuplify_noop_overwrites. Qed.
Print Assumptions C51_tuplify_overwrites_gradient_refuted.
Example C51_tuplify_overwrite_ex :
  exists b h', h_tuplify [h_noop; h_scale (5 # 1)%Q] 0 [exM] = Ok ([0; 1], b, h') /\
  exists h3, b [0; 0] h' = Ok (0, h3) /\ nth_error h3 0 = Some (mkM 2 [[-6; 12]; [18; 0]])%Q.
Proof. eexists _, _. split; [reflexivity|]. eexists. split; reflexivity. Qed.

(** residual on arrays changes no existing array, whatever the layer returns. *)
Theorem C51_residual :
  forall (T : Type) (N : Num T) (l : hlayer T) f g, acts l f g -> forall h a m z, nth_error h a = Some m -> madd m (f m) = Ok z ->
    exists y b h', h_residual l a h = Ok (y, b, h') /\ kept h h' /\ nth_error h' y = Some z /\
    forall h2 d dm w, kept h' h2 -> nth_error h2 d = Some dm -> madd dm (g m dm) = Ok w ->
    exists x h3, b d h2 = Ok (x, h3) /\ kept h2 h3 /\ nth_error h3 x = Some w.
Proof. exact @residual_kept. Qed.
Print Assumptions C51_residual.
Example C51_residual_ex : exists b, h_residual h_noop 0 [exM] = Ok (1, b, [exM; mkM 2 [[-2; 4]; [6; 0]]%Q]).
Proof. eexists. reflexivity. Qed.
(** Finding: on Padded it adds in place, into the caller's own data when the layer returns its input. *)
Theorem C51_residual_padded_refuted :
  forall (T : Type) (N : Num T) (h : heap T) a m z, nth_error h a = Some m -> miadd m m = Ok z ->
    exists b h', h_residual_padded h_noop a h = Ok (a, b, h') /\ nth_error h' a = Some z.
Proof. exact @residual_padded_noop. Qed.
Print Assumptions C51_residual_padded_refuted.
Example C51_residual_padded_ex : exists b, h_residual_padded h_noop 0 [exM] = Ok (0, b, [mkM 2 [[-2; 4]; [6; 0]]%Q]).
Proof. eexists. reflexivity. Qed.
