(** [finish_update] and [use_params]: C06, C07. *)
From Coq Require Import String.
From Verif Require Import GraphModel GraphSpec NodeModel EditSpec UpdateModel UpdateSpec UpdateProofs UseParamsProofs.
Open Scope string_scope.

(** C06. What a successful [finish_update] did: the optimizer was called with exactly the
    expected arguments in the expected order, its state threaded through (after the shims); each
    parameter so updated holds what the optimizer returned and each gradient what it left behind;
    parameters without gradient, everything else in the nodes, and nodes outside the model are
    unchanged. *)
Theorem C06_finish_update_effect :
  forall (V A S : Type) (opt : S -> Z * string -> V -> V -> S * (V * V)) (shim_finish : S -> addr -> S)
         s (h : heap V A) root s' h' log,
    hdicts_ok h ->
    finish_update opt shim_finish s h root = (s', h', log, Ok tt) ->
    threaded opt (fold_left shim_finish (flat_map (shims_of h) (walk (graph_of h) Bfs root)) s) log s' /\
    map fst log = expected_calls h root /\
    length h' = length h /\
    (forall a, ~ reach (graph_of h) root a -> nth_error h' a = nth_error h a) /\
    (forall a n, reach (graph_of h) root a -> nth_error h a = Some n ->
       exists n', nth_error h' a = Some n' /\ same_rest n n' /\
       (forall nm, ~ In nm (param_names n) \/ has_grad n nm = false ->
          get_param n' nm = get_param n nm /\ has_param n' nm = has_param n nm /\ get_grad n' nm = get_grad n nm) /\
       (forall k p g p' g', In ((a, k, p, g), (p', g')) log ->
          get_param n' (snd k) = Ok p' /\ get_grad n' (snd k) = Ok g')).
Proof. exact (fun V A S opt => @finish_update_effect V A S opt). Qed.
Print Assumptions C06_finish_update_effect.

(** C06. The expected calls: one per (node object, parameter) of the model with a gradient, none
    twice, however often the node is shared. *)
Theorem C06_once_per_gradient :
  forall (V A : Type) (h : heap V A) root, hdicts_ok h ->
    NoDup (map (fun c : addr * (Z * string) * V * V => (fst (fst (fst c)), snd (snd (fst (fst c))))) (expected_calls h root)) /\
    (forall a k p g, In (a, k, p, g) (expected_calls h root) <->
       reach (graph_of h) root a /\ exists n nm, nth_error h a = Some n /\ In nm (param_names n) /\
         k = (n_id n, nm) /\ get_param n nm = Ok p /\ get_grad n nm = Ok g).
Proof. exact (fun V A => @expected_calls_once V A). Qed.
Print Assumptions C06_once_per_gradient.

(** C06. [finish_update] succeeds when every parameter with a gradient can be read. *)
Theorem C06_finish_update_succeeds :
  forall (V A S : Type) (opt : S -> Z * string -> V -> V -> S * (V * V)) (shim_finish : S -> addr -> S)
         s (h : heap V A) root,
    hdicts_ok h -> closed h -> root < length h ->
    (forall a n nm, reach (graph_of h) root a -> nth_error h a = Some n -> In nm (param_names n) ->
       has_grad n nm = true -> exists p, get_param n nm = Ok p) ->
    exists s' h' log, finish_update opt shim_finish s h root = (s', h', log, Ok tt).
Proof. exact (fun V A S opt => @finish_update_succeeds V A S opt). Qed.
Print Assumptions C06_finish_update_succeeds.

(** Four nodes: 0 has layers 1 and 2, both of which have layer 3 (shared); node 4 is outside. *)
Definition ex_mk i ls has ps gs : node Z Z := mkNode i "n" 0 ls [] [] has ps gs [] [].
Definition ex_heap : heap Z Z :=
  [ex_mk 10 [1; 2] [] [] [];
   ex_mk 11 [3] [("W", true); ("b", true)] [("W", 1%Z); ("b", 2%Z)] [("W", 100%Z)];
   ex_mk 12 [3] [("W", true)] [("W", 3%Z)] [("W", 300%Z)];
   ex_mk 13 [] [("E", true)] [("E", 4%Z)] [("E", 400%Z)];
   ex_mk 14 [] [("W", true)] [("W", 5%Z)] [("W", 500%Z)]].
Definition ex_opt (s : Z) (k : Z * string) (p g : Z) : Z * (Z * Z) := ((s + 1)%Z, ((p - g + s)%Z, 0%Z)).
Example C06_ex :
  hdicts_ok ex_heap /\
  let '(s', h', log, r) := finish_update ex_opt (fun s _ => s) 0%Z ex_heap 0 in
  r = Ok tt /\ s' = 3%Z /\
  map fst log = [(1, (11%Z, "W"), 1%Z, 100%Z); (2, (12%Z, "W"), 3%Z, 300%Z); (3, (13%Z, "E"), 4%Z, 400%Z)] /\
  map (fun n => n_params n) h' =
    [[]; [("W", (-99)%Z); ("b", 2%Z)]; [("W", (-296)%Z)]; [("E", (-394)%Z)]; [("W", 5%Z)]].
Proof.
  split.
  - intros a n Hn. do 5 (destruct a as [|a]; [injection Hn as <-; cbn; repeat constructor; cbn; intuition congruence|]).
    destruct a; discriminate.
  - vm_compute. repeat split; reflexivity.
Qed.

(** C07. On an acyclic model whose addressed parameters are allocated, the body runs in a state
    where exactly the addressed parameters of the model are replaced. If the body succeeds, the
    addressed parameters are restored to exactly their previous state and everything else is as
    the body left it. If the body raises, nothing is restored. *)
Theorem C07_use_params :
  forall (V A R : Type) (params : dict (Z * string) V) fuel (h : heap V A) a,
    hdicts_ok h -> closed h -> a < length h -> acyclic (graph_of h) -> length h < fuel ->
    (forall b nm, reach (graph_of h) a b -> targeted params h b nm <> None ->
       exists v, slot h b nm = (Some v, Some true)) ->
    exists hin, substituted params h a hin /\
      forall (body : heap V A -> heap V A * result R) hout r, body hin = (hout, r) ->
        match r with
        | Ok x => length hout = length h ->
                  exists h', use_params params fuel h a body = (h', Ok x) /\ restored params h a hout h'
        | Err e => use_params params fuel h a body = (hout, Err e)
        end.
Proof. exact (fun V A R => @use_params_spec V A R). Qed.
Print Assumptions C07_use_params.

(** C07. Around a body that does not change parameters (such as a prediction, or another such
    use), [use_params] leaves every parameter of every node exactly as it was. *)
Theorem C07_transparent :
  forall (V A R : Type) (params : dict (Z * string) V) fuel (h : heap V A) a,
    hdicts_ok h -> closed h -> a < length h -> acyclic (graph_of h) -> length h < fuel ->
    (forall b nm, reach (graph_of h) a b -> targeted params h b nm <> None ->
       exists v, slot h b nm = (Some v, Some true)) ->
    forall body : heap V A -> heap V A * result R,
      (forall hi ho r, body hi = (ho, r) ->
         length ho = length hi /\ (forall b nm, slot ho b nm = slot hi b nm) /\ exists x, r = Ok x) ->
      exists h' x, use_params params fuel h a body = (h', Ok x) /\ length h' = length h /\
        forall b nm, slot h' b nm = slot h b nm.
Proof. exact (fun V A R => @use_params_transparent V A R). Qed.
Print Assumptions C07_transparent.

Definition ex_params : dict (Z * string) Z := [((11%Z, "b"), 20%Z); ((13%Z, "E"), 40%Z); ((14%Z, "W"), 50%Z); ((12%Z, "x"), 0%Z)].
Definition ex_read (h : heap Z Z) : heap Z Z * result (list (dict string Z)) := (h, Ok (map n_params h)).
Example C07_ex :
  closed ex_heap /\ acyclic (graph_of ex_heap) /\
  (forall b nm, reach (graph_of ex_heap) 0 b -> targeted ex_params ex_heap b nm <> None ->
     exists v, slot ex_heap b nm = (Some v, Some true)) /\
  use_params ex_params 6 ex_heap 0 ex_read =
    (ex_heap, Ok [[]; [("W", 1%Z); ("b", 20%Z)]; [("W", 3%Z)]; [("E", 40%Z)]; [("W", 5%Z)]]).
Proof.
  split; [|split; [|split]].
  - intros a n l Hn Hl. do 5 (destruct a as [|a]; [injection Hn as <-; cbn in Hl |- *; lia|]). destruct a; discriminate.
  - assert (Hs : forall a b, In b (layers (graph_of ex_heap) a) -> a < b).
    { intros a b Hb. do 5 (destruct a as [|a]; [cbn in Hb; lia|]). destruct a; destruct Hb. }
    assert (Hp : forall k a b, path (graph_of ex_heap) k a b -> a + k <= b).
    { intros k a b Hp. induction Hp as [|? ? ? ? ? ? Hl]; [lia|]. apply Hs in Hl. lia. }
    intros k a Hk. apply Hp in Hk. lia.
  - intros b nm _ Ht. do 5 (destruct b as [|b]; [unfold targeted, slot in *; cbn -[eqd in_dec] in *;
      destruct (in_dec eqd nm _) as [Hi|]; [cbn in Hi; repeat (destruct Hi as [<-|Hi]; [cbn in Ht |- *; eauto; now contradiction Ht|]); destruct Hi|now contradiction Ht]|]).
    exfalso. apply Ht. unfold targeted. now destruct b.
  - vm_compute. reflexivity.
Qed.

(** C07, finding: when the body raises, the substituted values stay in the model. *)
Theorem C07_exception_refuted :
  exists (h : heap Z Z) params (body : heap Z Z -> heap Z Z * result unit) h',
    (forall hi, body hi = (hi, Err ValueError)) /\
    use_params params 9 h 0 body = (h', Err ValueError) /\ map n_params h' <> map n_params h.
Proof. exact use_params_exception_witness. Qed.
Print Assumptions C07_exception_refuted.
