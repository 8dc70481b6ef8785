(** Property C72: instrumented layers. *)
From Coq Require Import String.
From Verif Require Import Base InstrModel InstrSpec InstrProofs.

(** Wrapping any layers of any model any number of times with with_debug, with_nvtx_range and with_signpost_interval
    changes neither outputs nor exceptions nor what the nodes hold, in calls, backward passes and initialization, if the
    hooks do not raise. *)
Theorem C72_call_transparent : forall {V P} fwd bwd ini hook has_cupy, opaque (V := V) (P := P) fwd bwd ini -> (forall ev, hook ev = Ok tt) ->
  forall sp fuel a X t w1 w2 w1' r1 w2' r2, wrapped sp w1 w2 ->
  e_call (engine_of fwd bwd ini hook has_cupy fuel) a X t w1 = (w1', r1) -> e_call (engine_of fwd bwd ini hook has_cupy fuel) a X t w2 = (w2', r2) ->
  same_data w1' w2' /\ rsim (fun y1 y2 => fst y1 = fst y2 /\ bsim (snd y1) (snd y2)) r1 r2 /\
  forall y1 b1 y2 b2, r1 = Ok (y1, b1) -> r2 = Ok (y2, b2) -> forall d v1 s1 v2 s2,
    e_back (engine_of fwd bwd ini hook has_cupy fuel) b1 d w1' = (v1, s1) -> e_back (engine_of fwd bwd ini hook has_cupy fuel) b2 d w2' = (v2, s2) -> same_data v1 v2 /\ s1 = s2.
Proof. exact @transparent_call. Qed.
Print Assumptions C72_call_transparent.
Theorem C72_init_transparent : forall {V P} fwd bwd ini hook has_cupy, opaque (V := V) (P := P) fwd bwd ini -> (forall ev, hook ev = Ok tt) ->
  forall sp fuel a X Y w1 w2 w1' r1 w2' r2, wrapped sp w1 w2 ->
  e_init (engine_of fwd bwd ini hook has_cupy fuel) a X Y w1 = (w1', r1) -> e_init (engine_of fwd bwd ini hook has_cupy fuel) a X Y w2 = (w2', r2) ->
  same_data w1' w2' /\ r1 = r2.
Proof. exact @transparent_init. Qed.
Print Assumptions C72_init_transparent.

(** The hooks of with_debug run first; if one raises, the layer is not called. *)
Theorem C72_hook_raises : forall {V P} fwd bwd ini hook has_cupy fuel a h X t (w w1 : world (V := V) (P := P)) e, with_debug a h w = (w1, Ok a) -> hook (OnForward h a X t) = Err e ->
  e_call (engine_of fwd bwd ini hook has_cupy (S fuel)) a X t w1 = (mkW (w_heap w1) (w_open w1) (OnForward h a X t :: w_log w1), Err e).
Proof. exact @hook_raises. Qed.
Print Assumptions C72_hook_raises.
Theorem C72_backprop_hook : forall {V P} fwd bwd ini hook has_cupy fuel a h X t (w w1 : world (V := V) (P := P)) w2 r, with_debug a h w = (w1, Ok a) -> hook (OnForward h a X t) = Ok tt ->
  e_call (engine_of fwd bwd ini hook has_cupy (S fuel)) a X t w1 = (w2, Ok r) -> exists b, snd r = BDebug h b /\
    forall fuel d w3, e_back (engine_of fwd bwd ini hook has_cupy (S fuel)) (snd r) d w3 =
      match hook (OnBackprop h d) with
      | Ok _ => e_back (engine_of fwd bwd ini hook has_cupy (S fuel)) b d (mkW (w_heap w3) (w_open w3) (OnBackprop h d :: w_log w3))
      | Err e => (mkW (w_heap w3) (w_open w3) (OnBackprop h d :: w_log w3), Err e)
      end.
Proof. exact @hook_first. Qed.
Print Assumptions C72_backprop_hook.

(** Calls and backward passes that succeed close the NVTX ranges that they open, and never close others. *)
Theorem C72_ranges_call : forall {V P} fwd bwd ini hook has_cupy, all_strict (V := V) (P := P) fwd bwd ini ->
  forall fuel a X t w w' r, e_call (engine_of fwd bwd ini hook has_cupy fuel) a X t w = (w', r) ->
  (exists o, w_open w' = o ++ w_open w)%list /\ (forall y, r = Ok y -> w_open w' = w_open w).
Proof. exact @ranges_call. Qed.
Print Assumptions C72_ranges_call.
Theorem C72_ranges_back : forall {V P} fwd bwd ini hook has_cupy, all_strict (V := V) (P := P) fwd bwd ini ->
  forall fuel b d w w' r, e_back (engine_of fwd bwd ini hook has_cupy fuel) b d w = (w', r) ->
  (exists o, w_open w' = o ++ w_open w)%list /\ (forall y, r = Ok y -> w_open w' = w_open w).
Proof. exact @ranges_back. Qed.
Print Assumptions C72_ranges_back.

(** A copy has the functions of the original, and those of with_debug hold on to the original: calling the copy calls
    the original layer, whatever the copy holds by then. *)
Theorem C72_copied : forall {V P} a layers (w w1 : world (V := V) (P := P)) c n, nth_error (w_heap w) a = Some n -> copy_node a layers w = (w1, Ok c) ->
  nth_error (w_heap w1) a = Some n /\ nth_error (w_heap w1) c = Some (mkO (o_name n) (o_func n) (o_init n) layers (o_data n)).
Proof. exact @copied. Qed.
Print Assumptions C72_copied.
Theorem C72_copy_calls_original : forall {V P} fwd bwd ini hook has_cupy, (forall ev, hook ev = Ok tt) ->
  forall fuel a c h f na nc X t (w : world (V := V) (P := P)), nth_error (w_heap w) a = Some na -> nth_error (w_heap w) c = Some nc ->
  o_func na = FDebug a h f -> o_func nc = FDebug a h f ->
  w_heap (fst (e_call (engine_of fwd bwd ini hook has_cupy fuel) c X t w)) = w_heap (fst (e_call (engine_of fwd bwd ini hook has_cupy fuel) a X t w)) /\
  snd (e_call (engine_of fwd bwd ini hook has_cupy fuel) c X t w) = snd (e_call (engine_of fwd bwd ini hook has_cupy fuel) a X t w).
Proof. exact @copy_calls_original. Qed.
Print Assumptions C72_copy_calls_original.
(** Initializing the copy of a layer with any of the three wrappers initializes the original. *)
Theorem C72_copy_inits_original : forall {V P} fwd bwd ini hook has_cupy, (forall ev, hook ev = Ok tt) ->
  forall fuel a c i na nc X Y (w : world (V := V) (P := P)), nth_error (w_heap w) a = Some na -> nth_error (w_heap w) c = Some nc ->
  o_init na = Some i -> o_init nc = Some i -> made_for a i ->
  w_heap (fst (e_init (engine_of fwd bwd ini hook has_cupy fuel) c X Y w)) = w_heap (fst (e_init (engine_of fwd bwd ini hook has_cupy fuel) a X Y w)) /\
  snd (e_init (engine_of fwd bwd ini hook has_cupy fuel) c X Y w) = snd (e_init (engine_of fwd bwd ini hook has_cupy fuel) a X Y w).
Proof. exact @copy_inits_original. Qed.
Print Assumptions C72_copy_inits_original.

(** Refuted: a copy is independent of the original. After with_debug, the copy's parameter 5 is not used: the copy
    computes with the original's 2, and its backward pass adds to the original's gradient. *)
Theorem C72_copy_refuted : exists w w1 w2 : world (V := Z) (P := Z * Z),
  with_debug 1 0 toy_world = (w, Ok 1) /\ copy_node 1 [] w = (w1, Ok 3) /\ w2 = store 3 (5, 0)%Z w1 /\
  snd (predict toy_fwd toy_bwd toy_ini no_hook true 1 3 10%Z w2) = Ok 20%Z /\
  exists w3 b, e_call (engine_of toy_fwd toy_bwd toy_ini no_hook true 1) 3 10%Z true w2 = (w3, Ok (20%Z, b)) /\
    option_map o_data (nth_error (w_heap (fst (e_back (engine_of toy_fwd toy_bwd toy_ini no_hook true 1) b 1%Z w3))) 1) = Some (2, 10)%Z /\
    option_map o_data (nth_error (w_heap (fst (e_back (engine_of toy_fwd toy_bwd toy_ini no_hook true 1) b 1%Z w3))) 3) = Some (5, 0)%Z.
Proof. exact copy_refuted. Qed.
Print Assumptions C72_copy_refuted.
(** After with_nvtx_range, initializing the copy changes the original and not the copy. *)
Theorem C72_copy_init_refuted : exists w w1 : world (V := Z) (P := Z * Z),
  with_nvtx_range 1 None toy_world = (w, Ok 1) /\ copy_node 1 [] w = (w1, Ok 3) /\
  exists w2, e_init (engine_of toy_fwd toy_bwd toy_ini no_hook true 1) 3 None None w1 = (w2, Ok tt) /\
    option_map o_data (nth_error (w_heap w2) 3) = Some (2, 0)%Z /\ option_map o_data (nth_error (w_heap w2) 1) = Some (7, 0)%Z.
Proof. exact copy_init_refuted. Qed.
Print Assumptions C72_copy_init_refuted.
(** Refuted: ranges are always closed. An exception in the layer leaves its range open. *)
Theorem C72_range_left_open_refuted : exists (w w' : world (V := Z) (P := Z * Z)) e,
  with_nvtx_range 0 None (mkW [mkO "layer" (FPlain 9) None [] (0, 0)%Z] [] []) = (w, Ok 0) /\ w_open w = [] /\
  e_call (engine_of toy_fwd toy_bwd toy_ini no_hook true 1) 0 10%Z true w = (w', Err e) /\ w_open w' = ["layer forward"%string].
Proof. exact range_left_open. Qed.
Print Assumptions C72_range_left_open_refuted.

(** ** The hypotheses can be met *)
Example C72_opaque_ex : opaque toy_fwd toy_bwd toy_ini /\ all_strict toy_fwd toy_bwd toy_ini.
Proof. exact (conj toy_opaque toy_strict). Qed.
(** A chain of two layers, one of them wrapped twice: 10 * 2 * 3 and the gradients 30 and 20. *)
Example C72_call_ex : exists w w1 w2 w3 w4 b, with_debug 2 0 toy_world = (w, Ok 2) /\ with_nvtx_range 2 None w = (w1, Ok 2) /\ with_signpost_interval true 0 None w1 = (w2, Ok 0) /\
  wrapped true toy_world w2 /\ e_call (engine_of toy_fwd toy_bwd toy_ini no_hook true 2) 0 10%Z true w2 = (w3, Ok (60%Z, b)) /\
  e_back (engine_of toy_fwd toy_bwd toy_ini no_hook true 2) b 1%Z w3 = (w4, Ok 6%Z) /\
  map o_data (w_heap w4) = [(0, 0); (2, 30); (3, 20)]%Z /\ w_log w4 = [OnBackprop 0 1%Z; OnForward 0 2 20%Z true] /\ w_open w4 = [].
Proof.
  destruct (with_debug 2 0 toy_world) as [w r] eqn:E1. destruct (with_nvtx_range 2 None w) as [w1 r1] eqn:E2. destruct (with_signpost_interval true 0 None w1) as [w2 r2] eqn:E3.
  assert (W : wrapped true toy_world w2).
  { exact (wrapped_signpost _ _ _ _ _ _ _ (wrapped_range _ _ _ _ _ _ _ (wrapped_debug _ _ _ _ _ _ _ (wrapped_none _ _) E1) E2) E3). }
  injection E1 as <- <-. injection E2 as <- <-. injection E3 as <- <-. do 6 eexists. split; [reflexivity|]. split; [reflexivity|]. split; [reflexivity|]. split; [exact W|].
  split; [reflexivity|]. split; [reflexivity|]. split; [reflexivity|]. split; reflexivity.
Qed.
Example C72_hook_ex : exists w, with_debug 1 0 toy_world = (w, Ok 1) /\
  snd (e_call (engine_of toy_fwd toy_bwd toy_ini (fun _ => Err RuntimeError) true 1) 1 10%Z true w) = Err RuntimeError.
Proof. eexists. split; reflexivity. Qed.
Example C72_copy_ex : exists w w1 i f, with_debug 1 0 toy_world = (w, Ok 1) /\ copy_node 1 [] w = (w1, Ok 3) /\
  option_map o_func (nth_error (w_heap w1) 3) = Some (FDebug 1 0 f) /\ option_map o_init (nth_error (w_heap w1) 3) = Some (Some i) /\ made_for 1 i.
Proof. do 4 eexists. split; [reflexivity|]. split; [reflexivity|]. split; [reflexivity|]. split; reflexivity. Qed.

(** The wrappers change the functions of the one node they are given, and nothing else. *)
Theorem C72_wrapping : forall V P a name w w1 n,
  nth_error (w_heap (V := V) (P := P) w) a = Some n ->
  (with_nvtx_range a name w = (w1, Ok a) \/ with_signpost_interval true a name w = (w1, Ok a) \/ (exists h, with_debug a h w = (w1, Ok a))) ->
  length (w_heap w1) = length (w_heap w) /\ w_open w1 = w_open w /\ w_log w1 = w_log w /\
  (forall b, b <> a -> nth_error (w_heap w1) b = nth_error (w_heap w) b) /\
  exists f i, nth_error (w_heap w1) a = Some (mkO (o_name n) f (Some i) (o_layers n) (o_data n)).
Proof. exact @wrapper_changes. Qed.
Print Assumptions C72_wrapping.
Example C72_wrapping_ex : exists w, with_signpost_interval true 1 (Some "x"%string) toy_world = (w, Ok 1) /\ nth_error (w_heap toy_world) 1 <> None.
Proof. eexists. split; [reflexivity | discriminate]. Qed.

(** Without the package os_signpost, with_signpost_interval raises and changes nothing. *)
Theorem C72_no_signpost : forall V P a name (w : world (V := V) (P := P)),
  with_signpost_interval false a name w = (w, Err ValueError).
Proof. exact @no_signpost. Qed.
Print Assumptions C72_no_signpost.
