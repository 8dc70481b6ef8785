(** Proofs about wrapped models: the wrappers. *)
From Coq Require Import String.
From Verif Require Import NestModel NestSpec NestProofs WrapModel WrapSpec WrapProofs BaseFacts.
Set Default Goal Selector "!".

Section Main.
  Context {A W : Type} (keq : obj A -> obj A -> bool) (hashable : obj A -> bool) (other_int : A -> bool) (iter_other : obj A -> result (list (obj A))) (fuel : nat).
  Context (is_xp is_torch is_float : A -> bool) (tensor_of array_of : A -> A) (none ellipsis : A).
  Context (net : bool -> list (obj A) -> list (obj A * obj A) -> W -> W * result (obj A)) (autograd : list A -> list A -> W -> W * result unit) (grad_of : A -> W -> option A).
  Notation wrapper := (pytorch_wrapper keq hashable other_int iter_other fuel is_xp is_torch is_float tensor_of array_of none ellipsis net autograd grad_of).
  Notation pr := (proper keq hashable).
  Notation wd := (world W).
  Notation to_xp := (to_xp (W := W) keq hashable other_int iter_other fuel is_torch array_of).
  Notation to_torch := (to_torch (W := W) keq hashable other_int iter_other fuel is_xp is_float tensor_of).
  Notation dinputs := (default_inputs (W := W) keq hashable other_int iter_other fuel is_xp is_torch is_float tensor_of array_of).
  Definition inputs (X : obj A) : obj A := OArgs (fst (spread X)) (snd (spread X)).

  Lemma inputs_leaves : forall X, leaves (inputs X) = leaves X.
  Proof. intros [i|s|a|l|l|d|args kw]; unfold inputs; cbn [spread fst snd leaves map concat]; rewrite ?app_nil_r; reflexivity. Qed.
  Lemma inputs_replaced : forall f X, inputs (replaced f X) = replaced f (inputs X).
  Proof. intros f [i|s|a|l|l|d|args kw]; reflexivity. Qed.
  Lemma keys_nil : keys_ok keq hashable [].
  Proof. split; constructor. Qed.
  Lemma inputs_proper : forall m X, pr m X -> named X -> pr m (inputs X).
  Proof.
    intros m X Hp Hn. unfold named in Hn. inversion Hp as [o Hc | l Hl | l Hl | d Hd Hk | args kw Ha Hkw Hk]; subst X; unfold inputs; cbn [spread fst snd] in *.
    - destruct o as [i|s|a|l|l|d|args kw]; try discriminate; cbn [spread fst snd]; apply proper_args; try constructor; try (constructor; fail); try exact Hp; try (split; constructor).
    - apply proper_args; [exact Hl | constructor | exact keys_nil].
    - apply proper_args; [exact Hl | constructor | exact keys_nil].
    - apply proper_args; [constructor | | exact Hk]. rewrite Forall_forall in *. intros p Hin. split; [apply Hn; exact Hin | apply Hd; exact Hin].
    - exact Hp.
  Qed.
  Lemma to_xp_ok : forall o (w : wd), pr (leaf is_torch) o -> depth o <= fuel -> to_xp o w = (w, Ok (replaced (only is_torch array_of) o)).
  Proof. intros o w Hp Hd. unfold WrapModel.to_xp. apply convert_leaves; [exact Hp | exact Hd | intros a _ _; reflexivity]. Qed.
  Lemma to_torch_ok : forall rg o (w : wd), pr (leaf is_xp) o -> depth o <= fuel -> (forall a, In a (leaves o) -> is_xp a = true -> rg = true -> is_float a = true) -> to_torch rg o w = (w, Ok (replaced (only is_xp tensor_of) o)).
  Proof.
    intros rg o w Hp Hd Hf. unfold WrapModel.to_torch. apply convert_leaves; [exact Hp | exact Hd |]. intros a Ha Hx. unfold xp2torch, lift. destruct rg; [rewrite (Hf a Ha Hx eq_refl)|]; reflexivity.
  Qed.

  Lemma inputs_ok : forall X rg (w : wd), pr (leaf is_xp) X -> pr (leaf is_torch) X -> named X -> depth X <= fuel -> depth (inputs X) <= fuel -> (forall a, In a (leaves X) -> is_xp a = true -> rg = true -> is_float a = true) ->
    exists get, dinputs X rg w = (w, Ok (replaced (only is_xp tensor_of) (inputs X), get)) /\
      (forall h w', get (replaced h (inputs X)) w' = (w', Ok (tupled (replaced (fun a => only is_torch array_of (h a)) X)))) /\
      (match X with OArgs _ _ => forall el w', is_torch el = false -> get (OOther el) w' = (w', Ok (OOther el)) | _ => forall el w', is_torch el = false -> get (OOther el) w' = (w', Err AttributeError) end).
  Proof.
    intros X rg w Hp1 Hp2 Hn Hd0 Hd Hf. unfold default_inputs, andthen. rewrite to_torch_ok; [| exact Hp1 | exact Hd0 | exact Hf].
    assert (G : forall h (w' : wd), to_xp (replaced h (inputs X)) w' = (w', Ok (replaced (fun a => only is_torch array_of (h a)) (inputs X)))).
    { intros h w'. rewrite to_xp_ok; [rewrite replaced_twice; reflexivity | apply proper_replaced, inputs_proper; assumption | rewrite depth_replaced; exact Hd]. }
    assert (El : forall el (w' : wd), is_torch el = false -> to_xp (OOther el) w' = (w', Ok (OOther el))).
    { intros el w' He. rewrite to_xp_ok; [cbn; unfold only; rewrite He; reflexivity | apply proper_atom; reflexivity |]. pose proof (depth_pos _ (inputs X)). cbn. lia. }
    destruct X as [i|s|a|l|l|d|args kw]; cbn [replaced]; unfold done; eexists; (split; [reflexivity|]); (split; [intros h w'; rewrite G; reflexivity|]); intros el w' He; rewrite El by exact He; reflexivity.
  Qed.
  Lemma call_ok : forall X f b s, named X -> call_net net (replaced f (inputs X)) (mkWorld b s) = let (s', r) := net b (fst (spread (replaced f X))) (snd (spread (replaced f X))) s in (mkWorld b s', r).
  Proof.
    intros X f b s Hn. rewrite <- inputs_replaced. unfold inputs, call_net. cbn [w_training w_rest]. replace (forallb _ _) with true; [reflexivity|]. symmetry. apply forallb_forall. intros p Hp.
    unfold named in Hn. rewrite Forall_forall in Hn. destruct X as [i|s'|a|l|l|d|args kw]; cbn [replaced spread snd] in *; try destruct Hp.
    - apply in_map_iff in Hp. destruct Hp as [q [<- Hq]]. destruct (Hn q Hq) as [x Hx]. cbn [fst]. rewrite Hx. reflexivity.
    - apply in_map_iff in Hp. destruct Hp as [q [<- Hq]]. destruct (Hn q Hq) as [x Hx]. cbn [fst]. rewrite Hx. reflexivity.
  Qed.

  Lemma grads_ok : forall X (w : wd), frameworks is_xp is_torch tensor_of none -> pr (leaf is_torch) X -> named X -> depth (inputs X) <= fuel -> (forall a, In a (leaves X) -> is_torch a = false) ->
    convert_recursive keq hashable other_int iter_other (leaf is_torch) (grad_get none grad_of) fuel (replaced (only is_xp tensor_of) (inputs X)) w =
    (w, Ok (replaced (only is_xp (fun a => match grad_of (tensor_of a) (w_rest w) with Some g => g | None => none end)) (inputs X))).
  Proof.
    intros X w Fw Hp Hn Hd Hl. rewrite (convert_leaves keq hashable is_torch other_int iter_other (grad_get none grad_of) (fun a => match grad_of a (w_rest w) with Some g => g | None => none end) w).
    - f_equal. f_equal. rewrite replaced_twice. apply replaced_ext. intros a Ha. rewrite inputs_leaves in Ha. unfold only. destruct (is_xp a) eqn:Ex; [rewrite (fw_tensor _ _ _ _ Fw a Ex); reflexivity | rewrite (Hl a Ha); reflexivity].
    - apply proper_replaced, inputs_proper; assumption.
    - rewrite depth_replaced. exact Hd.
    - intros a _ _. reflexivity.
  Qed.

  Lemma wrapper_training : forall X b s s1 Yt,
    frameworks is_xp is_torch tensor_of none -> pr (leaf is_xp) X -> pr (leaf is_torch) X -> named X -> depth X <= fuel -> depth (OArgs (fst (spread X)) (snd (spread X))) <= fuel ->
    (forall a, In a (leaves X) -> is_torch a = false /\ (is_xp a = true -> is_float a = true)) ->
    (let f := only is_xp tensor_of in net true (fst (spread (replaced f X))) (snd (spread (replaced f X))) s = (s1, Ok Yt)) -> pr (leaf is_torch) Yt -> depth Yt <= fuel ->
    exists bp, wrapper X true (mkWorld b s) = (mkWorld true s1, Ok (replaced (only is_torch array_of) Yt, bp)) /\
      (forall y d t s2 s3, Yt = OOther y -> is_torch y = true -> is_xp d = true -> autograd [y] [tensor_of d] s2 = (s3, Ok tt) -> (forall a g, grad_of a s3 = Some g -> is_torch g = true) ->
        bp (OOther d) (mkWorld t s2) = (mkWorld t s3, Ok (tupled (replaced (only is_xp (fun a => grad_array array_of none (grad_of (tensor_of a) s3))) X)))) /\
      (forall l dY w, (Yt = OTuple l \/ Yt = OList l) -> pr (leaf is_xp) dY -> depth dY <= fuel -> bp dY w = (w, Err TypeError)).
  Proof.
    intros X b s s1 Yt Fw Hp1 Hp2 Hn Hd0 Hd Hl Hnet HpY HdY. cbv zeta in Hnet.
    destruct (inputs_ok X true (mkWorld b s) Hp1 Hp2 Hn Hd0 Hd (fun a Ha Hx _ => proj2 (Hl a Ha) Hx)) as [get [E1 [E2 _]]].
    unfold pytorch_wrapper, forward. unfold andthen at 1. rewrite E1. unfold andthen at 1, shim_call, set_training. cbn [w_rest]. unfold andthen at 1. rewrite call_ok by exact Hn. rewrite Hnet. unfold done at 1.
    unfold default_outputs. unfold andthen at 1. unfold andthen at 1. rewrite to_xp_ok by assumption. unfold done at 1. eexists. split; [reflexivity|]. split.
    - intros y d t s2 s3 -> Hy Hx Hag Hg. unfold andthen at 1 2. rewrite to_torch_ok; [| apply proper_atom; reflexivity | cbn; pose proof (depth_pos _ X); lia | intros a _ _ Hff; discriminate Hff].
      unfold done at 1. unfold shim_backprop. unfold andthen at 1 2. unfold backward, tensors. cbn [mapM bind replaced only]. rewrite Hy. unfold only. rewrite Hx. cbn [bind]. rewrite (fw_tensor _ _ _ _ Fw d Hx). cbn [bind length Nat.eqb w_rest]. rewrite Hag. cbn [w_training].
      rewrite grads_ok; [| exact Fw | exact Hp2 | exact Hn | exact Hd | intros a Ha; apply (Hl a Ha)]. cbn [w_rest]. rewrite E2. do 3 f_equal. apply replaced_ext. intros a Ha. unfold only, grad_array. destruct (is_xp a) eqn:Ex.
      + destruct (grad_of (tensor_of a) s3) as [g|] eqn:Eg; [rewrite (Hg _ _ Eg); reflexivity | rewrite (fw_none _ _ _ _ Fw); reflexivity].
      + rewrite (proj1 (Hl a Ha)). reflexivity.
    - intros l dY w HY HpdY HddY. unfold andthen at 1 2. rewrite to_torch_ok; [| exact HpdY | exact HddY | intros a _ _ Hff; discriminate Hff]. unfold done at 1. unfold shim_backprop, andthen, backward. destruct HY as [-> | ->]; reflexivity.
  Qed.

  Lemma wrapper_predict : forall X b s s1 Yt,
    pr (leaf is_xp) X -> pr (leaf is_torch) X -> named X -> depth X <= fuel -> depth (OArgs (fst (spread X)) (snd (spread X))) <= fuel ->
    (let f := only is_xp tensor_of in net false (fst (spread (replaced f X))) (snd (spread (replaced f X))) s = (s1, Yt)) ->
    match Yt with
    | Err e => wrapper X false (mkWorld b s) = (mkWorld false s1, Err e)
    | Ok Yt => pr (leaf is_torch) Yt -> depth Yt <= fuel -> is_torch ellipsis = false ->
        exists bp, wrapper X false (mkWorld b s) = (mkWorld true s1, Ok (replaced (only is_torch array_of) Yt, bp)) /\
          forall dY w, pr (leaf is_xp) dY -> depth dY <= fuel -> bp dY w = (w, match X with OArgs _ _ => Ok (OOther ellipsis) | _ => Err AttributeError end)
    end.
  Proof.
    intros X b s s1 Yt Hp1 Hp2 Hn Hd0 Hd Hnet. cbv zeta in Hnet.
    destruct (inputs_ok X false (mkWorld b s) Hp1 Hp2 Hn Hd0 Hd (fun a Ha Hx F => ltac:(discriminate F))) as [get [E1 [E2 E3]]].
    assert (E4 : forall (w : wd), is_torch ellipsis = false -> get (OOther ellipsis) w = (w, match X with OArgs _ _ => Ok (OOther ellipsis) | _ => Err AttributeError end)) by (intros w He; destruct X; exact (E3 ellipsis w He)). clear E3.
    destruct Yt as [Yt|e].
    - intros HpY HdY He. unfold pytorch_wrapper, forward. unfold andthen at 1. rewrite E1. unfold andthen at 1, shim_call. unfold andthen at 1. unfold predict, set_training. cbn [w_rest]. rewrite call_ok by exact Hn. rewrite Hnet. cbn [w_rest]. unfold done at 1.
      unfold default_outputs. unfold andthen at 1. unfold andthen at 1. rewrite to_xp_ok by assumption. unfold done at 1. eexists. split; [reflexivity|]. intros dY w HpdY HddY.
      unfold andthen at 1 2. rewrite to_torch_ok; [| exact HpdY | exact HddY | intros a _ _ Hff; discriminate Hff]. unfold done at 1. unfold andthen, done. apply E4. exact He.
    - unfold pytorch_wrapper, forward. unfold andthen at 1. rewrite E1. unfold andthen at 1, shim_call. unfold andthen at 1. unfold predict, set_training. cbn [w_rest]. rewrite call_ok by exact Hn. rewrite Hnet. reflexivity.
  Qed.

  Lemma wrapper_integers : forall X b s, pr (leaf is_xp) X -> depth X <= fuel -> (exists a, In a (leaves X) /\ is_xp a = true /\ is_float a = false) ->
    wrapper X true (mkWorld b s) = (mkWorld b s, Err RuntimeError).
  Proof.
    intros X b s Hp Hd [a [Ha [Hx Hf]]]. unfold pytorch_wrapper, forward, default_inputs. unfold andthen at 1 2. unfold WrapModel.to_torch.
    rewrite (convert_fails keq hashable is_xp other_int iter_other (xp2torch is_float tensor_of true) (mkWorld b s) RuntimeError X fuel Hp Hd); [reflexivity | |].
    - intros c _ _. unfold xp2torch, lift. destruct (is_float c); cbn; [left; eexists; reflexivity | right; reflexivity].
    - exists a. split; [exact Ha | split; [exact Hx|]]. unfold xp2torch, lift. rewrite Hf. reflexivity.
  Qed.

  Lemma rnn_ok : forall Xp b s s1 y h,
    is_float (p_data Xp) = true -> is_torch (tensor_of (p_data Xp)) = true -> is_torch none = false -> 5 <= fuel ->
    net true [OOther (tensor_of (p_data Xp)); OOther none] [] s = (s1, Ok (OTuple [OOther y; h])) ->
    exists bp, rnn_wrapper keq hashable other_int iter_other fuel is_torch is_float tensor_of array_of none ellipsis net autograd grad_of Xp true (mkWorld b s) =
                 (mkWorld true s1, Ok (mkPadded (array_of y) (p_size_at_t Xp) (p_lengths Xp) (p_indices Xp), bp)) /\
      forall dYp t s2 s3 g, is_torch y = true -> is_float (p_data dYp) = true -> is_torch (tensor_of (p_data dYp)) = true -> autograd [y] [tensor_of (p_data dYp)] s2 = (s3, Ok tt) -> grad_of (tensor_of (p_data Xp)) s3 = Some g ->
        bp dYp (mkWorld t s2) = (mkWorld t s3, Ok (mkPadded (array_of g) (p_size_at_t Xp) (p_lengths Xp) (p_indices Xp))).
  Proof.
    intros Xp b s s1 y h Hf Ht Hno Hfu Hnet. unfold rnn_wrapper, forward, rnn_inputs. unfold andthen at 1 2. unfold xp2torch, lift. rewrite Hf. cbn [andb negb]. unfold done at 1. unfold shim_call. unfold andthen at 1 2. cbn [set_training w_rest call_net forallb w_training].
    unfold call_net, set_training. cbn [w_rest forallb w_training]. rewrite Hnet. unfold done at 1. unfold rnn_outputs. unfold andthen at 1 2. unfold torch2xp, lift. unfold done at 1. eexists. split; [reflexivity|].
    intros dYp t s2 s3 g Hy Hfd Htd Hag Hg. cbv beta. unfold andthen at 1 2. cbv beta. cbn [p_data]. unfold xp2torch at 1, lift at 1. rewrite Hfd. cbn [andb negb]. unfold done at 1. unfold shim_backprop. unfold andthen at 1 2. unfold backward, tensors. cbv beta iota zeta. rewrite Hy, Htd. cbn [bind length Nat.eqb w_rest]. rewrite Hag. cbn [w_training].
    rewrite (convert_leaves keq hashable is_torch other_int iter_other (grad_get none grad_of) (fun a => match grad_of a s3 with Some g => g | None => none end)).
    - cbn [replaced map]. unfold only. rewrite Ht, Hg, Hno. unfold andthen, arg0_of, done. reflexivity.
    - apply proper_args; [repeat constructor | constructor | split; constructor].
    - cbn. lia.
    - intros a _ _. reflexivity.
  Qed.
  Lemma rnn_refuses : forall Xp,
    (is_float (p_data Xp) = false -> forall tr w, rnn_wrapper keq hashable other_int iter_other fuel is_torch is_float tensor_of array_of none ellipsis net autograd grad_of Xp tr w = (w, Err RuntimeError)) /\
    forall b s s1 out, is_float (p_data Xp) = true -> net true [OOther (tensor_of (p_data Xp)); OOther none] [] s = (s1, Ok out) ->
      (forall y h, out = OTuple [y; h] \/ out = OList [y; h] -> (forall a, y <> OOther a) -> rnn_wrapper keq hashable other_int iter_other fuel is_torch is_float tensor_of array_of none ellipsis net autograd grad_of Xp true (mkWorld b s) = (mkWorld true s1, Err AttributeError)) /\
      (forall l, out = OTuple l \/ out = OList l -> length l <> 2 -> rnn_wrapper keq hashable other_int iter_other fuel is_torch is_float tensor_of array_of none ellipsis net autograd grad_of Xp true (mkWorld b s) = (mkWorld true s1, Err ValueError)) /\
      (forall y h w w2 Y bp, out = OTuple [OOther y; h] -> rnn_wrapper keq hashable other_int iter_other fuel is_torch is_float tensor_of array_of none ellipsis net autograd grad_of Xp true (mkWorld b s) = (w, Ok (Y, bp)) ->
        forall dYp, is_float (p_data dYp) = false -> bp dYp w2 = (w2, Err RuntimeError)).
  Proof.
    intros Xp. split.
    - intros Hf tr w. unfold rnn_wrapper, forward, rnn_inputs, andthen, xp2torch, lift. rewrite Hf. reflexivity.
    - intros b s s1 out Hf Hn. unfold rnn_wrapper, forward, rnn_inputs. unfold andthen, xp2torch, lift, done, shim_call, call_net, set_training. rewrite Hf. cbn [andb negb w_rest w_training forallb].
      unfold andthen, call_net, done. cbn [w_rest w_training forallb]. rewrite Hn. unfold rnn_outputs. repeat split.
      + intros y h [-> | ->] Hy; (destruct y; try reflexivity; exfalso; apply (Hy a); reflexivity).
      + intros l [-> | ->] Hl; (destruct l as [|y [|h [|x l]]]; try reflexivity; exfalso; apply Hl; reflexivity).
      + intros y h w w2 Y bp -> E dYp Hd. unfold andthen, torch2xp, xp2torch, lift, done in E. injection E as <- <- <-. cbn [p_data]. rewrite Hd. reflexivity.
  Qed.
End Main.

Section CpuProofs.
  Context {A : Type} (where_is : A -> place) (get : A -> A).
  Notation moved := (moved where_is get).
  Notation tc := (to_cpu where_is get).
  Fixpoint tc_each (l : list (obj A)) : result (list (obj A)) := match l with [] => Ok [] | x :: l => let* x := tc x in let* l := tc_each l in Ok (x :: l) end.
  Lemma tc_list : forall l, tc (OList l) = let* l := tc_each l in Ok (OList l).
  Proof. reflexivity. Qed.
  Lemma tc_tuple : forall l, tc (OTuple l) = let* l := tc_each l in Ok (OTuple l).
  Proof. reflexivity. Qed.
  Lemma tc_plain : forall X, plain X -> tc X = Ok (replaced moved X).
  Proof.
    intros X. induction X as [X IH] using obj_ind_depth. intro Hp. inversion Hp as [i|s|a|l Hl|l Hl]; subst X; try reflexivity.
    - cbn [to_cpu replaced]. unfold WrapSpec.moved. destruct (where_is a); reflexivity.
    - rewrite tc_list. replace (tc_each l) with (Ok (map (replaced moved) l)); [reflexivity|]. cbn [depth] in IH. clear Hp. induction Hl as [|x l Hx Hl IHl]; [reflexivity|]. cbn [map tc_each] in *. rewrite list_max_cons in IH.
      rewrite IH; [|lia | exact Hx]. cbn [bind]. rewrite <- IHl; [reflexivity|]. intros o Ho. apply IH. lia.
    - rewrite tc_tuple. replace (tc_each l) with (Ok (map (replaced moved) l)); [reflexivity|]. cbn [depth] in IH. clear Hp. induction Hl as [|x l Hx Hl IHl]; [reflexivity|]. cbn [map tc_each] in *. rewrite list_max_cons in IH.
      rewrite IH; [|lia | exact Hx]. cbn [bind]. rewrite <- IHl; [reflexivity|]. intros o Ho. apply IH. lia.
  Qed.
  Lemma tc_each_plain : forall l, Forall plain l -> forall x b, tc x = Err TypeError -> tc_each (l ++ x :: b) = Err TypeError.
  Proof. induction 1 as [|y l Hy Hl IH]; intros x b Hx; cbn [app tc_each]; [rewrite Hx; reflexivity|]. rewrite tc_plain by exact Hy. cbn [bind]. rewrite IH by exact Hx. reflexivity. Qed.
  Lemma tc_dict : forall X, dict_inside X -> tc X = Err TypeError.
  Proof. induction 1 as [d | a x b Ha Hx IH | a x b Ha Hx IH]; [reflexivity | rewrite tc_list | rewrite tc_tuple]; rewrite tc_each_plain by assumption; reflexivity. Qed.

  Variable asarray : obj A -> result (obj A).
  Variable to_gpu : A -> A.
  Notation td := (to_device asarray).
  Fixpoint td_each (l : list (obj A)) : result (list (obj A)) := match l with [] => Ok [] | x :: l => let* x := td x in let* l := td_each l in Ok (x :: l) end.
  Lemma td_list : forall l, td (OList l) = let* l := td_each l in Ok (OList l).
  Proof. reflexivity. Qed.
  Lemma td_tuple : forall l, td (OTuple l) = let* l := td_each l in Ok (OTuple l).
  Proof. reflexivity. Qed.
  Lemma td_arrays : (forall a, asarray (OOther a) = Ok (OOther (to_gpu a))) -> forall X, arrays X -> td X = Ok (replaced to_gpu X).
  Proof.
    intros Has X. induction X as [X IH] using obj_ind_depth. intro Hp. inversion Hp as [a|l Hl|l Hl]; subst X.
    - cbn. apply Has.
    - rewrite td_list. replace (td_each l) with (Ok (map (replaced to_gpu) l)); [reflexivity|]. cbn [depth] in IH. clear Hp. induction Hl as [|x l Hx Hl IHl]; [reflexivity|]. cbn [map td_each] in *. rewrite list_max_cons in IH.
      rewrite IH; [|lia | exact Hx]. cbn [bind]. rewrite <- IHl; [reflexivity|]. intros o Ho. apply IH. lia.
    - rewrite td_tuple. replace (td_each l) with (Ok (map (replaced to_gpu) l)); [reflexivity|]. cbn [depth] in IH. clear Hp. induction Hl as [|x l Hx Hl IHl]; [reflexivity|]. cbn [map td_each] in *. rewrite list_max_cons in IH.
      rewrite IH; [|lia | exact Hx]. cbn [bind]. rewrite <- IHl; [reflexivity|]. intros o Ho. apply IH. lia.
  Qed.
  Lemma cpu_ok : forall layer tr X Y bp, (forall a, asarray (OOther a) = Ok (OOther (to_gpu a))) -> plain X -> layer true (replaced moved X) = Ok (Y, bp) -> arrays Y ->
    exists bp', with_cpu where_is get asarray layer tr X = Ok (replaced to_gpu Y, bp') /\ forall dY, plain dY -> bp' dY = bp (replaced moved dY).
  Proof. intros layer tr X Y bp Has HX HL HY. unfold with_cpu. rewrite tc_plain by exact HX. cbn [bind]. rewrite HL. cbn [bind]. rewrite (td_arrays Has Y HY). cbn [bind]. eexists. split; [reflexivity|]. intros dY HdY. cbv beta. rewrite tc_plain by exact HdY. reflexivity. Qed.
  Lemma cpu_dict : forall layer tr X, dict_inside X -> with_cpu where_is get asarray layer tr X = Err TypeError.
  Proof. intros layer tr X HX. unfold with_cpu. rewrite tc_dict by exact HX. reflexivity. Qed.
End CpuProofs.

Section Tf.
  Context {A W : Type} (keq : obj A -> obj A -> bool) (hashable : obj A -> bool) (other_int : A -> bool) (iter_other : obj A -> result (list (obj A))) (fuel : nat).
  Context (is_xp is_tf : A -> bool) (tensor_of array_of : A -> A).
  Context (begin_update : obj A -> eff (world W) (obj A * (obj A -> eff (world W) (obj A)))) (tf_predict : obj A -> eff (world W) (obj A)).
  Notation wrapper := (tensorflow_wrapper keq hashable other_int iter_other fuel is_xp is_tf tensor_of array_of begin_update tf_predict).
  Notation pr := (proper keq hashable).

  Lemma to_tf_ok : forall o (w : world W), pr (leaf is_xp) o -> depth o <= fuel -> to_tf keq hashable other_int iter_other fuel is_xp tensor_of o w = (w, Ok (replaced (only is_xp tensor_of) o)).
  Proof. intros o w Hp Hd. unfold to_tf. apply to_torch_ok; [exact Hp | exact Hd | reflexivity]. Qed.
  Lemma tf_training : forall X w w1 Yt bp0, pr (leaf is_xp) X -> pr (leaf is_tf) X -> named X -> depth X <= fuel -> depth (OArgs (fst (spread X)) (snd (spread X))) <= fuel ->
    begin_update (replaced (only is_xp tensor_of) (OArgs (fst (spread X)) (snd (spread X)))) w = (w1, Ok (Yt, bp0)) -> pr (leaf is_tf) Yt -> depth Yt <= fuel ->
    exists bp, wrapper X true w = (w1, Ok (replaced (only is_tf array_of) Yt, bp)) /\
      forall dY w2 w3, pr (leaf is_xp) dY -> depth dY <= fuel ->
        (forall e, bp0 (replaced (only is_xp tensor_of) dY) w2 = (w3, Err e) -> bp dY w2 = (w3, Err e)) /\
        (forall h, bp0 (replaced (only is_xp tensor_of) dY) w2 = (w3, Ok (replaced h (OArgs (fst (spread X)) (snd (spread X))))) ->
          bp dY w2 = (w3, Ok (tupled (replaced (fun a => only is_tf array_of (h a)) X)))).
  Proof.
    intros X w w1 Yt bp0 Hp1 Hp2 Hn Hd0 Hd Hb HpY HdY.
    destruct (inputs_ok (W := W) keq hashable other_int iter_other fuel is_xp is_tf (fun _ => true) tensor_of array_of (fun _ _ _ s => (s, Err ValueError)) (fun _ _ => None) X true w Hp1 Hp2 Hn Hd0 Hd (fun _ _ _ _ => eq_refl)) as [get [E1 [E2 _]]].
    unfold tensorflow_wrapper, tf_inputs. unfold andthen at 1. rewrite E1. unfold andthen at 1. unfold inputs. rewrite Hb. unfold tf_outputs. unfold andthen at 1 2. rewrite to_xp_ok by assumption. unfold done at 1. eexists. split; [reflexivity|].
    intros dY w2 w3 HpdY HddY. split.
    - intros e He. unfold andthen. rewrite to_tf_ok by assumption. rewrite He. reflexivity.
    - intros h He. unfold andthen. rewrite to_tf_ok by assumption. rewrite He. exact (E2 h w3).
  Qed.
  Lemma tf_prediction : forall X w w1 Yt, pr (leaf is_xp) X -> pr (leaf is_tf) X -> named X -> depth X <= fuel -> depth (OArgs (fst (spread X)) (snd (spread X))) <= fuel ->
    tf_predict (replaced (only is_xp tensor_of) (OArgs (fst (spread X)) (snd (spread X)))) w = (w1, Yt) ->
    match Yt with
    | Err e => wrapper X false w = (w1, Err e)
    | Ok Yt => pr (leaf is_tf) Yt -> depth Yt <= fuel ->
        exists bp, wrapper X false w = (w1, Ok (replaced (only is_tf array_of) Yt, bp)) /\ forall dY w2, pr (leaf is_xp) dY -> depth dY <= fuel -> bp dY w2 = (w2, Err NameError)
    end.
  Proof.
    intros X w w1 Yt Hp1 Hp2 Hn Hd0 Hd Hb.
    destruct (inputs_ok (W := W) keq hashable other_int iter_other fuel is_xp is_tf (fun _ => true) tensor_of array_of (fun _ _ _ s => (s, Err ValueError)) (fun _ _ => None) X false w Hp1 Hp2 Hn Hd0 Hd (fun _ _ _ _ => eq_refl)) as [get [E1 _]].
    unfold tensorflow_wrapper, tf_inputs. destruct Yt as [Yt|e].
    - intros HpY HdY. unfold andthen at 1. rewrite E1. unfold andthen at 1. unfold inputs. rewrite Hb. unfold tf_outputs. unfold andthen at 1 2. rewrite to_xp_ok by assumption. unfold done at 1. eexists. split; [reflexivity|].
      intros dY w2 HpdY HddY. unfold andthen. rewrite to_tf_ok by assumption. reflexivity.
    - unfold andthen at 1. rewrite E1. unfold andthen at 1. unfold inputs. rewrite Hb. reflexivity.
  Qed.
End Tf.
