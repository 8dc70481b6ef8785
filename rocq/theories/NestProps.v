(** C50: recursive conversion of nested values. *)
From Coq Require Import String.
From Verif Require Import NestModel NestSpec NestProofs.

(** The conversion is applied to exactly the values that iterate_recursive yields, once each and in that order, and the result is the
    value with those replaced by what the conversion returned. Dict keys may be converted too, as long as the new keys can make up a
    dict. [conv] may read and write a state. *)
Theorem C50_convert : forall A S keq hashable other_int iter_other m (conv : obj A -> eff S (obj A)) fuel o vs o', arrays_only m -> filled keq hashable m o vs o' -> depth o <= fuel ->
  exists L, iterate_recursive m fuel o = Ok L /\ length L = length vs /\ forall s s', each conv L s = (s', Ok vs) -> convert_recursive keq hashable other_int iter_other m conv fuel o s = (s', Ok o').
Proof. exact convert_iterate. Qed.
Print Assumptions C50_convert.
(** With nothing to convert inside dict keys: iterate_recursive yields the matching values from left to right (refilling the value with
    them gives the same value), and the conversion succeeds when it succeeds on each of them. Otherwise the exception, and the state in
    which it was raised, are those of the first failing value. *)
Theorem C50_leaves : forall A S keq hashable other_int iter_other m (conv : obj A -> eff S (obj A)) fuel o, arrays_only m -> proper keq hashable m o -> depth o <= fuel ->
  exists L, iterate_recursive m fuel o = Ok L /\ Forall (fun x => m x = true) L /\ filled keq hashable m o L o /\
    forall s, match each conv L s with
              | (s', Ok vs) => exists o', filled keq hashable m o vs o' /\ convert_recursive keq hashable other_int iter_other m conv fuel o s = (s', Ok o')
              | (s', Err e) => convert_recursive keq hashable other_int iter_other m conv fuel o s = (s', Err e)
              end.
Proof. exact convert_proper. Qed.
Print Assumptions C50_leaves.
Theorem C50_nothing : forall A S keq hashable other_int iter_other m (conv : obj A -> eff S (obj A)) fuel o (s : S), arrays_only m -> proper keq hashable m o -> depth o <= fuel ->
  iterate_recursive m fuel o = Ok [] -> convert_recursive keq hashable other_int iter_other m conv fuel o s = (s, Ok o).
Proof. exact convert_nothing. Qed.
Print Assumptions C50_nothing.
(** There and back, as in the wrappers of other frameworks and in serialization: the original value. *)
Theorem C50_there_and_back : forall A S keq hashable other_int iter_other (m1 m2 : obj A -> bool) f g fuel o (s : S), arrays_only m1 -> arrays_only m2 -> (forall x, m1 x = true -> m2 (f x) = true /\ g (f x) = x) ->
  proper keq hashable m1 o -> proper keq hashable m2 o -> depth o <= fuel -> iterate_recursive m2 fuel o = Ok [] ->
  exists o', convert_recursive keq hashable other_int iter_other m1 (pure_conv f) fuel o s = (s, Ok o') /\ convert_recursive keq hashable other_int iter_other m2 (pure_conv g) fuel o' s = (s, Ok o).
Proof. exact convert_there_back. Qed.
Print Assumptions C50_there_and_back.
(** ArgsKwargs.from_items(a.items()) = a; the items are the keys with the values. *)
Theorem C50_argskwargs : forall A keq hashable other_int iter_other (args : list (obj A)) kwargs, Forall (fun p => exists s, fst p = OStr s) kwargs -> keys_ok keq hashable (map fst kwargs) ->
  from_items keq hashable other_int iter_other (OList (ak_items args kwargs)) = Ok (OArgs args kwargs) /\
  ak_items args kwargs = map (fun p => OTuple [fst p; snd p]) (combine (ak_keys args kwargs) (ak_values args kwargs)).
Proof. exact argskwargs_back. Qed.
Print Assumptions C50_argskwargs.

(** Values whose leaves are arrays of two kinds *)
Inductive ex_arr := Np (n : nat) | Torch (n : nat).
Definition ex_np (o : obj ex_arr) : bool := match o with OOther (Np _) => true | _ => false end.
Definition ex_torch (o : obj ex_arr) : bool := match o with OOther (Torch _) => true | _ => false end.
Definition ex_keq (a b : obj ex_arr) : bool := match a, b with OStr x, OStr y => String.eqb x y | OInt i, OInt j => Z.eqb i j | OOther (Np i), OOther (Np j) => Nat.eqb i j | OOther (Torch i), OOther (Torch j) => Nat.eqb i j | _, _ => false end.
Definition ex_hash (o : obj ex_arr) : bool := match o with OList _ | ODict _ | OArgs _ _ => false | _ => true end.
Definition ex_cr := convert_recursive (S := list nat) ex_keq ex_hash (fun _ => false) (fun _ => Err TypeError).
Definition ex_o : obj ex_arr :=
  OArgs [OOther (Np 1); OTuple [OOther (Np 2); OInt 5]] [(OStr "x"%string, ODict [(OStr "k"%string, OList [OOther (Np 3); OOther (Torch 9)])])].
(** The conversion to torch notes what it converted. *)
Definition ex_conv (o : obj ex_arr) : eff (list nat) (obj ex_arr) := fun s => match o with OOther (Np n) => if n =? 7 then (s, Err ValueError) else ((s ++ [n])%list, Ok (OOther (Torch (n + 10)))) | _ => (s, Err TypeError) end.
Example C50_ex : depth ex_o = 6 /\ arrays_only ex_np /\ proper ex_keq ex_hash ex_np ex_o /\
  iterate_recursive ex_np 6 ex_o = Ok [OOther (Np 1); OOther (Np 2); OOther (Np 3)] /\
  ex_cr ex_np ex_conv 6 ex_o [] =
    ([1; 2; 3], Ok (OArgs [OOther (Torch 11); OTuple [OOther (Torch 12); OInt 5]] [(OStr "x"%string, ODict [(OStr "k"%string, OList [OOther (Torch 13); OOther (Torch 9)])])])) /\
  ex_cr ex_np ex_conv 6 ex_o [] <> ex_cr ex_np ex_conv 5 ex_o [] /\
  ex_cr ex_np ex_conv 6 (OList [OOther (Np 1); OTuple [OOther (Np 7)]; OOther (Np 2)]) [] = ([1], Err ValueError).
Proof.
  split; [reflexivity|]. split; [intros [| |a| | | |] H; try discriminate; exists a; reflexivity|]. split.
  - assert (K : forall s (v : obj ex_arr), keys_ok ex_keq ex_hash (map fst [(OStr s, v)])) by (intros s v; split; repeat constructor).
    apply proper_args; [constructor; [apply proper_atom; reflexivity | constructor; [apply proper_tuple; repeat (constructor; [apply proper_atom; reflexivity|]); constructor | constructor]] | | apply K]. constructor; [|constructor]. split; [eexists; reflexivity|]. cbn [snd]. apply proper_dict; [|apply K].
    constructor; [|constructor]. split; [apply key_atom; reflexivity|]. apply proper_list. repeat (constructor; [apply proper_atom; reflexivity|]). constructor.
  - repeat split; try (vm_compute; reflexivity). vm_compute. discriminate.
Qed.
Example C50_there_and_back_ex : exists o', ex_cr ex_np (pure_conv (fun o => match o with OOther (Np n) => OOther (Torch n) | _ => o end)) 4 (OTuple [OInt 1; ODict [(OInt 0, OOther (Np 4))]]) [] = ([], Ok o') /\
  o' = OTuple [OInt 1; ODict [(OInt 0, OOther (Torch 4))]] /\ iterate_recursive ex_torch 4 (OTuple [OInt 1; ODict [(OInt 0, OOther (Np 4))]]) = Ok [].
Proof. eexists. vm_compute. repeat split. Qed.

(** Finding: a predicate that matches integers also gets the positions of an ArgsKwargs, so that arguments turn into keyword
    arguments or disappear. *)
Theorem C50_integers_refuted :
  let ints := fun o : obj nat => match o with OInt _ => true | _ => false end in
  let keq := fun a b : obj nat => match a, b with OStr x, OStr y => String.eqb x y | OOther i, OOther j => Nat.eqb i j | _, _ => false end in
  let conv := fun c : obj nat => convert_recursive (S := unit) keq (fun _ => true) (fun _ => false) (fun _ => Err TypeError) ints (pure_conv (fun _ => c)) 4 (OArgs [OStr "a"; OStr "b"] []) tt in
  iterate_recursive ints 4 (OArgs [OStr "a"; OStr "b"] []) = Ok [OInt 0; OInt 1] /\
  conv (OOther 1) = (tt, Ok (OArgs [] [(OOther 1, OStr "b")])) /\
  conv (OInt 7) = (tt, Ok (OArgs [OStr "a"; OStr "b"] [])).
Proof. vm_compute. repeat split. Qed.
Print Assumptions C50_integers_refuted.
(** Finding: dict keys are converted too; keys that become equal lose entries, keys that become unhashable raise. *)
Theorem C50_keys_refuted :
  let arr := fun o : obj nat => match o with OOther _ => true | _ => false end in
  let keq := fun a b : obj nat => match a, b with OStr x, OStr y => String.eqb x y | OOther i, OOther j => Nat.eqb i j | _, _ => false end in
  let hashable := fun o : obj nat => match o with OList _ => false | _ => true end in
  let conv := fun c : obj nat => convert_recursive (S := unit) keq hashable (fun _ => false) (fun _ => Err TypeError) arr (pure_conv (fun _ => c)) 2 (ODict [(OOther 1, OInt 1); (OOther 2, OInt 2)]) tt in
  conv (OOther 3) = (tt, Ok (ODict [(OOther 3, OInt 2)])) /\ conv (OList []) = (tt, Err TypeError).
Proof. vm_compute. repeat split. Qed.
Print Assumptions C50_keys_refuted.
