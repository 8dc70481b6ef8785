(** C49: resizing an output layer. *)
From Coq Require Import String QArith.
From Coq Require Import Reals Lia.
From Verif Require Import NumQ NumR ResizeModel ResizeSpec ResizeProofs.
Local Open Scope nat_scope.

(** A larger layer gets, for each parameter, the elements of the old one followed by the filler; parameters that the old layer does
    not have keep their initial values. The old layer is unchanged. [init] is any initializer that allocates arrays of the same
    width with at least as many rows. *)
Theorem C49_parameters : forall T (H : Num T) A init new_id (layer : pnode T A) new_nO fd nO n1, plain layer -> get_dim layer "nO" = Ok nO -> new_nO <> nO -> has_dim layer "nI" <> None -> init (blank new_id layer new_nO) = Ok n1 -> NoDup (param_names layer) ->
  (forall nm, has_param layer nm = Some true -> exists p q, get_param layer nm = Ok p /\ get_param n1 nm = Ok q /\ fits p q) ->
  exists n2, resize_linear_weighted init new_id layer new_nO fd = (layer, Ok (Some n2)) /\ n_dims n2 = n_dims n1 /\
    (forall nm p q, has_param layer nm = Some true -> get_param layer nm = Ok p -> get_param n1 nm = Ok q -> get_param n2 nm = Ok (grown p q (filler_of fd nm))) /\
    (forall nm, has_param layer nm <> Some true -> get_param n2 nm = get_param n1 nm).
Proof. exact @resize_params. Qed.
Print Assumptions C49_parameters.
(** The scores of a linear layer: those of the old classes are unchanged; every new class has the score that the fillers give (0 by
    default). *)
Theorem C49_scores : forall A (layer : pnode R A) nO nI W b init_W init_b new_id new fd X, is_linear layer nO nI W b -> nO < new -> (forall r c, rows_by r c (init_W r c)) -> (forall n, length (init_b n) = n) -> input_of nI X ->
  exists n2, resize_linear_weighted (linear_init init_W init_b) new_id layer (Z.of_nat new) fd = (layer, Ok (Some n2)) /\ get_dim n2 "nO" = Ok (Z.of_nat new) /\ get_dim n2 "nI" = Ok (Z.of_nat nI) /\
    linear_predict layer X = Ok (by_row nO (score W b) X) /\
    linear_predict n2 X = Ok (by_row new (fun x j => if Nat.ltb j nO then score W b x j else (filler_of fd "W" * msum x + filler_of fd "b")%R) X).
Proof. exact @linear_grow. Qed.
Print Assumptions C49_scores.
(** The same size: the layer itself. An output size, or inputs, that are not known yet: the layer itself with the new size, unless it
    has parameters. Nested layers: AssertionError. *)
Theorem C49_same : forall T (H : Num T) A init new_id (layer : pnode T A) nO fd, plain layer -> get_dim layer "nO" = Ok nO -> resize_linear_weighted init new_id layer nO fd = (layer, Ok None).
Proof. exact @resize_same. Qed.
Print Assumptions C49_same.
Theorem C49_unset : forall T (H : Num T) A init new_id (layer : pnode T A) nO fd, plain layer -> has_dim layer "nO" = None ->
  exists l', resize_linear_weighted init new_id layer nO fd = (l', Ok None) /\ get_dim l' "nO" = Ok nO /\ n_params l' = n_params layer.
Proof. exact @resize_unset. Qed.
Print Assumptions C49_unset.
Theorem C49_no_inputs : forall T (H : Num T) A init new_id (layer : pnode T A) nO new fd, plain layer -> get_dim layer "nO" = Ok nO -> has_dim layer "nI" = None -> forallb (fun p => negb (snd p)) (n_has layer) = true ->
  exists l', resize_linear_weighted init new_id layer new fd = (l', Ok None) /\ get_dim l' "nO" = Ok new.
Proof. exact @resize_no_inputs. Qed.
Print Assumptions C49_no_inputs.
Theorem C49_nested : forall T (H : Num T) A init new_id (layer : pnode T A) nO fd, ~ plain layer -> resize_linear_weighted init new_id layer nO fd = (layer, Err AssertionError).
Proof. exact @resize_nested. Qed.
Print Assumptions C49_nested.

Definition ex_layer (nO nI : option Z) (W : mat Q) (b : list Q) : pnode Q unit :=
  mkNode 7 "linear" 0 [] [] [("nO"%string, nO); ("nI"%string, nI)] [("W"%string, true); ("b"%string, true)] [("W"%string, P2 W); ("b"%string, P1 b)] [] [] [].
Definition ex_init : pnode Q unit -> result (pnode Q unit) := linear_init (fun r c => mkM c (repeat (repeat 9%Q c) r)) (fun n => repeat 8%Q n).
Example C49_ex :
  let l := ex_layer (Some 2%Z) (Some 2%Z) (mkM 2 [[1; 2]; [3; 4]]%Q) [5; 6]%Q in
  match snd (resize_linear_weighted ex_init 8 l 3 [("b"%string, 7%Q)]) with
  | Ok (Some n) => n_params n = [("W"%string, P2 (mkM 2 [[1; 2]; [3; 4]; [0; 0]]%Q)); ("b"%string, P1 [5; 6; 7]%Q)] /\ n_dims n = [("nO"%string, Some 3%Z); ("nI"%string, Some 2%Z)] /\
                   match linear_predict n (mkM 2 [[1; 1]]%Q) with Ok Y => map (map Qred) (m_rows Y) = [[8; 13; 7]]%Q | Err _ => False end
  | _ => False
  end /\
  snd (resize_linear_weighted ex_init 8 (ex_layer None None (mkM 0 []) []) 3 []) = Ok None /\
  snd (resize_linear_weighted ex_init 8 (ex_layer (Some 2%Z) None (mkM 0 []) []) 3 []) = Err ValueError.
Proof. vm_compute. repeat split. Qed.

(** Finding: a smaller size raises (for more than one old class): the first classes are not kept. *)
Theorem C49_shrink_refuted : forall A (layer : pnode R A) nO nI W b init_W init_b new_id new fd, is_linear layer nO nI W b -> new < nO -> 1 < nO -> (forall r c, rows_by r c (init_W r c)) ->
  resize_linear_weighted (linear_init init_W init_b) new_id layer (Z.of_nat new) fd = (layer, Err ValueError).
Proof. exact @linear_shrink. Qed.
Print Assumptions C49_shrink_refuted.
(** From one class to none there is an exception to this: the new layer is empty. *)
Theorem C49_to_none : forall A (layer : pnode R A) nI W b init_W init_b new_id fd, is_linear layer 1 nI W b -> (forall r c, rows_by r c (init_W r c)) -> (forall n, length (init_b n) = n) ->
  exists n2, resize_linear_weighted (linear_init init_W init_b) new_id layer 0 fd = (layer, Ok (Some n2)) /\ get_dim n2 "nO" = Ok 0%Z /\ get_param n2 "W" = Ok (P2 (mkM nI [])) /\ get_param n2 "b" = Ok (P1 []).
Proof. exact @linear_to_none. Qed.
Print Assumptions C49_to_none.
Example C49_shrink_ex : snd (resize_linear_weighted ex_init 8 (ex_layer (Some 2%Z) (Some 2%Z) (mkM 2 [[1; 2]; [3; 4]]%Q) [5; 6]%Q) 1 []) = Err ValueError.
Proof. vm_compute. reflexivity. Qed.

(** The container runs the new layer afterwards. Finding: its own dimensions do not change, so that its nO is the old size. *)
Theorem C49_container : forall T (H : Num T) A init new_id fd nodes (model : pnode T A) l rest layer n new_nO layer', n_layers model = l :: rest -> nth_error nodes l = Some layer -> resize_linear_weighted init new_id layer new_nO fd = (layer', Ok (Some n)) ->
  exists nodes' model' a, resize_model init new_id fd nodes model new_nO = (nodes', model', Ok tt) /\ n_layers model' = a :: rest /\ nth_error nodes' a = Some n.
Proof. exact @model_layer. Qed.
Print Assumptions C49_container.
Theorem C49_container_dim_refuted : forall T (H : Num T) A init new_id fd nodes (model : pnode T A) new_nO nodes' model' r, resize_model init new_id fd nodes model new_nO = (nodes', model', r) -> n_dims model' = n_dims model.
Proof. exact @wrapper_dim. Qed.
Print Assumptions C49_container_dim_refuted.
Example C49_container_ex :
  let l := ex_layer (Some 2%Z) (Some 2%Z) (mkM 2 [[1; 2]; [3; 4]]%Q) [5; 6]%Q in
  match resizable 9 [l] 0 [] 1 with
  | Some m => match resize_model ex_init 8 [] [l] m 3 with
              | (nodes, m', Ok tt) => get_dim m' "nO" = Ok 2%Z /\ n_layers m' = [1] /\ match nth_error nodes 1 with Some n => get_dim n "nO" = Ok 3%Z | None => False end
              | _ => False
              end
  | None => False
  end.
Proof. vm_compute. repeat split. Qed.
