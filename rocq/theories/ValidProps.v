(** Property C73: data validation. *)
From Coq Require Import String.
From Verif Require Import Base ValidModel ValidSpec ValidProofs.
Local Open Scope string_scope.

(** validate_array accepts exactly the arrays with the number of axes and one of the dtypes, and returns them. *)
Theorem C73_array : forall o nd dt o', validate_array o nd dt = Ok o' <->
  o' = o /\ exists n d, o = OArr n d /\ (forall m, nd = Some m -> n = m) /\ (forall k, dt = Some k -> In d (expected_types k)).
Proof. exact array_exact. Qed.
Print Assumptions C73_array.
(** It only raises ValueError: its TypeError for objects that are no arrays is never reached. *)
Theorem C73_array_error : forall o nd dt e, validate_array o nd dt = Err e -> e = ValueError.
Proof. exact never_type_error. Qed.
Print Assumptions C73_array_error.

(** Objects are accepted for an annotation exactly if they are of that type. *)
Theorem C73_accepts : forall other t o, accepts other t o = true <-> has_type other t o.
Proof. exact accepts_exact. Qed.
Print Assumptions C73_accepts.
(** Validation passes exactly if X, and Y together with a callback, are of the annotated types, where of lists only the
    first five items count; without data or without annotations there is nothing to check. *)
Theorem C73_validate : forall other p0 ax p2 ret X Y, validate_fwd_input_output other (mkSig [p0; ax; p2] ret) X Y = Ok tt <->
  (forall x t, X = Some x -> ax = Some t -> has_type other t (first_five x)) /\
  (forall y t, Y = Some y -> ret = Some t -> has_type other t (OTup [first_five y; OFunc])).
Proof. exact validate_ok. Qed.
Print Assumptions C73_validate.
Theorem C73_validate_error : forall other s X Y e, validate_fwd_input_output other s X Y = Err e -> e = ValueError.
Proof. exact validate_error. Qed.
Print Assumptions C73_validate_error.
(** Forward functions must have three parameters. *)
Theorem C73_count : forall other s X Y, length (sig_params s) <> 3 -> validate_fwd_input_output other s X Y = Err ValueError.
Proof. exact validate_count. Qed.
Print Assumptions C73_count.
(** With the usual annotation of what forward returns, Y is checked against the type of the output. *)
Theorem C73_return : forall other p0 p2 t y,
  validate_fwd_input_output other (mkSig [p0; None; p2] (Some (TTuple [t; TCallable]))) None (Some y) = Ok tt <-> has_type other t (first_five y).
Proof. exact pair_return. Qed.
Print Assumptions C73_return.
(** Items after the fifth are not looked at. *)
Theorem C73_first_five : forall other s l l' Y, firstn 5 l = firstn 5 l' ->
  validate_fwd_input_output other s (Some (OList l)) Y = validate_fwd_input_output other s (Some (OList l')) Y /\
  forall X, validate_fwd_input_output other s X (Some (OList l)) = validate_fwd_input_output other s X (Some (OList l')).
Proof. exact five_only. Qed.
Print Assumptions C73_first_five.
(** Data of the annotated type passes, unless the annotation has tuples of more than five items. *)
Theorem C73_good_accepted : forall other p0 t p2 x, cuttable t = true -> has_type other t x ->
  validate_fwd_input_output other (mkSig [p0; Some t; p2] None) (Some x) None = Ok tt.
Proof. exact good_accepted. Qed.
Print Assumptions C73_good_accepted.

(** Validation does not change what initialization does, and refused data changes nothing. *)
Theorem C73_init_unchanged : forall other {S} s init X Y (st : S), validate_fwd_input_output other s X Y = Ok tt ->
  initialize other true s init X Y st = initialize other false s init X Y st.
Proof. exact @init_unchanged. Qed.
Print Assumptions C73_init_unchanged.
Theorem C73_init_refused : forall other {S} s init X Y (st : S) e, validate_fwd_input_output other s X Y = Err e ->
  initialize other true s init X Y st = (st, Err ValueError).
Proof. exact @init_refused. Qed.
Print Assumptions C73_init_refused.

(** Refuted: data that passes is of the annotated type. The sixth array of this list is no matrix of floats. *)
Theorem C73_sixth_refuted : exists x, validate_fwd_input_output (fun _ _ => false) (mkSig [None; Some (TList (Floats 2)); None] None) (Some x) None = Ok tt /\
  ~ has_type (fun _ _ => false) (TList (Floats 2)) x.
Proof. exact sixth_refuted. Qed.
Print Assumptions C73_sixth_refuted.
(** Refuted: data of the annotated type passes. A list for a tuple of six items is cut and then has five. *)
Theorem C73_tuple_refuted : exists t x, has_type (fun _ _ => false) t x /\
  validate_fwd_input_output (fun _ _ => false) (mkSig [None; Some t; None] None) (Some x) None = Err ValueError.
Proof. exact tuple_refuted. Qed.
Print Assumptions C73_tuple_refuted.

(** ** The hypotheses can be met *)
Example C73_array_ex : validate_array (OArr 2 "float32") (Some 2) (Some "f") = Ok (OArr 2 "float32") /\ validate_array (OArr 2 "float64") (Some 2) (Some "f") = Err ValueError /\
  validate_array (OArr 1 "uint64") (Some 1) (Some "i") = Ok (OArr 1 "uint64") /\ validate_array (OList []) None None = Err ValueError.
Proof. repeat split. Qed.
Example C73_validate_ex :
  validate_fwd_input_output (fun _ _ => false) (mkSig [None; Some (TUnion [Floats 2; TList (Floats 2)]); None] (Some (TTuple [Floats 2; TCallable]))) (Some (OList [OArr 2 "float32"])) (Some (OArr 2 "float32")) = Ok tt /\
  validate_fwd_input_output (fun _ _ => false) (mkSig [None; Some (TUnion [Floats 2; TList (Floats 2)]); None] (Some (TTuple [Floats 2; TCallable]))) (Some (OList [OArr 2 "float32"])) (Some (OArr 2 "int32")) = Err ValueError.
Proof. split; reflexivity. Qed.
Example C73_cuttable_ex : cuttable (TUnion [Floats 2; TList (Floats 2)]) = true /\ cuttable (TTuple [TAny; TAny; TAny; TAny; TAny; TAny]) = false.
Proof. split; reflexivity. Qed.
Example C73_five_ex : firstn 5 [ONone; ONone; ONone; ONone; ONone; OFunc] = firstn 5 [ONone; ONone; ONone; ONone; ONone; ONone].
Proof. reflexivity. Qed.
Example C73_count_ex : validate_fwd_input_output (fun _ _ => false) (mkSig [None; None] None) None None = Err ValueError.
Proof. reflexivity. Qed.

(** The dtypes that the letters of the annotations stand for. *)
Theorem C73_dtypes : forall k d,
  In d (expected_types k) <-> (k = "f" /\ d = "float32") \/ (k = "i" /\ (d = "int32" \/ d = "int64" \/ d = "uint32" \/ d = "uint64")).
Proof. exact @dtypes. Qed.
Print Assumptions C73_dtypes.
