(** Floating point: subtraction is the addition of the opposite, and exact on integers up to 2^prec. *)
From Coq Require Import ZArith Lia Bool List.
From Verif Require Import FloatModel FloatSpec FloatFacts FloatIntProofs.
From Coq.Floats Require Import SpecFloat.
Set Default Goal Selector "!".
Local Open Scope Z_scope.

Lemma sub_opp prec emax : forall x y : spec_float, @nsub _ (num_sf prec emax) x y = @nadd _ (num_sf prec emax) x (@nopp _ (num_sf prec emax) y).
Proof.
  cbn [nsub nadd nopp num_sf]. intros [s|s| |s m e] [t|t| |t n f]; cbn [SFsub SFadd SFopp]; try reflexivity; try (now destruct s, t).
Qed.
Lemma round_aux_opp prec emax : forall s m e l, binary_round_aux prec emax (negb s) m e l = SFopp (binary_round_aux prec emax s m e l).
Proof.
  intros s m e l. unfold binary_round_aux. destruct (shr_fexp prec emax m e l) as [mr er].
  destruct (shr_fexp prec emax (round_nearest_even (shr_m mr) (loc_of_shr_record mr)) er loc_Exact) as [mr2 er2].
  destruct (shr_m mr2); cbn [SFopp]; try reflexivity. destruct (er2 <=? emax - prec); reflexivity.
Qed.
Lemma nZ_opp prec emax : forall z, z <> 0 -> @nZ _ (num_sf prec emax) (- z) = @nopp _ (num_sf prec emax) (@nZ _ (num_sf prec emax) z).
Proof.
  intros z Hz. cbn [nZ nopp num_sf]. destruct z as [|p|p]; [contradiction| |]; cbn [Z.opp binary_normalize]; unfold binary_round;
    destruct (shl_align p 0 (fexp prec emax (Z.pos (digits2_pos p) + 0))) as [mz ez].
  - exact (round_aux_opp prec emax false (Z.pos mz) ez loc_Exact).
  - exact (round_aux_opp prec emax true (Z.pos mz) ez loc_Exact).
Qed.
Lemma integer_sub prec emax : format prec emax -> forall a b, Z.abs a <= 2 ^ prec -> Z.abs b <= 2 ^ prec -> Z.abs (a - b) <= 2 ^ prec ->
  @nsub _ (num_sf prec emax) (@nZ _ (num_sf prec emax) a) (@nZ _ (num_sf prec emax) b) = @nZ _ (num_sf prec emax) (a - b).
Proof.
  intros F a b Ha Hb Hab. destruct (Z.eq_dec b 0) as [->|Hb0].
  - rewrite Z.sub_0_r. cbn [nsub nZ num_sf]. change (binary_normalize prec emax 0 0 false) with (S754_zero false).
    destruct (binary_normalize prec emax a 0 false) as [s|s| |s m e] eqn:E; cbn [SFsub]; try reflexivity.
    destruct s; [|reflexivity]. reflexivity.
  - rewrite sub_opp, <- (nZ_opp prec emax b Hb0). rewrite <- Z.add_opp_r. apply (add_int prec emax F); lia.
Qed.
