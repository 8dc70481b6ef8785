(** C64: initial values of parameters. *)
From Coq Require Import Reals Lra Lia.
From Verif Require Import FillModel FillSpec FillProofs.
Local Open Scope R_scope.

(** The six schemes give an array of the shape asked for; shapes with fewer than two dimensions, and a count of inputs (inputs and
    outputs) of zero, raise and draw nothing. *)
Theorem C64_shapes : forall G (gauss unit_draw : G -> G * R) s l shape g,
  match shape with
  | a :: b :: _ =>
      if Nat.eqb (match s with Glorot => b + a | _ => b end) 0 then initializer gauss unit_draw s l shape g = (g, Err ZeroDivisionError)
      else exists g' data, initializer gauss unit_draw s l shape g = (g', Ok (shape, data)) /\ length data = size shape
  | _ => initializer gauss unit_draw s l shape g = (g, Err IndexError)
  end.
Proof. exact @init_shapes. Qed.
Print Assumptions C64_shapes.

(** Values of the uniform schemes are bounded: their square is at most three times the variance of the scheme. *)
Theorem C64_bounds : forall G (gauss unit_draw : G -> G * R) s shape g g' data, (forall g, 0 <= snd (unit_draw g) < 1) -> initializer gauss unit_draw s Uniform shape g = (g', Ok (shape, data)) ->
  match shape with a :: b :: _ => Forall (fun v => v * v <= 3 * variance s (INR b) (INR a)) data | _ => False end.
Proof. exact @uniform_bounds. Qed.
Print Assumptions C64_bounds.

(** If draws are uncorrelated, with the moments of their distribution, then the product of a window of the array (a row of the
    weights) with a vector has as expected square the variance of the scheme times the sum of squares of the vector. The scheme
    takes the second dimension as the number of inputs and the first as that of outputs. *)
Theorem C64_variance : forall G (gauss unit_draw : G -> G * R) (E : (G -> R) -> R) s l a b rest k x,
  expectation E -> (match s with Glorot => b + a | _ => b end <> 0)%nat -> (k + length x <= size (a :: b :: rest))%nat ->
  match l with Normal => uncorrelated E gauss (size (a :: b :: rest)) 0 1 | Uniform => uncorrelated E unit_draw (size (a :: b :: rest)) (1 / 2) (1 / 12) end ->
  E (fun g => against k x (values (initializer gauss unit_draw s l (a :: b :: rest) g)) * against k x (values (initializer gauss unit_draw s l (a :: b :: rest) g))) = variance s (INR b) (INR a) * squares x.
Proof. exact @init_variance. Qed.
Print Assumptions C64_variance.

Theorem C64_uniform_init : forall G (unit_draw : G -> G * R) lo hi shape g, (forall g, 0 <= snd (unit_draw g) < 1) -> lo < hi ->
  exists g' data, uniform_init unit_draw lo hi shape g = (g', Ok (shape, data)) /\ length data = size shape /\ Forall (fun v => lo <= v < hi) data.
Proof. exact @uniform_init_ok. Qed.
Print Assumptions C64_uniform_init.
Theorem C64_zero_init : forall G shape (g : G), zero_init (T := R) shape g = (g, Ok (shape, repeat 0 (size shape))).
Proof. reflexivity. Qed.
Print Assumptions C64_zero_init.

(** Finding: [normal_init] takes its mean for the standard deviation: the default gives zeros whatever is drawn, a negative mean
    raises, and the expected value is zero whatever mean is asked for. *)
Theorem C64_normal_init_refuted : forall G (gauss : G -> G * R),
  (forall shape g, exists g', normal_init gauss 0 shape g = (g', Ok (shape, repeat 0 (size shape)))) /\
  (forall mean shape g, mean < 0 -> normal_init gauss mean shape g = (g, Err ValueError)) /\
  (forall (E : (G -> R) -> R) mean shape i, expectation E -> 0 <= mean -> (i < size shape)%nat -> E (fun g => nth i (snd (draws gauss (size shape) g)) 0) = 0 ->
    E (fun g => nth i (values (normal_init gauss mean shape g)) 0) = 0).
Proof. exact (fun G gauss => conj (normal_init_zero gauss) (conj (normal_init_neg gauss) (normal_init_mean gauss))). Qed.
Print Assumptions C64_normal_init_refuted.

(** ** A generator: draws are taken from a list; expectations are over two fair coins *)
Definition coin (g : list R) : list R * R := match g with z :: g => (g, z) | [] => ([], 0) end.
Definition fair (v w : R) (f : list R -> R) : R := (f [v; v] + f [v; w] + f [w; v] + f [w; w]) / 4.
Example C64_variance_ex : expectation (fair 1 (-1)) /\ uncorrelated (fair 1 (-1)) coin (size [1; 2]%nat) 0 1 /\
  fair 1 (-1) (fun g => against 0 [3; 5] (values (initializer coin coin Lecun Normal [1; 2]%nat g)) * against 0 [3; 5] (values (initializer coin coin Lecun Normal [1; 2]%nat g))) = 17.
Proof.
  assert (HE : expectation (fair 1 (-1))).
  { split; unfold fair.
    - intros f g Hfg. rewrite !Hfg. reflexivity.
    - intros f g. field.
    - intros c f. field. }
  assert (Hun : uncorrelated (fair 1 (-1)) coin (size [1; 2]%nat) 0 1).
  { intros i j Hi Hj. cbn in Hi, Hj. destruct i as [|[|i]]; [| |lia]; (destruct j as [|[|j]]; [| |lia]); unfold fair; cbn; field. }
  split; [exact HE|]. split; [exact Hun|].
  rewrite (C64_variance (list R) coin coin (fair 1 (-1)) Lecun Normal 1 2 [] 0 [3; 5] HE); [unfold squares; cbn; lra | lia | cbn; lia | exact Hun].
Qed.
Example C64_bounds_ex : forall g g' data, initializer coin coin Lecun Uniform [2; 3]%nat g = (g', Ok ([2; 3]%nat, data)) -> length data = 6%nat.
Proof. intros g g' data E. pose proof (C64_shapes _ coin coin Lecun Uniform [2; 3]%nat g) as Hs. cbn [Nat.eqb] in Hs. destruct Hs as [g1 [d [E1 Hl]]]. rewrite E in E1. injection E1 as _ ->. exact Hl. Qed.

(** Finding: Maxout's weights have shape (outputs, pieces, inputs), so the schemes count its pieces as inputs: the expected square
    is not that of the scheme. With one piece and four inputs, LeCun's scheme, which should keep the mean square, multiplies it by 4. *)
Theorem C64_maxout_refuted : forall G (gauss unit_draw : G -> G * R) (E : (G -> R) -> R), expectation E -> uncorrelated E gauss (size [1; 1; 4]%nat) 0 1 ->
  E (fun g => against 0 [1; 1; 1; 1] (values (initializer gauss unit_draw Lecun Normal [1; 1; 4]%nat g)) * against 0 [1; 1; 1; 1] (values (initializer gauss unit_draw Lecun Normal [1; 1; 4]%nat g))) = 4 /\
  variance Lecun 4 1 * squares [1; 1; 1; 1] = 1.
Proof.
  intros G gauss unit_draw E HE Hun. split.
  - rewrite (C64_variance G gauss unit_draw E Lecun Normal 1 1 [4%nat] 0 [1; 1; 1; 1] HE); [unfold squares; cbn; lra | lia | cbn; lia | exact Hun].
  - unfold squares. cbn. lra.
Qed.
Print Assumptions C64_maxout_refuted.
