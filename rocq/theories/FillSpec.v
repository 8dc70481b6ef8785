(** Vocabulary of the theorems about initializers, without the functions that compute scales. *)
From Coq Require Import Reals Lra.
From Verif Require Export NumR FillModel.
Local Open Scope R_scope.

Inductive scheme := Lecun | He | Glorot.
Inductive law := Normal | Uniform.
Section Spec.
  Context {G : Type} (gauss unit_draw : G -> G * R).
  Definition initializer (s : scheme) (l : law) : list nat -> G -> G * result (list nat * list R) :=
    match l, s with
    | Normal, Lecun => lecun_normal_init gauss
    | Normal, He => he_normal_init gauss
    | Normal, Glorot => glorot_normal_init gauss
    | Uniform, Lecun => lecun_uniform_init unit_draw
    | Uniform, He => he_uniform_init unit_draw
    | Uniform, Glorot => glorot_uniform_init unit_draw
    end.
End Spec.
(** The variance each scheme is known for, in the number of inputs and of outputs *)
Definition variance (s : scheme) (n_in n_out : R) : R := match s with Lecun => 1 / n_in | He => 2 / n_in | Glorot => 2 / (n_in + n_out) end.

(** Expectations over the state of the generator: linear *)
Record expectation {G} (E : (G -> R) -> R) : Prop := mkExp {
  e_ext : forall f g, (forall x, f x = g x) -> E f = E g;
  e_plus : forall f g, E (fun x => f x + g x) = E f + E g;
  e_scale : forall c f, E (fun x => c * f x) = c * E f
}.
(** The first n draws are uncorrelated, with this mean and variance *)
Definition uncorrelated {G} (E : (G -> R) -> R) (step : G -> G * R) (n : nat) (mean var : R) : Prop :=
  forall i j, (i < n)%nat -> (j < n)%nat -> E (fun g => (nth i (snd (draws step n g)) 0 - mean) * (nth j (snd (draws step n g)) 0 - mean)) = if Nat.eqb i j then var else 0.
(** The values of an array from position k against a vector *)
Definition against (k : nat) (x w : list R) : R := fold_right Rplus 0 (map (fun i => nth i x 0 * nth (k + i) w 0) (seq 0 (length x))).
Definition squares (x : list R) : R := fold_right Rplus 0 (map (fun v => v * v) x).
Definition values {G} (r : G * result (list nat * list R)) : list R := match snd r with Ok (_, l) => l | _ => [] end.
