From Verif Require Import BaseFacts MatSpec.
From Verif Require SeqProofs.
Set Default Goal Selector "!".
Local Open Scope R_scope.

(** Vectors given by their entries. *)
Definition vec {A} (n : nat) (f : nat -> A) : list A := map f (seq 0 n).
Lemma vec_length {A} n (f : nat -> A) : length (vec n f) = n.
Proof. unfold vec. now rewrite map_length, seq_length. Qed.
Lemma vec_ext {A} n (f g : nat -> A) : (forall j, (j < n)%nat -> f j = g j) -> vec n f = vec n g.
Proof. intros E. apply map_ext_in. intros j Hj. apply in_seq in Hj. apply E. lia. Qed.
Lemma vec_of {A} (d : A) l : l = vec (length l) (fun j => nth j l d).
Proof.
  unfold vec. induction l as [|x l IH]; [reflexivity|]. cbn [length seq map nth]. f_equal. rewrite <- seq_shift, map_map. exact IH.
Qed.
Lemma vec_of_len {A} (d : A) n l : length l = n -> l = vec n (fun j => nth j l d).
Proof. intros <-. apply vec_of. Qed.
Lemma map_vec {A B} (h : A -> B) n f : map h (vec n f) = vec n (fun j => h (f j)).
Proof. unfold vec. now rewrite map_map. Qed.
Lemma combine_vec {A B} n : forall (f : nat -> A) (g : nat -> B), combine (vec n f) (vec n g) = vec n (fun j => (f j, g j)).
Proof.
  unfold vec. generalize 0%nat. induction n as [|n IH]; intros s f g; [reflexivity|]. cbn [seq map combine]. now rewrite IH.
Qed.
Lemma vmap2_vec {T} (h : T -> T -> T) n f g : vmap2 h (vec n f) (vec n g) = vec n (fun j => h (f j) (g j)).
Proof. unfold vmap2. now rewrite combine_vec, map_vec. Qed.
Lemma repeat_vec {A} (x : A) n : repeat x n = vec n (fun _ => x).
Proof. unfold vec. generalize 0%nat. induction n as [|n IH]; intros s; [reflexivity|]. cbn. now rewrite (IH (S s)). Qed.
Lemma nth_vec {A} (d : A) n f j : (j < n)%nat -> nth j (vec n f) d = f j.
Proof. intros Hj. unfold vec. rewrite (nth_indep _ d (f 0%nat)) by (rewrite map_length, seq_length; exact Hj). now rewrite map_nth, seq_nth. Qed.

(** Sums. *)
Lemma msum_cons x l : msum (x :: l) = x + msum l. Proof. reflexivity. Qed.
Lemma msum_app a b : msum (a ++ b) = msum a + msum b.
Proof. induction a as [|x a IH]; cbn [app]; [change (msum []) with 0; lra | rewrite !msum_cons, IH; lra]. Qed.
Lemma msum_plus {A} (f g : A -> R) l : msum (map (fun x => f x + g x) l) = msum (map f l) + msum (map g l).
Proof. induction l as [|x l IH]; cbn [map]; rewrite ?msum_cons; [change (msum []) with 0; lra | rewrite IH; lra]. Qed.
Lemma msum_scale {A} (c : R) (f : A -> R) l : msum (map (fun x => c * f x) l) = c * msum (map f l).
Proof. induction l as [|x l IH]; cbn [map]; rewrite ?msum_cons; [change (msum []) with 0; lra | rewrite IH; lra]. Qed.
Lemma msum_zero {A} (l : list A) : msum (map (fun _ => 0) l) = 0.
Proof. induction l as [|x l IH]; cbn [map]; rewrite ?msum_cons; [reflexivity | rewrite IH; lra]. Qed.
Lemma msum_ext_in {A} (f g : A -> R) l : (forall x, In x l -> f x = g x) -> msum (map f l) = msum (map g l).
Proof. intros E. f_equal. now apply map_ext_in. Qed.
Lemma msum_swap {A B} (f : A -> B -> R) la lb :
  msum (map (fun a => msum (map (f a) lb)) la) = msum (map (fun b => msum (map (fun a => f a b) la)) lb).
Proof.
  induction la as [|a la IH]; cbn [map]; rewrite ?msum_cons.
  - symmetry. apply msum_zero.
  - rewrite IH, <- msum_plus. apply msum_ext_in. intros b _. reflexivity.
Qed.
Lemma msum_concat (ls : list (list R)) : msum (concat ls) = msum (map msum ls).
Proof. induction ls as [|l ls IH]; cbn [concat map]; [reflexivity|]. rewrite msum_app, msum_cons, IH. reflexivity. Qed.
Lemma nsum_msum l : nsum l = msum l.
Proof.
  unfold nsum. cbn. assert (G : forall a, fold_left Rplus l a = a + msum l).
  { induction l as [|x l IH]; intros a; cbn [fold_left]; [change (msum []) with 0; lra|]. rewrite IH, msum_cons. lra. }
  rewrite G. lra.
Qed.

(** Inner products. *)
Lemma dot_vec n f g : dot (vec n f) (vec n g) = msum (vec n (fun j => f j * g j)).
Proof. unfold dot. now rewrite combine_vec, map_vec. Qed.
Lemma dot_comm a : forall b, dot a b = dot b a.
Proof.
  unfold dot. induction a as [|x a IH]; intros [|y b]; try reflexivity. cbn [combine map fst snd]. rewrite !msum_cons, IH. lra.
Qed.
Lemma dot_cons x a y b : dot (x :: a) (y :: b) = x * y + dot a b. Proof. reflexivity. Qed.
Lemma dot_app a : forall b c d, length a = length c -> dot (a ++ b) (c ++ d) = dot a c + dot b d.
Proof.
  induction a as [|x a IH]; intros b [|y c] d E; try discriminate; cbn [app].
  - cbn. unfold dot. cbn. lra.
  - rewrite !dot_cons, IH by (cbn in E; lia). lra.
Qed.
Lemma dot_scale_l s a : forall b, dot (map (fun x => s * x) a) b = s * dot a b.
Proof.
  induction a as [|x a IH]; intros [|y b]; cbn [map]; try (unfold dot; cbn; lra). rewrite !dot_cons, IH. lra.
Qed.
Lemma dot_zeros_l n b : dot (repeat 0 n) b = 0.
Proof.
  revert b. induction n as [|n IH]; intros [|y b]; cbn [repeat]; try reflexivity. rewrite dot_cons, IH. lra.
Qed.
Lemma dot_plus_l a : forall b c, length a = length b -> dot (map (fun p => fst p + snd p) (combine a b)) c = dot a c + dot b c.
Proof.
  induction a as [|x a IH]; intros [|y b] [|z c] E; try discriminate; cbn [combine map fst snd]; try (unfold dot; cbn; lra).
  rewrite !dot_cons, IH by (cbn in E; lia). lra.
Qed.

Lemma mdot_cons a A b B : mdot (a :: A) (b :: B) = dot a b + mdot A B. Proof. reflexivity. Qed.
Lemma mdot_nil_l B : mdot [] B = 0. Proof. reflexivity. Qed.
Lemma mdot_comm A : forall B, mdot A B = mdot B A.
Proof. induction A as [|a A IH]; intros [|b B]; try reflexivity. now rewrite !mdot_cons, IH, dot_comm. Qed.
Lemma mdot_app A : forall B C D, length A = length C -> mdot (A ++ B) (C ++ D) = mdot A C + mdot B D.
Proof.
  induction A as [|x A IH]; intros B [|y C] D E; try discriminate; cbn [app].
  - rewrite mdot_nil_l. lra.
  - rewrite !mdot_cons, IH by (cbn in E; lia). lra.
Qed.
Lemma mdot_concat As : forall Bs, map (@length _) As = map (@length _) Bs ->
  mdot (concat As) (concat Bs) = msum (map (fun p => mdot (fst p) (snd p)) (combine As Bs)).
Proof.
  induction As as [|A As IH]; intros [|B Bs] E; try discriminate; [reflexivity|]. cbn in E. injection E as E1 E2.
  cbn [concat combine map fst snd]. rewrite mdot_app by exact E1. now rewrite msum_cons, IH.
Qed.

(** Column sums. *)
Lemma colsum_vec O rows : colsum O rows = vec O (fun j => msum (col 0 j rows)). Proof. reflexivity. Qed.
Lemma colsum_length O rows : length (colsum O rows) = O. Proof. apply vec_length. Qed.
Lemma col_cons {A} (d : A) j r rows : col d j (r :: rows) = nth j r d :: col d j rows. Proof. reflexivity. Qed.
Lemma dot_colsum O d rows : length d = O -> Forall (fun r => length r = O) rows ->
  dot d (colsum O rows) = msum (map (dot d) rows).
Proof.
  intros Hd Hr. rewrite (vec_of_len 0 O d Hd) at 1. rewrite colsum_vec, dot_vec. unfold vec.
  rewrite (msum_ext_in _ (fun j => msum (map (fun r => nth j d 0 * nth j r 0) rows)));
    [|intros j _; unfold col; rewrite msum_scale; reflexivity].
  rewrite msum_swap. apply msum_ext_in. intros r Hin. rewrite Forall_forall in Hr.
  change (msum (vec O (fun j => nth j d 0 * nth j r 0)) = dot d r). rewrite <- (dot_vec O (fun j => nth j d 0) (fun j => nth j r 0)).
  now rewrite <- (vec_of_len 0 O d Hd), <- (vec_of_len 0 O r (Hr r Hin)).
Qed.
Lemma mdot_repeat d n : forall rows, length rows = n -> mdot (repeat d n) rows = msum (map (dot d) rows).
Proof.
  induction n as [|n IH]; intros [|r rows] E; try discriminate; [reflexivity|]. cbn [repeat map]. rewrite mdot_cons, msum_cons, IH by (cbn in E; lia). reflexivity.
Qed.

(** Pieces of matrices. *)
Lemma chop_width {A} (P : A -> Prop) lens : forall rows, Forall P rows -> Forall (Forall P) (chop lens rows).
Proof.
  induction lens as [|n lens IH]; intros rows H; [constructor|]. cbn [chop]. rewrite <- (firstn_skipn n rows) in H. apply Forall_app in H as [H1 H2].
  constructor; [exact H1 | now apply IH].
Qed.
