(** Proofs about the construction of layers over the reals, and counterexamples. *)
From Coq Require Import Reals String Lia Lra.
From Verif Require Import BuildSpec WInitSpec NumR ActSpec InitChainProofs BuildProofs BuildModel.
Set Default Goal Selector "!".
Local Open Scope string_scope.

Lemma dense_leaf {T} `{Num T} i name f W extra attrs (o : options T) n : f <> FLayerNorm -> f <> FDropout -> leaf_of (dense_expr i name f W extra attrs o) n -> b_func n = f -> b_attrs n = attrs.
Proof.
  intros N1 N2 L Fn. unfold dense_expr in L. destruct (o_normalize o), (o_dropout o) as [r|];
    repeat match goal with
           | L : leaf_of (EComb _ _) _ |- _ => inversion L; subst; clear L
           | L : leaf_of (ELeaf _) _ |- _ => inversion L; subst; clear L
           | I : In _ (_ :: _) |- _ => destruct I as [<-|I]
           | I : In _ [] |- _ => destruct I
           end; try reflexivity; exfalso; cbn in *; congruence.
Qed.
Lemma clip_R lo hi x : (lo <= hi)%R -> clip (T := R) lo hi x = Rmax lo (Rmin hi x).
Proof.
  intros L. unfold clip, Rmax, Rmin. cbn [nltb num_R]. destruct (Rlt_dec x lo) as [A|A]; destruct (Rle_dec hi x) as [B|B]; try lra.
  - destruct (Rlt_dec hi lo), (Rle_dec lo x); lra.
  - destruct (Rlt_dec hi x), (Rle_dec lo hi); lra.
  - destruct (Rlt_dec hi x), (Rle_dec lo x); lra.
Qed.
Lemma clip_leaf (slope offset lo hi : R) o (s s' : bst R) root e n x : ClippedLinear slope offset lo hi o s = (s', Ok root) -> computes (g_heap s') root e -> leaf_of e n -> b_func n = FClippedLinear ->
  clip_activation n x = Some (clip lo hi (x * slope + offset)%R).
Proof.
  intros E C L Fn. destruct (dense_ok _ _ _ _ _ _ (d_clipped slope offset lo hi) o s) as (s1 & root1 & news & E1 & _ & C1 & _). rewrite E in E1. injection E1 as <- <-.
  rewrite (computes_unique _ _ _ _ C C1) in L. apply dense_leaf in L; [|discriminate|discriminate|exact Fn]. unfold clip_activation. rewrite L. reflexivity.
Qed.
Lemma hard_sigmoid_leaf o (s s' : bst R) root e n x : HardSigmoid o s = (s', Ok root) -> computes (g_heap s') root e -> leaf_of e n -> b_func n = FClippedLinear ->
  clip_activation n x = Some (Rmax 0 (Rmin 1 (x / 5 + 1 / 2))).
Proof.
  intros E C L Fn. rewrite (clip_leaf _ _ _ _ _ _ _ _ _ _ x E C L Fn). cbn. rewrite clip_R by lra. do 3 f_equal. lra.
Qed.
Lemma hard_tanh_leaf o (s s' : bst R) root e n x : HardTanh o s = (s', Ok root) -> computes (g_heap s') root e -> leaf_of e n -> b_func n = FClippedLinear ->
  clip_activation n x = Some (Rmax (-1) (Rmin 1 x)).
Proof.
  intros E C L Fn. rewrite (clip_leaf _ _ _ _ _ _ _ _ _ _ x E C L Fn). cbn. rewrite clip_R by lra. do 3 f_equal. lra.
Qed.
Lemma relu_k_leaf k o (s s' : bst R) root e n x : (0 <= k)%R -> ReluK k o s = (s', Ok root) -> computes (g_heap s') root e -> leaf_of e n -> b_func n = FClippedLinear ->
  clip_activation n x = Some (Rmax 0 (Rmin k x)).
Proof.
  intros K E C L Fn. rewrite (clip_leaf _ _ _ _ _ _ _ _ _ _ x E C L Fn). cbn. rewrite clip_R by lra. do 3 f_equal. lra.
Qed.

Lemma width_unset : exists (o : options R) s root s', Relu o (mkSt 0 []) = (s, Ok root) /\ o_nO o = Some 2%Z /\ o_nI o = Some 1%Z /\
  winitialize zero_draw Int_part no_conv no_fwd (WNode KChain root [WLeaf 0; WLeaf 1]) None None (mkIst (map as_inode (g_heap s)) 0) = (s', Ok tt) /\
  dim_at s' 0 "nO" = Some 2%Z /\ dim_at s' root "nI" = Some 1%Z /\ dim_at s' root "nO" = None.
Proof.
  exists (mkOptions (Some 2%Z) (Some 1%Z) None None (Some (1 / 2)%R) false). eexists. eexists. eexists. split; [calc|]. split; [reflexivity|]. split; [reflexivity|].
  split; [calc|]. split; [reflexivity|]. split; reflexivity.
Qed.
