(** Vocabulary of the theorems about embeddings. *)
From Verif Require Export KernelSpec HashSpec EmbedModel.

(** No mask, or one factor per output dimension. *)
Definition mask_ok (O : nat) (mask : option (list R)) : Prop := match mask with None => True | Some m => length m = O end.
