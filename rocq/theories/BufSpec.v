(** Vocabulary of C65 (with memory). *)
From Coq Require Import List ZArith.
From Verif Require Import GoBase AliasModel BufModel.
(** The slices of a call are slices of the memory (calls make and drop no arrays). *)
Definition good_call (h : heap) (c : bcall) : Prop :=
  match c with
  | BFinal out _ => wf_slice h out
  | BProcess i _ _ out _ => wf_slice h i /\ wf_slice h out
  | _ => True
  end.
