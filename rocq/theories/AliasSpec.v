(** Vocabulary of the properties C41 (shared memory). *)
From Coq Require Import List ZArith.
From Verif Require Import GoBase FieldSpec ScalarModel GroupModel ApiModel AliasModel.
Import ListNotations.
Open Scope nat_scope.

(** [n] bytes of memory right behind a slice. *)
Definition behind (h : heap) (s : gslice) (n : nat) : bytes :=
  firstn n (skipn (gs_off s + gs_len s) (array h (gs_arr s))).

(** Appending [t] to [s] makes a new array, or writes what is there already. *)
Definition harmless (h : heap) (s t : gslice) : Prop :=
  gs_cap s < gs_len s + gs_len t \/ behind h s (gs_len t) = rd h t.

(** The old arrays are what they were; there may be new ones. *)
Definition extends (h h' : heap) : Prop := exists new, h' = h ++ new.

(** The discipline under which signatures never change. *)
Definition safe_op (w : world) (o : op) : Prop :=
  match o with
  | OAppend i j _ | ONewSignature i j =>
      forall s t, nth_error (w_slices w) i = Some s -> nth_error (w_slices w) j = Some t -> harmless (w_heap w) s t
  | OCanonical g =>
      forall v, nth_error (w_sigs w) g = Some v ->
        gs_cap (hR v) < 64 \/
        (wf_bytes (rd (w_heap w) (hS v)) /\ (le_val (rd (w_heap w) (hS v)) < q25519)%Z)
  | _ => True
  end.

(** Every call of a history, in the state it was made in. *)
Fixpoint safe_history (H512 : list bytes -> bytes) (w : world) (os : list op) : Prop :=
  match os with
  | [] => True
  | o :: r => safe_op w o /\ (forall w', step H512 w o = Some w' -> safe_history H512 w' r)
  end.

(** Nothing changed for someone holding the slices and signatures of [w]. *)
Definition same_view (w w' : world) : Prop :=
  (forall i s, nth_error (w_slices w) i = Some s ->
     nth_error (w_slices w') i = Some s /\ rd (w_heap w') s = rd (w_heap w) s) /\
  (forall i g, nth_error (w_sigs w) i = Some g ->
     nth_error (w_sigs w') i = Some g /\ sig_val (w_heap w') g = sig_val (w_heap w) g).
