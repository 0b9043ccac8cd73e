(** Property C76: every program over group elements behaves as the same program over points of the curve.  Statements; the
    proofs are in [PropProgLemmas].  [go_ops] are the calls of the library ([ProgModel]), [point_ops] the same calls on
    points ([ProgSpec]); [replies c p []] is everything the program p sees, from its first call to its last or to a panic. *)
From Coq Require Import List ZArith.
From Verif Require Import GoBase GroupModel GroupSpec Curve ApiModel TextModel ProgModel ProgSpec PropProgLemmas ProgEnds.
Import ListNotations.

(** The refinement. *)
Theorem C76_programs : forall pt, finds_points pt -> forall p, Forall wf_instr p ->
  replies go_ops p [] = replies (point_ops pt) p [].
Proof. exact programs. Qed.
(** There is such a [pt]: C76_programs speaks about something. *)
Theorem C76_points_exist : exists pt, finds_points pt.
Proof. exists point_of. exact points_exist. Qed.
(** Of the strings that a program decodes it sees only which points they denote. *)
Theorem C76_exchange : forall p q, exchanged p q -> Forall wf_instr p -> replies go_ops p [] = replies go_ops q [].
Proof. exact exchange. Qed.

(** A panic ends a program; a program without one gets an answer to every call. *)
Theorem C76_panic_ends : forall q p l, replies go_ops q [] = l ++ [RPanic] -> replies go_ops (q ++ p) [] = l ++ [RPanic].
Proof. exact panic_ends. Qed.
Theorem C76_no_panic : forall q, ~ In RPanic (replies go_ops q []) -> length (replies go_ops q []) = length q.
Proof. exact no_panic. Qed.
(** Calls that panic: on a CACHED element (variable 1), and on variables that no call has set. *)
Theorem C76_misuse : forall i p,
  In i [IEncode 1; ISatisfies 1; IDbl 1; ITo 1 P2; IMul 1 (repeat 0%Z 32); IEncode 2; IEquals 0 2; IPrecompute PSingle 1; IIsPrecomputed 5] ->
  replies go_ops ([IConst KBase; ITo 0 CACHED; i] ++ p) [] = [RElem; RElem; RPanic].
Proof. exact misuses. Qed.

(** A program: 2 B by an addition, by a doubling, by a multiplication; the sum with its negative; a wrong argument; a copy
    (which claims to have tables), multiplied by 0 without and by 2 with a table, and at last a multiplication that panics. *)
Example C76_programs_ex : Forall wf_instr ex_prog /\ replies go_ops ex_prog [] =
  [RElem; RElem; RElem; RElem; RElem; RElem; RElem; RBool true; RBool true; RElem; RElem; RElem;
   RElem; RBool true; RBool true; RErr ErrIllegalArgument; RElem; RBool true; RBool false;
   RElem; RDone; RElem; RPanic].
Proof. split; [exact ex_prog_wf|exact ex_prog_replies]. Qed.
(** two strings of one point: y = 1 and y = p + 1 *)
Example C76_exchange_ex : exists a b P, a <> b /\ string_of a P /\ string_of b P.
Proof. exact two_strings. Qed.
Print Assumptions C76_programs.
Print Assumptions C76_points_exist.
Print Assumptions C76_exchange.
Print Assumptions C76_panic_ends.
Print Assumptions C76_no_panic.
Print Assumptions C76_misuse.
