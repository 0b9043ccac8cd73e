(** How programs over group elements end (lemmas for [PropProg]). *)
From Coq Require Import List ZArith Lia.
From Verif Require Import GoBase GroupModel GroupSpec Curve ApiModel TextModel ProgModel ProgSpec PropProgLemmas.
Import ListNotations.

Lemma panic_ends_gen {E} (c : ops E) p : forall q vs l, replies c q vs = l ++ [RPanic] -> replies c (q ++ p) vs = l ++ [RPanic].
Proof.
  induction q as [|i q IH]; intros vs l H; cbn [replies app] in *.
  - destruct l; discriminate H.
  - destruct (exec c i vs) as [vs' o]. destruct l as [|o' l]; cbn [app] in *.
    + injection H as -> _. reflexivity.
    + injection H as -> H. f_equal. destruct o'; try (apply IH; exact H). exact H.
Qed.
Theorem panic_ends q p l : replies go_ops q [] = l ++ [RPanic] -> replies go_ops (q ++ p) [] = l ++ [RPanic].
Proof. apply panic_ends_gen. Qed.
Lemma no_panic_gen {E} (c : ops E) : forall q vs, ~ In RPanic (replies c q vs) -> length (replies c q vs) = length q.
Proof.
  induction q as [|i q IH]; intros vs H; cbn [replies] in *; [reflexivity|].
  destruct (exec c i vs) as [vs' o]. cbn [length In] in *. f_equal.
  destruct o; try (apply IH; intros K; apply H; right; exact K). destruct H. left. reflexivity.
Qed.
Theorem no_panic q : ~ In RPanic (replies go_ops q []) -> length (replies go_ops q []) = length q.
Proof. apply no_panic_gen. Qed.

Lemma misuses i p : In i [IEncode 1; ISatisfies 1; IDbl 1; ITo 1 P2; IMul 1 (repeat 0%Z 32); IEncode 2; IEquals 0 2; IPrecompute PSingle 1; IIsPrecomputed 5] ->
  replies go_ops ([IConst KBase; ITo 0 CACHED; i] ++ p) [] = [RElem; RElem; RPanic].
Proof.
  intros M. apply (panic_ends [IConst KBase; ITo 0 CACHED; i] p [RElem; RElem]).
  rewrite (programs _ points_exist).
  2: { repeat constructor. cbn [In] in M. repeat destruct M as [<-|M]; try exact I; try (repeat constructor; lia); try contradiction. }
  cbn [In] in M. repeat destruct M as [<-|M]; try contradiction; reflexivity.
Qed.
