(** Heights *)
From Coq Require Import String.
From Verif Require Export SpecHeight LemBase.
Local Open Scope string_scope.
Local Open Scope list_scope.

Lemma height_in e es : In e es -> height e <= list_max (map height es).
Proof.
  induction es as [|x es IH]; intros H; [contradiction|]. change (list_max (map height (x :: es))) with (Nat.max (height x) (list_max (map height es))).
  destruct H as [<-|H]; [lia|]. specialize (IH H). lia.
Qed.
Lemma node_height_in n ns : In n ns -> node_height n <= list_max (map node_height ns).
Proof.
  induction ns as [|x ns IH]; intros H; [contradiction|]. change (list_max (map node_height (x :: ns))) with (Nat.max (node_height x) (list_max (map node_height ns))).
  destruct H as [<-|H]; [lia|]. specialize (IH H). lia.
Qed.
