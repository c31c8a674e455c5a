(** C56: operators, relations, arrows and other signs. *)
From Coq Require Import String.
From Verif Require Import SpecExamples SpecOperators LemOperators.
Local Open Scope string_scope.
Local Open Scope list_scope.

Theorem C56_operators : forall c s v ch a, In (c, s) operator_names -> shows v c ->
  latex_of (T (lit "mo") v ch a) = Ok (lit s).
Proof.
  intros c s v ch a G S. pose proof (proj1 (forallb_forall _ _) operators_sweep _ G) as H. cbv beta in H. eapply mo_sym; eauto.
Qed.
Print Assumptions C56_operators.
Theorem C56_identifiers : forall c s v ch a, In (c, s) identifier_names -> shows v c -> attr a "mathvariant" = [] ->
  latex_of (T (lit "mi") v ch a) = Ok (lit s).
Proof.
  intros c s v ch a G S A. pose proof (proj1 (forallb_forall _ _) identifiers_sweep _ G) as H. cbv beta in H. eapply mi_sym; eauto.
Qed.
Print Assumptions C56_identifiers.
(** Some signs come out as another sign, or as something that is no command at all. *)
Theorem C56_wrong_refuted : forall c right wrong v ch a, shows v c ->
  (In (c, right, wrong) wrong_operators ->
    latex_of (T (lit "mo") v ch a) = Ok (lit wrong) /\ latex_of (T (lit "mo") v ch a) <> Ok (lit right))
  /\ (In (c, right, wrong) wrong_identifiers -> attr a "mathvariant" = [] ->
    latex_of (T (lit "mi") v ch a) = Ok (lit wrong) /\ latex_of (T (lit "mi") v ch a) <> Ok (lit right)).
Proof.
  intros c s w v ch a S. split.
  - intros G. eapply mo_other; [exact (proj1 (forallb_forall _ _) wrong_sweep _ G)|exact S].
  - intros G A. eapply mi_other; [exact (proj1 (forallb_forall _ _) wrong_identifiers_sweep _ G)|exact S|exact A].
Qed.
Print Assumptions C56_wrong_refuted.
(** Others are written in another way than by their usual name. *)
Theorem C56_near : forall c usual given v ch a, In (c, usual, given) near_operators -> shows v c ->
  latex_of (T (lit "mo") v ch a) = Ok (lit given).
Proof.
  intros c s w v ch a G S. eapply mo_other; [exact (proj1 (forallb_forall _ _) near_sweep _ G)|exact S].
Qed.
Print Assumptions C56_near.
(** Others are copied, though they have a usual name. *)
Theorem C56_copied : forall c name v ch a, shows v c ->
  (In (c, name) copied_operators -> latex_of (T (lit "mo") v ch a) = Ok [c])
  /\ (In (c, name) copied_identifiers -> attr a "mathvariant" = [] -> latex_of (T (lit "mi") v ch a) = Ok [c]).
Proof.
  intros c s v ch a S. split.
  - intros G. eapply mo_sym; [exact (proj1 (forallb_forall _ _) copied_operators_sweep _ G)|exact S].
  - intros G A. eapply mi_sym; [exact (proj1 (forallb_forall _ _) copied_identifiers_sweep _ G)|exact S|exact A].
Qed.
Print Assumptions C56_copied.
(** So the conversion forgets meaning: "does not precede" and "precedes or equals" give the same LaTeX. *)
Theorem C56_meaning_refuted : exists c d, c <> d /\ (c = 8832 /\ d = 8828)%N
  /\ latex_of (T (lit "mo") [c] [] []) = latex_of (T (lit "mo") [d] [] []).
Proof. exists 8832%N, 8828%N. split; [discriminate|]. split; [split; reflexivity|]. vm_compute. reflexivity. Qed.
Print Assumptions C56_meaning_refuted.
Example C56_example : In (8804%N, "\leq") operator_names /\ In (8594%N, "\rightarrow") operator_names /\ In (8734%N, "\infty") identifier_names
  /\ latex_of (T (lit "mo") [32%N; 8804%N; 10%N] [] []) = Ok (lit "\leq").
Proof. vm_compute. repeat split; auto 200. Qed.
Example C56_other_examples : In (8764%N, "\sim", "sim") wrong_operators /\ In (8728%N, "\circ", "@") wrong_identifiers
  /\ In (8743%N, "\wedge", "\land") near_operators /\ In (8467%N, "\ell") copied_identifiers
  /\ latex_of (T (lit "mo") [8764%N] [] []) = Ok (lit "sim") /\ latex_of (T (lit "mi") [8728%N] [] []) = Ok (lit "@") /\ latex_of (T (lit "mi") [8467%N] [] []) = Ok [8467%N].
Proof. vm_compute. repeat split; auto 100. Qed.
