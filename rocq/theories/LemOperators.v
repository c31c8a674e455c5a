(** Sweeps over the signs of SpecOperators. *)
From Coq Require Import String.
From Verif Require Export LemGlyphs SpecOperators.
Local Open Scope string_scope.
Local Open Scope list_scope.

Lemma operators_sweep : forallb (fun e : N * string => sym mo_tables (fst e) (lit (snd e))) operator_names = true.
Proof. vm_compute. reflexivity. Qed.
Lemma identifiers_sweep : forallb (fun e : N * string => sym mi_tables (fst e) (lit (snd e))) identifier_names = true.
Proof. vm_compute. reflexivity. Qed.
(** The first name is not what comes out; the second is. *)
Definition other_name (tables : list (dict str)) (e : N * string * string) : bool :=
  sym tables (fst (fst e)) (lit (snd e)) && negb (str_eqb (lit (snd e)) (lit (snd (fst e)))).
Lemma wrong_sweep : forallb (other_name mo_tables) wrong_operators = true.
Proof. vm_compute. reflexivity. Qed.
Lemma near_sweep : forallb (other_name mo_tables) near_operators = true.
Proof. vm_compute. reflexivity. Qed.
Lemma wrong_identifiers_sweep : forallb (other_name mi_tables) wrong_identifiers = true.
Proof. vm_compute. reflexivity. Qed.
Lemma copied_operators_sweep : forallb (fun e : N * string => sym mo_tables (fst e) [fst e]) copied_operators = true.
Proof. vm_compute. reflexivity. Qed.
Lemma copied_identifiers_sweep : forallb (fun e : N * string => sym mi_tables (fst e) [fst e]) copied_identifiers = true.
Proof. vm_compute. reflexivity. Qed.

Lemma mo_other c s w v ch a : other_name mo_tables (c, s, w) = true -> shows v c ->
  latex_of (T (lit "mo") v ch a) = Ok (lit w) /\ latex_of (T (lit "mo") v ch a) <> Ok (lit s).
Proof.
  intros H S. apply andb_prop in H as [H K]. cbn [fst snd] in H, K.
  assert (E : latex_of (T (lit "mo") v ch a) = Ok (lit w)) by (eapply mo_sym; eauto).
  split; [exact E|]. rewrite E. intros X. injection X as X. rewrite X, str_eqb_refl in K. discriminate.
Qed.
Lemma mi_other c s w v ch a : other_name mi_tables (c, s, w) = true -> shows v c -> attr a "mathvariant" = [] ->
  latex_of (T (lit "mi") v ch a) = Ok (lit w) /\ latex_of (T (lit "mi") v ch a) <> Ok (lit s).
Proof.
  intros H S A. apply andb_prop in H as [H K]. cbn [fst snd] in H, K.
  assert (E : latex_of (T (lit "mi") v ch a) = Ok (lit w)) by (eapply mi_sym; eauto).
  split; [exact E|]. rewrite E. intros X. injection X as X. rewrite X, str_eqb_refl in K. discriminate.
Qed.
