(** C76: characters that are escaped twice. *)
From Coq Require Import String.
From Verif Require Import SpecExamples SpecEscaped LemEscaped.
Local Open Scope string_scope.
Local Open Scope list_scope.

(** An operator whose text is the reference to a listed character gives the same as the character ... *)
Theorem C76_operator : forall c v w ch a ch' a', among escaped_operators c -> squeeze v = escape c -> shows w c ->
  latex_of (T (lit "mo") v ch a) = latex_of (T (lit "mo") w ch' a').
Proof. exact escaped_operator. Qed.
Print Assumptions C76_operator.
(** ... also with a combining character ... *)
Theorem C76_operator_pair : forall cs v w ch a ch' a', In cs escaped_pairs -> squeeze v = flat_map escape cs -> squeeze w = cs ->
  latex_of (T (lit "mo") v ch a) = latex_of (T (lit "mo") w ch' a').
Proof. exact escaped_pair. Qed.
Print Assumptions C76_operator_pair.
(** ... some give the listed LaTeX, and the character something else: the two semidirect products are right when escaped twice only. *)
Theorem C76_operator_refuted : forall cs s v w ch a ch' a', In (cs, s) escaped_otherwise -> squeeze v = flat_map escape cs -> squeeze w = cs ->
  latex_of (T (lit "mo") v ch a) = Ok s /\ latex_of (T (lit "mo") w ch' a') <> Ok s.
Proof. exact escaped_other. Qed.
Print Assumptions C76_operator_refuted.
Theorem C76_operator_named : forall k s v ch a, In (k, s) named_operators -> squeeze v = lit k -> latex_of (T (lit "mo") v ch a) = Ok (lit s).
Proof. exact named_operator. Qed.
Print Assumptions C76_operator_named.
(** Any other text of several characters that begins with an ampersand is copied, the ampersand and the number sign, too. *)
Theorem C76_operator_copied : forall s v ch a, s <> [] -> squeeze v = lit "&" ++ s ->
  (forall c, among escaped_operators c -> squeeze v <> escape c) ->
  (forall cs, In cs (escaped_pairs ++ map fst escaped_otherwise) -> squeeze v <> flat_map escape cs) ->
  ~ In (squeeze v) (map (fun e => lit (fst e)) named_operators) ->
  latex_of (T (lit "mo") v ch a) = Ok (squeeze v).
Proof.
  intros s v ch a L E A B C. rewrite mo_latex_of. unfold mo_latex. f_equal. rewrite E in *. exact (operator_copied s L A B C).
Qed.
Print Assumptions C76_operator_copied.

(** Identifiers, inside the commands of a mathvariant. *)
Theorem C76_identifier : forall c v w ch a ch' a', among escaped_identifiers c -> squeeze v = escape c -> shows w c ->
  attr a "mathvariant" = attr a' "mathvariant" ->
  latex_of (T (lit "mi") v ch a) = latex_of (T (lit "mi") w ch' a').
Proof. exact escaped_identifier. Qed.
Print Assumptions C76_identifier.
Theorem C76_identifier_refuted : forall c s v ch a, In (c, s) identifiers_otherwise -> squeeze v = escape c -> attr a "mathvariant" = [] ->
  latex_of (T (lit "mi") v ch a) = Ok (lit s)
  /\ (forall w ch' a', shows w c -> ~ In c white_codes -> attr a' "mathvariant" = [] -> latex_of (T (lit "mi") w ch' a') <> Ok (lit s)).
Proof. exact identifier_other. Qed.
Print Assumptions C76_identifier_refuted.
Theorem C76_identifier_copied : forall s v ch a, s <> [] -> squeeze v = lit "&" ++ s ->
  (forall c, among escaped_identifiers c \/ In c (map fst identifiers_otherwise) -> squeeze v <> escape c) ->
  latex_of (T (lit "mi") v ch a) = Ok (in_commands (variant_lookup mi_variants [] (attr a "mathvariant")) (squeeze v)).
Proof.
  intros s v ch a L E A. rewrite mi_latex_of. unfold mi_latex. rewrite E in *. rewrite (identifier_copied s L A). reflexivity.
Qed.
Print Assumptions C76_identifier_copied.

Example C76_example : escape 8712 = lit "&#x2208;" /\ escape 160 = lit "&#xA0;" /\ amongb escaped_operators 8712 = true
  /\ map latex_of [mo " &#x2208; "; mo "&#x2AB0;&#x338;"; mo "&#x22C9;"; T (lit "mo") [8905%N] [] []; mo "&lt;="; mo "&#x2208"; mo "&#x2939;"]
     = [Ok (lit "\in"); Ok (lit "\nsucceq"); Ok (lit "\ltimes"); Ok (lit "\rtimes"); Ok (lit "<="); Ok (lit "&#x2208"); Ok (lit "&#x2939;")]
  /\ map latex_of [mi "&#x3B1;"; mi "&#x2205;"; T (lit "mi") [8709%N] [] []; mi "&alpha;"]
     = [Ok (lit "\alpha"); Ok (lit "\oslash"); Ok (lit "\emptyset"); Ok (lit "&alpha;")].
Proof. vm_compute. repeat split. Qed.
(** The hypotheses of the copied ones can be met: there is no listed reference without a semicolon. *)
Example C76_example_copied : latex_of (mo "&#x2208") = Ok (lit "&#x2208") /\ latex_of (mi "&alpha;") = Ok (lit "&alpha;").
Proof.
  assert (Q : forall c, last (escape c) 0%N = 59%N) by (intro c; unfold escape; rewrite app_assoc; apply last_last).
  split.
  - apply (C76_operator_copied (lit "#x2208") (lit "&#x2208")); try discriminate; try reflexivity.
    + intros c _ E. pose proof (Q c) as H. rewrite <- E in H. vm_compute in H. discriminate H.
    + intros cs _ E. destruct (List.rev cs) as [|c r] eqn:R.
      * apply (f_equal (@List.rev N)) in R. rewrite rev_involutive in R. subst cs. discriminate E.
      * apply (f_equal (@List.rev N)) in R. rewrite rev_involutive in R. subst cs. cbn [List.rev] in E. rewrite flat_map_app in E. cbn [flat_map] in E.
        rewrite app_nil_r in E. unfold escape at 2 in E. change (lit ";") with [59%N] in E. rewrite !app_assoc in E. apply (f_equal (fun l => last l 0%N)) in E. rewrite last_last in E.
        vm_compute in E. discriminate E.
    + intro I. repeat (destruct I as [I|I]; [vm_compute in I; discriminate I|]). destruct I.
  - etransitivity; [apply (C76_identifier_copied (lit "alpha;") (lit "&alpha;"))|]; try discriminate; try reflexivity.
Qed.
