(** C77: what each character gives. *)
From Coq Require Import String.
From Verif Require Import SpecExamples LemEach.
Local Open Scope string_scope.
Local Open Scope list_scope.

(** Every character, alone but for white space, as an operator ... *)
Theorem C77_operator : forall c v ch a, ~ In c white_codes -> shows v c -> latex_of (T (lit "mo") v ch a) = Ok (operator_gives c).
Proof. intros c v ch a W S. apply (mo_shows v c ch a _ S W). apply operator_each. exact W. Qed.
Print Assumptions C77_operator.
(** ... as an identifier, within the commands of its variant ... *)
Theorem C77_identifier : forall c v ch a, ~ In c white_codes -> shows v c ->
  latex_of (T (lit "mi") v ch a) = Ok (in_commands (variant_lookup mi_variants [] (attr a "mathvariant")) (identifier_gives c)).
Proof. intros c v ch a W S. rewrite mi_latex_of. unfold mi_latex. rewrite (squeeze_shows v c S W), (identifier_each c W). reflexivity. Qed.
Print Assumptions C77_identifier.
(** ... and as a number. *)
Theorem C77_number : forall c v ch a, ~ In c white_codes -> shows v c -> latex_of (T (lit "mn") v ch a) = Ok (number_gives c).
Proof.
  intros c v ch a W S. rewrite mn_latex_of. unfold mn_latex. rewrite (squeeze_shows v c S W). rewrite <- (number_each c W). reflexivity.
Qed.
Print Assumptions C77_number.

(** Operator and identifier give the same for all characters but those of two catalogues ... *)
Theorem C77_same : forall c v w ch a ch' a', ~ In c white_codes -> shows v c -> shows w c -> attr a' "mathvariant" = [] ->
  (latex_of (T (lit "mo") v ch a) = latex_of (T (lit "mi") w ch' a')
   <-> c <> 10743%N /\ forall s cs, In (s, cs) operator_characters \/ In (s, cs) identifier_characters -> ~ In c cs).
Proof.
  intros c v w ch a ch' a' W S S' A. rewrite (C77_operator c v ch a W S), (C77_identifier c w ch' a' W S'), A.
  change (in_commands (variant_lookup mi_variants [] []) (identifier_gives c)) with (identifier_gives c).
  transitivity (operator_gives c = identifier_gives c); [split; [intro E; injection E as E; exact E|intro E; rewrite E; reflexivity]|].
  rewrite gives_same. unfold differing, listed_codes. rewrite flat_map_app. split.
  - intro N. split.
    + intro E. apply N. left. auto.
    + intros s cs [I|I] J; apply N; right; apply in_app_iff; [left|right]; apply in_flat_map; exists (s, cs); auto.
  - intros [E N] [X|I]; [congruence|]. apply in_app_iff in I as [I|I]; apply in_flat_map in I as ([s cs] & I & J); apply (N s cs); auto.
Qed.
Print Assumptions C77_same.
(** ... and these 28 are the ones that both convert, but differently. *)
Theorem C77_two_ways_refuted : forall c v w ch a ch' a', ~ In c white_codes -> shows v c -> shows w c -> attr a' "mathvariant" = [] ->
  forall o i, latex_of (T (lit "mo") v ch a) = Ok o -> latex_of (T (lit "mi") w ch' a') = Ok i ->
  (o <> i /\ o <> [c] /\ i <> [c] <-> exists s t, In (c, s, t) two_ways /\ o = lit s /\ i = lit t) .
Proof.
  intros c v w ch a ch' a' W S S' A o i O I. rewrite (C77_operator c v ch a W S) in O. rewrite (C77_identifier c w ch' a' W S'), A in I.
  injection O as <-. injection I as <-.
  change (in_commands (variant_lookup mi_variants [] []) (identifier_gives c)) with (identifier_gives c). split.
  - intros (X & Y & Z). assert (D : In c differing).
    { destruct (in_dec N.eq_dec c differing) as [D|D]; auto. apply gives_same in D. contradiction. }
    pose proof (proj1 (forallb_forall _ _) two_ways_all c D) as Q. cbv beta in Q. rewrite !orb_true_iff in Q.
    destruct Q as [[Q|Q]|Q]; [|apply str_eqb_eq in Q; contradiction|apply str_eqb_eq in Q; contradiction].
    apply existsb_exists in Q as (x & J & E). apply N.eqb_eq in E. subst x. apply in_map_iff in J as ([[d s] t] & E & J). cbn [fst] in E. subst d.
    pose proof (proj1 (forallb_forall _ _) two_ways_sweep _ J) as Q. cbn [fst snd] in Q. rewrite !andb_true_iff in Q. destruct Q as [[[Q R] _] _].
    apply str_eqb_eq in Q, R. exists s, t. auto.
  - intros (s & t & J & E & F). pose proof (proj1 (forallb_forall _ _) two_ways_sweep _ J) as Q. cbn [fst snd] in Q. rewrite !andb_true_iff in Q.
    destruct Q as [[[Q R] _] N]. rewrite E, F. split; [|split].
    + intro X. rewrite X, str_eqb_refl in N. discriminate N.
    + pose proof (proj1 (forallb_forall _ _) two_ways_copied _ J) as X. cbn [fst snd] in X. apply andb_prop in X as [X _]. intro Y. rewrite Y, str_eqb_refl in X. discriminate X.
    + pose proof (proj1 (forallb_forall _ _) two_ways_copied _ J) as X. cbn [fst snd] in X. apply andb_prop in X as [_ X]. intro Y. rewrite Y, str_eqb_refl in X. discriminate X.
Qed.
Print Assumptions C77_two_ways_refuted.

Example C77_example :
  map (fun c => (operator_gives c, identifier_gives c, number_gives c)) [8853; 945; 178; 120]%N
  = [(lit "\oplus", lit "o+", [8853%N]); (lit "\alpha", lit "\alpha", [945%N]); (lit "2", lit "^{2}", lit "^{2}"); (lit "x", lit "x", lit "x")].
Proof. vm_compute. reflexivity. Qed.
Example C77_example_variant : latex_of (T (lit "mi") [32; 945; 10]%N [] [(lit "mathvariant", lit "bold-italic")]) = Ok (lit "\mathbf{\mathit{\alpha}}").
Proof. vm_compute. reflexivity. Qed.
Example C77_example_same : latex_of (T (lit "mo") [945%N] [] []) = latex_of (T (lit "mi") [945%N] [] [])
  /\ latex_of (T (lit "mo") [8853%N] [] []) <> latex_of (T (lit "mi") [8853%N] [] []).
Proof. vm_compute. split; [reflexivity|discriminate]. Qed.
