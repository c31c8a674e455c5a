(** C70: what is copied. *)
From Coq Require Import String.
From Verif Require Import SpecExamples LemOther.
Local Open Scope string_scope.
Local Open Scope list_scope.

(** A single character is copied exactly if it is in none of the listed ranges. *)
Theorem C70_identifier_characters : forall c v ch a, shows v c -> ~ In c white_codes -> attr a "mathvariant" = [] ->
  (latex_of (T (lit "mi") v ch a) = Ok [c] <-> ~ among mi_converted c).
Proof. exact mi_character. Qed.
Print Assumptions C70_identifier_characters.
Theorem C70_operator_characters : forall c v ch a, shows v c -> ~ In c white_codes ->
  (latex_of (T (lit "mo") v ch a) = Ok [c] <-> ~ among mo_converted c).
Proof. exact mo_character. Qed.
Print Assumptions C70_operator_characters.
Theorem C70_number_characters : forall c v ch a, shows v c -> ~ In c white_codes ->
  (latex_of (T (lit "mn") v ch a) = Ok [c] <-> ~ among mn_converted c).
Proof. exact mn_character. Qed.
Print Assumptions C70_number_characters.

(** A text of several characters, white space reduced to single spaces between words, is copied: an identifier inside the commands
    of its mathvariant (none if there is none) ... *)
Theorem C70_identifiers : forall v ch a, 1 < length (squeeze v) -> (forall s, squeeze v <> lit "&" ++ s) -> squeeze v <> [8603; 39]%N ->
  latex_of (T (lit "mi") v ch a) = Ok (in_commands (variant_lookup mi_variants [] (attr a "mathvariant")) (squeeze v)).
Proof. intros v ch a L A N. rewrite mi_latex_of. unfold mi_latex. rewrite (mi_several _ L A N). reflexivity. Qed.
Print Assumptions C70_identifiers.
(** ... an operator unless it is one of the 55 listed, which give the LaTeX listed with them ... *)
Theorem C70_operators : forall v ch a, 1 < length (squeeze v) -> (forall s, squeeze v <> lit "&" ++ s) ->
  (~ In (squeeze v) (map fst joined_operators) -> latex_of (T (lit "mo") v ch a) = Ok (squeeze v))
  /\ (forall s, In (squeeze v, s) joined_operators -> latex_of (T (lit "mo") v ch a) = Ok (lit s) /\ lit s <> squeeze v).
Proof.
  intros v ch a L A. rewrite mo_latex_of. unfold mo_latex. split.
  - intro N. rewrite (mo_several _ L A N). reflexivity.
  - intros s I. pose proof (proj1 (forallb_forall _ _) joined_sweep _ I) as X. cbn [fst snd] in X. apply andb_prop in X as [X Y].
    apply str_eqb_eq in X. rewrite X. split; auto. intro E. rewrite <- E, str_eqb_refl in Y. discriminate Y.
Qed.
Print Assumptions C70_operators.
(** ... and a number always. *)
Theorem C70_numbers : forall v ch a, 1 < length (squeeze v) -> latex_of (T (lit "mn") v ch a) = Ok (squeeze v).
Proof. intros v ch a L. rewrite mn_latex_of. f_equal. exact (mn_several _ L). Qed.
Print Assumptions C70_numbers.

Example C70_example :
  ~ among mi_converted 1488 /\ among mo_converted 8364 /\ ~ among mn_converted 1632
  /\ map latex_of [T (lit "mi") [1488%N] [] []; T (lit "mo") [8364%N] [] []; T (lit "mn") [1632%N] [] []; mi " Hom  set "; mo "||"; mo "=="; mn "1 000"]
  = [Ok [1488%N]; Ok (lit "\euro"); Ok [1632%N]; Ok (lit "Hom set"); Ok (lit "\left||\right."); Ok (lit "=="); Ok (lit "1 000")]
  /\ In (lit "||", "\left||\right.") joined_operators /\ ~ In (lit "==") (map fst joined_operators).
Proof.
  repeat match goal with |- _ /\ _ => split end.
  - rewrite <- among_spec. vm_compute. discriminate.
  - apply among_spec. vm_compute. reflexivity.
  - rewrite <- among_spec. vm_compute. discriminate.
  - vm_compute. reflexivity.
  - cbn. auto.
  - rewrite <- str_in_spec. vm_compute. discriminate.
Qed.
(** Entity-like texts and one identifier are the exceptions.  Among the characters converted are some that only look like a
    sign: the Chinese ten and earth give + and \pm, the Chinese white gives a space. *)
Theorem C70_refuted : latex_of (mi "&#x3B1;") = Ok (lit "\alpha")
  /\ latex_of (T (lit "mi") [8603; 39]%N [] []) = Ok (lit "\nrightarrow")
  /\ map (fun c => latex_of (T (lit "mi") [c] [] [])) [21313; 22303; 30333]%N = [Ok (lit "+"); Ok (lit "\pm"); Ok (lit " ")].
Proof. vm_compute. repeat split. Qed.
Print Assumptions C70_refuted.
