(** C86: text before and after the formula. *)
From Coq Require Import String.
From Verif Require LemWhole.
From Verif Require Import SpecExamples LemAround.
Local Open Scope string_scope.
Local Open Scope list_scope.

(** C86: a word at the beginning of the text, before any markup: no repair helps, the syntax error is raised, whatever follows. *)
Theorem C86_before : forall word_char parse_string x b w r h, reports_words parse_string -> Forall blank b -> a_word w -> after_word r -> clean x = b ++ w ++ r ->
  mathml_to_latex word_char parse_string x h = (h, Raise (EExpat 2 1 (length b))).
Proof. exact words_before. Qed.
Print Assumptions C86_before.
(** A word after the formula: junk, if no space comes before a [>]. *)
Theorem C86_after : forall word_char parse_string x d u w r h, reports_words parse_string -> document_text d u -> a_word w -> after_word r ->
  clean x = u ++ w ++ r -> no_space_before_close (clean x) ->
  mathml_to_latex word_char parse_string x h = (h, Raise (EExpat 9 1 (length u))).
Proof. exact words_after. Qed.
Print Assumptions C86_after.
Theorem C86_parser : reports_words parse_text.
Proof. exact parser_reports_words. Qed.
Print Assumptions C86_parser.
(** In the source *)
Theorem C86_source : forall word_char x b w r S, Forall blank b -> a_word w -> after_word r -> clean x = b ++ w ++ r ->
  exists S', SpecSource.source_ends word_char parse_text x S S' (PySem.Raised (PySem.parser_error (EExpat 2 1 (length b)))).
Proof.
  intros wc x b w r S B W A C. destruct (LemWhole.source_total wc parse_text x S) as (S' & E). exists S'.
  rewrite (words_before wc parse_text x b w r [] parser_reports_words B W A C) in E. exact E.
Qed.
Print Assumptions C86_source.
(** With a [>] after the word, the repair drops the word. *)
Theorem C86_after_needed_refuted : exists d u w r, document_text d u /\ a_word w /\ after_word r
  /\ snd (mathml_to_latex no_word parse_text (u ++ w ++ r) []) = Ok (lit "x").
Proof.
  exists [del "math" [dleaf "mi" "x"]], (lit "<math><mi>x</mi></math> "), (lit "b"), (lit ">").
  split; [|split; [split; [discriminate|repeat constructor; vm_compute; intuition discriminate]|split; [split; [repeat constructor; vm_compute; intuition discriminate|right; vm_compute; tauto]|vm_compute; reflexivity]]].
  destruct (print_document [del "math" [dleaf "mi" "x"]]) as [P _]; [apply document_check; vm_compute; reflexivity|].
  change (lit "<math><mi>x</mi></math> ") with (print [del "math" [dleaf "mi" "x"]] ++ lit " "). apply document_space; [exact P|repeat constructor].
Qed.
Print Assumptions C86_after_needed_refuted.

(** Words before a formula, with a comma; words after one; nothing but words *)
Definition sentence : str := lit "So, <math><mi a>x</mi></math>".
Example C86_example : Forall blank [] /\ a_word (lit "So") /\ after_word (lit ", <math><mi a>x</mi></math>") /\ clean sentence = [] ++ lit "So" ++ lit ", <math><mi a>x</mi></math>"
  /\ mathml_to_latex no_word parse_text sentence [] = ([], Raise (EExpat 2 1 0))
  /\ mathml_to_latex no_word parse_text (lit "x^2") [] = ([], Raise (EExpat 3 1 0))
  /\ mathml_to_latex no_word parse_text (lit "<math><mi>x</mi></math> is x") [] = ([], Raise (EExpat 9 1 24)).
Proof.
  split; [constructor|]. split; [split; [discriminate|repeat constructor; vm_compute; intuition discriminate]|].
  split; [split; [apply good_check; vm_compute; reflexivity|right; vm_compute; tauto]|]. vm_compute. repeat split.
Qed.
