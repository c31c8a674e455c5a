(** C83: how deep the calls of the source are nested. *)
From Coq Require Import String.
From Verif Require Import SpecExamples SpecDepth LemPyNeed LemPyLength.
Local Open Scope string_scope.
Local Open Scope list_scope.

(** C83: the conversion of a text that the parser accepts as it is needs no deeper calls than twice the height of the document and 16:
    with every bound from there on, MathMLToLaTeX.convert of the source ends as the model says. *)
Theorem C83_text : forall word_char parse_string x d h S, parse_string (first_text x) = Ok d ->
  exists S', source_ends_within (2 * document_height d + 16) word_char parse_string x S S' (as_source (snd (mathml_to_latex word_char parse_string x h))).
Proof.
  intros wc ps x d h S E. destruct (source_depth wc ps x d h S E) as (S' & H). exists S'. rewrite outcome_source in H. exact H.
Qed.
Print Assumptions C83_text.
(** Texts that need repair: the height is that of the document in the end, and the loops that look for the broken attribute turn at most as often as
    the text is long (the bound of the interpreter is also one on the turns of each loop). *)
Theorem C83_repaired : forall word_char parse_string x h S,
  exists S', source_ends_within (Nat.max (2 * document_height (document_read word_char parse_string 5 (first_text x)) + 16) (length (first_text x) + 14))
    word_char parse_string x S S' (as_source (snd (mathml_to_latex word_char parse_string x h))).
Proof.
  intros wc ps x h S. destruct (source_repaired wc ps x h S) as (S' & H). exists S'. rewrite outcome_source in H. exact H.
Qed.
Print Assumptions C83_repaired.
(** With the parser of ModelExpat.v: whatever the text, the calls are not nested deeper than it is long, and 16. *)
Theorem C83_length : forall word_char x h S,
  exists S', source_ends_within (length x + 16) word_char parse_text x S S' (as_source (snd (mathml_to_latex word_char parse_text x h))).
Proof.
  intros wc x h S. destruct (source_text_length wc x h S) as (S' & H). exists S'. rewrite outcome_source in H. exact H.
Qed.
Print Assumptions C83_length.
(** For an element made by hand (as in C81), each of the two calls needs no deeper calls than twice its height and 14. *)
Theorem C83_elements : forall word_char parse_string e h n S, (forall l, In l (locs e) -> l < n) -> holds n h S ->
  exists converter S1, expression_ends_within (2 * height e + 14) word_char parse_string [("element", object_of e)] make_expression S S1 (Done converter)
    /\ holds n (fst (to_latex_converter e h)) S1
    /\ forall h2 S2, holds n h2 S2 -> exists S3,
         expression_ends_within (2 * height e + 14) word_char parse_string [("converter", converter)] convert_expression S2 S3 (as_source (snd (snd (to_latex_converter e h) h2)))
         /\ holds n (fst (snd (to_latex_converter e h) h2)) S3.
Proof. intros wc ps e h n S B H. exact (elements_depth wc ps e h n S B H). Qed.
Print Assumptions C83_elements.

(** And the depth must grow with the nesting, by two for each msup: a converter for the [n + 1]th power can be made, but with [2 * n + 1] levels its
    convert() gets nowhere.  So no bound is enough for all elements. *)
Theorem C83_needed : forall word_char parse_string n S, exists converter S1,
  expression_ends_within 7 word_char parse_string [("element", object_of (powers (Datatypes.S n)))] make_expression S S1 (Done converter)
  /\ forall m S2, m <= 2 * n + 1 -> snd (PySem.run (eval (call word_char parse_string m) [("converter", converter)] convert_expression) S2) = Stuck.
Proof. intros wc ps n S. exact (powers_need wc ps n S). Qed.
Print Assumptions C83_needed.

(** One power in the other [n] times: its height, one level too few and enough levels *)
Definition tried (n : nat) (e : elem) : out value :=
  match PySem.run (eval (call no_word parse_text n) [("element", object_of e)] make_expression) (Memory [[]] []) with
  | (S1, Done c) => snd (PySem.run (eval (call no_word parse_text n) [("converter", c)] convert_expression) S1)
  | (_, o) => o
  end.
Example C83_example : map (fun n => (height (powers n), tried (2 * n + 4) (powers n), tried (2 * n + 5) (powers n))) [0; 1; 2; 3]
  = [(1, Stuck, Done (VStr (lit "x")));
     (2, Stuck, Done (VStr (lit "x^{2}")));
     (3, Stuck, Done (VStr (lit "\left(x^{2}\right)^{2}")));
     (4, Stuck, Done (VStr (lit "\left(\left(x^{2}\right)^{2}\right)^{2}")))].
Proof. vm_compute. reflexivity. Qed.
Example C83_example_text : let x := lit "<math><msqrt><mml:mi>x</mml:mi></msqrt></math>" in
  parse_text (first_text x) = Ok [DElem (lit "math") [] [DElem (lit "msqrt") [] [DElem (lit "mi") [] [DText (lit "x")]]]]
  /\ document_height [DElem (lit "math") [] [DElem (lit "msqrt") [] [DElem (lit "mi") [] [DText (lit "x")]]]] = 3
  /\ snd (PySem.run (source_convert no_word parse_text x 22) (Memory [] [])) = Done (VStr (lit "\sqrt{x}")).
Proof. vm_compute. repeat split. Qed.
(** A text that is repaired, with a broken word of 20 characters, and one that cannot be: the loop needs its turns *)
Example C83_example_repair : let x := lit "<math><mi abcdefghijklmnopqrs=t>x</mi></math>" in
  (length x, document_read no_word parse_text 5 x, map (fun n => snd (PySem.run (source_convert no_word parse_text x n) (Memory [] []))) [28; 29; 61])
  = (45, [DElem (lit "math") [] [DElem (lit "mi") [] [DText (lit "x")]]], [Stuck; Done (VStr (lit "x")); Done (VStr (lit "x"))]).
Proof. vm_compute. reflexivity. Qed.
Example C83_example_broken : let x := lit "<math><mi>" in
  document_read no_word parse_text 5 x = []
  /\ snd (PySem.run (source_convert no_word parse_text x 26) (Memory [] [])) = as_source (snd (mathml_to_latex no_word parse_text x []))
  /\ snd (mathml_to_latex no_word parse_text x []) = Raise (EExpat 3 1 10).
Proof. vm_compute. repeat split. Qed.
