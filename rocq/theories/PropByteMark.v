(** C78: a byte order mark before the text. *)
From Coq Require Import String.
From Verif Require Import SpecExamples LemByteMark.
Local Open Scope string_scope.
Local Open Scope list_scope.

(** C78: U+FEFF before the text changes nothing but the column of a reported error: the same LaTeX, or the same exception. *)
Theorem C78_same : forall word_char parse_string x h, skips_mark parse_string ->
  ~ In 65279%N (clean x) -> no_first_word parse_string (clean x) ->
  snd (mathml_to_latex word_char parse_string (marked x) h) = further (snd (mathml_to_latex word_char parse_string x h)).
Proof. exact convert_marked. Qed.
Print Assumptions C78_same.
(** For a document, without the conditions on the text. *)
Theorem C78_document : forall word_char parse_string d x h, SpecXml.reads parse_string -> skips_mark parse_string -> document_text d (clean x) ->
  snd (mathml_to_latex word_char parse_string (marked x) h) = snd (mathml_to_latex word_char parse_string x h)
  /\ snd (mathml_to_latex word_char parse_string x h) = document_latex d.
Proof. intros wc ps d x h R S D. rewrite (text_marked wc ps d x h R S D), (convert_text wc ps d x h R D). auto. Qed.
Print Assumptions C78_document.
(** The parser of ModelExpat.v is one. *)
Theorem C78_expat : skips_mark parse_text.
Proof. exact parser_skips_mark. Qed.
Print Assumptions C78_expat.
(** The condition on the first word is needed: here the wrong characters begin the text, so that the mark belongs to the word
    that is struck; without the mark the word is struck a second time. *)
Definition wrong_first : str := lit "<1 <math><mi><![CDATA[a<1 ]]></mi></math>".
Theorem C78_first_word_refuted : skips_mark parse_text /\ ~ In 65279%N (clean wrong_first)
  /\ snd (mathml_to_latex no_word parse_text wrong_first []) = Ok (lit "a")
  /\ snd (mathml_to_latex no_word parse_text (marked wrong_first) []) = Ok (lit "a<1").
Proof.
  split; [exact parser_skips_mark|]. split; [|split; vm_compute; reflexivity].
  intros I. assert (E : existsb (N.eqb 65279) (clean wrong_first) = true) by (apply existsb_exists; exists 65279%N; split; [exact I|reflexivity]).
  vm_compute in E. discriminate E.
Qed.
Print Assumptions C78_first_word_refuted.

(** An attribute without a value behind a space: struck, with and without the mark. *)
Definition unvalued_text : str := lit "<math><mi a=""1"" x>b</mi></math>".
Example C78_example_conditions : ~ In 65279%N (clean unvalued_text) /\ no_first_word parse_text (clean unvalued_text)
  /\ exists column, parse_text (clean unvalued_text) = Raise (EExpat 4 1 column).
Proof.
  split; [|split].
  - intros I. assert (E : existsb (N.eqb 65279) (clean unvalued_text) = true) by (apply existsb_exists; exists 65279%N; split; [exact I|reflexivity]).
    vm_compute in E. discriminate E.
  - intros k y column R P. inversion R as [|k1 x1 e1 x2 y2 P1 R1 R2]; subst.
    + vm_compute in P. injection P as <-. vm_compute. tauto.
    + apply (fix_recovers no_word) in R1; [|left; reflexivity].
      assert (Q : parse_text (clean unvalued_text) = Raise (EExpat 4 1 17)) by (vm_compute; reflexivity).
      rewrite P1 in Q. injection Q as ->. vm_compute in R1. injection R1 as <-.
      inversion R2 as [|k3 x3 e3 x4 y4 P3 R3 R4]; subst; [vm_compute in P; discriminate P|vm_compute in P3; discriminate P3].
  - exists 17. vm_compute. reflexivity.
Qed.
Example C78_example : map (fun x => snd (mathml_to_latex no_word parse_text x []))
    [unvalued_text; marked unvalued_text; lit "<math><mi>a</mi></maths>"; marked (lit "<math><mi>a</mi></maths>");
     marked (lit "<?xml version=""1.0""?> <math><mfrac><mi>a</mi><mn>2</mn></mfrac></math>"); marked []]
  = [Ok (lit "b"); Ok (lit "b"); Raise (EExpat 7 1 18); Raise (EExpat 7 1 19); Ok (lit "\frac{a}{2}"); Raise (EExpat 3 1 1)].
Proof. vm_compute. reflexivity. Qed.
