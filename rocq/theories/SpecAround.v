(** Text before and after the root element (C86). *)
From Coq Require Import String.
From Verif Require Export SpecXml2.
Local Open Scope string_scope.
Local Open Scope list_scope.

(** A word, and what follows it: nothing, or a text that begins with white space or one of six signs *)
Definition a_word (w : str) : Prop := w <> [] /\ Forall name_rest w.
Definition after_word (r : str) : Prop := Forall good_char r /\ match r with [] => True | c :: _ => blank c \/ In c (lit ",[)|>%") end.
(** What is asked of a parser: a word before the root element is a syntax error (2), one after it junk (9), at its first character. *)
Definition reports_words (parse_string : str -> res document) : Prop :=
  (forall b x w r, outer_text b x -> a_word w -> after_word r -> ~ In 10%N x -> parse_string (x ++ w ++ r) = Raise (EExpat 2 1 (length x)))
  /\ (forall d x w r, document_text d x -> a_word w -> after_word r -> ~ In 10%N x -> parse_string (x ++ w ++ r) = Raise (EExpat 9 1 (length x))).
(** No space anywhere before a [>] *)
Definition no_space_before_close (s : str) : Prop := forall a b c, s <> a ++ [32%N] ++ b ++ [62%N] ++ c.
