(** Bounds on the depth of calls (C83). *)
From Coq Require Import String.
From Verif Require Export SpecRun SpecHeight.
Local Open Scope string_scope.
Local Open Scope list_scope.

(** [source_ends] and [expression_ends] with the bound said: [b] is enough, and so is every larger one. *)
Definition source_ends_within (b : nat) (word_char : N -> bool) (parse_string : str -> res document) (x : str) (S S' : memory) (o : out value) : Prop :=
  forall n, b <= n -> PySem.run (source_convert word_char parse_string x n) S = (S', o).
Definition expression_ends_within (b : nat) (word_char : N -> bool) (parse_string : str -> res document) (r : names) (e : expr) (S S' : memory) (o : out value) : Prop :=
  forall n, b <= n -> PySem.run (eval (call word_char parse_string n) r e) S = (S', o).
(** The text that is parsed first: without line breaks, and without "mml:" in what is left *)
Definition first_text (x : str) : str := remove_ms_word_prefixes (remove_line_breaks x).
(** The document in the end: what the parser makes of the text, or of the repaired one, within [n] attempts; none if all fail *)
Fixpoint document_read (word_char : N -> bool) (parse_string : str -> res document) (n : nat) (x : str) : document :=
  match n with
  | 0 => []
  | S m =>
      match parse_string x with
      | Ok d => d
      | Raise e => match fix_error word_char x e with Ok y => document_read word_char parse_string m y | Raise _ => [] end
      end
  end.
(** x to the power of 2, to the power of 2 and so on, [n] times *)
Fixpoint powers (n : nat) : elem :=
  match n with
  | 0 => Elem (lit "mi") (lit "x") [] 0
  | S m => Elem (lit "msup") [] [powers m; Elem (lit "mn") (lit "2") [] 0] 0
  end.
