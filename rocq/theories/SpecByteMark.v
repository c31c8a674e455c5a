(** Specification of a byte order mark before the text: the character U+FEFF. *)
From Coq Require Import String.
From Verif Require Export SpecDoc.
Local Open Scope string_scope.
Local Open Scope list_scope.

Definition marked (x : str) : str := 65279%N :: x.

(** An error of the first line, one column further to the right. *)
Definition one_further (e : exn) : exn :=
  match e with
  | EExpat code 1 column => EExpat code 1 (S column)
  | _ => e
  end.
Definition further {A} (r : res A) : res A :=
  match r with
  | Ok a => Ok a
  | Raise e => Raise (one_further e)
  end.

(** What is asked of a parser: a mark before a text that does not begin with one is skipped, as a column; the errors of a
    text of one line are on line 1. *)
Definition skips_mark (parse_string : str -> res document) : Prop :=
  (forall x, hd_error x <> Some 65279%N -> parse_string (marked x) = further (parse_string x))
  /\ (forall x code line column, ~ In 10%N x -> parse_string x = Raise (EExpat code line column) -> line = 1).

(** Whenever a wrong character is reported (code 4), a space stands before it: the word with the wrong character is not the
    beginning of the text. *)
Definition no_first_word (parse_string : str -> res document) (x : str) : Prop :=
  forall k y column, reaches parse_string k x y -> parse_string y = Raise (EExpat 4 1 column) -> In 32%N (firstn column y).
