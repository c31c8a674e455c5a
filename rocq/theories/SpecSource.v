(** What running the source means (C79, C80).  [PySource.v] is the source of the library, [PySem.v] the meaning of its Python. *)
From Coq Require Import String.
From Verif Require Export PySem ModelExpat.
Local Open Scope string_scope.
Local Open Scope list_scope.

Section Source.
Variable word_char : N -> bool.
Variable parse_string : str -> res document.
(** [MathMLToLaTeX.convert(x)] in memory [S] ends in memory [S'] with [o]: it does so whatever the bound on the depth of calls and
    the turns of loops, from some bound on. *)
Definition source_convert (x : str) (n : nat) : MM value := call word_char parse_string n (VMethod VNone "MathMLToLaTeX" "convert") [VStr x] [].
Definition source_ends (x : str) (S S' : memory) (o : out value) : Prop :=
  exists n0, forall n, n0 <= n -> PySem.run (source_convert x n) S = (S', o).
End Source.

(** The string returned or the exception raised *)
Definition as_source (r : res str) : out value := match r with Ok s => Done (VStr s) | Raise e => Raised (parser_error e) end.

(** The classes of exceptions that a call may end with *)
Definition expected_exceptions : list string := ["ExpatError"; "IndexError"; "InvalidNumberOfChildrenError"; "Exception"].
Definition no_surprise (o : out value) : Prop :=
  match o with
  | Done v => exists s, v = VStr s
  | Raised v => exists c fields, v = VObj c fields /\ In c expected_exceptions
  | Stuck => False
  end.
