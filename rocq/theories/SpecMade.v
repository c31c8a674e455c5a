(** Programs that make converters for element objects and run them, in the source (C87). *)
From Coq Require Import String.
From Verif Require Export SpecRun SpecShared SpecShape.
Local Open Scope string_scope.
Local Open Scope list_scope.

(** The steps of SpecObjects.v as statements of Python: [made.append(MathMLElementToLatexConverterAdapter().to_latex_converter(element))] and
    [made[i].convert()]; [os]: what the calls of convert() end with.  An [i] for which nothing was made is passed over. *)
Inductive performed (word_char : N -> bool) (parse_string : str -> res document)
  : list action -> list value -> memory -> memory -> list (out value) -> Prop :=
| performed_end made S : performed word_char parse_string [] made S S []
| performed_new e acts made c S S1 S2 os :
    expression_ends word_char parse_string [("element", object_of e)] make_expression S S1 (Done c) ->
    performed word_char parse_string acts (made ++ [c]) S1 S2 os -> performed word_char parse_string (New e :: acts) made S S2 os
| performed_run i acts made c S S1 S2 o os : nth_error made i = Some c ->
    expression_ends word_char parse_string [("converter", c)] convert_expression S S1 o ->
    performed word_char parse_string acts made S1 S2 os -> performed word_char parse_string (Run i :: acts) made S S2 (o :: os)
| performed_none i acts made S S2 os : nth_error made i = None ->
    performed word_char parse_string acts made S S2 os -> performed word_char parse_string (Run i :: acts) made S S2 os.

(** An element is converted once. *)
Definition converted_once word_char parse_string (e : elem) (S S' : memory) (o : out value) : Prop :=
  performed word_char parse_string [New e; Run 0] [] S S' [o].
