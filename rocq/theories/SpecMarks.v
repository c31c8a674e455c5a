(** C53, C54: the characters # $ % & and the line break \\ of TeX, counted in the output. *)
From Coq Require Import String.
From Verif Require Export SpecGlyphs SpecOrder.
Local Open Scope string_scope.
Local Open Scope list_scope.

(** # $ % & standing for themselves (not escaped), and \\ *)
Definition marks : list token := [Chr 35%N; Chr 36%N; Chr 37%N; Chr 38%N; Sym 92%N].
Definition ampersand : token := Chr 38%N.
Definition double_backslash : token := Sym 92%N.
Definition token_dec : forall x y : token, {x = y} + {x <> y}.
Proof. decide equality; try apply N.eq_dec; apply (list_eq_dec N.eq_dec). Defined.
Definition count (k : token) (s : str) : nat := count_occ token_dec (tex_tokens s) k.

(** The elements that are converted for a tree, in reading order, each as often as it is converted. *)
Fixpoint converted (t : tree) : list tree :=
  match t with
  | T n _ ch a => t :: if str_in n token_tags then [] else concat (arrange n a ch (map converted ch))
  end.
(** What an element itself contributes: a token the marks in its own LaTeX, a row of n cells n - 1 ampersands, a table of
    n rows n - 1 line breaks. *)
Definition own_marks (k : token) (u : tree) : nat :=
  if str_in (t_name u) token_tags then match latex_of u with Ok s => count k s | Raise _ => 0 end
  else if str_eqb (t_name u) (lit "mtr") && (if token_dec k ampersand then true else false) then length (t_children u) - 1
  else if str_eqb (t_name u) (lit "mtable") && (if token_dec k double_backslash then true else false) then length (t_children u) - 1
  else 0.
Definition expected_marks (k : token) (t : tree) : nat := list_sum (map (own_marks k) (converted t)).

(** No backslash waits for a character, and no backslash stands before white space. *)
Definition tidy (s : str) : Prop := ~ unfinished s /\ forall c, In (Sym c) (tex_tokens s) -> is_space c = false.
Definition markless (s : str) : Prop := forall c, In c s -> ~ In c [35; 36; 37; 38; 92]%N.
(** The condition: the LaTeX of tokens is tidy, fences and separators hold none of the characters. *)
Definition tidy_element (u : tree) : Prop :=
  (In (t_name u) token_tags -> forall s, latex_of u = Ok s -> tidy s)
  /\ (t_name u = lit "mfenced" -> forall key, In key ["open"; "close"; "separators"]%string -> markless (attr (t_attributes u) key)).

(** # $ % & *)
Definition specials : list token := [Chr 35%N; Chr 36%N; Chr 37%N; Chr 38%N].
(** The condition for a tree without stray marks: an mn, mi or mo has a text without them, or an mi or mo shows one character. *)
Definition clean_element (u : tree) : Prop :=
  (t_name u = lit "mn" -> markless (t_value u))
  /\ (In (t_name u) [lit "mi"; lit "mo"] -> markless (t_value u) \/ exists c, shows (t_value u) c)
  /\ (t_name u = lit "mfenced" -> forall key, In key ["open"; "close"; "separators"]%string -> markless (attr (t_attributes u) key)).
Definition clean_tree (t : tree) : Prop := forall u, visits t u -> clean_element u.
Definition quote_mark : N := 8221%N.
Definition unquoted_tree (t : tree) : Prop := forall u, visits t u -> In (t_name u) token_tags -> ~ In quote_mark (t_value u).
(** One less than the number of children, for each element with the tag. *)
Definition gaps_of (tag : string) (us : list tree) : nat :=
  list_sum (map (fun u => if str_eqb (t_name u) (lit tag) then length (t_children u) - 1 else 0) us).
