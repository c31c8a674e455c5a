(** Specification of token texts, written independently of the code: words, symbols, variants, text runs,
    enclosure templates.  Only the data tables of syntax.py are shared with the model. *)
From Coq Require Import String.
From Verif Require Export PyStr Tables.
Local Open Scope string_scope.
Local Open Scope list_scope.

(** The text cut at every whitespace character. *)
Fixpoint fields (s : str) : list str :=
  match s with
  | [] => [[]]
  | c :: s' =>
      if is_space c then [] :: fields s'
      else match fields s' with f :: fs => (c :: f) :: fs | [] => [[c]] end
  end.
(** The whitespace-separated words. *)
Definition words (s : str) : list str := filter truthy (fields s).
(** Words separated by one space. *)
Definition squeeze (s : str) : str := join (lit " ") (words s).

(** The first non-empty entry for a text in a list of tables. *)
Fixpoint first_entry (tables : list (dict str)) (w : str) : option str :=
  match tables with
  | [] => None
  | d :: tables' =>
      match dget d w with
      | Some (c :: cs) => Some (c :: cs)
      | _ => first_entry tables' w
      end
  end.

(** An accented vowel or a letter of a special font as a LaTeX command; any other text itself. *)
Definition accent_or_font (w : str) : str :=
  match dget vowels_with_accents w with
  | Some a => match dget accent_to_ltx_cmd (ac_accent a) with
              | Some cmd => lit "\" ++ cmd ++ lit "{" ++ ac_char a ++ lit "}"
              | None => w
              end
  | None => match dget special_font_chars w with
            | Some f => lit "\" ++ sf_font_cmd f ++ lit "{" ++ sf_letter f ++ lit "}"
            | None => w
            end
  end.
Definition symbol (tables : list (dict str)) (w : str) : str :=
  match first_entry tables w with Some s => s | None => accent_or_font w end.

Definition mi_tables := [all_math_symbols_by_char; all_math_symbols_by_glyph; math_number_by_glyph].
Definition mo_tables := [all_math_operators_by_char; all_math_operators_by_glyph; math_number_by_glyph].

(** The commands of a mathvariant of mi, outermost first. *)
Definition mi_variants : list (string * list string) := [
  ("bold", ["\mathbf"]); ("italic", ["\mathit"]); ("bold-italic", ["\mathbf"; "\mathit"]);
  ("double-struck", ["\mathbb"]); ("bold-fraktur", ["\mathbf"; "\mathfrak"]); ("script", ["\mathcal"]);
  ("bold-script", ["\mathbf"; "\mathcal"]); ("fraktur", ["\mathfrak"]); ("sans-serif", ["\mathsf"]);
  ("bold-sans-serif", ["\mathbf"; "\mathsf"]); ("sans-serif-italic", ["\mathsf"; "\mathit"]);
  ("sans-serif-bold-italic", ["\mathbf"; "\mathsf"; "\mathit"]); ("monospace", ["\mathtt"]) ].
(** The commands of a mathvariant of mtext, outermost first. *)
Definition mtext_variants : list (string * list string) := [
  ("bold", ["\textbf"]); ("italic", ["\textit"]); ("bold-italic", ["\textbf"; "\textit"]);
  ("double-struck", ["\mathbb"]); ("monospace", ["\mathtt"]); ("bold-fraktur", ["\mathfrak"]);
  ("fraktur", ["\mathfrak"]) ].

Fixpoint variant_lookup (l : list (string * list string)) (dflt : list string) (v : str) : list string :=
  match l with
  | [] => dflt
  | (s, cmds) :: l' => if str_eqb v (lit s) then cmds else variant_lookup l' dflt v
  end.
Fixpoint in_commands (cmds : list string) (s : str) : str :=
  match cmds with
  | [] => s
  | c :: cmds' => lit c ++ lit "{" ++ in_commands cmds' s ++ lit "}"
  end.
Definition attr (a : dict str) (k : string) : str := dget_or a (lit k) [].

Definition mi_latex (v : str) (a : dict str) : str :=
  in_commands (variant_lookup mi_variants [] (attr a "mathvariant")) (symbol mi_tables (squeeze v)).
Definition mo_latex (v : str) : str := symbol mo_tables (squeeze v).
Definition mn_latex (v : str) : str :=
  match first_entry [math_number_by_glyph] (squeeze v) with Some s => s | None => squeeze v end.

(** ASCII letters, digits and the space. *)
Definition plain_text_char (c : N) : bool :=
  (((97 <=? c) && (c <=? 122)) || ((65 <=? c) && (c <=? 90)) || ((48 <=? c) && (c <=? 57)) || (c =? 32))%N.
(** Maximal runs of plain characters ([true]) and single other characters ([false]). *)
Fixpoint text_runs (s : str) : list (bool * str) :=
  match s with
  | [] => []
  | c :: s' =>
      if plain_text_char c
      then match text_runs s' with
           | (true, w) :: rest => (true, c :: w) :: rest
           | rest => (true, [c]) :: rest
           end
      else (false, [c]) :: text_runs s'
  end.
Definition mtext_latex (v : str) (a : dict str) : str :=
  concat (map (fun run : bool * str =>
                 if fst run then in_commands (variant_lookup mtext_variants ["\text"] (attr a "mathvariant")) (snd run)
                 else mi_latex (snd run) [])
              (text_runs v)).

(** What stands before and after the content for each notation of menclose. *)
Definition notations : list (string * (string * string)) := [
  ("actuarial", ("\overline{\left.", "\right|}")); ("radical", ("\sqrt{", "}"));
  ("box", ("\boxed{", "}")); ("roundedbox", ("\boxed{", "}")); ("circle", ("\boxed{", "}"));
  ("left", ("\left|", "")); ("right", ("", "\right|")); ("top", ("\overline{", "}"));
  ("bottom", ("\underline{", "}")); ("updiagonalstrike", ("\cancel{", "}"));
  ("downdiagonalstrike", ("\bcancel{", "}")); ("updiagonalarrow", ("\cancelto{}{", "}"));
  ("verticalstrike", ("\hcancel{", "}")); ("horizontalstrike", ("\hcancel{", "}"));
  ("madruwb", ("\underline{", "\right|}")); ("phasorangle", ("{\angle \underline{", "}}")) ].
Fixpoint notation_lookup (l : list (string * (string * string))) (v : str) : string * string :=
  match l with
  | [] => ("\overline{\left.\right)", "}")
  | (s, p) :: l' => if str_eqb v (lit s) then p else notation_lookup l' v
  end.
Definition enclosed (notation content : str) : str :=
  let (before, after) := notation_lookup notations notation in lit before ++ content ++ lit after.
