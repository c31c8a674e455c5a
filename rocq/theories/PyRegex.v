(** Reading the text of a regular expression (the part of the syntax of Python's [re] that /repo uses), [re.escape] and
    replacement templates. *)
From Coq Require Import String.
From Verif Require Export Regex.
Local Open Scope N_scope.
Local Open Scope list_scope.

(** The characters that [re.escape] puts a backslash before (CPython 3.7+): space, tab, newline, return, vertical tab, form feed and ()[]{}?*+-|^$\.&~# *)
Definition special (c : N) : bool :=
  existsb (N.eqb c) [40; 41; 91; 93; 123; 125; 63; 42; 43; 45; 124; 94; 36; 92; 46; 38; 126; 35; 32; 9; 10; 13; 11; 12].
Definition re_escape (s : str) : str := flat_map (fun c => if special c then [92; c] else [c]) s.

Definition in_range (a b c : N) : bool := (a <=? c) && (c <=? b).
Definition letter_or_digit (c : N) : bool := in_range 48 57 c || in_range 65 90 c || in_range 97 122 c.

(** A set of ASCII characters under re.IGNORECASE (for str patterns): the other case of a letter, and the four characters outside ASCII that
    the documentation of [re] lists. *)
Definition ignore_case (p : N -> bool) (c : N) : bool :=
  p c || (in_range 65 90 c && p (c + 32)) || (in_range 97 122 c && p (c - 32))
  || (((c =? 304) || (c =? 305)) && (p 105 || p 73)) || ((c =? 383) && (p 115 || p 83)) || ((c =? 8490) && (p 107 || p 75)).

Section Parse.
Variable word_char : N -> bool.       (* \w *)
Variable ignoring : bool.             (* re.IGNORECASE *)
Variable multiline : bool.            (* re.MULTILINE: ^ and $ are not translated *)

Definition one (p : N -> bool) : regex := RChar (if ignoring then ignore_case p else p).

(** What a backslash and a character mean: the classes w and s, the controls n, r and t, a character that is neither a letter nor a digit. *)
Definition escaped_char (c : N) : option (N -> bool) :=
  if c =? 119 then Some word_char
  else if c =? 115 then Some is_space
  else if c =? 110 then Some (N.eqb 10)
  else if c =? 114 then Some (N.eqb 13)
  else if c =? 116 then Some (N.eqb 9)
  else if letter_or_digit c then None
  else Some (N.eqb c).

(** An opened bracket: the group it makes (none: a negative lookahead), the alternatives and the items before it, the latest first. *)
Record open_bracket := Open { o_group : option nat; o_alts : list regex; o_items : list regex }.
Definition sequence (items : list regex) : regex := fold_left (fun r a => RSeq a r) items REmpty.
Definition choice (alts items : list regex) : regex := fold_left (fun r a => RAlt a r) alts (sequence items).
Definition closed (o : open_bracket) (r : regex) : regex :=
  match o_group o with Some n => RGroup n r | None => RNotAhead r end.

(** [group]: the number of the next group.  [set]: inside of a bracketed set of characters, what it has so far. *)
Fixpoint parse (s : str) (group : nat) (stack : list open_bracket) (alts items : list regex) (set : option (N -> bool)) : option regex :=
  match set with
  | Some p =>
      match s with
      | [] => None
      | c :: s1 =>
          if c =? 93 then parse s1 group stack alts (one p :: items) None
          else if c =? 94 then None
          else if c =? 92 then
            match s1 with
            | d :: s2 =>
                match escaped_char d with
                | Some q => parse s2 group stack alts items (Some (fun x => p x || q x))
                | None => None
                end
            | [] => None
            end
          else
            match s1 with
            | 45 :: d :: s3 =>
                if (d =? 93) || (d =? 92) then None
                else parse s3 group stack alts items (Some (fun x => p x || in_range c d x))
            | _ => parse s1 group stack alts items (Some (fun x => p x || N.eqb c x))
            end
      end
  | None =>
      match s with
      | [] => match stack with [] => Some (choice alts items) | _ => None end
      | c :: s1 =>
          if c =? 92 then                                              (* backslash *)
            match s1 with
            | d :: s2 =>
                match escaped_char d with
                | Some q => parse s2 group stack alts (one q :: items) None
                | None => None
                end
            | [] => None
            end
          else if c =? 40 then                                         (* ( *)
            match s1 with
            | 63 :: 33 :: s3 => parse s3 group (Open None alts items :: stack) [] [] None
            | 63 :: _ => None
            | _ => parse s1 (S group) (Open (Some group) alts items :: stack) [] [] None
            end
          else if c =? 41 then                                         (* ) *)
            match stack with
            | [] => None
            | o :: stack' => parse s1 group stack' (o_alts o) (closed o (choice alts items) :: o_items o) None
            end
          else if c =? 124 then parse s1 group stack (sequence items :: alts) [] None
          else if c =? 91 then parse s1 group stack alts items (Some (fun _ => false))
          else if (c =? 42) || (c =? 43) || (c =? 63) then             (* a quantifier applies to the last item *)
            match items with
            | [] => None
            | a :: items' =>
                parse s1 group stack alts ((if c =? 42 then RStar a else if c =? 43 then RPlus a else ROpt a) :: items') None
            end
          else if c =? 46 then parse s1 group stack alts (RDot :: items) None
          else if ((c =? 94) || (c =? 36)) && multiline then None
          else if c =? 94 then parse s1 group stack alts (RBol :: items) None
          else if c =? 36 then parse s1 group stack alts (REol :: items) None
          else if existsb (N.eqb c) [93; 123; 125] then None
          else parse s1 group stack alts (one (N.eqb c) :: items) None
      end
  end.
Definition parse_regex (s : str) : option regex := parse s 1 [] [] [] None.
End Parse.

(** A replacement template: text, and a backslash and a digit for a group (one that did not match gives nothing). *)
Fixpoint expand (template : str) (g : caps) : option str :=
  match template with
  | [] => Some []
  | c :: t =>
      if c =? 92 then
        match t with
        | d :: t' =>
            if in_range 49 57 d then
              option_map (app (match cap_get g (N.to_nat (d - 48)) with Some s => s | None => [] end)) (expand t' g)
            else None
        | [] => None
        end
      else option_map (cons c) (expand t g)
  end.
