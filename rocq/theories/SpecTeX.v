(** How TeX reads the output: tokens, and proper nesting of groups, \left/\right and environments. *)
From Coq Require Import String.
From Verif Require Export SpecShape SpecDoc SpecEquiv.
Local Open Scope string_scope.
Local Open Scope list_scope.

(** A control word (letters only), a control symbol, a character. *)
Inductive token : Type := Word (letters : str) | Sym (c : N) | Chr (c : N).
Definition ascii_letter (c : N) : bool := (((65 <=? c) && (c <=? 90)) || ((97 <=? c) && (c <=? 122)))%N.
Definition backslash : N := 92%N.
Definition open_brace : N := 123%N.
Definition close_brace : N := 125%N.

(** [pending]: the letters read so far after a backslash.  A backslash at the very end gives [Word []]. *)
Fixpoint tokens_from (pending : option str) (s : str) : list token :=
  match s with
  | [] => match pending with Some w => [Word w] | None => [] end
  | c :: s' =>
      let start := if (c =? backslash)%N then tokens_from (Some []) s' else Chr c :: tokens_from None s' in
      match pending with
      | None => start
      | Some w => if ascii_letter c then tokens_from (Some (w ++ [c])) s'
                  else match w with [] => Sym c :: tokens_from None s' | _ => Word w :: start end
      end
  end.
Definition tex_tokens (s : str) : list token := tokens_from None s.

(** Braces, scanned without tokens: a backslash takes the next character with it. *)
Fixpoint brace_depth (d : nat) (s : str) : option nat :=
  match s with
  | [] => Some d
  | c :: s' =>
      if (c =? backslash)%N then match s' with [] => None | _ :: s'' => brace_depth d s'' end
      else if (c =? open_brace)%N then brace_depth (S d) s'
      else if (c =? close_brace)%N then match d with O => None | S d' => brace_depth d' s' end
      else brace_depth d s'
  end.
Definition braces_balance (s : str) : Prop := brace_depth 0 s = Some 0.

(** Tokens that do not open or close anything.  [fences]: whether \left and \right count. *)
Definition special_words (fences : bool) : list str :=
  map lit (if fences then ["begin"; "end"; "left"; "right"] else ["begin"; "end"]).
Definition ordinary (fences : bool) (t : token) : bool :=
  match t with
  | Word w => negb (str_in w (special_words fences))
  | Sym _ => true
  | Chr c => negb ((c =? open_brace) || (c =? close_brace))%N
  end.
Definition blank (t : token) : bool := match t with Chr c => is_space c | _ => false end.
Definition delimiter (t : token) : bool := ordinary true t && negb (blank t).
Definition letters (name : str) : Prop := Forall (fun c => ascii_letter c = true) name.
Definition group (name : str) : list token := Chr open_brace :: map Chr name ++ [Chr close_brace].

(** Properly nested token lists. *)
Inductive nested (fences : bool) : list token -> Prop :=
| nested_nil : nested fences []
| nested_ordinary t b : ordinary fences t = true -> nested fences b -> nested fences (t :: b)
| nested_braces a b : nested fences a -> nested fences b ->
    nested fences (Chr open_brace :: a ++ Chr close_brace :: b)
| nested_env name a b : letters name -> nested fences a -> nested fences b ->
    nested fences (Word (lit "begin") :: group name ++ a ++ Word (lit "end") :: group name ++ b)
| nested_fences d1 a d2 b : fences = true -> delimiter d1 = true -> delimiter d2 = true ->
    nested fences a -> nested fences b ->
    nested fences (Word (lit "left") :: d1 :: a ++ Word (lit "right") :: d2 :: b).

(** Texts without braces and backslash. *)
Definition plain (s : str) : Prop := forall c, In c s -> c <> backslash /\ c <> open_brace /\ c <> close_brace.
Definition token_tags : list str := map lit ["mi"; "mo"; "mn"; "mtext"].
(** The condition on an element for braces and environments: plain texts, plain fences (or the pair of braces). *)
Definition plain_element (u : tree) : Prop :=
  (In (t_name u) token_tags -> plain (t_value u))
  /\ (t_name u = lit "mfenced" ->
      plain (attr (t_attributes u) "separators")
      /\ (plain (attr (t_attributes u) "open") /\ plain (attr (t_attributes u) "close")
          \/ attr (t_attributes u) "open" = lit "{" /\ attr (t_attributes u) "close" = lit "}")).
Definition plain_tree (t : tree) : Prop := forall u, visits t u -> plain_element u.

(** The condition for \left and \right: fences that TeX reads as a delimiter, no one-sided notation. *)
Definition good_fence (s : str) : Prop := forall c s', s = c :: s' -> ascii_letter c = false /\ is_space c = false.
Definition fenced_element (u : tree) : Prop :=
  (In (t_name u) token_tags -> plain (t_value u))
  /\ (t_name u = lit "mfenced" ->
      plain (attr (t_attributes u) "separators")
      /\ plain (attr (t_attributes u) "open") /\ plain (attr (t_attributes u) "close")
      /\ good_fence (attr (t_attributes u) "open") /\ good_fence (attr (t_attributes u) "close")
      /\ (existsb has_table (t_children u) = true ->
          attr (t_attributes u) "open" = attr (t_attributes u) "close"
          \/ attr (t_attributes u) "open" <> [] /\ attr (t_attributes u) "close" <> []))
  /\ (t_name u = lit "menclose" ->
      ~ In (attr (t_attributes u) "notation") (map lit ["left"; "right"; "madruwb"])).
Definition fenced_tree (t : tree) : Prop := forall u, visits t u -> fenced_element u.

(** C45: token lists with a gap between each two. *)
Fixpoint gapped (gap : list token) (tss : list (list token)) : list token :=
  match tss with
  | [] => []
  | [ts] => ts
  | ts :: tss' => ts ++ gap ++ gapped gap tss'
  end.
(** Ends with a backslash that still waits for a character. *)
Definition unfinished (s : str) : Prop := exists ts, tex_tokens s = ts ++ [Word []].
(** Elements that put their children in a row: what stands before, between and after them. *)
Inductive row_layout (a : dict str) : str -> str -> str -> str -> Prop :=
| layout_row n : row_tag n -> row_layout a n [] (lit " ") []
| layout_sqrt : row_layout a (lit "msqrt") (lit "\sqrt{") (lit " ") (lit "}")
| layout_error : row_layout a (lit "merror") (lit "\color{red}{") (lit " ") (lit "}")
| layout_tr : row_layout a (lit "mtr") [] (lit " & ") []
| layout_toggle : In (attr a "actiontype") [[]; lit "toggle"] -> row_layout a (lit "maction") [] (lit " \Longrightarrow ") []
| layout_enclose name before after : In (name, (before, after)) notations -> dget a (lit "notation") = Some (lit name) ->
    row_layout a (lit "menclose") (lit before) (lit " ") (lit after).
(** How often a control word occurs. *)
Definition occurrences (w : string) (ts : list token) : nat :=
  length (filter (fun t => match t with Word x => str_eqb x (lit w) | _ => false end) ts).
