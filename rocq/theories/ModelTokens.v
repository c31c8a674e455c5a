(** Token-level code: normalizer.py, wrapper.py, the converters of syntax.py, and the classes of
    usecases.py that do not look at children (MI, Character, Operator, MO, MN, TextCommand, MText). *)
From Coq Require Import String.
From Verif Require Export PyStr Regex Tables.
Local Open Scope string_scope.
Local Open Scope list_scope.

(** services/normalizer.py:1-3 [WhiteSpaceNormalizer.normalize]: [' '.join(string.split())] *)
Definition normalize (s : str) : str := join (lit " ") (split s).

(** services/wrapper.py:3-9 [Wrapper.wrap] *)
Definition wrap (op close val : str) : str := op ++ val ++ close.
(** services/wrapper.py:11-16 [ParenthesisWrapper.wrap] *)
Definition paren_wrap (val : str) : str := wrap (lit "\left(") (lit "\right)") val.
(** services/wrapper.py:18-21 [ParenthesisWrapper.wrap_if_more_than_one_char] *)
Definition paren_wrap_if_more_than_one_char (val : str) : str :=
  if Nat.leb (length val) 1 then val else paren_wrap val.
(** services/wrapper.py:23-28 [BracketWrapper.wrap] *)
Definition bracket_wrap (val : str) : str := wrap (lit "{") (lit "}") val.
(** services/wrapper.py:30-37 [GenericWrapper] *)
Definition generic_wrap (op close val : str) : str :=
  wrap (lit "\left" ++ op) (lit "\right" ++ close) val.
(** services/wrapper.py:51-55 [JoinWithManySeparators._get]; [self._separators[-1]] is the last one. *)
Definition sep_get (separators : list str) (index : nat) : str :=
  if Nat.ltb index (length separators) then nth index separators []
  else if Nat.ltb 0 (length separators) then last separators [] else lit ",".
(** services/wrapper.py:40-48 [JoinWithManySeparators.join]: the for loop over [enumerate(arr)],
    [n] being [len(arr)] and [acc] the accumulator. *)
Fixpoint sep_join_loop (separators : list str) (n index : nat) (arr : list str) (acc : str) : str :=
  match arr with
  | [] => acc
  | cur :: arr' =>
      let separator := if Nat.eqb index (n - 1) then [] else sep_get separators index in
      sep_join_loop separators n (S index) arr' (acc ++ cur ++ separator)
  end.
Definition sep_join (separators : list str) (arr : list str) : str :=
  sep_join_loop separators (length arr) 0 arr [].

(** f"{cmd}{{{val}}}": a command applied to a braced argument (f-string shape used throughout
    usecases.py). *)
Definition cmd1 (cmd : string) (val : str) : str := lit cmd ++ lit "{" ++ val ++ lit "}".

(** syntax.py:26: the class [[a-z0-9]] under re.IGNORECASE for str patterns.  Python's documentation:
    the 52 ASCII letters, the digits, and U+0130, U+0131, U+017F, U+212A. *)
Definition alnum_ignorecase (c : N) : bool :=
  (((48 <=? c) && (c <=? 57)) || ((65 <=? c) && (c <=? 90)) || ((97 <=? c) && (c <=? 122))
   || (c =? 304) || (c =? 305) || (c =? 383) || (c =? 8490))%N.

(** syntax.py:43-47 [convert_accent_char_to_ltx]; [if not cmd] is also true for "". *)
Definition convert_accent_char_to_ltx (a : accent_char) : option str :=
  match dget accent_to_ltx_cmd (ac_accent a) with
  | None => None
  | Some cmd =>
      if truthy cmd then Some (lit "\" ++ cmd ++ lit "{" ++ ac_char a ++ lit "}") else None
  end.

(** syntax.py:49-53 [convert_special_char_to_ltx]; a dataclass instance is always true. *)
Definition convert_special_char_to_ltx (char : str) : option str :=
  match dget special_font_chars char with
  | None => None
  | Some sf => Some (lit "\" ++ sf_font_cmd sf ++ lit "{" ++ sf_letter sf ++ lit "}")
  end.

(** syntax.py:25-41 [HashUTF8ToLtXConverter.convert] *)
Definition utf8_convert (char : str) : str :=
  match re_match (RChar alnum_ignorecase) char with
  | Some _ => char
  | None =>
      match dget vowels_with_accents char with
      | Some accent =>
          match convert_accent_char_to_ltx accent with
          | Some ltx_cmd => if truthy ltx_cmd then ltx_cmd else char
          | None => char
          end
      | None =>
          match convert_special_char_to_ltx char with
          | Some special => if truthy special then special else char
          | None => char
          end
      end
  end.

(** Python's [a or b] on strings. *)
Definition py_or (a b : str) : str := if truthy a then a else b.

(** usecases.py:113-132 [Character.apply], [_apply] and the three [_find_by_*] *)
Definition character_apply (value : str) : str :=
  py_or (dget_or all_math_symbols_by_char value [])
    (py_or (dget_or all_math_symbols_by_glyph value [])
       (py_or (dget_or math_number_by_glyph value [])
          (utf8_convert value))).

(** usecases.py:79-106 [MI._wrap_in_math_variant] *)
Definition wrap_in_math_variant (value math_variant : str) : str :=
  let is v := str_eqb math_variant (lit v) in
  if is "bold" then cmd1 "\mathbf" value
  else if is "italic" then cmd1 "\mathit" value
  else if is "bold-italic" then cmd1 "\mathbf" (cmd1 "\mathit" value)
  else if is "double-struck" then cmd1 "\mathbb" value
  else if is "bold-fraktur" then cmd1 "\mathbf" (cmd1 "\mathfrak" value)
  else if is "script" then cmd1 "\mathcal" value
  else if is "bold-script" then cmd1 "\mathbf" (cmd1 "\mathcal" value)
  else if is "fraktur" then cmd1 "\mathfrak" value
  else if is "sans-serif" then cmd1 "\mathsf" value
  else if is "bold-sans-serif" then cmd1 "\mathbf" (cmd1 "\mathsf" value)
  else if is "sans-serif-italic" then cmd1 "\mathsf" (cmd1 "\mathit" value)
  else if is "sans-serif-bold-italic" then cmd1 "\mathbf" (cmd1 "\mathsf" (cmd1 "\mathit" value))
  else if is "monospace" then cmd1 "\mathtt" value
  else value.

(** usecases.py:74-77 [MI._get_math_variant] *)
Definition get_math_variant (attributes : dict str) : str :=
  match dget attributes (lit "mathvariant") with
  | None => []
  | Some v => v
  end.

(** usecases.py:58-72 [MI.convert] on the element's value and attributes. *)
Definition mi_convert (value : str) (attributes : dict str) : str :=
  let normalized_value := normalize value in
  if str_eqb normalized_value (lit " ") then character_apply normalized_value
  else
    let trimmed_value := strip normalized_value in
    let converted_char := character_apply trimmed_value in
    let parsed_char := utf8_convert converted_char in
    if negb (str_eqb parsed_char converted_char) then parsed_char
    else wrap_in_math_variant converted_char (get_math_variant attributes).

(** usecases.py:151-181 [Operator.operate], [Operator._operate] and the three [_find_by_*]; [if latex_command:] is false for
    None and for "". *)
Definition operator_operate (value : str) : str :=
  match dget all_math_operators_by_char value with
  | Some (c :: cs) => c :: cs
  | _ =>
      match dget all_math_operators_by_glyph value with
      | Some (c :: cs) => c :: cs
      | _ =>
          match dget math_number_by_glyph value with
          | Some (c :: cs) => c :: cs
          | _ => utf8_convert value
          end
      end
  end.

(** usecases.py:140-144 [MO.convert] *)
Definition mo_convert (value : str) : str := operator_operate (strip (normalize value)).

(** usecases.py:189-193 [MN.convert] *)
Definition mn_convert (value : str) : str :=
  let normalized_value := strip (normalize value) in
  let converted_value := dget_or math_number_by_glyph normalized_value [] in
  py_or converted_value normalized_value.

(** usecases.py:618-620 [TextCommand.__init__]: [math_variant or "normal"] *)
Definition text_variant (math_variant : option str) : str :=
  match math_variant with
  | Some (c :: cs) => c :: cs
  | _ => lit "normal"
  end.
(** usecases.py:629-643 [TextCommand._commands] *)
Definition text_commands (math_variant : str) : list string :=
  let is v := str_eqb math_variant (lit v) in
  if is "bold" then ["\textbf"]
  else if is "italic" then ["\textit"]
  else if is "bold-italic" then ["\textit"; "\textbf"]
  else if is "double-struck" then ["\mathbb"]
  else if is "monospace" then ["\mathtt"]
  else if str_in math_variant [lit "bold-fraktur"; lit "fraktur"] then ["\mathfrak"]
  else ["\text"].
(** usecases.py:622-627 [TextCommand.apply]: the loop over the commands *)
Definition text_command_apply (math_variant : option str) (value : str) : str :=
  fold_left (fun acc command => cmd1 command acc) (text_commands (text_variant math_variant)) value.

(** usecases.py:663: [re.match(r"^[a-zA-Z0-9]$", char) or char == " "] *)
Definition ascii_alnum (c : N) : bool :=
  (((97 <=? c) && (c <=? 122)) || ((65 <=? c) && (c <=? 90)) || ((48 <=? c) && (c <=? 57)))%N.
Definition mtext_is_alphanumeric (char : str) : bool :=
  match re_match (RSeq RBol (RSeq (RChar ascii_alnum) REol)) char with
  | Some _ => true
  | None => str_eqb char (lit " ")
  end.

(** usecases.py:646-649 [Char] *)
Record char_rec := Char { ch_value : str; ch_alnum : bool }.

(** usecases.py:660-667: the comprehension building [chars] *)
Definition mtext_chars (value : str) : list char_rec :=
  map (fun c => Char [c] (mtext_is_alphanumeric [c])) value.

(** usecases.py:669-676: the merging loop.  [merged] is [merged_chars] reversed, so that
    [merged_chars[-1]] is its head; [last_char.value += char.value] replaces that head. *)
Fixpoint mtext_merge_loop (chars : list char_rec) (merged : list char_rec) : list char_rec :=
  match chars with
  | [] => rev merged
  | ch :: chars' =>
      match ch_alnum ch, merged with
      | true, last_char :: merged' =>
          if ch_alnum last_char
          then mtext_merge_loop chars' (Char (ch_value last_char ++ ch_value ch) true :: merged')
          else mtext_merge_loop chars' (ch :: merged)
      | _, _ => mtext_merge_loop chars' (ch :: merged)
      end
  end.
Definition mtext_merge (chars : list char_rec) : list char_rec := mtext_merge_loop chars [].

(** usecases.py:656-687 [MText.convert]; an [MIMathMlElement] (protocols.py:74-92) has the given
    value and no attributes. *)
Definition mtext_convert (value : str) (attributes : dict str) : str :=
  concat
    (map (fun ch =>
            if negb (ch_alnum ch) then mi_convert (ch_value ch) []
            else text_command_apply (dget attributes (lit "mathvariant")) (ch_value ch))
       (mtext_merge (mtext_chars value))).
