(** The matcher of [Regex.v] and the clean-up and recovery of [ModelXml.v] once more, counting how often a character of the text is
    compared with the pattern (C74).  The order of comparisons is that of a backtracking matcher; CPython's also skips comparisons that
    cannot succeed at the first character of a pattern, which changes no order of growth. *)
From Coq Require Import String.
From Verif Require Export ModelXml.
Local Open Scope string_scope.
Local Open Scope list_scope.

Definition count {A} (n : nat) (x : nat * A) : nat * A := (n + fst x, snd x).
(** [x], and if it fails, [y]. *)
Definition or_else {R} (x y : nat * option R) : nat * option R :=
  match snd x with Some _ => x | None => count (fst x) y end.

(** As [m_regex] of Regex.v; each comparison of a class with the next character, or with the end of the text, counts one. *)
Fixpoint c_regex {R : Type} (total : nat) (r : regex) (s : str) (g : caps)
         (k : str -> caps -> nat * option R) {struct r} : nat * option R :=
  match r with
  | REmpty => k s g
  | RChar p =>
      match s with
      | c :: s' => if p c then count 1 (k s' g) else (1, None)
      | [] => (1, None)
      end
  | RSeq a b => c_regex total a s g (fun s1 g1 => c_regex total b s1 g1 k)
  | RAlt a b => or_else (c_regex total a s g k) (c_regex total b s g k)
  | RStar a =>
      (fix star (fuel : nat) (s0 : str) (g0 : caps) {struct fuel} : nat * option R :=
         match fuel with
         | O => k s0 g0
         | S f =>
             or_else (c_regex total a s0 g0
                       (fun s1 g1 => if Nat.ltb (length s1) (length s0) then star f s1 g1 else (0, None)))
               (k s0 g0)
         end) (length s) s g
  | ROpt a => or_else (c_regex total a s g k) (k s g)
  | RGroup n a => c_regex total a s g (fun s1 g1 => k s1 ((n, consumed s s1) :: g1))
  | RNotAhead a =>
      let x := c_regex total a s g (fun _ _ => (0, Some tt)) in
      match snd x with
      | Some _ => (fst x, None)
      | None => count (fst x) (k s g)
      end
  | RBol => if Nat.eqb (length s) total then count 1 (k s g) else (1, None)
  | REol =>
      match s with
      | [] => count 1 (k s g)
      | [c] => if N.eqb c 10 then count 1 (k s g) else (1, None)
      | _ => (1, None)
      end
  end.

(** As [attempt], [search_from], [re_search], [sub_from], [re_sub]. *)
Definition c_attempt (total : nat) (must : bool) (r : regex) (s : str) : nat * option (str * caps) :=
  c_regex total r s [] (fun s1 g => (0, if must && Nat.eqb (length s1) (length s) then None else Some (s1, g))).
Fixpoint c_search_from (total : nat) (must : bool) (r : regex) (s : str) : nat * option (str * str * caps) :=
  let x := c_attempt total must r s in
  match snd x with
  | Some (s1, g) => (fst x, Some ([], s1, g))
  | None =>
      match s with
      | [] => (fst x, None)
      | c :: s' =>
          let y := c_search_from total false r s' in
          (fst x + fst y, match snd y with Some (skipped, s1, g) => Some (c :: skipped, s1, g) | None => None end)
      end
  end.
Definition c_re_search (r : regex) (s : str) : nat * bool :=
  let x := c_search_from (length s) false r s in (fst x, match snd x with Some _ => true | None => false end).
Fixpoint c_sub_from (fuel : nat) (total : nat) (must : bool) (r : regex) (repl : caps -> str) (s : str) : nat * str :=
  match fuel with
  | O => (0, s)
  | S f =>
      let x := c_search_from total must r s in
      match snd x with
      | None => (fst x, s)
      | Some (skipped, s1, g) =>
          let y := c_sub_from f total (Nat.eqb (length skipped + length s1) (length s)) r repl s1 in
          (fst x + fst y, skipped ++ repl g ++ snd y)
      end
  end.
Definition c_re_sub (r : regex) (repl : caps -> str) (s : str) : nat * str :=
  c_sub_from (S (2 * length s + 1)) (length s) false r repl s.

(** error_handler.py:28-40 [_fix_missing_attribute_value] *)
Definition c_fix_missing_attribute_value (code lineno offset : nat) (xml : str) : nat * res str :=
  if negb (Nat.eqb code 4) then (0, Ok xml)
  else
    match py_index (split_on 10 xml) (Z.of_nat lineno - 1) with
    | None => (0, Raise EIndex)
    | Some goal_line =>
        match get_word_at_str_pos goal_line offset with
        | None => (0, Raise EIndex)
        | Some word => let x := c_re_sub (missing_value_pattern word) (fun _ => []) xml in (fst x, Ok (snd x))
        end
    end.

Section Env.
Variable word_char : N -> bool.
(** error_handler.py:20-26: the search is the first part of the condition, so it is made a last time when [counter] is 5. *)
Fixpoint c_generic_loop (fuel : nat) (xml result : str) : nat * str :=
  let x := c_re_search (generic_missing_pattern word_char) xml in
  match fuel with
  | O => (fst x, result)
  | S f =>
      if snd x
      then let y := c_re_sub (generic_missing_pattern word_char) expand_1_3 xml in
           count (fst x + fst y) (c_generic_loop f xml (snd y))
      else (fst x, result)
  end.
(** error_handler.py:15-26 [_fix_missing_attribute] *)
Definition c_fix_missing_attribute (code lineno offset : nat) (xml : str) : nat * res str :=
  let x := c_fix_missing_attribute_value code lineno offset xml in
  match snd x with
  | Raise e => (fst x, Raise e)
  | Ok result =>
      if negb (str_eqb result xml) then (fst x, Ok result)
      else let y := c_generic_loop 5 xml result in (fst x + fst y, Ok (snd y))
  end.
(** error_handler.py:9-13 [fix_error] *)
Definition c_fix_error (xml : str) (error : exn) : nat * res str :=
  match error with
  | EExpat code lineno offset => c_fix_missing_attribute code lineno offset xml
  | _ => (0, Ok xml)
  end.

Variable parse_string : str -> res document.
(** adapter.py:37-51 [_mathml_elements] *)
Fixpoint c_parse_loop (fuel : nat) (xml : str) (last : option exn) : nat * (str * res (list dnode)) :=
  match fuel with
  | O => (0, (xml, match last with Some e => Raise e | None => Ok [] end))
  | S f =>
      match parse_string xml with
      | Ok dom => (0, (xml, Ok (get_elements_by_tag_name dom (lit "math"))))
      | Raise e =>
          let x := c_fix_error xml e in
          match snd x with
          | Raise e' => (fst x, (xml, Raise e'))
          | Ok xml' => count (fst x) (c_parse_loop f xml' (Some e))
          end
      end
  end.
(** adapter.py:20-24: clean-up and reading; the comparisons of a whole call but for those of the tokens. *)
Definition c_reading (xml : str) : nat * (str * res (list dnode)) :=
  let x := c_re_sub line_break_pattern (fun _ => []) xml in
  let y := c_re_sub (RLit (lit "mml:")) (fun _ => []) (snd x) in
  count (fst x + fst y) (c_parse_loop 5 (snd y) None).
End Env.
