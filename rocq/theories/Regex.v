(** A backtracking matcher with the semantics of Python's [re]: ordered alternatives, greedy
    repetition, capture groups, negative lookahead, [search] leftmost, [sub] with the empty-match
    rule of Python 3.7+.  The patterns of /repo are written as values of [regex]. *)
From Verif Require Export PyStr.

Inductive regex : Type :=
| REmpty                               (* matches the empty string *)
| RChar (p : N -> bool)                (* one character of a class *)
| RSeq (a b : regex)
| RAlt (a b : regex)                   (* a|b, a tried first *)
| RStar (a : regex)                    (* a*, greedy *)
| ROpt (a : regex)                     (* a?, greedy *)
| RGroup (n : nat) (a : regex)         (* capture group n *)
| RNotAhead (a : regex)                (* (?!a) *)
| RBol                                 (* ^ (no MULTILINE): start of string *)
| REol.                                (* $ (no MULTILINE): end, or before a final newline *)

(** Captures: latest first. *)
Definition caps := list (nat * str).
Fixpoint cap_get (g : caps) (n : nat) : option str :=
  match g with
  | [] => None
  | (m, s) :: g' => if Nat.eqb n m then Some s else cap_get g' n
  end.

(** The text consumed when going from remaining input [s] to remaining input [s']. *)
Definition consumed (s s' : str) : str := firstn (length s - length s') s.

(** [m_regex total r s g k]: match [r] at the front of [s]; [k] is what must match afterwards; [total] is the length
    of the whole subject (so that the start of the string is recognisable). The result of the first
    successful branch is returned.  A star iteration that consumes nothing is cut, as in [re]. *)
Fixpoint m_regex {R : Type} (total : nat) (r : regex) (s : str) (g : caps)
         (k : str -> caps -> option R) {struct r} : option R :=
  match r with
  | REmpty => k s g
  | RChar p =>
      match s with
      | c :: s' => if p c then k s' g else None
      | [] => None
      end
  | RSeq a b => m_regex total a s g (fun s1 g1 => m_regex total b s1 g1 k)
  | RAlt a b =>
      match m_regex total a s g k with
      | Some x => Some x
      | None => m_regex total b s g k
      end
  | RStar a =>
      (fix star (fuel : nat) (s0 : str) (g0 : caps) {struct fuel} : option R :=
         match fuel with
         | O => k s0 g0
         | S f =>
             match m_regex total a s0 g0
                     (fun s1 g1 => if Nat.ltb (length s1) (length s0) then star f s1 g1 else None) with
             | Some x => Some x
             | None => k s0 g0
             end
         end) (length s) s g
  | ROpt a =>
      match m_regex total a s g k with
      | Some x => Some x
      | None => k s g
      end
  | RGroup n a => m_regex total a s g (fun s1 g1 => k s1 ((n, consumed s s1) :: g1))
  | RNotAhead a =>
      match m_regex total a s g (fun _ _ => Some tt) with
      | Some _ => None
      | None => k s g
      end
  | RBol => if Nat.eqb (length s) total then k s g else None
  | REol =>
      match s with
      | [] => k s g
      | [c] => if N.eqb c 10 then k s g else None
      | _ => None
      end
  end.

(** One attempt at the front of [s]; gives the remaining text and the captures.
    [must] is [re]'s must_advance flag: an empty match is refused. *)
Definition attempt (total : nat) (must : bool) (r : regex) (s : str) : option (str * caps) :=
  m_regex total r s [] (fun s1 g => if must && Nat.eqb (length s1) (length s) then None else Some (s1, g)).

(** [re.match(r, s)] *)
Definition re_match (r : regex) (s : str) : option (str * caps) := attempt (length s) false r s.

(** Leftmost match at or after the front of [s]: skipped text, remaining text, captures. *)
Fixpoint search_from (total : nat) (must : bool) (r : regex) (s : str) : option (str * str * caps) :=
  match attempt total must r s with
  | Some (s1, g) => Some ([], s1, g)
  | None =>
      match s with
      | [] => None
      | c :: s' =>
          match search_from total false r s' with
          | Some (skipped, s1, g) => Some (c :: skipped, s1, g)
          | None => None
          end
      end
  end.

(** [re.search(r, s)] as a boolean (how /repo uses it). *)
Definition re_search (r : regex) (s : str) : bool :=
  match search_from (length s) false r s with Some _ => true | None => false end.

(** [re.sub(r, repl, s)]: [repl] computes the replacement from the captures.
    After a match the search resumes at its end, with must_advance set if the match was empty. *)
Fixpoint sub_from (fuel : nat) (total : nat) (must : bool) (r : regex) (repl : caps -> str) (s : str) : str :=
  match fuel with
  | O => s
  | S f =>
      match search_from total must r s with
      | None => s
      | Some (skipped, s1, g) =>
          skipped ++ repl g
          ++ sub_from f total (Nat.eqb (length skipped + length s1) (length s)) r repl s1
      end
  end.
(** At most one empty and one non-empty match can end at each position: the fuel cannot run out
    (proved in LemRegex.v). *)
Definition re_sub (r : regex) (repl : caps -> str) (s : str) : str :=
  sub_from (S (2 * length s + 1)) (length s) false r repl s.

(** Literal text (what [re.escape(t)] compiles to). *)
Fixpoint RLit (t : str) : regex :=
  match t with
  | [] => REmpty
  | c :: t' => RSeq (RChar (N.eqb c)) (RLit t')
  end.
(** [a+] *)
Definition RPlus (a : regex) : regex := RSeq a (RStar a).
(** [.] without DOTALL: anything but newline. *)
Definition RDot : regex := RChar (fun c => negb (N.eqb c 10)).
