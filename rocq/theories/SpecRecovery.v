(** Specification of text clean-up and recovery: deletions. *)
From Coq Require Import String.
From Verif Require Export PyStr.
Local Open Scope string_scope.
Local Open Scope list_scope.

(** The rest of a text after a prefix. *)
Fixpoint after (p s : str) : option str :=
  match p, s with
  | [], _ => Some s
  | c :: p', d :: s' => if N.eqb c d then after p' s' else None
  | _ :: _, [] => None
  end.

(** Left to right, delete the first [here s] characters wherever the text goes on as [s]; [skip] characters are
    still to be deleted. *)
Fixpoint deleting (here : str -> nat) (skip : nat) (s : str) : str :=
  match s with
  | [] => []
  | c :: s' =>
      match skip with
      | S k => deleting here k s'
      | O => match here s with O => c :: deleting here 0 s' | S k => deleting here k s' end
      end
  end.

Definition line_break (c : N) : bool := (N.eqb c 10 || N.eqb c 13)%N.
Definition no_line_breaks (s : str) : str := filter (fun c => negb (line_break c)) s.
(** Every occurrence of a word, found from left to right without overlap. *)
Definition without (w : str) (s : str) : str :=
  deleting (fun s0 => match after w s0 with Some _ => length w | None => 0 end) 0 s.

(** The cleaned text: no line breaks, no mml: prefixes. *)
Definition clean (xml : str) : str := without (lit "mml:") (no_line_breaks xml).

Definition quote_first (s : str) : bool :=
  match s with c :: _ => (N.eqb c 34 || N.eqb c 39)%N | [] => false end.
(** How much goes where a missing attribute value was reported for the word [w]: [w=] or [w], unless a quote follows. *)
Definition unvalued (w s : str) : nat :=
  match after (w ++ lit "=") s, after w s with
  | Some rest, Some rest' => if quote_first rest then if quote_first rest' then 0 else length w else S (length w)
  | None, Some rest => if quote_first rest then 0 else length w
  | _, None => 0
  end.
(** The text without the unvalued occurrences of a word. *)
Definition strike (w s : str) : str := deleting (unvalued w) 0 s.

(** [a] is [b] with characters deleted. *)
Inductive subseq : str -> str -> Prop :=
| subseq_nil : subseq [] []
| subseq_keep c a b : subseq a b -> subseq (c :: a) (c :: b)
| subseq_drop c a b : subseq a b -> subseq a (c :: b).

(** The text before and after the last occurrence of a character. *)
Fixpoint split_last (c : N) (s : str) : option (str * str) :=
  match s with
  | [] => None
  | x :: s' => match split_last c s' with
               | Some (a, b) => Some (x :: a, b)
               | None => if N.eqb x c then Some ([], s') else None
               end
  end.
(** One line without what stands between the last space before its last [>] and that [>] (included), if some [<] stands before. *)
Definition cut_line (l : str) : str :=
  match split_last 62 l with
  | None => l
  | Some (before, tail) =>
      match split_last 32 before with
      | None => l
      | Some (a, _) => if existsb (N.eqb 60) a then a ++ lit " " ++ tail else l
      end
  end.
Definition cut (s : str) : str := join [10%N] (map cut_line (split_on 10 s)).

(** The word around a position of a line: from just after the previous space up to the next space or [>]. *)
Definition word_at (line : str) (pos : nat) (w : str) : Prop :=
  exists a u v b, line = a ++ u ++ v ++ b /\ length (a ++ u) = pos /\ w = u ++ v
    /\ ~ In 32%N w /\ ~ In 62%N v
    /\ (a = [] \/ exists a', a = a' ++ [32%N])
    /\ (b = [] \/ exists c b', b = c :: b' /\ (c = 32%N \/ c = 62%N)).

(** The line with a number counted from one; number zero is the last line. *)
Definition line_number (s : str) (n : nat) : option str :=
  match n with
  | O => nth_error (split_on 10 s) (length (split_on 10 s) - 1)
  | S k => nth_error (split_on 10 s) k
  end.

(** What recovery makes of a text and the exception of the parser. *)
Inductive recovers (s : str) : exn -> str -> Prop :=
| recovers_other e : (forall code lineno offset, e <> EExpat code lineno offset) -> recovers s e s
| recovers_generic code lineno offset : code <> 4 -> recovers s (EExpat code lineno offset) (cut s)
| recovers_word lineno offset line w :
    line_number s lineno = Some line -> word_at line offset w -> strike w s <> s ->
    recovers s (EExpat 4 lineno offset) (strike w s)
| recovers_no_word lineno offset line w :
    line_number s lineno = Some line -> word_at line offset w -> strike w s = s ->
    recovers s (EExpat 4 lineno offset) (cut s).
(** Recovery itself fails: the reported position does not exist. *)
Definition recovery_fails (s : str) (e : exn) : Prop :=
  exists lineno offset, e = EExpat 4 lineno offset /\
    match line_number s lineno with None => True | Some line => length line < offset end.
