(** C14: the visible tokens of a tree in reading order. *)
From Coq Require Import String.
From Verif Require Export SpecTeX.
Local Open Scope string_scope.
Local Open Scope list_scope.

(** The things at the two positions. *)
Definition at_pair {A} (xs : list A) (p : option (nat * nat)) : list A :=
  match p with
  | Some (i, j) => match nth_error xs i, nth_error xs j with Some x, Some y => [x; y] | _, _ => [] end
  | None => []
  end.
(** One thing per child, put into the order in which the children are read: nothing of mphantom, the first of a
    fixed maction, the index before the radicand, the accent before its base, prescripts before the base. *)
Definition arrange {A} (n : str) (a : dict str) (ch : list tree) (xs : list A) : list A :=
  if str_eqb n (lit "mphantom") then []
  else if str_eqb n (lit "maction") && fixed_action a then firstn 1 xs
  else if str_in n (map lit ["mroot"; "munder"; "mover"]) then rev xs
  else if str_eqb n (lit "mmultiscripts") then at_pair xs (prescripts ch) ++ firstn 1 xs ++ at_pair xs (postscripts ch)
  else xs.
(** The visible tokens, each with a flag: does a math element enclose it (in this tree)? *)
Fixpoint reading (under : bool) (t : tree) : list (bool * tree) :=
  match t with
  | T n _ ch a => if str_in n token_tags then [(under, t)]
                  else concat (arrange n a ch (map (reading (under || str_eqb n (lit "math"))) ch))
  end.
(** What a token contributes: its LaTeX, with white space normalised below math. *)
Definition piece (x : bool * tree) (p : str) : Prop :=
  exists s, latex_of (snd x) = Ok s /\ p = if fst x then squeeze s else s.
(** The pieces occur in the text one after the other, without overlap. *)
Inductive in_order : list str -> str -> Prop :=
| in_order_nil s : in_order [] s
| in_order_cons gap p ps s : in_order ps s -> in_order (p :: ps) (gap ++ p ++ s).
