(** Specification helpers for token and layout properties. *)
From Coq Require Import String.
From Verif Require Export SpecTree.
Local Open Scope string_scope.
Local Open Scope list_scope.

(** The children convert to these texts. *)
Definition converts (ch : list tree) (ss : list str) : Prop := Forall2 (fun t s => latex_of t = Ok s) ch ss.

(** The separator in the gap after child number [i]. *)
Definition separator (separators : str) (i : nat) : str :=
  match separators with
  | [] => lit ","
  | _ => [nth (Nat.min i (length separators - 1)) separators 0%N]
  end.
(** Texts with something in the gap after each but the last: text 0, gap 0, text 1, gap 1, ... *)
Definition with_gaps (gap : nat -> str) (ss : list str) : str :=
  concat (map (fun i => nth i ss [] ++ (if Nat.ltb (S i) (length ss) then gap i else [])) (seq 0 (length ss))).

(** [u] is [t] or lies below [t]. *)
Inductive occurs_in (u : tree) : tree -> Prop :=
| occurs_here : occurs_in u u
| occurs_deep n v ch a c : In c ch -> occurs_in u c -> occurs_in u (T n v ch a).

(** mmultiscripts: which children are the prescripts and the postscripts (counted from 0). *)
Definition is_mprescripts (ch : list tree) (i : nat) : bool :=
  match nth_error ch i with Some t => str_eqb (t_name t) (lit "mprescripts") | None => false end.
Definition prescripts (ch : list tree) : option (nat * nat) :=
  if is_mprescripts ch 1 && Nat.leb 4 (length ch) then Some (2, 3)
  else if is_mprescripts ch 3 && Nat.leb 6 (length ch) then Some (4, 5)
  else None.
Definition postscripts (ch : list tree) : option (nat * nat) :=
  if is_mprescripts ch 1 then None else Some (1, 2).
(** Child number [i] converts to [s]. *)
Definition child_latex (ch : list tree) (i : nat) (s : str) : Prop :=
  exists t, nth_error ch i = Some t /\ latex_of t = Ok s.
(** The pair of scripts at the two positions converts to [s]; no pair, no text. *)
Definition script_pair (ch : list tree) (where_ : option (nat * nat)) (start : string) (s : str) : Prop :=
  match where_ with
  | None => s = []
  | Some (i, j) => exists sub sup, child_latex ch i sub /\ child_latex ch j sup
                   /\ s = lit start ++ lit "_{" ++ sub ++ lit "}^{" ++ sup ++ lit "}"
  end.

(** The fences with a matrix environment of their own. *)
Definition env_pairs : list (string * string * string) :=
  [("(", ")", "pmatrix"); ("[", "]", "bmatrix"); ("{", "}", "Bmatrix"); ("|", "|", "vmatrix"); ("||", "||", "Vmatrix")].
