(** Specification of C07 and C08: required numbers of children, visited elements, first fault. *)
From Coq Require Import String.
From Verif Require Export SpecText.
Local Open Scope string_scope.
Local Open Scope list_scope.

(** Elements with an exact number of children. *)
Definition exact_counts : list (string * nat) :=
  [("msup", 2); ("msub", 2); ("mfrac", 2); ("mroot", 2); ("munder", 2); ("mover", 2); ("msubsup", 3); ("munderover", 3)].
Fixpoint required (l : list (string * nat)) (n : str) : option nat :=
  match l with
  | [] => None
  | (s, k) :: l' => if str_eqb n (lit s) then Some k else required l' n
  end.
(** actiontype given and not toggle *)
Definition fixed_action (a : dict str) : bool :=
  match attr a "actiontype" with [] => false | s => negb (str_eqb s (lit "toggle")) end.

(** What is wrong with the element itself. *)
Definition own_fault (t : tree) : option exn :=
  match t with
  | T n _ ch a =>
      match required exact_counts n with
      | Some k => if Nat.eqb (length ch) k then None else Some (EInvalidChildren n k (length ch) (lit "exactly"))
      | None =>
          if str_eqb n (lit "mmultiscripts")
          then if Nat.leb 3 (length ch) then None else Some (EInvalidChildren n 3 (length ch) (lit "at least"))
          else if str_eqb n (lit "maction")
          then if fixed_action a && Nat.eqb (length ch) 0 then Some EIndex else None
          else None
      end
  end.

(** The children that are converted, in the order of conversion. *)
Definition pick (ch : list tree) (i : nat) : list tree :=
  match nth_error ch i with Some t => [t] | None => [] end.
Definition pick_pair (ch : list tree) (p : option (nat * nat)) : list tree :=
  match p with Some (i, j) => pick ch i ++ pick ch j | None => [] end.
Definition visited (t : tree) : list tree :=
  match t with
  | T n _ ch a =>
      if str_in n (map lit ["mphantom"; "mi"; "mo"; "mn"; "mtext"]) then []
      else if str_eqb n (lit "maction") && fixed_action a then firstn 1 ch
      else if str_eqb n (lit "mmultiscripts")
      then pick ch 0 ++ pick_pair ch (prescripts ch) ++ pick_pair ch (postscripts ch)
      else ch
  end.
(** [u] is converted when [t] is. *)
Inductive visits : tree -> tree -> Prop :=
| visits_self t : visits t t
| visits_child t c u : In c (visited t) -> visits c u -> visits t u.
Definition well_formed (t : tree) : Prop := forall u, visits t u -> own_fault u = None.
(** The first fault in visiting order. *)
Inductive first_fault : tree -> exn -> Prop :=
| fault_here t e : own_fault t = Some e -> first_fault t e
| fault_below t before c behind e : own_fault t = None -> visited t = before ++ c :: behind ->
    Forall well_formed before -> first_fault c e -> first_fault t e.

(** Decimal numerals. *)
Definition numeral (s : str) (n : nat) : Prop :=
  s <> [] /\ Forall (fun c => (48 <= c <= 57)%N) s
  /\ fold_left (fun v c => (10 * v + (c - 48))%N) s 0%N = N.of_nat n
  /\ (forall s', s = 48%N :: s' -> s' = []).
