(** Specification of object graphs: which dictionaries an element tree owns, which tree it holds, positions in a tree. *)
From Coq Require Import String.
From Verif Require Export SpecTree.
Local Open Scope string_scope.
Local Open Scope list_scope.

(** The attribute dictionaries of an element and its descendants. *)
Fixpoint locs (e : elem) : list loc :=
  match e with Elem _ _ ch l => l :: flat_map locs ch end.

(** The objects are distinct and exist in the heap. *)
Definition sound (h : heap) (ls : list loc) : Prop := NoDup ls /\ forall l, In l ls -> l < length h.

(** The tree an element holds in a heap. *)
Fixpoint tree_at (h : heap) (e : elem) : tree :=
  match e with Elem n v ch l => T n v (map (tree_at h) ch) (hget h l) end.

(** [x] is strictly below [e]. *)
Inductive below_elem : elem -> elem -> Prop :=
| below_child e c : In c (e_children e) -> below_elem e c
| below_deep e c x : In c (e_children e) -> below_elem c x -> below_elem e x.

(** [x] is an mtable strictly inside an mtable of the tree [e]. *)
Definition inner_table (e x : elem) : Prop :=
  exists outer, (outer = e \/ below_elem e outer) /\ is_table (e_name outer) = true
                /\ below_elem outer x /\ is_table (e_name x) = true.

(** Trees with an mtable strictly inside an mtable. *)
Fixpoint table_in_table (t : tree) : bool :=
  match t with
  | T n _ ch _ => (is_table n && existsb has_table ch) || existsb table_in_table ch
  end.

(** Converting one element several times: the outcomes and the final heap. *)
Fixpoint convert_times (n : nat) (e : elem) (h : heap) : heap * list (res str) :=
  match n with
  | O => (h, [])
  | S n' => let (h1, r) := convert_elem e h in
            let (h2, rs) := convert_times n' e h1 in (h2, r :: rs)
  end.

(** A position in a tree: the path from the root with the siblings to the left and right. *)
Inductive context : Type :=
| Hole
| At (name value : str) (left : list tree) (inner : context) (right : list tree) (attributes : dict str).
Fixpoint plug (c : context) (t : tree) : tree :=
  match c with
  | Hole => t
  | At n v l c' r a => T n v (l ++ plug c' t :: r) a
  end.
(** Some mtable encloses the hole. *)
Fixpoint in_table (c : context) : bool :=
  match c with
  | Hole => false
  | At n _ _ c' _ _ => is_table n || in_table c'
  end.
Definition named_mprescripts (t : tree) : bool := str_eqb (t_name t) (lit "mprescripts").
(** What a parent can observe of a child besides its LaTeX. *)
Definition same_look (t u : tree) : Prop :=
  named_mprescripts t = named_mprescripts u
  /\ Nat.ltb 1 (length (t_children t)) = Nat.ltb 1 (length (t_children u))
  /\ has_table t = has_table u.

(** The outcome of a tree with [t] at position [c] when the outcome of [t] itself is [r]. *)
Fixpoint fill (inside : bool) (c : context) (t : tree) (r : res str) : res str :=
  match c with
  | Hole => r
  | At n v l c' rg a =>
      let b := inside || is_table n in
      node inside n v (map (fun x => (x, render b x)) l ++ (plug c' t, fill b c' t r) :: map (fun x => (x, render b x)) rg) a
  end.
