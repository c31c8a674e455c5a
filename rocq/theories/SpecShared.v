(** Specification of element objects that stand at several places of a tree (C69). *)
From Coq Require Import String.
From Verif Require Export SpecObjects.
Local Open Scope string_scope.
Local Open Scope list_scope.

(** The dictionaries exist; nothing is said about their being distinct. *)
Definition in_heap (h : heap) (e : elem) : Prop := forall l, In l (locs e) -> l < length h.

(** [x] is an mtable at a place of the tree [e] that no mtable encloses. *)
Inductive outermost_table : elem -> elem -> Prop :=
| outermost_here e : is_table (e_name e) = true -> outermost_table e e
| outermost_below e c x : is_table (e_name e) = false -> In c (e_children e) -> outermost_table c x -> outermost_table e x.

(** No mtable stands both inside an mtable of [f] and outside of all in [e], unless it has the flag to begin with. *)
Definition unmixed (h : heap) (e f : elem) : Prop :=
  forall x y, outermost_table e x -> inner_table f y -> e_attributes x = e_attributes y ->
  truthy (attr (hget h (e_attributes x)) "innerTable") = true.
