(** Specification of C40: the size of a tree. *)
From Coq Require Import String.
From Verif Require Export SpecTree SpecDoc.
Local Open Scope string_scope.
Local Open Scope list_scope.

(** Characters of the attribute values. *)
Definition attribute_chars (a : dict str) : nat := list_sum (map (fun kv => length (snd kv)) a).
(** Elements, plus characters of text, plus characters of attribute values. *)
Fixpoint size (t : tree) : nat :=
  match t with T _ v ch a => 1 + length v + attribute_chars a + list_sum (map size ch) end.

(** The elements of a document. *)
Definition document_trees (d : document) : list tree := flat_map tree_of_node d.
Definition document_size (d : document) : nat := list_sum (map size (document_trees d)).
(** The largest number of math elements, each inside the previous one. *)
Fixpoint math_depth (t : tree) : nat :=
  match t with T n _ ch _ => (if str_eqb n (lit "math") then 1 else 0) + list_max (map math_depth ch) end.
Definition document_math_depth (d : document) : nat := list_max (map math_depth (document_trees d)).
