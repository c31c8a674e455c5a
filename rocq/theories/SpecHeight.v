(** How deep elements and documents are nested (C83). *)
From Coq Require Import String.
From Verif Require Export ModelXml.
Local Open Scope string_scope.
Local Open Scope list_scope.

(** An element without children has height 1. *)
Fixpoint height (e : elem) : nat := match e with Elem _ _ ch _ => S (list_max (map height ch)) end.
(** So has an element of a document that holds no other; what is not an element has height 0. *)
Fixpoint node_height (n : dnode) : nat := match n with DElem _ _ ch => S (list_max (map node_height ch)) | _ => 0 end.
(** A text is as high as the highest of its nodes. *)
Definition document_height (d : document) : nat := list_max (map node_height d).
