(** Specification: what of a document matters. *)
From Coq Require Import String.
From Verif Require Export SpecDoc.
Local Open Scope string_scope.
Local Open Scope list_scope.

(** A word occurs in a text. *)
Definition occurs (w s : str) : Prop := exists a b, s = a ++ w ++ b.

(** A node without the text, comments, CDATA and processing instructions that stand beside elements. *)
Fixpoint bare (n : dnode) : dnode :=
  match n with
  | DElem tag a ch => if existsb is_elem_node ch then DElem tag a (filter is_elem_node (map bare ch)) else n
  | _ => n
  end.
Definition bare_doc (d : document) : document := filter is_elem_node (map bare d).

(** Several calls of [convert] on one adapter object, and the same calls on a new adapter each. *)
Section Adapter.
Variable word_char : N -> bool.
Variable parse_string : str -> res document.
Fixpoint one_adapter (st : adapter_state) (xmls : list str) (h : heap) : heap * list (res (list elem)) :=
  match xmls with
  | [] => (h, [])
  | x :: xmls' => let (st1, hr) := adapter_convert word_char parse_string st x h in
                  let (h2, rs) := one_adapter st1 xmls' (fst hr) in (h2, snd hr :: rs)
  end.
Fixpoint new_adapters (xmls : list str) (h : heap) : heap * list (res (list elem)) :=
  match xmls with
  | [] => (h, [])
  | x :: xmls' => let (_, hr) := adapter_convert word_char parse_string adapter_new x h in
                  let (h2, rs) := new_adapters xmls' (fst hr) in (h2, snd hr :: rs)
  end.
End Adapter.
