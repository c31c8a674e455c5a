(** Small trees for the examples beside the theorems. *)
From Coq Require Import String.
From Verif Require Export SpecDoc SpecHeap.
Local Open Scope string_scope.
Local Open Scope list_scope.

Definition leaf (tag text : string) : tree := T (lit tag) (lit text) [] [].
Definition mi (text : string) : tree := leaf "mi" text.
Definition mo (text : string) : tree := leaf "mo" text.
Definition mn (text : string) : tree := leaf "mn" text.
Definition el (tag : string) (ch : list tree) : tree := T (lit tag) [] ch [].
Definition ela (tag : string) (a : list (string * string)) (ch : list tree) : tree :=
  T (lit tag) [] ch (map (fun kv => (lit (fst kv), lit (snd kv))) a).
Definition cell (t : tree) : tree := el "mtr" [el "mtd" [t]].
(** x + 1 in a table in a table *)
Definition inner_tab : tree := el "mtable" [cell (mi "x"); cell (mn "1")].
Definition outer_tab : tree := el "mtable" [cell inner_tab; cell (mi "y")].
(** A DOM element without attributes, with text. *)
Definition dleaf (tag text : string) : dnode := DElem (lit tag) [] [DText (lit text)].
Definition del (tag : string) (ch : list dnode) : dnode := DElem (lit tag) [] ch.
Definition no_word (c : N) : bool := false.
