(** Specification of texts that are not documents, and of references that vanish. *)
From Coq Require Import String.
From Verif Require Export SpecXml.
Local Open Scope string_scope.
Local Open Scope list_scope.

(** ** Texts up to a place between two nodes: declared prefixes, the name of the element around (none: before the root element) *)
Inductive inside : list str -> option str -> str -> Prop :=
| at_root before x : outer_text before x -> inside [] None x
| in_element ps o u n l x ch y : inside ps o u -> tag_text false ps n l x -> nodes_text false (declared l ++ ps) ch y ->
    inside (declared l ++ ps) (Some n) (u ++ x ++ lit ">" ++ y).

(** ** Texts up to an error, with its code and the position it is reported at *)
Inductive malformed : nat -> nat -> str -> Prop :=
(** A reference to an entity that is not defined. *)
| malformed_entity ps n u e : inside ps (Some n) u -> undefined e -> malformed 11 (length u) (u ++ lit "&" ++ e ++ lit ";")
(** An end tag with another name. *)
| malformed_end ps n u n' w : inside ps (Some n) u -> qualified n' -> n' <> n -> Forall blank w ->
    malformed 7 (length u + 2) (u ++ lit "</" ++ n' ++ w ++ lit ">")
(** An element with a prefix that is not declared. *)
| malformed_prefix ps o u p m n l y w e : inside ps o u -> prefixed p m n -> ~ In p (lit "xmlns" :: lit "xml" :: declared l ++ ps) ->
    NoDup (map fst l) -> Forall (fun kv => good_name (fst kv)) l -> attributes_text false l y -> Forall blank w -> e = lit ">" \/ e = lit "/>" ->
    malformed 27 (length u) (u ++ lit "<" ++ n ++ y ++ w ++ e)
(** An attribute given twice. *)
| malformed_twice ps o u n l y w k w1 w2 q v x w' e : inside ps o u -> good_name n -> NoDup (map fst l) ->
    Forall (fun kv => good_name (fst kv)) l -> attributes_text false l y ->
    In k (map fst l) -> good_attribute (k, v) -> w <> [] -> Forall blank (w ++ w1 ++ w2) -> q = 34%N \/ q = 39%N ->
    written false (fun c => ~ In c [q; 60; 38; 9; 10]%N) v x -> Forall blank w' -> e = lit ">" \/ e = lit "/>" ->
    malformed 8 (length (u ++ lit "<" ++ n ++ y ++ w))
      (u ++ lit "<" ++ n ++ y ++ w ++ k ++ w1 ++ lit "=" ++ w2 ++ [q] ++ x ++ [q] ++ w' ++ e).
(** What is asked of a parser: it reports these errors, whatever follows. *)
Definition reports (parse_string : str -> res document) : Prop :=
  forall code pos x rest, malformed code pos x -> Forall good_char rest -> ~ In 10%N x ->
    parse_string (x ++ rest) = Raise (EExpat code 1 pos).

(** ** Texts that end before the end of the root element *)
Definition truncated (x : str) : Prop :=
  exists before x1 n l ch x2 t, outer_text before x1 /\ node_text false [] (DElem n l ch) x2 /\ x1 ++ x2 = x ++ t /\ t <> [].
(** What is asked of a parser: it reports an error, not an invalid token. *)
Definition reports_end (parse_string : str -> res document) : Prop :=
  forall x, truncated x -> ~ In 10%N x -> exists code pos, code <> 4 /\ parse_string x = Raise (EExpat code 1 pos).
(** Also: no text without a [>] is a document. *)
Definition needs_markup (parse_string : str -> res document) : Prop := forall x, ~ In 62%N x -> exists e, parse_string x = Raise e.

(** No space after the first [>]. *)
Definition no_late_space (s : str) : Prop := forall a b, s = a ++ [32%N] ++ b -> ~ In 62%N a.
(** No space between two [>]. *)
Definition no_inner_space (s : str) : Prop := forall a b c, s = a ++ [32%N] ++ b ++ [62%N] ++ c -> ~ In 62%N a.

(** ** Text after the root element: tags after a space, without another space *)
Inductive littered (d : document) : nat -> str -> Prop :=
| littered_0 x : document_text d x -> littered d 0 x
| littered_S k x c r : littered d k x -> name_first c -> Forall good_char r -> ~ In 32%N r -> ~ In 10%N r ->
    littered d (S k) (x ++ lit " <" ++ c :: r ++ lit ">").
(** What is asked of a parser: junk after the document element (9), whatever follows. *)
Definition reports_junk (parse_string : str -> res document) : Prop :=
  forall d x c rest, document_text d x -> name_first c -> Forall good_char rest -> ~ In 10%N x ->
    parse_string (x ++ lit "<" ++ c :: rest) = Raise (EExpat 9 1 (length x)).

(** ** A document written with a place for a reference in the content of an element *)
Inductive slot_node (loose : bool) : list str -> dnode -> str -> str -> Prop :=
| slot_element ps n l x ch u v w : tag_text loose ps n l x -> slot_nodes loose (declared l ++ ps) ch u v -> Forall blank w ->
    slot_node loose ps (DElem n l ch) (x ++ lit ">" ++ u) (v ++ lit "</" ++ n ++ w ++ lit ">")
with slot_nodes (loose : bool) : list str -> list dnode -> str -> str -> Prop :=
| slot_first ps l v : nodes_text loose ps l v -> slot_nodes loose ps l [] v
| slot_text ps d1 d2 x1 x2 l y : d1 ++ d2 <> [] -> written loose (fun c => ~ In c [60; 38]%N) d1 x1 ->
    written loose (fun c => ~ In c [60; 38]%N) d2 x2 -> ~ occurs (lit "]]>") (x1 ++ x2) -> nodes_text loose ps l y -> text_next l = false ->
    slot_nodes loose ps (DText (d1 ++ d2) :: l) x1 (x2 ++ y)
| slot_inside ps n u v l y : slot_node loose ps n u v -> nodes_text loose ps l y -> slot_nodes loose ps (n :: l) u (v ++ y)
| slot_later ps n x l u v : node_text loose ps n x -> slot_nodes loose ps l u v -> is_text n && text_next l = false ->
    slot_nodes loose ps (n :: l) (x ++ u) v.
Definition slot_document (loose : bool) (d : document) (u v : str) : Prop :=
  exists before x1 m u2 v2 behind x3, d = before ++ [m] ++ behind /\ u = x1 ++ u2 /\ v = v2 ++ x3
    /\ prolog_text loose before x1 /\ slot_node loose [] m u2 v2 /\ outer_text behind x3.
