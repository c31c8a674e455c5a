(** Specification of the document level: the trees of a document, the parse attempts, the result. *)
From Coq Require Import String.
From Verif Require Export SpecTree SpecRecovery.
Local Open Scope string_scope.
Local Open Scope list_scope.

(** The text of an element: its first child node, stripped; empty when it has an element child. *)
Definition text_of (children : list dnode) : str :=
  match children with
  | [] => []
  | first :: _ => if existsb is_elem_node children then [] else strip (node_value first)
  end.

(** The value of the last attribute with a name. *)
Fixpoint last_value (l : list (str * str)) (k dflt : str) : str :=
  match l with
  | [] => dflt
  | (n, v) :: l' => last_value l' k (if str_eqb n k then v else dflt)
  end.
(** The names, each once, in order of first occurrence (in a parsed document they are distinct anyway). *)
Fixpoint distinct (l : list str) : list str :=
  match l with
  | [] => []
  | x :: l' => x :: filter (fun y => negb (str_eqb x y)) (distinct l')
  end.
(** The attributes of an element as the conversion sees them: a value equal to its name counts as empty. *)
Definition attributes_of (l : list (str * str)) : dict str :=
  map (fun n => let v := last_value l n [] in (n, if str_eqb v n then [] else v)) (distinct (map fst l)).

(** The tree of a DOM node (non-elements have none). *)
Fixpoint tree_of_node (n : dnode) : list tree :=
  match n with
  | DElem tag attributes children =>
      [T tag (text_of children) (flat_map tree_of_node children) (attributes_of attributes)]
  | _ => []
  end.

(** All subtrees, an element before its descendants, in document order. *)
Fixpoint preorder (t : tree) : list tree :=
  match t with T _ _ ch _ => t :: flat_map preorder ch end.
Definition named (n : string) (t : tree) : bool := str_eqb (t_name t) (lit n).
Definition math_trees (d : document) : list tree :=
  filter (named "math") (flat_map preorder (flat_map tree_of_node d)).

(** The result for a document: its math elements one after the other, or the first exception. *)
Definition document_latex (d : document) : res str :=
  ss <~ rseq (map latex_of (math_trees d)) ;; Ok (concat ss).

Section Parse.
Variable word_char : N -> bool.
Variable parse_string : str -> res document.

(** [k] failed parses lead from text [x] to text [y], each followed by a recovery step. *)
Inductive reaches : nat -> str -> str -> Prop :=
| reaches_0 x : reaches 0 x x
| reaches_S k x e x' y :
    parse_string x = Raise e -> recovers x e x' -> reaches k x' y -> reaches (S k) x y.

(** The document that [xml] is read as: the first successful parse among five. *)
Definition read_as (xml : str) (d : document) : Prop :=
  exists k y, k < 5 /\ reaches k (clean xml) y /\ parse_string y = Ok d.

(** Why [xml] is rejected: the fifth parse failed, or a recovery step raised IndexError. *)
Definition rejected_with (xml : str) (e : exn) : Prop :=
  (exists y, reaches 4 (clean xml) y /\ parse_string y = Raise e /\ ~ recovery_fails y e)
  \/ (exists k y e0, k < 5 /\ reaches k (clean xml) y /\ parse_string y = Raise e0
                     /\ recovery_fails y e0 /\ e = EIndex).

(** A history of [MathMLToLaTeX.convert] calls: the final heap and the outcomes. *)
Fixpoint run_calls (xmls : list str) (h : heap) : heap * list (res str) :=
  match xmls with
  | [] => (h, [])
  | x :: xmls' => let (h1, r) := mathml_to_latex word_char parse_string x h in
                  let (h2, rs) := run_calls xmls' h1 in (h2, r :: rs)
  end.
End Parse.
