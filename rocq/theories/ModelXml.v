(** xml_to_mathml (DOM to elements, error recovery, parse loop) and converter.py. *)
From Coq Require Import String.
From Verif Require Export ModelConv.
Local Open Scope string_scope.
Local Open Scope list_scope.

(** The DOM that xml.dom.minidom builds.  Attributes in document order.  A document type
    node is left out: it is never below an element, has no elements below it, and the code never looks at it. *)
Inductive dnode : Type :=
| DElem (tag : str) (attributes : list (str * str)) (children : list dnode)
| DText (data : str)
| DCData (data : str)
| DComment (data : str)
| DPI (target data : str).
(** A document: the child nodes of the Document node. *)
Definition document := list dnode.

(** [Node.nodeValue] of the non-element nodes (for an element it is None; the code never asks). *)
Definition dom_value (n : dnode) : str :=
  match n with
  | DElem _ _ _ => []
  | DText d | DCData d | DComment d | DPI _ d => d
  end.

(** services/xml_elements_to_mathml_element.py:46-52 [_convert_element_attributes] *)
Definition convert_element_attributes (attributes : list (str * str)) : dict str :=
  fold_left (fun d nv => dset d (fst nv) (if str_eqb (snd nv) (fst nv) then [] else snd nv)) attributes [].

(** xml_elements_to_mathml_element.py:54-55 [_has_element_child]; [_is_there_any_no_text_node], xml_elements_to_mathml_element.py:57-58, is
    never called and not modelled *)
Definition has_element_child (children : list dnode) : bool :=
  existsb (fun n => match n with DElem _ _ _ => true | _ => false end) children.

(** xml_elements_to_mathml_element.py:22-25 and 41: [value.strip()] *)
Definition element_value (children : list dnode) : str :=
  strip (if has_element_child children then []
         else match children with [] => [] | n :: _ => dom_value n end).

(** xml_elements_to_mathml_element.py:8-44 [convert] and [_convert_element].  The attribute dictionary is a new heap cell, created
    before the children are converted.  [convert_node_elems] is the comprehension filtering the element
    children fused with the recursive [convert]; every element has a tag name. *)
Fixpoint convert_element (n : dnode) (h : heap) {struct n} : heap * list elem :=
  match n with
  | DElem tag attributes children =>
      let l := length h in
      let h1 := h ++ [convert_element_attributes attributes] in
      let (h2, els) :=
        (fix go (ns : list dnode) (h0 : heap) {struct ns} : heap * list elem :=
           match ns with
           | [] => (h0, [])
           | m :: ns' => let (h3, e) := convert_element m h0 in
                         let (h4, es) := go ns' h3 in (h4, e ++ es)
           end) children h1 in
      (h2, [Elem tag (element_value children) els l])
  | _ => (h, [])
  end.
Fixpoint convert_elements (ns : list dnode) (h : heap) : heap * list elem :=
  match ns with
  | [] => (h, [])
  | m :: ns' => let (h3, e) := convert_element m h in
                let (h4, es) := convert_elements ns' h3 in (h4, e ++ es)
  end.

(** [Document.getElementsByTagName(name)] (xml.dom.minidom): preorder, nested matches included. *)
Fixpoint elements_by_tag (name : str) (n : dnode) : list dnode :=
  match n with
  | DElem tag _ children =>
      (if str_eqb tag name then [n] else []) ++ flat_map (elements_by_tag name) children
  | _ => []
  end.
Definition get_elements_by_tag_name (d : document) (name : str) : list dnode :=
  flat_map (elements_by_tag name) d.

(** ** services/error_handler.py *)

(** error_handler.py:70-73: moving [start] down to just after the previous space.  [None]: IndexError. *)
Fixpoint word_start (s : str) (start : nat) : option nat :=
  match start with
  | O => Some O
  | S p => match nth_error s p with
           | None => None
           | Some c => if N.eqb c 32 then Some start else word_start s p
           end
  end.
(** error_handler.py:72-73: moving [end] up to the next space or [>]; structural on the text after [end]. *)
Fixpoint word_len (rest : str) : nat :=
  match rest with
  | [] => O
  | c :: rest' => if N.eqb c 32 || N.eqb c 62 then O else S (word_len rest')
  end.
(** error_handler.py:64-74 [_get_word_at_str_pos]; [string[start:end]] *)
Definition get_word_at_str_pos (s : str) (pos : nat) : option str :=
  match word_start s pos with
  | None => None
  | Some start =>
      let stop := pos + word_len (skipn pos s) in
      Some (firstn (stop - start) (skipn start s))
  end.

Definition is_quote (c : N) : bool := (N.eqb c 34 || N.eqb c 39)%N.

(** error_handler.py:42-51: the pattern (ATTR=(?!(Q)))|(ATTR(?!(Q))) where ATTR is the escaped
    attribute and Q the class of the two quote characters.  re.MULTILINE has no effect without ^ or $. *)
Definition missing_value_pattern (attribute : str) : regex :=
  RAlt (RGroup 1 (RSeq (RLit attribute) (RSeq (RChar (N.eqb 61)) (RNotAhead (RGroup 2 (RChar is_quote))))))
       (RGroup 3 (RSeq (RLit attribute) (RNotAhead (RGroup 4 (RChar is_quote))))).

Section Env.
(** [\w] of [re] for str patterns: a Unicode property, left open. *)
Variable word_char : N -> bool.

(** error_handler.py:53-62: the pattern (<.* )(\w+=(?!(Q)))?(.*>), Q as above; its group 3 is
    the one inside the lookahead. *)
Definition generic_missing_pattern : regex :=
  RSeq (RGroup 1 (RSeq (RChar (N.eqb 60)) (RSeq (RStar RDot) (RChar (N.eqb 32)))))
    (RSeq (ROpt (RGroup 2 (RSeq (RPlus (RChar word_char))
                             (RSeq (RChar (N.eqb 61)) (RNotAhead (RGroup 3 (RChar is_quote)))))))
       (RGroup 4 (RSeq (RStar RDot) (RChar (N.eqb 62))))).

(** The template [\1\3]: an unmatched group is replaced by "" (Python 3.5+). *)
Definition expand_1_3 (g : caps) : str :=
  match cap_get g 1 with Some s => s | None => [] end ++ match cap_get g 3 with Some s => s | None => [] end.

(** error_handler.py:28-40 [_fix_missing_attribute_value] *)
Definition fix_missing_attribute_value (code lineno offset : nat) (xml : str) : res str :=
  if negb (Nat.eqb code 4) then Ok xml
  else
    match py_index (split_on 10 xml) (Z.of_nat lineno - 1) with
    | None => Raise EIndex
    | Some goal_line =>
        match get_word_at_str_pos goal_line offset with
        | None => Raise EIndex
        | Some word => Ok (re_sub (missing_value_pattern word) (fun _ => []) xml)
        end
    end.

(** error_handler.py:20-26: the while loop; [fuel] is [5 - counter].  The loop tests and rewrites [xml],
    which it never updates. *)
Fixpoint generic_loop (fuel : nat) (xml result : str) : str :=
  match fuel with
  | O => result
  | S f =>
      if re_search generic_missing_pattern xml
      then generic_loop f xml (re_sub generic_missing_pattern expand_1_3 xml)
      else result
  end.

(** error_handler.py:15-26 [_fix_missing_attribute] *)
Definition fix_missing_attribute (code lineno offset : nat) (xml : str) : res str :=
  match fix_missing_attribute_value code lineno offset xml with
  | Raise e => Raise e
  | Ok result =>
      if negb (str_eqb result xml) then Ok result
      else Ok (generic_loop 5 xml result)
  end.

(** error_handler.py:9-13 [fix_error] *)
Definition fix_error (xml : str) (error : exn) : res str :=
  match error with
  | EExpat code lineno offset => fix_missing_attribute code lineno offset xml
  | _ => Ok xml
  end.

(** ** xml_to_mathml/adapter.py *)

(** adapter.py:29-31 [_remove_line_breaks]: [re.sub(r"\n|\r\n|\r", "", xml)] *)
Definition line_break_pattern : regex :=
  RAlt (RLit [10%N]) (RAlt (RLit [13%N; 10%N]) (RLit [13%N])).
Definition remove_line_breaks (xml : str) : str := re_sub line_break_pattern (fun _ => []) xml.
(** adapter.py:33-35 [_remove_ms_word_prefixes] *)
Definition remove_ms_word_prefixes (xml : str) : str := re_sub (RLit (lit "mml:")) (fun _ => []) xml.

(** [xml.dom.minidom.parseString]: a deterministic function, otherwise arbitrary. *)
Variable parse_string : str -> res document.

(** adapter.py:37-51 [_mathml_elements]: the loop of five attempts over [self._xml]; [last] is
    [exception].  Result: the final [self._xml] and the list of math elements or the exception.  An exception of [_fix_error] itself leaves the loop. *)
Fixpoint parse_loop (fuel : nat) (xml : str) (last : option exn) : str * res (list dnode) :=
  match fuel with
  | O => (xml, match last with Some e => Raise e | None => Ok [] end)
  | S f =>
      match parse_string xml with
      | Ok dom => (xml, Ok (get_elements_by_tag_name dom (lit "math")))
      | Raise e =>
          match fix_error xml e with
          | Raise e' => (xml, Raise e')
          | Ok xml' => parse_loop f xml' (Some e)
          end
      end
  end.

(** adapter.py:12-24 [XmlToMathMLAdapter]: its state is [self._xml]. *)
Definition adapter_state := str.
Definition adapter_new : adapter_state := [].
Definition adapter_convert (st : adapter_state) (xml : str) (h : heap)
  : adapter_state * (heap * res (list elem)) :=
  let st1 := remove_line_breaks xml in
  let st2 := remove_ms_word_prefixes st1 in
  match parse_loop 5 st2 None with
  | (st3, Raise e) => (st3, (h, Raise e))
  | (st3, Ok nodes) => let (h1, els) := convert_elements nodes h in (st3, (h1, Ok els))
  end.

(** ** converter.py *)

(** converter.py:9-12: all converters are constructed first *)
Fixpoint make_all (els : list elem) (h : heap) : heap * list converter :=
  match els with
  | [] => (h, [])
  | e :: els' => let (h1, c) := to_latex_converter e h in
                 let (h2, cs) := make_all els' h1 in (h2, c :: cs)
  end.
(** converter.py:14-17: then converted in order *)
Fixpoint run_all (cs : list converter) : M (list str) :=
  match cs with
  | [] => ret []
  | c :: cs' => s <- c ;; ss <- run_all cs' ;; ret (s :: ss)
  end.

(** converter.py:5-18 [MathMLToLaTeX.convert]; a new adapter is made for every call (factory.py:8-12). The heap is the
    process heap: cells made by earlier calls. *)
Definition mathml_to_latex (mathml : str) : M str := fun h =>
  match adapter_convert adapter_new mathml h with
  | (_, (h1, Raise e)) => (h1, Raise e)
  | (_, (h1, Ok els)) =>
      let (h2, cs) := make_all els h1 in
      (latex <- run_all cs ;; ret (strip (concat latex))) h2
  end.
End Env.
