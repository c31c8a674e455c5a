(** Parts of the library used by themselves, in the source (C84). *)
From Coq Require Import String.
From Verif Require Export SpecRun.
Local Open Scope string_scope.
Local Open Scope list_scope.

(** ** Expressions of Python *)
Definition method_of (class method : string) (made_with args : list expr) : expr := PCall (PAttr (PCall (PGlobal class) made_with []) method) args [].
(** [make_xml_to_mathml_adapter()] and [adapter.convert(text)] *)
Definition new_adapter : expr := PCall (PGlobal "make_xml_to_mathml_adapter") [] [].
Definition adapter_call : expr := PCall (PAttr (PName "adapter") "convert") [PName "text"] [].
(** [ErrorHandler().fix_error(text, error)], [ElementsToMathMLAdapter().convert(nodes)], [HashUTF8ToLtXConverter().convert(text)] *)
Definition fix_call : expr := method_of "ErrorHandler" "fix_error" [] [PName "text"; PName "error"].
Definition nodes_call : expr := method_of "ElementsToMathMLAdapter" "convert" [] [PName "nodes"].
Definition accents_call : expr := method_of "HashUTF8ToLtXConverter" "convert" [] [PName "text"].
(** [WhiteSpaceNormalizer().normalize(text)], [JoinWithManySeparators(separators).join(texts)], [GenericWrapper(open, close).wrap(text)],
    [BracketWrapper().wrap(text)], [ParenthesisWrapper().wrap(text)], [ParenthesisWrapper().wrap_if_more_than_one_char(text)] *)
Definition normalize_call : expr := method_of "WhiteSpaceNormalizer" "normalize" [] [PName "text"].
Definition join_call : expr := method_of "JoinWithManySeparators" "join" [PName "separators"] [PName "texts"].
Definition wrap_call : expr := method_of "GenericWrapper" "wrap" [PName "open"; PName "close"] [PName "text"].
Definition bracket_call : expr := method_of "BracketWrapper" "wrap" [] [PName "text"].
Definition parenthesis_call : expr := method_of "ParenthesisWrapper" "wrap" [] [PName "text"].
Definition long_parenthesis_call : expr := method_of "ParenthesisWrapper" "wrap_if_more_than_one_char" [] [PName "text"].

(** ** Values *)
(** An XmlToMathMLAdapter that holds a text; the dictionary of its ErrorHandler has the number [k]. *)
Definition adapter_object (k : nat) (text : str) : string * list (string * value) :=
  ("XmlToMathMLAdapter", [("_xml", VStr text); ("_elements_converter", VObj "ElementsToMathMLAdapter" []); ("_error_handler", VObj "ErrorHandler" [("error_locator", VDict k)])]).
Definition texts (l : list str) : value := VList (map VStr l).
(** A list of elements, or the exception *)
Definition elements_or_error (r : res (list elem)) : out value :=
  match r with Ok els => Done (VList (map object_of els)) | Raise e => Raised (parser_error e) end.
Definition element_node (n : dnode) : Prop := exists tag attributes nodes, n = DElem tag attributes nodes.
(** An expression gives [v]; it may leave new objects in the memory, those that were there stay. *)
Definition expression_gives (word_char : N -> bool) (parse_string : str -> res document) (r : names) (e : expr) (v : value) : Prop :=
  forall S, exists S', expression_ends word_char parse_string r e S S' (Done v)
    /\ firstn (length (dicts S)) (dicts S') = dicts S /\ firstn (length (objects S)) (objects S') = objects S.
