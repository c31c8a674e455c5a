(** The library as a program of single steps on its mutable objects, for calls that run in several threads.  ModelConv.v and
    ModelXml.v run a whole call at once; here every access to an object that other threads may reach is a step of its own. *)
From Coq Require Import String.
From Verif Require Export ModelXml.
Local Open Scope string_scope.
Local Open Scope list_scope.

(** The objects that are written after they are made: attribute dictionaries (usecases.py:391) and the attribute [_xml] of
    [XmlToMathMLAdapter] objects (xml_to_mathml/adapter.py:16-27).  Element trees, converters, DOM nodes and the tables of
    syntax.py are not written; [ErrorHandler.error_locator] (error_handler.py:7) is never used. *)
Record state : Type := State { dicts : heap; xmls : list str }.

Fixpoint put_nth {A} (l : list A) (i : nat) (x : A) : list A :=
  match l, i with
  | [], _ => []
  | _ :: l', O => x :: l'
  | y :: l', S i' => y :: put_nth l' i' x
  end.

(** Calls of functions of the library that run once for each of many elements; they are steps, too, so that they can be
    counted.  They touch no object. *)
Inductive visit : Type :=
| Making            (* [adapter.to_latex_converter(e)], el_to_tex/adapter.py:29-35 *)
| Entering          (* [converter.convert()] begins ... *)
| Leaving           (* ... and ends, with a result or an exception *)
| Flagging          (* the loop over elements in [MTable._add_flag_recursive_if_name], usecases.py:388-392 *)
| Searching.        (* the same in [MFenced._is_there_relative_of_name], usecases.py:355-362 *)

(** A program: what is left to do.  One constructor for each access to an object; what happens between two of them
    touches nothing that another thread can reach. *)
Inductive prog (A : Type) : Type :=
| Done (r : res A)
| Look (l : loc) (k : dict str -> prog A)                (* [d.get(...)], [key in d], [d[key]], [not d] *)
| Put (l : loc) (key value : str) (k : prog A)           (* [d[key] = value] *)
| Alloc (d : dict str) (k : loc -> prog A)               (* a new dictionary becomes part of an element *)
| GetXml (i : nat) (k : str -> prog A)                   (* reading [self._xml] of an adapter *)
| SetXml (i : nat) (xml : str) (k : prog A)              (* assigning [self._xml] *)
| NewAdapter (k : nat -> prog A)                         (* [XmlToMathMLAdapter(...)], with [self._xml = ""] *)
| Mark (v : visit) (k : prog A).
Arguments Done {A} r.
Arguments Look {A} l k.
Arguments Put {A} l key value k.
Arguments Alloc {A} d k.
Arguments GetXml {A} i k.
Arguments SetXml {A} i xml k.
Arguments NewAdapter {A} k.
Arguments Mark {A} v k.

(** One step. *)
Definition step {A} (p : prog A) (st : state) : prog A * state :=
  match p with
  | Done r => (Done r, st)
  | Look l k => (k (hget (dicts st) l), st)
  | Put l key value k => (k, State (hset (dicts st) l (dset (hget (dicts st) l) key value)) (xmls st))
  | Alloc d k => (k (length (dicts st)), State (dicts st ++ [d]) (xmls st))
  | GetXml i k => (k (nth i (xmls st) []), st)
  | SetXml i xml k => (k, State (dicts st) (put_nth (xmls st) i xml))
  | NewAdapter k => (k (length (xmls st)), State (dicts st) (xmls st ++ [[]]))
  | Mark _ k => (k, st)
  end.

(** All steps, nothing else in between. *)
Fixpoint alone {A} (p : prog A) (st : state) {struct p} : state * res A :=
  match p with
  | Done r => (st, r)
  | Look l k => alone (k (hget (dicts st) l)) st
  | Put l key value k => alone k (State (hset (dicts st) l (dset (hget (dicts st) l) key value)) (xmls st))
  | Alloc d k => alone (k (length (dicts st))) (State (dicts st ++ [d]) (xmls st))
  | GetXml i k => alone (k (nth i (xmls st) [])) st
  | SetXml i xml k => alone k (State (dicts st) (put_nth (xmls st) i xml))
  | NewAdapter k => alone (k (length (xmls st))) (State (dicts st) (xmls st ++ [[]]))
  | Mark _ k => alone k st
  end.

(** [p], then [f] on its outcome (a caller that catches exceptions); [then_] propagates exceptions. *)
Fixpoint catch {A B} (p : prog A) (f : res A -> prog B) {struct p} : prog B :=
  match p with
  | Done r => f r
  | Look l k => Look l (fun d => catch (k d) f)
  | Put l key value k => Put l key value (catch k f)
  | Alloc d k => Alloc d (fun l => catch (k l) f)
  | GetXml i k => GetXml i (fun s => catch (k s) f)
  | SetXml i xml k => SetXml i xml (catch k f)
  | NewAdapter k => NewAdapter (fun i => catch (k i) f)
  | Mark v k => Mark v (catch k f)
  end.
Definition then_ {A B} (p : prog A) (f : A -> prog B) : prog B :=
  catch p (fun r => match r with Ok a => f a | Raise e => Done (Raise e) end).
Notation "x <- p ;;; f" := (then_ p (fun x => f)) (at level 61, p at next level, right associativity).
Definition give {A} (a : A) : prog A := Done (Ok a).
Definition fail {A} (e : exn) : prog A := Done (Raise e).

(** One access to a dictionary: [d.get(key)], [d.get(key, default)]. *)
Definition get (l : loc) (key : str) : prog (option str) := Look l (fun d => give (dget d key)).
Definition get_or (l : loc) (key default : str) : prog str := Look l (fun d => give (dget_or d key default)).

(** A converter object, and a child with [self._adapter.to_latex_converter(child)]: as in ModelConv.v. *)
Definition s_converter := prog str.
Record s_kid : Type := SKid { s_elem : elem; s_make : prog s_converter }.
(** [converter.convert()] *)
Definition s_run (c : s_converter) : prog str := Mark Entering (catch c (fun r => Mark Leaving (Done r))).
Definition s_kid_convert (k : s_kid) : prog str := c <- s_make k ;;; s_run c.
Fixpoint s_convert_all (ks : list s_kid) : prog (list str) :=
  match ks with
  | [] => give []
  | k :: ks' => s <- s_kid_convert k ;;; ss <- s_convert_all ks' ;;; give (s :: ss)
  end.
Definition s_invalid_children {A} (name : str) (expected actual : nat) : prog A :=
  fail (EInvalidChildren name expected actual (lit "exactly")).

(** usecases.py:34-41 [Math.convert] *)
Definition s_Math (ks : list s_kid) : s_converter :=
  latex <- s_convert_all ks ;;; give (normalize (join (lit " ") latex)).
(** usecases.py:48-49 [Void.convert] *)
Definition s_Void : s_converter := give [].

(** usecases.py:216-223, 432-439, 598-605 and 225-228, 441-444, 607-615 *)
Definition s_handle_base_child (base : s_kid) : prog str :=
  base_str <- s_kid_convert base ;;;
  if Nat.leb (length (e_children (s_elem base))) 1 then give base_str
  else give (paren_wrap_if_more_than_one_char base_str).
Definition s_handle_script_child (script : s_kid) : prog str :=
  script_str <- s_kid_convert script ;;; give (bracket_wrap script_str).

(** usecases.py:203-214 [MSup.convert] *)
Definition s_MSup (name : str) (children : list s_kid) : s_converter :=
  match children with
  | [base_child; exponent_child] =>
      b <- s_handle_base_child base_child ;;;
      x <- s_handle_script_child exponent_child ;;;
      give (b ++ lit "^" ++ x)
  | _ => s_invalid_children name 2 (length children)
  end.
(** usecases.py:236-242 [GenericSpacingWrapper.convert] *)
Definition s_GenericSpacingWrapper (children : list s_kid) : s_converter :=
  latex <- s_convert_all children ;;; give (join (lit " ") latex).
(** usecases.py:250-258 [MSqrt.convert] *)
Definition s_MSqrt (children : list s_kid) : s_converter :=
  latex <- s_convert_all children ;;; give (cmd1 "\sqrt" (join (lit " ") latex)).

(** usecases.py:355-362 [MFenced._is_there_relative_of_name]: [any] of a list, so that all elements of a level are looked at,
    but nothing below one of the name; then [k] on what is found *)
Fixpoint s_relative {A} (name : str) (e : elem) (k : bool -> prog A) : prog A :=
  match e with
  | Elem n _ children _ =>
      Mark Searching
        (if str_eqb n name then k true
         else fold_right (fun c k' b => s_relative name c (fun b' => k' (b || b'))) k children false)
  end.
Definition s_there {A} (elements : list elem) (name : str) (k : bool -> prog A) : prog A :=
  fold_right (fun c k' b => s_relative name c (fun b' => k' (b || b'))) k elements false.
(** usecases.py:337-353 [MFenced]: three accesses in the constructor *)
Definition s_MFenced (children : list s_kid) (attributes : loc) : prog s_converter :=
  op <- get_or attributes (lit "open") [] ;;;
  close <- get_or attributes (lit "close") [] ;;;
  separators <- get_or attributes (lit "separators") [] ;;;
  give (latex_children <- s_convert_all children ;;;
        s_there (map s_elem children) (lit "mtable") (fun found =>
        if found
        then give (Matrix_apply op close latex_children)
        else give (Vector_apply op close (map (fun c => [c]) separators) latex_children))).

(** usecases.py:388-392 [MTable._add_flag_recursive_if_name]: one call for each element, one access for each of the name *)
Fixpoint s_add_flag {A} (name flag : str) (e : elem) (k : prog A) : prog A :=
  match e with
  | Elem n _ children a =>
      let below := fold_right (s_add_flag name flag) k children in
      Mark Flagging (if str_eqb n name then Put a flag flag below else below)
  end.
Definition s_add_flag_to_all (elements : list elem) (name flag : str) : prog unit :=
  fold_right (s_add_flag name flag) (give tt) elements.
(** usecases.py:365-386 [MTable] *)
Definition s_MTable (children : list s_kid) (attributes : loc) : prog s_converter :=
  _ <- s_add_flag_to_all (map s_elem children) (lit "mtable") (lit "innerTable") ;;;
  give (latex <- s_convert_all children ;;;
        let table_content := join (lit " \\" ++ newline) latex in
        f <- get_or attributes (lit "innerTable") [] ;;;
        give (if truthy f
              then cmd1 "\begin" (lit "matrix") ++ table_content ++ cmd1 "\end" (lit "matrix")
              else table_content)).
(** usecases.py:403-409 [MTr.convert] *)
Definition s_MTr (children : list s_kid) : s_converter :=
  latex <- s_convert_all children ;;; give (join (lit " & ") latex).

(** usecases.py:419-430 [MSub.convert] *)
Definition s_MSub (name : str) (children : list s_kid) : s_converter :=
  match children with
  | [base_child; subscript_child] =>
      b <- s_handle_base_child base_child ;;;
      x <- s_handle_script_child subscript_child ;;;
      give (b ++ lit "_" ++ x)
  | _ => s_invalid_children name 2 (length children)
  end.
(** usecases.py:453-473 [MFrac] *)
Definition s_MFrac (name : str) (children : list s_kid) (attributes : loc) : s_converter :=
  match children with
  | [c0; c1] =>
      num <- s_kid_convert c0 ;;;
      den <- s_kid_convert c1 ;;;
      bevelled <- get_or attributes (lit "bevelled") [] ;;;
      give (if truthy bevelled
            then paren_wrap_if_more_than_one_char num ++ lit "/" ++ paren_wrap_if_more_than_one_char den
            else lit "\frac{" ++ num ++ lit "}{" ++ den ++ lit "}")
  | _ => s_invalid_children name 2 (length children)
  end.
(** usecases.py:481-492 [MRoot.convert] *)
Definition s_MRoot (name : str) (children : list s_kid) : s_converter :=
  match children with
  | [c0; c1] =>
      content <- s_kid_convert c0 ;;;
      root_index <- s_kid_convert c1 ;;;
      give (lit "\sqrt[" ++ root_index ++ lit "]{" ++ content ++ lit "}")
  | _ => s_invalid_children name 2 (length children)
  end.
(** usecases.py:500-515 [MAction] *)
Definition s_MAction (children : list s_kid) (attributes : loc) : s_converter :=
  action_type <- get attributes (lit "actiontype") ;;;
  if match action_type with None => true | Some t => str_eqb t (lit "toggle") || negb (truthy t) end then
    latex <- s_convert_all children ;;; give (join (lit " \Longrightarrow ") latex)
  else
    match children with
    | [] => fail EIndex
    | c0 :: _ => s_kid_convert c0
    end.
(** usecases.py:518-558 [MEnclose] *)
Definition s_MEnclose (children : list s_kid) (attributes : loc) : prog s_converter :=
  notation <- get_or attributes (lit "notation") (lit "longdiv") ;;;
  give (latex <- s_convert_all children ;;; give (enclose notation (join (lit " ") latex))).
(** usecases.py:566-574 [MError.convert] *)
Definition s_MError (children : list s_kid) : s_converter :=
  latex <- s_convert_all children ;;; give (lit "\color{red}{" ++ join (lit " ") latex ++ lit "}").
(** usecases.py:584-596 [MSubsup.convert] *)
Definition s_MSubsup (name : str) (children : list s_kid) : s_converter :=
  match children with
  | [base_child; subscript_child; superscript_child] =>
      b <- s_handle_base_child base_child ;;;
      x <- s_handle_script_child subscript_child ;;;
      y <- s_handle_script_child superscript_child ;;;
      give (b ++ lit "_" ++ x ++ lit "^" ++ y)
  | _ => s_invalid_children name 3 (length children)
  end.

(** usecases.py:58-77 [MI]: the attributes are looked at only if the character is not in the tables, and then in up to three
    accesses: [not attributes], ["mathvariant" not in attributes], [attributes["mathvariant"]].  The last one would
    raise KeyError had the key gone in between. *)
Definition s_get_math_variant (attributes : loc) : prog str :=
  Look attributes (fun d0 => match d0 with
  | [] => give []
  | _ => Look attributes (fun d1 => match dget d1 (lit "mathvariant") with
         | None => give []
         | Some _ => Look attributes (fun d2 => match dget d2 (lit "mathvariant") with
                     | None => fail (EOther 0)
                     | Some v => give v
                     end)
         end)
  end).
Definition s_MI (value : str) (attributes : loc) : s_converter :=
  let normalized_value := normalize value in
  if str_eqb normalized_value (lit " ") then give (character_apply normalized_value)
  else
    let trimmed_value := strip normalized_value in
    let converted_char := character_apply trimmed_value in
    let parsed_char := utf8_convert converted_char in
    if negb (str_eqb parsed_char converted_char) then give parsed_char
    else variant <- s_get_math_variant attributes ;;; give (wrap_in_math_variant converted_char variant).
(** usecases.py:140-144, 189-193 *)
Definition s_MO (value : str) : s_converter := give (mo_convert value).
Definition s_MN (value : str) : s_converter := give (mn_convert value).
(** usecases.py:678-687 [MText]: one access for each run of letters and digits; the other characters are converted as an
    [MIMathMlElement], whose attributes are a new empty dictionary. *)
Fixpoint s_text_parts (attributes : loc) (chars : list char_rec) : prog (list str) :=
  match chars with
  | [] => give []
  | ch :: chars' =>
      s <- (if negb (ch_alnum ch) then give (mi_convert (ch_value ch) [])
            else variant <- get attributes (lit "mathvariant") ;;; give (text_command_apply variant (ch_value ch))) ;;;
      ss <- s_text_parts attributes chars' ;;;
      give (s :: ss)
  end.
Definition s_MText (value : str) (attributes : loc) : s_converter :=
  parts <- s_text_parts attributes (mtext_merge (mtext_chars value)) ;;; give (concat parts).

(** usecases.py:717-736 [GenericUnderOver] *)
Definition s_GenericUnderOver (name : str) (children : list s_kid) : s_converter :=
  match children with
  | [c0; c1] =>
      content <- s_kid_convert c0 ;;;
      accent <- s_kid_convert c1 ;;;
      give (under_over_apply (re_search (RLit (lit "under")) name) content accent)
  | _ => s_invalid_children name 2 (length children)
  end.
(** usecases.py:744-756 [MUnderover.convert] *)
Definition s_MUnderover (name : str) (children : list s_kid) : s_converter :=
  match children with
  | [c0; c1; c2] =>
      base <- s_kid_convert c0 ;;;
      under_content <- s_kid_convert c1 ;;;
      over_content <- s_kid_convert c2 ;;;
      give (base ++ lit "_{" ++ under_content ++ lit "}^{" ++ over_content ++ lit "}")
  | _ => s_invalid_children name 3 (length children)
  end.

(** usecases.py:765-820 [MMultiscripts] *)
Definition s_is_prescripts_nth (children : list s_kid) (i : nat) : bool :=
  match nth_error children i with
  | Some k => str_eqb (e_name (s_elem k)) (lit "mprescripts")
  | None => false
  end.
Definition s_convert_nth (children : list s_kid) (i : nat) : prog str :=
  match nth_error children i with
  | Some k => s_kid_convert k
  | None => fail EIndex
  end.
Definition s_prescript_latex (children : list s_kid) : prog str :=
  let go sub sup :=
    sub_latex <- s_convert_nth children sub ;;;
    sup_latex <- s_convert_nth children sup ;;;
    give (lit "\_{" ++ sub_latex ++ lit "}^{" ++ sup_latex ++ lit "}") in
  if Nat.leb 4 (length children) && s_is_prescripts_nth children 1 then go 2 3
  else if Nat.leb 6 (length children) && s_is_prescripts_nth children 3 then go 4 5
  else give [].
Definition s_postscript_latex (children : list s_kid) : prog str :=
  if Nat.ltb (length children) 3 || (Nat.leb 1 (length children) && s_is_prescripts_nth children 1)
  then give []
  else
    sub_latex <- s_convert_nth children 1 ;;;
    sup_latex <- s_convert_nth children 2 ;;;
    give (lit "_{" ++ sub_latex ++ lit "}^{" ++ sup_latex ++ lit "}").
Definition s_MMultiscripts (name : str) (children : list s_kid) : s_converter :=
  if Nat.ltb (length children) 3
  then fail (EInvalidChildren name 3 (length children) (lit "at least"))
  else
    base_content <- s_convert_nth children 0 ;;;
    pre <- s_prescript_latex children ;;;
    post <- s_postscript_latex children ;;;
    give (pre ++ wrap_in_parenthesis_if_there_is_space base_content ++ post).

(** el_to_tex/adapter.py:29-120: the dispatch *)
Definition s_class := str -> str -> list s_kid -> loc -> prog s_converter.
Definition s_plain (f : str -> str -> list s_kid -> loc -> s_converter) : s_class := fun n v ks a => give (f n v ks a).
Definition s_generic_spacing_wrapper : s_class := s_plain (fun _ _ ks _ => s_GenericSpacingWrapper ks).
Definition s_converter_table : dict s_class := [
  (lit "math", s_plain (fun _ _ ks _ => s_Math ks));
  (lit "mi", s_plain (fun _ v _ a => s_MI v a));
  (lit "mo", s_plain (fun _ v _ _ => s_MO v));
  (lit "mn", s_plain (fun _ v _ _ => s_MN v));
  (lit "msqrt", s_plain (fun _ _ ks _ => s_MSqrt ks));
  (lit "mfenced", fun _ _ ks a => s_MFenced ks a);
  (lit "mfrac", s_plain (fun n _ ks a => s_MFrac n ks a));
  (lit "mroot", s_plain (fun n _ ks _ => s_MRoot n ks));
  (lit "maction", s_plain (fun _ _ ks a => s_MAction ks a));
  (lit "menclose", fun _ _ ks a => s_MEnclose ks a);
  (lit "merror", s_plain (fun _ _ ks _ => s_MError ks));
  (lit "mphantom", s_plain (fun _ _ _ _ => s_Void));
  (lit "msup", s_plain (fun n _ ks _ => s_MSup n ks));
  (lit "msub", s_plain (fun n _ ks _ => s_MSub n ks));
  (lit "msubsup", s_plain (fun n _ ks _ => s_MSubsup n ks));
  (lit "mmultiscripts", s_plain (fun n _ ks _ => s_MMultiscripts n ks));
  (lit "mtext", s_plain (fun _ v _ a => s_MText v a));
  (lit "munderover", s_plain (fun n _ ks _ => s_MUnderover n ks));
  (lit "mtable", fun _ _ ks a => s_MTable ks a);
  (lit "mtr", s_plain (fun _ _ ks _ => s_MTr ks));
  (lit "mover", s_plain (fun n _ ks _ => s_GenericUnderOver n ks));
  (lit "munder", s_plain (fun n _ ks _ => s_GenericUnderOver n ks));
  (lit "mrow", s_generic_spacing_wrapper);
  (lit "mpadded", s_generic_spacing_wrapper)
].
Definition s_make_converter (name value : str) (children : list s_kid) (attributes : loc) : prog s_converter :=
  let key := py_or name (lit "void") in
  dget_or s_converter_table key s_generic_spacing_wrapper name value children attributes.
Fixpoint s_to_latex_converter (e : elem) : prog s_converter :=
  match e with
  | Elem name value children attributes =>
      Mark Making (s_make_converter name value (map (fun c => SKid c (s_to_latex_converter c)) children) attributes)
  end.
(** [adapter.to_latex_converter(e).convert()] *)
Definition s_convert_elem (e : elem) : prog str := c <- s_to_latex_converter e ;;; s_run c.

(** services/xml_elements_to_mathml_element.py:8-52.  The dictionary is filled before anything else can reach it, so that
    its making is one step. *)
Fixpoint s_convert_element (n : dnode) : prog (list elem) :=
  match n with
  | DElem tag attributes children =>
      Alloc (convert_element_attributes attributes) (fun l =>
        els <- (fix go (ns : list dnode) : prog (list elem) :=
                  match ns with
                  | [] => give []
                  | m :: ns' => e <- s_convert_element m ;;; es <- go ns' ;;; give (e ++ es)
                  end) children ;;;
        give [Elem tag (element_value children) els l])
  | _ => give []
  end.
Fixpoint s_convert_elements (ns : list dnode) : prog (list elem) :=
  match ns with
  | [] => give []
  | m :: ns' => e <- s_convert_element m ;;; es <- s_convert_elements ns' ;;; give (e ++ es)
  end.

(** converter.py:9-17: first all converters, then their LaTeX *)
Fixpoint s_make_all (els : list elem) : prog (list s_converter) :=
  match els with
  | [] => give []
  | e :: els' => c <- s_to_latex_converter e ;;; cs <- s_make_all els' ;;; give (c :: cs)
  end.
Fixpoint s_run_all (cs : list s_converter) : prog (list str) :=
  match cs with
  | [] => give []
  | c :: cs' => s <- s_run c ;;; ss <- s_run_all cs' ;;; give (s :: ss)
  end.

Section Env.
Variables (word_char : N -> bool) (parse_string : str -> res document).

(** xml_to_mathml/adapter.py:37-51 with [_fix_error] (26-27): [self._xml] is read for every attempt, and read and assigned by every repair *)
Fixpoint s_parse_loop (fuel : nat) (i : nat) (last : option exn) : prog (list dnode) :=
  match fuel with
  | O => match last with Some e => fail e | None => give [] end
  | S f =>
      GetXml i (fun xml =>
        match parse_string xml with
        | Ok dom => give (get_elements_by_tag_name dom (lit "math"))
        | Raise e =>
            GetXml i (fun xml1 =>
              match fix_error word_char xml1 e with
              | Raise e' => fail e'
              | Ok xml2 => SetXml i xml2 (s_parse_loop f i (Some e))
              end)
        end)
  end.
(** xml_to_mathml/adapter.py:20-24 [XmlToMathMLAdapter.convert] *)
Definition s_adapter_convert (i : nat) (xml : str) : prog (list elem) :=
  SetXml i (remove_line_breaks xml)
    (GetXml i (fun xml1 =>
      SetXml i (remove_ms_word_prefixes xml1)
        (nodes <- s_parse_loop 5 i None ;;; s_convert_elements nodes))).
(** converter.py:5-18: with the adapter [i], and with a new one (factory.py:8-12) *)
Definition s_convert_with (i : nat) (mathml : str) : prog str :=
  els <- s_adapter_convert i mathml ;;;
  cs <- s_make_all els ;;;
  latex <- s_run_all cs ;;;
  give (strip (concat latex)).
Definition s_mathml_to_latex (mathml : str) : prog str := NewAdapter (fun i => s_convert_with i mathml).

(** Something a thread does: [MathMLToLaTeX.convert(mathml)]; the same with an adapter object that is there already; the
    conversion of an element that is there already. *)
Inductive job : Type :=
| Call (mathml : str)
| CallWith (i : nat) (mathml : str)
| Convert (e : elem).
Definition job_prog (j : job) : prog str :=
  match j with
  | Call mathml => s_mathml_to_latex mathml
  | CallWith i mathml => s_convert_with i mathml
  | Convert e => s_convert_elem e
  end.
(** A thread: jobs one after the other; exceptions are kept as outcomes. *)
Fixpoint thread_prog (jobs : list job) : prog (list (res str)) :=
  match jobs with
  | [] => give []
  | j :: jobs' => catch (job_prog j) (fun r => rs <- thread_prog jobs' ;;; give (r :: rs))
  end.
End Env.

(** Threads: at every moment the schedule names the one that does its next step. *)
Definition tick {A} (i : nat) (ps : list (prog A)) (st : state) : list (prog A) * state :=
  match nth_error ps i with
  | Some p => let (p', st') := step p st in (put_nth ps i p', st')
  | None => (ps, st)
  end.
Fixpoint exec {A} (schedule : list nat) (ps : list (prog A)) (st : state) : list (prog A) * state :=
  match schedule with
  | [] => (ps, st)
  | i :: schedule' => let (ps', st') := tick i ps st in exec schedule' ps' st'
  end.
