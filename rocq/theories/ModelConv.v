(** The converters that look at children (usecases.py) and the adapter (el_to_tex/adapter.py), over a heap of attribute
    dictionaries. *)
From Coq Require Import String.
From Verif Require Export ModelTokens.
Local Open Scope string_scope.
Local Open Scope list_scope.

(** The attribute dictionaries are mutable objects: a heap of dictionaries.  A reference is an index. *)
Definition loc := nat.
Definition heap := list (dict str).

(** Reading and writing a dictionary.  A reference outside the heap cannot exist in Python; reading
    one gives the empty dictionary here and every theorem assumes references are inside the heap. *)
Definition hget (h : heap) (l : loc) : dict str := nth l h [].
Fixpoint hset (h : heap) (l : loc) (d : dict str) : heap :=
  match h, l with
  | [], _ => []
  | _ :: h', O => d :: h'
  | d0 :: h', S l' => d0 :: hset h' l' d
  end.

(** protocols.py:32-53 [GenericMathMLElement]: name, value and children are never assigned after
    construction; the attributes are a mutable dictionary. A missing name (None) behaves as "". *)
Inductive elem : Type := Elem (name value : str) (children : list elem) (attributes : loc).
Definition e_name (e : elem) := match e with Elem n _ _ _ => n end.
Definition e_value (e : elem) := match e with Elem _ v _ _ => v end.
Definition e_children (e : elem) := match e with Elem _ _ c _ => c end.
Definition e_attributes (e : elem) := match e with Elem _ _ _ a => a end.

(** Effects: heap update and exceptions. *)
Definition M (A : Type) := heap -> heap * res A.
Definition ret {A} (a : A) : M A := fun h => (h, Ok a).
Definition raise {A} (e : exn) : M A := fun h => (h, Raise e).
Definition bind {A B} (m : M A) (f : A -> M B) : M B :=
  fun h => match m h with
           | (h1, Ok a) => f a h1
           | (h1, Raise e) => (h1, Raise e)
           end.
Notation "x <- m ;; f" := (bind m (fun x => f)) (at level 61, m at next level, right associativity).
Definition read_attributes (l : loc) : M (dict str) := fun h => (h, Ok (hget h l)).

(** A converter object: its suspended [convert()].  [kid] is a child element together with
    [self._adapter.to_latex_converter(child)] for it, which runs the constructor of the child's
    converter (and may change the heap) and gives the converter. *)
Definition converter := M str.
Record kid := Kid { kid_elem : elem; kid_mk : heap -> heap * converter }.

(** [self._adapter.to_latex_converter(child).convert()] *)
Definition kid_convert (k : kid) : M str := fun h => let (h1, c) := kid_mk k h in c h1.

(** [[self._adapter.to_latex_converter(child).convert() for child in children]] *)
Fixpoint convert_all (ks : list kid) : M (list str) :=
  match ks with
  | [] => ret []
  | k :: ks' => s <- kid_convert k ;; ss <- convert_all ks' ;; ret (s :: ss)
  end.

(** protocols.py:95-106 [InvalidNumberOfChildrenError(name, expected, actual)], comparison "exactly" by default *)
Definition invalid_children {A} (name : str) (expected actual : nat) : M A :=
  raise (EInvalidChildren name expected actual (lit "exactly")).
(** protocols.py:103-105: the message *)
Definition error_message (e : exn) : str :=
  match e with
  | EInvalidChildren tag expected actual comparison =>
      tag ++ lit " tag must have " ++ comparison ++ lit " " ++ nat_str expected
        ++ lit " children. It's actually " ++ nat_str actual
  | _ => []
  end.

(** The constructors only store what they are given (an element or its parts, an adapter, a normalizer), which the functions below take
    as arguments: usecases.py:30-32, 46, 54-56, 111, 137-138, 149, 186-187, 198-201, 233-234, 247-248, 263-264, 293-295, 306-307, 338-342,
    367-371, 400-401, 414-417, 449-451, 478-479, 497-498, 520-522, 563-564, 579-582, 620, 648-649, 654, 697, 714-715, 741-742, 761-763. *)

(** usecases.py:34-41 [Math.convert] *)
Definition Math_convert (ks : list kid) : converter :=
  latex <- convert_all ks ;; ret (normalize (join (lit " ") latex)).

(** usecases.py:48-49 [Void.convert] *)
Definition Void_convert : converter := ret [].

(** usecases.py:216-223 = 432-439 = 598-605 [_handle_base_child] of MSup, MSub, MSubsup *)
Definition handle_base_child (base : kid) : M str :=
  base_str <- kid_convert base ;;
  if Nat.leb (length (e_children (kid_elem base))) 1 then ret base_str
  else ret (paren_wrap_if_more_than_one_char base_str).
(** usecases.py:225-228, 441-444, 607-610, 612-615: the script handlers *)
Definition handle_script_child (script : kid) : M str :=
  script_str <- kid_convert script ;; ret (bracket_wrap script_str).

(** usecases.py:203-214 [MSup.convert] *)
Definition MSup_convert (name : str) (children : list kid) : converter :=
  match children with
  | [base_child; exponent_child] =>
      b <- handle_base_child base_child ;;
      x <- handle_script_child exponent_child ;;
      ret (b ++ lit "^" ++ x)
  | _ => invalid_children name 2 (length children)
  end.

(** usecases.py:236-242 [GenericSpacingWrapper.convert] *)
Definition GenericSpacingWrapper_convert (children : list kid) : converter :=
  latex <- convert_all children ;; ret (join (lit " ") latex).

(** usecases.py:250-258 [MSqrt.convert] *)
Definition MSqrt_convert (children : list kid) : converter :=
  latex <- convert_all children ;; ret (cmd1 "\sqrt" (join (lit " ") latex)).

(** usecases.py:269-288 [Separators]: the comparisons; [wrap], usecases.py:266-267, is [generic_wrap] *)
Definition sep_compare (op close open_to_compare close_to_compare : str) : bool :=
  str_eqb op open_to_compare && str_eqb close close_to_compare.

(** usecases.py:291-301 [Vector] *)
Definition Vector_apply (op close : str) (separators : list str) (latex_contents : list str) : str :=
  let op' := if negb (str_eqb op []) then op else lit "(" in
  let close' := if negb (str_eqb close []) then close else lit ")" in
  generic_wrap op' close' (sep_join separators latex_contents).

(** usecases.py:319-333 [Matrix._command] *)
Definition matrix_command (op close : str) : string :=
  if sep_compare op close (lit "(") (lit ")") then "pmatrix"
  else if sep_compare op close (lit "[") (lit "]") then "bmatrix"
  else if sep_compare op close (lit "{") (lit "}") then "Bmatrix"
  else if sep_compare op close (lit "|") (lit "|") then "vmatrix"
  else if sep_compare op close (lit "||") (lit "||") then "Vmatrix"
  else if negb (str_eqb op close) then "matrix"
  else "bmatrix".
(** A newline. *)
Definition newline : str := [10%N].
(** usecases.py:309-317 [Matrix.apply] *)
Definition Matrix_apply (op close : str) (latex_contents : list str) : str :=
  let command := matrix_command op close in
  let matrix := cmd1 "\begin" (lit command) ++ newline ++ concat latex_contents ++ newline ++ cmd1 "\end" (lit command) in
  if String.eqb command "matrix" then generic_wrap op close matrix else matrix.

(** usecases.py:355-362 [MFenced._is_there_relative_of_name] *)
Fixpoint is_relative_of_name (element_name : str) (e : elem) : bool :=
  match e with
  | Elem name _ children _ =>
      str_eqb name element_name || existsb (is_relative_of_name element_name) children
  end.
Definition is_there_relative_of_name (elements : list elem) (element_name : str) : bool :=
  existsb (is_relative_of_name element_name) elements.

(** usecases.py:337-353 [MFenced]: the constructor reads the attributes, [convert] uses what was read *)
Definition MFenced_new (children : list kid) (attributes : loc) : heap -> heap * converter := fun h =>
  let a := hget h attributes in
  let op := dget_or a (lit "open") [] in
  let close := dget_or a (lit "close") [] in
  let separators := map (fun c => [c]) (dget_or a (lit "separators") []) in
  (h, latex_children <- convert_all children ;;
      if is_there_relative_of_name (map kid_elem children) (lit "mtable")
      then ret (Matrix_apply op close latex_children)
      else ret (Vector_apply op close separators latex_children)).

(** usecases.py:388-392 [MTable._add_flag_recursive_if_name] *)
Fixpoint add_flag_recursive_if_name (name flag : str) (e : elem) (h : heap) : heap :=
  match e with
  | Elem n _ children a =>
      let h1 := if str_eqb n name then hset h a (dset (hget h a) flag flag) else h in
      fold_left (fun h0 child => add_flag_recursive_if_name name flag child h0) children h1
  end.
Definition add_flag_to_all (elements : list elem) (name flag : str) (h : heap) : heap :=
  fold_left (fun h0 child => add_flag_recursive_if_name name flag child h0) elements h.

(** usecases.py:394-395 [MTable._has_flag]: [bool(attributes.get(flag))] *)
Definition has_flag (a : dict str) (flag : str) : bool := truthy (dget_or a flag []).

(** usecases.py:365-386 [MTable]: the constructor writes the flags into the descendants *)
Definition MTable_new (children : list kid) (attributes : loc) : heap -> heap * converter := fun h =>
  (add_flag_to_all (map kid_elem children) (lit "mtable") (lit "innerTable") h,
   latex <- convert_all children ;;
   let table_content := join (lit " \\" ++ newline) latex in
   a <- read_attributes attributes ;;
   ret (if has_flag a (lit "innerTable")
        then cmd1 "\begin" (lit "matrix") ++ table_content ++ cmd1 "\end" (lit "matrix")
        else table_content)).

(** usecases.py:403-409 [MTr.convert] *)
Definition MTr_convert (children : list kid) : converter :=
  latex <- convert_all children ;; ret (join (lit " & ") latex).

(** usecases.py:419-430 [MSub.convert] *)
Definition MSub_convert (name : str) (children : list kid) : converter :=
  match children with
  | [base_child; subscript_child] =>
      b <- handle_base_child base_child ;;
      x <- handle_script_child subscript_child ;;
      ret (b ++ lit "_" ++ x)
  | _ => invalid_children name 2 (length children)
  end.

(** usecases.py:453-473 [MFrac] *)
Definition MFrac_convert (name : str) (children : list kid) (attributes : loc) : converter :=
  match children with
  | [c0; c1] =>
      num <- kid_convert c0 ;;
      den <- kid_convert c1 ;;
      a <- read_attributes attributes ;;
      ret (if truthy (dget_or a (lit "bevelled") [])
           then paren_wrap_if_more_than_one_char num ++ lit "/" ++ paren_wrap_if_more_than_one_char den
           else lit "\frac{" ++ num ++ lit "}{" ++ den ++ lit "}")
  | _ => invalid_children name 2 (length children)
  end.

(** usecases.py:481-492 [MRoot.convert] *)
Definition MRoot_convert (name : str) (children : list kid) : converter :=
  match children with
  | [c0; c1] =>
      content <- kid_convert c0 ;;
      root_index <- kid_convert c1 ;;
      ret (lit "\sqrt[" ++ root_index ++ lit "]{" ++ content ++ lit "}")
  | _ => invalid_children name 2 (length children)
  end.

(** usecases.py:513-515 [MAction._is_toggle] *)
Definition is_toggle (a : dict str) : bool :=
  match dget a (lit "actiontype") with
  | None => true
  | Some t => str_eqb t (lit "toggle") || negb (truthy t)
  end.
(** usecases.py:500-511 [MAction.convert]; [children[0]] of an empty list is IndexError *)
Definition MAction_convert (children : list kid) (attributes : loc) : converter :=
  a <- read_attributes attributes ;;
  if is_toggle a then
    latex <- convert_all children ;; ret (join (lit " \Longrightarrow ") latex)
  else
    match children with
    | [] => raise EIndex
    | c0 :: _ => kid_convert c0
    end.

(** usecases.py:532-558: the template selected by [self._notation] *)
Definition enclose (notation content : str) : str :=
  let is v := str_eqb notation (lit v) in
  if is "actuarial" then lit "\overline{\left." ++ content ++ lit "\right|}"
  else if is "radical" then cmd1 "\sqrt" content
  else if str_in notation [lit "box"; lit "roundedbox"; lit "circle"] then cmd1 "\boxed" content
  else if is "left" then lit "\left|" ++ content
  else if is "right" then content ++ lit "\right|"
  else if is "top" then cmd1 "\overline" content
  else if is "bottom" then cmd1 "\underline" content
  else if is "updiagonalstrike" then cmd1 "\cancel" content
  else if is "downdiagonalstrike" then cmd1 "\bcancel" content
  else if is "updiagonalarrow" then cmd1 "\cancelto{}" content
  else if str_in notation [lit "verticalstrike"; lit "horizontalstrike"] then cmd1 "\hcancel" content
  else if is "madruwb" then lit "\underline{" ++ content ++ lit "\right|}"
  else if is "phasorangle" then lit "{\angle \underline{" ++ content ++ lit "}}"
  else lit "\overline{\left.\right)" ++ content ++ lit "}".
(** usecases.py:518-558 [MEnclose]: the constructor reads the notation *)
Definition MEnclose_new (children : list kid) (attributes : loc) : heap -> heap * converter := fun h =>
  let notation := dget_or (hget h attributes) (lit "notation") (lit "longdiv") in
  (h, latex <- convert_all children ;; ret (enclose notation (join (lit " ") latex))).

(** usecases.py:566-574 [MError.convert] *)
Definition MError_convert (children : list kid) : converter :=
  latex <- convert_all children ;; ret (lit "\color{red}{" ++ join (lit " ") latex ++ lit "}").

(** usecases.py:584-596 [MSubsup.convert] *)
Definition MSubsup_convert (name : str) (children : list kid) : converter :=
  match children with
  | [base_child; subscript_child; superscript_child] =>
      b <- handle_base_child base_child ;;
      x <- handle_script_child subscript_child ;;
      y <- handle_script_child superscript_child ;;
      ret (b ++ lit "_" ++ x ++ lit "^" ++ y)
  | _ => invalid_children name 3 (length children)
  end.

(** usecases.py:58-72, 140-144, 189-193, 656-687 as converters of an element *)
Definition MI_convert (value : str) (attributes : loc) : converter :=
  a <- read_attributes attributes ;; ret (mi_convert value a).
Definition MO_convert (value : str) : converter := ret (mo_convert value).
Definition MN_convert (value : str) : converter := ret (mn_convert value).
Definition MText_convert (value : str) (attributes : loc) : converter :=
  a <- read_attributes attributes ;; ret (mtext_convert value a).

(** usecases.py:695-709 [UnderOverSetter]; [under] is [TagTypes.Under] *)
Definition under_over_apply (under : bool) (content accent : str) : str :=
  if str_in accent [lit "\hat"; lit "\bar"; lit "\underbrace"; lit "\overbrace"]
  then accent ++ lit "{" ++ content ++ lit "}"
  else lit (if under then "\underset" else "\overset") ++ lit "{" ++ accent ++ lit "}{" ++ content ++ lit "}".
(** usecases.py:717-736 [GenericUnderOver] *)
Definition GenericUnderOver_convert (name : str) (children : list kid) : converter :=
  match children with
  | [c0; c1] =>
      content <- kid_convert c0 ;;
      accent <- kid_convert c1 ;;
      ret (under_over_apply (re_search (RLit (lit "under")) name) content accent)
  | _ => invalid_children name 2 (length children)
  end.

(** usecases.py:744-756 [MUnderover.convert] *)
Definition MUnderover_convert (name : str) (children : list kid) : converter :=
  match children with
  | [c0; c1; c2] =>
      base <- kid_convert c0 ;;
      under_content <- kid_convert c1 ;;
      over_content <- kid_convert c2 ;;
      ret (base ++ lit "_{" ++ under_content ++ lit "}^{" ++ over_content ++ lit "}")
  | _ => invalid_children name 3 (length children)
  end.

(** usecases.py:819-820 [MMultiscripts._is_prescripts] *)
Definition is_prescripts (k : kid) : bool := str_eqb (e_name (kid_elem k)) (lit "mprescripts").
(** usecases.py:814-817 [MMultiscripts._wrap_in_parenthesis_if_there_is_space] *)
Definition wrap_in_parenthesis_if_there_is_space (val : str) : str :=
  if negb (re_search (RPlus (RChar is_space)) val) then val else paren_wrap val.
(** Converting [children[i]] where the code has made sure that [i] is a valid index. *)
Definition convert_nth (children : list kid) (i : nat) : M str :=
  match nth_error children i with
  | Some k => kid_convert k
  | None => raise EIndex
  end.
(** Testing [children[i]] for being mprescripts, [i] valid. *)
Definition is_prescripts_nth (children : list kid) (i : nat) : bool :=
  match nth_error children i with
  | Some k => is_prescripts k
  | None => false
  end.
(** usecases.py:781-796 [MMultiscripts._prescript_latex] *)
Definition prescript_latex (children : list kid) : M str :=
  let go sub sup :=
    sub_latex <- convert_nth children sub ;;
    sup_latex <- convert_nth children sup ;;
    ret (lit "\_{" ++ sub_latex ++ lit "}^{" ++ sup_latex ++ lit "}") in
  if Nat.leb 4 (length children) && is_prescripts_nth children 1 then go 2 3
  else if Nat.leb 6 (length children) && is_prescripts_nth children 3 then go 4 5
  else ret [].
(** usecases.py:798-812 [MMultiscripts._postscript_latex] *)
Definition postscript_latex (children : list kid) : M str :=
  if Nat.ltb (length children) 3 || (Nat.leb 1 (length children) && is_prescripts_nth children 1)
  then ret []
  else
    sub_latex <- convert_nth children 1 ;;
    sup_latex <- convert_nth children 2 ;;
    ret (lit "_{" ++ sub_latex ++ lit "}^{" ++ sup_latex ++ lit "}").
(** usecases.py:765-779 [MMultiscripts.convert] *)
Definition MMultiscripts_convert (name : str) (children : list kid) : converter :=
  if Nat.ltb (length children) 3
  then raise (EInvalidChildren name 3 (length children) (lit "at least"))
  else
    base_content <- convert_nth children 0 ;;
    pre <- prescript_latex children ;;
    post <- postscript_latex children ;;
    ret (pre ++ wrap_in_parenthesis_if_there_is_space base_content ++ post).

(** A converter class: from the element (name, value, children, attributes) its constructor. *)
Definition converter_class := str -> str -> list kid -> loc -> heap -> heap * converter.
(** A class whose constructor only stores its arguments. *)
Definition plain (f : str -> str -> list kid -> loc -> converter) : converter_class :=
  fun n v ks a h => (h, f n v ks a).

Definition generic_spacing_wrapper : converter_class :=
  plain (fun _ _ ks _ => GenericSpacingWrapper_convert ks).

(** el_to_tex/adapter.py:37-63 [_from_mathml_element_to_latex_converter] with the factories of
    adapter.py:65-120 *)
Definition converter_table : dict converter_class := [
  (lit "math", plain (fun _ _ ks _ => Math_convert ks));
  (lit "mi", plain (fun _ v _ a => MI_convert v a));
  (lit "mo", plain (fun _ v _ _ => MO_convert v));
  (lit "mn", plain (fun _ v _ _ => MN_convert v));
  (lit "msqrt", plain (fun _ _ ks _ => MSqrt_convert ks));
  (lit "mfenced", fun _ _ ks a => MFenced_new ks a);
  (lit "mfrac", plain (fun n _ ks a => MFrac_convert n ks a));
  (lit "mroot", plain (fun n _ ks _ => MRoot_convert n ks));
  (lit "maction", plain (fun _ _ ks a => MAction_convert ks a));
  (lit "menclose", fun _ _ ks a => MEnclose_new ks a);
  (lit "merror", plain (fun _ _ ks _ => MError_convert ks));
  (lit "mphantom", plain (fun _ _ _ _ => Void_convert));
  (lit "msup", plain (fun n _ ks _ => MSup_convert n ks));
  (lit "msub", plain (fun n _ ks _ => MSub_convert n ks));
  (lit "msubsup", plain (fun n _ ks _ => MSubsup_convert n ks));
  (lit "mmultiscripts", plain (fun n _ ks _ => MMultiscripts_convert n ks));
  (lit "mtext", plain (fun _ v _ a => MText_convert v a));
  (lit "munderover", plain (fun n _ ks _ => MUnderover_convert n ks));
  (lit "mtable", fun _ _ ks a => MTable_new ks a);
  (lit "mtr", plain (fun _ _ ks _ => MTr_convert ks));
  (lit "mover", plain (fun n _ ks _ => GenericUnderOver_convert n ks));
  (lit "munder", plain (fun n _ ks _ => GenericUnderOver_convert n ks));
  (lit "mrow", generic_spacing_wrapper);
  (lit "mpadded", generic_spacing_wrapper)
].

(** el_to_tex/adapter.py:29-35 [to_latex_converter]: an empty name is looked up as "void"
    (protocols.py:56-71; only its name is looked at); [.get(name, self._make_generic_spacing_wrapper)] *)
Definition make_converter (name value : str) (children : list kid) (attributes : loc)
  : heap -> heap * converter :=
  let key := py_or name (lit "void") in
  dget_or converter_table key generic_spacing_wrapper name value children attributes.

Fixpoint to_latex_converter (e : elem) : heap -> heap * converter :=
  match e with
  | Elem name value children attributes =>
      make_converter name value (map (fun c => Kid c (to_latex_converter c)) children) attributes
  end.

(** [adapter.to_latex_converter(e).convert()] *)
Definition convert_elem (e : elem) : M str :=
  fun h => let (h1, c) := to_latex_converter e h in c h1.
