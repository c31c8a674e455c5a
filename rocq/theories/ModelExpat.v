(** The XML parser behind the library: [xml.dom.minidom.parseString] (CPython 3.11, Lib/xml/dom/expatbuilder.py over expat 2.6) for
    a fragment of XML.  It is not code of /repo.  ModelXml.v leaves the parser open, and so do the theorems about the library;
    this one shows that what SpecXml.v asks of a parser can be met, and runs the library on actual texts.

    Comparison with the real parser on random texts (documents, error codes, error positions; no difference found): a Python
    transcription of this file on two million texts (1066374 of them in the fragment), this file itself, by
    [vm_compute], on ten thousand.  That a byte order mark at the start is skipped as a column: the real parser with and without one, on 1478696
    texts.  Character data outside the root element was added later and compared, this file itself, on fifteen thousand texts that have some; no
    difference.

    Outside the fragment (result [EOther 1]): a carriage return, two byte order marks at the start, an internal subset of the document type, names with
    characters beyond ASCII, names of entities, processing instructions and document types with a colon, namespace names that are
    empty, reserved or with a space, two prefixed attributes with the same local part, an element with the prefix xmlns, outside the root
    element a token that begins with one of %#)]: or a quotation mark or has a colon or a character beyond ASCII, a misspelt CDATA opening, a wrong XML declaration at the start of the text, a wrong
    document type.  A surrogate code point ([EOther 2]) cannot be encoded.
    Left out: the node of the document type, which is a child of the document (nothing looks at it).

    An automaton: [step] is one character, so that every error has a position. *)
From Coq Require Import String.
From Verif Require Export ModelXml.
Local Open Scope string_scope.
Local Open Scope list_scope.

Definition is_white (c : N) : bool := ((c =? 32) || (c =? 9) || (c =? 10))%N.
Definition ascii_letter (c : N) : bool := (((65 <=? c) && (c <=? 90)) || ((97 <=? c) && (c <=? 122)))%N.
Definition ascii_digit (c : N) : bool := ((48 <=? c) && (c <=? 57))%N.
Definition name_start (c : N) : bool := (ascii_letter c || (c =? 95))%N.
Definition name_char (c : N) : bool := (name_start c || ascii_digit c || (c =? 45) || (c =? 46))%N.
(** The characters XML allows. *)
Definition xml_char (c : N) : bool :=
  ((c =? 9) || (c =? 10) || (c =? 13) || ((32 <=? c) && (c <=? 55295)) || ((57344 <=? c) && (c <=? 65533))
   || ((65536 <=? c) && (c <=? 1114111)))%N.
(** Characters of names that are outside the fragment. *)
Definition other_name (c : N) : bool := (128 <=? c)%N.

(** Reading on in a name with at most one colon, with a name on each side of it. *)
Inductive name_outcome := NGo | NEnd | NBad | NOut.
Definition name_next (acc : str) (c : N) : name_outcome :=
  let other := other_name c && xml_char c in
  if (last acc 0 =? 58)%N then if name_start c then NGo else if other then NOut else NBad
  else if name_char c then NGo
  else if (c =? 58)%N then if existsb (N.eqb 58) acc then NBad else NGo
  else if other then NOut else NEnd.
(** A name with a prefix: prefix and local part. *)
Fixpoint split_colon (n : str) : option (str * str) :=
  match n with
  | [] => None
  | c :: r =>
      if (c =? 58)%N then Some ([], r)
      else match split_colon r with Some (p, l) => Some (c :: p, l) | None => None end
  end.

(** ** References: after the ampersand *)
Inductive reference :=
| RStart
| RName (acc : str)
| RHash
| RHex0
| RDec (v : N)
| RHex (v : N).
Inductive ref_outcome :=
| RGo (r : reference)
| RDone (c : N)
| RFail (code : nat)
| RBad
| ROut.
Definition predefined (n : str) : option N :=
  if str_eqb n (lit "lt") then Some 60%N
  else if str_eqb n (lit "gt") then Some 62%N
  else if str_eqb n (lit "amp") then Some 38%N
  else if str_eqb n (lit "quot") then Some 34%N
  else if str_eqb n (lit "apos") then Some 39%N
  else None.
Definition hex_value (c : N) : option N :=
  if ascii_digit c then Some (c - 48)%N
  else if ((65 <=? c) && (c <=? 70))%N then Some (c - 55)%N
  else if ((97 <=? c) && (c <=? 102))%N then Some (c - 87)%N
  else None.
Definition char_number (v : N) : ref_outcome := if xml_char v then RDone v else RFail 14.
Definition ref_step (r : reference) (c : N) : ref_outcome :=
  match r with
  | RStart =>
      if (c =? 35)%N then RGo RHash
      else if name_start c then RGo (RName [c])
      else if other_name c && xml_char c then ROut else RBad
  | RName acc =>
      if name_char c then RGo (RName (acc ++ [c]))
      else if (other_name c || (c =? 58)%N) && xml_char c then ROut
      else if (c =? 59)%N then match predefined acc with Some v => RDone v | None => RFail 11 end
      else RBad
  | RHash =>
      if (c =? 120)%N then RGo RHex0
      else if ascii_digit c then RGo (RDec (c - 48)) else RBad
  | RHex0 => match hex_value c with Some d => RGo (RHex d) | None => RBad end
  | RDec v =>
      if ascii_digit c then RGo (RDec (v * 10 + (c - 48)))
      else if (c =? 59)%N then char_number v else RBad
  | RHex v =>
      match hex_value c with
      | Some d => RGo (RHex (v * 16 + d))
      | None => if (c =? 59)%N then char_number v else RBad
      end
  end.

(** ** States *)

(** A start tag being read: where it began, its name, its attributes so far, the first error to be reported when it is complete. *)
Record start_tag := Tag { g_pos : nat; g_name : str; g_attrs : list (str * str); g_bad : option (nat * nat) }.

(** What is being read.  [p] is where the markup began. *)
Inductive scan :=
| Between (brackets : nat)                                            (* text; how many ] directly before, at most 2 *)
| Lt (p : nat)
| Name (p : nat) (acc : str)
| Attrs (g : start_tag)                                                     (* white space in a tag *)
| AfterValue (g : start_tag)
| AttrName (g : start_tag) (q : nat) (acc : str)
| AttrEq (g : start_tag) (k : str)
| AttrQuote (g : start_tag) (k : str)
| AttrValue (g : start_tag) (k : str) (quote : N) (acc : str)
| AttrRef (g : start_tag) (k : str) (quote : N) (acc : str) (at_ : nat) (r : reference)
| Slash (g : start_tag)
| EndTag (p : nat) (acc : str)
| EndWait (p : nat) (acc : str)
| Ref (p : nat) (r : reference)
| Bang (p : nat)
| BangDash (p : nat)
| Comment (p : nat) (acc : str)
| CommentDash (p : nat) (acc : str)
| CommentDash2 (p : nat) (acc : str)
| CDataOpen (p : nat) (rest : str)
| CData (acc : str) (brackets : nat)
| PiName (p : nat) (acc : str)
| PiClose (p : nat) (target : str)
| PiWait (p : nat) (target : str)
| PiData (p : nat) (target acc : str)
| PiQuestion (p : nat) (target acc : str)
| Loose (p : nat) (name : bool).                                       (* a word outside the root element; whether it begins like a name *)

(** An open element: name, attributes, children so far in reverse order. *)
Definition frame := (str * list (str * str) * list dnode)%type.
(** [s_doc]: the top-level nodes in reverse order; [s_seen]: the root element has begun. *)
Record state := State { s_doc : list dnode; s_stack : list frame; s_seen : bool; s_scan : scan }.
Inductive outcome :=
| Go (s : state)
| Bad (code pos : nat)
| Out.

Definition with_scan (s : state) (m : scan) : state := State (s_doc s) (s_stack s) (s_seen s) m.
Definition goto (s : state) (m : scan) : outcome := Go (with_scan s m).

(** Appending a node (expatbuilder [_append_child]). *)
Definition add_node (s : state) (n : dnode) : state :=
  match s_stack s with
  | (name, l, ch) :: stack => State (s_doc s) ((name, l, n :: ch) :: stack) (s_seen s) (s_scan s)
  | [] => State (n :: s_doc s) [] (s_seen s) (s_scan s)
  end.
(** Character data: joined to a text node directly before (expatbuilder [character_data_handler]). *)
Definition add_char (s : state) (c : N) : state :=
  match s_stack s with
  | (name, l, DText d :: ch) :: stack => State (s_doc s) ((name, l, DText (d ++ [c]) :: ch) :: stack) (s_seen s) (s_scan s)
  | (name, l, ch) :: stack => State (s_doc s) ((name, l, DText [c] :: ch) :: stack) (s_seen s) (s_scan s)
  | [] => s
  end.

(** Namespace declarations come first in the attribute list (expatbuilder [Namespaces.start_element_handler]). *)
Definition is_declaration (k : str) : bool := str_eqb k (lit "xmlns") || str_eqb (firstn 6 k) (lit "xmlns:").
Definition declarations_first (l : list (str * str)) : list (str * str) :=
  filter (fun kv => is_declaration (fst kv)) l ++ filter (fun kv => negb (is_declaration (fst kv))) l.
Definition odd_declaration (kv : str * str) : bool :=
  is_declaration (fst kv)
  && (str_in (fst kv) [lit "xmlns:xml"; lit "xmlns:xmlns"]
      || str_in (snd kv) [[]; lit "http://www.w3.org/XML/1998/namespace"; lit "http://www.w3.org/2000/xmlns/"]
      || existsb (N.eqb 32) (snd kv)).

(** The prefixes declared in a list of attributes, and those of an element and the elements around it. *)
Definition prefixes_declared (l : list (str * str)) : list str :=
  flat_map (fun kv => match split_colon (fst kv) with
                      | Some (p, n) => if str_eqb p (lit "xmlns") then [n] else []
                      | None => []
                      end) l.
Definition prefixes (stack : list frame) (l : list (str * str)) : list str :=
  lit "xml" :: prefixes_declared l ++ flat_map (fun f => prefixes_declared (snd (fst f))) stack.
Definition unbound (ps : list str) (n : str) : bool :=
  match split_colon n with Some (p, _) => negb (str_in p ps) | None => false end.
Definition prefixed_with_xmlns (n : str) : bool :=
  match split_colon n with Some (p, _) => str_eqb p (lit "xmlns") | None => false end.
(** The local parts of prefixed attributes. *)
Definition locals (l : list (str * str)) : list str :=
  flat_map (fun kv => if is_declaration (fst kv) then [] else match split_colon (fst kv) with Some (_, n) => [n] | None => [] end) l.
Fixpoint repeated (l : list str) : bool := match l with [] => false | x :: l' => str_in x l' || repeated l' end.

Definition finish_tag (s : state) (g : start_tag) (empty : bool) : outcome :=
  if existsb odd_declaration (g_attrs g) || repeated (locals (g_attrs g)) || prefixed_with_xmlns (g_name g) then Out
  else match g_bad g with
  | Some (code, pos) => Bad code pos
  | None =>
      if existsb (unbound (prefixes (s_stack s) (g_attrs g)))
           (g_name g :: map fst (filter (fun kv => negb (is_declaration (fst kv))) (g_attrs g))) then Bad 27 (g_pos g)
      else let l := declarations_first (g_attrs g) in
      if empty then Go (add_node (State (s_doc s) (s_stack s) true (Between 0)) (DElem (g_name g) l []))
      else Go (State (s_doc s) ((g_name g, l, []) :: s_stack s) true (Between 0))
  end.
Definition close_tag (s : state) (p : nat) (n : str) : outcome :=
  match s_stack s with
  | [] => Out
  | (name, l, ch) :: stack =>
      if str_eqb name n then Go (add_node (State (s_doc s) stack (s_seen s) (Between 0)) (DElem name l (rev ch)))
      else Bad 7 (p + 2)
  end.
Definition finish_pi (s : state) (p : nat) (target data : str) : outcome :=
  if str_eqb target (lit "xml") then Bad (if s_seen s && match s_stack s with [] => true | _ => false end then 9 else 17) p
  else Go (add_node (with_scan s (Between 0)) (DPI target data)).

Definition lower (c : N) : N := if ((65 <=? c) && (c <=? 90))%N then (c + 32)%N else c.
Definition quoted (c : N) : bool := ((c =? 34) || (c =? 39))%N.
Definition first_error (g : start_tag) (code pos : nat) : start_tag :=
  match g_bad g with
  | None => Tag (g_pos g) (g_name g) (g_attrs g) (Some (code, pos))
  | Some _ => g
  end.
Definition has_attr (g : start_tag) (k : str) : bool := str_in k (map fst (g_attrs g)).
(** Character data outside the root element is read in tokens, as those of a document type; none is allowed there: a syntax error (2) before the
    root element, junk (9) after it, at the beginning of the token. *)
Definition loose_code (s : state) : nat := if s_seen s then 9 else 2.
Definition loose_start (s : state) (pos : nat) (c : N) : outcome :=
  if name_char c then goto s (Loose pos (name_start c))
  else if existsb (N.eqb c) (lit ",[(|>") then Bad (loose_code s) pos
  else if other_name c || existsb (N.eqb c) (lit "%#)]:" ++ [34; 39]%N) then Out else Bad 4 pos.
Definition loose_step (s : state) (pos p : nat) (name : bool) (c : N) : outcome :=
  if name_char c then goto s (Loose p name)
  else if is_white c || existsb (N.eqb c) (lit ",[)|>%") then Bad (loose_code s) p
  else if existsb (N.eqb c) (lit "+*?") then if name then Bad (loose_code s) p else Bad 4 pos
  else if (other_name c && xml_char c) || (c =? 58)%N then Out else Bad 4 pos.
Definition brackets_after (k : nat) (c : N) : nat := if (c =? 93)%N then Nat.min 2 (S k) else 0.

(** ** One character.  [lenient]: references to undefined entities are skipped. *)
Section Lenient.
Variable lenient : bool.
Definition step (pos : nat) (s : state) (c : N) : outcome :=
  let bad := Bad 4 pos in
  let other := other_name c && xml_char c in
  let inside := match s_stack s with [] => false | _ => true end in
  match s_scan s with
  | Between k =>
      if (c =? 60)%N then goto s (Lt pos)
      else if inside then
        if (c =? 38)%N then goto s (Ref pos RStart)
        else if negb (xml_char c) then bad
        else if (c =? 62)%N && Nat.leb 2 k then bad
        else Go (add_char (with_scan s (Between (brackets_after k c))) c)
      else if is_white c then goto s (Between 0)
      else if negb (xml_char c) then bad else loose_start s pos c
  | Ref p r =>
      match ref_step r c with
      | RGo r' => goto s (Ref p r')
      | RDone v => Go (add_char (with_scan s (Between 0)) v)
      | RFail code => if lenient && Nat.eqb code 11 then goto s (Between 0) else Bad code p
      | RBad => bad
      | ROut => Out
      end
  | Lt p =>
      if (c =? 33)%N then goto s (Bang p)
      else if (c =? 63)%N then goto s (PiName p [])
      else if (c =? 47)%N && inside then goto s (EndTag p [])
      else if name_start c then if negb inside && s_seen s then Bad 9 p else goto s (Name p [c])
      else if other_name c && (xml_char c || negb inside) then Out else bad
  | Name p acc =>
      let g := Tag p acc [] None in
      match name_next acc c with
      | NGo => goto s (Name p (acc ++ [c]))
      | NBad => bad
      | NOut => Out
      | NEnd =>
          if is_white c then goto s (Attrs g)
          else if (c =? 47)%N then goto s (Slash g)
          else if (c =? 62)%N then finish_tag s g false else bad
      end
  | Attrs g =>
      if is_white c then goto s (Attrs g)
      else if (c =? 47)%N then goto s (Slash g)
      else if (c =? 62)%N then finish_tag s g false
      else if name_start c then goto s (AttrName g pos [c])
      else if other then Out else bad
  | AfterValue g =>
      if is_white c then goto s (Attrs g)
      else if (c =? 47)%N then goto s (Slash g)
      else if (c =? 62)%N then finish_tag s g false
      else if other then Out else bad
  | AttrName g q k =>
      let g' := if has_attr g k then first_error g 8 q else g in
      match name_next k c with
      | NGo => goto s (AttrName g q (k ++ [c]))
      | NBad => bad
      | NOut => Out
      | NEnd =>
          if (c =? 61)%N then goto s (AttrQuote g' k)
          else if is_white c then goto s (AttrEq g' k) else bad
      end
  | AttrEq g k =>
      if is_white c then goto s (AttrEq g k)
      else if (c =? 61)%N then goto s (AttrQuote g k) else bad
  | AttrQuote g k =>
      if is_white c then goto s (AttrQuote g k)
      else if quoted c then goto s (AttrValue g k c []) else bad
  | AttrValue g k q v =>
      if (c =? q)%N then goto s (AfterValue (Tag (g_pos g) (g_name g) (g_attrs g ++ [(k, v)]) (g_bad g)))
      else if (c =? 38)%N then goto s (AttrRef g k q v pos RStart)
      else if (c =? 60)%N || negb (xml_char c) then bad
      else goto s (AttrValue g k q (v ++ [if is_white c then 32%N else c]))
  | AttrRef g k q v p r =>
      match ref_step r c with
      | RGo r' => goto s (AttrRef g k q v p r')
      | RDone w => goto s (AttrValue g k q (v ++ [w]))
      | RFail code =>
          if lenient && Nat.eqb code 11 then goto s (AttrValue g k q v)
          else goto s (AttrValue (first_error g code (if Nat.eqb code 11 then g_pos g else p)) k q v)
      | RBad => bad
      | ROut => Out
      end
  | Slash g => if (c =? 62)%N then finish_tag s g true else bad
  | EndTag p [] =>
      if name_start c then goto s (EndTag p [c])
      else if other then Out else bad
  | EndTag p acc =>
      if name_char c || (c =? 58)%N then goto s (EndTag p (acc ++ [c]))
      else if other then Out
      else if is_white c then goto s (EndWait p acc)
      else if (c =? 62)%N then close_tag s p acc else bad
  | EndWait p acc =>
      if is_white c then goto s (EndWait p acc)
      else if (c =? 62)%N then close_tag s p acc else bad
  | Bang p =>
      if (c =? 45)%N then goto s (BangDash p)
      else if negb inside then Out
      else if (c =? 91)%N then goto s (CDataOpen p (lit "CDATA[")) else bad
  | BangDash p => if (c =? 45)%N then goto s (Comment p []) else bad
  | Comment p acc =>
      if (c =? 45)%N then goto s (CommentDash p acc)
      else if xml_char c then goto s (Comment p (acc ++ [c])) else bad
  | CommentDash p acc =>
      if (c =? 45)%N then goto s (CommentDash2 p acc)
      else if xml_char c then goto s (Comment p (acc ++ [45%N; c])) else bad
  | CommentDash2 p acc =>
      if (c =? 62)%N then Go (add_node (with_scan s (Between 0)) (DComment acc)) else bad
  | CDataOpen p [] => Out
  | CDataOpen p (x :: rest) =>
      if negb (c =? x)%N then Out
      else match rest with [] => goto s (CData [] 0) | _ => goto s (CDataOpen p rest) end
  | CData acc k =>
      if (c =? 62)%N && Nat.leb 2 k then
        match firstn (length acc - 2) acc with
        | [] => goto s (Between 0)
        | d => Go (add_node (with_scan s (Between 0)) (DCData d))
        end
      else if xml_char c then goto s (CData (acc ++ [c]) (brackets_after k c)) else bad
  | PiName p [] =>
      if name_start c then goto s (PiName p [c])
      else if other then Out else bad
  | PiName p acc =>
      if name_char c then goto s (PiName p (acc ++ [c]))
      else if other || (c =? 58)%N then Out
      else if is_white c || (c =? 63)%N then
        if str_eqb (map lower acc) (lit "xml") && negb (str_eqb acc (lit "xml")) then bad
        else if str_eqb acc (lit "xml") && Nat.eqb p 0 then Out
        else if (c =? 63)%N then goto s (PiClose p acc) else goto s (PiWait p acc)
      else bad
  | PiClose p t => if (c =? 62)%N then finish_pi s p t [] else bad
  | PiWait p t =>
      if is_white c then goto s (PiWait p t)
      else if (c =? 63)%N then goto s (PiQuestion p t [])
      else if xml_char c then goto s (PiData p t [c]) else bad
  | PiData p t acc =>
      if (c =? 63)%N then goto s (PiQuestion p t acc)
      else if xml_char c then goto s (PiData p t (acc ++ [c])) else bad
  | PiQuestion p t acc =>
      if (c =? 62)%N then finish_pi s p t acc
      else if (c =? 63)%N then goto s (PiQuestion p t (acc ++ [63%N]))
      else if xml_char c then goto s (PiData p t (acc ++ [63%N; c])) else bad
  | Loose p name => loose_step s pos p name c
  end.

(** ** The whole text *)
Inductive verdict :=
| Read (d : document)
| Wrong (code pos : nat)
| Outside.

(** Where the markup being read began. *)
Definition began (pos : nat) (m : scan) : nat :=
  match m with
  | Between _ => pos
  | Attrs g | AfterValue g | AttrName g _ _ | AttrEq g _ | AttrQuote g _ | AttrValue g _ _ _ | AttrRef g _ _ _ _ _ | Slash g => g_pos g
  | CData _ k => pos - k
  | Lt p | Name p _ | EndTag p _ | EndWait p _ | Ref p _ | Bang p | BangDash p | Comment p _ | CommentDash p _ | CommentDash2 p _
  | CDataOpen p _ | PiName p _ | PiClose p _ | PiWait p _ | PiData p _ _ | PiQuestion p _ _ | Loose p _ => p
  end.
Definition finish (pos : nat) (s : state) : verdict :=
  match s_scan s with
  | Between _ => match s_stack s with
                 | [] => if s_seen s then Read (rev (s_doc s)) else Wrong 3 pos
                 | _ => Wrong 3 pos
                 end
  | CData _ _ => Wrong 20 (began pos (s_scan s))
  | Loose p _ => Wrong (loose_code s) p
  | m => Wrong 5 (began pos m)
  end.
Fixpoint run (pos : nat) (s : state) (x : str) : verdict :=
  match x with
  | [] => finish pos s
  | c :: x' =>
      match step pos s c with
      | Go s' => run (S pos) s' x'
      | Bad code at_ => Wrong code at_
      | Out => Outside
      end
  end.
End Lenient.
Definition start : state := State [] [] false (Between 0).

(** ** XML declaration and document type.  They give no node that is looked at; a document type with an external subset that is
    not read makes undefined entities no error. *)
Fixpoint skip_white (x : str) : str := match x with c :: x' => if is_white c then skip_white x' else x | [] => [] end.
Definition some_white (x : str) : option str := match x with c :: x' => if is_white c then Some (skip_white x') else None | [] => None end.
Fixpoint word (w x : str) : option str :=
  match w, x with
  | [], _ => Some x
  | c :: w', d :: x' => if (c =? d)%N then word w' x' else None
  | _, [] => None
  end.
Fixpoint until (q : N) (ok : N -> bool) (x : str) : option (str * str) :=
  match x with
  | [] => None
  | c :: x' =>
      if (c =? q)%N then Some ([], x')
      else if ok c then match until q ok x' with Some (v, r) => Some (c :: v, r) | None => None end else None
  end.
Definition quoted_text (ok : N -> bool) (x : str) : option (str * str) :=
  match x with q :: x' => if quoted q then until q ok x' else None | [] => None end.
Fixpoint skip_name (x : str) : str := match x with c :: x' => if name_char c then skip_name x' else x | [] => [] end.
Definition some_name (x : str) : option str := match x with c :: x' => if name_start c then Some (skip_name x') else None | [] => None end.
Definition then_ {A B} (o : option A) (f : A -> option B) : option B := match o with Some a => f a | None => None end.

(** White space, name, equals sign, quoted text. *)
Definition version_char (c : N) : bool := (ascii_letter c || ascii_digit c || (c =? 46) || (c =? 95) || (c =? 45))%N.
Definition setting (n x : str) : option (str * str) :=
  then_ (some_white x) (fun x => then_ (word n x) (fun x => then_ (word (lit "=") (skip_white x)) (fun x =>
  quoted_text version_char (skip_white x)))).
(** After [<?xml]: standalone, and what follows the declaration. *)
Definition xml_declaration (x : str) : option (bool * str) :=
  then_ (setting (lit "version") x) (fun vx =>
  then_ (match setting (lit "encoding") (snd vx) with
         | Some (e, x) => if match e with c :: _ => ascii_letter c | [] => false end then Some x else None
         | None => Some (snd vx)
         end) (fun x =>
  then_ (match setting (lit "standalone") x with
         | Some (v, x) => if str_eqb v (lit "yes") then Some (true, x) else if str_eqb v (lit "no") then Some (false, x) else None
         | None => Some (false, x)
         end) (fun sx =>
  then_ (word (lit "?>") (skip_white (snd sx))) (fun x => Some (fst sx, x))))).
Definition public_char (c : N) : bool :=
  ascii_letter c || ascii_digit c || existsb (N.eqb c) (lit " -'()+,./:=?;!*#@$_%").
(** After [<!DOCTYPE]: whether there is an external subset, and what follows. *)
Definition doctype (x : str) : option (bool * str) :=
  then_ (some_white x) (fun x => then_ (some_name x) (fun x =>
  then_ (match some_white x with
         | None => Some (false, x)
         | Some y =>
             match word (lit "SYSTEM") y with
             | Some y => then_ (some_white y) (fun y => then_ (quoted_text xml_char y) (fun vy => Some (true, snd vy)))
             | None =>
                 match word (lit "PUBLIC") y with
                 | Some y =>
                     then_ (some_white y) (fun y => then_ (quoted_text public_char y) (fun vy =>
                     then_ (some_white (snd vy)) (fun y => then_ (quoted_text xml_char y) (fun vy => Some (true, snd vy)))))
                 | None => Some (false, y)
                 end
             end
         end) (fun ex =>
  then_ (word (lit ">") (skip_white (snd ex))) (fun x => Some (fst ex, x))))).

(** The beginning of [x], up to [rest], replaced by white space. *)
Definition blanked (x rest : str) : str :=
  map (fun c => if (c =? 10)%N then c else 32%N) (firstn (length x - length rest) x) ++ rest.
(** The text from the document type on. *)
Fixpoint find_doctype (pos : nat) (s : state) (x : str) : option str :=
  match x with
  | [] => None
  | c :: x' =>
      if match s_scan s, s_stack s, s_seen s, word (lit "<!DOCTYPE") x with Between _, [], false, Some _ => true | _, _, _, _ => false end
      then Some x
      else match step false pos s c with Go s' => find_doctype (S pos) s' x' | _ => None end
  end.
Definition read_body (standalone : bool) (x : str) : verdict :=
  match find_doctype 0 start x with
  | None => run false 0 start x
  | Some y =>
      match then_ (word (lit "<!DOCTYPE") y) doctype with
      | None => Outside
      | Some (external, rest) =>
          run (external && negb standalone) 0 start (firstn (length x - length y) x ++ blanked y rest)
      end
  end.
Definition read_text (x : str) : verdict :=
  match word (lit "<?xml") x with
  | Some (c :: y) =>
      if is_white c then
        match xml_declaration (c :: y) with
        | None => Outside
        | Some (standalone, rest) => read_body standalone (blanked x rest)
        end
      else read_body false x
  | _ => read_body false x
  end.

(** Line and column of a position: what comes before it. *)
Fixpoint line_column (line column : nat) (before : str) : nat * nat :=
  match before with
  | [] => (line, column)
  | c :: before' => if (c =? 10)%N then line_column (S line) 0 before' else line_column line (S column) before'
  end.

Definition surrogate (c : N) : bool := ((55296 <=? c) && (c <=? 57343))%N.
(** A text whose first line begins at a column. *)
Definition parse_from (column0 : nat) (x : str) : res document :=
  if existsb surrogate x then Raise (EOther 2)
  else if existsb (N.eqb 13) x || match x with c :: _ => (c =? 65279)%N | [] => false end then Raise (EOther 1)
  else match read_text x with
       | Read d => Ok d
       | Wrong code pos => let (line, column) := line_column 1 column0 (firstn pos x) in Raise (EExpat code line column)
       | Outside => Raise (EOther 1)
       end.
(** One byte order mark at the start is not part of the text, but counts as a column. *)
Definition parse_text (x : str) : res document :=
  match x with
  | c :: y => if (c =? 65279)%N then parse_from 1 y else parse_from 0 x
  | [] => parse_from 0 x
  end.
