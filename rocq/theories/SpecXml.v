(** Specification of the text level: how a document is written in XML, and what is asked of the parser.
    Only texts without carriage returns and without an internal subset of the document type; names in ASCII.

    [loose]: with a document type that has an external subset, references to undefined entities are skipped. *)
From Coq Require Import String Permutation.
From Verif Require Export SpecDoc SpecLayout.
Local Open Scope string_scope.
Local Open Scope list_scope.

(** ** Characters and names *)
Definition blank (c : N) : Prop := c = 9%N \/ c = 10%N \/ c = 32%N.
Definition good_char (c : N) : Prop :=
  (c = 9 \/ c = 10 \/ 32 <= c <= 55295 \/ 57344 <= c <= 65533 \/ 65536 <= c <= 1114111)%N.
Definition name_first (c : N) : Prop := (65 <= c <= 90 \/ 97 <= c <= 122 \/ c = 95)%N.
Definition name_rest (c : N) : Prop := name_first c \/ (48 <= c <= 57 \/ c = 45 \/ c = 46)%N.
Definition good_name (n : str) : Prop := exists c s, n = c :: s /\ name_first c /\ Forall name_rest s.

(** The name "xml", in capitals or not. *)
Definition is_xml (n : str) : Prop := exists a b c, n = [a; b; c] /\ In a (lit "xX") /\ In b (lit "mM") /\ In c (lit "lL").

(** ** References: what stands between the ampersand and the semicolon *)
Definition decimal_value (ds : str) : N := fold_left (fun v d => v * 10 + (d - 48))%N ds 0%N.
Definition hex_digit_value (d : N) : N := (if d <=? 57 then d - 48 else if d <=? 70 then d - 55 else d - 87)%N.
Definition hex_number (ds : str) : N := fold_left (fun v d => v * 16 + hex_digit_value d)%N ds 0%N.
Inductive refers : N -> str -> Prop :=
| refers_lt : refers 60 (lit "lt")
| refers_gt : refers 62 (lit "gt")
| refers_amp : refers 38 (lit "amp")
| refers_quot : refers 34 (lit "quot")
| refers_apos : refers 39 (lit "apos")
| refers_decimal ds : ds <> [] -> Forall (fun d => 48 <= d <= 57)%N ds -> refers (decimal_value ds) (lit "#" ++ ds)
| refers_hex ds : ds <> [] -> Forall (fun d => 48 <= d <= 57 \/ 65 <= d <= 70 \/ 97 <= d <= 102)%N ds ->
    refers (hex_number ds) (lit "#x" ++ ds).

(** The name of an entity that is not defined. *)
Definition undefined (n : str) : Prop := good_name n /\ ~ In n [lit "lt"; lit "gt"; lit "amp"; lit "quot"; lit "apos"].

(** Data with some characters standing for themselves and others written as references. *)
Inductive written (loose : bool) (raw : N -> Prop) : str -> str -> Prop :=
| written_nil : written loose raw [] []
| written_raw c d x : good_char c -> raw c -> written loose raw d x -> written loose raw (c :: d) (c :: x)
| written_ref c n d x : refers c n -> good_char c \/ c = 13%N -> written loose raw d x ->
    written loose raw (c :: d) (lit "&" ++ n ++ lit ";" ++ x)
| written_skip n d x : loose = true -> undefined n -> written loose raw d x -> written loose raw d (lit "&" ++ n ++ lit ";" ++ x).

(** ** Attributes *)
Definition declares (k : str) : bool := str_eqb k (lit "xmlns") || match after (lit "xmlns:") k with Some _ => true | None => false end.
(** Attributes in the order of the document object: namespace declarations first. *)
Definition dom_order (l : list (str * str)) : list (str * str) :=
  filter (fun kv => declares (fst kv)) l ++ filter (fun kv => negb (declares (fst kv))) l.
(** Names with or without a prefix. *)
Definition prefixed (p m n : str) : Prop := good_name p /\ good_name m /\ n = p ++ lit ":" ++ m.
Definition qualified (n : str) : Prop := good_name n \/ exists p m, prefixed p m n.
Definition good_attribute (kv : str * str) : Prop :=
  qualified (fst kv) /\ ~ In (fst kv) [lit "xmlns:xml"; lit "xmlns:xmlns"]
  /\ (declares (fst kv) = true ->
      snd kv <> [] /\ snd kv <> lit "http://www.w3.org/XML/1998/namespace" /\ snd kv <> lit "http://www.w3.org/2000/xmlns/"
      /\ ~ In 32%N (snd kv)).
Inductive attributes_text (loose : bool) : list (str * str) -> str -> Prop :=
| attributes_none : attributes_text loose [] []
| attributes_more k v l w w1 w2 q x y :
    w <> [] -> Forall blank (w ++ w1 ++ w2) -> q = 34%N \/ q = 39%N ->
    good_attribute (k, v) -> written loose (fun c => ~ In c [q; 60; 38; 9; 10]%N) v x -> attributes_text loose l y ->
    attributes_text loose ((k, v) :: l) (w ++ k ++ w1 ++ lit "=" ++ w2 ++ [q] ++ x ++ [q] ++ y).
(** The prefixes that a list of attributes declares. *)
Definition declared (l : list (str * str)) : list str :=
  flat_map (fun kv => match after (lit "xmlns:") (fst kv) with Some p => [p] | None => [] end) l.
(** The prefixes of an element and of its attributes are declared (here or, [ps], further out); no local part twice. *)
Definition names_bound (ps : list str) (n : str) (l : list (str * str)) : Prop :=
  (forall p m, n = p ++ lit ":" ++ m -> p <> lit "xmlns" /\ In p (lit "xml" :: declared l ++ ps))
  /\ (forall p m v, In (p ++ lit ":" ++ m, v) l -> p = lit "xmlns" \/ In p (lit "xml" :: declared l ++ ps))
  /\ (forall p p' m v v', In (p ++ lit ":" ++ m, v) l -> In (p' ++ lit ":" ++ m, v') l ->
        p = lit "xmlns" \/ p' = lit "xmlns" \/ p = p').
(** A start tag up to its [>] or [/>]. *)
Definition tag_text (loose : bool) (ps : list str) (n : str) (l : list (str * str)) (x : str) : Prop :=
  exists l0 y w, qualified n /\ NoDup (map fst l0) /\ names_bound ps n l0 /\ attributes_text loose l0 y /\ Forall blank w
    /\ l = dom_order l0 /\ x = lit "<" ++ n ++ y ++ w.

(** ** Nodes *)
Definition is_text (n : dnode) : bool := match n with DText _ => true | _ => false end.
Definition text_next (l : list dnode) : bool := match l with n :: _ => is_text n | [] => false end.
Inductive node_text (loose : bool) : list str -> dnode -> str -> Prop :=
| text_written ps d x : d <> [] -> written loose (fun c => ~ In c [60; 38]%N) d x -> ~ occurs (lit "]]>") x -> node_text loose ps (DText d) x
| cdata_written ps d : d <> [] -> Forall good_char d -> ~ occurs (lit "]]>") d ->
    node_text loose ps (DCData d) (lit "<![CDATA[" ++ d ++ lit "]]>")
| comment_written ps d : Forall good_char d -> ~ occurs (lit "--") (d ++ lit "-") ->
    node_text loose ps (DComment d) (lit "<!--" ++ d ++ lit "-->")
| pi_written ps t w d : good_name t -> ~ is_xml t -> Forall blank w -> (d <> [] -> w <> []) ->
    Forall good_char d -> (forall c d', d = c :: d' -> ~ blank c) -> ~ occurs (lit "?>") d ->
    node_text loose ps (DPI t d) (lit "<?" ++ t ++ w ++ d ++ lit "?>")
| empty_written ps n l x : tag_text loose ps n l x -> node_text loose ps (DElem n l []) (x ++ lit "/>")
| element_written ps n l x ch y w : tag_text loose ps n l x -> nodes_text loose (declared l ++ ps) ch y -> Forall blank w ->
    node_text loose ps (DElem n l ch) (x ++ lit ">" ++ y ++ lit "</" ++ n ++ w ++ lit ">")
with nodes_text (loose : bool) : list str -> list dnode -> str -> Prop :=
| nodes_none ps : nodes_text loose ps [] []
| nodes_more ps n x l y : node_text loose ps n x -> nodes_text loose ps l y -> is_text n && text_next l = false ->
    nodes_text loose ps (n :: l) (x ++ y)
| nodes_skip ps x l y : written loose (fun _ => False) [] x -> nodes_text loose ps l y -> nodes_text loose ps l (x ++ y).

(** Outside the root element: white space, comments, processing instructions. *)
Inductive outer_text : list dnode -> str -> Prop :=
| outer_white w : Forall blank w -> outer_text [] w
| outer_more w n x l y : Forall blank w -> (match n with DComment _ | DPI _ _ => True | _ => False end) ->
    node_text false [] n x -> outer_text l y -> outer_text (n :: l) (w ++ x ++ y).

(** The XML declaration ([standalone] or not) and the document type (with an external subset or not). *)
Inductive setting_text (n v : str) : str -> Prop :=
| setting_written w w1 w2 q : w <> [] -> Forall blank (w ++ w1 ++ w2) -> q = 34%N \/ q = 39%N -> Forall name_rest v ->
    setting_text n v (w ++ n ++ w1 ++ lit "=" ++ w2 ++ [q] ++ v ++ [q]).
Definition declaration_text (standalone : bool) (x : str) : Prop :=
  exists v x1 x2 x3 w, setting_text (lit "version") v x1
    /\ (x2 = [] \/ exists e, good_name e /\ (forall e', e <> lit "_" ++ e') /\ setting_text (lit "encoding") e x2)
    /\ (x3 = [] /\ standalone = false
       \/ setting_text (lit "standalone") (if standalone then lit "yes" else lit "no") x3)
    /\ Forall blank w /\ x = lit "<?xml" ++ x1 ++ x2 ++ x3 ++ w ++ lit "?>".
Definition public_id_char (c : N) : Prop := name_rest c \/ In c (lit " '()+,/:=?;!*#@$%").
Inductive doctype_text : bool -> str -> Prop :=
| doctype_only w n w' : w <> [] -> Forall blank (w ++ w') -> good_name n -> doctype_text false (lit "<!DOCTYPE" ++ w ++ n ++ w' ++ lit ">")
| doctype_system w n w1 w2 q v w' : w <> [] -> w1 <> [] -> w2 <> [] -> Forall blank (w ++ w1 ++ w2 ++ w') -> good_name n ->
    q = 34%N \/ q = 39%N -> Forall (fun c => good_char c /\ c <> q) v ->
    doctype_text true (lit "<!DOCTYPE" ++ w ++ n ++ w1 ++ lit "SYSTEM" ++ w2 ++ [q] ++ v ++ [q] ++ w' ++ lit ">")
| doctype_public w n w1 w2 q v w3 q' v' w' : w <> [] -> w1 <> [] -> w2 <> [] -> w3 <> [] ->
    Forall blank (w ++ w1 ++ w2 ++ w3 ++ w') -> good_name n ->
    q = 34%N \/ q = 39%N -> Forall (fun c => public_id_char c /\ c <> q) v ->
    q' = 34%N \/ q' = 39%N -> Forall (fun c => good_char c /\ c <> q') v' ->
    doctype_text true
      (lit "<!DOCTYPE" ++ w ++ n ++ w1 ++ lit "PUBLIC" ++ w2 ++ [q] ++ v ++ [q] ++ w3 ++ [q'] ++ v' ++ [q'] ++ w' ++ lit ">").
(** What comes before the root element. *)
Inductive prolog_text : bool -> list dnode -> str -> Prop :=
| prolog_written standalone external x0 before x1 x2 before' x3 :
    x0 = [] /\ standalone = false \/ declaration_text standalone x0 ->
    outer_text before x1 ->
    x2 = [] /\ external = false \/ doctype_text external x2 ->
    outer_text before' x3 ->
    prolog_text (external && negb standalone) (before ++ before') (x0 ++ x1 ++ x2 ++ x3).
(** The texts of a document. *)
Definition document_text (d : document) (x : str) : Prop :=
  exists loose before x1 n l ch x2 behind x3, d = before ++ [DElem n l ch] ++ behind /\ x = x1 ++ x2 ++ x3
    /\ prolog_text loose before x1 /\ node_text loose [] (DElem n l ch) x2 /\ outer_text behind x3.

(** What is asked of a parser: it reads what is written. *)
Definition reads (parse_string : str -> res document) : Prop := forall d x, document_text d x -> parse_string x = Ok d.

(** ** Documents that differ in what does not matter *)
Definition elements (l : list dnode) : list dnode := filter is_elem_node l.
(** The same elements; attributes in any order; in an element with element children, any text, comments and so on between
    them; otherwise the same text (the first child node, stripped). *)
Inductive alike : dnode -> dnode -> Prop :=
| alike_element n l l' ch ch' : Permutation l l' -> NoDup (map fst l) -> text_of ch = text_of ch' ->
    Forall2 alike (elements ch) (elements ch') -> alike (DElem n l ch) (DElem n l' ch').

(** ** Attributes without a value *)

(** A document written with a cut in a start tag, directly after the name or an attribute. *)
Inductive gap_node (loose : bool) : list str -> dnode -> str -> str -> Prop :=
| gap_empty ps n l0 y0 l1 y1 w : qualified n -> NoDup (map fst (l0 ++ l1)) -> names_bound ps n (l0 ++ l1) ->
    attributes_text loose l0 y0 -> attributes_text loose l1 y1 -> Forall blank w ->
    gap_node loose ps (DElem n (dom_order (l0 ++ l1)) []) (lit "<" ++ n ++ y0) (y1 ++ w ++ lit "/>")
| gap_start ps n l0 y0 l1 y1 w ch z w' : qualified n -> NoDup (map fst (l0 ++ l1)) -> names_bound ps n (l0 ++ l1) ->
    attributes_text loose l0 y0 -> attributes_text loose l1 y1 ->
    Forall blank (w ++ w') -> nodes_text loose (declared (dom_order (l0 ++ l1)) ++ ps) ch z ->
    gap_node loose ps (DElem n (dom_order (l0 ++ l1)) ch) (lit "<" ++ n ++ y0) (y1 ++ w ++ lit ">" ++ z ++ lit "</" ++ n ++ w' ++ lit ">")
| gap_inside ps n l x before y m u v behind z w : tag_text loose ps n l x -> nodes_text loose (declared l ++ ps) before y ->
    gap_node loose (declared l ++ ps) m u v -> nodes_text loose (declared l ++ ps) behind z -> Forall blank w ->
    gap_node loose ps (DElem n l (before ++ m :: behind)) (x ++ lit ">" ++ y ++ u) (v ++ z ++ lit "</" ++ n ++ w ++ lit ">").
Definition gap_document (d : document) (u v : str) : Prop :=
  exists loose before x1 m u2 v2 behind x3, d = before ++ [m] ++ behind /\ u = x1 ++ u2 /\ v = v2 ++ x3
    /\ prolog_text loose before x1 /\ gap_node loose [] m u2 v2 /\ outer_text behind x3.

(** An attribute up to the character [c] that should not be there. *)
Inductive no_value : str -> N -> Prop :=
| no_equals n w c : good_name n -> Forall blank w -> good_char c -> ~ blank c -> c <> 61%N ->
    (w = [] -> (c < 128)%N /\ c <> 58%N /\ ~ name_rest c) -> no_value (n ++ w) c
| no_quote n w w' c : good_name n -> Forall blank (w ++ w') -> good_char c -> ~ blank c -> ~ In c [34; 39]%N ->
    no_value (n ++ w ++ lit "=" ++ w') c.
(** What is asked of a parser: it reports an invalid token (4) at that character, whatever follows. *)
Definition stops (parse_string : str -> res document) : Prop :=
  forall d u v w m c rest, gap_document d u v -> w <> [] -> Forall blank w -> no_value m c -> Forall good_char (c :: rest) ->
    ~ In 10%N (u ++ w ++ m) ->
    parse_string (u ++ w ++ m ++ c :: rest) = Raise (EExpat 4 1 (length (u ++ w ++ m))).

(** A word [m] that names an attribute without a value or with an unquoted one, before [rest]. *)
Inductive unquoted : str -> str -> Prop :=
| unquoted_name n rest : good_name n -> unquoted n (lit ">" ++ rest)
| unquoted_equals n rest : good_name n -> unquoted (n ++ lit "=") (lit ">" ++ rest)
| unquoted_value n c v e rest : good_name n -> ~ blank c -> ~ In c [34; 39; 62]%N -> (forall x, In x v -> ~ In x [32; 62]%N) ->
    e = 32%N \/ e = 62%N -> unquoted (n ++ lit "=" ++ c :: v) (e :: rest).
(** A text of a document with [k] such words too many, each different from everything else in what is left of the text. *)
Inductive damaged (d : document) : nat -> str -> Prop :=
| damaged_0 x : document_text d x -> damaged d 0 x
| damaged_S k u v w m rest : gap_document d u v -> Forall blank w -> unquoted m rest -> Forall good_char (m ++ rest) ->
    (forall a b, u ++ w ++ lit " " ++ m ++ rest = a ++ m ++ b -> a = u ++ w ++ lit " ") ->
    damaged d k (u ++ w ++ lit " " ++ rest) -> damaged d (S k) (u ++ w ++ lit " " ++ m ++ rest).

(** ** A printer *)
Definition escape (c : N) : str :=
  if (c =? 38)%N then lit "&amp;"
  else if (c =? 60)%N then lit "&lt;"
  else if (c =? 62)%N then lit "&gt;"
  else if (c =? 34)%N then lit "&quot;"
  else if (c =? 9)%N then lit "&#9;"
  else if (c =? 10)%N then lit "&#10;"
  else if (c =? 13)%N then lit "&#xD;"
  else if (c =? 58)%N then lit "&#58;"
  else [c].
Definition print_attribute (kv : str * str) : str := lit " " ++ fst kv ++ [61; 34]%N ++ flat_map escape (snd kv) ++ [34%N].
Fixpoint print_node (n : dnode) : str :=
  match n with
  | DElem name l ch =>
      lit "<" ++ name ++ flat_map print_attribute l ++ lit ">" ++ flat_map print_node ch ++ lit "</" ++ name ++ lit ">"
  | DText d => flat_map escape d
  | DCData d => lit "<![CDATA[" ++ d ++ lit "]]>"
  | DComment d => lit "<!--" ++ d ++ lit "-->"
  | DPI t d => lit "<?" ++ t ++ lit " " ++ d ++ lit "?>"
  end.
Definition print (d : document) : str := flat_map print_node d.

(** What can be printed: names in ASCII, allowed characters, texts not empty and not side by side; no line feed or colon
    where it cannot be escaped. *)
Definition good_data (d : str) : Prop := Forall (fun c => good_char c /\ c <> 10%N /\ c <> 58%N) d.
Fixpoint texts_apart (l : list dnode) : Prop :=
  match l with [] => True | n :: l' => is_text n && text_next l' = false /\ texts_apart l' end.
Inductive printable : dnode -> Prop :=
| printable_text d : d <> [] -> Forall (fun c => good_char c \/ c = 13%N) d -> printable (DText d)
| printable_cdata d : d <> [] -> good_data d -> ~ occurs (lit "]]>") d -> printable (DCData d)
| printable_comment d : good_data d -> ~ occurs (lit "--") (d ++ lit "-") -> printable (DComment d)
| printable_pi t d : good_name t -> ~ is_xml t -> good_data d -> (forall c d', d = c :: d' -> ~ blank c) -> ~ occurs (lit "?>") d ->
    printable (DPI t d)
| printable_element n l ch : good_name n -> NoDup (map fst l) -> dom_order l = l ->
    Forall (fun kv => good_name (fst kv) /\ good_attribute kv /\ Forall (fun c => good_char c \/ c = 13%N) (snd kv)) l ->
    Forall printable ch -> texts_apart ch -> printable (DElem n l ch).
Definition printable_document (d : document) : Prop :=
  exists before n l ch behind, d = before ++ [DElem n l ch] ++ behind
    /\ Forall printable d
    /\ Forall (fun n => match n with DComment _ | DPI _ _ => True | _ => False end) (before ++ behind).
