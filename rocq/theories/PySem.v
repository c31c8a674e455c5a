(** What the source in the syntax of PySyntax.v means: an interpreter of the part of Python that /repo uses.  It knows nothing of
    the model: from Python.  Where the language would raise TypeError or AttributeError, or where something is used that is not
    described here, the result is [Wrong]: a program for which a result other than [Wrong] is proved uses only what is described.

    Simplifications.  Lists are values: [x.append(e)] assigns to [x] (no list is shared after it is appended to).  Instances of classes
    whose attributes are not assigned after construction are values.  A generator is computed before it is used.  Non-empty
    dictionary displays are values (nothing is stored into them).  Tuples (of [enumerate]) are lists.  When an exception leaves the body of a [try], the names
    assigned there are forgotten; the name of the exception is not deleted after the handler.  The depth of calls is not limited. *)
From Coq Require Import String.
From Verif Require Export PyRegex PySyntax PySource Tables ModelXml.
Local Open Scope string_scope.
Local Open Scope list_scope.

Inductive value : Type :=
| VNone | VBool (b : bool) | VInt (z : Z) | VStr (s : str)
| VList (l : list value)
| VDict (r : nat)                                       (* a dictionary from str to str *)
| VMap (l : list (str * value))                         (* a dictionary display *)
| VTable (t : string)                                   (* a dictionary of syntax.py *)
| VObj (c : string) (fields : list (string * value))    (* an instance that does not change *)
| VRef (r : nat)                                        (* an instance that may change *)
| VClass (c : string)
| VFunction (f : string)
| VMethod (self : value) (c m : string)                 (* method [m] found from class [c], bound to [self] *)
| VInit (self : value) (c : string)                     (* the constructor found from class [c], to be run on [self] *)
| VSuper (self : value) (c : string)
| VBuiltin (name : string)
| VPrim (self : value) (m : string)                     (* method of a builtin value *)
| VEnum (c m : string)
| VRegex (r : regex)
| VMatch                                                (* a match object *)
| VDocument (d : document) | VNode (n : dnode) | VAttributes (l : list (str * str)) | VAttribute (n v : str).

(** Memory: dictionaries and the instances that may change. *)
Record memory := Memory { dicts : list (dict str); objects : list (string * list (string * value)) }.

(** Computations over the memory.  [Act f k]: do [f] on the memory and go on with what it gives ([None]: [Wrong]). *)
Inductive MM (A : Type) : Type :=
| Ret (a : A)
| Throw (e : value)
| Wrong
| Act (f : memory -> option (memory * value)) (k : value -> MM A).
Arguments Ret {A} a. Arguments Throw {A} e. Arguments Wrong {A}. Arguments Act {A} f k.

Fixpoint bnd {A B} (m : MM A) (k : A -> MM B) : MM B :=
  match m with
  | Ret a => k a
  | Throw e => Throw e
  | Wrong => Wrong
  | Act f k0 => Act f (fun v => bnd (k0 v) k)
  end.
Notation "x <~ m ; f" := (bnd m (fun x => f)) (at level 61, m at next level, right associativity).
Section Catch.
Context {A : Type} (h : value -> MM A).
Fixpoint catch (m : MM A) : MM A :=
  match m with
  | Ret a => Ret a
  | Throw e => h e
  | Wrong => Wrong
  | Act f k0 => Act f (fun v => catch (k0 v))
  end.
End Catch.

Inductive out (A : Type) : Type := Done (a : A) | Raised (e : value) | Stuck.
Arguments Done {A} a. Arguments Raised {A} e. Arguments Stuck {A}.
Fixpoint run {A} (m : MM A) (S : memory) : memory * out A :=
  match m with
  | Ret a => (S, Done a)
  | Throw e => (S, Raised e)
  | Wrong => (S, Stuck)
  | Act f k => match f S with Some (S', v) => run (k v) S' | None => (S, Stuck) end
  end.

Section MapM.
Context {A B : Type} (f : A -> MM B).
Fixpoint mapM (l : list A) : MM (list B) :=
  match l with [] => Ret [] | a :: l' => b <~ f a ; bs <~ mapM l' ; Ret (b :: bs) end.
End MapM.

(** Names to values. *)
Definition names := list (string * value).
Fixpoint lookup {A} (r : list (string * A)) (x : string) : option A :=
  match r with [] => None | (y, v) :: r' => if String.eqb x y then Some v else lookup r' x end.
Fixpoint assign {A} (r : list (string * A)) (x : string) (v : A) : list (string * A) :=
  match r with [] => [(x, v)] | (y, w) :: r' => if String.eqb x y then (y, v) :: r' else (y, w) :: assign r' x v end.

(** ** Memory *)
Fixpoint put {A} (l : list A) (i : nat) (a : A) : list A :=
  match l, i with [], _ => [] | _ :: l', O => a :: l' | b :: l', S j => b :: put l' j a end.
Definition new_dict : memory -> option (memory * value) := fun S =>
  Some (Memory (dicts S ++ [[]]) (objects S), VDict (length (dicts S))).
Definition with_dict (r : nat) (f : dict str -> value) : memory -> option (memory * value) := fun S =>
  option_map (fun d => (S, f d)) (nth_error (dicts S) r).
Definition set_item (r : nat) (k v : str) : memory -> option (memory * value) := fun S =>
  option_map (fun d => (Memory (put (dicts S) r (dset d k v)) (objects S), VNone)) (nth_error (dicts S) r).
Definition new_object (c : string) : memory -> option (memory * value) := fun S =>
  Some (Memory (dicts S) (objects S ++ [(c, [])]), VRef (length (objects S))).
Definition with_object (r : nat) (f : string -> names -> option value) : memory -> option (memory * value) := fun S =>
  match nth_error (objects S) r with Some (c, fs) => option_map (fun v => (S, v)) (f c fs) | None => None end.
Definition set_field (r : nat) (a : string) (v : value) : memory -> option (memory * value) := fun S =>
  match nth_error (objects S) r with
  | Some (c, fs) => Some (Memory (dicts S) (put (objects S) r (c, assign fs a v)), VNone)
  | None => None
  end.

(** ** Values *)
Definition done {A} (o : option A) : MM A := match o with Some a => Ret a | None => Wrong end.
Definition or_throw {A} (e : value) (o : option A) : MM A := match o with Some a => Ret a | None => Throw e end.
Definition or_none (o : option value) : value := match o with Some v => v | None => VNone end.
Definition dict_value (d : dict str) (k : str) : option value := option_map VStr (dget d k).

(** The exceptions of the interpreter and of the XML parser. *)
Definition index_error : value := VObj "IndexError" [].
Definition key_error : value := VObj "KeyError" [].
Definition parser_error (e : exn) : value :=
  match e with
  | EExpat code lineno offset =>
      VObj "ExpatError" [("code", VInt (Z.of_nat code)); ("lineno", VInt (Z.of_nat lineno)); ("offset", VInt (Z.of_nat offset))]
  | EIndex => index_error
  | EInvalidChildren tag expected actual comparison =>
      VObj "InvalidNumberOfChildrenError"
        [("args", VList [VStr (error_message e)]); ("name", VStr (lit "InvalidNumberOfChildrenError"))]
  | EOther n => VObj "Exception" [("what", VInt (Z.of_nat n))]
  end.

(** The dictionaries of syntax.py (Tables.v, checked by tools/check_tables.py); the dataclasses AccentChar and SpecialFontChar. *)
Definition table_get (t : string) (k : str) : option (option value) :=
  if String.eqb t "vowels_with_accents" then
    Some (option_map (fun a => VObj "AccentChar" [("char", VStr (ac_char a)); ("accent", VStr (ac_accent a))]) (dget vowels_with_accents k))
  else if String.eqb t "special_font_chars" then
    Some (option_map (fun s => VObj "SpecialFontChar" [("letter", VStr (sf_letter s)); ("font_cmd", VStr (sf_font_cmd s))]) (dget special_font_chars k))
  else if String.eqb t "accent_to_ltx_cmd" then Some (dict_value accent_to_ltx_cmd k)
  else if String.eqb t "all_math_symbols_by_char" then Some (dict_value all_math_symbols_by_char k)
  else if String.eqb t "all_math_symbols_by_glyph" then Some (dict_value all_math_symbols_by_glyph k)
  else if String.eqb t "math_number_by_glyph" then Some (dict_value math_number_by_glyph k)
  else if String.eqb t "all_math_operators_by_char" then Some (dict_value all_math_operators_by_char k)
  else if String.eqb t "all_math_operators_by_glyph" then Some (dict_value all_math_operators_by_glyph k)
  else None.
Definition table_names : list string :=
  ["vowels_with_accents"; "special_font_chars"; "accent_to_ltx_cmd"; "all_math_symbols_by_char"; "all_math_symbols_by_glyph";
   "math_number_by_glyph"; "all_math_operators_by_char"; "all_math_operators_by_glyph"].

(** What a name that is not local stands for. *)
Definition global (x : string) : value :=
  match lookup source_classes x with
  | Some _ => VClass x
  | None =>
      match lookup source_functions x with
      | Some _ => VFunction x
      | None => if existsb (String.eqb x) table_names then VTable x else VBuiltin x
      end
  end.

(** [bool(v)] *)
Definition truth (v : value) : MM bool :=
  match v with
  | VNone => Ret false
  | VBool b => Ret b
  | VInt z => Ret (negb (Z.eqb z 0))
  | VStr s => Ret (truthy s)
  | VList l => Ret (match l with [] => false | _ => true end)
  | VDict r => Act (with_dict r (fun d => VBool (match d with [] => false | _ => true end))) (fun v => match v with VBool b => Ret b | _ => Wrong end)
  | VObj _ _ | VRef _ | VMatch | VNode _ => Ret true
  | _ => Wrong
  end.

(** [a == b] *)
Definition equal (a b : value) : option bool :=
  match a, b with
  | VNone, VNone => Some true
  | VNone, VStr _ | VStr _, VNone => Some false
  | VStr s, VStr t => Some (str_eqb s t)
  | VInt i, VInt j => Some (Z.eqb i j)
  | VEnum c m, VEnum d n => Some (String.eqb c d && String.eqb m n)
  | _, _ => None
  end.
Definition is_none (v : value) : bool := match v with VNone => true | _ => false end.
(** [a in l] for a list of strings *)
Fixpoint strings (l : list value) : option (list str) :=
  match l with
  | [] => Some []
  | VStr s :: l' => option_map (cons s) (strings l')
  | _ => None
  end.
Definition as_bool (v : value) : MM bool := match v with VBool b => Ret b | _ => Wrong end.
Definition member (a b : value) : MM bool :=
  match a, b with
  | VStr s, VList l => done (option_map (str_in s) (strings l))
  | VStr k, VDict r => Act (with_dict r (fun d => VBool (match dget d k with Some _ => true | None => false end))) as_bool
  | _, _ => Wrong
  end.
Definition compare (op : cmpop) (a b : value) : MM bool :=
  match op with
  | OpEq => done (equal a b)
  | OpNotEq => done (option_map negb (equal a b))
  | OpIs => match b with VNone => Ret (is_none a) | _ => Wrong end
  | OpIsNot => match b with VNone => Ret (negb (is_none a)) | _ => Wrong end
  | OpIn => member a b
  | OpNotIn => c <~ member a b ; Ret (negb c)
  | OpLt => match a, b with VInt i, VInt j => Ret (Z.ltb i j) | _, _ => Wrong end
  | OpLtE => match a, b with VInt i, VInt j => Ret (Z.leb i j) | _, _ => Wrong end
  | OpGt => match a, b with VInt i, VInt j => Ret (Z.ltb j i) | _, _ => Wrong end
  | OpGtE => match a, b with VInt i, VInt j => Ret (Z.leb j i) | _, _ => Wrong end
  end.
Definition binary (op : binop) (a b : value) : MM value :=
  match op, a, b with
  | OpAdd, VStr s, VStr t => Ret (VStr (s ++ t))
  | OpAdd, VInt i, VInt j => Ret (VInt (i + j))
  | OpSub, VInt i, VInt j => Ret (VInt (i - j))
  | _, _, _ => Wrong
  end.
(** [str(v)] of a piece of an f-string *)
Definition text_of (v : value) : MM str :=
  match v with
  | VStr s => Ret s
  | VInt z => if (0 <=? z)%Z then Ret (nat_str (Z.to_nat z)) else Wrong
  | _ => Wrong
  end.
(** What [for] and [list] go through *)
Definition items (v : value) : MM (list value) :=
  match v with
  | VList l => Ret l
  | VStr s => Ret (map (fun c => VStr [c]) s)
  | _ => Wrong
  end.
(** [v[i]] *)
Definition index (v i : value) : MM value :=
  match v, i with
  | VList l, VInt z => or_throw index_error (py_index l z)
  | VStr s, VInt z => or_throw index_error (option_map (fun c => VStr [c]) (py_index s z))
  | VDict r, VStr k =>
      Act (with_dict r (fun d => VList (match dget d k with Some s => [VStr s] | None => [] end)))
        (fun v => match v with VList [a] => Ret a | VList [] => Throw key_error | _ => Wrong end)
  | _, _ => Wrong
  end.
(** [s[i:j]] for bounds that are not negative *)
Definition slice (v i j : value) : MM value :=
  match v, i, j with
  | VStr s, VInt a, VInt b =>
      if ((0 <=? a) && (0 <=? b))%Z then Ret (VStr (firstn (Z.to_nat b - Z.to_nat a) (skipn (Z.to_nat a) s))) else Wrong
  | _, _, _ => Wrong
  end.

(** ** Classes *)
Definition base_of (c : string) : string := match lookup source_classes c with Some k => c_base k | None => "object" end.
(** The class, from [c] towards its bases, that has the method [m]; classes are nested less than eight deep. *)
Fixpoint search_method (depth : nat) (c m : string) : option (string * func) :=
  match depth with
  | O => None
  | S d =>
      match lookup source_classes c with
      | None => None
      | Some k => match lookup (c_methods k) m with Some f => Some (c, f) | None => search_method d (c_base k) m end
      end
  end.
Definition find_method := search_method 8.
Definition changes (c : string) : bool := match lookup source_classes c with Some k => c_assigned k | None => false end.
Definition is_subclass (c : string) (d : string) : bool := String.eqb c d || String.eqb (base_of c) d.

(** Attributes of nodes of the DOM *)
Definition node_type (n : dnode) : Z :=
  match n with DElem _ _ _ => 1 | DText _ => 3 | DCData _ => 4 | DPI _ _ => 7 | DComment _ => 8 end.
Definition node_attribute (n : dnode) (a : string) : MM value :=
  if String.eqb a "nodeType" then Ret (VInt (node_type n))
  else
    match n with
    | DElem tag attributes children =>
        if String.eqb a "tagName" then Ret (VStr tag)
        else if String.eqb a "attributes" then Ret (VAttributes attributes)
        else if String.eqb a "childNodes" then Ret (VList (map VNode children))
        else if String.eqb a "firstChild" then Ret (match children with [] => VNone | c :: _ => VNode c end)
        else if String.eqb a "nodeValue" then Ret VNone
        else Wrong
    | DText d | DCData d | DComment d | DPI _ d => if String.eqb a "nodeValue" then Ret (VStr d) else Wrong
    end.

Section Semantics.
Variable word_char : N -> bool.                     (* the class w of [re] *)
Variable parse_string : str -> res document.        (* xml.dom.minidom.parseString *)

(** ** Builtins *)
Definition regex_of (v : value) (ignoring multiline : bool) : MM regex :=
  match v with
  | VRegex r => if ignoring || multiline then Wrong else Ret r
  | VStr s => done (parse_regex word_char ignoring multiline s)
  | _ => Wrong
  end.
Definition substituted (r : regex) (template s : str) : MM value :=
  match expand template [] with
  | Some _ => Ret (VStr (re_sub r (fun g => match expand template g with Some t => t | None => [] end) s))
  | None => Wrong
  end.
Definition found (b : bool) : value := if b then VMatch else VNone.
Fixpoint numbered {A} (i : Z) (l : list A) : list (Z * A) :=
  match l with [] => [] | a :: l' => (i, a) :: numbered (i + 1) l' end.
Definition any_true (l : list value) : MM bool := fold_right (fun v r => b <~ truth v ; if b : bool then Ret true else r) (Ret false) l.

Definition builtin (name : string) (args : list value) : MM value :=
  if String.eqb name "len" then
    match args with
    | [VStr s] => Ret (VInt (Z.of_nat (length s)))
    | [VList l] => Ret (VInt (Z.of_nat (length l)))
    | _ => Wrong
    end
  else if String.eqb name "bool" then
    match args with [v] => b <~ truth v ; Ret (VBool b) | _ => Wrong end
  else if String.eqb name "list" then
    match args with [v] => l <~ items v ; Ret (VList l) | _ => Wrong end
  else if String.eqb name "any" then
    match args with [v] => l <~ items v ; b <~ any_true l ; Ret (VBool b) | _ => Wrong end
  else if String.eqb name "range" then
    match args with [VInt z] => Ret (VList (map (fun i => VInt (Z.of_nat i)) (seq 0 (Z.to_nat z)))) | _ => Wrong end
  else if String.eqb name "enumerate" then
    match args with [v] => l <~ items v ; Ret (VList (map (fun p => VList [VInt (fst p); snd p]) (numbered 0 l))) | _ => Wrong end
  else if String.eqb name "isinstance" then
    match args with [VObj c _; VBuiltin d] | [VObj c _; VClass d] => Ret (VBool (is_subclass c d)) | _ => Wrong end
  else if String.eqb name "parseString" then
    match args with
    | [VStr x] => match parse_string x with Ok d => Ret (VDocument d) | Raise e => Throw (parser_error e) end
    | _ => Wrong
    end
  else if String.eqb name "re.escape" then
    match args with [VStr s] => Ret (VStr (re_escape s)) | _ => Wrong end
  else if String.eqb name "re.compile" then
    match args with
    | [p] => r <~ regex_of p false false ; Ret (VRegex r)
    | [p; VBuiltin f] => r <~ regex_of p (String.eqb f "re.IGNORECASE") (String.eqb f "re.MULTILINE") ; Ret (VRegex r)
    | _ => Wrong
    end
  else if String.eqb name "re.match" then
    match args with
    | [p; VStr s] => r <~ regex_of p false false ; Ret (found (match re_match r s with Some _ => true | None => false end))
    | [p; VStr s; VBuiltin f] =>
        r <~ regex_of p (String.eqb f "re.IGNORECASE") (String.eqb f "re.MULTILINE") ;
        Ret (found (match re_match r s with Some _ => true | None => false end))
    | _ => Wrong
    end
  else if String.eqb name "re.search" then
    match args with [p; VStr s] => r <~ regex_of p false false ; Ret (found (re_search r s)) | _ => Wrong end
  else if String.eqb name "re.sub" then
    match args with [p; VStr t; VStr s] => r <~ regex_of p false false ; substituted r t s | _ => Wrong end
  else Wrong.

(** Methods of builtin values *)
Definition primitive (v : value) (m : string) (args : list value) : MM value :=
  match v with
  | VStr s =>
      if String.eqb m "join" then
        match args with [VList l] => ss <~ done (strings l) ; Ret (VStr (join s ss)) | _ => Wrong end
      else if String.eqb m "split" then
        match args with
        | [] => Ret (VList (map VStr (split s)))
        | [VStr [c]] => Ret (VList (map VStr (split_on c s)))
        | _ => Wrong
        end
      else if String.eqb m "strip" then match args with [] => Ret (VStr (strip s)) | _ => Wrong end
      else Wrong
  | VDict r =>
      if String.eqb m "get" then
        match args with
        | [VStr k] => Act (with_dict r (fun d => or_none (dict_value d k))) (fun v => Ret v)
        | [VStr k; VStr s] => Act (with_dict r (fun d => VStr (dget_or d k s))) (fun v => Ret v)
        | _ => Wrong
        end
      else Wrong
  | VTable t =>
      if String.eqb m "get" then
        match args with
        | [VStr k] => o <~ done (table_get t k) ; Ret (or_none o)
        | [VStr k; d] => o <~ done (table_get t k) ; Ret (match o with Some v => v | None => d end)
        | _ => Wrong
        end
      else Wrong
  | VMap l =>
      if String.eqb m "get" then
        match args with
        | [VStr k; d] => Ret (match dget l k with Some v => v | None => d end)
        | _ => Wrong
        end
      else Wrong
  | VRegex r =>
      if String.eqb m "sub" then match args with [VStr t; VStr s] => substituted r t s | _ => Wrong end
      else Wrong
  | VDocument d =>
      if String.eqb m "getElementsByTagName" then
        match args with [VStr t] => Ret (VList (map VNode (get_elements_by_tag_name d t))) | _ => Wrong end
      else Wrong
  | VAttributes l =>
      if String.eqb m "values" then
        match args with [] => Ret (VList (map (fun a => VAttribute (fst a) (snd a)) l)) | _ => Wrong end
      else Wrong
  | _ => Wrong
  end.

(** ** Expressions and statements.  [call]: calling a value.  [turns]: a bound on the turns of a while loop. *)
Section Level.
Variable call : value -> list value -> list (string * value) -> MM value.
Variable turns : nat.

(** Attribute [a] of an instance [self] of class [c] with fields [fs]: a field, a property or a method. *)
Definition class_attribute (self : value) (c a : string) : MM value :=
  match find_method c a with
  | Some (d, f) =>
      match f_kind f with
      | Property => call (VMethod self d a) [] []
      | Plain | Static => Ret (VMethod self d a)
      end
  | None => Wrong
  end.
Definition super_attribute (self : value) (c a : string) : MM value :=
  match find_method c a with Some (d, _) => Ret (VMethod self d a) | None => Wrong end.
(** [c.a] for a class: a member of an enumeration or a static method *)
Definition class_member (c a : string) : MM value :=
  match lookup source_classes c with
  | Some k =>
      if existsb (String.eqb a) (c_members k) then Ret (VEnum c a)
      else match find_method c a with
           | Some (d, f) => match f_kind f with Static => Ret (VMethod VNone d a) | _ => Wrong end
           | None => Wrong
           end
  | None => Wrong
  end.
Definition attribute (v : value) (a : string) : MM value :=
  match v with
  | VObj c fs => match lookup fs a with Some w => Ret w | None => class_attribute v c a end
  | VRef r =>
      Act (with_object r (fun c fs => Some (match lookup fs a with Some w => VList [w] | None => VClass c end)))
        (fun w => match w with VList [w'] => Ret w' | VClass c => class_attribute v c a | _ => Wrong end)
  | VSuper self c => super_attribute self c a
  | VClass c => class_member c a
  | VBuiltin m =>
      if String.eqb m "re" then Ret (VBuiltin ("re." ++ a))
      else if String.eqb m "Node" && String.eqb a "ELEMENT_NODE" then Ret (VInt 1)
      else Wrong
  | VNode n => node_attribute n a
  | VAttribute n w => if String.eqb a "name" then Ret (VStr n) else if String.eqb a "value" then Ret (VStr w) else Wrong
  | VStr _ | VDict _ | VTable _ | VMap _ | VRegex _ | VDocument _ | VAttributes _ => Ret (VPrim v a)
  | _ => Wrong
  end.

Fixpoint eval (r : names) (e : expr) : MM value :=
  match e with
  | PName x => done (lookup r x)
  | PGlobal x => Ret (global x)
  | PStr s => Ret (VStr s)
  | PInt z => Ret (VInt z)
  | PBool b => Ret (VBool b)
  | PNone => Ret VNone
  | PAttr e a => v <~ eval r e ; attribute v a
  | PCall f args kws =>
      g <~ eval r f ;
      vs <~ mapM (eval r) args ;
      ws <~ mapM (fun kw => match kw with (k, e) => v <~ eval r e ; Ret (k, v) end) kws ;
      call g vs ws
  | PSuper =>
      match lookup r "self", lookup r "__class__" with
      | Some self, Some (VClass c) => Ret (VSuper self (base_of c))
      | _, _ => Wrong
      end
  | PIndex e i => v <~ eval r e ; w <~ eval r i ; index v w
  | PSlice e i j => v <~ eval r e ; w <~ eval r i ; x <~ eval r j ; slice v w x
  | PBin op a b => v <~ eval r a ; w <~ eval r b ; binary op v w
  | PCmp op a b => v <~ eval r a ; w <~ eval r b ; c <~ compare op v w ; Ret (VBool c)
  | PAnd a b => v <~ eval r a ; t <~ truth v ; if t then eval r b else Ret v
  | POr a b => v <~ eval r a ; t <~ truth v ; if t then Ret v else eval r b
  | PNot a => v <~ eval r a ; t <~ truth v ; Ret (VBool (negb t))
  | PIf c a b => v <~ eval r c ; t <~ truth v ; if t then eval r a else eval r b
  | PList l => vs <~ mapM (eval r) l ; Ret (VList vs)
  | PDict l =>
      match l with
      | [] => Act new_dict (fun v => Ret v)
      | _ =>
          vs <~ mapM (fun kw => match kw with (k, e) => v <~ eval r k ; w <~ eval r e ; match v with VStr s => Ret (s, w) | _ => Wrong end end) l ;
          Ret (VMap vs)
      end
  | PFormat l => ss <~ mapM (fun e => v <~ eval r e ; text_of v) l ; Ret (VStr (concat ss))
  | PComp e x it c =>
      v <~ eval r it ;
      l <~ items v ;
      vs <~ mapM (fun w : value =>
              let r' := assign r x w in
              t <~ match c with None => Ret true | Some c => b <~ eval r' c ; truth b end ;
              if t : bool then u <~ eval r' e ; Ret [u] else Ret []) l ;
      Ret (VList (concat vs))
  end.

(** How a statement ends. *)
Inductive ending := Next (r : names) | Returned (v : value) | Continued (r : names).
Fixpoint bind_all (r : names) (xs : list string) (vs : list value) : MM names :=
  match xs, vs with
  | [], [] => Ret r
  | x :: xs', v :: vs' => bind_all (assign r x v) xs' vs'
  | _, _ => Wrong
  end.
Definition targets (r : names) (xs : list string) (v : value) : MM names :=
  match xs with
  | [x] => Ret (assign r x v)
  | _ => match v with VList vs => bind_all r xs vs | _ => Wrong end
  end.
Section Loops.
Variable body : names -> MM ending.
Fixpoint for_loop (xs : list string) (l : list value) (r : names) : MM ending :=
  match l with
  | [] => Ret (Next r)
  | v :: l' =>
      r1 <~ targets r xs v ;
      e <~ body r1 ;
      match e with Next r2 | Continued r2 => for_loop xs l' r2 | Returned _ => Ret e end
  end.
Variable condition : names -> MM bool.
Fixpoint while_loop (n : nat) (r : names) : MM ending :=
  match n with
  | O => Wrong
  | S n' =>
      t <~ condition r ;
      if t : bool then e <~ body r ; match e with Next r2 | Continued r2 => while_loop n' r2 | Returned _ => Ret e end
      else Ret (Next r)
  end.
End Loops.

Fixpoint exec (r : names) (s : stmt) : MM ending :=
  match s with
  | SExpr e => _v <~ eval r e ; Ret (Next r)
  | SAssign x e => v <~ eval r e ; Ret (Next (assign r x v))
  | SSetAttr o a e =>
      v <~ eval r e ;
      w <~ eval r o ;
      match w with
      | VRef i => Act (set_field i a v) (fun _ => Ret (Next r))
      | VObj c fs => match o with PName "self" => Ret (Next (assign r "self" (VObj c (assign fs a v)))) | _ => Wrong end
      | _ => Wrong
      end
  | SSetItem o k e =>
      v <~ eval r e ;
      w <~ eval r o ;
      x <~ eval r k ;
      match w, x, v with
      | VDict i, VStr k, VStr s => Act (set_item i k s) (fun _ => Ret (Next r))
      | _, _, _ => Wrong
      end
  | SAppend x e =>
      v <~ eval r e ;
      match lookup r x with Some (VList l) => Ret (Next (assign r x (VList (l ++ [v])))) | _ => Wrong end
  | SSuperInit args =>
      vs <~ mapM (eval r) args ;
      match lookup r "self", lookup r "__class__" with
      | Some self, Some (VClass c) => v <~ call (VInit self (base_of c)) vs [] ; Ret (Next (assign r "self" v))
      | _, _ => Wrong
      end
  | SReturn e => v <~ eval r e ; Ret (Returned v)
  | SIf c a b => v <~ eval r c ; t <~ truth v ; if t then exec r a else exec r b
  | SFor xs it body => v <~ eval r it ; l <~ items v ; for_loop (fun r => exec r body) xs l r
  | SWhile c body => while_loop (fun r => exec r body) (fun r => v <~ eval r c ; truth v) turns r
  | SRaise e => v <~ eval r e ; Throw v
  | STry body x handler => catch (fun v => exec (assign r x v) handler) (exec r body)
  | SContinue => Ret (Continued r)
  | SPass => Ret (Next r)
  | SSeq a b => e <~ exec r a ; match e with Next r' => exec r' b | _ => Ret e end
  end.

(** The parameters: those given by position, those given by name, the defaults. *)
Fixpoint parameters (ps : list (string * option expr)) (args : list value) (kws : list (string * value)) : MM names :=
  match ps, args with
  | [], [] => Ret []
  | [], _ :: _ => Wrong
  | (x, _) :: ps', v :: args' => r <~ parameters ps' args' kws ; Ret ((x, v) :: r)
  | (x, d) :: ps', [] =>
      v <~ match lookup kws x, d with Some v, _ => Ret v | None, Some e => eval [] e | None, None => Wrong end ;
      r <~ parameters ps' [] kws ;
      Ret ((x, v) :: r)
  end.
Definition invoke (c : string) (f : func) (args : list value) (kws : list (string * value)) : MM value :=
  r <~ parameters (f_params f) args kws ;
  e <~ exec (r ++ [("__class__", VClass c)]) (f_body f) ;
  match e with Returned v => Ret v | Next _ => Ret VNone | Continued _ => Wrong end.
(** A constructor gives the instance. *)
Definition construct (self : value) (c : string) (args : list value) (kws : list (string * value)) : MM value :=
  match find_method c "__init__" with
  | Some (d, f) =>
      r <~ parameters (f_params f) (self :: args) kws ;
      e <~ exec (r ++ [("__class__", VClass d)]) (f_body f) ;
      match e with Next r' => done (lookup r' "self") | _ => Wrong end
  | None =>
      match args, self with
      | [], _ => Ret self
      | _, VObj d fs => if String.eqb c "Exception" then Ret (VObj d (assign fs "args" (VList args))) else Wrong
      | _, _ => Wrong
      end
  end.
Definition call_value (f : value) (args : list value) (kws : list (string * value)) : MM value :=
  match f with
  | VClass c => if changes c then Act (new_object c) (fun self => construct self c args kws) else construct (VObj c []) c args kws
  | VInit self c => construct self c args kws
  | VMethod self c m =>
      match find_method c m with
      | Some (d, g) => match f_kind g with Static => invoke d g args kws | _ => invoke d g (self :: args) kws end
      | None => Wrong
      end
  | VFunction g => match lookup source_functions g with Some h => invoke "object" h args kws | None => Wrong end
  | VBuiltin b => match kws with [] => builtin b args | _ => Wrong end
  | VPrim v m => match kws with [] => primitive v m args | _ => Wrong end
  | _ => Wrong
  end.
End Level.

(** [n]: a bound on the depth of calls and on the turns of each loop. *)
Fixpoint call (n : nat) (f : value) (args : list value) (kws : list (string * value)) : MM value :=
  match n with
  | O => Wrong
  | S m => call_value (call m) m f args kws
  end.
End Semantics.
