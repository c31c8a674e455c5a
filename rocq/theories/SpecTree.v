(** Specification side: MathML trees with inline attributes, how the public API is applied to one,
    and the reference rendering (no heap, no mutation, no object identity). *)
From Coq Require Import String.
From Verif Require Export ModelXml SpecTokens.
Local Open Scope string_scope.
Local Open Scope list_scope.

Inductive tree : Type := T (name value : str) (children : list tree) (attributes : dict str).
Definition t_name (t : tree) := match t with T n _ _ _ => n end.
Definition t_value (t : tree) := match t with T _ v _ _ => v end.
Definition t_children (t : tree) := match t with T _ _ c _ => c end.
Definition t_attributes (t : tree) := match t with T _ _ _ a => a end.

(** The nodes of a document: which are elements, and the text of the others. *)
Definition is_elem_node (n : dnode) : bool := match n with DElem _ _ _ => true | _ => false end.
Definition node_value (n : dnode) : str :=
  match n with
  | DElem _ _ _ => []
  | DText d => d
  | DCData d => d
  | DComment d => d
  | DPI _ d => d
  end.

(** Building the element objects of a tree in a heap: every element gets its own dictionary. *)
Fixpoint build (t : tree) (h : heap) {struct t} : heap * elem :=
  match t with
  | T n v ch a =>
      let l := length h in
      let (h2, es) :=
        (fix go (ts : list tree) (h0 : heap) {struct ts} : heap * list elem :=
           match ts with
           | [] => (h0, [])
           | u :: ts' => let (h3, e) := build u h0 in
                         let (h4, es) := go ts' h3 in (h4, e :: es)
           end) ch (h ++ [a]) in
      (h2, Elem n v es l)
  end.

(** The outcome of [MathMLElementToLatexConverterAdapter().to_latex_converter(el).convert()] for newly built
    objects [el] of the tree [t]. *)
Definition latex_of (t : tree) : res str := let (h, e) := build t [] in snd (convert_elem e h).

(** ** Reference rendering *)

(** The converter the library selects for a tag. *)
Inductive tag : Type :=
| TagMath | TagMi | TagMo | TagMn | TagMtext | TagSqrt | TagFenced | TagFrac | TagRoot | TagAction
| TagEnclose | TagError | TagPhantom | TagSup | TagSub | TagSubsup | TagMultiscripts
| TagUnderover | TagUnder | TagOver | TagTable | TagTr
| TagRow.          (* mrow, mpadded, and every other tag *)

Definition known_tags : list (string * tag) :=
  [ ("math", TagMath); ("mi", TagMi); ("mo", TagMo); ("mn", TagMn); ("mtext", TagMtext);
    ("msqrt", TagSqrt); ("mfenced", TagFenced); ("mfrac", TagFrac); ("mroot", TagRoot);
    ("maction", TagAction); ("menclose", TagEnclose); ("merror", TagError);
    ("mphantom", TagPhantom); ("msup", TagSup); ("msub", TagSub); ("msubsup", TagSubsup);
    ("mmultiscripts", TagMultiscripts); ("munderover", TagUnderover); ("munder", TagUnder);
    ("mover", TagOver); ("mtable", TagTable); ("mtr", TagTr) ].

Fixpoint tag_lookup (l : list (string * tag)) (n : str) : tag :=
  match l with
  | [] => TagRow
  | (s, t) :: l' => if str_eqb n (lit s) then t else tag_lookup l' n
  end.
Definition tag_of (n : str) : tag := tag_lookup known_tags n.

(** Sequencing of outcomes: the first exception wins. *)
Definition rbind {A B} (r : res A) (f : A -> res B) : res B :=
  match r with Ok a => f a | Raise e => Raise e end.
Notation "x <~ r ;; f" := (rbind r (fun x => f)) (at level 61, r at next level, right associativity).
Fixpoint rseq {A} (l : list (res A)) : res (list A) :=
  match l with
  | [] => Ok []
  | r :: l' => a <~ r ;; b <~ rseq l' ;; Ok (a :: b)
  end.

(** Some mtable at or below a tree. *)
Fixpoint has_table (t : tree) : bool :=
  match t with T n _ ch _ => str_eqb n (lit "mtable") || existsb has_table ch end.

(** The parenthesised base of a script: more than one child and more than one character. *)
Definition base_latex (b : tree) (s : str) : str :=
  if Nat.ltb 1 (length (t_children b)) && Nat.ltb 1 (length s)
  then lit "\left(" ++ s ++ lit "\right)" else s.
Definition braced (s : str) : str := lit "{" ++ s ++ lit "}".
Definition paren_if_long (s : str) : str :=
  if Nat.ltb 1 (length s) then lit "\left(" ++ s ++ lit "\right)" else s.
Definition paren_if_space (s : str) : str :=
  if existsb is_space s then lit "\left(" ++ s ++ lit "\right)" else s.

(** Children with the i-th separator after the i-th child; the last separator repeats; a comma if
    there are none. *)
Fixpoint fence_join (separators : list str) (parts : list str) : str :=
  match parts with
  | [] => []
  | [p] => p
  | p :: parts' =>
      p ++ match separators with
           | [] => lit "," ++ fence_join [] parts'
           | [s] => s ++ fence_join [s] parts'
           | s :: more => s ++ fence_join more parts'
           end
  end.

Definition default (s : str) (d : string) : str := if truthy s then s else lit d.

Definition nl : str := [10%N].
(** The matrix environment for a pair of fences. *)
Definition fence_env (op close : str) : string :=
  if str_eqb op (lit "(") && str_eqb close (lit ")") then "pmatrix"
  else if str_eqb op (lit "[") && str_eqb close (lit "]") then "bmatrix"
  else if str_eqb op (lit "{") && str_eqb close (lit "}") then "Bmatrix"
  else if str_eqb op (lit "|") && str_eqb close (lit "|") then "vmatrix"
  else if str_eqb op (lit "||") && str_eqb close (lit "||") then "Vmatrix"
  else if str_eqb op close then "bmatrix"
  else "matrix".
Definition env (name : string) (s : str) : str :=
  lit "\begin{" ++ lit name ++ lit "}" ++ s ++ lit "\end{" ++ lit name ++ lit "}".
Definition fenced_matrix (op close : str) (parts : list str) : str :=
  let body := env (fence_env op close) (nl ++ concat parts ++ nl) in
  if String.eqb (fence_env op close) "matrix" then lit "\left" ++ op ++ body ++ lit "\right" ++ close
  else body.

Definition arity_error {A} (n : str) (expected actual : nat) : res A :=
  Raise (EInvalidChildren n expected actual (lit "exactly")).

(** The rendering of one element from its tag, text, attributes and the outcomes of its children.
    [inside]: an mtable encloses this element. *)
Definition node (inside : bool) (n v : str) (kids : list (tree * res str)) (a : dict str) : res str :=
  let rs := map snd kids in
  match tag_of n with
  | TagMath => ss <~ rseq rs ;; Ok (squeeze (join (lit " ") ss))
  | TagMi => Ok (mi_latex v a)
  | TagMo => Ok (mo_latex v)
  | TagMn => Ok (mn_latex v)
  | TagMtext => Ok (mtext_latex v a)
  | TagSqrt => ss <~ rseq rs ;; Ok (lit "\sqrt" ++ braced (join (lit " ") ss))
  | TagRow => ss <~ rseq rs ;; Ok (join (lit " ") ss)
  | TagError => ss <~ rseq rs ;; Ok (lit "\color{red}" ++ braced (join (lit " ") ss))
  | TagTr => ss <~ rseq rs ;; Ok (join (lit " & ") ss)
  | TagPhantom => Ok []
  | TagEnclose =>
      ss <~ rseq rs ;; Ok (enclosed (dget_or a (lit "notation") (lit "longdiv")) (join (lit " ") ss))
  | TagTable =>
      ss <~ rseq rs ;;
      let body := join (lit " \\" ++ nl) ss in
      Ok (if inside || truthy (attr a "innerTable") then env "matrix" body else body)
  | TagFenced =>
      ss <~ rseq rs ;;
      Ok (if existsb has_table (map fst kids)
          then fenced_matrix (attr a "open") (attr a "close") ss
          else lit "\left" ++ default (attr a "open") "("
               ++ fence_join (map (fun c => [c]) (attr a "separators")) ss
               ++ lit "\right" ++ default (attr a "close") ")")
  | TagAction =>
      if truthy (attr a "actiontype") && negb (str_eqb (attr a "actiontype") (lit "toggle"))
      then match rs with [] => Raise EIndex | r :: _ => r end
      else ss <~ rseq rs ;; Ok (join (lit " \Longrightarrow ") ss)
  | TagSup =>
      match kids with
      | [(b, rb); (_, rx)] => sb <~ rb ;; sx <~ rx ;; Ok (base_latex b sb ++ lit "^" ++ braced sx)
      | _ => arity_error n 2 (length kids)
      end
  | TagSub =>
      match kids with
      | [(b, rb); (_, rx)] => sb <~ rb ;; sx <~ rx ;; Ok (base_latex b sb ++ lit "_" ++ braced sx)
      | _ => arity_error n 2 (length kids)
      end
  | TagSubsup =>
      match kids with
      | [(b, rb); (_, rx); (_, ry)] =>
          sb <~ rb ;; sx <~ rx ;; sy <~ ry ;;
          Ok (base_latex b sb ++ lit "_" ++ braced sx ++ lit "^" ++ braced sy)
      | _ => arity_error n 3 (length kids)
      end
  | TagUnderover =>
      match rs with
      | [rb; rx; ry] =>
          sb <~ rb ;; sx <~ rx ;; sy <~ ry ;; Ok (sb ++ lit "_" ++ braced sx ++ lit "^" ++ braced sy)
      | _ => arity_error n 3 (length kids)
      end
  | TagFrac =>
      match rs with
      | [rx; ry] =>
          sx <~ rx ;; sy <~ ry ;;
          Ok (if truthy (attr a "bevelled") then paren_if_long sx ++ lit "/" ++ paren_if_long sy
              else lit "\frac" ++ braced sx ++ braced sy)
      | _ => arity_error n 2 (length kids)
      end
  | TagRoot =>
      match rs with
      | [rx; ry] => sx <~ rx ;; sy <~ ry ;; Ok (lit "\sqrt[" ++ sy ++ lit "]" ++ braced sx)
      | _ => arity_error n 2 (length kids)
      end
  | TagUnder | TagOver =>
      match rs with
      | [rx; ry] =>
          sx <~ rx ;; sy <~ ry ;;
          Ok (if str_in sy (map lit ["\hat"; "\bar"; "\underbrace"; "\overbrace"])
              then sy ++ braced sx
              else lit (match tag_of n with TagUnder => "\underset" | _ => "\overset" end) ++ braced sy ++ braced sx)
      | _ => arity_error n 2 (length kids)
      end
  | TagMultiscripts =>
      let is_pre i := match nth_error kids i with
                      | Some (t, _) => str_eqb (t_name t) (lit "mprescripts")
                      | None => false
                      end in
      let out i := nth i rs (Ok []) in
      let scripts i j := sx <~ out i ;; sy <~ out j ;; Ok (lit "_" ++ braced sx ++ lit "^" ++ braced sy) in
      if Nat.ltb (length kids) 3 then Raise (EInvalidChildren n 3 (length kids) (lit "at least"))
      else
        sb <~ out 0 ;;
        pre <~ (if is_pre 1 && Nat.leb 4 (length kids) then s <~ scripts 2 3 ;; Ok (lit "\" ++ s)
                else if is_pre 3 && Nat.leb 6 (length kids) then s <~ scripts 4 5 ;; Ok (lit "\" ++ s)
                else Ok []) ;;
        post <~ (if is_pre 1 then Ok [] else scripts 1 2) ;;
        Ok (pre ++ paren_if_space sb ++ post)
  end.

Definition is_table (n : str) : bool := str_eqb n (lit "mtable").

Fixpoint render (inside : bool) (t : tree) : res str :=
  match t with
  | T n v ch a => node inside n v (map (fun c => (c, render (inside || is_table n) c)) ch) a
  end.
