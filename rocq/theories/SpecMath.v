(** How TeX reads a formula (C60): the structure TeX finds in the output, and the structure a MathML tree stands for. *)
From Coq Require Import String.
From Verif Require Export SpecTeX SpecMarks.
Local Open Scope string_scope.
Local Open Scope list_scope.

(** ** Formulas: lists of items *)
Inductive item : Type :=
| Atom (t : token)                                                (* a character or a command without arguments *)
| Group (l : list item)                                           (* {...} *)
| Fenced (op cl : token) (l : list item)                          (* \left op ... \right cl *)
| Applied (w : str) (args : list (list item))                     (* a command and its arguments *)
| Root (index body : list item)                                   (* \sqrt[index]{body} *)
| Matrix (env : str) (rows : list (list (list item)))             (* \begin{env} ... & ... \\ ... \end{env} *)
| Scripts (base : item) (sub sup : option (list item)).           (* base_{sub}^{sup} *)

(** An item with further scripts; TeX rejects a second subscript or superscript. *)
Definition one_of {A} (x y : option A) : option (option A) :=
  match x, y with Some _, Some _ => None | Some a, None => Some (Some a) | None, _ => Some y end.
Definition add_scripts (sub sup : option (list item)) (i : item) : option item :=
  match i with
  | Scripts b sub' sup' =>
      match one_of sub' sub, one_of sup' sup with Some x, Some y => Some (Scripts b x y) | _, _ => None end
  | _ => Some (Scripts i sub sup)
  end.

(** ** The reader
    It is stricter than TeX: arguments and scripts have to be in braces, scripts need a base, and what TeX would treat specially
    in other ways ([$], [%], [#], [']) is not accepted.  Space is not recorded. *)
Definition is_chr (c : N) (t : token) : bool := match t with Chr d => (c =? d)%N | _ => false end.
Definition is_word (w : string) (t : token) : bool := match t with Word x => str_eqb x (lit w) | _ => false end.
(** Commands with arguments; every other command is an atom. *)
Definition arities : list (string * nat) :=
  [("frac", 2); ("dfrac", 2); ("underset", 2); ("overset", 2); ("cancelto", 2)]
  ++ map (fun w => (w, 1))
       ["hat"; "bar"; "acute"; "grave"; "tilde"; "ddot"; "dot"; "mathring"; "breve"; "check"; "vec"; "underbrace"; "overbrace";
        "overline"; "underline"; "boxed"; "cancel"; "bcancel"; "hcancel"; "color"; "textcircled"; "text"; "textrm"; "textbf";
        "textit"; "mathbf"; "mathit"; "mathbb"; "mathfrak"; "mathcal"; "mathsf"; "mathtt"; "mathrm"].
Fixpoint arity (l : list (string * nat)) (w : str) : nat :=
  match l with [] => 0 | (s, k) :: l' => if str_eqb w (lit s) then k else arity l' w end.
(** What may follow \left and \right. *)
Definition fence (t : token) : bool :=
  match t with
  | Chr c => existsb (N.eqb c) (lit "()[]|/.<>")
  | Sym c => existsb (N.eqb c) (lit "{}|")
  | Word w => str_in w (map lit ["langle"; "rangle"; "lfloor"; "rfloor"; "lceil"; "rceil"; "lbrace"; "rbrace"; "vert"; "Vert"])
  end.

(** What has to come next on a level. *)
Inductive want : Type :=
| Anything
| TheSub | TheSup                                    (* after _ and ^ *)
| Arguments (w : str) (have : list (list item)) (k : nat)   (* arguments of a command, [S k] more *)
| RootIndex | RootBody (index : list item)           (* after \sqrt, after \sqrt[...] *)
| FenceOpen | FenceClose                             (* after \left and \right *)
| NameBrace (begins : bool) | Name (begins : bool) (name : str).   (* after \begin and \end *)
(** A level: the items read (last one first), for an environment also finished cells and rows (last one first). *)
Record level := Level { read : list item; cells : list (list item); rows : list (list (list item)); next : want }.
Definition fresh : level := Level [] [] [] Anything.
Definition wanting (w : want) (l : level) : level := Level (read l) (cells l) (rows l) w.
Definition adding (i : item) (l : level) : level := Level (i :: read l) (cells l) (rows l) Anything.
(** What has opened a level inside another. *)
Inductive opening : Type := ByBrace | ByBracket | ByLeft (d : token) | ByBegin (env : str).
(** The current level and those around it. *)
Record state := State { current : level; around : list (opening * level) }.

(** Whether a ] would end the optional argument of a \sqrt: TeX looks for the first ] outside braces. *)
Fixpoint bracketed (bottom : bool) (l : list (opening * level)) : bool :=
  match l with
  | [] => bottom
  | (ByBrace, _) :: _ => false
  | (ByBracket, _) :: _ => true
  | _ :: l' => bracketed bottom l'
  end.
Definition enter (o : opening) (st : state) : option state := Some (State fresh ((o, current st) :: around st)).
(** An argument, script or group is complete. *)
Definition give (l : list item) (v : level) : option level :=
  match next v with
  | Anything => Some (adding (Group l) v)
  | TheSub => match read v with i :: r => match add_scripts (Some l) None i with
                                          | Some j => Some (Level (j :: r) (cells v) (rows v) Anything) | None => None end | [] => None end
  | TheSup => match read v with i :: r => match add_scripts None (Some l) i with
                                          | Some j => Some (Level (j :: r) (cells v) (rows v) Anything) | None => None end | [] => None end
  | Arguments w have O => Some (adding (Applied w (have ++ [l])) v)
  | Arguments w have (S k) => Some (wanting (Arguments w (have ++ [l]) k) v)
  | RootIndex => Some (adding (Applied (lit "sqrt") [l]) v)
  | RootBody index => Some (adding (Root index l) v)
  | _ => None
  end.
Definition finish_cell (v : level) : level := Level [] (rev (read v) :: cells v) (rows v) Anything.
Definition finish_row (v : level) : level := Level [] [] (rev (rev (read v) :: cells v) :: rows v) Anything.
Definition read_anything (bottom : bool) (t : token) (st : state) : option state :=
  let v := current st in
  let with_current v' := Some (State v' (around st)) in
  if blank t then Some st
  else match t with
  | Chr c =>
      if (c =? 123)%N then enter ByBrace st
      else if (c =? 125)%N then
        match around st with
        | (ByBrace, u) :: l => match give (rev (read v)) u with Some u' => Some (State u' l) | None => None end
        | _ => None
        end
      else if (c =? 94)%N then with_current (wanting TheSup v)
      else if (c =? 95)%N then with_current (wanting TheSub v)
      else if (c =? 93)%N && bracketed bottom (around st) then
        match around st with
        | (ByBracket, u) :: l => match next u with RootIndex => Some (State (wanting (RootBody (rev (read v))) u) l) | _ => None end
        | _ => None
        end
      else if (c =? 38)%N then match around st with (ByBegin _, _) :: _ => with_current (finish_cell v) | _ => None end
      else if existsb (N.eqb c) (lit "$%#'") then None
      else with_current (adding (Atom t) v)
  | Sym c =>
      if (c =? 92)%N then match around st with (ByBegin _, _) :: _ => with_current (finish_row v) | _ => None end
      else with_current (adding (Atom t) v)
  | Word w =>
      if str_eqb w [] then None
      else if str_eqb w (lit "left") then with_current (wanting FenceOpen v)
      else if str_eqb w (lit "right") then with_current (wanting FenceClose v)
      else if str_eqb w (lit "begin") then with_current (wanting (NameBrace true) v)
      else if str_eqb w (lit "end") then with_current (wanting (NameBrace false) v)
      else if str_eqb w (lit "sqrt") then with_current (wanting RootIndex v)
      else match arity arities w with
           | O => with_current (adding (Atom t) v)
           | S k => with_current (wanting (Arguments w [] k) v)
           end
  end.
Definition read_token (bottom : bool) (t : token) (st : state) : option state :=
  let v := current st in
  match next v with
  | Anything => read_anything bottom t st
  | TheSub | TheSup | Arguments _ _ _ | RootBody _ =>
      if blank t then Some st else if is_chr 123 t then enter ByBrace st else None
  | RootIndex =>
      if blank t then Some st else if is_chr 123 t then enter ByBrace st
      else if is_chr 91 t && negb (bracketed bottom (around st)) then enter ByBracket st else None
  | FenceOpen =>
      if blank t then Some st
      else if fence t && negb (is_chr 93 t && bracketed bottom (around st))
      then Some (State fresh ((ByLeft t, wanting Anything v) :: around st)) else None
  | FenceClose =>
      if blank t then Some st
      else if fence t && negb (is_chr 93 t && bracketed bottom (around st)) then
        match around st with
        | (ByLeft d, u) :: l => Some (State (adding (Fenced d t (rev (read v))) u) l)
        | _ => None
        end
      else None
  | NameBrace b => if is_chr 123 t then Some (State (wanting (Name b []) v) (around st)) else None
  | Name b n =>
      match t with
      | Chr c =>
          if (c =? 125)%N then
            if b then Some (State fresh ((ByBegin n, wanting Anything v) :: around st))
            else match around st with
                 | (ByBegin m, u) :: l =>
                     if str_eqb m n
                     then Some (State (adding (Matrix n (rev (rev (rev (read v) :: cells v) :: rows v))) u) l) else None
                 | _ => None
                 end
          else if ascii_letter c then Some (State (wanting (Name b (n ++ [c])) v) (around st)) else None
      | _ => None
      end
  end.
Fixpoint read_tokens (bottom : bool) (ts : list token) (st : state) : option state :=
  match ts with [] => Some st | t :: ts' => match read_token bottom t st with Some st' => read_tokens bottom ts' st' | None => None end end.
(** The formula in a text.  [bottom]: the text stands in the optional argument of a \sqrt. *)
Definition tex_reads (bottom : bool) (s : str) : option (list item) :=
  match read_tokens bottom (tex_tokens s) (State fresh []) with
  | Some (State (Level r [] [] Anything) []) => Some (rev r)
  | _ => None
  end.

(** ** The formula of a tree *)

(** What an element stands for: items, or rows of cells, which need an environment around them. *)
Inductive piece : Type := Items (l : list item) | Cells (rs : list (list (list item))).
Definition formula (p : piece) : option (list item) := match p with Items l => Some l | Cells _ => None end.

(** Scripts go to the last item; there has to be one, and it must not have such scripts already. *)
Fixpoint with_scripts (sub sup : option (list item)) (l : list item) : option (list item) :=
  match l with
  | [] => None
  | [i] => match add_scripts sub sup i with Some j => Some [j] | None => None end
  | i :: l' => match with_scripts sub sup l' with Some r => Some (i :: r) | None => None end
  end.

Definition obind {A B} (x : option A) (f : A -> option B) : option B := match x with Some a => f a | None => None end.
Notation "x <~? r ;; f" := (obind r (fun x => f)) (at level 61, r at next level, right associativity).
Fixpoint oseq {A} (l : list (option A)) : option (list A) :=
  match l with [] => Some [] | x :: l' => a <~? x ;; b <~? oseq l' ;; Some (a :: b) end.

(** The LaTeX of a token element. *)
Definition token_latex (n v : str) (a : dict str) : option str :=
  match tag_of n with
  | TagMi => Some (mi_latex v a) | TagMo => Some (mo_latex v) | TagMn => Some (mn_latex v) | TagMtext => Some (mtext_latex v a)
  | _ => None
  end.
(** What it stands for: what TeX reads in it, but not nothing.  (A text that TeX reads as a single character has to be just
    that, without space around it.  Escaped spaces are left out.) *)
Definition token_formula (bottom : bool) (s : str) : option (list item) :=
  match s with
  | [] => Some []
  | _ =>
      if forallb (fun t => match t with Sym c => negb (is_space c) | _ => true end) (tex_tokens s)
      then match tex_reads bottom s with
           | Some [Atom (Chr c)] => if str_eqb s [c] then Some [Atom (Chr c)] else None
           | Some (i :: l) => Some (i :: l)
           | _ => None
           end
      else None
  end.
(** The accent commands munder and mover know. *)
Fixpoint accent_of (t : tree) : option str :=
  match t with
  | T n v ch a =>
      match token_latex n v a with
      | Some (c :: w) => if (c =? backslash)%N && str_in w (map lit ["hat"; "bar"; "underbrace"; "overbrace"]) then Some w else None
      | Some [] => None
      | None => match tag_of n, ch with TagRow, [c] => accent_of c | _, _ => None end
      end
  end.
(** One character, or nothing: not put in parentheses. *)
Definition single (l : list item) : bool := match l with [] | [Atom (Chr _)] => true | _ => false end.
Definition parens (l : list item) : list item := [Fenced (Chr 40) (Chr 41) l].
Definition parens_if_long (l : list item) : list item := if single l then l else parens l.
(** The notations of menclose. *)
Definition notation_formula (name : str) (l : list item) : option item :=
  let is s := str_eqb name (lit s) in
  if is "left" || is "right" || is "madruwb" then None
  else if is "actuarial" then Some (Applied (lit "overline") [[Fenced (Chr 46) (Chr 124) l]])
  else if is "radical" then Some (Applied (lit "sqrt") [l])
  else if is "box" || is "roundedbox" || is "circle" then Some (Applied (lit "boxed") [l])
  else if is "top" then Some (Applied (lit "overline") [l])
  else if is "bottom" then Some (Applied (lit "underline") [l])
  else if is "updiagonalstrike" then Some (Applied (lit "cancel") [l])
  else if is "downdiagonalstrike" then Some (Applied (lit "bcancel") [l])
  else if is "updiagonalarrow" then Some (Applied (lit "cancelto") [[]; l])
  else if is "verticalstrike" || is "horizontalstrike" then Some (Applied (lit "hcancel") [l])
  else if is "phasorangle" then Some (Group [Atom (Word (lit "angle")); Applied (lit "underline") [l]])
  else Some (Applied (lit "overline") [Fenced (Chr 46) (Chr 41) [] :: l]).
(** A fence given as an attribute. *)
Definition fence_token (bottom : bool) (s : str) : option token :=
  match s with [c] => if fence (Chr c) && negb ((c =? 93)%N && bottom) then Some (Chr c) else None | _ => None end.
(** Separators: characters that TeX prints, or white space. *)
Definition separator_ok (c : N) : bool :=
  is_space c || negb (ascii_letter c || existsb (N.eqb c) (lit "\{}$%&#'^_[]")).
Definition separator_items (c : N) : list item := if is_space c then [] else [Atom (Chr c)].
Fixpoint with_separators (seps : str) (ls : list (list item)) : list item :=
  match ls with
  | [] => []
  | [l] => l
  | l :: ls' =>
      l ++ match seps with
           | [] => Atom (Chr 44) :: with_separators [] ls'
           | [c] => separator_items c ++ with_separators [c] ls'
           | c :: seps' => separator_items c ++ with_separators seps' ls'
           end
  end.
(** Joined by an arrow. *)
Fixpoint with_arrows (ls : list (list item)) : list item :=
  match ls with [] => [] | [l] => l | l :: ls' => l ++ Atom (Word (lit "Longrightarrow")) :: with_arrows ls' end.
(** A row without cells has one empty cell, a table without rows one such row. *)
Definition at_least_one {A} (d : A) (l : list A) : list A := match l with [] => [d] | _ => l end.

(** A row of pieces: of one, this; of several, more than nothing or a single character. *)
Definition in_row (f : list (list item) -> list item) (ps : list piece) : option piece :=
  match ps with
  | [] => Some (Items [])
  | [p] => Some p
  | _ => ls <~? oseq (map formula ps) ;; if single (f ls) then None else Some (Items (f ls))
  end.

(** The piece an element stands for; none if it does not stand for a formula TeX can read.
    [bottom]: in the optional argument of a \sqrt, outside braces.  [inside]: in a table. *)
Fixpoint piece_of (bottom inside : bool) (t : tree) {struct t} : option piece :=
  match t with
  | T n v ch a =>
      let inside' := inside || str_eqb n (lit "mtable") in
      let part b c := obind (piece_of b inside' c) formula in                      (* the items of a child *)
      let row b f := obind (oseq (map (piece_of b inside') ch)) (in_row f) in      (* the children in a row *)
      let braced_row := obind (row false (@concat item)) formula in
      let one i := Some (Items [i]) in
      match tag_of n with
      | TagMi | TagMo | TagMn | TagMtext => s <~? token_latex n v a ;; l <~? token_formula bottom s ;; Some (Items l)
      | TagMath | TagRow => row bottom (@concat item)
      | TagPhantom => Some (Items [])
      | TagSqrt => l <~? braced_row ;; one (Applied (lit "sqrt") [l])
      | TagError => l <~? braced_row ;; Some (Items [Applied (lit "color") [map (fun c => Atom (Chr c)) (lit "red")]; Group l])
      | TagEnclose => l <~? braced_row ;; i <~? notation_formula (dget_or a (lit "notation") (lit "longdiv")) l ;; one i
      | TagFrac =>
          match ch with
          | [x; y] =>
              if truthy (attr a "bevelled")
              then lx <~? part bottom x ;; ly <~? part bottom y ;; Some (Items (parens_if_long lx ++ Atom (Chr 47) :: parens_if_long ly))
              else lx <~? part false x ;; ly <~? part false y ;; one (Applied (lit "frac") [lx; ly])
          | _ => None
          end
      | TagRoot =>
          match ch with
          | [x; y] => if bottom then None else lx <~? part false x ;; ly <~? part true y ;; one (Root ly lx)
          | _ => None
          end
      | TagSup | TagSub | TagSubsup =>
          match ch with
          | b :: scripts =>
              lb <~? part bottom b ;; ls <~? oseq (map (part false) scripts) ;;
              let base := if Nat.ltb 1 (length (t_children b)) then parens_if_long lb else lb in
              l <~? match tag_of n, ls with
                    | TagSup, [x] => with_scripts None (Some x) base
                    | TagSub, [x] => with_scripts (Some x) None base
                    | TagSubsup, [x; y] => with_scripts (Some x) (Some y) base
                    | _, _ => None
                    end ;;
              Some (Items l)
          | [] => None
          end
      | TagUnderover =>
          match ch with
          | [b; x; y] =>
              lb <~? part bottom b ;; lx <~? part false x ;; ly <~? part false y ;;
              if Nat.eqb (length lb) 1 || Nat.eqb (length (t_children b)) 0     (* one item, or a token *)
              then l <~? with_scripts (Some lx) (Some ly) lb ;; Some (Items l) else None
          | _ => None
          end
      | TagMultiscripts =>
          match ch with
          | [b; x; y] =>
              lb <~? part bottom b ;; lx <~? part false x ;; ly <~? part false y ;;
              base <~? match token_latex (t_name b) (t_value b) (t_attributes b), tag_of (t_name b) with
                       | Some s, _ => if existsb is_space s then None else Some lb
                       | None, TagRow => if Nat.ltb 1 (length (t_children b)) then Some (parens lb) else None
                       | _, _ => None
                       end ;;
              if str_eqb (t_name x) (lit "mprescripts") then None
              else l <~? with_scripts (Some lx) (Some ly) base ;; Some (Items l)
          | _ => None
          end
      | TagUnder | TagOver =>
          match ch with
          | [x; y] =>
              lx <~? part false x ;;
              match accent_of y with
              | Some w => one (Applied w [lx])
              | None => ly <~? part false y ;;
                  one (Applied (lit (match tag_of n with TagUnder => "underset" | _ => "overset" end)) [ly; lx])
              end
          | _ => None
          end
      | TagAction =>
          if fixed_action a then match ch with c :: _ => piece_of bottom inside' c | [] => None end
          else row bottom with_arrows
      | TagFenced =>
          if existsb has_table ch
          then match ch with
               | [c] =>
                   p <~? piece_of bottom inside' c ;;
                   let m := Matrix (lit (fence_env (attr a "open") (attr a "close"))) match p with Cells rs => rs | Items l => [[l]] end in
                   if String.eqb (fence_env (attr a "open") (attr a "close")) "matrix"
                   then o <~? fence_token bottom (attr a "open") ;; c' <~? fence_token bottom (attr a "close") ;; one (Fenced o c' [m])
                   else one m
               | _ => None
               end
          else
            o <~? fence_token bottom (default (attr a "open") "(") ;; c' <~? fence_token bottom (default (attr a "close") ")") ;;
            if forallb separator_ok (attr a "separators")
            then ls <~? oseq (map (part bottom) ch) ;; one (Fenced o c' (with_separators (attr a "separators") ls))
            else None
      | TagTr => ls <~? oseq (map (part bottom) ch) ;; Some (Cells [at_least_one [] ls])
      | TagTable =>
          rs <~? oseq (map (fun c => p <~? piece_of bottom inside' c ;;
                                     match p with Cells [r] => Some r | Cells _ => None | Items l => Some [l] end) ch) ;;
          let rs' := at_least_one [[]] rs in
          if inside || truthy (attr a "innerTable") then one (Matrix (lit "matrix") rs') else Some (Cells rs')
      end
  end.
(** The formula of a tree as TeX is to read it. *)
Definition formula_of (t : tree) : option (list item) := obind (piece_of false false t) formula.

(** ** A class of trees that all stand for a formula *)
Definition scripted (i : item) : bool := match i with Scripts _ _ _ => true | _ => false end.
(** A row as the base of scripts has several children. *)
Definition base_ok (t : tree) : Prop := (tag_of (t_name t) = TagRow \/ tag_of (t_name t) = TagMath) -> 1 < length (t_children t).
Definition is_token_tag (n : str) : Prop := In (tag_of n) [TagMi; TagMo; TagMn; TagMtext].
(** [bottom], [inside]: as above. *)
Inductive ordinary : bool -> bool -> tree -> Prop :=
| ordinary_token bottom inside n v ch a s l : token_latex n v a = Some s -> token_formula bottom s = Some l -> l <> [] ->
    existsb scripted l = false -> ordinary bottom inside (T n v ch a)
| ordinary_row bottom inside n v ch a : tag_of n = TagRow \/ tag_of n = TagMath -> ch <> [] ->
    Forall (ordinary bottom inside) ch -> ordinary bottom inside (T n v ch a)
| ordinary_braced bottom inside n v ch a : In (tag_of n) [TagSqrt; TagError] -> ch <> [] ->
    Forall (ordinary false inside) ch -> ordinary bottom inside (T n v ch a)
| ordinary_enclosed bottom inside n v ch a : tag_of n = TagEnclose -> ch <> [] ->
    str_in (dget_or a (lit "notation") (lit "longdiv")) (map lit ["left"; "right"; "madruwb"]) = false ->
    Forall (ordinary false inside) ch -> ordinary bottom inside (T n v ch a)
| ordinary_frac bottom inside n v x y a : tag_of n = TagFrac -> truthy (attr a "bevelled") = false ->
    ordinary false inside x -> ordinary false inside y -> ordinary bottom inside (T n v [x; y] a)
| ordinary_bevelled bottom inside n v x y a : tag_of n = TagFrac -> truthy (attr a "bevelled") = true ->
    ordinary bottom inside x -> ordinary bottom inside y -> ordinary bottom inside (T n v [x; y] a)
| ordinary_root inside n v x y a : tag_of n = TagRoot ->
    ordinary false inside x -> ordinary true inside y -> ordinary false inside (T n v [x; y] a)
| ordinary_script bottom inside n v b x a : In (tag_of n) [TagSup; TagSub] -> base_ok b ->
    ordinary bottom inside b -> ordinary false inside x -> ordinary bottom inside (T n v [b; x] a)
| ordinary_scripts bottom inside n v b x y a : tag_of n = TagSubsup -> base_ok b ->
    ordinary bottom inside b -> ordinary false inside x -> ordinary false inside y -> ordinary bottom inside (T n v [b; x; y] a)
| ordinary_limits bottom inside n v b x y a : tag_of n = TagUnderover -> is_token_tag (t_name b) -> t_children b = [] ->
    ordinary bottom inside b -> ordinary false inside x -> ordinary false inside y -> ordinary bottom inside (T n v [b; x; y] a)
| ordinary_stacked bottom inside n v x y a : In (tag_of n) [TagUnder; TagOver] ->
    ordinary false inside x -> ordinary false inside y -> ordinary bottom inside (T n v [x; y] a)
| ordinary_accent bottom inside n v x y a w : In (tag_of n) [TagUnder; TagOver] -> accent_of y = Some w ->
    ordinary false inside x -> ordinary bottom inside (T n v [x; y] a)
| ordinary_fenced bottom inside n v ch a : tag_of n = TagFenced -> existsb has_table ch = false ->
    fence_token bottom (default (attr a "open") "(") <> None -> fence_token bottom (default (attr a "close") ")") <> None ->
    forallb separator_ok (attr a "separators") = true -> Forall (ordinary bottom inside) ch -> ordinary bottom inside (T n v ch a)
| ordinary_matrix bottom inside n v c a : tag_of n = TagFenced -> has_table c = true ->
    fence_env (attr a "open") (attr a "close") <> "matrix" \/
      (fence_token bottom (attr a "open") <> None /\ fence_token bottom (attr a "close") <> None) ->
    ordinary bottom inside c \/ ordinary_table bottom inside c -> ordinary bottom inside (T n v [c] a)
| ordinary_inner bottom n v ch a : tag_of n = TagTable -> ordinary_table bottom true (T n v ch a) -> ordinary bottom true (T n v ch a)
with ordinary_table : bool -> bool -> tree -> Prop :=
| ordinary_rows bottom inside n v rs a : tag_of n = TagTable -> Forall (ordinary_line bottom) rs -> ordinary_table bottom inside (T n v rs a)
with ordinary_line : bool -> tree -> Prop :=
| ordinary_cells bottom n v cs a : tag_of n = TagTr -> Forall (ordinary bottom true) cs -> ordinary_line bottom (T n v cs a).

(** A text that does not end in a command name. *)
Definition closed_end (s : str) : Prop := match rev (tex_tokens s) with Word _ :: _ => False | _ => True end.
