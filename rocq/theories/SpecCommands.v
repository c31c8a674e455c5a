(** C61, C62: the commands and the characters of the output.  The lists are written out here; no table of the library is used. *)
From Coq Require Import String.
From Verif Require Export SpecGlyphs SpecTeX.
Local Open Scope string_scope.
Local Open Scope list_scope.

(** ** Commands *)
(** For the layout of elements, *)
Definition layout_commands : list string := [
   "frac"; "sqrt"; "left"; "right"; "begin"; "end"; "underset"; "overset"; "Longrightarrow"; "overline"; "underline";
   "boxed"; "cancel"; "bcancel"; "cancelto"; "hcancel"; "angle"; "color"].
(** for the fonts of letters and texts, *)
Definition font_commands : list string := [
   "mathbf"; "mathit"; "mathbb"; "mathcal"; "mathfrak"; "mathsf"; "mathtt"; "text"; "textbf"; "textit"].
(** for accents, *)
Definition accent_commands : list string := [
   "acute"; "grave"; "hat"; "tilde"; "ddot"; "mathring"; "breve"; "check"; "dot"; "bar"].
(** and for symbols. *)
Definition symbol_commands : list string := [
   "Box"; "Delta"; "Downarrow"; "Epsilon"; "Gamma"; "Join"; "Lambda"; "Leftarrow"; "Leftrightarrow"; "Lleftarrow";
   "Longleftarrow"; "Longleftrightarrow"; "Lsh"; "Omega"; "Phi"; "Pi"; "Psi"; "Rightarrow"; "Rrightarrow"; "Rsh";
   "Sigma"; "Theta"; "Uparrow"; "Updownarrow"; "Upsilon"; "Vdash"; "Xi"; "aleph"; "alpha"; "approx"; "ast"; "asymp";
   "backslash"; "because"; "beta"; "bigodot"; "bigoplus"; "bigotimes"; "bigtriangleup"; "blacksquare"; "bot"; "bowtie";
   "boxdot"; "boxminus"; "boxplus"; "boxtimes"; "bullet"; "cap"; "cdot"; "cdots"; "cent"; "checkmark"; "chi"; "circ";
   "circle"; "circlearrowleft"; "circlearrowright"; "circledcirc"; "cong"; "coprod"; "cup"; "curvearrowleft";
   "curvearrowright"; "dagger"; "dashv"; "ddagger"; "ddots"; "delta"; "dfrac"; "diamond"; "div"; "doteq"; "dots";
   "downarrow"; "downdownarrows"; "downharpoonleft"; "downharpoonright"; "ell"; "emptyset"; "epsilon"; "equiv"; "eta";
   "euro"; "exists"; "forall"; "frown"; "gamma"; "geg"; "geq"; "geqq"; "gg"; "ggg"; "gtreqqless"; "gtrless"; "gtrsim";
   "hbar"; "hdots"; "heartsuit"; "hookleftarrow"; "hookrightarrow"; "iff"; "iiiint"; "iiint"; "iint"; "imath"; "in";
   "infty"; "int"; "iota"; "kappa"; "lambda"; "land"; "langle"; "lceil"; "ldots"; "leadsto"; "leftarrow";
   "leftarrowtail"; "leftharpoondown"; "leftharpoonup"; "leftleftarrows"; "leftrightarrow"; "leftrightarrows";
   "leftrightharpoons"; "leftrightsquigarrow"; "leq"; "leqq"; "lesseqqgtr"; "lessgtr"; "lesssim"; "lfloor"; "ll";
   "llbracket"; "llcorner"; "lll"; "looparrowleft"; "looparrowright"; "lor"; "lozenge"; "lrcorner"; "ltimes"; "mapsto";
   "measuredangle"; "mho"; "mid"; "models"; "mu"; "multimap"; "nLeftarrow"; "nLeftrightarrow"; "nRightarrow"; "nabla";
   "ncong"; "nearrow"; "neg"; "neq"; "nexists"; "ngeqslant"; "ni"; "nleftarrow"; "nleftrightarrow"; "nleqslant"; "not";
   "notin"; "nparallel"; "nprec"; "npreceq"; "nrightarrow"; "nsubseteq"; "nsucc"; "nsucceq"; "nsupseteq"; "nu";
   "nvDash"; "nwarrow"; "odot"; "oiint"; "oint"; "omega"; "omicron"; "ominus"; "oplus"; "oslash"; "otimes";
   "overbrace"; "parallel"; "partial"; "perp"; "phi"; "pho"; "pi"; "pitchfork"; "pm"; "pounds"; "prec"; "preceq";
   "precsim"; "prime"; "prod"; "propto"; "psi"; "rangle"; "rceil"; "rfloor"; "rho"; "rightarrow"; "rightarrowtail";
   "rightharpoondown"; "rightharpoonup"; "rightleftarrows"; "rightleftharpoons"; "rightrightarrows"; "rightsquigarrow";
   "rtimes"; "searrow"; "sigma"; "sim"; "simeq"; "sqcap"; "sqcup"; "sqsubset"; "sqsubseteq"; "sqsupset"; "sqsupseteq";
   "square"; "ss"; "star"; "subset"; "subseteq"; "subseteqq"; "subsetneq"; "succ"; "succeq"; "succsim"; "sum";
   "supset"; "supseteq"; "supseteqq"; "supsetneq"; "swarrow"; "tau"; "textcircled"; "textdegree"; "textdir"; "textrm";
   "therefore"; "theta"; "times"; "top"; "triangle"; "triangledown"; "triangleleft"; "triangleq"; "triangleright";
   "twoheadleftarrow"; "twoheadrightarrow"; "ulcorner"; "underbrace"; "uparrow"; "updownarrow"; "upharpoonleft";
   "upharpoonright"; "uplus"; "upsilon"; "upuparrows"; "vDash"; "varepsilon"; "varnothing"; "varphi"; "varrho";
   "vartheta"; "vartriangleleft"; "vartriangleright"; "vdash"; "vdots"; "vec"; "vee"; "wedge"; "wp"; "xi"; "yen"; "zeta"].
Definition vocabulary : list str := map lit (layout_commands ++ font_commands ++ accent_commands ++ symbol_commands).
(** The characters (by code point) that stand after a backslash: the double quote and # $ % & ( ) [ \ ] _ { | }. *)
Definition control_symbols : list N := [34; 35; 36; 37; 38; 40; 41; 91; 92; 93; 95; 123; 124; 125]%N.

(** A command of the vocabulary, exactly, *)
Definition listed (k : token) : Prop :=
  match k with Word w => In w vocabulary | Sym c => In c control_symbols | Chr _ => True end.
(** or with letters after it that run into it. *)
Definition listed_glued (k : token) : Prop :=
  match k with
  | Word w => exists v l, In v vocabulary /\ letters l /\ w = v ++ l
  | Sym c => In c control_symbols
  | Chr _ => True
  end.

(** Commands that define commands, change how TeX reads, write or read files, run programs. *)
Definition dangerous : list str := map lit [
   "def"; "edef"; "gdef"; "xdef"; "let"; "futurelet"; "catcode"; "csname"; "expandafter"; "newcommand"; "renewcommand";
   "providecommand"; "newenvironment"; "write"; "openout"; "openin"; "read"; "immediate"; "special"; "loop"; "usepackage";
   "documentclass"; "RequirePackage"; "makeatletter"; "lstinputlisting"; "verbatiminput"; "pdfximage"; "directlua";
   "ShellEscape"; "href"; "url"].
(** LaTeX with amsmath, amssymb, cancel and color has no such commands for formulas (\circle is for pictures). *)
Definition not_latex : list str := map lit [
   "Epsilon"; "omicron"; "geg"; "pho"; "hdots"; "euro"; "cent"; "textdir"; "circle"; "hcancel"; "llbracket"; "oiint"].

(** ** Conditions *)
Definition backslash_free (s : str) : Prop := ~ In backslash s.
(** No backslash in an mn, nor in an mi or mo (unless that shows one character), nor in fences and separators. *)
Definition tame_element (u : tree) : Prop :=
  (t_name u = lit "mn" -> backslash_free (t_value u))
  /\ (In (t_name u) [lit "mi"; lit "mo"] -> backslash_free (t_value u) \/ exists c, shows (t_value u) c)
  /\ (t_name u = lit "mfenced" -> forall key, In key ["open"; "close"; "separators"]%string -> backslash_free (attr (t_attributes u) key)).
Definition tame_tree (t : tree) : Prop := forall u, visits t u -> tame_element u.

(** The characters whose LaTeX begins with an ASCII letter, other than these letters themselves. *)
Definition letter_like : list N := [
   402; 417; 572; 636; 929; 933; 959; 1072; 1086; 1088; 1093; 7745; 7985; 8520; 8853; 119886; 119887; 119888; 119889;
   119890; 119891; 119892; 119894; 119895; 119896; 119897; 119898; 119899; 119900; 119901; 119902; 119903; 119904;
   119905; 119906; 119907; 119908; 119909; 119910; 119911; 120013; 120014; 120015; 120064; 120479; 127485]%N.
Definition begins_with_letter (s : str) : Prop := exists c s', s = c :: s' /\ ascii_letter c = true.
(** Nothing runs into a command: no fence begins with a letter, no separator is one, fences around a table have one child, and no
    text holds a letter-like character. *)
Definition apart_element (u : tree) : Prop :=
  (t_name u = lit "mfenced" ->
     ~ begins_with_letter (attr (t_attributes u) "open") /\ ~ begins_with_letter (attr (t_attributes u) "close")
     /\ (forall c, In c (attr (t_attributes u) "separators") -> ascii_letter c = false)
     /\ (existsb has_table (t_children u) = true -> length (t_children u) <= 1))
  /\ (t_name u = lit "mtext" -> forall c, In c (t_value u) -> ~ In c letter_like).
Definition apart_tree (t : tree) : Prop := forall u, visits t u -> apart_element u.

(** The characters of mi and mtext, and the texts of mo, that give a command LaTeX does not have. *)
Definition unknown_characters : list N := [8236; 8206; 10664; 162; 10214; 8364; 9679]%N.
Definition unknown_operators : list str :=
  map (fun c => [c]) [
   10765; 8752; 8751; 10925; 10924; 10923; 10922; 10845; 10844; 10747; 10746; 8959; 8821; 8819; 8807; 10689; 10688;
   9702; 9687; 9686; 9679; 8943; 8291; 959; 8364]%N
  ++ map lit [
   "&#x2A0D;"; "&#x2230;"; "&#x222F;"; "&#x2AAD;"; "&#x2AAC;"; "&#x2AAB;"; "&#x2AAA;"; "&#x2A5D;"; "&#x2A5C;";
   "&#x29FB;"; "&#x29FA;"; "&#x22FF;"; "&#x2275;"; "&#x2273;"; "&#x2267;"; "&#x29C1;"; "&#x29C0;"; "&#x25E6;";
   "&#x25D7;"; "&#x25D6;"; "&#x25CF;"; "&#x22EF;"; "&#x2026;"; "%CE%BF"; "%CF%81"].
Definition known_element (u : tree) : Prop :=
  (t_name u = lit "mi" -> forall c, In c unknown_characters -> squeeze (t_value u) <> [c])
  /\ (t_name u = lit "mtext" -> forall c, In c unknown_characters -> ~ In c (t_value u))
  /\ (t_name u = lit "mo" -> ~ In (squeeze (t_value u)) unknown_operators)
  /\ (t_name u = lit "menclose" -> ~ In (attr (t_attributes u) "notation") [lit "verticalstrike"; lit "horizontalstrike"]).
Definition known_tree (t : tree) : Prop := forall u, visits t u -> known_element u.

(** ** Characters *)
(** Printable ASCII and the line feed. *)
Definition ascii_output (c : N) : Prop := (c = 10 \/ 32 <= c <= 126)%N.
(** The texts of mo whose entry in the tables holds another character, and these characters. *)
Definition odd_operators : list str := [10743%N] :: map lit ["&#x2CB;"; "&#x2CA;"; "&#x2C9;"; "&#xB8;"; "&#xB4;"; "&#x29F7;"].
Definition odd_characters : list N := [8; 180; 184; 713; 714; 715]%N.
Definition regular_tree (t : tree) : Prop := forall u, visits t u -> t_name u = lit "mo" -> ~ In (squeeze (t_value u)) odd_operators.
(** The character stands in the text of a converted token, or in the fences or separators of a converted mfenced. *)
Definition from_input (t : tree) (c : N) : Prop :=
  exists u, visits t u
    /\ (In (t_name u) token_tags /\ In c (t_value u)
        \/ t_name u = lit "mfenced" /\ exists key, In key ["open"; "close"; "separators"]%string /\ In c (attr (t_attributes u) key)).
