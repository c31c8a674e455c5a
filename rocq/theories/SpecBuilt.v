(** Signs that are put together from others, by their Unicode code points and names (C75).  No definition refers to a table of the library;
    where the lists come from is in DESIGN.md. *)
From Coq Require Import String.
From Verif Require Export SpecLayout SpecGlyphs.
Local Open Scope string_scope.
Local Open Scope list_scope.

(** What such a sign looks like, and the ways to write that in LaTeX. *)
Inductive figure : Type :=
  | Sign (names : list string)
  | Over (top bottom : figure)
  | Beside (left right : figure)
  | BarBelow (f : figure) | BarAbove (f : figure) | DotAbove (f : figure) | HatAbove (f : figure) | ArrowAbove (f : figure)
  | Boxed (f : figure) | Struck (f : figure) | Dashed (f : figure).
Definition pairs (xs ys : list str) (g : str -> str -> list str) : list str := flat_map (fun x => flat_map (g x) ys) xs.
Definition command (names : list string) (xs : list str) : list str :=
  flat_map (fun n => map (fun x => lit n ++ lit "{" ++ x ++ lit "}") xs) names.
Fixpoint drawings (f : figure) : list str :=
  match f with
  | Sign names => map lit names
  | Over t b => pairs (drawings t) (drawings b) (fun x y =>
      [lit "\overset{" ++ x ++ lit "}{" ++ y ++ lit "}"; lit "\underset{" ++ y ++ lit "}{" ++ x ++ lit "}"])
  | Beside l r => pairs (drawings l) (drawings r) (fun x y => [x ++ y; x ++ lit " " ++ y])
  | BarBelow f => command ["\underline"] (drawings f)
  | BarAbove f => command ["\overline"] (drawings f)
  | DotAbove f => command ["\dot"] (drawings f)
  | HatAbove f => command ["\hat"] (drawings f)
  | ArrowAbove f => command ["\vec"] (drawings f)
  | Boxed f => command ["\boxed"] (drawings f)
  | Struck f => command ["\cancel"; "\bcancel"] (drawings f)
  | Dashed f => command ["\hcancel"] (drawings f)
  end.

Definition built_signs : list (N * figure) := [
  (10617, Over (Sign ["\subset"]) (Sign ["\rightarrow"])); (10616, Over (Sign [">"]) (Sign ["\rightarrow"]));
  (10614, Over (Sign ["<"]) (Sign ["\leftarrow"])); (10613, Over (Sign ["\rightarrow"]) (Sign ["\approx"]));
  (10612, Over (Sign ["\rightarrow"]) (Sign ["\sim"])); (10611, Over (Sign ["\leftarrow"]) (Sign ["\sim"]));
  (10610, Over (Sign ["\sim"]) (Sign ["\rightarrow"])); (10609, Over (Sign ["="]) (Sign ["\rightarrow"]));
  (10605, BarAbove (Sign ["\rightharpoondown"])); (10604, BarBelow (Sign ["\rightharpoonup"]));
  (10603, BarAbove (Sign ["\leftharpoondown"])); (10602, BarBelow (Sign ["\leftharpoonup"]));
  (10956, Over (Sign ["\supset"]) (Sign ["\neq"; "\ne"])); (10955, Over (Sign ["\subset"]) (Sign ["\neq"; "\ne"]));
  (10954, Over (Sign ["\supset"]) (Sign ["\approx"])); (10953, Over (Sign ["\subset"]) (Sign ["\approx"]));
  (10952, Over (Sign ["\supset"]) (Sign ["\sim"])); (10951, Over (Sign ["\subset"]) (Sign ["\sim"]));
  (10946, Over (Sign ["\supset"]) (Sign ["\times"])); (10945, Over (Sign ["\subset"]) (Sign ["\times"]));
  (10944, Over (Sign ["\supset"]) (Sign ["+"])); (10943, Over (Sign ["\subset"]) (Sign ["+"]));
  (10938, Over (Sign ["\succ"]) (Struck (Sign ["\approx"]))); (10937, Over (Sign ["\prec"]) (Struck (Sign ["\approx"])));
  (10936, Over (Sign ["\succ"]) (Sign ["\approx"])); (10935, Over (Sign ["\prec"]) (Sign ["\approx"]));
  (10934, Over (Sign ["\succ"]) (Struck (Sign ["="]))); (10933, Over (Sign ["\prec"]) (Struck (Sign ["="])));
  (10932, Over (Sign ["\succ"]) (Sign ["="])); (10931, Over (Sign ["\prec"]) (Sign ["="]));
  (10912, Over (Sign ["\sim"]) (Sign ["\geqq"])); (10911, Over (Sign ["\sim"]) (Sign ["\leqq"]));
  (10898, Over (Sign ["\gtrless"]) (Sign ["="])); (10897, Over (Sign ["\lessgtr"]) (Sign ["="]));
  (10896, Over (Sign ["\gtrsim"]) (Sign ["<"])); (10895, Over (Sign ["\lesssim"]) (Sign [">"]));
  (10894, Over (Sign [">"]) (Sign ["\simeq"])); (10893, Over (Sign ["<"]) (Sign ["\simeq"]));
  (10890, Over (Sign [">"]) (Struck (Sign ["\approx"]))); (10866, Over (Sign ["+"]) (Sign ["="]));
  (10865, Over (Sign ["="]) (Sign ["+"])); (10948, DotAbove (Sign ["\supseteq"])); (10947, DotAbove (Sign ["\subseteq"]));
  (10858, DotAbove (Sign ["\sim"])); (10855, DotAbove (Sign ["\equiv"])); (10834, DotAbove (Sign ["\vee"; "\lor"]));
  (10833, DotAbove (Sign ["\wedge"; "\land"])); (10800, DotAbove (Sign ["\times"])); (10698, DotAbove (Sign ["\triangle"]));
  (8949, DotAbove (Sign ["\in"])); (10854, Over (Sign ["="]) (Sign ["\cdot"])); (10851, Over (Sign ["\vee"; "\lor"]) (Sign ["="]));
  (10850, Over (Sign ["="]) (Sign ["\vee"; "\lor"])); (10848, Over (Sign ["\wedge"; "\land"]) (Sign ["="]));
  (10846, Over (Sign ["="]) (Sign ["\wedge"; "\land"])); (10847, BarBelow (Sign ["\wedge"; "\land"]));
  (10845, Dashed (Sign ["\vee"; "\lor"])); (10844, Dashed (Sign ["\wedge"; "\land"])); (10819, BarAbove (Sign ["\cap"]));
  (10818, BarAbove (Sign ["\cup"])); (10806, HatAbove (Sign ["\otimes"])); (10801, BarBelow (Sign ["\times"]));
  (10790, Over (Sign ["+"]) (Sign ["\sim"])); (10788, Over (Sign ["\sim"]) (Sign ["+"])); (10787, HatAbove (Sign ["+"]));
  (10704, Beside (Sign ["\mid"; "|"]) (Sign ["\triangleright"])); (10703, Beside (Sign ["\triangleleft"]) (Sign ["\mid"; "|"]));
  (10699, BarBelow (Sign ["\triangle"])); (10675, ArrowAbove (Sign ["\varnothing"; "\emptyset"]));
  (10673, BarAbove (Sign ["\varnothing"; "\emptyset"])); (8958, BarAbove (Sign ["\ni"])); (8957, BarAbove (Sign ["\ni"]));
  (8952, BarBelow (Sign ["\in"])); (8951, BarAbove (Sign ["\in"])); (8950, BarAbove (Sign ["\in"]));
  (8616, BarBelow (Sign ["\updownarrow"])); (8632, BarAbove (Sign ["\nwarrow"])); (10780, BarBelow (Sign ["\int"]));
  (10779, BarAbove (Sign ["\int"])); (10984, BarBelow (Sign ["\perp"; "\bot"])); (10983, BarAbove (Sign ["\top"]));
  (10915, BarBelow (Sign ["\ll"])); (10990, Struck (Sign ["\mid"; "|"])); (10767, Struck (Sign ["\int"]));
  (10693, Struck (Sign ["\square"])); (10692, Struck (Sign ["\square"])); (10695, Boxed (Sign ["\circ"]));
  (8797, Over (Sign ["def"]) (Sign ["="])); (8798, Over (Sign ["m"]) (Sign ["="])); (10864, Over (Sign ["\approx"]) (Sign ["="]));
  (10862, Over (Sign ["*"; "\ast"]) (Sign ["="])); (8803, Over (Sign ["="]) (Sign ["="])); (10869, Beside (Sign ["="]) (Sign ["="]));
  (10870, Beside (Sign ["="]) (Beside (Sign ["="]) (Sign ["="]))); (10868, Beside (Sign [":"]) (Beside (Sign [":"]) (Sign ["="])));
  (8788, Beside (Sign [":"]) (Sign ["="])); (8789, Beside (Sign ["="]) (Sign [":"])); (8759, Beside (Sign [":"]) (Sign [":"]));
  (10917, Beside (Sign [">"]) (Sign ["<"])); (8761, Beside (Sign ["-"]) (Sign [":"]));
  (8762, Beside (Sign [":"]) (Beside (Sign ["-"]) (Sign [":"]))); (8243, Beside (Sign ["'"]) (Sign ["'"]));
  (8244, Beside (Sign ["'"]) (Beside (Sign ["'"]) (Sign ["'"]))); (8246, Beside (Sign ["`"]) (Sign ["`"]));
  (11004, Beside (Sign ["\mid"; "|"]) (Beside (Sign ["\mid"; "|"]) (Sign ["\mid"; "|"])));
  (10740, Beside (Sign [":"]) (Sign ["\rightarrow"])); (8222, Beside (Sign [","]) (Sign [","])) ]%N.
(** Those that give something else. *)
Definition misbuilt : list (N * figure * string) := [
  (10619, Over (Sign ["\supset"]) (Sign ["\leftarrow"]), "\underset{\rightarrow}{\supset}");
  (10889, Over (Sign ["<"]) (Struck (Sign ["\approx"])), "\underset{\approx}{<}");
  (10872, Over (Sign ["...."]) (Sign ["\equiv"]), "\overset{\dots}{\equiv}"); (10861, DotAbove (Sign ["\cong"]), "\dot{\approx}");
  (10849, BarBelow (Sign ["\vee"; "\lor"]), "ul(vv)"); (10789, Over (Sign ["+"]) (Sign ["\cdot"]), "\underset{\circ}{+}");
  (10786, Over (Sign ["\circ"]) (Sign ["+"]), "\dot{+}");
  (10676, Over (Sign ["\leftarrow"]) (Sign ["\varnothing"; "\emptyset"]), "\vec{\varnothing}");
  (10674, Over (Sign ["\circ"]) (Sign ["\varnothing"; "\emptyset"]), "\dot{\varnothing}");
  (10694, Boxed (Sign ["*"; "\ast"]), "\boxed{\rightarrow}"); (8799, Over (Sign ["?"]) (Sign ["="]), "\doteq");
  (8795, Over (Sign ["\star"]) (Sign ["="]), "\doteq"); (8794, Over (Sign ["\vee"; "\lor"]) (Sign ["="]), "\triangleq");
  (8793, Over (Sign ["\wedge"; "\land"]) (Sign ["="]), "\triangleq"); (8792, Over (Sign ["\frown"]) (Sign ["="]), "=");
  (10863, HatAbove (Sign ["\approx"]), "\overset{\wedge}{=}"); (10755, DotAbove (Sign ["\cup"]), "\cup");
  (8760, DotAbove (Sign ["-"]), "\bot"); (8954, Sign ["\ni"], "\in"); (8955, Sign ["\ni"], "\in"); (8956, Sign ["\ni"], "\in") ]%N.
(** Signs for which LaTeX has no usual name, that come out as a plainer one. *)
Definition plainer : list (string * list N) := [
  ("\int", [10776; 10775; 10777; 10778; 10771; 10770; 10769; 10768; 10772; 8753]); ("\oint", [10774; 10773]);
  ("\in", [8946; 8947; 8948; 8714]); ("\ni", [8717]); ("\angle", [10655]);
  ("\measuredangle", [10654; 10653; 8894; 10664; 10665; 10666; 10667; 10668; 10669; 10670; 10671]); ("\odot", [10687; 10686]);
  ("\circledcirc", [9678]); ("\diamond", [9671; 9670; 9672]); ("\blacksquare", [9648; 9646]); ("\square", [9647; 10720]);
  ("\cup", [8844; 8845]); ("\approx", [8779]); ("\sim", [8763]); ("\bowtie", [10707; 10705; 10706; 10708; 10709; 10781]);
  ("\vdash", [8870]); ("\backslash", [10745]); ("/", [8725]); (":", [10626; 8758]); ("\times", [10539; 10540; 10799]);
  ("\leftrightarrow", [8703]); ("\Updownarrow", [8691]); ("\searrow", [8690]); ("\nwarrow", [8689]); ("\nleftrightarrow", [8697; 8700]);
  ("\nLeftrightarrow", [10500]); ("\overbrace", [9182; 9184]); ("\underbrace", [9183]); ("\ncong", [8774]) ]%N.
