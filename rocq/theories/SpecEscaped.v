(** Characters that are escaped twice: the text of the element is &#x and the hexadecimal number of a character (C76).
    No definition refers to a table of the library;
    where the lists come from is in DESIGN.md. *)
From Coq Require Import String.
From Verif Require Export SpecLayout SpecGlyphs SpecOther.
Local Open Scope string_scope.
Local Open Scope list_scope.

(** The number of a character in hexadecimal digits. *)
Definition hex_digit (n : N) : N := if (n <? 10)%N then (48 + n)%N else (55 + n)%N.
Fixpoint hex_digits (fuel : nat) (n : N) (acc : str) : str :=
  match fuel with
  | O => acc
  | S f => let acc' := hex_digit (n mod 16) :: acc in if (n <? 16)%N then acc' else hex_digits f (n / 16)%N acc'
  end.
Definition escape (c : N) : str := lit "&#x" ++ hex_digits 8 c [] ++ lit ";".

(** Operators that give the same when escaped: single characters by ranges, and characters with a combining one. *)
Definition escaped_operators : list (N * N) := [
  (168, 168); (170, 170); (172, 172); (175, 180); (183, 183); (185, 186); (215, 215); (247, 247); (710, 710); (713, 715); (717, 717);
  (729, 730); (732, 733); (759, 759); (1014, 1014); (8214, 8214); (8216, 8219); (8222, 8223); (8226, 8226); (8242, 8247); (8259, 8260);
  (8279, 8279); (8411, 8412); (8517, 8518); (8592, 8601); (8604, 8621); (8623, 8644); (8646, 8692); (8694, 8708); (8710, 8733);
  (8735, 8738); (8740, 8767); (8769, 8781); (8784, 8811); (8813, 8883); (8885, 8888); (8890, 8903); (8909, 8959); (8968, 8971);
  (9001, 9002); (9140, 9141); (9180, 9185); (9633, 9633); (9642, 9643); (9645, 9645); (9647, 9647); (9649, 9657); (9660, 9673);
  (9676, 9679); (9686, 9687); (9702, 9702); (9839, 9839); (10098, 10099); (10216, 10225); (10229, 10239); (10496, 10528);
  (10539, 10540); (10548, 10551); (10558, 10564); (10567, 10568); (10570, 10605); (10609, 10614); (10616, 10617); (10619, 10621);
  (10624, 10624); (10626, 10649); (10651, 10657); (10672, 10681); (10683, 10696); (10698, 10699); (10701, 10701); (10703, 10709);
  (10712, 10713); (10715, 10715); (10719, 10720); (10722, 10727); (10731, 10731); (10738, 10741); (10743, 10750); (10752, 10758);
  (10761, 10761); (10764, 10765); (10767, 10782); (10784, 10790); (10799, 10802); (10806, 10806); (10812, 10813); (10815, 10815);
  (10818, 10819); (10828, 10829); (10833, 10834); (10839, 10840); (10844, 10851); (10854, 10855); (10858, 10858); (10861, 10866);
  (10868, 10870); (10872, 10872); (10877, 10878); (10885, 10898); (10905, 10906); (10909, 10919); (10922, 10925); (10927, 10928);
  (10931, 10940); (10943, 10956); (10971, 10971); (10974, 10976); (10983, 10984); (10990, 10990); (10994, 10994); (10998, 10998);
  (11003, 11005); (11077, 11078) ]%N.
Definition escaped_pairs : list str := [
  [10914; 824]; [10913; 824]; [10878; 824]; [10877; 824]; [10704; 824]; [10703; 824]; [8848; 824]; [8847; 824]; [8831; 824];
  [8806; 824]; [8770; 824]; [8765; 817]; [10928; 824]; [10927; 824]; [8811; 824]; [8810; 824]; [8835; 8402]; [8834; 8402] ]%N.
(** Those that give something else than the character. *)
Definition escaped_otherwise : list (str * str) := [
  ([8254], lit "\bar"); ([770], lit "\hat"); ([184], [184]); ([10547], lit "\leadsto"); ([10625], lit "\circ"); ([10072], lit "|");
  ([8904], lit "\bowtie"); ([8739], lit "|"); ([9648], lit "\square"); ([9646], lit "\square"); ([9632], lit "\square");
  ([8906], lit "\rtimes"); ([8905], lit "\ltimes"); ([8230], lit "\hdots"); ([10215], lit "\left. \right]]");
  ([10214], lit "\left[[ \right."); ([8221], lit """"); ([8220], lit "``") ]%N.
(** Named ones. *)
Definition named_operators : list (string * string) := [
  ("&amp;", "\&"); ("&lt;>", "<>"); ("&lt;", "<"); ("&lt;=", "<="); ("&amp;&amp;", "\&\&"); ("&&", "\&\&") ].
Definition escaped_identifiers : list (N * N) := [
  (172, 172); (177, 177); (215, 215); (247, 247); (603, 603); (915, 916); (920, 920); (923, 923); (926, 926); (928, 928); (931, 931);
  (934, 934); (936, 937); (945, 958); (960, 961); (963, 969); (977, 977); (981, 981); (8469, 8469); (8474, 8474); (8477, 8477);
  (8484, 8484); (8501, 8501); (8660, 8660); (8704, 8704); (8706, 8707); (8711, 8711); (8719, 8719); (8721, 8721); (8727, 8728);
  (8734, 8734); (8736, 8736); (8743, 8747); (8750, 8750); (8756, 8757); (8853, 8853); (8855, 8855); (8857, 8857); (8896, 8902);
  (8904, 8906); (8942, 8942); (8945, 8945); (8994, 8994); (9633, 9633); (9651, 9651) ]%N.
Definition identifiers_otherwise : list (N * string) := [
  (160, "\textrm{ }"); (8658, "=>"); (8450, "CC"); (8709, "\oslash") ]%N.
