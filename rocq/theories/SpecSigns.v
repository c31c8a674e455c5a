(** Arrows that point somewhere, opposite signs, struck signs and signs that vanish, by their Unicode code points (C73).
    No definition refers to a table of the library;
    where the lists come from is in DESIGN.md. *)
From Coq Require Import String.
From Verif Require Export SpecLayout SpecGlyphs.
Local Open Scope string_scope.
Local Open Scope list_scope.

(** The signs of U+2190 - U+2BFF with LEFTWARDS, RIGHTWARDS, UPWARDS or DOWNWARDS in their Unicode name that an mo does not copy, less those
    of [turned]. *)
Inductive direction : Type := Leftwards | Rightwards | Upwards | Downwards.
Definition pointing : list (direction * list N) := [
  (Leftwards, [
    8592; 8606; 8610; 8612; 8617; 8619; 8647; 8653; 8656; 8666; 8668; 8672; 8676; 8678; 8695; 8698; 8701; 10229; 10232;
    10235; 10237; 10498; 10502; 10508; 10510; 10521; 10523; 10525; 10527; 10578; 10582; 10586; 10590; 10594; 10611; 10614;
    11013; 11077 ]%N);
  (Rightwards, [
    8594; 8603; 8608; 8611; 8614; 8618; 8620; 8649; 8655; 8658; 8667; 8669; 8674; 8677; 8680; 8694; 8696; 8699; 8702; 10145;
    10230; 10233; 10238; 10239; 10496; 10497; 10499; 10503; 10509; 10511; 10512; 10513; 10516; 10517; 10518; 10519; 10520;
    10522; 10524; 10526; 10567; 10579; 10583; 10587; 10591; 10596; 10609; 10610; 10612; 10613; 10616; 10617; 11078; 11157 ]%N);
  (Upwards, [
    8593; 8607; 8613; 8648; 8657; 8670; 8673; 8679; 8682; 8683; 8684; 8685; 8686; 8687; 10224; 10505; 10506; 10514; 10580;
    10584; 10588; 10592; 10595; 11014 ]%N);
  (Downwards, [
    8595; 8609; 8615; 8650; 8659; 8671; 8675; 8681; 10225; 10504; 10507; 10515; 10581; 10585; 10589; 10593; 10597; 11015 ]%N) ].
(** Its words in LaTeX. *)
Definition direction_words (d : direction) : list string :=
  match d with Leftwards => ["left"; "Left"] | Rightwards => ["right"; "Right"] | Upwards => ["up"; "Up"] | Downwards => ["down"; "Down"] end.
Definition points (d : direction) (s : str) : Prop := exists w, In w (direction_words d) /\ occurs (lit w) s.
(** Those whose LaTeX does not point there, or not only there. *)
Definition turned : list (direction * N * string) := [
  (Leftwards, 8604, "\nwarrow"); (Rightwards, 8605, "\nearrow"); (Downwards, 8623, "\swarrow");
  (Rightwards, 8688, "\Leftarrow"); (Rightwards, 10236, "\mapsto"); (Rightwards, 10501, "\mapsto");
  (Rightwards, 10528, "\mapsto\cdot"); (Leftwards, 10602, "\underline{\leftharpoonup}");
  (Leftwards, 10603, "\overline{\leftharpoondown}"); (Rightwards, 10604, "\underline{\rightharpoonup}");
  (Rightwards, 10605, "\overline{\rightharpoondown}"); (Leftwards, 10619, "\underset{\rightarrow}{\supset}");
  (Leftwards, 10775, "\int") ]%N.

(** Pairs of opposite signs: their names differ by left and right, up and down, less and greater, subset and superset, precedes and
    succeeds, clockwise and anticlockwise, intersection and union, and and or, north and south; and some more: for all, there exists. *)
Definition opposites : list (N * N) := [
  (40, 41); (43, 8722); (60, 62); (91, 93); (123, 125); (215, 247); (8216, 8217); (8220, 8221); (8317, 8318); (8592, 8594);
  (8593, 8595); (8598, 8601); (8599, 8600); (8602, 8603); (8604, 8605); (8606, 8608); (8607, 8609); (8610, 8611);
  (8612, 8614); (8613, 8615); (8617, 8618); (8619, 8620); (8624, 8625); (8626, 8627); (8630, 8631); (8634, 8635);
  (8636, 8637); (8636, 8640); (8637, 8641); (8638, 8639); (8638, 8642); (8639, 8643); (8640, 8641); (8642, 8643);
  (8644, 8646); (8647, 8649); (8648, 8650); (8651, 8652); (8653, 8655); (8656, 8658); (8657, 8659); (8662, 8665);
  (8663, 8664); (8666, 8667); (8668, 8669); (8670, 8671); (8672, 8674); (8673, 8675); (8676, 8677); (8678, 8680);
  (8679, 8681); (8692, 11056); (8694, 11057); (8695, 8696); (8698, 8699); (8701, 8702); (8704, 8707); (8712, 8715);
  (8719, 8720); (8743, 8744); (8745, 8746); (8804, 8805); (8806, 8807); (8808, 8809); (8810, 8811); (8814, 8815);
  (8816, 8817); (8818, 8819); (8820, 8821); (8822, 8823); (8826, 8827); (8828, 8829); (8830, 8831); (8832, 8833);
  (8834, 8835); (8836, 8837); (8838, 8839); (8840, 8841); (8842, 8843); (8847, 8848); (8849, 8850); (8853, 8854);
  (8866, 8867); (8868, 8869); (8875, 10981); (8880, 8881); (8892, 8893); (8896, 8897); (8898, 8899); (8905, 8906);
  (8907, 8908); (8910, 8911); (8912, 8913); (8914, 8915); (8918, 8919); (8920, 8921); (8922, 8923); (8924, 8925);
  (8926, 8927); (8928, 8929); (8930, 8931); (8932, 8933); (8934, 8935); (8936, 8937); (8968, 8969); (8970, 8971);
  (9001, 9002); (9116, 9119); (9122, 9125); (9516, 9524); (9650, 9660); (9651, 9661); (9652, 9662); (9653, 9663);
  (9654, 9664); (9655, 9665); (9656, 9666); (9657, 9667); (9658, 9668); (9659, 9669); (10098, 10099); (10214, 10215);
  (10216, 10217); (10218, 10219); (10220, 10221); (10222, 10223); (10224, 10225); (10226, 10227); (10229, 10230);
  (10232, 10233); (10235, 10236); (10237, 10238); (10239, 11059); (10496, 11060); (10497, 11061); (10498, 10499);
  (10501, 11062); (10502, 10503); (10504, 10505); (10506, 10507); (10508, 10509); (10510, 10511); (10512, 11063);
  (10513, 11064); (10514, 10515); (10516, 11065); (10517, 11066); (10518, 11067); (10519, 11068); (10520, 11069);
  (10521, 10522); (10523, 10524); (10525, 10526); (10527, 10528); (10547, 11071); (10548, 10549); (10550, 10551);
  (10560, 10561); (10562, 10563); (10567, 11070); (10578, 10579); (10580, 10581); (10582, 10583); (10584, 10585);
  (10586, 10587); (10588, 10589); (10590, 10591); (10592, 10593); (10594, 10596); (10595, 10597); (10602, 10604);
  (10603, 10605); (10609, 11072); (10610, 11081); (10611, 10612); (10613, 11082); (10620, 10621); (10627, 10628);
  (10629, 10630); (10631, 10632); (10633, 10634); (10635, 10636); (10637, 10640); (10641, 10642); (10647, 10648);
  (10712, 10713); (10714, 10715); (10748, 10749); (10757, 10758); (10818, 10819); (10828, 10829); (10833, 10834);
  (10839, 10840); (10844, 10845); (10846, 10850); (10848, 10851); (10877, 10878); (10885, 10886); (10887, 10888);
  (10889, 10890); (10891, 10892); (10893, 10894); (10895, 10896); (10897, 10898); (10905, 10906); (10909, 10910);
  (10911, 10912); (10913, 10914); (10918, 10919); (10922, 10923); (10927, 10928); (10931, 10932); (10933, 10934);
  (10935, 10936); (10937, 10938); (10939, 10940); (10943, 10944); (10945, 10946); (10947, 10948); (10949, 10950);
  (10951, 10952); (10953, 10954); (10955, 10956); (10975, 10976); (11013, 11157); (11014, 11015); (11077, 11078) ]%N.

(** Opposite signs that give the same LaTeX as operators. *)
Definition confused : list (N * N) := [
  (8624, 8626); (8625, 8627); (8754, 8755); (8824, 8825); (8886, 8887); (8944, 8945); (9686, 9687); (10531, 10534);
  (10532, 10533); (10541, 10542); (10570, 10571); (10572, 10573); (10574, 10576); (10575, 10577); (10578, 10582);
  (10579, 10583); (10580, 10584); (10581, 10585); (10586, 10590); (10587, 10591); (10588, 10592); (10589, 10593);
  (10598, 10599); (10598, 10600); (10599, 10601); (10600, 10601); (10638, 10639); (10664, 10665); (10664, 10666);
  (10665, 10667); (10666, 10667); (10668, 10669); (10668, 10670); (10669, 10671); (10670, 10671); (10675, 10676);
  (10688, 10689); (10705, 10706); (10708, 10709); (10777, 10778); (10797, 10798); (10924, 10925) ]%N.

(** Struck signs, with the sign that is struck: those with a canonical decomposition into a sign and U+0338. *)
Definition struck : list (N * N) := [
  (8602, 8592); (8603, 8594); (8622, 8596); (8653, 8656); (8654, 8660); (8655, 8658); (8708, 8707); (8713, 8712);
  (8716, 8715); (8740, 8739); (8742, 8741); (8769, 8764); (8772, 8771); (8775, 8773); (8777, 8776); (8800, 61);
  (8802, 8801); (8813, 8781); (8814, 60); (8815, 62); (8816, 8804); (8817, 8805); (8820, 8818); (8821, 8819); (8824, 8822);
  (8825, 8823); (8832, 8826); (8833, 8827); (8836, 8834); (8837, 8835); (8840, 8838); (8841, 8839); (8876, 8866);
  (8877, 8872); (8878, 8873); (8879, 8875); (8928, 8828); (8929, 8829); (8930, 8849); (8931, 8850); (8938, 8882);
  (8939, 8883); (8940, 8884); (8941, 8885); (10972, 10973) ]%N.

(** LaTeX that strikes something. *)
Definition strikes (s : str) : Prop := (exists s', s = lit "\n" ++ s') \/ occurs (lit "cancel{") s \/ occurs (lit "/") s.

(** Characters that are not white, but of which nothing is left. *)
Definition vanishing_operators : list N := [
  728; 10529; 10530; 10531; 10532; 10533; 10534; 10535; 10536; 10537; 10538; 10541; 10542; 10543; 10544; 10545 ]%N.
Definition vanishing_identifiers : list N := [
  728; 2340; 4936; 12273; 30333; 54528 ]%N.
