(** What the library leaves alone (C70): the characters that are converted at all, as ranges of Unicode code points, and the
    operators of several characters that are converted.  No definition refers to a table of the library;
    where the lists come from is in DESIGN.md. *)
From Coq Require Import String.
From Verif Require Export SpecOperators.
Local Open Scope string_scope.
Local Open Scope list_scope.

Definition among (ranges : list (N * N)) (c : N) : Prop := exists lo hi, In (lo, hi) ranges /\ (lo <= c <= hi)%N.

(** Characters that an mi does not copy. *)
Definition mi_converted : list (N * N) := [
  (35, 38); (92, 92); (124, 124); (162, 163); (165, 165); (171, 172); (177, 179); (181, 181); (183, 185); (187, 190);
  (192, 197); (199, 207); (209, 221); (223, 229); (231, 239); (241, 247); (249, 253); (255, 259); (261, 261); (274, 275);
  (278, 278); (281, 283); (295, 295); (298, 300); (303, 303); (305, 305); (308, 309); (332, 333); (336, 337); (362, 363);
  (368, 369); (374, 382); (400, 400); (402, 402); (414, 414); (417, 417); (461, 470); (472, 472); (474, 474); (476, 476);
  (478, 481); (506, 507); (516, 516); (518, 527); (532, 535); (550, 550); (554, 559); (562, 563); (567, 567); (572, 572);
  (581, 581); (603, 603); (611, 611); (621, 621); (627, 627); (629, 629); (632, 632); (636, 636); (651, 651); (710, 710);
  (728, 728); (755, 755); (894, 894); (913, 917); (920, 923); (925, 926); (928, 929); (931, 931); (933, 937); (945, 961);
  (963, 969); (977, 978); (981, 981); (1009, 1009); (1012, 1013); (1028, 1028); (1035, 1035); (1054, 1055); (1060, 1060);
  (1072, 1072); (1086, 1088); (1092, 1093); (1105, 1106); (1108, 1108); (1115, 1115); (1138, 1139); (1256, 1256); (1270, 1270);
  (1363, 1363); (1417, 1417); (2340, 2340); (2404, 2404); (3430, 3430); (3617, 3617); (3648, 3648); (4936, 4936); (5121, 5121);
  (7745, 7745); (7804, 7805); (7825, 7825); (7871, 7871); (7922, 7923); (7985, 7985); (8161, 8161); (8206, 8206); (8214, 8214);
  (8220, 8221); (8224, 8225); (8230, 8230); (8236, 8236); (8254, 8254); (8304, 8304); (8308, 8313); (8317, 8329); (8345, 8345);
  (8364, 8364); (8450, 8451); (8455, 8455); (8457, 8457); (8459, 8461); (8463, 8466); (8469, 8469); (8472, 8477); (8479, 8479);
  (8484, 8484); (8486, 8488); (8491, 8493); (8496, 8497); (8499, 8499); (8501, 8501); (8504, 8504); (8517, 8517); (8519, 8520);
  (8528, 8542); (8592, 8596); (8603, 8603); (8658, 8658); (8660, 8660); (8704, 8704); (8706, 8707); (8709, 8711); (8718, 8719);
  (8721, 8721); (8727, 8730); (8734, 8734); (8736, 8737); (8739, 8739); (8741, 8741); (8743, 8747); (8750, 8750); (8756, 8757);
  (8776, 8776); (8800, 8800); (8804, 8804); (8853, 8853); (8855, 8855); (8857, 8857); (8868, 8868); (8895, 8902); (8904, 8906);
  (8942, 8942); (8945, 8945); (8968, 8971); (8994, 8994); (9001, 9002); (9068, 9068); (9076, 9077); (9116, 9116); (9125, 9125);
  (9147, 9148); (9312, 9331); (9450, 9450); (9474, 9474); (9524, 9524); (9608, 9608); (9633, 9633); (9643, 9643); (9649, 9649);
  (9651, 9651); (9679, 9679); (9829, 9829); (10003, 10005); (10007, 10007); (10214, 10214); (10216, 10217); (10226, 10227);
  (10547, 10553); (10625, 10625); (10658, 10658); (10664, 10670); (10677, 10677); (10744, 10744); (12273, 12273);
  (12310, 12311); (12539, 12539); (12881, 12895); (12977, 12991); (21313, 21313); (22303, 22303); (30333, 30333);
  (54528, 54528); (119808, 119833); (119860, 119892); (119894, 119911); (119964, 119964); (119966, 119967); (119970, 119970);
  (119973, 119974); (119977, 119980); (119982, 119989); (120013, 120016); (120019, 120019); (120021, 120021); (120027, 120027);
  (120030, 120030); (120064, 120064); (120068, 120069); (120071, 120074); (120077, 120084); (120086, 120092); (120120, 120121);
  (120123, 120126); (120128, 120132); (120134, 120134); (120138, 120144); (120189, 120189); (120224, 120249); (120479, 120479);
  (120488, 120512); (120543, 120543); (120573, 120573); (120575, 120576); (120582, 120582); (120587, 120587); (120593, 120593);
  (120595, 120595); (120601, 120601); (120710, 120710); (120750, 120750); (120782, 120801); (127485, 127485) ]%N.

(** Characters that an mo does not copy. *)
Definition mo_converted : list (N * N) := [
  (35, 38); (40, 42); (91, 95); (123, 126); (163, 163); (165, 166); (168, 168); (170, 172); (175, 179); (183, 190); (192, 197);
  (199, 207); (209, 221); (224, 229); (231, 239); (241, 247); (249, 253); (255, 259); (261, 261); (274, 275); (278, 278);
  (281, 283); (295, 295); (298, 300); (303, 303); (308, 309); (332, 333); (336, 337); (362, 363); (368, 369); (374, 382);
  (414, 414); (461, 470); (472, 472); (474, 474); (476, 476); (478, 481); (506, 507); (516, 516); (518, 527); (532, 535);
  (550, 550); (554, 559); (562, 563); (567, 567); (572, 572); (581, 581); (636, 636); (710, 710); (717, 717); (728, 730);
  (732, 733); (755, 755); (759, 759); (894, 894); (913, 917); (920, 922); (928, 929); (931, 931); (933, 937); (945, 948);
  (950, 957); (959, 961); (963, 969); (978, 978); (981, 981); (1009, 1009); (1013, 1014); (1055, 1055); (1086, 1086);
  (1092, 1092); (1105, 1106); (1138, 1139); (1256, 1256); (1417, 1417); (2404, 2404); (3430, 3430); (3648, 3648); (5121, 5121);
  (7804, 7805); (7825, 7825); (7922, 7923); (7985, 7985); (8161, 8161); (8214, 8214); (8216, 8226); (8230, 8230); (8242, 8247);
  (8254, 8254); (8259, 8260); (8279, 8279); (8291, 8291); (8304, 8304); (8308, 8329); (8345, 8345); (8364, 8364); (8411, 8412);
  (8450, 8451); (8455, 8455); (8457, 8457); (8459, 8461); (8463, 8466); (8469, 8469); (8473, 8477); (8479, 8479); (8484, 8484);
  (8486, 8488); (8491, 8493); (8496, 8497); (8499, 8499); (8517, 8519); (8528, 8542); (8592, 8601); (8603, 8621); (8623, 8644);
  (8646, 8692); (8694, 8767); (8769, 8781); (8784, 8811); (8813, 8883); (8885, 8888); (8890, 8907); (8909, 8959); (8968, 8971);
  (9001, 9002); (9116, 9116); (9125, 9125); (9140, 9141); (9147, 9148); (9180, 9185); (9312, 9331); (9450, 9450); (9474, 9474);
  (9524, 9524); (9608, 9608); (9632, 9633); (9642, 9643); (9645, 9657); (9660, 9673); (9676, 9679); (9686, 9687); (9702, 9702);
  (9723, 9723); (9839, 9839); (10003, 10005); (10007, 10007); (10072, 10072); (10098, 10099); (10145, 10145); (10214, 10227);
  (10229, 10239); (10496, 10564); (10567, 10568); (10570, 10605); (10609, 10614); (10616, 10617); (10619, 10621);
  (10624, 10649); (10651, 10659); (10664, 10681); (10683, 10696); (10698, 10699); (10701, 10701); (10703, 10709);
  (10712, 10713); (10715, 10715); (10719, 10720); (10722, 10727); (10731, 10731); (10738, 10741); (10743, 10750);
  (10752, 10758); (10761, 10761); (10764, 10765); (10767, 10782); (10784, 10790); (10797, 10802); (10806, 10806);
  (10812, 10813); (10815, 10815); (10818, 10819); (10828, 10829); (10833, 10834); (10839, 10840); (10844, 10851);
  (10854, 10855); (10858, 10858); (10861, 10866); (10868, 10870); (10872, 10872); (10877, 10878); (10885, 10898);
  (10905, 10906); (10909, 10919); (10922, 10925); (10927, 10928); (10931, 10940); (10943, 10956); (10971, 10971);
  (10974, 10976); (10983, 10984); (10990, 10990); (10994, 10994); (10998, 10998); (11003, 11005); (11013, 11015);
  (11077, 11078); (11157, 11157); (12310, 12311); (12539, 12539); (12881, 12895); (12977, 12991); (21313, 21313);
  (22303, 22303); (119808, 119833); (119860, 119885); (119964, 119964); (119966, 119967); (119970, 119970); (119973, 119974);
  (119977, 119980); (119982, 119989); (120016, 120016); (120019, 120019); (120021, 120021); (120027, 120027); (120030, 120030);
  (120068, 120069); (120071, 120074); (120077, 120084); (120086, 120092); (120120, 120121); (120123, 120126); (120128, 120132);
  (120134, 120134); (120138, 120144); (120189, 120189); (120224, 120249); (120488, 120512); (120575, 120575); (120601, 120601);
  (120710, 120710); (120750, 120750); (120782, 120801) ]%N.

(** Characters that an mn does not copy. *)
Definition mn_converted : list (N * N) := [
  (178, 179); (185, 185); (188, 190); (8304, 8304); (8308, 8313); (8319, 8329); (8345, 8345); (8528, 8542); (9312, 9331);
  (9450, 9450); (12881, 12895); (12977, 12991) ]%N.

(** Operators of several characters that an mo does not copy, with their LaTeX. *)
Definition joined_operators : list (str * string) := [
  (lit "**", "\star\star"); (lit "|||", "\left|||\right."); (lit "||", "\left||\right."); (lit "/=", "=");
  (lit "...", "\cdots"); (lit "%CE%B1", "\alpha"); (lit "%CE%B2", "\beta"); (lit "%CE%B3", "\gamma"); (lit "%CE%93", "\Gamma");
  (lit "%CE%B4", "\delta"); (lit "%CE%94", "\Delta"); (lit "%CF%B5", "\epsilon"); (lit "%CE%B6", "\zeta");
  (lit "%CE%B7", "\eta"); (lit "%CE%B8", "\theta"); (lit "%CE%98", "\Theta"); (lit "%CE%B9", "\iota");
  (lit "%CE%BA", "\kappa"); (lit "%CE%BB", "\lambda"); (lit "%CE%BC", "\mu"); (lit "%CE%BD", "\nu");
  (lit "%CE%BF", "\omicron"); (lit "%CF%80", "\pi"); (lit "%CE%A0", "\Pi"); (lit "%CF%81", "\pho"); (lit "%CF%83", "\sigma");
  (lit "%CE%A3", "\Sigma"); (lit "%CF%84", "\tau"); (lit "%CF%85", "\upsilon"); (lit "%CE%A5", "\Upsilon");
  (lit "%CF%95", "\phi"); (lit "%CE%A6", "\Phi"); (lit "%CF%87", "\chi"); (lit "%CF%88", "\psi"); (lit "%CE%A8", "\Psi");
  (lit "%CF%89", "\omega"); (lit "%CE%A9", "\Omega"); ([10914; 824], "\cancel{\gg}"); ([10913; 824], "\cancel{\ll}");
  ([10878; 824], "\bcancel{\geq}"); ([10877; 824], "\bcancel{\leq}"); ([10704; 824], "| \not\triangleright");
  ([10703; 824], "\not\triangleleft |"); ([8848; 824], "\not\sqsupset"); ([8847; 824], "\not\sqsubset");
  ([8831; 824], "\not\succsim"); ([8806; 824], "\not\leq"); ([8770; 824], "\neq"); ([8765; 817], "\sim");
  ([10928; 824], "\nsucceq"); ([10927; 824], "\npreceq"); ([8811; 824], "\not\gg"); ([8810; 824], "\not\ll");
  ([8835; 8402], "\supset |"); ([8834; 8402], "\subset |") ]%N.
