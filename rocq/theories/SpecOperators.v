(** Operators, relations, arrows and other signs, by their Unicode code points, with their usual LaTeX names (C56).
    No definition refers to a table of the library;
    where the lists come from is in DESIGN.md. *)
From Coq Require Import String.
From Verif Require Export SpecGlyphs.
Local Open Scope string_scope.
Local Open Scope list_scope.

(** Signs as operators. *)
Definition operator_names : list (N * string) := [
  (163, "\pounds"); (165, "\yen"); (172, "\neg"); (177, "\pm"); (215, "\times"); (247, "\div"); (8224, "\dagger");
  (8225, "\ddagger"); (8230, "\ldots"); (8463, "\hbar"); (8487, "\mho"); (8592, "\leftarrow"); (8593, "\uparrow");
  (8594, "\rightarrow"); (8595, "\downarrow"); (8596, "\leftrightarrow"); (8597, "\updownarrow"); (8598, "\nwarrow");
  (8599, "\nearrow"); (8600, "\searrow"); (8601, "\swarrow"); (8603, "\nrightarrow"); (8606, "\twoheadleftarrow");
  (8608, "\twoheadrightarrow"); (8610, "\leftarrowtail"); (8611, "\rightarrowtail"); (8617, "\hookleftarrow");
  (8618, "\hookrightarrow"); (8619, "\looparrowleft"); (8620, "\looparrowright"); (8621, "\leftrightsquigarrow");
  (8624, "\Lsh"); (8625, "\Rsh"); (8630, "\curvearrowleft"); (8631, "\curvearrowright"); (8634, "\circlearrowleft");
  (8635, "\circlearrowright"); (8636, "\leftharpoonup"); (8637, "\leftharpoondown"); (8638, "\upharpoonright");
  (8639, "\upharpoonleft"); (8640, "\rightharpoonup"); (8641, "\rightharpoondown"); (8642, "\downharpoonright");
  (8643, "\downharpoonleft"); (8644, "\rightleftarrows"); (8646, "\leftrightarrows"); (8647, "\leftleftarrows");
  (8648, "\upuparrows"); (8649, "\rightrightarrows"); (8650, "\downdownarrows"); (8651, "\leftrightharpoons");
  (8652, "\rightleftharpoons"); (8653, "\nLeftarrow"); (8654, "\nLeftrightarrow"); (8655, "\nRightarrow");
  (8656, "\Leftarrow"); (8657, "\Uparrow"); (8658, "\Rightarrow"); (8659, "\Downarrow"); (8660, "\Leftrightarrow");
  (8661, "\Updownarrow"); (8666, "\Lleftarrow"); (8667, "\Rrightarrow"); (8669, "\rightsquigarrow"); (8704, "\forall");
  (8706, "\partial"); (8707, "\exists"); (8708, "\nexists"); (8709, "\emptyset"); (8711, "\nabla"); (8712, "\in");
  (8713, "\notin"); (8715, "\ni"); (8719, "\prod"); (8720, "\coprod"); (8721, "\sum"); (8728, "\circ"); (8730, "\sqrt{}");
  (8733, "\propto"); (8734, "\infty"); (8736, "\angle"); (8737, "\measuredangle"); (8739, "\mid"); (8741, "\parallel");
  (8745, "\cap"); (8746, "\cup"); (8747, "\int"); (8748, "\iint"); (8749, "\iiint"); (8750, "\oint"); (8757, "\because");
  (8771, "\simeq"); (8773, "\cong"); (8775, "\ncong"); (8776, "\approx"); (8781, "\asymp"); (8784, "\doteq");
  (8796, "\triangleq"); (8800, "\neq"); (8801, "\equiv"); (8804, "\leq"); (8805, "\geq"); (8810, "\ll"); (8811, "\gg");
  (8826, "\prec"); (8827, "\succ"); (8830, "\precsim"); (8831, "\succsim"); (8833, "\nsucc"); (8834, "\subset");
  (8835, "\supset"); (8836, "\not\subset"); (8837, "\not\supset"); (8838, "\subseteq"); (8839, "\supseteq");
  (8840, "\nsubseteq"); (8841, "\nsupseteq"); (8842, "\subsetneq"); (8843, "\supsetneq"); (8847, "\sqsubset");
  (8848, "\sqsupset"); (8849, "\sqsubseteq"); (8850, "\sqsupseteq"); (8851, "\sqcap"); (8852, "\sqcup"); (8853, "\oplus");
  (8854, "\ominus"); (8856, "\oslash"); (8862, "\boxplus"); (8863, "\boxminus"); (8864, "\boxtimes"); (8865, "\boxdot");
  (8866, "\vdash"); (8867, "\dashv"); (8868, "\top"); (8869, "\bot"); (8871, "\models"); (8872, "\vDash");
  (8873, "\Vdash"); (8877, "\nvDash"); (8882, "\triangleleft"); (8883, "\triangleright"); (8900, "\diamond");
  (8901, "\cdot"); (8902, "\star"); (8916, "\pitchfork"); (8920, "\lll"); (8921, "\ggg"); (8942, "\vdots");
  (8945, "\ddots"); (8968, "\lceil"); (8969, "\rceil"); (8970, "\lfloor"); (8971, "\rfloor"); (9632, "\blacksquare");
  (9633, "\square"); (9651, "\triangle"); (9655, "\triangleright"); (9661, "\triangledown"); (9665, "\triangleleft");
  (10003, "\checkmark"); (10216, "\langle"); (10217, "\rangle"); (10232, "\Longleftarrow"); (10233, "\Longrightarrow");
  (10234, "\Longleftrightarrow"); (10764, "\iiiint"); (10891, "\lesseqqgtr"); (10892, "\gtreqqless"); (10927, "\preceq");
  (10928, "\succeq"); (10949, "\subseteqq"); (10950, "\supseteqq") ]%N.

(** Signs as identifiers. *)
Definition identifier_names : list (N * string) := [
  (163, "\pounds"); (165, "\yen"); (172, "\neg"); (177, "\pm"); (215, "\times"); (247, "\div"); (305, "\imath");
  (8224, "\dagger"); (8225, "\ddagger"); (8230, "\ldots"); (8463, "\hbar"); (8472, "\wp"); (8487, "\mho");
  (8501, "\aleph"); (8592, "\leftarrow"); (8593, "\uparrow"); (8594, "\rightarrow"); (8595, "\downarrow");
  (8596, "\leftrightarrow"); (8603, "\nrightarrow"); (8658, "\Rightarrow"); (8704, "\forall"); (8706, "\partial");
  (8707, "\exists"); (8709, "\emptyset"); (8711, "\nabla"); (8719, "\prod"); (8721, "\sum"); (8730, "\sqrt{}");
  (8734, "\infty"); (8736, "\angle"); (8739, "\mid"); (8741, "\parallel"); (8743, "\wedge"); (8744, "\vee");
  (8745, "\cap"); (8746, "\cup"); (8747, "\int"); (8750, "\oint"); (8756, "\therefore"); (8757, "\because");
  (8776, "\approx"); (8800, "\neq"); (8804, "\leq"); (8868, "\top"); (8900, "\diamond"); (8901, "\cdot"); (8902, "\star");
  (8904, "\bowtie"); (8905, "\ltimes"); (8906, "\rtimes"); (8942, "\vdots"); (8945, "\ddots"); (8968, "\lceil");
  (8969, "\rceil"); (8970, "\lfloor"); (8971, "\rfloor"); (8994, "\frown"); (9633, "\square"); (9651, "\triangle");
  (9829, "\heartsuit"); (10003, "\checkmark"); (10216, "\langle"); (10217, "\rangle") ]%N.

(** Signs whose operator is another sign, or no sign at all: the usual name, then what comes out. *)
Definition wrong_operators : list (N * string * string) := [
  (567, "\jmath", "\mathsf{J}"); (8226, "\bullet", "\cdot"); (8605, "\rightsquigarrow", "\nearrow");
  (8614, "\mapsto", "\rightarrowtail"); (8705, "\complement", "C"); (8723, "\mp", "+-"); (8729, "\bullet", "\cdot");
  (8738, "\sphericalangle", "\measuredangle"); (8764, "\sim", "sim"); (8765, "\backsim", "\sim"); (8770, "\eqsim", "=");
  (8778, "\approxeq", "\approx"); (8785, "\doteqdot", "\doteq"); (8786, "\fallingdotseq", "\doteq");
  (8787, "\risingdotseq", "\doteq"); (8790, "\eqcirc", "="); (8791, "\circeq", "\doteq"); (8802, "\not\equiv", "\equiv /");
  (8806, "\leqq", "\leq"); (8807, "\geqq", "\geg"); (8808, "\lneqq", "\nleqslant"); (8809, "\gneqq", "\ngeqslant");
  (8814, "\nless", "</"); (8815, "\ngtr", ">/"); (8816, "\nleq", "\leq/"); (8817, "\ngeq", "\geq/");
  (8818, "\lesssim", "\leq"); (8819, "\gtrsim", "\geg"); (8828, "\preccurlyeq", "\preceq");
  (8829, "\succcurlyeq", "\succeq"); (8832, "\nprec", "\preceq"); (8846, "\uplus", "\cup");
  (8855, "\otimes", "\bigotimes"); (8857, "\odot", "\bigodot"); (8858, "\circledcirc", "\odot");
  (8859, "\circledast", "\odot"); (8861, "\circleddash", "\ominus"); (8876, "\nvdash", "\nvDash");
  (8879, "\nVDash", "\cancel{\vDash}"); (8885, "\trianglerighteq", "\triangleright"); (8888, "\multimap", "\rightarrow");
  (8890, "\intercal", "\top"); (8896, "\bigwedge", "\wedge"); (8897, "\bigvee", "\vee"); (8898, "\bigcap", "\cap");
  (8899, "\bigcup", "\cup"); (8903, "\divideontimes", "\ast"); (8905, "\ltimes", "\rtimes"); (8906, "\rtimes", "\ltimes");
  (8907, "\leftthreetimes", "\bowtie"); (8909, "\backsimeq", "\simeq"); (8910, "\curlyvee", "\vee");
  (8911, "\curlywedge", "\wedge"); (8912, "\Subset", "\subset"); (8913, "\Supset", "\supset"); (8914, "\Cap", "\cap");
  (8915, "\Cup", "\cup"); (8918, "\lessdot", "<*"); (8919, "\gtrdot", "*>"); (8922, "\lesseqgtr", "\underset{<}{\geq}");
  (8923, "\gtreqless", "\underset{>}{\leq}"); (8926, "\curlyeqprec", "\prec"); (8927, "\curlyeqsucc", "\succ");
  (8936, "\precnsim", "\underset{\sim}{\prec}"); (8937, "\succnsim", "\underset{\sim}{\succ}");
  (8940, "\ntrianglelefteq", "\not\triangleleft"); (8941, "\ntrianglerighteq", "\not\triangleright");
  (9650, "\blacktriangle", "\bigtriangleup"); (9654, "\blacktriangleright", "\triangleright");
  (9660, "\blacktriangledown", "\triangledown"); (9664, "\blacktriangleleft", "\triangleleft"); (9839, "\sharp", "\#");
  (10229, "\longleftarrow", "\leftarrow"); (10230, "\longrightarrow", "\rightarrow");
  (10231, "\longleftrightarrow", "\leftrightarrow"); (10236, "\longmapsto", "\mapsto");
  (10731, "\blacklozenge", "\lozenge"); (10752, "\bigodot", "\odot"); (10753, "\bigoplus", "\oplus");
  (10754, "\bigotimes", "\otimes"); (10756, "\biguplus", "\uplus"); (10758, "\bigsqcup", "\sqcup");
  (10815, "\amalg", "\coprod"); (10877, "\leqslant", "\leq"); (10878, "\geqslant", "\geq"); (10887, "\lneq", "\nleqslant");
  (10888, "\gneq", "\ngeqslant"); (10889, "\lnapprox", "\underset{\approx}{<}") ]%N.

(** The same as identifiers. *)
Definition wrong_identifiers : list (N * string * string) := [
  (567, "\jmath", "\mathsf{J}"); (8504, "\daleth", "\wp"); (8727, "\ast", "\star"); (8728, "\circ", "@");
  (8729, "\bullet", "\cdot"); (8737, "\measuredangle", "\angle"); (8853, "\oplus", "o+"); (8855, "\otimes", "\bigoplus");
  (8857, "\odot", "\bigodot"); (8896, "\bigwedge", "\wedge"); (8897, "\bigvee", "\vee"); (8898, "\bigcap", "\cap");
  (8899, "\bigcup", "\cup") ]%N.

(** Signs whose operator is written in another way than by the usual name. *)
Definition near_operators : list (N * string * string) := [
  (8242, "\prime", "'"); (8465, "\Im", "\mathfrak{I}"); (8476, "\Re", "\mathfrak{R}"); (8710, "\triangle", "\Delta");
  (8724, "\dotplus", "\dot{+}"); (8726, "\setminus", "\backslash"); (8727, "\ast", "*"); (8740, "\nmid", "\not|");
  (8742, "\nparallel", "\not\parallel"); (8743, "\wedge", "\land"); (8744, "\vee", "\lor");
  (8756, "\therefore", "\therefore "); (8769, "\nsim", "\not\sim"); (8822, "\lessgtr", "\overset{<}{>}");
  (8823, "\gtrless", "\overset{>}{<}"); (8874, "\Vvdash", "|\models"); (8878, "\nVdash", "\cancel{\Vdash}");
  (8891, "\veebar", "\underline{\lor}"); (8904, "\bowtie", "\Join"); (8934, "\lnsim", "\underset{\not\sim}{<}");
  (8935, "\gnsim", "\underset{\not\sim}{>}"); (8938, "\ntriangleleft", "\not\triangleleft");
  (8939, "\ntriangleright", "\not\triangleright"); (8943, "\cdots", "\hdots");
  (10885, "\lessapprox", "\underset{\approx}{<}"); (10886, "\gtrapprox", "\underset{\approx}{>}");
  (10890, "\gnapprox", "\underset{\cancel{\approx}}{>}"); (10933, "\precneqq", "\underset{\cancel{=}}{\prec}");
  (10934, "\succneqq", "\underset{\cancel{=}}{\succ}"); (10935, "\precapprox", "\underset{\approx}{\prec}");
  (10936, "\succapprox", "\underset{\approx}{\succ}"); (10937, "\precnapprox", "\underset{\cancel{\approx}}{\prec}");
  (10938, "\succnapprox", "\underset{\cancel{\approx}}{\succ}"); (10955, "\subsetneqq", "\underset{\neq}{\subset}");
  (10956, "\supsetneqq", "\underset{\neq}{\supset}") ]%N.

(** Signs with a usual name that an mo copies, and that an mi copies. *)
Definition copied_operators : list (N * string) := [
  (167, "\S"); (169, "\copyright"); (174, "\circledR"); (182, "\P"); (240, "\eth"); (305, "\imath"); (8467, "\ell");
  (8472, "\wp"); (8498, "\Finv"); (8501, "\aleph"); (8502, "\beth"); (8503, "\gimel"); (8504, "\daleth"); (8513, "\Game");
  (8602, "\nleftarrow"); (8622, "\nleftrightarrow"); (8768, "\wr"); (8782, "\Bumpeq"); (8783, "\bumpeq");
  (8812, "\between"); (8884, "\trianglelefteq"); (8908, "\rightthreetimes"); (8994, "\frown"); (8995, "\smile");
  (9674, "\lozenge"); (9711, "\bigcirc"); (9733, "\bigstar"); (9824, "\spadesuit"); (9827, "\clubsuit");
  (9829, "\heartsuit"); (9830, "\diamondsuit"); (9837, "\flat"); (9838, "\natural"); (10016, "\maltese");
  (10901, "\eqslantless"); (10902, "\eqslantgtr") ]%N.
Definition copied_identifiers : list (N * string) := [
  (167, "\S"); (169, "\copyright"); (174, "\circledR"); (182, "\P"); (240, "\eth"); (8467, "\ell"); (8498, "\Finv");
  (8502, "\beth"); (8503, "\gimel"); (8513, "\Game"); (8705, "\complement"); (8869, "\bot"); (9674, "\lozenge");
  (9733, "\bigstar"); (9824, "\spadesuit"); (9827, "\clubsuit"); (9830, "\diamondsuit"); (9837, "\flat");
  (9838, "\natural"); (9839, "\sharp") ]%N.
