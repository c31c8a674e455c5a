(** What each character gives, as an operator, an identifier or a number, by the LaTeX that comes out (C77).  Characters by code point.
    These catalogues were generated from syntax.py, so they say what the library does and not what it should do; the lists of the other Spec
    files say which of it is right.  What the proof adds to the tables is the order of lookups, empty entries, fallbacks, and
    that no other character is touched. *)
From Coq Require Import String.
From Verif Require Export SpecGlyphs.
Local Open Scope string_scope.
Local Open Scope list_scope.

(** 617 characters that give the same as operator and as identifier. *)
Definition shared_characters : list (string * list N) := [
  ("\#", [35]%N); ("\$", [36]%N); ("\%", [37]%N); ("\&", [38]%N); ("\backslash", [92]%N); ("\pounds", [163]%N); ("\yen", [165]%N);
  ("\ll", [171]%N); ("\neg", [172]%N); ("\pm", [177; 22303]%N); ("\cdot", [183; 755; 8729; 8901; 10625; 12539]%N); (",", [184]%N);
  ("\gg", [187]%N); ("\dfrac{1}{4}", [188]%N); ("\dfrac{1}{2}", [189]%N); ("\dfrac{3}{4}", [190]%N); ("\grave{A}", [192]%N);
  ("\acute{A}", [193]%N); ("\hat{A}", [194]%N); ("\tilde{A}", [195]%N); ("\ddot{A}", [196; 478]%N); ("\mathring{A}", [197; 506; 8491]%N);
  ("\dot{C}", [199]%N); ("\grave{E}", [200; 516]%N); ("\acute{E}", [201]%N); ("\hat{E}", [202]%N); ("\ddot{E}", [203; 518]%N);
  ("\grave{I}", [204; 520]%N); ("\acute{I}", [205]%N); ("\hat{I}", [206]%N); ("\ddot{I}", [207; 522]%N); ("\tilde{N}", [209]%N);
  ("\grave{O}", [210; 524]%N); ("\acute{O}", [211]%N); ("\hat{O}", [212]%N); ("\tilde{O}", [213]%N); ("\ddot{O}", [214; 336; 526; 556]%N);
  ("\times", [215; 10005; 10007]%N); ("\emptyset", [216; 8709]%N); ("\grave{U}", [217; 532]%N); ("\acute{U}", [218]%N);
  ("\hat{U}", [219]%N); ("\ddot{U}", [220; 368; 469; 534]%N); ("\acute{Y}", [221]%N); ("\grave{a}", [224]%N); ("\acute{a}", [225]%N);
  ("\hat{a}", [226; 479]%N); ("\tilde{a}", [227]%N); ("\ddot{a}", [228]%N); ("\mathring{a}", [229]%N); ("\dot{c}", [231]%N);
  ("\grave{e}", [232]%N); ("\acute{e}", [233]%N); ("\hat{e}", [234]%N); ("\ddot{e}", [235; 1105]%N); ("\grave{i}", [236; 521]%N);
  ("\acute{i}", [237]%N); ("\hat{i}", [238; 519]%N); ("\ddot{i}", [239; 523]%N); ("\tilde{n}", [241]%N); ("\grave{o}", [242; 525]%N);
  ("\acute{o}", [243]%N); ("\hat{o}", [244]%N); ("\tilde{o}", [245]%N); ("\ddot{o}", [246; 337; 527; 557]%N); ("\div", [247]%N);
  ("\grave{u}", [249; 533]%N); ("\acute{u}", [250]%N); ("\hat{u}", [251]%N); ("\ddot{u}", [252; 369; 470; 472; 474; 476; 535]%N);
  ("\acute{y}", [253]%N); ("\ddot{y}", [255]%N); ("\bar{A}", [256; 480]%N); ("\bar{a}", [257; 481]%N); ("\breve{A}", [258]%N);
  ("\breve{a}", [259]%N); ("\dot{a}", [261; 507]%N); ("\bar{E}", [274]%N); ("\bar{e}", [275]%N); ("\dot{E}", [278]%N);
  ("\dot{e}", [281]%N); ("\check{E}", [282]%N); ("\check{e}", [283]%N); ("\hbar", [295; 1106; 8463]%N); ("\bar{I}", [298]%N);
  ("\bar{i}", [299]%N); ("\breve{I}", [300]%N); ("\dot{i}", [303]%N); ("\hat{J}", [308]%N); ("\hat{j}", [309]%N); ("\bar{O}", [332]%N);
  ("\bar{o}", [333]%N); ("\bar{U}", [362]%N); ("\bar{u}", [363; 8161]%N); ("\hat{Y}", [374]%N); ("\hat{y}", [375]%N);
  ("\ddot{Y}", [376]%N); ("\acute{Z}", [377]%N); ("\acute{z}", [378]%N); ("\hat{Z}", [379]%N); ("\hat{z}", [380; 7825]%N);
  ("\check{Z}", [381]%N); ("\check{z}", [382]%N); ("\eta", [414; 951]%N); ("\check{A}", [461]%N); ("\check{a}", [462]%N);
  ("\check{I}", [463]%N); ("\check{i}", [464]%N); ("\check{O}", [465]%N); ("\check{o}", [466]%N); ("\check{U}", [467]%N);
  ("\check{u}", [468]%N); ("\dot{A}", [550]%N); ("\breve{O}", [554]%N); ("\breve{o}", [555]%N); ("\dot{O}", [558]%N);
  ("\dot{o}", [559]%N); ("\bar{Y}", [562]%N); ("\bar{y}", [563]%N); ("\mathsf{J}", [567; 120233]%N); ("c", [572]%N); ("\Lambda", [581]%N);
  ("r", [636]%N); (" ", [728]%N); (";", [894]%N); ("\mathsf{A}", [913; 120224]%N); ("\mathsf{B}", [914; 120225]%N); ("\Gamma", [915]%N);
  ("\Delta", [916; 8710]%N); ("\mathbf{E}", [917; 119812]%N); ("\Theta", [920]%N); ("\mathit{I}", [921; 119868]%N);
  ("\mathsf{K}", [922; 120234]%N); ("\Pi", [928]%N); ("P", [929]%N); ("\Sigma", [931]%N); ("\Phi", [934]%N);
  ("\mathsf{X}", [935; 120247]%N); ("\Psi", [936]%N); ("\Omega", [937; 8486]%N); ("\alpha", [945]%N); ("\beta", [946]%N);
  ("\gamma", [947]%N); ("\delta", [948; 120575]%N); ("\zeta", [950]%N); ("\theta", [952; 1138; 1139; 1256]%N); ("\iota", [953]%N);
  ("\kappa", [954]%N); ("\lambda", [955]%N); ("\mu", [956]%N); ("\nu", [957]%N); ("\pi", [960]%N); ("\rho", [961]%N); ("\sigma", [963]%N);
  ("\tau", [964]%N); ("\upsilon", [965]%N); ("\varphi", [966]%N); ("\chi", [967]%N); ("\psi", [968]%N); ("\omega", [969]%N);
  ("\Upsilon", [978]%N); ("\phi", [981; 1092; 120601]%N); ("\varrho", [1009]%N); ("\epsilon", [1013; 120750]%N);
  ("\prod", [1055; 8719]%N); ("o", [1086]%N); (":", [1417]%N); ("\mid", [2404; 8739; 9116; 9125; 9474]%N); ("\circ", [3430]%N);
  ("\prime", [3648]%N); ("\nabla", [5121; 8711]%N); ("\tilde{V}", [7804]%N); ("\tilde{v}", [7805]%N); ("\grave{Y}", [7922]%N);
  ("\grave{y}", [7923]%N); ("i", [7985]%N); ("\parallel", [8214; 8741]%N); ("\text{``}", [8220]%N); ("\dagger", [8224]%N);
  ("\ddagger", [8225]%N); ("\ldots", [8230]%N); ("\overline", [8254]%N); ("^{0}", [8304]%N); ("^{4}", [8308]%N); ("^{5}", [8309]%N);
  ("^{6}", [8310]%N); ("^{7}", [8311]%N); ("^{8}", [8312]%N); ("^{9}", [8313]%N); ("^{(}", [8317]%N); ("^{)}", [8318]%N);
  ("^{n}", [8319]%N); ("_{0}", [8320]%N); ("_{1}", [8321]%N); ("_{2}", [8322]%N); ("_{3}", [8323]%N); ("_{4}", [8324]%N);
  ("_{5}", [8325]%N); ("_{6}", [8326]%N); ("_{7}", [8327]%N); ("_{8}", [8328]%N); ("_{9}", [8329]%N); ("_{n}", [8345]%N);
  ("\euro", [8364]%N); ("\mathbb{C}", [8450]%N); ("\text{\textdegree C}", [8451]%N); ("\varepsilon", [8455]%N);
  ("\text{\textdegree F}", [8457]%N); ("\mathcal{H}", [8459]%N); ("\mathfrak{H}", [8460]%N); ("\mathbb{H}", [8461]%N);
  ("\mathcal{I}", [8464]%N); ("\mathfrak{I}", [8465]%N); ("\mathcal{L}", [8466; 120027]%N); ("\mathbb{N}", [8469]%N);
  ("\mathbb{P}", [8473]%N); ("\mathbb{Q}", [8474]%N); ("\mathcal{R}", [8475; 8479; 120189]%N); ("\mathfrak{R}", [8476]%N);
  ("\mathbb{R}", [8477]%N); ("\mathbb{Z}", [8484]%N); ("\mho", [8487]%N); ("\mathfrak{Z}", [8488]%N); ("\mathcal{B}", [8492]%N);
  ("\mathfrak{C}", [8493]%N); ("\mathcal{E}", [8496]%N); ("\mathcal{F}", [8497; 120021]%N); ("\mathcal{M}", [8499]%N);
  ("\text{e}", [8519]%N); ("\dfrac{1}{7}", [8528]%N); ("\dfrac{1}{9}", [8529]%N); ("\dfrac{1}{10}", [8530]%N); ("\dfrac{1}{3}", [8531]%N);
  ("\dfrac{2}{3}", [8532]%N); ("\dfrac{1}{5}", [8533]%N); ("\dfrac{2}{5}", [8534]%N); ("\dfrac{3}{5}", [8535]%N);
  ("\dfrac{4}{5}", [8536]%N); ("\dfrac{1}{6}", [8537]%N); ("\dfrac{5}{6}", [8538]%N); ("\dfrac{1}{8}", [8539]%N);
  ("\dfrac{3}{8}", [8540]%N); ("\dfrac{5}{8}", [8541]%N); ("\dfrac{7}{8}", [8542]%N); ("\leftarrow", [8592]%N);
  ("\uparrow", [8593; 10548]%N); ("\rightarrow", [8594; 10547]%N); ("\downarrow", [8595; 10549; 10552; 10553]%N);
  ("\leftrightarrow", [8596]%N); ("\nrightarrow", [8603]%N); ("\Rightarrow", [8658]%N); ("\forall", [8704]%N); ("\partial", [8706]%N);
  ("\exists", [8707]%N); ("\sum", [8721]%N); ("\sqrt{}", [8730]%N); ("\infty", [8734]%N); ("\angle", [8736]%N); ("\cap", [8745; 8898]%N);
  ("\cup", [8746; 8899]%N); ("\int", [8747]%N); ("\oint", [8750]%N); ("\because", [8757]%N); ("\approx", [8776]%N); ("\neq", [8800]%N);
  ("\leq", [8804]%N); ("\bigodot", [8857]%N); ("\top", [8868]%N); ("\wedge", [8896]%N); ("\vee", [8897]%N); ("\diamond", [8900]%N);
  ("\star", [8902]%N); ("\vdots", [8942]%N); ("\ddots", [8945]%N); ("\lceil", [8968]%N); ("\rceil", [8969]%N); ("\lfloor", [8970]%N);
  ("\rfloor", [8971]%N); ("\langle", [9001; 10216; 12310]%N); ("\rangle", [9002; 10217]%N); ("-", [9148]%N);
  ("\textcircled{1}", [9312]%N); ("\textcircled{2}", [9313]%N); ("\textcircled{3}", [9314]%N); ("\textcircled{4}", [9315]%N);
  ("\textcircled{5}", [9316]%N); ("\textcircled{6}", [9317]%N); ("\textcircled{7}", [9318]%N); ("\textcircled{8}", [9319]%N);
  ("\textcircled{9}", [9320]%N); ("\textcircled{10}", [9321]%N); ("\textcircled{11}", [9322]%N); ("\textcircled{12}", [9323]%N);
  ("\textcircled{13}", [9324]%N); ("\textcircled{14}", [9325]%N); ("\textcircled{15}", [9326]%N); ("\textcircled{16}", [9327]%N);
  ("\textcircled{17}", [9328]%N); ("\textcircled{18}", [9329]%N); ("\textcircled{19}", [9330]%N); ("\textcircled{20}", [9331]%N);
  ("\textcircled{0}", [9450]%N); ("\perp", [9524]%N); ("\blacksquare", [9608]%N); ("\square", [9633; 9643; 9649]%N);
  ("\triangle", [9651]%N); ("\circle", [9679]%N); ("\checkmark", [10003; 10004]%N); ("\circlearrowleft", [10226]%N);
  ("\circlearrowright", [10227]%N); ("\Lsh", [10550]%N); ("\Rsh", [10551]%N);
  ("\measuredangle", [10658; 10665; 10666; 10667; 10668; 10669; 10670]%N); ("\ominus", [10677]%N); ("/", [10744]%N);
  ("\textcircled{21}", [12881]%N); ("\textcircled{22}", [12882]%N); ("\textcircled{23}", [12883]%N); ("\textcircled{24}", [12884]%N);
  ("\textcircled{25}", [12885]%N); ("\textcircled{26}", [12886]%N); ("\textcircled{27}", [12887]%N); ("\textcircled{28}", [12888]%N);
  ("\textcircled{29}", [12889]%N); ("\textcircled{30}", [12890]%N); ("\textcircled{31}", [12891]%N); ("\textcircled{32}", [12892]%N);
  ("\textcircled{33}", [12893]%N); ("\textcircled{34}", [12894]%N); ("\textcircled{35}", [12895]%N); ("\textcircled{36}", [12977]%N);
  ("\textcircled{37}", [12978]%N); ("\textcircled{38}", [12979]%N); ("\textcircled{39}", [12980]%N); ("\textcircled{40}", [12981]%N);
  ("\textcircled{41}", [12982]%N); ("\textcircled{42}", [12983]%N); ("\textcircled{43}", [12984]%N); ("\textcircled{44}", [12985]%N);
  ("\textcircled{45}", [12986]%N); ("\textcircled{46}", [12987]%N); ("\textcircled{47}", [12988]%N); ("\textcircled{48}", [12989]%N);
  ("\textcircled{49}", [12990]%N); ("\textcircled{50}", [12991]%N); ("+", [21313]%N); ("\mathbf{A}", [119808]%N);
  ("\mathbf{B}", [119809]%N); ("\mathbf{C}", [119810]%N); ("\mathbf{D}", [119811]%N); ("\mathbf{F}", [119813]%N);
  ("\mathbf{G}", [119814]%N); ("\mathbf{H}", [119815]%N); ("\mathbf{I}", [119816]%N); ("\mathbf{J}", [119817]%N);
  ("\mathbf{K}", [119818]%N); ("\mathbf{L}", [119819]%N); ("\mathbf{M}", [119820]%N); ("\mathbf{N}", [119821]%N);
  ("\mathbf{O}", [119822]%N); ("\mathbf{P}", [119823]%N); ("\mathbf{Q}", [119824]%N); ("\mathbf{R}", [119825]%N);
  ("\mathbf{S}", [119826]%N); ("\mathbf{T}", [119827]%N); ("\mathbf{U}", [119828]%N); ("\mathbf{V}", [119829]%N);
  ("\mathbf{W}", [119830]%N); ("\mathbf{X}", [119831; 120710]%N); ("\mathbf{Y}", [119832]%N); ("\mathbf{Z}", [119833]%N);
  ("\mathit{A}", [119860]%N); ("\mathit{B}", [119861]%N); ("\mathit{C}", [119862]%N); ("\mathit{D}", [119863]%N);
  ("\mathit{E}", [119864]%N); ("\mathit{F}", [119865]%N); ("\mathit{G}", [119866]%N); ("\mathit{H}", [119867]%N);
  ("\mathit{J}", [119869]%N); ("\mathit{K}", [119870]%N); ("\mathit{L}", [119871]%N); ("\mathit{M}", [119872]%N);
  ("\mathit{N}", [119873]%N); ("\mathit{O}", [119874]%N); ("\mathit{P}", [119875]%N); ("\mathit{Q}", [119876]%N);
  ("\mathit{R}", [119877]%N); ("\mathit{S}", [119878]%N); ("\mathit{T}", [119879]%N); ("\mathit{U}", [119880]%N);
  ("\mathit{V}", [119881]%N); ("\mathit{W}", [119882]%N); ("\mathit{X}", [119883]%N); ("\mathit{Y}", [119884]%N);
  ("\mathit{Z}", [119885]%N); ("\mathcal{A}", [119964; 120016]%N); ("\mathcal{C}", [119966]%N); ("\mathcal{D}", [119967; 120019]%N);
  ("\mathcal{G}", [119970]%N); ("\mathcal{J}", [119973]%N); ("\mathcal{K}", [119974]%N); ("\mathcal{N}", [119977]%N);
  ("\mathcal{O}", [119978; 120030]%N); ("\mathcal{P}", [119979]%N); ("\mathcal{Q}", [119980]%N); ("\mathcal{S}", [119982]%N);
  ("\mathcal{T}", [119983]%N); ("\mathcal{U}", [119984]%N); ("\mathcal{V}", [119985]%N); ("\mathcal{W}", [119986]%N);
  ("\mathcal{X}", [119987]%N); ("\mathcal{Y}", [119988]%N); ("\mathcal{Z}", [119989]%N); ("\mathfrak{A}", [120068]%N);
  ("\mathfrak{B}", [120069]%N); ("\mathfrak{D}", [120071]%N); ("\mathfrak{E}", [120072]%N); ("\mathfrak{F}", [120073]%N);
  ("\mathfrak{G}", [120074]%N); ("\mathfrak{J}", [120077]%N); ("\mathfrak{K}", [120078]%N); ("\mathfrak{L}", [120079]%N);
  ("\mathfrak{M}", [120080]%N); ("\mathfrak{N}", [120081]%N); ("\mathfrak{O}", [120082]%N); ("\mathfrak{P}", [120083]%N);
  ("\mathfrak{Q}", [120084]%N); ("\mathfrak{S}", [120086]%N); ("\mathfrak{T}", [120087]%N); ("\mathfrak{U}", [120088]%N);
  ("\mathfrak{V}", [120089]%N); ("\mathfrak{W}", [120090]%N); ("\mathfrak{X}", [120091]%N); ("\mathfrak{Y}", [120092]%N);
  ("\mathbb{A}", [120120]%N); ("\mathbb{B}", [120121]%N); ("\mathbb{D}", [120123]%N); ("\mathbb{E}", [120124]%N);
  ("\mathbb{F}", [120125]%N); ("\mathbb{G}", [120126]%N); ("\mathbb{I}", [120128]%N); ("\mathbb{J}", [120129]%N);
  ("\mathbb{K}", [120130]%N); ("\mathbb{L}", [120131]%N); ("\mathbb{M}", [120132]%N); ("\mathbb{O}", [120134]%N);
  ("\mathbb{S}", [120138]%N); ("\mathbb{T}", [120139]%N); ("\mathbb{U}", [120140]%N); ("\mathbb{V}", [120141]%N);
  ("\mathbb{W}", [120142]%N); ("\mathbb{X}", [120143]%N); ("\mathbb{Y}", [120144]%N); ("\mathsf{C}", [120226]%N);
  ("\mathsf{D}", [120227]%N); ("\mathsf{E}", [120228]%N); ("\mathsf{F}", [120229]%N); ("\mathsf{G}", [120230]%N);
  ("\mathsf{H}", [120231]%N); ("\mathsf{I}", [120232]%N); ("\mathsf{L}", [120235]%N); ("\mathsf{M}", [120236]%N);
  ("\mathsf{N}", [120237]%N); ("\mathsf{O}", [120238]%N); ("\mathsf{P}", [120239]%N); ("\mathsf{Q}", [120240]%N);
  ("\mathsf{R}", [120241]%N); ("\mathsf{S}", [120242]%N); ("\mathsf{T}", [120243]%N); ("\mathsf{U}", [120244]%N);
  ("\mathsf{V}", [120245]%N); ("\mathsf{W}", [120246]%N); ("\mathsf{Y}", [120248]%N); ("\mathsf{Z}", [120249]%N);
  ("\mathtt{A}", [120488]%N); ("\mathtt{B}", [120489]%N); ("\mathtt{\Gamma}", [120490]%N); ("\mathtt{\Delta}", [120491]%N);
  ("\mathtt{E}", [120492]%N); ("\mathtt{F}", [120493]%N); ("\mathtt{G}", [120494]%N); ("\mathtt{\Theta}", [120495]%N);
  ("\mathtt{I}", [120496]%N); ("\mathtt{J}", [120497]%N); ("\mathtt{\Lambda}", [120498]%N); ("\mathtt{L}", [120499]%N);
  ("\mathtt{M}", [120500]%N); ("\mathtt{O}", [120502]%N); ("\mathtt{\Pi}", [120503]%N); ("\mathtt{Q}", [120504]%N);
  ("\mathtt{R}", [120505]%N); ("\mathtt{S}", [120506]%N); ("\mathtt{T}", [120507]%N); ("\mathtt{U}", [120508]%N);
  ("\mathtt{\Phi}", [120509]%N); ("\mathtt{W}", [120510]%N); ("\mathtt{\Psi}", [120511]%N); ("\mathtt{\Omega}", [120512]%N);
  ("\mathbf{0}", [120782]%N); ("\mathbf{1}", [120783]%N); ("\mathbf{2}", [120784]%N); ("\mathbf{3}", [120785]%N);
  ("\mathbf{4}", [120786]%N); ("\mathbf{5}", [120787]%N); ("\mathbf{6}", [120788]%N); ("\mathbf{7}", [120789]%N);
  ("\mathbf{8}", [120790]%N); ("\mathbf{9}", [120791]%N); ("\mathbb{0}", [120792]%N); ("\mathbb{1}", [120793]%N);
  ("\mathbb{2}", [120794]%N); ("\mathbb{3}", [120795]%N); ("\mathbb{4}", [120796]%N); ("\mathbb{5}", [120797]%N);
  ("\mathbb{6}", [120798]%N); ("\mathbb{7}", [120799]%N); ("\mathbb{8}", [120800]%N); ("\mathbb{9}", [120801]%N)].
(** 793 characters as operators; as identifiers they give something else or are copied. *)
Definition operator_characters : list (string * list N) := [
  ("\left(\right.", [40; 10098]%N); ("\left.\right)", [41; 10099]%N); ("\star", [42]%N); ("\left[\right.", [91]%N);
  ("\left]\right.", [93]%N); ("\hat", [94; 710]%N); ("\underline", [95]%N); ("\left{\right.", [123]%N); ("\left|\right.", [124]%N);
  ("\left.\right}", [125]%N); ("\sim", [126; 732; 733; 759; 8763; 8765; 8767]%N); ("\mid", [166; 10072]%N); ("\cdot\cdot", [168]%N);
  ("a", [170]%N); ("\bar", [175]%N); ("\circ", [176; 730; 8728]%N); ("2", [178]%N); ("3", [179]%N); ("1", [185]%N); ("o", [186]%N);
  ("\_", [717]%N); ("\cdot", [729; 8226]%N); ("\Upsilon", [933]%N); ("\omicron", [959]%N); ("\ni", [1014; 8715; 8717]%N);
  ("`", [8216; 8219; 8245]%N); ("'", [8217; 8242]%N); (",", [8218]%N); ("\""", [8221]%N); (",,", [8222]%N); ("``", [8223; 8246]%N);
  ("''", [8243]%N); ("'''", [8244]%N); ("```", [8247]%N); ("-", [8259; 8722; 9147]%N); ("/", [8260; 8725]%N); ("''''", [8279]%N);
  ("\llbracket", [8291]%N); ("^{+}", [8314]%N); ("^{-}", [8315]%N); ("^{=}", [8316]%N);
  ("\square", [8411; 8412; 8718; 9642; 9645; 9647; 10720]%N); ("\mathbb{D}", [8517]%N); ("d", [8518]%N);
  ("\updownarrow", [8597; 10572; 10573; 10575; 10577]%N); ("\nwarrow", [8598; 8604; 8662; 8689]%N); ("\nearrow", [8599; 8605; 8663]%N);
  ("\searrow", [8600; 8628; 8664; 8690]%N); ("\swarrow", [8601; 8623; 8629; 8665]%N); ("\twoheadleftarrow", [8606]%N);
  ("\uparrow", [8607; 8613; 8670; 8673; 10505; 10514; 10580; 10584; 10588; 10592; 11014]%N); ("\twoheadrightarrow", [8608]%N);
  ("\downarrow", [8609; 8615; 8671; 8675; 10504; 10515; 10581; 10585; 10589; 10593; 11015]%N); ("\leftarrowtail", [8610; 8612]%N);
  ("\rightarrowtail", [8611; 8614]%N); ("\underline{\updownarrow}", [8616]%N); ("\hookleftarrow", [8617]%N);
  ("\hookrightarrow", [8618]%N); ("\looparrowleft", [8619]%N); ("\looparrowright", [8620]%N); ("\leftrightsquigarrow", [8621]%N);
  ("\Lsh", [8624; 8626]%N); ("\Rsh", [8625; 8627]%N); ("\curvearrowleft", [8630]%N); ("\curvearrowright", [8631]%N);
  ("\overline{\nwarrow}", [8632]%N); ("\leftrightarrows", [8633; 8646; 10563]%N); ("\circlearrowleft", [8634; 10560]%N);
  ("\circlearrowright", [8635; 10561]%N); ("\leftharpoonup", [8636]%N); ("\leftharpoondown", [8637]%N);
  ("\upharpoonright", [8638; 10785]%N); ("\upharpoonleft", [8639]%N); ("\rightharpoonup", [8640]%N); ("\rightharpoondown", [8641]%N);
  ("\downharpoonright", [8642]%N); ("\downharpoonleft", [8643]%N); ("\rightleftarrows", [8644; 10562; 10564]%N);
  ("\leftleftarrows", [8647]%N); ("\upuparrows", [8648]%N); ("\rightrightarrows", [8649]%N); ("\downdownarrows", [8650]%N);
  ("\leftrightharpoons", [8651]%N); ("\rightleftharpoons", [8652; 10598; 10599; 10600; 10601]%N); ("\nLeftarrow", [8653; 10498]%N);
  ("\nLeftrightarrow", [8654; 10500]%N); ("\nRightarrow", [8655; 10499]%N); ("\Leftarrow", [8656; 8678; 8688; 10237; 10502; 10594]%N);
  ("\Uparrow", [8657; 8679; 8682; 8683; 8684; 8685; 8686; 8687; 10224; 10506; 10595]%N);
  ("\Downarrow", [8659; 8681; 10225; 10507; 10597]%N); ("\Leftrightarrow", [8660]%N); ("\Updownarrow", [8661; 8691]%N);
  ("\Lleftarrow", [8666; 11077]%N); ("\Rrightarrow", [8667; 8694; 11078]%N);
  ("\leftarrow", [8668; 8672; 8676; 8701; 10229; 10235; 10508; 10510; 10521; 10523; 10525; 10546; 10554; 10557; 10558; 10578; 10582; 10586; 10590; 11013]%N);
  ("\rightsquigarrow", [8669; 10239; 10496; 10497]%N);
  ("\rightarrow", [8674; 8677; 8692; 8702; 8888; 10145; 10230; 10509; 10511; 10512; 10513; 10516; 10517; 10518; 10519; 10520; 10522; 10524; 10555; 10556; 10559; 10579; 10583; 10587; 10591; 11157]%N);
  ("\Rightarrow", [8680; 10238; 10503; 10596]%N); ("\nleftarrow", [8695; 8698]%N); ("\nrightarrow", [8696; 8699; 10567]%N);
  ("\nleftrightarrow", [8697; 8700]%N); ("\leftrightarrow", [8703; 10231; 10568; 10570; 10571; 10574; 10576]%N); ("C", [8705]%N);
  ("\nexists", [8708]%N); ("\in", [8712; 8714; 8946; 8947; 8948; 8954; 8955; 8956]%N); ("\notin", [8713]%N); ("\not\in", [8716]%N);
  ("\coprod", [8720; 10815]%N); ("+-", [8723]%N); ("\dot{+}", [8724; 10786]%N); ("\backslash", [8726; 10741; 10745]%N); ("*", [8727]%N);
  ("\sqrt[3]{}", [8731]%N); ("\sqrt[4]{}", [8732]%N); ("\propto", [8733]%N); ("\llcorner", [8735; 10813]%N);
  ("\measuredangle", [8737; 8738; 8894; 10651; 10653; 10654; 10664; 10671]%N); ("\not|", [8740]%N); ("\not\parallel", [8742]%N);
  ("\land", [8743]%N); ("\lor", [8744]%N); ("\iint", [8748]%N); ("\iiint", [8749]%N); ("\oiint", [8751; 8752]%N);
  ("\int", [8753; 10768; 10769; 10770; 10771; 10772; 10775; 10776; 10777; 10778]%N); ("\oint", [8754; 8755; 10773; 10774]%N);
  ("\therefore ", [8756]%N); (":", [8758; 10626]%N); ("::", [8759]%N); ("\bot", [8760; 8869]%N); ("-:", [8761]%N); (":-:", [8762]%N);
  ("sim", [8764]%N); ("\infty", [8766]%N); ("\not\sim", [8769]%N); ("=", [8770; 8790; 8792]%N); ("\simeq", [8771; 8909]%N);
  ("\not\simeq", [8772]%N); ("\cong", [8773]%N); ("\ncong", [8774; 8775]%N); ("\approx /", [8777]%N); ("\approx", [8778; 8779; 8780]%N);
  ("\asymp", [8781]%N); ("\doteq", [8784; 8785; 8786; 8787; 8791; 8795; 8799]%N); (":=", [8788]%N); ("=:", [8789]%N);
  ("\triangleq", [8793; 8794; 8796]%N); ("\overset{def}{=}", [8797]%N); ("\overset{m}{=} ", [8798]%N); ("\equiv", [8801]%N);
  ("\equiv /", [8802]%N); ("\overset{=}{=} ", [8803]%N); ("\geq", [8805; 10878]%N); ("\leq", [8806; 8818; 10877]%N);
  ("\geg", [8807; 8819]%N); ("\nleqslant", [8808; 10887]%N); ("\ngeqslant", [8809; 10888]%N);
  ("\ll", [8810; 10218; 10641; 10643; 10646; 10913; 10939]%N); ("\gg", [8811; 10219; 10642; 10644; 10645; 10914]%N);
  ("\neq", [8813; 10723]%N); ("</", [8814]%N); (">/", [8815]%N); ("\leq/", [8816]%N); ("\geq/", [8817]%N); ("\not\leq", [8820]%N);
  ("\not\geg", [8821]%N); ("\overset{<}{>}", [8822]%N); ("\overset{>}{<}", [8823]%N); ("\not\overset{>}{<}", [8824; 8825]%N);
  ("\prec", [8826; 8880; 8926; 10621]%N); ("\succ", [8827; 8881; 8927; 10620]%N); ("\preceq", [8828; 8832; 10927]%N);
  ("\succeq", [8829; 10928]%N); ("\precsim", [8830]%N); ("\succsim", [8831]%N); ("\nsucc", [8833; 8929]%N); ("\subset", [8834; 8912]%N);
  ("\supset", [8835; 8913]%N); ("\not\subset", [8836]%N); ("\not\supset", [8837]%N); ("\subseteq", [8838]%N); ("\supseteq", [8839]%N);
  ("\nsubseteq", [8840]%N); ("\nsupseteq", [8841]%N); ("\subsetneq", [8842]%N); ("\supsetneq", [8843]%N);
  ("\cup", [8844; 8845; 8846; 8915; 10755]%N); ("\sqsubset", [8847]%N); ("\sqsupset", [8848]%N); ("\sqsubseteq", [8849]%N);
  ("\sqsupseteq", [8850]%N); ("\sqcap", [8851; 10757]%N); ("\sqcup", [8852; 10758]%N); ("\oplus", [8853; 10684; 10753]%N);
  ("\ominus", [8854; 8860; 8861; 10678; 10679]%N); ("\bigotimes", [8855]%N); ("\oslash", [8856]%N);
  ("\odot", [8858; 8859; 10686; 10687; 10690; 10691; 10752]%N); ("\boxplus", [8862]%N); ("\boxminus", [8863]%N); ("\boxtimes", [8864]%N);
  ("\boxdot", [8865]%N); ("\vdash", [8866; 8870]%N); ("\dashv", [8867; 10974]%N); ("\models", [8871; 10726]%N); ("\vDash", [8872]%N);
  ("\Vdash", [8873]%N); ("|\models", [8874; 8875]%N); ("\nvDash", [8876; 8877]%N); ("\cancel{\Vdash}", [8878]%N);
  ("\cancel{\vDash}", [8879]%N); ("\triangleleft", [8882; 9664; 9665; 9666; 9667; 9668; 9669; 10633; 10782]%N);
  ("\triangleright", [8883; 8885; 9654; 9655; 9656; 9657; 10634]%N); ("\circ\multimap", [8886; 8887]%N); ("\top", [8890; 10975]%N);
  ("\underline{\lor}", [8891]%N); ("\overline{\land}", [8892]%N); ("\overline{\lor}", [8893]%N);
  ("\triangle", [8895; 9652; 9653; 10701]%N); ("\ast", [8903]%N); ("\Join", [8904]%N); ("\rtimes", [8905]%N); ("\ltimes", [8906]%N);
  ("\bowtie", [8907; 10705; 10706; 10707; 10708; 10709; 10781]%N); ("\vee", [8910; 10840]%N); ("\wedge", [8911; 10839]%N);
  ("\cap", [8914]%N); ("\pitchfork", [8916; 10971]%N); ("\#", [8917; 9839]%N); ("<*", [8918]%N); ("*>", [8919]%N); ("\lll", [8920]%N);
  ("\ggg", [8921]%N); ("\underset{<}{\geq}", [8922]%N); ("\underset{>}{\leq}", [8923]%N); ("\overline{<}", [8924]%N);
  ("\overline{>}", [8925]%N); ("\nprec", [8928]%N); ("\not\sqsubseteq", [8930; 8932]%N); ("\not\sqsupseteq", [8931; 8933]%N);
  ("\underset{\not\sim}{<}", [8934]%N); ("\underset{\not\sim}{>}", [8935]%N); ("\underset{\sim}{\prec}", [8936]%N);
  ("\underset{\sim}{\succ}", [8937]%N); ("\not\triangleleft", [8938; 8940]%N); ("\not\triangleright", [8939; 8941]%N);
  ("\hdots", [8943]%N); ("\ddots", [8944]%N); ("\dot{\in}", [8949]%N); ("\overline{\in}", [8950; 8951]%N);
  ("\underline{\in}", [8952; 8953]%N); ("\overline{\ni}", [8957; 8958]%N); ("\Epsilon", [8959]%N);
  ("\overbrace", [9140; 9180; 9182; 9184]%N); ("\underbrace", [9141; 9181; 9183; 9185]%N); ("\blacksquare", [9632; 9646; 9648]%N);
  ("\bigtriangleup", [9650]%N); ("\triangledown", [9660; 9661; 9662; 9663]%N); ("\diamond", [9670; 9671; 9672]%N);
  ("\circledcirc", [9673; 9676; 9677; 9678]%N); ("\circle", [9686; 9687; 9702; 10688; 10689]%N); ("\Box", [9723]%N);
  ("\(|", [10214; 10631]%N); ("\)|", [10215; 12311]%N); ("\left[[ \right.", [10220]%N); ("\left. \right]]", [10221]%N);
  ("\left[ \right.", [10222]%N); ("\left. \right]", [10223]%N); ("\Longleftarrow", [10232]%N); ("\Longrightarrow", [10233]%N);
  ("\Longleftrightarrow", [10234]%N); ("\mapsto", [10236; 10501]%N); ("\rightarrow\cdot", [10526]%N); ("\cdot\leftarrow", [10527]%N);
  ("\mapsto\cdot", [10528]%N);
  (" ", [10529; 10530; 10531; 10532; 10533; 10534; 10535; 10536; 10537; 10538; 10541; 10542; 10543; 10544; 10545]%N);
  ("\times", [10539; 10540; 10761; 10799]%N); ("\underline{\leftharpoonup}", [10602]%N); ("\overline{\leftharpoondown}", [10603]%N);
  ("\underline{\rightharpoonup}", [10604]%N); ("\overline{\rightharpoondown}", [10605]%N); ("\overset{=}{\rightarrow}", [10609]%N);
  ("\overset{\sim}{\rightarrow}", [10610]%N); ("\underset{\sim}{\leftarrow}", [10611]%N); ("\underset{\sim}{\rightarrow}", [10612]%N);
  ("\underset{\approx}{\rightarrow}", [10613]%N); ("\underset{\leftarrow}{<}", [10614]%N); ("\underset{\rightarrow}{>}", [10616]%N);
  ("\underset{\rightarrow}{\subset}", [10617]%N); ("\underset{\rightarrow}{\supset}", [10619]%N); ("\||", [10624]%N); ("\{|", [10627]%N);
  ("|\}", [10628]%N); ("\(\(", [10629]%N); ("|\)", [10630; 10632]%N); ("\]", [10635; 10638; 10639; 10640; 10648]%N);
  ("\[", [10636; 10637; 10647]%N); ("\vdots", [10649; 10998]%N); ("\perp", [10652; 10976]%N); ("\angle", [10655]%N);
  ("\bcancel{>}", [10656]%N); ("\not\lor", [10657]%N); ("\ulcorner", [10659]%N); ("\varnothing", [10672; 10680; 10681; 10685]%N);
  ("\overline{\varnothing}", [10673]%N); ("\dot{\varnothing}", [10674]%N); ("\vec{\varnothing}", [10675; 10676]%N);
  ("\otimes", [10683; 10754]%N); ("\cancel{\square}", [10692]%N); ("\bcancel{\square}", [10693]%N); ("\boxed{\rightarrow}", [10694]%N);
  ("\boxed{\circ}", [10695; 10696]%N); ("\dot{\triangle}", [10698]%N); ("\underline{\triangle}", [10699]%N);
  ("\triangleleft |", [10703]%N); ("| \triangleright", [10704]%N); ("\}", [10712; 10749]%N); ("\{", [10713; 10748]%N);
  ("\{\{", [10715]%N); ("\bullet-\bullet", [10719]%N); ("\sqcup\sqcup", [10722]%N); ("\approx\neq", [10724]%N); ("\not\equiv", [10725]%N);
  ("\ddagger", [10727]%N); ("\lozenge", [10731]%N); ("\Phi", [10738; 10739]%N); (":\rightarrow", [10740]%N); ("\hcancel{||}", [10746]%N);
  ("\hcancel{|||}", [10747]%N); ("+", [10750]%N); ("\uplus", [10756]%N); ("\iiiint", [10764]%N); ("\hcancel{\int}", [10765]%N);
  ("\bcancel{\int}", [10767]%N); ("\overline{\int}", [10779]%N); ("\underline{\int}", [10780]%N); (">>", [10784]%N);
  ("\hat{+}", [10787]%N); ("\overset{\sim}{+}", [10788]%N); ("\underset{\circ}{+}", [10789]%N); ("\underset{\sim}{+}", [10790]%N);
  ("\bigodot", [10797; 10798]%N); ("\dot{\times}", [10800]%N); ("\underline{\times}", [10801; 10802]%N); ("\hat{\otimes}", [10806]%N);
  ("\lrcorner", [10812]%N); ("\overline{\cup}", [10818; 10828]%N); ("\overline{\cap}", [10819; 10829]%N); ("\dot{\wedge}", [10833]%N);
  ("\dot{\vee}", [10834]%N); ("\hcancel{\wedge}", [10844]%N); ("\hcancel{\vee}", [10845]%N); ("\overset{=}{\wedge}", [10846]%N);
  ("\underline{\wedge}", [10847]%N); ("\underset{=}{\wedge}", [10848]%N); ("ul(vv)", [10849]%N); ("\overset{=}{\vee}", [10850]%N);
  ("\underset{=}{\vee}", [10851]%N); ("\underset{\cdot}{=}", [10854]%N); ("\dot{\equiv}", [10855]%N); ("\dot{\sim}", [10858]%N);
  ("\dot{\approx}", [10861]%N); ("\overset{*}{=}", [10862]%N); ("\overset{\wedge}{=}", [10863]%N); ("\overset{\approx}{=}", [10864]%N);
  ("\overset{=}{+}", [10865]%N); ("\underset{=}{+}", [10866]%N); ("::=", [10868]%N); ("==", [10869]%N); ("===", [10870]%N);
  ("\overset{\dots}{\equiv}", [10872]%N); ("\underset{\approx}{<}", [10885; 10889]%N); ("\underset{\approx}{>}", [10886]%N);
  ("\underset{\cancel{\approx}}{>}", [10890]%N); ("\lesseqqgtr", [10891]%N); ("\gtreqqless", [10892]%N);
  ("\underset{\simeq}{<}", [10893]%N); ("\underset{\simeq}{>}", [10894]%N); ("\underset{>}{\lesssim}", [10895]%N);
  ("\underset{<}{\gtrsim}", [10896]%N); ("\underset{=}{\lessgtr}", [10897]%N); ("\underset{=}{\gtrless}", [10898]%N);
  ("\overset{=}{<}", [10905]%N); ("\overset{=}{>}", [10906]%N); ("\overset{\sim}{<}", [10909]%N); ("\overset{\sim}{>}", [10910]%N);
  ("\overset{\sim}{\leqq}", [10911]%N); ("\overset{\sim}{\geqq}", [10912]%N); ("\underline{\ll}", [10915]%N); ("><", [10916; 10917]%N);
  ("\vartriangleleft", [10918]%N); ("\vartriangleright", [10919]%N); ("\hcancel{<}", [10922]%N); ("\hcancel{>}", [10923]%N);
  ("\underline{\hcancel{>}}", [10924; 10925]%N); ("\underset{=}{\prec}", [10931]%N); ("\underset{=}{\succ}", [10932]%N);
  ("\underset{\cancel{=}}{\prec}", [10933]%N); ("\underset{\cancel{=}}{\succ}", [10934]%N); ("\underset{\approx}{\prec}", [10935]%N);
  ("\underset{\approx}{\succ}", [10936]%N); ("\underset{\cancel{\approx}}{\prec}", [10937]%N);
  ("\underset{\cancel{\approx}}{\succ}", [10938]%N); ("\gg ", [10940]%N); ("\underset{+}{\subset}", [10943]%N);
  ("\underset{+}{\supset}", [10944]%N); ("\underset{\times}{\subset}", [10945]%N); ("\underset{\times}{\supset}", [10946]%N);
  ("\dot{\subseteq}", [10947]%N); ("\dot{\supseteq}", [10948]%N); ("\subseteqq", [10949]%N); ("\supseteqq", [10950]%N);
  ("\underset{\sim}{\subset}", [10951]%N); ("\underset{\sim}{\supset}", [10952]%N); ("\underset{\approx}{\subset}", [10953]%N);
  ("\underset{\approx}{\supset}", [10954]%N); ("\underset{\neq}{\subset}", [10955]%N); ("\underset{\neq}{\supset}", [10956]%N);
  ("\overline{\top}", [10983]%N); ("\underline{\perp}", [10984]%N); ("\bcancel{\mid}", [10990]%N); ("\nparallel", [10994]%N);
  ("///", [11003]%N); ("\mid\mid\mid", [11004]%N); ("//", [11005]%N); ("\mathtt{\Pi}", [120501]%N)].
(** 118 characters as identifiers; as operators they give something else or are copied. *)
Definition identifier_characters : list (string * list N) := [
  ("\mid", [124]%N); ("\cent", [162]%N); ("^{2}", [178]%N); ("^{3}", [179]%N); ("\mu", [181]%N); ("^{1}", [185]%N); ("\ss", [223]%N);
  ("\imath", [305]%N); ("\varepsilon", [400; 603]%N); ("f", [402; 119891]%N); ("o", [417; 959; 119900]%N); ("\gamma", [611]%N);
  ("\ell", [621]%N); ("\eta", [627]%N); ("\theta", [629; 1012; 9068]%N); ("\phi", [632]%N); ("\upsilon", [651]%N); ("\hat{}", [710]%N);
  ("\Lambda", [923]%N); ("\nu", [925]%N); ("\Xi", [926; 120501]%N); ("Y", [933]%N); ("\epsilon", [949; 1028; 1108; 120576]%N);
  ("\xi", [958]%N); ("\vartheta", [977]%N); ("\hbar", [1035; 1115]%N); ("0", [1054]%N); ("\Phi", [1060; 1363]%N); ("a", [1072; 119886]%N);
  ("\pi", [1087; 120587]%N); ("p", [1088; 119901]%N); ("x", [1093; 119909; 120013; 127485]%N); ("\Gamma", [1270]%N);
  (" ", [2340; 4936; 12273; 30333; 54528]%N); ("\mathbf{m}", [3617]%N); ("m", [7745; 119898]%N); ("\hat{e}", [7871]%N);
  ("\text{\textdir LTR}", [8206]%N); ("\\""", [8221]%N); ("\text{\textdir TRT}", [8236]%N); ("\wp", [8472; 8504]%N); ("\aleph", [8501]%N);
  ("\_{D}", [8517]%N); ("i", [8520; 119894]%N); ("\iff", [8660]%N); ("\blacksquare", [8718]%N); ("\star", [8727]%N); ("@", [8728]%N);
  ("\angle", [8737]%N); ("\wedge", [8743]%N); ("\vee", [8744]%N); ("\therefore", [8756]%N); ("o+", [8853]%N); ("\bigoplus", [8855]%N);
  ("\bigtriangleup", [8895]%N); ("\bowtie", [8904]%N); ("\ltimes", [8905]%N); ("\rtimes", [8906]%N); ("\frown", [8994]%N);
  ("\rho", [9076]%N); ("\omega", [9077]%N); ("\overline", [9147]%N); ("\heartsuit", [9829]%N); ("\llbracket", [10214; 10664]%N);
  ("\rangle", [12311]%N); ("b", [119887]%N); ("c", [119888]%N); ("d", [119889]%N); ("e", [119890]%N); ("g", [119892]%N);
  ("j", [119895]%N); ("k", [119896]%N); ("l", [119897]%N); ("n", [119899]%N); ("q", [119902]%N); ("r", [119903]%N); ("s", [119904]%N);
  ("t", [119905]%N); ("u", [119906]%N); ("v", [119907; 120479]%N); ("w", [119908; 120064]%N); ("y", [119910; 120014]%N);
  ("z", [119911; 120015]%N); ("\varphi", [120543; 120593]%N); ("\beta", [120573]%N); ("\lambda", [120582]%N); ("\psi", [120595]%N)].
(** 91 characters as numbers. *)
Definition number_characters : list (string * list N) := [
  ("^{2}", [178]%N); ("^{3}", [179]%N); ("^{1}", [185]%N); ("\dfrac{1}{4}", [188]%N); ("\dfrac{1}{2}", [189]%N);
  ("\dfrac{3}{4}", [190]%N); ("^{0}", [8304]%N); ("^{4}", [8308]%N); ("^{5}", [8309]%N); ("^{6}", [8310]%N); ("^{7}", [8311]%N);
  ("^{8}", [8312]%N); ("^{9}", [8313]%N); ("^{n}", [8319]%N); ("_{0}", [8320]%N); ("_{1}", [8321]%N); ("_{2}", [8322]%N);
  ("_{3}", [8323]%N); ("_{4}", [8324]%N); ("_{5}", [8325]%N); ("_{6}", [8326]%N); ("_{7}", [8327]%N); ("_{8}", [8328]%N);
  ("_{9}", [8329]%N); ("_{n}", [8345]%N); ("\dfrac{1}{7}", [8528]%N); ("\dfrac{1}{9}", [8529]%N); ("\dfrac{1}{10}", [8530]%N);
  ("\dfrac{1}{3}", [8531]%N); ("\dfrac{2}{3}", [8532]%N); ("\dfrac{1}{5}", [8533]%N); ("\dfrac{2}{5}", [8534]%N);
  ("\dfrac{3}{5}", [8535]%N); ("\dfrac{4}{5}", [8536]%N); ("\dfrac{1}{6}", [8537]%N); ("\dfrac{5}{6}", [8538]%N);
  ("\dfrac{1}{8}", [8539]%N); ("\dfrac{3}{8}", [8540]%N); ("\dfrac{5}{8}", [8541]%N); ("\dfrac{7}{8}", [8542]%N);
  ("\textcircled{1}", [9312]%N); ("\textcircled{2}", [9313]%N); ("\textcircled{3}", [9314]%N); ("\textcircled{4}", [9315]%N);
  ("\textcircled{5}", [9316]%N); ("\textcircled{6}", [9317]%N); ("\textcircled{7}", [9318]%N); ("\textcircled{8}", [9319]%N);
  ("\textcircled{9}", [9320]%N); ("\textcircled{10}", [9321]%N); ("\textcircled{11}", [9322]%N); ("\textcircled{12}", [9323]%N);
  ("\textcircled{13}", [9324]%N); ("\textcircled{14}", [9325]%N); ("\textcircled{15}", [9326]%N); ("\textcircled{16}", [9327]%N);
  ("\textcircled{17}", [9328]%N); ("\textcircled{18}", [9329]%N); ("\textcircled{19}", [9330]%N); ("\textcircled{20}", [9331]%N);
  ("\textcircled{0}", [9450]%N); ("\textcircled{21}", [12881]%N); ("\textcircled{22}", [12882]%N); ("\textcircled{23}", [12883]%N);
  ("\textcircled{24}", [12884]%N); ("\textcircled{25}", [12885]%N); ("\textcircled{26}", [12886]%N); ("\textcircled{27}", [12887]%N);
  ("\textcircled{28}", [12888]%N); ("\textcircled{29}", [12889]%N); ("\textcircled{30}", [12890]%N); ("\textcircled{31}", [12891]%N);
  ("\textcircled{32}", [12892]%N); ("\textcircled{33}", [12893]%N); ("\textcircled{34}", [12894]%N); ("\textcircled{35}", [12895]%N);
  ("\textcircled{36}", [12977]%N); ("\textcircled{37}", [12978]%N); ("\textcircled{38}", [12979]%N); ("\textcircled{39}", [12980]%N);
  ("\textcircled{40}", [12981]%N); ("\textcircled{41}", [12982]%N); ("\textcircled{42}", [12983]%N); ("\textcircled{43}", [12984]%N);
  ("\textcircled{44}", [12985]%N); ("\textcircled{45}", [12986]%N); ("\textcircled{46}", [12987]%N); ("\textcircled{47}", [12988]%N);
  ("\textcircled{48}", [12989]%N); ("\textcircled{49}", [12990]%N); ("\textcircled{50}", [12991]%N)].
(** Characters that are converted both as operators and as identifiers, but to different LaTeX: operator, identifier. *)
Definition two_ways : list (N * string * string) := [
  (124%N, "\left|\right.", "\mid");
  (178%N, "2", "^{2}");
  (179%N, "3", "^{3}");
  (185%N, "1", "^{1}");
  (710%N, "\hat", "\hat{}");
  (933%N, "\Upsilon", "Y");
  (959%N, "\omicron", "o");
  (8221%N, "\""", "\\""");
  (8517%N, "\mathbb{D}", "\_{D}");
  (8660%N, "\Leftrightarrow", "\iff");
  (8718%N, "\square", "\blacksquare");
  (8727%N, "*", "\star");
  (8728%N, "\circ", "@");
  (8737%N, "\measuredangle", "\angle");
  (8743%N, "\land", "\wedge");
  (8744%N, "\lor", "\vee");
  (8756%N, "\therefore ", "\therefore");
  (8853%N, "\oplus", "o+");
  (8855%N, "\bigotimes", "\bigoplus");
  (8895%N, "\triangle", "\bigtriangleup");
  (8904%N, "\Join", "\bowtie");
  (8905%N, "\rtimes", "\ltimes");
  (8906%N, "\ltimes", "\rtimes");
  (9147%N, "-", "\overline");
  (10214%N, "\(|", "\llbracket");
  (10664%N, "\measuredangle", "\llbracket");
  (12311%N, "\)|", "\rangle");
  (120501%N, "\mathtt{\Pi}", "\Xi")].

(** The LaTeX a catalogue has for a character; other characters stand for themselves. *)
Fixpoint catalogued (l : list (string * list N)) (c : N) : str :=
  match l with
  | [] => [c]
  | (s, cs) :: r => if existsb (N.eqb c) cs then lit s else catalogued r c
  end.
(** The reverse solidus with a stroke (10743) gives a text with a backspace character in it (C75). *)
Definition operator_gives (c : N) : str :=
  if (c =? 10743)%N then lit "hcancel{" ++ [8%N] ++ lit "ackslash}" else catalogued (operator_characters ++ shared_characters) c.
Definition identifier_gives (c : N) : str := catalogued (identifier_characters ++ shared_characters) c.
Definition number_gives (c : N) : str := catalogued number_characters c.
