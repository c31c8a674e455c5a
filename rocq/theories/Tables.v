(** The eight tables of /repo/src/mathml_to_latex/syntax.py, entry by entry in source order.
    Keys are the code points of the Python literal, values are ASCII
    literals where possible.  The comment gives the source line and, if it is a plain symbol, the key itself.  Generated from the text of syntax.py (parsed, not executed). *)
From Coq Require Import String.
From Verif Require Export PyStr.
Local Open Scope N_scope.
Local Open Scope string_scope.


(** syntax.py:6-9 (AccentChar) and 12-15 (SpecialFontChar). *)
Record accent_char := AccentChar { ac_char : str; ac_accent : str }.
Record special_font_char := SpecialFontChar { sf_letter : str; sf_font_cmd : str }.

(** syntax.py:56-194 *)
Definition vowels_with_accents : dict accent_char := [
  ([225], AccentChar (lit "a") ([180])); (* 57 á *)
  ([224], AccentChar (lit "a") (lit "`")); (* 58 à *)
  ([226], AccentChar (lit "a") (lit "^")); (* 59 â *)
  ([227], AccentChar (lit "a") (lit "~")); (* 60 ã *)
  ([228], AccentChar (lit "a") ([168])); (* 61 ä *)
  ([229], AccentChar (lit "a") ([730])); (* 62 å *)
  ([261], AccentChar (lit "a") ([729])); (* 63 ą *)
  ([259], AccentChar (lit "a") ([728])); (* 64 ă *)
  ([462], AccentChar (lit "a") ([711])); (* 65 ǎ *)
  ([479], AccentChar (lit "a") ([710])); (* 66 ǟ *)
  ([507], AccentChar (lit "a") ([729])); (* 67 ǻ *)
  ([481], AccentChar (lit "a") (lit "-")); (* 68 ǡ *)
  ([257], AccentChar (lit "a") (lit "-")); (* 69 ā *)
  ([233], AccentChar (lit "e") ([180])); (* 70 é *)
  ([232], AccentChar (lit "e") (lit "`")); (* 71 è *)
  ([234], AccentChar (lit "e") (lit "^")); (* 72 ê *)
  ([235], AccentChar (lit "e") ([168])); (* 73 ë *)
  ([281], AccentChar (lit "e") ([729])); (* 74 ę *)
  ([283], AccentChar (lit "e") ([711])); (* 75 ě *)
  ([519], AccentChar (lit "i") (lit "^")); (* 76 ȇ *)
  ([1105], AccentChar (lit "e") ([168])); (* 77 ё *)
  ([275], AccentChar (lit "e") (lit "-")); (* 78 ē *)
  ([237], AccentChar (lit "i") ([180])); (* 79 í *)
  ([236], AccentChar (lit "i") (lit "`")); (* 80 ì *)
  ([238], AccentChar (lit "i") (lit "^")); (* 81 î *)
  ([239], AccentChar (lit "i") ([168])); (* 82 ï *)
  ([303], AccentChar (lit "i") ([729])); (* 83 į *)
  ([464], AccentChar (lit "i") ([711])); (* 84 ǐ *)
  ([521], AccentChar (lit "i") (lit "`")); (* 85 ȉ *)
  ([523], AccentChar (lit "i") ([168])); (* 86 ȋ *)
  ([299], AccentChar (lit "i") (lit "-")); (* 87 ī *)
  ([243], AccentChar (lit "o") ([180])); (* 88 ó *)
  ([242], AccentChar (lit "o") (lit "`")); (* 89 ò *)
  ([244], AccentChar (lit "o") (lit "^")); (* 90 ô *)
  ([245], AccentChar (lit "o") (lit "~")); (* 91 õ *)
  ([246], AccentChar (lit "o") ([168])); (* 92 ö *)
  ([337], AccentChar (lit "o") ([733])); (* 93 ő *)
  ([466], AccentChar (lit "o") ([711])); (* 94 ǒ *)
  ([525], AccentChar (lit "o") (lit "`")); (* 95 ȍ *)
  ([527], AccentChar (lit "o") ([168])); (* 96 ȏ *)
  ([555], AccentChar (lit "o") ([728])); (* 97 ȫ *)
  ([557], AccentChar (lit "o") ([733])); (* 98 ȭ *)
  ([559], AccentChar (lit "o") ([729])); (* 99 ȯ *)
  ([333], AccentChar (lit "o") (lit "-")); (* 100 ō *)
  ([250], AccentChar (lit "u") ([180])); (* 101 ú *)
  ([249], AccentChar (lit "u") (lit "`")); (* 102 ù *)
  ([251], AccentChar (lit "u") (lit "^")); (* 103 û *)
  ([252], AccentChar (lit "u") ([168])); (* 104 ü *)
  ([369], AccentChar (lit "u") ([733])); (* 105 ű *)
  ([468], AccentChar (lit "u") ([711])); (* 106 ǔ *)
  ([470], AccentChar (lit "u") ([168])); (* 107 ǖ *)
  ([472], AccentChar (lit "u") ([168])); (* 108 ǘ *)
  ([474], AccentChar (lit "u") ([168])); (* 109 ǚ *)
  ([476], AccentChar (lit "u") ([168])); (* 110 ǜ *)
  ([533], AccentChar (lit "u") (lit "`")); (* 111 ȕ *)
  ([535], AccentChar (lit "u") ([168])); (* 112 ȗ *)
  ([363], AccentChar (lit "u") (lit "-")); (* 113 ū *)
  ([253], AccentChar (lit "y") ([180])); (* 114 ý *)
  ([7923], AccentChar (lit "y") (lit "`")); (* 115 ỳ *)
  ([375], AccentChar (lit "y") (lit "^")); (* 116 ŷ *)
  ([255], AccentChar (lit "y") ([168])); (* 117 ÿ *)
  ([563], AccentChar (lit "y") (lit "-")); (* 118 ȳ *)
  ([193], AccentChar (lit "A") ([180])); (* 119 Á *)
  ([192], AccentChar (lit "A") (lit "`")); (* 120 À *)
  ([194], AccentChar (lit "A") (lit "^")); (* 121 Â *)
  ([195], AccentChar (lit "A") (lit "~")); (* 122 Ã *)
  ([196], AccentChar (lit "A") ([168])); (* 123 Ä *)
  ([197], AccentChar (lit "A") ([730])); (* 124 Å *)
  ([8491], AccentChar (lit "A") ([730])); (* 125 Å *)
  ([550], AccentChar (lit "A") ([729])); (* 126 Ȧ *)
  ([258], AccentChar (lit "A") ([728])); (* 127 Ă *)
  ([461], AccentChar (lit "A") ([711])); (* 128 Ǎ *)
  ([478], AccentChar (lit "A") ([733])); (* 129 Ǟ *)
  ([506], AccentChar (lit "A") ([730])); (* 130 Ǻ *)
  ([480], AccentChar (lit "A") (lit "-")); (* 131 Ǡ *)
  ([256], AccentChar (lit "A") (lit "-")); (* 132 Ā *)
  ([201], AccentChar (lit "E") ([180])); (* 133 É *)
  ([200], AccentChar (lit "E") (lit "`")); (* 134 È *)
  ([278], AccentChar (lit "E") ([729])); (* 135 Ė *)
  ([202], AccentChar (lit "E") (lit "^")); (* 136 Ê *)
  ([203], AccentChar (lit "E") ([168])); (* 137 Ë *)
  ([282], AccentChar (lit "E") ([711])); (* 138 Ě *)
  ([516], AccentChar (lit "E") (lit "`")); (* 139 Ȅ *)
  ([518], AccentChar (lit "E") ([168])); (* 140 Ȇ *)
  ([274], AccentChar (lit "E") (lit "-")); (* 141 Ē *)
  ([205], AccentChar (lit "I") ([180])); (* 142 Í *)
  ([204], AccentChar (lit "I") (lit "`")); (* 143 Ì *)
  ([206], AccentChar (lit "I") (lit "^")); (* 144 Î *)
  ([207], AccentChar (lit "I") ([168])); (* 145 Ï *)
  ([300], AccentChar (lit "I") ([728])); (* 146 Ĭ *)
  ([463], AccentChar (lit "I") ([711])); (* 147 Ǐ *)
  ([520], AccentChar (lit "I") (lit "`")); (* 148 Ȉ *)
  ([522], AccentChar (lit "I") ([168])); (* 149 Ȋ *)
  ([298], AccentChar (lit "I") (lit "-")); (* 150 Ī *)
  ([211], AccentChar (lit "O") ([180])); (* 151 Ó *)
  ([210], AccentChar (lit "O") (lit "`")); (* 152 Ò *)
  ([212], AccentChar (lit "O") (lit "^")); (* 153 Ô *)
  ([213], AccentChar (lit "O") (lit "~")); (* 154 Õ *)
  ([214], AccentChar (lit "O") ([168])); (* 155 Ö *)
  ([336], AccentChar (lit "O") ([733])); (* 156 Ő *)
  ([465], AccentChar (lit "O") ([711])); (* 157 Ǒ *)
  ([524], AccentChar (lit "O") (lit "`")); (* 158 Ȍ *)
  ([526], AccentChar (lit "O") ([168])); (* 159 Ȏ *)
  ([554], AccentChar (lit "O") ([728])); (* 160 Ȫ *)
  ([556], AccentChar (lit "O") ([733])); (* 161 Ȭ *)
  ([558], AccentChar (lit "O") ([729])); (* 162 Ȯ *)
  ([332], AccentChar (lit "O") (lit "-")); (* 163 Ō *)
  ([218], AccentChar (lit "U") ([180])); (* 164 Ú *)
  ([217], AccentChar (lit "U") (lit "`")); (* 165 Ù *)
  ([219], AccentChar (lit "U") (lit "^")); (* 166 Û *)
  ([220], AccentChar (lit "U") ([168])); (* 167 Ü *)
  ([368], AccentChar (lit "U") ([733])); (* 168 Ű *)
  ([467], AccentChar (lit "U") ([711])); (* 169 Ǔ *)
  ([469], AccentChar (lit "U") ([168])); (* 170 Ǖ *)
  ([532], AccentChar (lit "U") (lit "`")); (* 171 Ȕ *)
  ([534], AccentChar (lit "U") ([168])); (* 172 Ȗ *)
  ([362], AccentChar (lit "U") (lit "-")); (* 173 Ū *)
  ([221], AccentChar (lit "Y") ([180])); (* 174 Ý *)
  ([7922], AccentChar (lit "Y") (lit "`")); (* 175 Ỳ *)
  ([374], AccentChar (lit "Y") (lit "^")); (* 176 Ŷ *)
  ([376], AccentChar (lit "Y") ([168])); (* 177 Ÿ *)
  ([562], AccentChar (lit "Y") (lit "-")); (* 178 Ȳ *)
  ([241], AccentChar (lit "n") (lit "~")); (* 179 ñ *)
  ([209], AccentChar (lit "N") (lit "~")); (* 180 Ñ *)
  ([231], AccentChar (lit "c") ([729])); (* 181 ç *)
  ([199], AccentChar (lit "C") ([729])); (* 182 Ç *)
  ([7805], AccentChar (lit "v") (lit "~")); (* 183 ṽ *)
  ([7804], AccentChar (lit "V") (lit "~")); (* 184 Ṽ *)
  ([309], AccentChar (lit "j") (lit "^")); (* 185 ĵ *)
  ([308], AccentChar (lit "J") (lit "^")); (* 186 Ĵ *)
  ([378], AccentChar (lit "z") ([180])); (* 187 ź *)
  ([377], AccentChar (lit "Z") ([180])); (* 188 Ź *)
  ([379], AccentChar (lit "Z") (lit "^")); (* 189 Ż *)
  ([380], AccentChar (lit "z") (lit "^")); (* 190 ż *)
  ([381], AccentChar (lit "Z") ([711])); (* 191 Ž *)
  ([382], AccentChar (lit "z") ([711])); (* 192 ž *)
  ([7825], AccentChar (lit "z") ([710])) (* 193 ẑ *)
].

(** syntax.py:196-210 *)
Definition accent_to_ltx_cmd : dict str := [
  ([180], lit "acute"); (* 197 ´ *)
  ([96], lit "grave"); (* 198 *)
  ([94], lit "hat"); (* 199 *)
  ([126], lit "tilde"); (* 200 *)
  ([168], lit "ddot"); (* 201 ¨ *)
  ([730], lit "mathring"); (* 202 ˚ *)
  ([728], lit "breve"); (* 203 ˘ *)
  ([711], lit "check"); (* 204 ˇ *)
  ([733], lit "ddot"); (* 205 ˝ *)
  ([729], lit "dot"); (* 206 ˙ *)
  ([45], lit "bar"); (* 207 *)
  ([710], lit "hat"); (* 208 ˆ *)
  ([732], lit "tilde") (* 209 ˜ *)
].

(** syntax.py:212-442 *)
Definition special_font_chars : dict special_font_char := [
  ([119808], SpecialFontChar (lit "A") (lit "mathbf")); (* 214 𝐀 *)
  ([119809], SpecialFontChar (lit "B") (lit "mathbf")); (* 215 𝐁 *)
  ([119810], SpecialFontChar (lit "C") (lit "mathbf")); (* 216 𝐂 *)
  ([119811], SpecialFontChar (lit "D") (lit "mathbf")); (* 217 𝐃 *)
  ([119812], SpecialFontChar (lit "E") (lit "mathbf")); (* 218 𝐄 *)
  ([917], SpecialFontChar (lit "E") (lit "mathbf")); (* 219 Ε *)
  ([119813], SpecialFontChar (lit "F") (lit "mathbf")); (* 220 𝐅 *)
  ([119814], SpecialFontChar (lit "G") (lit "mathbf")); (* 221 𝐆 *)
  ([119815], SpecialFontChar (lit "H") (lit "mathbf")); (* 222 𝐇 *)
  ([119816], SpecialFontChar (lit "I") (lit "mathbf")); (* 223 𝐈 *)
  ([119817], SpecialFontChar (lit "J") (lit "mathbf")); (* 224 𝐉 *)
  ([119818], SpecialFontChar (lit "K") (lit "mathbf")); (* 225 𝐊 *)
  ([119819], SpecialFontChar (lit "L") (lit "mathbf")); (* 226 𝐋 *)
  ([119820], SpecialFontChar (lit "M") (lit "mathbf")); (* 227 𝐌 *)
  ([119821], SpecialFontChar (lit "N") (lit "mathbf")); (* 228 𝐍 *)
  ([119822], SpecialFontChar (lit "O") (lit "mathbf")); (* 229 𝐎 *)
  ([119823], SpecialFontChar (lit "P") (lit "mathbf")); (* 230 𝐏 *)
  ([119824], SpecialFontChar (lit "Q") (lit "mathbf")); (* 231 𝐐 *)
  ([119825], SpecialFontChar (lit "R") (lit "mathbf")); (* 232 𝐑 *)
  ([119826], SpecialFontChar (lit "S") (lit "mathbf")); (* 233 𝐒 *)
  ([119827], SpecialFontChar (lit "T") (lit "mathbf")); (* 234 𝐓 *)
  ([119828], SpecialFontChar (lit "U") (lit "mathbf")); (* 235 𝐔 *)
  ([119829], SpecialFontChar (lit "V") (lit "mathbf")); (* 236 𝐕 *)
  ([119830], SpecialFontChar (lit "W") (lit "mathbf")); (* 237 𝐖 *)
  ([119831], SpecialFontChar (lit "X") (lit "mathbf")); (* 238 𝐗 *)
  ([120710], SpecialFontChar (lit "X") (lit "mathbf")); (* 239 𝞆 *)
  ([119832], SpecialFontChar (lit "Y") (lit "mathbf")); (* 240 𝐘 *)
  ([119833], SpecialFontChar (lit "Z") (lit "mathbf")); (* 241 𝐙 *)
  ([120782], SpecialFontChar (lit "0") (lit "mathbf")); (* 242 𝟎 *)
  ([120783], SpecialFontChar (lit "1") (lit "mathbf")); (* 243 𝟏 *)
  ([120784], SpecialFontChar (lit "2") (lit "mathbf")); (* 244 𝟐 *)
  ([120785], SpecialFontChar (lit "3") (lit "mathbf")); (* 245 𝟑 *)
  ([120786], SpecialFontChar (lit "4") (lit "mathbf")); (* 246 𝟒 *)
  ([120787], SpecialFontChar (lit "5") (lit "mathbf")); (* 247 𝟓 *)
  ([120788], SpecialFontChar (lit "6") (lit "mathbf")); (* 248 𝟔 *)
  ([120789], SpecialFontChar (lit "7") (lit "mathbf")); (* 249 𝟕 *)
  ([120790], SpecialFontChar (lit "8") (lit "mathbf")); (* 250 𝟖 *)
  ([120791], SpecialFontChar (lit "9") (lit "mathbf")); (* 251 𝟗 *)
  ([119860], SpecialFontChar (lit "A") (lit "mathit")); (* 254 𝐴 *)
  ([119861], SpecialFontChar (lit "B") (lit "mathit")); (* 255 𝐵 *)
  ([119862], SpecialFontChar (lit "C") (lit "mathit")); (* 256 𝐶 *)
  ([119863], SpecialFontChar (lit "D") (lit "mathit")); (* 257 𝐷 *)
  ([119864], SpecialFontChar (lit "E") (lit "mathit")); (* 258 𝐸 *)
  ([119865], SpecialFontChar (lit "F") (lit "mathit")); (* 259 𝐹 *)
  ([119866], SpecialFontChar (lit "G") (lit "mathit")); (* 260 𝐺 *)
  ([119867], SpecialFontChar (lit "H") (lit "mathit")); (* 261 𝐻 *)
  ([119868], SpecialFontChar (lit "I") (lit "mathit")); (* 262 𝐼 *)
  ([921], SpecialFontChar (lit "I") (lit "mathit")); (* 263 Ι *)
  ([119869], SpecialFontChar (lit "J") (lit "mathit")); (* 264 𝐽 *)
  ([119870], SpecialFontChar (lit "K") (lit "mathit")); (* 265 𝐾 *)
  ([119871], SpecialFontChar (lit "L") (lit "mathit")); (* 266 𝐿 *)
  ([119872], SpecialFontChar (lit "M") (lit "mathit")); (* 267 𝑀 *)
  ([119873], SpecialFontChar (lit "N") (lit "mathit")); (* 268 𝑁 *)
  ([119874], SpecialFontChar (lit "O") (lit "mathit")); (* 269 𝑂 *)
  ([119875], SpecialFontChar (lit "P") (lit "mathit")); (* 270 𝑃 *)
  ([119876], SpecialFontChar (lit "Q") (lit "mathit")); (* 271 𝑄 *)
  ([119877], SpecialFontChar (lit "R") (lit "mathit")); (* 272 𝑅 *)
  ([119878], SpecialFontChar (lit "S") (lit "mathit")); (* 273 𝑆 *)
  ([119879], SpecialFontChar (lit "T") (lit "mathit")); (* 274 𝑇 *)
  ([119880], SpecialFontChar (lit "U") (lit "mathit")); (* 275 𝑈 *)
  ([119881], SpecialFontChar (lit "V") (lit "mathit")); (* 276 𝑉 *)
  ([119882], SpecialFontChar (lit "W") (lit "mathit")); (* 277 𝑊 *)
  ([119883], SpecialFontChar (lit "X") (lit "mathit")); (* 278 𝑋 *)
  ([119884], SpecialFontChar (lit "Y") (lit "mathit")); (* 279 𝑌 *)
  ([119885], SpecialFontChar (lit "Z") (lit "mathit")); (* 280 𝑍 *)
  ([120120], SpecialFontChar (lit "A") (lit "mathbb")); (* 283 𝔸 *)
  ([120121], SpecialFontChar (lit "B") (lit "mathbb")); (* 284 𝔹 *)
  ([8450], SpecialFontChar (lit "C") (lit "mathbb")); (* 285 ℂ *)
  ([120123], SpecialFontChar (lit "D") (lit "mathbb")); (* 286 𝔻 *)
  ([120124], SpecialFontChar (lit "E") (lit "mathbb")); (* 287 𝔼 *)
  ([120125], SpecialFontChar (lit "F") (lit "mathbb")); (* 288 𝔽 *)
  ([120126], SpecialFontChar (lit "G") (lit "mathbb")); (* 289 𝔾 *)
  ([8461], SpecialFontChar (lit "H") (lit "mathbb")); (* 290 ℍ *)
  ([120128], SpecialFontChar (lit "I") (lit "mathbb")); (* 291 𝕀 *)
  ([120129], SpecialFontChar (lit "J") (lit "mathbb")); (* 292 𝕁 *)
  ([120130], SpecialFontChar (lit "K") (lit "mathbb")); (* 293 𝕂 *)
  ([120131], SpecialFontChar (lit "L") (lit "mathbb")); (* 294 𝕃 *)
  ([120132], SpecialFontChar (lit "M") (lit "mathbb")); (* 295 𝕄 *)
  ([8469], SpecialFontChar (lit "N") (lit "mathbb")); (* 296 ℕ *)
  ([120134], SpecialFontChar (lit "O") (lit "mathbb")); (* 297 𝕆 *)
  ([8473], SpecialFontChar (lit "P") (lit "mathbb")); (* 298 ℙ *)
  ([8474], SpecialFontChar (lit "Q") (lit "mathbb")); (* 299 ℚ *)
  ([8477], SpecialFontChar (lit "R") (lit "mathbb")); (* 300 ℝ *)
  ([120138], SpecialFontChar (lit "S") (lit "mathbb")); (* 301 𝕊 *)
  ([120139], SpecialFontChar (lit "T") (lit "mathbb")); (* 302 𝕋 *)
  ([120140], SpecialFontChar (lit "U") (lit "mathbb")); (* 303 𝕌 *)
  ([120141], SpecialFontChar (lit "V") (lit "mathbb")); (* 304 𝕍 *)
  ([120142], SpecialFontChar (lit "W") (lit "mathbb")); (* 305 𝕎 *)
  ([120143], SpecialFontChar (lit "X") (lit "mathbb")); (* 306 𝕏 *)
  ([120144], SpecialFontChar (lit "Y") (lit "mathbb")); (* 307 𝕐 *)
  ([8484], SpecialFontChar (lit "Z") (lit "mathbb")); (* 308 ℤ *)
  ([120792], SpecialFontChar (lit "0") (lit "mathbb")); (* 309 𝟘 *)
  ([120793], SpecialFontChar (lit "1") (lit "mathbb")); (* 310 𝟙 *)
  ([120794], SpecialFontChar (lit "2") (lit "mathbb")); (* 311 𝟚 *)
  ([120795], SpecialFontChar (lit "3") (lit "mathbb")); (* 312 𝟛 *)
  ([120796], SpecialFontChar (lit "4") (lit "mathbb")); (* 313 𝟜 *)
  ([120797], SpecialFontChar (lit "5") (lit "mathbb")); (* 314 𝟝 *)
  ([120798], SpecialFontChar (lit "6") (lit "mathbb")); (* 315 𝟞 *)
  ([120799], SpecialFontChar (lit "7") (lit "mathbb")); (* 316 𝟟 *)
  ([120800], SpecialFontChar (lit "8") (lit "mathbb")); (* 317 𝟠 *)
  ([120801], SpecialFontChar (lit "9") (lit "mathbb")); (* 318 𝟡 *)
  ([119964], SpecialFontChar (lit "A") (lit "mathcal")); (* 321 𝒜 *)
  ([120016], SpecialFontChar (lit "A") (lit "mathcal")); (* 322 𝓐 *)
  ([8492], SpecialFontChar (lit "B") (lit "mathcal")); (* 323 ℬ *)
  ([119966], SpecialFontChar (lit "C") (lit "mathcal")); (* 324 𝒞 *)
  ([119967], SpecialFontChar (lit "D") (lit "mathcal")); (* 325 𝒟 *)
  ([120019], SpecialFontChar (lit "D") (lit "mathcal")); (* 326 𝓓 *)
  ([8496], SpecialFontChar (lit "E") (lit "mathcal")); (* 327 ℰ *)
  ([8497], SpecialFontChar (lit "F") (lit "mathcal")); (* 328 ℱ *)
  ([120021], SpecialFontChar (lit "F") (lit "mathcal")); (* 329 𝓕 *)
  ([119970], SpecialFontChar (lit "G") (lit "mathcal")); (* 330 𝒢 *)
  ([8459], SpecialFontChar (lit "H") (lit "mathcal")); (* 331 ℋ *)
  ([8464], SpecialFontChar (lit "I") (lit "mathcal")); (* 332 ℐ *)
  ([119973], SpecialFontChar (lit "J") (lit "mathcal")); (* 333 𝒥 *)
  ([119974], SpecialFontChar (lit "K") (lit "mathcal")); (* 334 𝒦 *)
  ([8466], SpecialFontChar (lit "L") (lit "mathcal")); (* 335 ℒ *)
  ([120027], SpecialFontChar (lit "L") (lit "mathcal")); (* 336 𝓛 *)
  ([8499], SpecialFontChar (lit "M") (lit "mathcal")); (* 337 ℳ *)
  ([119977], SpecialFontChar (lit "N") (lit "mathcal")); (* 338 𝒩 *)
  ([119978], SpecialFontChar (lit "O") (lit "mathcal")); (* 339 𝒪 *)
  ([120030], SpecialFontChar (lit "O") (lit "mathcal")); (* 340 𝓞 *)
  ([119979], SpecialFontChar (lit "P") (lit "mathcal")); (* 341 𝒫 *)
  ([119980], SpecialFontChar (lit "Q") (lit "mathcal")); (* 342 𝒬 *)
  ([8475], SpecialFontChar (lit "R") (lit "mathcal")); (* 343 ℛ *)
  ([120189], SpecialFontChar (lit "R") (lit "mathcal")); (* 344 𝕽 *)
  ([8479], SpecialFontChar (lit "R") (lit "mathcal")); (* 345 ℟ *)
  ([119982], SpecialFontChar (lit "S") (lit "mathcal")); (* 346 𝒮 *)
  ([119983], SpecialFontChar (lit "T") (lit "mathcal")); (* 347 𝒯 *)
  ([119984], SpecialFontChar (lit "U") (lit "mathcal")); (* 348 𝒰 *)
  ([119985], SpecialFontChar (lit "V") (lit "mathcal")); (* 349 𝒱 *)
  ([119986], SpecialFontChar (lit "W") (lit "mathcal")); (* 350 𝒲 *)
  ([119987], SpecialFontChar (lit "X") (lit "mathcal")); (* 351 𝒳 *)
  ([119988], SpecialFontChar (lit "Y") (lit "mathcal")); (* 352 𝒴 *)
  ([119989], SpecialFontChar (lit "Z") (lit "mathcal")); (* 353 𝒵 *)
  ([120068], SpecialFontChar (lit "A") (lit "mathfrak")); (* 356 𝔄 *)
  ([120069], SpecialFontChar (lit "B") (lit "mathfrak")); (* 357 𝔅 *)
  ([8493], SpecialFontChar (lit "C") (lit "mathfrak")); (* 358 ℭ *)
  ([120071], SpecialFontChar (lit "D") (lit "mathfrak")); (* 359 𝔇 *)
  ([120072], SpecialFontChar (lit "E") (lit "mathfrak")); (* 360 𝔈 *)
  ([120073], SpecialFontChar (lit "F") (lit "mathfrak")); (* 361 𝔉 *)
  ([120074], SpecialFontChar (lit "G") (lit "mathfrak")); (* 362 𝔊 *)
  ([8460], SpecialFontChar (lit "H") (lit "mathfrak")); (* 363 ℌ *)
  ([8465], SpecialFontChar (lit "I") (lit "mathfrak")); (* 364 ℑ *)
  ([120077], SpecialFontChar (lit "J") (lit "mathfrak")); (* 365 𝔍 *)
  ([120078], SpecialFontChar (lit "K") (lit "mathfrak")); (* 366 𝔎 *)
  ([120079], SpecialFontChar (lit "L") (lit "mathfrak")); (* 367 𝔏 *)
  ([120080], SpecialFontChar (lit "M") (lit "mathfrak")); (* 368 𝔐 *)
  ([120081], SpecialFontChar (lit "N") (lit "mathfrak")); (* 369 𝔑 *)
  ([120082], SpecialFontChar (lit "O") (lit "mathfrak")); (* 370 𝔒 *)
  ([120083], SpecialFontChar (lit "P") (lit "mathfrak")); (* 371 𝔓 *)
  ([120084], SpecialFontChar (lit "Q") (lit "mathfrak")); (* 372 𝔔 *)
  ([8476], SpecialFontChar (lit "R") (lit "mathfrak")); (* 373 ℜ *)
  ([120086], SpecialFontChar (lit "S") (lit "mathfrak")); (* 374 𝔖 *)
  ([120087], SpecialFontChar (lit "T") (lit "mathfrak")); (* 375 𝔗 *)
  ([120088], SpecialFontChar (lit "U") (lit "mathfrak")); (* 376 𝔘 *)
  ([120089], SpecialFontChar (lit "V") (lit "mathfrak")); (* 377 𝔙 *)
  ([120090], SpecialFontChar (lit "W") (lit "mathfrak")); (* 378 𝔚 *)
  ([120091], SpecialFontChar (lit "X") (lit "mathfrak")); (* 379 𝔛 *)
  ([120092], SpecialFontChar (lit "Y") (lit "mathfrak")); (* 380 𝔜 *)
  ([8488], SpecialFontChar (lit "Z") (lit "mathfrak")); (* 381 ℨ *)
  ([120224], SpecialFontChar (lit "A") (lit "mathsf")); (* 384 𝖠 *)
  ([913], SpecialFontChar (lit "A") (lit "mathsf")); (* 385 Α *)
  ([120225], SpecialFontChar (lit "B") (lit "mathsf")); (* 386 𝖡 *)
  ([914], SpecialFontChar (lit "B") (lit "mathsf")); (* 387 Β *)
  ([120226], SpecialFontChar (lit "C") (lit "mathsf")); (* 388 𝖢 *)
  ([120227], SpecialFontChar (lit "D") (lit "mathsf")); (* 389 𝖣 *)
  ([120228], SpecialFontChar (lit "E") (lit "mathsf")); (* 390 𝖤 *)
  ([120229], SpecialFontChar (lit "F") (lit "mathsf")); (* 391 𝖥 *)
  ([120230], SpecialFontChar (lit "G") (lit "mathsf")); (* 392 𝖦 *)
  ([120231], SpecialFontChar (lit "H") (lit "mathsf")); (* 393 𝖧 *)
  ([120232], SpecialFontChar (lit "I") (lit "mathsf")); (* 394 𝖨 *)
  ([120233], SpecialFontChar (lit "J") (lit "mathsf")); (* 395 𝖩 *)
  ([567], SpecialFontChar (lit "J") (lit "mathsf")); (* 396 ȷ *)
  ([120234], SpecialFontChar (lit "K") (lit "mathsf")); (* 397 𝖪 *)
  ([922], SpecialFontChar (lit "K") (lit "mathsf")); (* 398 Κ *)
  ([120235], SpecialFontChar (lit "L") (lit "mathsf")); (* 399 𝖫 *)
  ([120236], SpecialFontChar (lit "M") (lit "mathsf")); (* 400 𝖬 *)
  ([120237], SpecialFontChar (lit "N") (lit "mathsf")); (* 401 𝖭 *)
  ([120238], SpecialFontChar (lit "O") (lit "mathsf")); (* 402 𝖮 *)
  ([120239], SpecialFontChar (lit "P") (lit "mathsf")); (* 403 𝖯 *)
  ([120240], SpecialFontChar (lit "Q") (lit "mathsf")); (* 404 𝖰 *)
  ([120241], SpecialFontChar (lit "R") (lit "mathsf")); (* 405 𝖱 *)
  ([120242], SpecialFontChar (lit "S") (lit "mathsf")); (* 406 𝖲 *)
  ([120243], SpecialFontChar (lit "T") (lit "mathsf")); (* 407 𝖳 *)
  ([120244], SpecialFontChar (lit "U") (lit "mathsf")); (* 408 𝖴 *)
  ([120245], SpecialFontChar (lit "V") (lit "mathsf")); (* 409 𝖵 *)
  ([120246], SpecialFontChar (lit "W") (lit "mathsf")); (* 410 𝖶 *)
  ([120247], SpecialFontChar (lit "X") (lit "mathsf")); (* 411 𝖷 *)
  ([935], SpecialFontChar (lit "X") (lit "mathsf")); (* 412 Χ *)
  ([120248], SpecialFontChar (lit "Y") (lit "mathsf")); (* 413 𝖸 *)
  ([120249], SpecialFontChar (lit "Z") (lit "mathsf")); (* 414 𝖹 *)
  ([120488], SpecialFontChar (lit "A") (lit "mathtt")); (* 417 𝚨 *)
  ([120489], SpecialFontChar (lit "B") (lit "mathtt")); (* 418 𝚩 *)
  ([120490], SpecialFontChar (lit "\Gamma") (lit "mathtt")); (* 419 𝚪 *)
  ([120491], SpecialFontChar (lit "\Delta") (lit "mathtt")); (* 420 𝚫 *)
  ([120492], SpecialFontChar (lit "E") (lit "mathtt")); (* 421 𝚬 *)
  ([120493], SpecialFontChar (lit "F") (lit "mathtt")); (* 422 𝚭 *)
  ([120494], SpecialFontChar (lit "G") (lit "mathtt")); (* 423 𝚮 *)
  ([120495], SpecialFontChar (lit "\Theta") (lit "mathtt")); (* 424 𝚯 *)
  ([120496], SpecialFontChar (lit "I") (lit "mathtt")); (* 425 𝚰 *)
  ([120497], SpecialFontChar (lit "J") (lit "mathtt")); (* 426 𝚱 *)
  ([120498], SpecialFontChar (lit "\Lambda") (lit "mathtt")); (* 427 𝚲 *)
  ([120499], SpecialFontChar (lit "L") (lit "mathtt")); (* 428 𝚳 *)
  ([120500], SpecialFontChar (lit "M") (lit "mathtt")); (* 429 𝚴 *)
  ([120501], SpecialFontChar (lit "\Pi") (lit "mathtt")); (* 430 𝚵 *)
  ([120502], SpecialFontChar (lit "O") (lit "mathtt")); (* 431 𝚶 *)
  ([120503], SpecialFontChar (lit "\Pi") (lit "mathtt")); (* 432 𝚷 *)
  ([120504], SpecialFontChar (lit "Q") (lit "mathtt")); (* 433 𝚸 *)
  ([120505], SpecialFontChar (lit "R") (lit "mathtt")); (* 434 𝚹 *)
  ([120506], SpecialFontChar (lit "S") (lit "mathtt")); (* 435 𝚺 *)
  ([120507], SpecialFontChar (lit "T") (lit "mathtt")); (* 436 𝚻 *)
  ([120508], SpecialFontChar (lit "U") (lit "mathtt")); (* 437 𝚼 *)
  ([120509], SpecialFontChar (lit "\Phi") (lit "mathtt")); (* 438 𝚽 *)
  ([120510], SpecialFontChar (lit "W") (lit "mathtt")); (* 439 𝚾 *)
  ([120511], SpecialFontChar (lit "\Psi") (lit "mathtt")); (* 440 𝚿 *)
  ([120512], SpecialFontChar (lit "\Omega") (lit "mathtt")) (* 441 𝛀 *)
].

(** syntax.py:444-534 *)
Definition all_math_symbols_by_char : dict str := [
  ([38;35;120;65;48;59], lit "\textrm{ }"); (* 445 *)
  ([38;35;120;50;50;48;51;59], lit "\exists"); (* 446 *)
  ([38;35;120;50;50;48;48;59], lit "\forall"); (* 447 *)
  ([38;35;120;50;49;68;52;59], lit "\iff"); (* 448 *)
  ([38;35;120;50;49;68;50;59], lit "=>"); (* 449 *)
  ([38;35;120;65;67;59], lit "\neg"); (* 450 *)
  ([38;35;120;50;49;50;52;59], lit "\mathbb{Z}"); (* 451 *)
  ([38;35;120;50;49;49;68;59], lit "\mathbb{R}"); (* 452 *)
  ([38;35;120;50;49;49;65;59], lit "\mathbb{Q}"); (* 453 *)
  ([38;35;120;50;49;49;53;59], lit "\mathbb{N}"); (* 454 *)
  ([38;35;120;50;49;48;50;59], lit "CC"); (* 455 *)
  ([38;35;120;50;53;65;49;59], lit "\square"); (* 456 *)
  ([38;35;120;50;50;67;52;59], lit "\diamond"); (* 457 *)
  ([38;35;120;50;53;66;51;59], lit "\triangle"); (* 458 *)
  ([38;35;120;50;51;50;50;59], lit "\frown"); (* 459 *)
  ([38;35;120;50;50;50;48;59], lit "\angle"); (* 460 *)
  ([38;35;120;50;50;70;49;59], lit "\ddots"); (* 461 *)
  ([38;35;120;50;50;69;69;59], lit "\vdots"); (* 462 *)
  ([38;35;120;50;50;51;53;59], lit "\because"); (* 463 *)
  ([38;35;120;50;50;51;52;59], lit "\therefore"); (* 464 *)
  ([38;35;120;50;49;51;53;59], lit "\aleph"); (* 465 *)
  ([38;35;120;50;50;48;53;59], lit "\oslash"); (* 466 *)
  ([38;35;120;66;49;59], lit "\pm"); (* 467 *)
  ([38;35;120;50;50;48;55;59], lit "\nabla"); (* 468 *)
  ([38;35;120;50;50;48;50;59], lit "\partial"); (* 469 *)
  ([38;35;120;50;50;50;69;59], lit "\oint"); (* 470 *)
  ([38;35;120;50;50;50;66;59], lit "\int"); (* 471 *)
  ([38;35;120;50;50;67;51;59], lit "\cup"); (* 472 *)
  ([38;35;120;50;50;50;65;59], lit "\cup"); (* 473 *)
  ([38;35;120;50;50;67;50;59], lit "\cap"); (* 474 *)
  ([38;35;120;50;50;50;57;59], lit "\cap"); (* 475 *)
  ([38;35;120;50;50;67;49;59], lit "\vee"); (* 476 *)
  ([38;35;120;50;50;50;56;59], lit "\vee"); (* 477 *)
  ([38;35;120;50;50;67;48;59], lit "\wedge"); (* 478 *)
  ([38;35;120;50;50;50;55;59], lit "\wedge"); (* 479 *)
  ([38;35;120;50;50;48;70;59], lit "\prod"); (* 480 *)
  ([38;35;120;50;50;49;49;59], lit "\sum"); (* 481 *)
  ([38;35;120;50;50;57;57;59], lit "\bigodot"); (* 482 *)
  ([38;35;120;50;50;57;55;59], lit "\bigoplus"); (* 483 *)
  ([38;35;120;50;50;57;53;59], lit "o+"); (* 484 *)
  ([38;35;120;50;50;49;56;59], lit "@"); (* 485 *)
  ([38;35;120;50;50;67;56;59], lit "\bowtie"); (* 486 *)
  ([38;35;120;50;50;67;65;59], lit "\rtimes"); (* 487 *)
  ([38;35;120;50;50;67;57;59], lit "\ltimes"); (* 488 *)
  ([38;35;120;70;55;59], lit "\div"); (* 489 *)
  ([38;35;120;68;55;59], lit "\times"); (* 490 *)
  ([92], lit "\backslash"); (* 491 *)
  ([38;35;120;50;50;67;54;59], lit "\star"); (* 492 *)
  ([38;35;120;50;50;49;55;59], lit "\star"); (* 493 *)
  ([38;35;120;50;50;67;53;59], lit "\cdot"); (* 494 *)
  ([38;35;120;51;65;57;59], lit "\Omega"); (* 495 *)
  ([38;35;120;51;67;57;59], lit "\omega"); (* 496 *)
  ([38;35;120;51;65;56;59], lit "\Psi"); (* 497 *)
  ([38;35;120;51;67;56;59], lit "\psi"); (* 498 *)
  ([38;35;120;51;67;55;59], lit "\chi"); (* 499 *)
  ([38;35;120;51;67;54;59], lit "\varphi"); (* 500 *)
  ([38;35;120;51;65;54;59], lit "\Phi"); (* 501 *)
  ([38;35;120;51;68;53;59], lit "\phi"); (* 502 *)
  ([38;35;120;51;67;53;59], lit "\upsilon"); (* 503 *)
  ([38;35;120;51;67;52;59], lit "\tau"); (* 504 *)
  ([38;35;120;51;65;51;59], lit "\Sigma"); (* 505 *)
  ([38;35;120;51;67;51;59], lit "\sigma"); (* 506 *)
  ([38;35;120;51;67;49;59], lit "\rho"); (* 507 *)
  ([38;35;120;51;65;48;59], lit "\Pi"); (* 508 *)
  ([38;35;120;51;67;48;59], lit "\pi"); (* 509 *)
  ([38;35;120;51;57;69;59], lit "\Xi"); (* 510 *)
  ([38;35;120;51;66;69;59], lit "\xi"); (* 511 *)
  ([38;35;120;51;66;68;59], lit "\nu"); (* 512 *)
  ([38;35;120;51;66;67;59], lit "\mu"); (* 513 *)
  ([38;35;120;51;57;66;59], lit "\Lambda"); (* 514 *)
  ([38;35;120;51;66;66;59], lit "\lambda"); (* 515 *)
  ([38;35;120;51;66;65;59], lit "\kappa"); (* 516 *)
  ([38;35;120;51;66;57;59], lit "\iota"); (* 517 *)
  ([38;35;120;51;68;49;59], lit "\vartheta"); (* 518 *)
  ([38;35;120;51;57;56;59], lit "\Theta"); (* 519 *)
  ([38;35;120;51;66;56;59], lit "\theta"); (* 520 *)
  ([38;35;120;51;66;55;59], lit "\eta"); (* 521 *)
  ([38;35;120;51;66;54;59], lit "\zeta"); (* 522 *)
  ([38;35;120;50;53;66;59], lit "\varepsilon"); (* 523 *)
  ([38;35;120;51;66;53;59], lit "\epsilon"); (* 524 *)
  ([38;35;120;51;57;52;59], lit "\Delta"); (* 525 *)
  ([38;35;120;51;66;52;59], lit "\delta"); (* 526 *)
  ([38;35;120;51;57;51;59], lit "\Gamma"); (* 527 *)
  ([38;35;120;51;66;51;59], lit "\gamma"); (* 528 *)
  ([38;35;120;51;66;50;59], lit "\beta"); (* 529 *)
  ([38;35;120;51;66;49;59], lit "\alpha"); (* 530 *)
  ([38;35;120;50;50;49;69;59], lit "\infty"); (* 531 *)
  ([8236], lit "\text{\textdir TRT}"); (* 532 *)
  ([8206], lit "\text{\textdir LTR}") (* 533 *)
].

(** syntax.py:536-889 *)
Definition all_math_symbols_by_glyph : dict str := [
  ([32], lit "\textrm{ }"); (* 537 *)
  ([8707], lit "\exists"); (* 538 ∃ *)
  ([8704], lit "\forall"); (* 539 ∀ *)
  ([8660], lit "\iff"); (* 540 ⇔ *)
  ([8658], lit "\Rightarrow"); (* 541 ⇒ *)
  ([172], lit "\neg"); (* 542 ¬ *)
  ([9633], lit "\square"); (* 543 □ *)
  ([8900], lit "\diamond"); (* 544 ⋄ *)
  ([9651], lit "\triangle"); (* 545 △ *)
  ([8994], lit "\frown"); (* 546 ⌢ *)
  ([8736], lit "\angle"); (* 547 ∠ *)
  ([8945], lit "\ddots"); (* 548 ⋱ *)
  ([8942], lit "\vdots"); (* 549 ⋮ *)
  ([8757], lit "\because"); (* 550 ∵ *)
  ([8756], lit "\therefore"); (* 551 ∴ *)
  ([8501], lit "\aleph"); (* 552 ℵ *)
  ([8709], lit "\emptyset"); (* 553 ∅ *)
  ([177], lit "\pm"); (* 554 ± *)
  ([8711], lit "\nabla"); (* 555 ∇ *)
  ([8706], lit "\partial"); (* 556 ∂ *)
  ([8750], lit "\oint"); (* 557 ∮ *)
  ([8747], lit "\int"); (* 558 ∫ *)
  ([8899], lit "\cup"); (* 559 ⋃ *)
  ([8746], lit "\cup"); (* 560 ∪ *)
  ([8898], lit "\cap"); (* 561 ⋂ *)
  ([8745], lit "\cap"); (* 562 ∩ *)
  ([8897], lit "\vee"); (* 563 ⋁ *)
  ([8744], lit "\vee"); (* 564 ∨ *)
  ([8896], lit "\wedge"); (* 565 ⋀ *)
  ([8743], lit "\wedge"); (* 566 ∧ *)
  ([8719], lit "\prod"); (* 567 ∏ *)
  ([8721], lit "\sum"); (* 568 ∑ *)
  ([8857], lit "\bigodot"); (* 569 ⊙ *)
  ([8855], lit "\bigoplus"); (* 570 ⊗ *)
  ([8853], lit "o+"); (* 571 ⊕ *)
  ([8728], lit "@"); (* 572 ∘ *)
  ([8904], lit "\bowtie"); (* 573 ⋈ *)
  ([8906], lit "\rtimes"); (* 574 ⋊ *)
  ([8905], lit "\ltimes"); (* 575 ⋉ *)
  ([247], lit "\div"); (* 576 ÷ *)
  ([215], lit "\times"); (* 577 × *)
  ([92], lit "\backslash"); (* 578 *)
  ([8902], lit "\star"); (* 579 ⋆ *)
  ([8727], lit "\star"); (* 580 ∗ *)
  ([8901], lit "\cdot"); (* 581 ⋅ *)
  ([937], lit "\Omega"); (* 582 Ω *)
  ([969], lit "\omega"); (* 583 ω *)
  ([936], lit "\Psi"); (* 584 Ψ *)
  ([968], lit "\psi"); (* 585 ψ *)
  ([967], lit "\chi"); (* 586 χ *)
  ([966], lit "\varphi"); (* 587 φ *)
  ([934], lit "\Phi"); (* 588 Φ *)
  ([981], lit "\phi"); (* 589 ϕ *)
  ([965], lit "\upsilon"); (* 590 υ *)
  ([964], lit "\tau"); (* 591 τ *)
  ([931], lit "\Sigma"); (* 592 Σ *)
  ([963], lit "\sigma"); (* 593 σ *)
  ([961], lit "\rho"); (* 594 ρ *)
  ([928], lit "\Pi"); (* 595 Π *)
  ([960], lit "\pi"); (* 596 π *)
  ([926], lit "\Xi"); (* 597 Ξ *)
  ([958], lit "\xi"); (* 598 ξ *)
  ([957], lit "\nu"); (* 599 ν *)
  ([956], lit "\mu"); (* 600 μ *)
  ([923], lit "\Lambda"); (* 601 Λ *)
  ([955], lit "\lambda"); (* 602 λ *)
  ([954], lit "\kappa"); (* 603 κ *)
  ([953], lit "\iota"); (* 604 ι *)
  ([977], lit "\vartheta"); (* 605 ϑ *)
  ([920], lit "\Theta"); (* 606 Θ *)
  ([952], lit "\theta"); (* 607 θ *)
  ([951], lit "\eta"); (* 608 η *)
  ([950], lit "\zeta"); (* 609 ζ *)
  ([603], lit "\varepsilon"); (* 610 ɛ *)
  ([949], lit "\epsilon"); (* 611 ε *)
  ([916], lit "\Delta"); (* 612 Δ *)
  ([948], lit "\delta"); (* 613 δ *)
  ([915], lit "\Gamma"); (* 614 Γ *)
  ([947], lit "\gamma"); (* 615 γ *)
  ([946], lit "\beta"); (* 616 β *)
  ([945], lit "\alpha"); (* 617 α *)
  ([8734], lit "\infty"); (* 618 ∞ *)
  ([1013], lit "\epsilon"); (* 619 ϵ *)
  ([181], lit "\mu"); (* 620 µ *)
  ([178], lit "^{2}"); (* 621 ² *)
  ([305], lit "\imath"); (* 622 ı *)
  ([8718], lit "\blacksquare"); (* 623 ∎ *)
  ([3617], lit "\mathbf{m}"); (* 624 ม *)
  ([8486], lit "\Omega"); (* 625 Ω *)
  ([10226], lit "\circlearrowleft"); (* 626 ⟲ *)
  ([10227], lit "\circlearrowright"); (* 627 ⟳ *)
  ([2340], lit " "); (* 628 त *)
  ([165], lit "\yen"); (* 629 ¥ *)
  ([8317], lit "^{(}"); (* 630 ⁽ *)
  ([8318], lit "^{)}"); (* 631 ⁾ *)
  ([223], lit "\ss"); (* 632 ß *)
  ([1035], lit "\hbar"); (* 633 Ћ *)
  ([10677], lit "\ominus"); (* 634 ⦵ *)
  ([8895], lit "\bigtriangleup"); (* 635 ⊿ *)
  ([8603;39], lit "\nrightarrow"); (* 636 *)
  ([8224], lit "\dagger"); (* 637 † *)
  ([3648], lit "\prime"); (* 638 เ *)
  ([30333], lit " "); (* 639 白 *)
  ([12273], lit " "); (* 640 ⿱ *)
  ([8504], lit "\wp"); (* 641 ℸ *)
  ([54528], lit " "); (* 642 픀 *)
  ([8319], lit "^{n}"); (* 643 ⁿ *)
  ([10004], lit "\checkmark"); (* 644 ✔ *)
  ([10007], lit "\times"); (* 645 ✗ *)
  ([189], lit "\dfrac{1}{2}"); (* 646 ½ *)
  ([1256], lit "\theta"); (* 647 Ө *)
  ([10003], lit "\checkmark"); (* 648 ✓ *)
  ([10217], lit "\rangle"); (* 649 ⟩ *)
  ([10216], lit "\langle"); (* 650 ⟨ *)
  ([9001], lit "\langle"); (* 651 〈 *)
  ([188], lit "\dfrac{1}{4}"); (* 652 ¼ *)
  ([8230], lit "\ldots"); (* 653 … *)
  ([8463], lit "\hbar"); (* 654 ℏ *)
  ([8476], lit "\mathfrak{R}"); (* 655 ℜ *)
  ([1138], lit "\theta"); (* 656 Ѳ *)
  ([216], lit "\emptyset"); (* 657 Ø *)
  ([1009], lit "\varrho"); (* 658 ϱ *)
  ([1092], lit "\phi"); (* 659 ф *)
  ([84], lit "T"); (* 660 *)
  ([8729], lit "\cdot"); (* 661 ∙ *)
  ([929], lit "P"); (* 662 Ρ *)
  ([5121], lit "\nabla"); (* 663 ᐁ *)
  ([414], lit "\eta"); (* 664 ƞ *)
  ([611], lit "\gamma"); (* 665 ɣ *)
  ([1115], lit "\hbar"); (* 666 ћ *)
  ([400], lit "\varepsilon"); (* 667 Ɛ *)
  ([8517], lit "\_{D}"); (* 668 ⅅ *)
  ([120582], lit "\lambda"); (* 669 𝜆 *)
  ([12311], lit "\rangle"); (* 670 〗 *)
  ([12310], lit "\langle"); (* 671 〖 *)
  ([894], lit ";"); (* 672 ; *)
  ([119909], lit "x"); (* 673 𝑥 *)
  ([119910], lit "y"); (* 674 𝑦 *)
  ([119911], lit "z"); (* 675 𝑧 *)
  ([119894], lit "i"); (* 676 𝑖 *)
  ([119895], lit "j"); (* 677 𝑗 *)
  ([119896], lit "k"); (* 678 𝑘 *)
  ([119898], lit "m"); (* 679 𝑚 *)
  ([119890], lit "e"); (* 680 𝑒 *)
  ([119903], lit "r"); (* 681 𝑟 *)
  ([627], lit "\eta"); (* 682 ɳ *)
  ([120573], lit "\beta"); (* 683 𝛽 *)
  ([9077], lit "\omega"); (* 684 ⍵ *)
  ([8472], lit "\wp"); (* 685 ℘ *)
  ([120587], lit "\pi"); (* 686 𝜋 *)
  ([1028], lit "\epsilon"); (* 687 Є *)
  ([1108], lit "\epsilon"); (* 688 є *)
  ([120576], lit "\epsilon"); (* 689 𝜀 *)
  ([1087], lit "\pi"); (* 690 п *)
  ([925], lit "\nu"); (* 691 Ν *)
  ([629], lit "\theta"); (* 692 ɵ *)
  ([120595], lit "\psi"); (* 693 𝜓 *)
  ([1012], lit "\theta"); (* 694 ϴ *)
  ([632], lit "\phi"); (* 695 ɸ *)
  ([1270], lit "\Gamma"); (* 696 Ӷ *)
  ([621], lit "\ell"); (* 697 ɭ *)
  ([651], lit "\upsilon"); (* 698 ʋ *)
  ([120543], lit "\varphi"); (* 699 𝛟 *)
  ([9068], lit "\theta"); (* 700 ⍬ *)
  ([1060], lit "\Phi"); (* 701 Ф *)
  ([120593], lit "\varphi"); (* 702 𝜑 *)
  ([8520], lit "i"); (* 703 ⅈ *)
  ([959], lit "o"); (* 704 ο *)
  ([417], lit "o"); (* 705 ơ *)
  ([402], lit "f"); (* 706 ƒ *)
  ([9076], lit "\rho"); (* 707 ⍴ *)
  ([127485], lit "x"); (* 708 🇽 *)
  ([119901], lit "p"); (* 709 𝑝 *)
  ([119902], lit "q"); (* 710 𝑞 *)
  ([119904], lit "s"); (* 711 𝑠 *)
  ([119905], lit "t"); (* 712 𝑡 *)
  ([119906], lit "u"); (* 713 𝑢 *)
  ([119907], lit "v"); (* 714 𝑣 *)
  ([119908], lit "w"); (* 715 𝑤 *)
  ([119886], lit "a"); (* 716 𝑎 *)
  ([119887], lit "b"); (* 717 𝑏 *)
  ([119888], lit "c"); (* 718 𝑐 *)
  ([119889], lit "d"); (* 719 𝑑 *)
  ([119891], lit "f"); (* 720 𝑓 *)
  ([119892], lit "g"); (* 721 𝑔 *)
  ([119897], lit "l"); (* 722 𝑙 *)
  ([119899], lit "n"); (* 723 𝑛 *)
  ([119900], lit "o"); (* 724 𝑜 *)
  ([120064], lit "w"); (* 725 𝔀 *)
  ([120479], lit "v"); (* 726 𝚟 *)
  ([7745], lit "m"); (* 727 ṁ *)
  ([3430], lit "\circ"); (* 728 ൦ *)
  ([9524], lit "\perp"); (* 729 ┴ *)
  ([10005], lit "\times"); (* 730 ✕ *)
  ([8739], lit "\mid"); (* 731 ∣ *)
  ([1363], lit "\Phi"); (* 732 Փ *)
  ([9116], lit "\mid"); (* 733 ⎜ *)
  ([295], lit "\hbar"); (* 734 ħ *)
  ([4936], lit " "); (* 735 ፈ *)
  ([10664], lit "\llbracket"); (* 736 ⦨ *)
  ([7871], lit "\hat{e}"); (* 737 ế *)
  ([162], lit "\cent"); (* 738 ¢ *)
  ([10553], lit "\downarrow"); (* 739 ⤹ *)
  ([10552], lit "\downarrow"); (* 740 ⤸ *)
  ([10551], lit "\Rsh"); (* 741 ⤷ *)
  ([10550], lit "\Lsh"); (* 742 ⤶ *)
  ([10549], lit "\downarrow"); (* 743 ⤵ *)
  ([10548], lit "\uparrow"); (* 744 ⤴ *)
  ([10547], lit "\rightarrow"); (* 745 ⤳ *)
  ([124], lit "\mid"); (* 746 *)
  ([9125], lit "\mid"); (* 747 ⎥ *)
  ([9829], lit "\heartsuit"); (* 748 ♥ *)
  ([1054], lit "0"); (* 749 О *)
  ([933], lit "Y"); (* 750 Υ *)
  ([1093], lit "x"); (* 751 х *)
  ([120015], lit "z"); (* 752 𝓏 *)
  ([120014], lit "y"); (* 753 𝓎 *)
  ([120013], lit "x"); (* 754 𝓍 *)
  ([1088], lit "p"); (* 755 р *)
  ([1072], lit "a"); (* 756 а *)
  ([163], lit "\pounds"); (* 757 £ *)
  ([109], lit "m"); (* 758 *)
  ([120501], lit "\Xi"); (* 759 𝚵 *)
  ([9450], lit "\textcircled{0}"); (* 760 ⓪ *)
  ([9312], lit "\textcircled{1}"); (* 761 ① *)
  ([9313], lit "\textcircled{2}"); (* 762 ② *)
  ([9314], lit "\textcircled{3}"); (* 763 ③ *)
  ([9315], lit "\textcircled{4}"); (* 764 ④ *)
  ([9316], lit "\textcircled{5}"); (* 765 ⑤ *)
  ([9317], lit "\textcircled{6}"); (* 766 ⑥ *)
  ([9318], lit "\textcircled{7}"); (* 767 ⑦ *)
  ([9319], lit "\textcircled{8}"); (* 768 ⑧ *)
  ([9320], lit "\textcircled{9}"); (* 769 ⑨ *)
  ([9321], lit "\textcircled{10}"); (* 770 ⑩ *)
  ([9322], lit "\textcircled{11}"); (* 771 ⑪ *)
  ([9323], lit "\textcircled{12}"); (* 772 ⑫ *)
  ([9324], lit "\textcircled{13}"); (* 773 ⑬ *)
  ([9325], lit "\textcircled{14}"); (* 774 ⑭ *)
  ([9326], lit "\textcircled{15}"); (* 775 ⑮ *)
  ([9327], lit "\textcircled{16}"); (* 776 ⑯ *)
  ([9328], lit "\textcircled{17}"); (* 777 ⑰ *)
  ([9329], lit "\textcircled{18}"); (* 778 ⑱ *)
  ([9330], lit "\textcircled{19}"); (* 779 ⑲ *)
  ([9331], lit "\textcircled{20}"); (* 780 ⑳ *)
  ([12881], lit "\textcircled{21}"); (* 781 ㉑ *)
  ([12882], lit "\textcircled{22}"); (* 782 ㉒ *)
  ([12883], lit "\textcircled{23}"); (* 783 ㉓ *)
  ([12884], lit "\textcircled{24}"); (* 784 ㉔ *)
  ([12885], lit "\textcircled{25}"); (* 785 ㉕ *)
  ([12886], lit "\textcircled{26}"); (* 786 ㉖ *)
  ([12887], lit "\textcircled{27}"); (* 787 ㉗ *)
  ([12888], lit "\textcircled{28}"); (* 788 ㉘ *)
  ([12889], lit "\textcircled{29}"); (* 789 ㉙ *)
  ([12890], lit "\textcircled{30}"); (* 790 ㉚ *)
  ([12891], lit "\textcircled{31}"); (* 791 ㉛ *)
  ([12892], lit "\textcircled{32}"); (* 792 ㉜ *)
  ([12893], lit "\textcircled{33}"); (* 793 ㉝ *)
  ([12894], lit "\textcircled{34}"); (* 794 ㉞ *)
  ([12895], lit "\textcircled{35}"); (* 795 ㉟ *)
  ([12977], lit "\textcircled{36}"); (* 796 ㊱ *)
  ([12978], lit "\textcircled{37}"); (* 797 ㊲ *)
  ([12979], lit "\textcircled{38}"); (* 798 ㊳ *)
  ([12980], lit "\textcircled{39}"); (* 799 ㊴ *)
  ([12981], lit "\textcircled{40}"); (* 800 ㊵ *)
  ([12982], lit "\textcircled{41}"); (* 801 ㊶ *)
  ([12983], lit "\textcircled{42}"); (* 802 ㊷ *)
  ([12984], lit "\textcircled{43}"); (* 803 ㊸ *)
  ([12985], lit "\textcircled{44}"); (* 804 ㊹ *)
  ([12986], lit "\textcircled{45}"); (* 805 ㊺ *)
  ([12987], lit "\textcircled{46}"); (* 806 ㊻ *)
  ([12988], lit "\textcircled{47}"); (* 807 ㊼ *)
  ([12989], lit "\textcircled{48}"); (* 808 ㊽ *)
  ([12990], lit "\textcircled{49}"); (* 809 ㊾ *)
  ([12991], lit "\textcircled{50}"); (* 810 ㊿ *)
  ([38], lit "\&"); (* 811 *)
  ([8214], lit "\parallel"); (* 812 ‖ *)
  ([37], lit "\%"); (* 813 *)
  ([8220], lit "\text{``}"); (* 814 “ *)
  ([36], lit "\$"); (* 815 *)
  ([35], lit "\#"); (* 816 *)
  ([8451], lit "\text{\textdegree C}"); (* 817 ℃ *)
  ([8457], lit "\text{\textdegree F}"); (* 818 ℉ *)
  ([9608], lit "\blacksquare"); (* 819 █ *)
  ([8487], lit "\mho"); (* 820 ℧ *)
  ([8971], lit "\rfloor"); (* 821 ⌋ *)
  ([8970], lit "\lfloor"); (* 822 ⌊ *)
  ([8969], lit "\rceil"); (* 823 ⌉ *)
  ([8968], lit "\lceil"); (* 824 ⌈ *)
  ([8455], lit "\varepsilon"); (* 825 ℇ *)
  ([8519], lit "\text{e}"); (* 826 ⅇ *)
  ([636], lit "r"); (* 827 ɼ *)
  ([8603], lit "\nrightarrow"); (* 828 ↛ *)
  ([710], lit "\hat{}"); (* 829 ˆ *)
  ([8254], lit "\overline"); (* 830 ‾ *)
  ([8594], lit "\rightarrow"); (* 831 → *)
  ([8225], lit "\ddagger"); (* 832 ‡ *)
  ([12539], lit "\cdot"); (* 833 ・ *)
  ([9649], lit "\square"); (* 834 ▱ *)
  ([8710], lit "\Delta"); (* 835 ∆ *)
  ([7985], lit "i"); (* 836 ἱ *)
  ([8737], lit "\angle"); (* 837 ∡ *)
  ([978], lit "\Upsilon"); (* 838 ϒ *)
  ([8595], lit "\downarrow"); (* 839 ↓ *)
  ([8593], lit "\uparrow"); (* 840 ↑ *)
  ([187], lit "\gg"); (* 841 » *)
  ([8868], lit "\top"); (* 842 ⊤ *)
  ([10744], lit "/"); (* 843 ⧸ *)
  ([120575], lit "\delta"); (* 844 𝛿 *)
  ([755], lit "\cdot"); (* 845 ˳ *)
  ([1417], lit ":"); (* 846 ։ *)
  ([10666], lit "\measuredangle"); (* 847 ⦪ *)
  ([10665], lit "\measuredangle"); (* 848 ⦩ *)
  ([10667], lit "\measuredangle"); (* 849 ⦫ *)
  ([10625], lit "\cdot"); (* 850 ⦁ *)
  ([1139], lit "\theta"); (* 851 ѳ *)
  ([10658], lit "\measuredangle"); (* 852 ⦢ *)
  ([184], lit ","); (* 853 ¸ *)
  ([9147], lit "\overline"); (* 854 ⎻ *)
  ([10214], lit "\llbracket"); (* 855 ⟦ *)
  ([120601], lit "\phi"); (* 856 𝜙 *)
  ([1055], lit "\prod"); (* 857 П *)
  ([1086], lit "o"); (* 858 о *)
  ([8776], lit "\approx"); (* 859 ≈ *)
  ([8804], lit "\leq"); (* 860 ≤ *)
  ([1106], lit "\hbar"); (* 861 ђ *)
  ([581], lit "\Lambda"); (* 862 Ʌ *)
  ([22303], lit "\pm"); (* 863 土 *)
  ([9148], lit "-"); (* 864 ⎼ *)
  ([21313], lit "+"); (* 865 十 *)
  ([8800], lit "\neq"); (* 866 ≠ *)
  ([8592], lit "\leftarrow"); (* 867 ← *)
  ([2404], lit "\mid"); (* 868 । *)
  ([8364], lit "\euro"); (* 869 € *)
  ([728], lit " "); (* 870 ˘ *)
  ([8161], lit "\bar{u}"); (* 871 ῡ *)
  ([8741], lit "\parallel"); (* 872 ∥ *)
  ([8596], lit "\leftrightarrow"); (* 873 ↔ *)
  ([8730], lit "\sqrt{}"); (* 874 √ *)
  ([572], lit "c"); (* 875 ȼ *)
  ([120750], lit "\epsilon"); (* 876 𝞮 *)
  ([183], lit "\cdot"); (* 877 · *)
  ([10668], lit "\measuredangle"); (* 878 ⦬ *)
  ([10670], lit "\measuredangle"); (* 879 ⦮ *)
  ([10669], lit "\measuredangle"); (* 880 ⦭ *)
  ([171], lit "\ll"); (* 881 « *)
  ([935], lit "\mathsf{X}"); (* 882 Χ *)
  ([9474], lit "\mid"); (* 883 │ *)
  ([9002], lit "\rangle"); (* 884 〉 *)
  ([8345], lit "_{n}"); (* 885 ₙ *)
  ([9643], lit "\square"); (* 886 ▫ *)
  ([9679], lit "\circle"); (* 887 ● *)
  ([8221], lit "\\""") (* 888 ” *)
].

(** syntax.py:891-983 *)
Definition math_number_by_glyph : dict str := [
  ([8320], lit "_{0}"); (* 892 ₀ *)
  ([8321], lit "_{1}"); (* 893 ₁ *)
  ([8322], lit "_{2}"); (* 894 ₂ *)
  ([8323], lit "_{3}"); (* 895 ₃ *)
  ([8324], lit "_{4}"); (* 896 ₄ *)
  ([8325], lit "_{5}"); (* 897 ₅ *)
  ([8326], lit "_{6}"); (* 898 ₆ *)
  ([8327], lit "_{7}"); (* 899 ₇ *)
  ([8328], lit "_{8}"); (* 900 ₈ *)
  ([8329], lit "_{9}"); (* 901 ₉ *)
  ([8304], lit "^{0}"); (* 902 ⁰ *)
  ([185], lit "^{1}"); (* 903 ¹ *)
  ([178], lit "^{2}"); (* 904 ² *)
  ([179], lit "^{3}"); (* 905 ³ *)
  ([8308], lit "^{4}"); (* 906 ⁴ *)
  ([8309], lit "^{5}"); (* 907 ⁵ *)
  ([8310], lit "^{6}"); (* 908 ⁶ *)
  ([8311], lit "^{7}"); (* 909 ⁷ *)
  ([8312], lit "^{8}"); (* 910 ⁸ *)
  ([8313], lit "^{9}"); (* 911 ⁹ *)
  ([8319], lit "^{n}"); (* 912 ⁿ *)
  ([8345], lit "_{n}"); (* 913 ₙ *)
  ([9450], lit "\textcircled{0}"); (* 914 ⓪ *)
  ([9312], lit "\textcircled{1}"); (* 915 ① *)
  ([9313], lit "\textcircled{2}"); (* 916 ② *)
  ([9314], lit "\textcircled{3}"); (* 917 ③ *)
  ([9315], lit "\textcircled{4}"); (* 918 ④ *)
  ([9316], lit "\textcircled{5}"); (* 919 ⑤ *)
  ([9317], lit "\textcircled{6}"); (* 920 ⑥ *)
  ([9318], lit "\textcircled{7}"); (* 921 ⑦ *)
  ([9319], lit "\textcircled{8}"); (* 922 ⑧ *)
  ([9320], lit "\textcircled{9}"); (* 923 ⑨ *)
  ([9321], lit "\textcircled{10}"); (* 924 ⑩ *)
  ([9322], lit "\textcircled{11}"); (* 925 ⑪ *)
  ([9323], lit "\textcircled{12}"); (* 926 ⑫ *)
  ([9324], lit "\textcircled{13}"); (* 927 ⑬ *)
  ([9325], lit "\textcircled{14}"); (* 928 ⑭ *)
  ([9326], lit "\textcircled{15}"); (* 929 ⑮ *)
  ([9327], lit "\textcircled{16}"); (* 930 ⑯ *)
  ([9328], lit "\textcircled{17}"); (* 931 ⑰ *)
  ([9329], lit "\textcircled{18}"); (* 932 ⑱ *)
  ([9330], lit "\textcircled{19}"); (* 933 ⑲ *)
  ([9331], lit "\textcircled{20}"); (* 934 ⑳ *)
  ([12881], lit "\textcircled{21}"); (* 935 ㉑ *)
  ([12882], lit "\textcircled{22}"); (* 936 ㉒ *)
  ([12883], lit "\textcircled{23}"); (* 937 ㉓ *)
  ([12884], lit "\textcircled{24}"); (* 938 ㉔ *)
  ([12885], lit "\textcircled{25}"); (* 939 ㉕ *)
  ([12886], lit "\textcircled{26}"); (* 940 ㉖ *)
  ([12887], lit "\textcircled{27}"); (* 941 ㉗ *)
  ([12888], lit "\textcircled{28}"); (* 942 ㉘ *)
  ([12889], lit "\textcircled{29}"); (* 943 ㉙ *)
  ([12890], lit "\textcircled{30}"); (* 944 ㉚ *)
  ([12891], lit "\textcircled{31}"); (* 945 ㉛ *)
  ([12892], lit "\textcircled{32}"); (* 946 ㉜ *)
  ([12893], lit "\textcircled{33}"); (* 947 ㉝ *)
  ([12894], lit "\textcircled{34}"); (* 948 ㉞ *)
  ([12895], lit "\textcircled{35}"); (* 949 ㉟ *)
  ([12977], lit "\textcircled{36}"); (* 950 ㊱ *)
  ([12978], lit "\textcircled{37}"); (* 951 ㊲ *)
  ([12979], lit "\textcircled{38}"); (* 952 ㊳ *)
  ([12980], lit "\textcircled{39}"); (* 953 ㊴ *)
  ([12981], lit "\textcircled{40}"); (* 954 ㊵ *)
  ([12982], lit "\textcircled{41}"); (* 955 ㊶ *)
  ([12983], lit "\textcircled{42}"); (* 956 ㊷ *)
  ([12984], lit "\textcircled{43}"); (* 957 ㊸ *)
  ([12985], lit "\textcircled{44}"); (* 958 ㊹ *)
  ([12986], lit "\textcircled{45}"); (* 959 ㊺ *)
  ([12987], lit "\textcircled{46}"); (* 960 ㊻ *)
  ([12988], lit "\textcircled{47}"); (* 961 ㊼ *)
  ([12989], lit "\textcircled{48}"); (* 962 ㊽ *)
  ([12990], lit "\textcircled{49}"); (* 963 ㊾ *)
  ([12991], lit "\textcircled{50}"); (* 964 ㊿ *)
  ([189], lit "\dfrac{1}{2}"); (* 965 ½ *)
  ([8531], lit "\dfrac{1}{3}"); (* 966 ⅓ *)
  ([8532], lit "\dfrac{2}{3}"); (* 967 ⅔ *)
  ([188], lit "\dfrac{1}{4}"); (* 968 ¼ *)
  ([190], lit "\dfrac{3}{4}"); (* 969 ¾ *)
  ([8533], lit "\dfrac{1}{5}"); (* 970 ⅕ *)
  ([8534], lit "\dfrac{2}{5}"); (* 971 ⅖ *)
  ([8535], lit "\dfrac{3}{5}"); (* 972 ⅗ *)
  ([8536], lit "\dfrac{4}{5}"); (* 973 ⅘ *)
  ([8537], lit "\dfrac{1}{6}"); (* 974 ⅙ *)
  ([8538], lit "\dfrac{5}{6}"); (* 975 ⅚ *)
  ([8528], lit "\dfrac{1}{7}"); (* 976 ⅐ *)
  ([8539], lit "\dfrac{1}{8}"); (* 977 ⅛ *)
  ([8540], lit "\dfrac{3}{8}"); (* 978 ⅜ *)
  ([8541], lit "\dfrac{5}{8}"); (* 979 ⅝ *)
  ([8542], lit "\dfrac{7}{8}"); (* 980 ⅞ *)
  ([8529], lit "\dfrac{1}{9}"); (* 981 ⅑ *)
  ([8530], lit "\dfrac{1}{10}") (* 982 ⅒ *)
].

(** syntax.py:985-2105 *)
Definition all_math_operators_by_char : dict str := [
  ([95], lit "\underline"); (* 986 *)
  ([38;35;120;50;51;69;49;59], lit "\underbrace"); (* 987 *)
  ([38;35;120;50;51;69;48;59], lit "\overbrace"); (* 988 *)
  ([38;35;120;50;51;68;70;59], lit "\underbrace"); (* 989 *)
  ([38;35;120;50;51;68;69;59], lit "\overbrace"); (* 990 *)
  ([38;35;120;50;51;68;68;59], lit "\underbrace"); (* 991 *)
  ([38;35;120;50;51;68;67;59], lit "\overbrace"); (* 992 *)
  ([38;35;120;50;51;66;53;59], lit "\underbrace"); (* 993 *)
  ([38;35;120;50;51;66;52;59], lit "\overbrace"); (* 994 *)
  ([38;35;120;50;48;68;67;59], lit "\square"); (* 995 *)
  ([38;35;120;50;48;68;66;59], lit "\square"); (* 996 *)
  ([38;35;120;50;48;54;52;59], lit ""); (* 997 *)
  ([38;35;120;50;48;53;55;59], lit "''''"); (* 998 *)
  ([38;35;120;50;48;51;69;59], lit "\bar"); (* 999 *)
  ([38;35;120;50;48;51;55;59], lit "```"); (* 1000 *)
  ([38;35;120;50;48;51;54;59], lit "``"); (* 1001 *)
  ([38;35;120;50;48;51;53;59], lit "`"); (* 1002 *)
  ([38;35;120;50;48;51;52;59], lit "'''"); (* 1003 *)
  ([38;35;120;50;48;51;51;59], lit "''"); (* 1004 *)
  ([38;35;120;50;48;49;70;59], lit "``"); (* 1005 *)
  ([38;35;120;50;48;49;69;59], lit ",,"); (* 1006 *)
  ([38;35;120;50;48;49;66;59], lit "`"); (* 1007 *)
  ([38;35;120;50;48;49;65;59], lit ","); (* 1008 *)
  ([38;35;120;51;48;50;59], lit "\hat"); (* 1009 *)
  ([38;35;120;50;70;55;59], lit "\sim"); (* 1010 *)
  ([38;35;120;50;68;68;59], lit "\sim"); (* 1011 *)
  ([38;35;120;50;68;67;59], lit "\sim"); (* 1012 *)
  ([38;35;120;50;68;65;59], lit "\circ"); (* 1013 *)
  ([38;35;120;50;68;57;59], lit "\cdot"); (* 1014 *)
  ([38;35;120;50;68;56;59], lit ""); (* 1015 *)
  ([38;35;120;50;67;68;59], lit "\_"); (* 1016 *)
  ([38;35;120;50;67;66;59], [715]); (* 1017 *)
  ([38;35;120;50;67;65;59], [714]); (* 1018 *)
  ([38;35;120;50;67;57;59], [713]); (* 1019 *)
  ([38;35;120;50;67;55;59], lit ""); (* 1020 *)
  ([38;35;120;50;67;54;59], lit "\hat"); (* 1021 *)
  ([38;35;120;66;65;59], lit "o"); (* 1022 *)
  ([38;35;120;66;57;59], lit "1"); (* 1023 *)
  ([38;35;120;66;56;59], [184]); (* 1024 *)
  ([38;35;120;66;52;59], [180]); (* 1025 *)
  ([38;35;120;66;51;59], lit "3"); (* 1026 *)
  ([38;35;120;66;50;59], lit "2"); (* 1027 *)
  ([38;35;120;66;48;59], lit "\circ"); (* 1028 *)
  ([38;35;120;65;70;59], lit "\bar"); (* 1029 *)
  ([38;35;120;65;65;59], lit "a"); (* 1030 *)
  ([38;35;120;65;56;59], lit "\cdot\cdot"); (* 1031 *)
  ([126], lit "\sim"); (* 1032 *)
  ([96], lit "`"); (* 1033 *)
  ([94], lit "\hat"); (* 1034 *)
  ([45;45], lit "--"); (* 1035 *)
  ([43;43], lit "++"); (* 1036 *)
  ([38;97;109;112;59], lit "\&"); (* 1037 *)
  ([38;35;120;50;48;54;49;59], lit ""); (* 1038 *)
  ([38;35;120;50;50;49;67;59], lit "\sqrt[4]{}"); (* 1039 *)
  ([38;35;120;50;50;49;66;59], lit "\sqrt[3]{}"); (* 1040 *)
  ([38;35;120;50;50;49;65;59], lit "\sqrt{}"); (* 1041 *)
  ([38;35;120;50;49;52;54;59], lit "d"); (* 1042 *)
  ([38;35;120;50;49;52;53;59], lit "\mathbb{D}"); (* 1043 *)
  ([63], lit "?"); (* 1044 *)
  ([64], lit "@"); (* 1045 *)
  ([47;47], lit "//"); (* 1046 *)
  ([33;33], lit "!!"); (* 1047 *)
  ([33], lit "!"); (* 1048 *)
  ([38;35;120;50;54;54;70;59], lit "\#"); (* 1049 *)
  ([38;35;120;50;54;54;69;59], lit ""); (* 1050 *)
  ([38;35;120;50;54;54;68;59], lit ""); (* 1051 *)
  ([38;35;120;50;48;51;50;59], lit "'"); (* 1052 *)
  ([38;108;116;59;62], lit "<>"); (* 1053 *)
  ([42;42], lit "\star\star"); (* 1054 *)
  ([38;35;120;50;50;48;55;59], lit "\nabla"); (* 1055 *)
  ([38;35;120;50;50;48;50;59], lit "\partial"); (* 1056 *)
  ([38;35;120;50;50;57;57;59], lit "\bigodot"); (* 1057 *)
  ([38;35;120;65;67;59], lit "\neg"); (* 1058 *)
  ([38;35;120;50;50;50;50;59], lit "\measuredangle"); (* 1059 *)
  ([38;35;120;50;50;50;49;59], lit "\measuredangle"); (* 1060 *)
  ([38;35;120;50;50;50;48;59], lit "\angle"); (* 1061 *)
  ([38;35;120;70;55;59], lit "\div"); (* 1062 *)
  ([47], lit "/"); (* 1063 *)
  ([38;35;120;50;50;49;54;59], lit "\backslash"); (* 1064 *)
  ([92], lit "\backslash"); (* 1065 *)
  ([37], lit "\%"); (* 1066 *)
  ([38;35;120;50;50;57;55;59], lit "\bigotimes"); (* 1067 *)
  ([38;35;120;66;55;59], lit "\cdot"); (* 1068 *)
  ([38;35;120;50;65;51;70;59], lit "\coprod"); (* 1069 *)
  ([38;35;120;50;65;50;70;59], lit "\times"); (* 1070 *)
  ([38;35;120;50;50;67;53;59], lit "\cdot"); (* 1071 *)
  ([38;35;120;50;50;65;49;59], lit "\boxdot"); (* 1072 *)
  ([38;35;120;50;50;65;48;59], lit "\boxtimes"); (* 1073 *)
  ([38;35;120;50;48;54;50;59], lit ""); (* 1074 *)
  ([38;35;120;50;48;52;51;59], lit "-"); (* 1075 *)
  ([38;35;120;50;48;50;50;59], lit "\cdot"); (* 1076 *)
  ([38;35;120;68;55;59], lit "\times"); (* 1077 *)
  ([46], lit "."); (* 1078 *)
  ([42], lit "\star"); (* 1079 *)
  ([38;35;120;50;50;50;65;59], lit "\cup"); (* 1080 *)
  ([38;35;120;50;50;50;57;59], lit "\cap"); (* 1081 *)
  ([38;35;120;50;50;49;48;59], lit "\coprod"); (* 1082 *)
  ([38;35;120;50;50;48;70;59], lit "\prod"); (* 1083 *)
  ([38;35;120;50;50;52;48;59], lit ""); (* 1084 *)
  ([38;35;120;50;65;70;70;59], lit ""); (* 1085 *)
  ([38;35;120;50;65;70;67;59], lit "\mid\mid\mid"); (* 1086 *)
  ([38;35;120;50;65;48;57;59], lit "\times"); (* 1087 *)
  ([38;35;120;50;65;48;56;59], lit ""); (* 1088 *)
  ([38;35;120;50;65;48;55;59], lit ""); (* 1089 *)
  ([38;35;120;50;65;48;54;59], lit "\sqcup"); (* 1090 *)
  ([38;35;120;50;65;48;53;59], lit "\sqcap"); (* 1091 *)
  ([38;35;120;50;65;48;50;59], lit "\otimes"); (* 1092 *)
  ([38;35;120;50;65;48;48;59], lit "\odot"); (* 1093 *)
  ([38;35;120;50;50;67;50;59], lit "\cap"); (* 1094 *)
  ([38;35;120;50;50;67;49;59], lit "\vee"); (* 1095 *)
  ([38;35;120;50;50;67;48;59], lit "\wedge"); (* 1096 *)
  ([38;35;120;50;65;48;52;59], lit "\uplus"); (* 1097 *)
  ([38;35;120;50;65;48;51;59], lit "\cup"); (* 1098 *)
  ([38;35;120;50;50;67;51;59], lit "\cup"); (* 1099 *)
  ([38;35;120;50;65;49;67;59], lit "\underline{\int}"); (* 1100 *)
  ([38;35;120;50;65;49;66;59], lit "\overline{\int}"); (* 1101 *)
  ([38;35;120;50;65;49;65;59], lit "\int"); (* 1102 *)
  ([38;35;120;50;65;49;57;59], lit "\int"); (* 1103 *)
  ([38;35;120;50;65;49;56;59], lit "\int"); (* 1104 *)
  ([38;35;120;50;65;49;55;59], lit "\int"); (* 1105 *)
  ([38;35;120;50;65;49;54;59], lit "\oint"); (* 1106 *)
  ([38;35;120;50;65;49;53;59], lit "\oint"); (* 1107 *)
  ([38;35;120;50;65;49;52;59], lit "\int"); (* 1108 *)
  ([38;35;120;50;65;49;51;59], lit "\int"); (* 1109 *)
  ([38;35;120;50;65;49;50;59], lit "\int"); (* 1110 *)
  ([38;35;120;50;65;49;49;59], lit "\int"); (* 1111 *)
  ([38;35;120;50;65;49;48;59], lit "\int"); (* 1112 *)
  ([38;35;120;50;65;48;70;59], lit "\bcancel{\int}"); (* 1113 *)
  ([38;35;120;50;65;48;69;59], lit ""); (* 1114 *)
  ([38;35;120;50;65;48;68;59], lit "\hcancel{\int}"); (* 1115 *)
  ([38;35;120;50;65;48;67;59], lit "\iiiint"); (* 1116 *)
  ([38;35;120;50;50;51;51;59], lit "\oint"); (* 1117 *)
  ([38;35;120;50;50;51;50;59], lit "\oint"); (* 1118 *)
  ([38;35;120;50;50;51;49;59], lit "\int"); (* 1119 *)
  ([38;35;120;50;50;51;48;59], lit "\oiint"); (* 1120 *)
  ([38;35;120;50;50;50;70;59], lit "\oiint"); (* 1121 *)
  ([38;35;120;50;50;50;69;59], lit "\oint"); (* 1122 *)
  ([38;35;120;50;50;50;66;59], lit "\int"); (* 1123 *)
  ([38;35;120;50;65;48;49;59], lit "\oplus"); (* 1124 *)
  ([38;35;120;50;50;57;56;59], lit "\oslash"); (* 1125 *)
  ([38;35;120;50;50;57;54;59], lit "\ominus"); (* 1126 *)
  ([38;35;120;50;50;57;53;59], lit "\oplus"); (* 1127 *)
  ([38;35;120;50;50;50;68;59], lit "\iiint"); (* 1128 *)
  ([38;35;120;50;50;50;67;59], lit "\iint"); (* 1129 *)
  ([38;35;120;50;65;48;66;59], lit ""); (* 1130 *)
  ([38;35;120;50;65;48;65;59], lit ""); (* 1131 *)
  ([38;35;120;50;50;49;49;59], lit "\sum"); (* 1132 *)
  ([38;35;120;50;50;57;70;59], lit "\boxminus"); (* 1133 *)
  ([38;35;120;50;50;57;69;59], lit "\boxplus"); (* 1134 *)
  ([38;35;120;50;50;49;52;59], lit "\dot{+}"); (* 1135 *)
  ([38;35;120;50;50;49;51;59], lit "+-"); (* 1136 *)
  ([38;35;120;50;50;49;50;59], lit "-"); (* 1137 *)
  ([38;35;120;66;49;59], lit "\pm"); (* 1138 *)
  ([45], lit "-"); (* 1139 *)
  ([43], lit "+"); (* 1140 *)
  ([38;35;120;50;66;52;54;59], lit "\Rrightarrow"); (* 1141 *)
  ([38;35;120;50;66;52;53;59], lit "\Lleftarrow"); (* 1142 *)
  ([38;35;120;50;57;70;52;59], lit ":\rightarrow"); (* 1143 *)
  ([38;35;120;50;57;69;70;59], lit ""); (* 1144 *)
  ([38;35;120;50;57;68;70;59], lit "\bullet-\bullet"); (* 1145 *)
  ([38;35;120;50;57;57;70;59], lit "\angle"); (* 1146 *)
  ([38;35;120;50;57;57;69;59], lit "\measuredangle"); (* 1147 *)
  ([38;35;120;50;57;57;68;59], lit "\measuredangle"); (* 1148 *)
  ([38;35;120;50;57;57;67;59], lit "\perp"); (* 1149 *)
  ([38;35;120;50;57;57;66;59], lit "\measuredangle"); (* 1150 *)
  ([38;35;120;50;57;57;65;59], lit ""); (* 1151 *)
  ([38;35;120;50;57;57;57;59], lit "\vdots"); (* 1152 *)
  ([38;35;120;50;57;55;70;59], lit ""); (* 1153 *)
  ([38;35;120;50;57;55;69;59], lit ""); (* 1154 *)
  ([38;35;120;50;57;55;68;59], lit "\prec"); (* 1155 *)
  ([38;35;120;50;57;55;67;59], lit "\succ"); (* 1156 *)
  ([38;35;120;50;57;55;66;59], lit "\underset{\rightarrow}{\supset}"); (* 1157 *)
  ([38;35;120;50;57;55;65;59], lit ""); (* 1158 *)
  ([38;35;120;50;57;55;57;59], lit "\underset{\rightarrow}{\subset}"); (* 1159 *)
  ([38;35;120;50;57;55;56;59], lit "\underset{\rightarrow}{>}"); (* 1160 *)
  ([38;35;120;50;57;55;55;59], lit ""); (* 1161 *)
  ([38;35;120;50;57;55;54;59], lit "\underset{\leftarrow}{<}"); (* 1162 *)
  ([38;35;120;50;57;55;53;59], lit "\underset{\approx}{\rightarrow}"); (* 1163 *)
  ([38;35;120;50;57;55;52;59], lit "\underset{\sim}{\rightarrow}"); (* 1164 *)
  ([38;35;120;50;57;55;51;59], lit "\underset{\sim}{\leftarrow}"); (* 1165 *)
  ([38;35;120;50;57;55;50;59], lit "\overset{\sim}{\rightarrow}"); (* 1166 *)
  ([38;35;120;50;57;55;49;59], lit "\overset{=}{\rightarrow}"); (* 1167 *)
  ([38;35;120;50;57;55;48;59], lit ""); (* 1168 *)
  ([38;35;120;50;57;54;70;59], lit ""); (* 1169 *)
  ([38;35;120;50;57;54;69;59], lit ""); (* 1170 *)
  ([38;35;120;50;57;54;68;59], lit "\overline{\rightharpoondown}"); (* 1171 *)
  ([38;35;120;50;57;54;67;59], lit "\underline{\rightharpoonup}"); (* 1172 *)
  ([38;35;120;50;57;54;66;59], lit "\overline{\leftharpoondown}"); (* 1173 *)
  ([38;35;120;50;57;54;65;59], lit "\underline{\leftharpoonup}"); (* 1174 *)
  ([38;35;120;50;57;54;57;59], lit "\rightleftharpoons"); (* 1175 *)
  ([38;35;120;50;57;54;56;59], lit "\rightleftharpoons"); (* 1176 *)
  ([38;35;120;50;57;54;55;59], lit "\rightleftharpoons"); (* 1177 *)
  ([38;35;120;50;57;54;54;59], lit "\rightleftharpoons"); (* 1178 *)
  ([38;35;120;50;57;54;53;59], lit "\Downarrow"); (* 1179 *)
  ([38;35;120;50;57;54;52;59], lit "\Rightarrow"); (* 1180 *)
  ([38;35;120;50;57;54;51;59], lit "\Uparrow"); (* 1181 *)
  ([38;35;120;50;57;54;50;59], lit "\Leftarrow"); (* 1182 *)
  ([38;35;120;50;57;54;49;59], lit "\downarrow"); (* 1183 *)
  ([38;35;120;50;57;54;48;59], lit "\uparrow"); (* 1184 *)
  ([38;35;120;50;57;53;70;59], lit "\rightarrow"); (* 1185 *)
  ([38;35;120;50;57;53;69;59], lit "\leftarrow"); (* 1186 *)
  ([38;35;120;50;57;53;68;59], lit "\downarrow"); (* 1187 *)
  ([38;35;120;50;57;53;67;59], lit "\uparrow"); (* 1188 *)
  ([38;35;120;50;57;53;66;59], lit "\rightarrow"); (* 1189 *)
  ([38;35;120;50;57;53;65;59], lit "\leftarrow"); (* 1190 *)
  ([38;35;120;50;57;53;57;59], lit "\downarrow"); (* 1191 *)
  ([38;35;120;50;57;53;56;59], lit "\uparrow"); (* 1192 *)
  ([38;35;120;50;57;53;55;59], lit "\rightarrow"); (* 1193 *)
  ([38;35;120;50;57;53;54;59], lit "\leftarrow"); (* 1194 *)
  ([38;35;120;50;57;53;53;59], lit "\downarrow"); (* 1195 *)
  ([38;35;120;50;57;53;52;59], lit "\uparrow"); (* 1196 *)
  ([38;35;120;50;57;53;51;59], lit "\rightarrow"); (* 1197 *)
  ([38;35;120;50;57;53;50;59], lit "\leftarrow"); (* 1198 *)
  ([38;35;120;50;57;53;49;59], lit "\updownarrow"); (* 1199 *)
  ([38;35;120;50;57;53;48;59], lit "\leftrightarrow"); (* 1200 *)
  ([38;35;120;50;57;52;70;59], lit "\updownarrow"); (* 1201 *)
  ([38;35;120;50;57;52;69;59], lit "\leftrightarrow"); (* 1202 *)
  ([38;35;120;50;57;52;68;59], lit "\updownarrow"); (* 1203 *)
  ([38;35;120;50;57;52;67;59], lit "\updownarrow"); (* 1204 *)
  ([38;35;120;50;57;52;66;59], lit "\leftrightarrow"); (* 1205 *)
  ([38;35;120;50;57;52;65;59], lit "\leftrightarrow"); (* 1206 *)
  ([38;35;120;50;57;52;57;59], lit ""); (* 1207 *)
  ([38;35;120;50;57;52;56;59], lit "\leftrightarrow"); (* 1208 *)
  ([38;35;120;50;57;52;55;59], lit "\nrightarrow"); (* 1209 *)
  ([38;35;120;50;57;52;54;59], lit ""); (* 1210 *)
  ([38;35;120;50;57;52;53;59], lit ""); (* 1211 *)
  ([38;35;120;50;57;52;52;59], lit "\rightleftarrows"); (* 1212 *)
  ([38;35;120;50;57;52;51;59], lit "\leftrightarrows"); (* 1213 *)
  ([38;35;120;50;57;52;50;59], lit "\rightleftarrows"); (* 1214 *)
  ([38;35;120;50;57;52;49;59], lit "\circlearrowright"); (* 1215 *)
  ([38;35;120;50;57;52;48;59], lit "\circlearrowleft"); (* 1216 *)
  ([38;35;120;50;57;51;70;59], lit "\rightarrow"); (* 1217 *)
  ([38;35;120;50;57;51;69;59], lit "\leftarrow"); (* 1218 *)
  ([38;35;120;50;57;51;68;59], lit ""); (* 1219 *)
  ([38;35;120;50;57;51;67;59], lit ""); (* 1220 *)
  ([38;35;120;50;57;51;66;59], lit ""); (* 1221 *)
  ([38;35;120;50;57;51;65;59], lit ""); (* 1222 *)
  ([38;35;120;50;57;51;57;59], lit ""); (* 1223 *)
  ([38;35;120;50;57;51;56;59], lit ""); (* 1224 *)
  ([38;35;120;50;57;51;55;59], lit "\Rsh"); (* 1225 *)
  ([38;35;120;50;57;51;54;59], lit "\Lsh"); (* 1226 *)
  ([38;35;120;50;57;51;53;59], lit "\downarrow"); (* 1227 *)
  ([38;35;120;50;57;51;52;59], lit "\uparrow"); (* 1228 *)
  ([38;35;120;50;57;51;51;59], lit "\leadsto"); (* 1229 *)
  ([38;35;120;50;57;51;50;59], lit ""); (* 1230 *)
  ([38;35;120;50;57;51;49;59], lit ""); (* 1231 *)
  ([38;35;120;50;57;51;48;59], lit ""); (* 1232 *)
  ([38;35;120;50;57;50;70;59], lit ""); (* 1233 *)
  ([38;35;120;50;57;50;69;59], lit ""); (* 1234 *)
  ([38;35;120;50;57;50;68;59], lit ""); (* 1235 *)
  ([38;35;120;50;57;50;67;59], lit "\times"); (* 1236 *)
  ([38;35;120;50;57;50;66;59], lit "\times"); (* 1237 *)
  ([38;35;120;50;57;50;65;59], lit ""); (* 1238 *)
  ([38;35;120;50;57;50;57;59], lit ""); (* 1239 *)
  ([38;35;120;50;57;50;56;59], lit ""); (* 1240 *)
  ([38;35;120;50;57;50;55;59], lit ""); (* 1241 *)
  ([38;35;120;50;57;50;54;59], lit ""); (* 1242 *)
  ([38;35;120;50;57;50;53;59], lit ""); (* 1243 *)
  ([38;35;120;50;57;50;52;59], lit ""); (* 1244 *)
  ([38;35;120;50;57;50;51;59], lit ""); (* 1245 *)
  ([38;35;120;50;57;50;50;59], lit ""); (* 1246 *)
  ([38;35;120;50;57;50;49;59], lit ""); (* 1247 *)
  ([38;35;120;50;57;50;48;59], lit "\mapsto\cdot"); (* 1248 *)
  ([38;35;120;50;57;49;70;59], lit "\cdot\leftarrow"); (* 1249 *)
  ([38;35;120;50;57;49;69;59], lit "\rightarrow\cdot"); (* 1250 *)
  ([38;35;120;50;57;49;68;59], lit "\leftarrow"); (* 1251 *)
  ([38;35;120;50;57;49;67;59], lit "\rightarrow"); (* 1252 *)
  ([38;35;120;50;57;49;66;59], lit "\leftarrow"); (* 1253 *)
  ([38;35;120;50;57;49;65;59], lit "\rightarrow"); (* 1254 *)
  ([38;35;120;50;57;49;57;59], lit "\leftarrow"); (* 1255 *)
  ([38;35;120;50;57;49;56;59], lit "\rightarrow"); (* 1256 *)
  ([38;35;120;50;57;49;55;59], lit "\rightarrow"); (* 1257 *)
  ([38;35;120;50;57;49;54;59], lit "\rightarrow"); (* 1258 *)
  ([38;35;120;50;57;49;53;59], lit "\rightarrow"); (* 1259 *)
  ([38;35;120;50;57;49;52;59], lit "\rightarrow"); (* 1260 *)
  ([38;35;120;50;57;49;51;59], lit "\downarrow"); (* 1261 *)
  ([38;35;120;50;57;49;50;59], lit "\uparrow"); (* 1262 *)
  ([38;35;120;50;57;49;49;59], lit "\rightarrow"); (* 1263 *)
  ([38;35;120;50;57;49;48;59], lit "\rightarrow"); (* 1264 *)
  ([38;35;120;50;57;48;70;59], lit "\rightarrow"); (* 1265 *)
  ([38;35;120;50;57;48;69;59], lit "\leftarrow"); (* 1266 *)
  ([38;35;120;50;57;48;68;59], lit "\rightarrow"); (* 1267 *)
  ([38;35;120;50;57;48;67;59], lit "\leftarrow"); (* 1268 *)
  ([38;35;120;50;57;48;66;59], lit "\Downarrow"); (* 1269 *)
  ([38;35;120;50;57;48;65;59], lit "\Uparrow"); (* 1270 *)
  ([38;35;120;50;57;48;57;59], lit "\uparrow"); (* 1271 *)
  ([38;35;120;50;57;48;56;59], lit "\downarrow"); (* 1272 *)
  ([38;35;120;50;57;48;55;59], lit "\Rightarrow"); (* 1273 *)
  ([38;35;120;50;57;48;54;59], lit "\Leftarrow"); (* 1274 *)
  ([38;35;120;50;57;48;53;59], lit "\mapsto"); (* 1275 *)
  ([38;35;120;50;57;48;52;59], lit "\nLeftrightarrow"); (* 1276 *)
  ([38;35;120;50;57;48;51;59], lit "\nRightarrow"); (* 1277 *)
  ([38;35;120;50;57;48;50;59], lit "\nLeftarrow"); (* 1278 *)
  ([38;35;120;50;57;48;49;59], lit "\rightsquigarrow"); (* 1279 *)
  ([38;35;120;50;57;48;48;59], lit "\rightsquigarrow"); (* 1280 *)
  ([38;35;120;50;55;70;70;59], lit "\rightsquigarrow"); (* 1281 *)
  ([38;35;120;50;55;70;69;59], lit "\Rightarrow"); (* 1282 *)
  ([38;35;120;50;55;70;68;59], lit "\Leftarrow"); (* 1283 *)
  ([38;35;120;50;55;70;67;59], lit "\mapsto"); (* 1284 *)
  ([38;35;120;50;55;70;66;59], lit "\leftarrow"); (* 1285 *)
  ([38;35;120;50;55;70;65;59], lit "\Longleftrightarrow"); (* 1286 *)
  ([38;35;120;50;55;70;57;59], lit "\Longrightarrow"); (* 1287 *)
  ([38;35;120;50;55;70;56;59], lit "\Longleftarrow"); (* 1288 *)
  ([38;35;120;50;55;70;55;59], lit "\leftrightarrow"); (* 1289 *)
  ([38;35;120;50;55;70;54;59], lit "\rightarrow"); (* 1290 *)
  ([38;35;120;50;55;70;53;59], lit "\leftarrow"); (* 1291 *)
  ([38;35;120;50;55;70;49;59], lit "\Downarrow"); (* 1292 *)
  ([38;35;120;50;55;70;48;59], lit "\Uparrow"); (* 1293 *)
  ([38;35;120;50;50;66;56;59], lit "\rightarrow"); (* 1294 *)
  ([38;35;120;50;49;70;70;59], lit "\leftrightarrow"); (* 1295 *)
  ([38;35;120;50;49;70;69;59], lit "\rightarrow"); (* 1296 *)
  ([38;35;120;50;49;70;68;59], lit "\leftarrow"); (* 1297 *)
  ([38;35;120;50;49;70;67;59], lit "\nleftrightarrow"); (* 1298 *)
  ([38;35;120;50;49;70;66;59], lit "\nrightarrow"); (* 1299 *)
  ([38;35;120;50;49;70;65;59], lit "\nleftarrow"); (* 1300 *)
  ([38;35;120;50;49;70;57;59], lit "\nleftrightarrow"); (* 1301 *)
  ([38;35;120;50;49;70;56;59], lit "\nrightarrow"); (* 1302 *)
  ([38;35;120;50;49;70;55;59], lit "\nleftarrow"); (* 1303 *)
  ([38;35;120;50;49;70;54;59], lit "\Rrightarrow"); (* 1304 *)
  ([38;35;120;50;49;70;53;59], lit ""); (* 1305 *)
  ([38;35;120;50;49;70;52;59], lit "\rightarrow"); (* 1306 *)
  ([38;35;120;50;49;70;51;59], lit "\Updownarrow"); (* 1307 *)
  ([38;35;120;50;49;70;50;59], lit "\searrow"); (* 1308 *)
  ([38;35;120;50;49;70;49;59], lit "\nwarrow"); (* 1309 *)
  ([38;35;120;50;49;70;48;59], lit "\Leftarrow"); (* 1310 *)
  ([38;35;120;50;49;69;70;59], lit "\Uparrow"); (* 1311 *)
  ([38;35;120;50;49;69;69;59], lit "\Uparrow"); (* 1312 *)
  ([38;35;120;50;49;69;68;59], lit "\Uparrow"); (* 1313 *)
  ([38;35;120;50;49;69;67;59], lit "\Uparrow"); (* 1314 *)
  ([38;35;120;50;49;69;66;59], lit "\Uparrow"); (* 1315 *)
  ([38;35;120;50;49;69;65;59], lit "\Uparrow"); (* 1316 *)
  ([38;35;120;50;49;69;57;59], lit "\Downarrow"); (* 1317 *)
  ([38;35;120;50;49;69;56;59], lit "\Rightarrow"); (* 1318 *)
  ([38;35;120;50;49;69;55;59], lit "\Uparrow"); (* 1319 *)
  ([38;35;120;50;49;69;54;59], lit "\Leftarrow"); (* 1320 *)
  ([38;35;120;50;49;69;53;59], lit "\rightarrow"); (* 1321 *)
  ([38;35;120;50;49;69;52;59], lit "\leftarrow"); (* 1322 *)
  ([38;35;120;50;49;69;51;59], lit "\downarrow"); (* 1323 *)
  ([38;35;120;50;49;69;50;59], lit "\rightarrow"); (* 1324 *)
  ([38;35;120;50;49;69;49;59], lit "\uparrow"); (* 1325 *)
  ([38;35;120;50;49;69;48;59], lit "\leftarrow"); (* 1326 *)
  ([38;35;120;50;49;68;70;59], lit "\downarrow"); (* 1327 *)
  ([38;35;120;50;49;68;69;59], lit "\uparrow"); (* 1328 *)
  ([38;35;120;50;49;68;68;59], lit "\rightsquigarrow"); (* 1329 *)
  ([38;35;120;50;49;68;67;59], lit "\leftarrow"); (* 1330 *)
  ([38;35;120;50;49;68;66;59], lit "\Rrightarrow"); (* 1331 *)
  ([38;35;120;50;49;68;65;59], lit "\Lleftarrow"); (* 1332 *)
  ([38;35;120;50;49;68;57;59], lit "\swarrow"); (* 1333 *)
  ([38;35;120;50;49;68;56;59], lit "\searrow"); (* 1334 *)
  ([38;35;120;50;49;68;55;59], lit "\nearrow"); (* 1335 *)
  ([38;35;120;50;49;68;54;59], lit "\nwarrow"); (* 1336 *)
  ([38;35;120;50;49;68;53;59], lit "\Updownarrow"); (* 1337 *)
  ([38;35;120;50;49;68;52;59], lit "\Leftrightarrow"); (* 1338 *)
  ([38;35;120;50;49;68;51;59], lit "\Downarrow"); (* 1339 *)
  ([38;35;120;50;49;68;50;59], lit "\Rightarrow"); (* 1340 *)
  ([38;35;120;50;49;68;49;59], lit "\Uparrow"); (* 1341 *)
  ([38;35;120;50;49;68;48;59], lit "\Leftarrow"); (* 1342 *)
  ([38;35;120;50;49;67;70;59], lit "\nRightarrow"); (* 1343 *)
  ([38;35;120;50;49;67;69;59], lit "\nLeftrightarrow"); (* 1344 *)
  ([38;35;120;50;49;67;68;59], lit "\nLeftarrow"); (* 1345 *)
  ([38;35;120;50;49;67;67;59], lit "\rightleftharpoons"); (* 1346 *)
  ([38;35;120;50;49;67;66;59], lit "\leftrightharpoons"); (* 1347 *)
  ([38;35;120;50;49;67;65;59], lit "\downdownarrows"); (* 1348 *)
  ([38;35;120;50;49;67;57;59], lit "\rightrightarrows"); (* 1349 *)
  ([38;35;120;50;49;67;56;59], lit "\upuparrows"); (* 1350 *)
  ([38;35;120;50;49;67;55;59], lit "\leftleftarrows"); (* 1351 *)
  ([38;35;120;50;49;67;54;59], lit "\leftrightarrows"); (* 1352 *)
  ([38;35;120;50;49;67;53;59], lit ""); (* 1353 *)
  ([38;35;120;50;49;67;52;59], lit "\rightleftarrows"); (* 1354 *)
  ([38;35;120;50;49;67;51;59], lit "\downharpoonleft"); (* 1355 *)
  ([38;35;120;50;49;67;50;59], lit "\downharpoonright"); (* 1356 *)
  ([38;35;120;50;49;67;49;59], lit "\rightharpoondown"); (* 1357 *)
  ([38;35;120;50;49;67;48;59], lit "\rightharpoonup"); (* 1358 *)
  ([38;35;120;50;49;66;70;59], lit "\upharpoonleft"); (* 1359 *)
  ([38;35;120;50;49;66;69;59], lit "\upharpoonright"); (* 1360 *)
  ([38;35;120;50;49;66;68;59], lit "\leftharpoondown"); (* 1361 *)
  ([38;35;120;50;49;66;67;59], lit "\leftharpoonup"); (* 1362 *)
  ([38;35;120;50;49;66;66;59], lit "\circlearrowright"); (* 1363 *)
  ([38;35;120;50;49;66;65;59], lit "\circlearrowleft"); (* 1364 *)
  ([38;35;120;50;49;66;57;59], lit "\leftrightarrows"); (* 1365 *)
  ([38;35;120;50;49;66;56;59], lit "\overline{\nwarrow}"); (* 1366 *)
  ([38;35;120;50;49;66;55;59], lit "\curvearrowright"); (* 1367 *)
  ([38;35;120;50;49;66;54;59], lit "\curvearrowleft"); (* 1368 *)
  ([38;35;120;50;49;66;53;59], lit "\swarrow"); (* 1369 *)
  ([38;35;120;50;49;66;52;59], lit "\searrow"); (* 1370 *)
  ([38;35;120;50;49;66;51;59], lit "\Rsh"); (* 1371 *)
  ([38;35;120;50;49;66;50;59], lit "\Lsh"); (* 1372 *)
  ([38;35;120;50;49;66;49;59], lit "\Rsh"); (* 1373 *)
  ([38;35;120;50;49;66;48;59], lit "\Lsh"); (* 1374 *)
  ([38;35;120;50;49;65;70;59], lit "\swarrow"); (* 1375 *)
  ([38;35;120;50;49;65;69;59], lit ""); (* 1376 *)
  ([38;35;120;50;49;65;68;59], lit "\leftrightsquigarrow"); (* 1377 *)
  ([38;35;120;50;49;65;67;59], lit "\looparrowright"); (* 1378 *)
  ([38;35;120;50;49;65;66;59], lit "\looparrowleft"); (* 1379 *)
  ([38;35;120;50;49;65;65;59], lit "\hookrightarrow"); (* 1380 *)
  ([38;35;120;50;49;65;57;59], lit "\hookleftarrow"); (* 1381 *)
  ([38;35;120;50;49;65;56;59], lit "\underline{\updownarrow}"); (* 1382 *)
  ([38;35;120;50;49;65;55;59], lit "\downarrow"); (* 1383 *)
  ([38;35;120;50;49;65;54;59], lit "\rightarrowtail"); (* 1384 *)
  ([38;35;120;50;49;65;53;59], lit "\uparrow"); (* 1385 *)
  ([38;35;120;50;49;65;52;59], lit "\leftarrowtail"); (* 1386 *)
  ([38;35;120;50;49;65;51;59], lit "\rightarrowtail"); (* 1387 *)
  ([38;35;120;50;49;65;50;59], lit "\leftarrowtail"); (* 1388 *)
  ([38;35;120;50;49;65;49;59], lit "\downarrow"); (* 1389 *)
  ([38;35;120;50;49;65;48;59], lit "\twoheadrightarrow"); (* 1390 *)
  ([38;35;120;50;49;57;70;59], lit "\uparrow"); (* 1391 *)
  ([38;35;120;50;49;57;69;59], lit "\twoheadleftarrow"); (* 1392 *)
  ([38;35;120;50;49;57;68;59], lit "\nearrow"); (* 1393 *)
  ([38;35;120;50;49;57;67;59], lit "\nwarrow"); (* 1394 *)
  ([38;35;120;50;49;57;66;59], lit ""); (* 1395 *)
  ([38;35;120;50;49;57;65;59], lit ""); (* 1396 *)
  ([38;35;120;50;49;57;57;59], lit "\swarrow"); (* 1397 *)
  ([38;35;120;50;49;57;56;59], lit "\searrow"); (* 1398 *)
  ([38;35;120;50;49;57;55;59], lit "\nearrow"); (* 1399 *)
  ([38;35;120;50;49;57;54;59], lit "\nwarrow"); (* 1400 *)
  ([38;35;120;50;49;57;53;59], lit "\updownarrow"); (* 1401 *)
  ([38;35;120;50;49;57;52;59], lit "\leftrightarrow"); (* 1402 *)
  ([38;35;120;50;49;57;51;59], lit "\downarrow"); (* 1403 *)
  ([38;35;120;50;49;57;50;59], lit "\rightarrow"); (* 1404 *)
  ([38;35;120;50;49;57;49;59], lit "\uparrow"); (* 1405 *)
  ([38;35;120;50;49;57;48;59], lit "\leftarrow"); (* 1406 *)
  ([124;124;124], lit "\left|||\right."); (* 1407 *)
  ([124;124], lit "\left||\right."); (* 1408 *)
  ([124], lit "\left|\right."); (* 1409 *)
  ([38;35;120;50;65;70;69;59], lit ""); (* 1410 *)
  ([38;35;120;50;65;70;68;59], lit "//"); (* 1411 *)
  ([38;35;120;50;65;70;66;59], lit "///"); (* 1412 *)
  ([38;35;120;50;65;70;65;59], lit ""); (* 1413 *)
  ([38;35;120;50;65;70;57;59], lit ""); (* 1414 *)
  ([38;35;120;50;65;70;56;59], lit ""); (* 1415 *)
  ([38;35;120;50;65;70;55;59], lit ""); (* 1416 *)
  ([38;35;120;50;65;70;54;59], lit "\vdots"); (* 1417 *)
  ([38;35;120;50;65;70;53;59], lit ""); (* 1418 *)
  ([38;35;120;50;65;70;52;59], lit ""); (* 1419 *)
  ([38;35;120;50;65;70;51;59], lit ""); (* 1420 *)
  ([38;35;120;50;65;70;50;59], lit "\nparallel"); (* 1421 *)
  ([38;35;120;50;65;70;49;59], lit ""); (* 1422 *)
  ([38;35;120;50;65;70;48;59], lit ""); (* 1423 *)
  ([38;35;120;50;65;69;70;59], lit ""); (* 1424 *)
  ([38;35;120;50;65;69;69;59], lit "\bcancel{\mid}"); (* 1425 *)
  ([38;35;120;50;65;69;68;59], lit ""); (* 1426 *)
  ([38;35;120;50;65;69;67;59], lit ""); (* 1427 *)
  ([38;35;120;50;65;69;66;59], lit ""); (* 1428 *)
  ([38;35;120;50;65;69;65;59], lit ""); (* 1429 *)
  ([38;35;120;50;65;69;57;59], lit ""); (* 1430 *)
  ([38;35;120;50;65;69;56;59], lit "\underline{\perp}"); (* 1431 *)
  ([38;35;120;50;65;69;55;59], lit "\overline{\top}"); (* 1432 *)
  ([38;35;120;50;65;69;54;59], lit ""); (* 1433 *)
  ([38;35;120;50;65;69;53;59], lit ""); (* 1434 *)
  ([38;35;120;50;65;69;52;59], lit ""); (* 1435 *)
  ([38;35;120;50;65;69;51;59], lit ""); (* 1436 *)
  ([38;35;120;50;65;69;50;59], lit ""); (* 1437 *)
  ([38;35;120;50;65;69;49;59], lit ""); (* 1438 *)
  ([38;35;120;50;65;69;48;59], lit "\perp"); (* 1439 *)
  ([38;35;120;50;65;68;70;59], lit "\top"); (* 1440 *)
  ([38;35;120;50;65;68;69;59], lit "\dashv"); (* 1441 *)
  ([38;35;120;50;65;68;68;59;38;35;120;51;51;56;59], lit ""); (* 1442 *)
  ([38;35;120;50;65;68;68;59], lit ""); (* 1443 *)
  ([38;35;120;50;65;68;66;59], lit "\pitchfork"); (* 1444 *)
  ([38;35;120;50;65;68;65;59], lit ""); (* 1445 *)
  ([38;35;120;50;65;68;57;59], lit ""); (* 1446 *)
  ([38;35;120;50;65;68;56;59], lit ""); (* 1447 *)
  ([38;35;120;50;65;68;55;59], lit ""); (* 1448 *)
  ([38;35;120;50;65;68;54;59], lit ""); (* 1449 *)
  ([38;35;120;50;65;68;53;59], lit ""); (* 1450 *)
  ([38;35;120;50;65;68;52;59], lit ""); (* 1451 *)
  ([38;35;120;50;65;68;51;59], lit ""); (* 1452 *)
  ([38;35;120;50;65;68;50;59], lit ""); (* 1453 *)
  ([38;35;120;50;65;68;49;59], lit ""); (* 1454 *)
  ([38;35;120;50;65;68;48;59], lit ""); (* 1455 *)
  ([38;35;120;50;65;67;70;59], lit ""); (* 1456 *)
  ([38;35;120;50;65;67;69;59], lit ""); (* 1457 *)
  ([38;35;120;50;65;67;68;59], lit ""); (* 1458 *)
  ([38;35;120;50;65;67;67;59], lit "\underset{\neq}{\supset}"); (* 1459 *)
  ([38;35;120;50;65;67;66;59], lit "\underset{\neq}{\subset}"); (* 1460 *)
  ([38;35;120;50;65;67;65;59], lit "\underset{\approx}{\supset}"); (* 1461 *)
  ([38;35;120;50;65;67;57;59], lit "\underset{\approx}{\subset}"); (* 1462 *)
  ([38;35;120;50;65;67;56;59], lit "\underset{\sim}{\supset}"); (* 1463 *)
  ([38;35;120;50;65;67;55;59], lit "\underset{\sim}{\subset}"); (* 1464 *)
  ([38;35;120;50;65;67;54;59], lit "\supseteqq"); (* 1465 *)
  ([38;35;120;50;65;67;53;59], lit "\subseteqq"); (* 1466 *)
  ([38;35;120;50;65;67;52;59], lit "\dot{\supseteq}"); (* 1467 *)
  ([38;35;120;50;65;67;51;59], lit "\dot{\subseteq}"); (* 1468 *)
  ([38;35;120;50;65;67;50;59], lit "\underset{\times}{\supset}"); (* 1469 *)
  ([38;35;120;50;65;67;49;59], lit "\underset{\times}{\subset}"); (* 1470 *)
  ([38;35;120;50;65;67;48;59], lit "\underset{+}{\supset}"); (* 1471 *)
  ([38;35;120;50;65;66;70;59], lit "\underset{+}{\subset}"); (* 1472 *)
  ([38;35;120;50;65;66;69;59], lit ""); (* 1473 *)
  ([38;35;120;50;65;66;68;59], lit ""); (* 1474 *)
  ([38;35;120;50;65;66;67;59], lit "\gg "); (* 1475 *)
  ([38;35;120;50;65;66;66;59], lit "\ll"); (* 1476 *)
  ([38;35;120;50;65;66;65;59], lit "\underset{\cancel{\approx}}{\succ}"); (* 1477 *)
  ([38;35;120;50;65;66;57;59], lit "\underset{\cancel{\approx}}{\prec}"); (* 1478 *)
  ([38;35;120;50;65;66;56;59], lit "\underset{\approx}{\succ}"); (* 1479 *)
  ([38;35;120;50;65;66;55;59], lit "\underset{\approx}{\prec}"); (* 1480 *)
  ([38;35;120;50;65;66;54;59], lit "\underset{\cancel{=}}{\succ}"); (* 1481 *)
  ([38;35;120;50;65;66;53;59], lit "\underset{\cancel{=}}{\prec}"); (* 1482 *)
  ([38;35;120;50;65;66;52;59], lit "\underset{=}{\succ}"); (* 1483 *)
  ([38;35;120;50;65;66;51;59], lit "\underset{=}{\prec}"); (* 1484 *)
  ([38;35;120;50;65;66;50;59], lit ""); (* 1485 *)
  ([38;35;120;50;65;66;49;59], lit ""); (* 1486 *)
  ([38;35;120;50;65;65;69;59], lit ""); (* 1487 *)
  ([38;35;120;50;65;65;68;59], lit "\underline{\hcancel{>}}"); (* 1488 *)
  ([38;35;120;50;65;65;67;59], lit "\underline{\hcancel{>}}"); (* 1489 *)
  ([38;35;120;50;65;65;66;59], lit "\hcancel{>}"); (* 1490 *)
  ([38;35;120;50;65;65;65;59], lit "\hcancel{<}"); (* 1491 *)
  ([38;35;120;50;65;65;57;59], lit ""); (* 1492 *)
  ([38;35;120;50;65;65;56;59], lit ""); (* 1493 *)
  ([38;35;120;50;65;65;55;59], lit "\vartriangleright"); (* 1494 *)
  ([38;35;120;50;65;65;54;59], lit "\vartriangleleft"); (* 1495 *)
  ([38;35;120;50;65;65;53;59], lit "><"); (* 1496 *)
  ([38;35;120;50;65;65;52;59], lit "><"); (* 1497 *)
  ([38;35;120;50;65;65;51;59], lit "\underline{\ll}"); (* 1498 *)
  ([38;35;120;50;65;65;50;59;38;35;120;51;51;56;59], lit "\cancel{\gg}"); (* 1499 *)
  ([38;35;120;50;65;65;50;59], lit "\gg"); (* 1500 *)
  ([38;35;120;50;65;65;49;59;38;35;120;51;51;56;59], lit "\cancel{\ll}"); (* 1501 *)
  ([38;35;120;50;65;65;49;59], lit "\ll"); (* 1502 *)
  ([38;35;120;50;65;65;48;59], lit "\overset{\sim}{\geqq}"); (* 1503 *)
  ([38;35;120;50;65;57;70;59], lit "\overset{\sim}{\leqq}"); (* 1504 *)
  ([38;35;120;50;65;57;69;59], lit "\overset{\sim}{>}"); (* 1505 *)
  ([38;35;120;50;65;57;68;59], lit "\overset{\sim}{<}"); (* 1506 *)
  ([38;35;120;50;65;57;67;59], lit ""); (* 1507 *)
  ([38;35;120;50;65;57;66;59], lit ""); (* 1508 *)
  ([38;35;120;50;65;57;65;59], lit "\overset{=}{>}"); (* 1509 *)
  ([38;35;120;50;65;57;57;59], lit "\overset{=}{<}"); (* 1510 *)
  ([38;35;120;50;65;57;56;59], lit ""); (* 1511 *)
  ([38;35;120;50;65;57;55;59], lit ""); (* 1512 *)
  ([38;35;120;50;65;57;54;59], lit ""); (* 1513 *)
  ([38;35;120;50;65;57;53;59], lit ""); (* 1514 *)
  ([38;35;120;50;65;57;52;59], lit ""); (* 1515 *)
  ([38;35;120;50;65;57;51;59], lit ""); (* 1516 *)
  ([38;35;120;50;65;57;50;59], lit "\underset{=}{\gtrless}"); (* 1517 *)
  ([38;35;120;50;65;57;49;59], lit "\underset{=}{\lessgtr}"); (* 1518 *)
  ([38;35;120;50;65;57;48;59], lit "\underset{<}{\gtrsim}"); (* 1519 *)
  ([38;35;120;50;65;56;70;59], lit "\underset{>}{\lesssim}"); (* 1520 *)
  ([38;35;120;50;65;56;69;59], lit "\underset{\simeq}{>}"); (* 1521 *)
  ([38;35;120;50;65;56;68;59], lit "\underset{\simeq}{<}"); (* 1522 *)
  ([38;35;120;50;65;56;67;59], lit "\gtreqqless"); (* 1523 *)
  ([38;35;120;50;65;56;66;59], lit "\lesseqqgtr"); (* 1524 *)
  ([38;35;120;50;65;56;65;59], lit "\underset{\cancel{\approx}}{>}"); (* 1525 *)
  ([38;35;120;50;65;56;57;59], lit "\underset{\approx}{<}"); (* 1526 *)
  ([38;35;120;50;65;56;54;59], lit "\underset{\approx}{>}"); (* 1527 *)
  ([38;35;120;50;65;56;53;59], lit "\underset{\approx}{<}"); (* 1528 *)
  ([38;35;120;50;65;56;52;59], lit ""); (* 1529 *)
  ([38;35;120;50;65;56;51;59], lit ""); (* 1530 *)
  ([38;35;120;50;65;56;50;59], lit ""); (* 1531 *)
  ([38;35;120;50;65;56;49;59], lit ""); (* 1532 *)
  ([38;35;120;50;65;56;48;59], lit ""); (* 1533 *)
  ([38;35;120;50;65;55;70;59], lit ""); (* 1534 *)
  ([38;35;120;50;65;55;69;59;38;35;120;51;51;56;59], lit "\bcancel{\geq}"); (* 1535 *)
  ([38;35;120;50;65;55;69;59], lit "\geq"); (* 1536 *)
  ([38;35;120;50;65;55;68;59;38;35;120;51;51;56;59], lit "\bcancel{\leq}"); (* 1537 *)
  ([38;35;120;50;65;55;68;59], lit "\leq"); (* 1538 *)
  ([38;35;120;50;65;55;67;59], lit ""); (* 1539 *)
  ([38;35;120;50;65;55;66;59], lit ""); (* 1540 *)
  ([38;35;120;50;65;55;65;59], lit ""); (* 1541 *)
  ([38;35;120;50;65;55;57;59], lit ""); (* 1542 *)
  ([38;35;120;50;65;55;56;59], lit "\overset{\dots}{\equiv}"); (* 1543 *)
  ([38;35;120;50;65;55;55;59], lit ""); (* 1544 *)
  ([38;35;120;50;65;55;54;59], lit "==="); (* 1545 *)
  ([38;35;120;50;65;55;53;59], lit "=="); (* 1546 *)
  ([38;35;120;50;65;55;52;59], lit "::="); (* 1547 *)
  ([38;35;120;50;65;55;51;59], lit ""); (* 1548 *)
  ([38;35;120;50;65;55;50;59], lit "\underset{=}{+}"); (* 1549 *)
  ([38;35;120;50;65;55;49;59], lit "\overset{=}{+}"); (* 1550 *)
  ([38;35;120;50;65;55;48;59], lit "\overset{\approx}{=}"); (* 1551 *)
  ([38;35;120;50;65;54;70;59], lit "\overset{\wedge}{=}"); (* 1552 *)
  ([38;35;120;50;65;54;69;59], lit "\overset{*}{=}"); (* 1553 *)
  ([38;35;120;50;65;54;68;59], lit "\dot{\approx}"); (* 1554 *)
  ([38;35;120;50;65;54;67;59], lit ""); (* 1555 *)
  ([38;35;120;50;65;54;66;59], lit ""); (* 1556 *)
  ([38;35;120;50;65;54;65;59], lit "\dot{\sim}"); (* 1557 *)
  ([38;35;120;50;65;54;57;59], lit ""); (* 1558 *)
  ([38;35;120;50;65;54;56;59], lit ""); (* 1559 *)
  ([38;35;120;50;65;54;55;59], lit "\dot{\equiv}"); (* 1560 *)
  ([38;35;120;50;65;54;54;59], lit "\underset{\cdot}{=}"); (* 1561 *)
  ([38;35;120;50;65;54;53;59], lit ""); (* 1562 *)
  ([38;35;120;50;65;54;52;59], lit ""); (* 1563 *)
  ([38;35;120;50;65;54;51;59], lit "\underset{=}{\vee}"); (* 1564 *)
  ([38;35;120;50;65;54;50;59], lit "\overset{=}{\vee}"); (* 1565 *)
  ([38;35;120;50;65;54;49;59], lit "ul(vv)"); (* 1566 *)
  ([38;35;120;50;65;54;48;59], lit "\underset{=}{\wedge}"); (* 1567 *)
  ([38;35;120;50;65;53;70;59], lit "\underline{\wedge}"); (* 1568 *)
  ([38;35;120;50;65;53;69;59], lit "\overset{=}{\wedge}"); (* 1569 *)
  ([38;35;120;50;65;53;68;59], lit "\hcancel{\vee}"); (* 1570 *)
  ([38;35;120;50;65;53;67;59], lit "\hcancel{\wedge}"); (* 1571 *)
  ([38;35;120;50;65;53;66;59], lit ""); (* 1572 *)
  ([38;35;120;50;65;53;65;59], lit ""); (* 1573 *)
  ([38;35;120;50;65;53;57;59], lit ""); (* 1574 *)
  ([38;35;120;50;65;53;56;59], lit "\vee"); (* 1575 *)
  ([38;35;120;50;65;53;55;59], lit "\wedge"); (* 1576 *)
  ([38;35;120;50;65;53;54;59], lit ""); (* 1577 *)
  ([38;35;120;50;65;53;53;59], lit ""); (* 1578 *)
  ([38;35;120;50;65;53;52;59], lit ""); (* 1579 *)
  ([38;35;120;50;65;53;51;59], lit ""); (* 1580 *)
  ([38;35;120;50;65;53;50;59], lit "\dot{\vee}"); (* 1581 *)
  ([38;35;120;50;65;53;49;59], lit "\dot{\wedge}"); (* 1582 *)
  ([38;35;120;50;65;53;48;59], lit ""); (* 1583 *)
  ([38;35;120;50;65;52;70;59], lit ""); (* 1584 *)
  ([38;35;120;50;65;52;69;59], lit ""); (* 1585 *)
  ([38;35;120;50;65;52;68;59], lit "\overline{\cap}"); (* 1586 *)
  ([38;35;120;50;65;52;67;59], lit "\overline{\cup}"); (* 1587 *)
  ([38;35;120;50;65;52;66;59], lit ""); (* 1588 *)
  ([38;35;120;50;65;52;65;59], lit ""); (* 1589 *)
  ([38;35;120;50;65;52;57;59], lit ""); (* 1590 *)
  ([38;35;120;50;65;52;56;59], lit ""); (* 1591 *)
  ([38;35;120;50;65;52;55;59], lit ""); (* 1592 *)
  ([38;35;120;50;65;52;54;59], lit ""); (* 1593 *)
  ([38;35;120;50;65;52;53;59], lit ""); (* 1594 *)
  ([38;35;120;50;65;52;52;59], lit ""); (* 1595 *)
  ([38;35;120;50;65;52;51;59], lit "\overline{\cap}"); (* 1596 *)
  ([38;35;120;50;65;52;50;59], lit "\overline{\cup}"); (* 1597 *)
  ([38;35;120;50;65;52;49;59], lit ""); (* 1598 *)
  ([38;35;120;50;65;52;48;59], lit ""); (* 1599 *)
  ([38;35;120;50;65;51;69;59], lit ""); (* 1600 *)
  ([38;35;120;50;65;51;68;59], lit "\llcorner"); (* 1601 *)
  ([38;35;120;50;65;51;67;59], lit "\lrcorner"); (* 1602 *)
  ([38;35;120;50;65;51;66;59], lit ""); (* 1603 *)
  ([38;35;120;50;65;51;65;59], lit ""); (* 1604 *)
  ([38;35;120;50;65;51;57;59], lit ""); (* 1605 *)
  ([38;35;120;50;65;51;56;59], lit ""); (* 1606 *)
  ([38;35;120;50;65;51;55;59], lit ""); (* 1607 *)
  ([38;35;120;50;65;51;54;59], lit "\hat{\otimes}"); (* 1608 *)
  ([38;35;120;50;65;51;53;59], lit ""); (* 1609 *)
  ([38;35;120;50;65;51;52;59], lit ""); (* 1610 *)
  ([38;35;120;50;65;51;51;59], lit ""); (* 1611 *)
  ([38;35;120;50;65;51;50;59], lit "\underline{\times}"); (* 1612 *)
  ([38;35;120;50;65;51;49;59], lit "\underline{\times}"); (* 1613 *)
  ([38;35;120;50;65;51;48;59], lit "\dot{\times}"); (* 1614 *)
  ([38;35;120;50;65;50;69;59], lit ""); (* 1615 *)
  ([38;35;120;50;65;50;68;59], lit ""); (* 1616 *)
  ([38;35;120;50;65;50;67;59], lit ""); (* 1617 *)
  ([38;35;120;50;65;50;66;59], lit ""); (* 1618 *)
  ([38;35;120;50;65;50;65;59], lit ""); (* 1619 *)
  ([38;35;120;50;65;50;57;59], lit ""); (* 1620 *)
  ([38;35;120;50;65;50;56;59], lit ""); (* 1621 *)
  ([38;35;120;50;65;50;55;59], lit ""); (* 1622 *)
  ([38;35;120;50;65;50;54;59], lit "\underset{\sim}{+}"); (* 1623 *)
  ([38;35;120;50;65;50;53;59], lit "\underset{\circ}{+}"); (* 1624 *)
  ([38;35;120;50;65;50;52;59], lit "\overset{\sim}{+}"); (* 1625 *)
  ([38;35;120;50;65;50;51;59], lit "\hat{+}"); (* 1626 *)
  ([38;35;120;50;65;50;50;59], lit "\dot{+}"); (* 1627 *)
  ([38;35;120;50;65;50;49;59], lit "\upharpoonright"); (* 1628 *)
  ([38;35;120;50;65;50;48;59], lit ">>"); (* 1629 *)
  ([38;35;120;50;65;49;70;59], lit ""); (* 1630 *)
  ([38;35;120;50;65;49;69;59], lit "\triangleleft"); (* 1631 *)
  ([38;35;120;50;65;49;68;59], lit "\bowtie"); (* 1632 *)
  ([38;35;120;50;57;70;70;59], lit ""); (* 1633 *)
  ([38;35;120;50;57;70;69;59], lit "+"); (* 1634 *)
  ([38;35;120;50;57;70;66;59], lit "\hcancel{|||}"); (* 1635 *)
  ([38;35;120;50;57;70;65;59], lit "\hcancel{||}"); (* 1636 *)
  ([38;35;120;50;57;70;57;59], lit "\backslash"); (* 1637 *)
  ([38;35;120;50;57;70;56;59], lit "/"); (* 1638 *)
  ([38;35;120;50;57;70;55;59], [104;99;97;110;99;101;108;123;8;97;99;107;115;108;97;115;104;125]); (* 1639 *)
  ([38;35;120;50;57;70;54;59], lit ""); (* 1640 *)
  ([38;35;120;50;57;70;53;59], lit "\backslash"); (* 1641 *)
  ([38;35;120;50;57;70;50;59], lit "\Phi"); (* 1642 *)
  ([38;35;120;50;57;70;49;59], lit ""); (* 1643 *)
  ([38;35;120;50;57;70;48;59], lit ""); (* 1644 *)
  ([38;35;120;50;57;69;69;59], lit ""); (* 1645 *)
  ([38;35;120;50;57;69;68;59], lit ""); (* 1646 *)
  ([38;35;120;50;57;69;67;59], lit ""); (* 1647 *)
  ([38;35;120;50;57;69;66;59], lit "\lozenge"); (* 1648 *)
  ([38;35;120;50;57;69;65;59], lit ""); (* 1649 *)
  ([38;35;120;50;57;69;57;59], lit ""); (* 1650 *)
  ([38;35;120;50;57;69;56;59], lit ""); (* 1651 *)
  ([38;35;120;50;57;69;55;59], lit "\ddagger"); (* 1652 *)
  ([38;35;120;50;57;69;50;59], lit "\sqcup\sqcup"); (* 1653 *)
  ([38;35;120;50;57;69;49;59], lit ""); (* 1654 *)
  ([38;35;120;50;57;69;48;59], lit "\square"); (* 1655 *)
  ([38;35;120;50;57;68;69;59], lit ""); (* 1656 *)
  ([38;35;120;50;57;68;68;59], lit ""); (* 1657 *)
  ([38;35;120;50;57;68;67;59], lit ""); (* 1658 *)
  ([38;35;120;50;57;68;66;59], lit "\{\{"); (* 1659 *)
  ([38;35;120;50;57;68;57;59], lit "\{"); (* 1660 *)
  ([38;35;120;50;57;68;56;59], lit "\}"); (* 1661 *)
  ([38;35;120;50;57;68;55;59], lit ""); (* 1662 *)
  ([38;35;120;50;57;68;54;59], lit ""); (* 1663 *)
  ([38;35;120;50;57;68;53;59], lit "\bowtie"); (* 1664 *)
  ([38;35;120;50;57;68;52;59], lit "\bowtie"); (* 1665 *)
  ([38;35;120;50;57;68;51;59], lit "\bowtie"); (* 1666 *)
  ([38;35;120;50;57;68;50;59], lit "\bowtie"); (* 1667 *)
  ([38;35;120;50;57;68;49;59], lit "\bowtie"); (* 1668 *)
  ([38;35;120;50;57;68;48;59;38;35;120;51;51;56;59], lit "| \not\triangleright"); (* 1669 *)
  ([38;35;120;50;57;68;48;59], lit "| \triangleright"); (* 1670 *)
  ([38;35;120;50;57;67;70;59;38;35;120;51;51;56;59], lit "\not\triangleleft |"); (* 1671 *)
  ([38;35;120;50;57;67;70;59], lit "\triangleleft |"); (* 1672 *)
  ([38;35;120;50;57;67;69;59], lit ""); (* 1673 *)
  ([38;35;120;50;57;67;68;59], lit "\triangle"); (* 1674 *)
  ([38;35;120;50;57;67;67;59], lit ""); (* 1675 *)
  ([38;35;120;50;57;67;66;59], lit "\underline{\triangle}"); (* 1676 *)
  ([38;35;120;50;57;67;65;59], lit "\dot{\triangle}"); (* 1677 *)
  ([38;35;120;50;57;67;57;59], lit ""); (* 1678 *)
  ([38;35;120;50;57;67;56;59], lit "\boxed{\circ}"); (* 1679 *)
  ([38;35;120;50;57;67;55;59], lit "\boxed{\circ}"); (* 1680 *)
  ([38;35;120;50;57;67;54;59], lit "\boxed{\rightarrow}"); (* 1681 *)
  ([38;35;120;50;57;67;53;59], lit "\bcancel{\square}"); (* 1682 *)
  ([38;35;120;50;57;67;52;59], lit "\cancel{\square}"); (* 1683 *)
  ([38;35;120;50;57;67;51;59], lit "\odot"); (* 1684 *)
  ([38;35;120;50;57;67;50;59], lit "\odot"); (* 1685 *)
  ([38;35;120;50;57;66;70;59], lit "\odot"); (* 1686 *)
  ([38;35;120;50;57;66;69;59], lit "\odot"); (* 1687 *)
  ([38;35;120;50;57;66;68;59], lit "\varnothing"); (* 1688 *)
  ([38;35;120;50;57;66;67;59], lit "\oplus"); (* 1689 *)
  ([38;35;120;50;57;66;66;59], lit "\otimes"); (* 1690 *)
  ([38;35;120;50;57;66;65;59], lit ""); (* 1691 *)
  ([38;35;120;50;57;66;57;59], lit "\varnothing"); (* 1692 *)
  ([38;35;120;50;57;66;56;59], lit "\varnothing"); (* 1693 *)
  ([38;35;120;50;57;66;55;59], lit "\ominus"); (* 1694 *)
  ([38;35;120;50;57;66;54;59], lit "\ominus"); (* 1695 *)
  ([38;35;120;50;57;66;53;59], lit "\ominus"); (* 1696 *)
  ([38;35;120;50;57;66;52;59], lit "\vec{\varnothing}"); (* 1697 *)
  ([38;35;120;50;57;66;51;59], lit "\vec{\varnothing}"); (* 1698 *)
  ([38;35;120;50;57;66;50;59], lit "\dot{\varnothing}"); (* 1699 *)
  ([38;35;120;50;57;66;49;59], lit "\overline{\varnothing}"); (* 1700 *)
  ([38;35;120;50;57;66;48;59], lit "\varnothing"); (* 1701 *)
  ([38;35;120;50;57;65;70;59], lit ""); (* 1702 *)
  ([38;35;120;50;57;65;69;59], lit ""); (* 1703 *)
  ([38;35;120;50;57;65;68;59], lit ""); (* 1704 *)
  ([38;35;120;50;57;65;67;59], lit ""); (* 1705 *)
  ([38;35;120;50;57;65;66;59], lit ""); (* 1706 *)
  ([38;35;120;50;57;65;65;59], lit ""); (* 1707 *)
  ([38;35;120;50;57;65;57;59], lit ""); (* 1708 *)
  ([38;35;120;50;57;65;56;59], lit ""); (* 1709 *)
  ([38;35;120;50;57;65;55;59], lit ""); (* 1710 *)
  ([38;35;120;50;57;65;54;59], lit ""); (* 1711 *)
  ([38;35;120;50;57;65;53;59], lit ""); (* 1712 *)
  ([38;35;120;50;57;65;52;59], lit ""); (* 1713 *)
  ([38;35;120;50;57;65;51;59], lit ""); (* 1714 *)
  ([38;35;120;50;57;65;50;59], lit ""); (* 1715 *)
  ([38;35;120;50;57;65;49;59], lit "\not\lor"); (* 1716 *)
  ([38;35;120;50;57;65;48;59], lit "\bcancel{>}"); (* 1717 *)
  ([38;35;120;50;57;56;50;59], lit ":"); (* 1718 *)
  ([38;35;120;50;57;56;49;59], lit "\circ"); (* 1719 *)
  ([38;35;120;50;55;53;56;59], lit "|"); (* 1720 *)
  ([38;35;120;50;53;66;50;59], lit "\bigtriangleup"); (* 1721 *)
  ([38;35;120;50;50;70;70;59], lit "\Epsilon"); (* 1722 *)
  ([38;35;120;50;50;70;69;59], lit "\overline{\ni}"); (* 1723 *)
  ([38;35;120;50;50;70;68;59], lit "\overline{\ni}"); (* 1724 *)
  ([38;35;120;50;50;70;67;59], lit "\in"); (* 1725 *)
  ([38;35;120;50;50;70;66;59], lit "\in"); (* 1726 *)
  ([38;35;120;50;50;70;65;59], lit "\in"); (* 1727 *)
  ([38;35;120;50;50;70;57;59], lit "\underline{\in}"); (* 1728 *)
  ([38;35;120;50;50;70;56;59], lit "\underline{\in}"); (* 1729 *)
  ([38;35;120;50;50;70;55;59], lit "\overline{\in}"); (* 1730 *)
  ([38;35;120;50;50;70;54;59], lit "\overline{\in}"); (* 1731 *)
  ([38;35;120;50;50;70;53;59], lit "\dot{\in}"); (* 1732 *)
  ([38;35;120;50;50;70;52;59], lit "\in"); (* 1733 *)
  ([38;35;120;50;50;70;51;59], lit "\in"); (* 1734 *)
  ([38;35;120;50;50;70;50;59], lit "\in"); (* 1735 *)
  ([38;35;120;50;50;70;48;59], lit "\ddots"); (* 1736 *)
  ([38;35;120;50;50;69;57;59], lit "\underset{\sim}{\succ}"); (* 1737 *)
  ([38;35;120;50;50;69;56;59], lit "\underset{\sim}{\prec}"); (* 1738 *)
  ([38;35;120;50;50;69;55;59], lit "\underset{\not\sim}{>}"); (* 1739 *)
  ([38;35;120;50;50;69;54;59], lit "\underset{\not\sim}{<}"); (* 1740 *)
  ([38;35;120;50;50;69;53;59], lit "\not\sqsupseteq"); (* 1741 *)
  ([38;35;120;50;50;69;52;59], lit "\not\sqsubseteq"); (* 1742 *)
  ([38;35;120;50;50;69;51;59], lit "\not\sqsupseteq"); (* 1743 *)
  ([38;35;120;50;50;69;50;59], lit "\not\sqsubseteq"); (* 1744 *)
  ([38;35;120;50;50;69;49;59], lit "\nsucc"); (* 1745 *)
  ([38;35;120;50;50;69;48;59], lit "\nprec"); (* 1746 *)
  ([38;35;120;50;50;68;70;59], lit "\succ"); (* 1747 *)
  ([38;35;120;50;50;68;69;59], lit "\prec"); (* 1748 *)
  ([38;35;120;50;50;68;68;59], lit "\overline{>}"); (* 1749 *)
  ([38;35;120;50;50;68;67;59], lit "\overline{<}"); (* 1750 *)
  ([38;35;120;50;50;68;66;59], lit "\underset{>}{\leq}"); (* 1751 *)
  ([38;35;120;50;50;68;65;59], lit "\underset{<}{\geq}"); (* 1752 *)
  ([38;35;120;50;50;68;53;59], lit "\#"); (* 1753 *)
  ([38;35;120;50;50;68;51;59], lit "\cup"); (* 1754 *)
  ([38;35;120;50;50;68;50;59], lit "\cap"); (* 1755 *)
  ([38;35;120;50;50;68;49;59], lit "\supset"); (* 1756 *)
  ([38;35;120;50;50;68;48;59], lit "\subset"); (* 1757 *)
  ([38;35;120;50;50;67;70;59], lit "\wedge"); (* 1758 *)
  ([38;35;120;50;50;67;69;59], lit "\vee"); (* 1759 *)
  ([38;35;120;50;50;67;68;59], lit "\simeq"); (* 1760 *)
  ([38;35;120;50;50;67;56;59], lit "\bowtie"); (* 1761 *)
  ([38;35;120;50;50;67;55;59], lit "\ast"); (* 1762 *)
  ([38;35;120;50;50;67;54;59], lit "\star"); (* 1763 *)
  ([38;35;120;50;50;67;52;59], lit "\diamond"); (* 1764 *)
  ([38;35;120;50;50;66;70;59], lit "\triangle"); (* 1765 *)
  ([38;35;120;50;50;66;69;59], lit "\measuredangle"); (* 1766 *)
  ([38;35;120;50;50;66;68;59], lit "\overline{\lor}"); (* 1767 *)
  ([38;35;120;50;50;66;67;59], lit "\overline{\land}"); (* 1768 *)
  ([38;35;120;50;50;66;66;59], lit "\underline{\lor}"); (* 1769 *)
  ([38;35;120;50;50;66;65;59], lit "\top"); (* 1770 *)
  ([38;35;120;50;50;66;57;59], lit ""); (* 1771 *)
  ([38;35;120;50;50;66;55;59], lit "\circ\multimap"); (* 1772 *)
  ([38;35;120;50;50;66;54;59], lit "\circ\multimap"); (* 1773 *)
  ([38;35;120;50;50;66;51;59], lit "\triangleright"); (* 1774 *)
  ([38;35;120;50;50;66;50;59], lit "\triangleleft"); (* 1775 *)
  ([38;35;120;50;50;66;49;59], lit "\succ"); (* 1776 *)
  ([38;35;120;50;50;66;48;59], lit "\prec"); (* 1777 *)
  ([38;35;120;50;50;65;66;59], lit "|\models"); (* 1778 *)
  ([38;35;120;50;50;65;65;59], lit "|\models"); (* 1779 *)
  ([38;35;120;50;50;65;55;59], lit "\models"); (* 1780 *)
  ([38;35;120;50;50;65;54;59], lit "\vdash"); (* 1781 *)
  ([38;35;120;50;50;57;68;59], lit "\ominus"); (* 1782 *)
  ([38;35;120;50;50;57;67;59], lit "\ominus"); (* 1783 *)
  ([38;35;120;50;50;57;66;59], lit "\odot"); (* 1784 *)
  ([38;35;120;50;50;57;65;59], lit "\odot"); (* 1785 *)
  ([38;35;120;50;50;57;52;59], lit "\sqcup"); (* 1786 *)
  ([38;35;120;50;50;57;51;59], lit "\sqcap"); (* 1787 *)
  ([38;35;120;50;50;57;50;59], lit "\sqsupseteq"); (* 1788 *)
  ([38;35;120;50;50;57;49;59], lit "\sqsubseteq"); (* 1789 *)
  ([38;35;120;50;50;57;48;59;38;35;120;51;51;56;59], lit "\not\sqsupset"); (* 1790 *)
  ([38;35;120;50;50;57;48;59], lit "\sqsupset"); (* 1791 *)
  ([38;35;120;50;50;56;70;59;38;35;120;51;51;56;59], lit "\not\sqsubset"); (* 1792 *)
  ([38;35;120;50;50;56;70;59], lit "\sqsubset"); (* 1793 *)
  ([38;35;120;50;50;56;69;59], lit "\cup"); (* 1794 *)
  ([38;35;120;50;50;56;68;59], lit "\cup"); (* 1795 *)
  ([38;35;120;50;50;56;67;59], lit "\cup"); (* 1796 *)
  ([38;35;120;50;50;55;70;59;38;35;120;51;51;56;59], lit "\not\succsim"); (* 1797 *)
  ([38;35;120;50;50;55;70;59], lit "\succsim"); (* 1798 *)
  ([38;35;120;50;50;55;69;59], lit "\precsim"); (* 1799 *)
  ([38;35;120;50;50;55;57;59], lit "\not\overset{>}{<}"); (* 1800 *)
  ([38;35;120;50;50;55;56;59], lit "\not\overset{>}{<}"); (* 1801 *)
  ([38;35;120;50;50;55;55;59], lit "\overset{>}{<}"); (* 1802 *)
  ([38;35;120;50;50;55;54;59], lit "\overset{<}{>}"); (* 1803 *)
  ([38;35;120;50;50;55;53;59], lit "\not\geg"); (* 1804 *)
  ([38;35;120;50;50;55;52;59], lit "\not\leq"); (* 1805 *)
  ([38;35;120;50;50;55;51;59], lit "\geg"); (* 1806 *)
  ([38;35;120;50;50;55;50;59], lit "\leq"); (* 1807 *)
  ([38;35;120;50;50;54;67;59], lit ""); (* 1808 *)
  ([38;35;120;50;50;54;55;59], lit "\geg"); (* 1809 *)
  ([38;35;120;50;50;54;54;59;38;35;120;51;51;56;59], lit "\not\leq"); (* 1810 *)
  ([38;35;120;50;50;54;54;59], lit "\leq"); (* 1811 *)
  ([38;35;120;50;50;54;51;59], lit "\overset{=}{=} "); (* 1812 *)
  ([38;35;120;50;50;53;69;59], lit "\overset{m}{=} "); (* 1813 *)
  ([38;35;120;50;50;53;68;59], lit "\overset{def}{=}"); (* 1814 *)
  ([38;35;120;50;50;53;56;59], lit "="); (* 1815 *)
  ([38;35;120;50;50;53;54;59], lit "="); (* 1816 *)
  ([38;35;120;50;50;53;53;59], lit "=:"); (* 1817 *)
  ([38;35;120;50;50;53;51;59], lit "\doteq"); (* 1818 *)
  ([38;35;120;50;50;53;50;59], lit "\doteq"); (* 1819 *)
  ([38;35;120;50;50;53;49;59], lit "\doteq"); (* 1820 *)
  ([38;35;120;50;50;53;48;59], lit "\doteq"); (* 1821 *)
  ([38;35;120;50;50;52;70;59;38;35;120;51;51;56;59], lit ""); (* 1822 *)
  ([38;35;120;50;50;52;70;59], lit ""); (* 1823 *)
  ([38;35;120;50;50;52;69;59;38;35;120;51;51;56;59], lit ""); (* 1824 *)
  ([38;35;120;50;50;52;69;59], lit ""); (* 1825 *)
  ([38;35;120;50;50;52;67;59], lit "\approx"); (* 1826 *)
  ([38;35;120;50;50;52;66;59], lit "\approx"); (* 1827 *)
  ([38;35;120;50;50;52;65;59], lit "\approx"); (* 1828 *)
  ([38;35;120;50;50;52;50;59;38;35;120;51;51;56;59], lit "\neq"); (* 1829 *)
  ([38;35;120;50;50;52;50;59], lit "="); (* 1830 *)
  ([38;35;120;50;50;51;70;59], lit "\sim"); (* 1831 *)
  ([38;35;120;50;50;51;69;59], lit "\infty"); (* 1832 *)
  ([38;35;120;50;50;51;68;59;38;35;120;51;51;49;59], lit "\sim"); (* 1833 *)
  ([38;35;120;50;50;51;68;59], lit "\sim"); (* 1834 *)
  ([38;35;120;50;50;51;66;59], lit "\sim"); (* 1835 *)
  ([38;35;120;50;50;51;65;59], lit ":-:"); (* 1836 *)
  ([38;35;120;50;50;51;57;59], lit "-:"); (* 1837 *)
  ([38;35;120;50;50;51;56;59], lit "\bot"); (* 1838 *)
  ([38;35;120;50;50;51;55;59], lit "::"); (* 1839 *)
  ([38;35;120;50;50;51;54;59], lit ":"); (* 1840 *)
  ([38;35;120;50;50;50;51;59], lit "|"); (* 1841 *)
  ([38;35;120;50;50;49;70;59], lit "\llcorner"); (* 1842 *)
  ([38;35;120;50;50;49;57;59], lit "\cdot"); (* 1843 *)
  ([38;35;120;50;50;49;56;59], lit "\circ"); (* 1844 *)
  ([38;35;120;50;50;49;55;59], lit "*"); (* 1845 *)
  ([38;35;120;50;50;49;53;59], lit "/"); (* 1846 *)
  ([38;35;120;50;50;48;69;59], lit "\square"); (* 1847 *)
  ([38;35;120;50;50;48;68;59], lit "\ni"); (* 1848 *)
  ([38;35;120;50;50;48;65;59], lit "\in"); (* 1849 *)
  ([38;35;120;50;50;48;54;59], lit "\Delta"); (* 1850 *)
  ([38;35;120;50;48;52;52;59], lit "/"); (* 1851 *)
  ([38;35;120;50;65;66;48;59;38;35;120;51;51;56;59], lit "\nsucceq"); (* 1852 *)
  ([38;35;120;50;65;66;48;59], lit "\succeq"); (* 1853 *)
  ([38;35;120;50;65;65;70;59;38;35;120;51;51;56;59], lit "\npreceq"); (* 1854 *)
  ([38;35;120;50;65;65;70;59], lit "\preceq"); (* 1855 *)
  ([38;35;120;50;65;56;56;59], lit "\ngeqslant"); (* 1856 *)
  ([38;35;120;50;65;56;55;59], lit "\nleqslant"); (* 1857 *)
  ([38;35;120;50;57;70;51;59], lit "\Phi"); (* 1858 *)
  ([38;35;120;50;57;69;54;59], lit "\models"); (* 1859 *)
  ([38;35;120;50;57;69;53;59], lit "\not\equiv"); (* 1860 *)
  ([38;35;120;50;57;69;52;59], lit "\approx\neq"); (* 1861 *)
  ([38;35;120;50;57;69;51;59], lit "\neq"); (* 1862 *)
  ([38;35;120;50;57;67;49;59], lit "\circle"); (* 1863 *)
  ([38;35;120;50;57;67;48;59], lit "\circle"); (* 1864 *)
  ([38;35;120;50;53;69;54;59], lit "\circle"); (* 1865 *)
  ([38;35;120;50;53;68;55;59], lit "\circle"); (* 1866 *)
  ([38;35;120;50;53;68;54;59], lit "\circle"); (* 1867 *)
  ([38;35;120;50;53;67;70;59], lit "\circle"); (* 1868 *)
  ([38;35;120;50;53;67;69;59], lit "\circledcirc"); (* 1869 *)
  ([38;35;120;50;53;67;68;59], lit "\circledcirc"); (* 1870 *)
  ([38;35;120;50;53;67;67;59], lit "\circledcirc"); (* 1871 *)
  ([38;35;120;50;53;67;57;59], lit "\circledcirc"); (* 1872 *)
  ([38;35;120;50;53;67;56;59], lit "\diamond"); (* 1873 *)
  ([38;35;120;50;53;67;55;59], lit "\diamond"); (* 1874 *)
  ([38;35;120;50;53;67;54;59], lit "\diamond"); (* 1875 *)
  ([38;35;120;50;53;67;53;59], lit "\triangleleft"); (* 1876 *)
  ([38;35;120;50;53;67;52;59], lit "\triangleleft"); (* 1877 *)
  ([38;35;120;50;53;67;51;59], lit "\triangleleft"); (* 1878 *)
  ([38;35;120;50;53;67;50;59], lit "\triangleleft"); (* 1879 *)
  ([38;35;120;50;53;67;49;59], lit "\triangleleft"); (* 1880 *)
  ([38;35;120;50;53;67;48;59], lit "\triangleleft"); (* 1881 *)
  ([38;35;120;50;53;66;70;59], lit "\triangledown"); (* 1882 *)
  ([38;35;120;50;53;66;69;59], lit "\triangledown"); (* 1883 *)
  ([38;35;120;50;53;66;68;59], lit "\triangledown"); (* 1884 *)
  ([38;35;120;50;53;66;67;59], lit "\triangledown"); (* 1885 *)
  ([38;35;120;50;53;66;57;59], lit "\triangleright"); (* 1886 *)
  ([38;35;120;50;53;66;56;59], lit "\triangleright"); (* 1887 *)
  ([38;35;120;50;53;66;55;59], lit "\triangleright"); (* 1888 *)
  ([38;35;120;50;53;66;54;59], lit "\triangleright"); (* 1889 *)
  ([38;35;120;50;53;66;53;59], lit "\triangle"); (* 1890 *)
  ([38;35;120;50;53;66;52;59], lit "\triangle"); (* 1891 *)
  ([38;35;120;50;53;66;51;59], lit "\triangle"); (* 1892 *)
  ([38;35;120;50;53;66;49;59], lit "\square"); (* 1893 *)
  ([38;35;120;50;53;66;48;59], lit "\square"); (* 1894 *)
  ([38;35;120;50;53;65;70;59], lit "\square"); (* 1895 *)
  ([38;35;120;50;53;65;69;59], lit "\square"); (* 1896 *)
  ([38;35;120;50;53;65;68;59], lit "\square"); (* 1897 *)
  ([38;35;120;50;53;65;66;59], lit "\square"); (* 1898 *)
  ([38;35;120;50;53;65;65;59], lit "\square"); (* 1899 *)
  ([38;35;120;50;53;65;49;59], lit "\square"); (* 1900 *)
  ([38;35;120;50;53;65;48;59], lit "\square"); (* 1901 *)
  ([38;35;120;50;50;69;68;59], lit "\not\triangleright"); (* 1902 *)
  ([38;35;120;50;50;69;67;59], lit "\not\triangleleft"); (* 1903 *)
  ([38;35;120;50;50;69;66;59], lit "\not\triangleright"); (* 1904 *)
  ([38;35;120;50;50;69;65;59], lit "\not\triangleleft"); (* 1905 *)
  ([38;35;120;50;50;68;57;59], lit "\ggg"); (* 1906 *)
  ([38;35;120;50;50;68;56;59], lit "\lll"); (* 1907 *)
  ([38;35;120;50;50;68;55;59], lit "*>"); (* 1908 *)
  ([38;35;120;50;50;68;54;59], lit "<*"); (* 1909 *)
  ([38;35;120;50;50;68;52;59], lit "\pitchfork"); (* 1910 *)
  ([38;35;120;50;50;67;67;59], lit ""); (* 1911 *)
  ([38;35;120;50;50;67;66;59], lit ""); (* 1912 *)
  ([38;35;120;50;50;67;65;59], lit "\rtimes"); (* 1913 *)
  ([38;35;120;50;50;67;57;59], lit "\ltimes"); (* 1914 *)
  ([38;35;120;50;50;66;53;59], lit "\triangleright"); (* 1915 *)
  ([38;35;120;50;50;66;52;59], lit ""); (* 1916 *)
  ([38;35;120;50;50;65;53;59], lit "\bot"); (* 1917 *)
  ([38;35;120;50;50;56;49;59], lit "\nsucc"); (* 1918 *)
  ([38;35;120;50;50;56;48;59], lit "\preceq"); (* 1919 *)
  ([38;35;120;50;50;55;68;59], lit "\succeq"); (* 1920 *)
  ([38;35;120;50;50;55;67;59], lit "\preceq"); (* 1921 *)
  ([38;35;120;50;50;55;66;59], lit "\succ"); (* 1922 *)
  ([38;35;120;50;50;55;65;59], lit "\prec"); (* 1923 *)
  ([38;35;120;50;50;55;49;59], lit "\geq/"); (* 1924 *)
  ([38;35;120;50;50;55;48;59], lit "\leq/"); (* 1925 *)
  ([38;35;120;50;50;54;68;59], lit "\neq"); (* 1926 *)
  ([38;35;120;50;50;54;66;59;38;35;120;51;51;56;59], lit "\not\gg"); (* 1927 *)
  ([38;35;120;50;50;54;66;59], lit "\gg"); (* 1928 *)
  ([38;35;120;50;50;54;65;59;38;35;120;51;51;56;59], lit "\not\ll"); (* 1929 *)
  ([38;35;120;50;50;54;65;59], lit "\ll"); (* 1930 *)
  ([38;35;120;50;50;54;57;59], lit "\ngeqslant"); (* 1931 *)
  ([38;35;120;50;50;54;56;59], lit "\nleqslant"); (* 1932 *)
  ([38;35;120;50;50;54;49;59], lit "\equiv"); (* 1933 *)
  ([38;35;120;50;50;53;70;59], lit "\doteq"); (* 1934 *)
  ([38;35;120;50;50;53;67;59], lit "\triangleq"); (* 1935 *)
  ([38;35;120;50;50;53;66;59], lit "\doteq"); (* 1936 *)
  ([38;35;120;50;50;53;65;59], lit "\triangleq"); (* 1937 *)
  ([38;35;120;50;50;53;57;59], lit "\triangleq"); (* 1938 *)
  ([38;35;120;50;50;53;55;59], lit "\doteq"); (* 1939 *)
  ([38;35;120;50;50;53;52;59], lit ":="); (* 1940 *)
  ([38;35;120;50;50;52;68;59], lit "\asymp"); (* 1941 *)
  ([38;35;120;50;50;52;55;59], lit "\ncong"); (* 1942 *)
  ([38;35;120;50;50;52;54;59], lit "\ncong"); (* 1943 *)
  ([38;35;120;50;50;52;53;59], lit "\cong"); (* 1944 *)
  ([38;35;120;50;50;52;52;59], lit "\not\simeq"); (* 1945 *)
  ([38;35;120;50;50;52;51;59], lit "\simeq"); (* 1946 *)
  ([38;35;120;50;50;52;49;59], lit "\not\sim"); (* 1947 *)
  ([38;35;120;50;50;50;54;59], lit "\not\parallel"); (* 1948 *)
  ([38;35;120;50;50;50;53;59], lit "\parallel"); (* 1949 *)
  ([38;35;120;50;50;50;52;59], lit "\not|"); (* 1950 *)
  ([38;35;120;50;50;49;68;59], lit "\propto"); (* 1951 *)
  ([61;61], lit "=="); (* 1952 *)
  ([61], lit "="); (* 1953 *)
  ([58;61], lit ":="); (* 1954 *)
  ([47;61], lit "="); (* 1955 *)
  ([45;61], lit "-="); (* 1956 *)
  ([43;61], lit "+="); (* 1957 *)
  ([42;61], lit "*="); (* 1958 *)
  ([33;61], lit "!="); (* 1959 *)
  ([38;35;120;50;50;54;48;59], lit "\neq"); (* 1960 *)
  ([38;35;120;50;50;54;50;59], lit "\equiv /"); (* 1961 *)
  ([38;35;120;50;50;52;57;59], lit "\approx /"); (* 1962 *)
  ([38;35;120;50;50;51;67;59], lit "sim"); (* 1963 *)
  ([38;35;120;50;50;52;56;59], lit "\approx"); (* 1964 *)
  ([38;35;120;50;50;54;69;59], lit "</"); (* 1965 *)
  ([38;108;116;59], lit "<"); (* 1966 *)
  ([38;35;120;50;50;54;70;59], lit ">/"); (* 1967 *)
  ([62;61], lit ">="); (* 1968 *)
  ([62], lit ">"); (* 1969 *)
  ([38;35;120;50;50;54;53;59], lit "\geq"); (* 1970 *)
  ([38;35;120;50;50;54;52;59], lit "\leq"); (* 1971 *)
  ([38;108;116;59;61], lit "<="); (* 1972 *)
  ([38;35;120;50;50;56;66;59], lit "\supsetneq"); (* 1973 *)
  ([38;35;120;50;50;56;65;59], lit "\subsetneq"); (* 1974 *)
  ([38;35;120;50;50;56;57;59], lit "\nsupseteq"); (* 1975 *)
  ([38;35;120;50;50;56;56;59], lit "\nsubseteq"); (* 1976 *)
  ([38;35;120;50;50;56;55;59], lit "\supseteq"); (* 1977 *)
  ([38;35;120;50;50;56;54;59], lit "\subseteq"); (* 1978 *)
  ([38;35;120;50;50;56;53;59], lit "\not\supset"); (* 1979 *)
  ([38;35;120;50;50;56;52;59], lit "\not\subset"); (* 1980 *)
  ([38;35;120;50;50;56;51;59;38;35;120;50;48;68;50;59], lit "\supset |"); (* 1981 *)
  ([38;35;120;50;50;56;51;59], lit "\supset"); (* 1982 *)
  ([38;35;120;50;50;56;50;59;38;35;120;50;48;68;50;59], lit "\subset |"); (* 1983 *)
  ([38;35;120;50;50;56;50;59], lit "\subset"); (* 1984 *)
  ([38;35;120;50;50;48;67;59], lit "\not\in"); (* 1985 *)
  ([38;35;120;50;50;48;57;59], lit "\notin"); (* 1986 *)
  ([38;35;120;50;50;48;56;59], lit "\in"); (* 1987 *)
  ([38;35;120;50;50;48;49;59], lit "C"); (* 1988 *)
  ([38;35;120;50;50;48;52;59], lit "\nexists"); (* 1989 *)
  ([38;35;120;50;50;48;51;59], lit "\exists"); (* 1990 *)
  ([38;35;120;50;50;48;48;59], lit "\forall"); (* 1991 *)
  ([38;35;120;50;50;50;55;59], lit "\land"); (* 1992 *)
  ([38;97;109;112;59;38;97;109;112;59], lit "\&\&"); (* 1993 *)
  ([38;35;120;50;50;50;56;59], lit "\lor"); (* 1994 *)
  ([38;35;120;50;50;65;70;59], lit "\cancel{\vDash}"); (* 1995 *)
  ([38;35;120;50;50;65;69;59], lit "\cancel{\Vdash}"); (* 1996 *)
  ([38;35;120;50;50;65;68;59], lit "\nvDash"); (* 1997 *)
  ([38;35;120;50;50;65;67;59], lit "\nvDash"); (* 1998 *)
  ([38;35;120;50;50;65;57;59], lit "\Vdash"); (* 1999 *)
  ([38;35;120;50;50;65;56;59], lit "\vDash"); (* 2000 *)
  ([38;35;120;50;50;65;52;59], lit "\top"); (* 2001 *)
  ([38;35;120;50;50;65;51;59], lit "\dashv"); (* 2002 *)
  ([38;35;120;50;50;65;50;59], lit "\vdash"); (* 2003 *)
  ([38;35;120;50;50;48;66;59], lit "\ni"); (* 2004 *)
  ([38;35;120;50;50;70;49;59], lit "\ddots"); (* 2005 *)
  ([38;35;120;50;50;69;70;59], lit "\hdots"); (* 2006 *)
  ([38;35;120;50;50;69;69;59], lit "\vdots"); (* 2007 *)
  ([38;35;120;50;48;50;54;59], lit "\hdots"); (* 2008 *)
  ([38;35;120;51;70;54;59], lit "\ni"); (* 2009 *)
  ([58], lit ":"); (* 2010 *)
  ([46;46;46], lit "\cdots"); (* 2011 *)
  ([46;46], lit ".."); (* 2012 *)
  ([45;62], lit "->"); (* 2013 *)
  ([38;35;120;50;50;51;53;59], lit "\because"); (* 2014 *)
  ([38;35;120;50;50;51;52;59], lit "\therefore "); (* 2015 *)
  ([38;35;120;50;48;54;51;59], lit ""); (* 2016 *)
  ([44], lit ","); (* 2017 *)
  ([59], lit ";"); (* 2018 *)
  ([38;35;120;50;57;70;68;59], lit "\}"); (* 2019 *)
  ([38;35;120;50;57;70;67;59], lit "\{"); (* 2020 *)
  ([38;35;120;50;57;57;56;59], lit "\]"); (* 2021 *)
  ([38;35;120;50;57;57;55;59], lit "\["); (* 2022 *)
  ([38;35;120;50;57;57;54;59], lit "\ll"); (* 2023 *)
  ([38;35;120;50;57;57;53;59], lit "\gg"); (* 2024 *)
  ([38;35;120;50;57;57;52;59], lit "\gg"); (* 2025 *)
  ([38;35;120;50;57;57;51;59], lit "\ll"); (* 2026 *)
  ([38;35;120;50;57;57;50;59], lit "\gg"); (* 2027 *)
  ([38;35;120;50;57;57;49;59], lit "\ll"); (* 2028 *)
  ([38;35;120;50;57;57;48;59], lit "\]"); (* 2029 *)
  ([38;35;120;50;57;56;70;59], lit "\]"); (* 2030 *)
  ([38;35;120;50;57;56;69;59], lit "\]"); (* 2031 *)
  ([38;35;120;50;57;56;68;59], lit "\["); (* 2032 *)
  ([38;35;120;50;57;56;67;59], lit "\["); (* 2033 *)
  ([38;35;120;50;57;56;66;59], lit "\]"); (* 2034 *)
  ([38;35;120;50;57;56;65;59], lit "\triangleright"); (* 2035 *)
  ([38;35;120;50;57;56;57;59], lit "\triangleleft"); (* 2036 *)
  ([38;35;120;50;57;56;56;59], lit "|\)"); (* 2037 *)
  ([38;35;120;50;57;56;55;59], lit "\(|"); (* 2038 *)
  ([38;35;120;50;57;56;54;59], lit "|\)"); (* 2039 *)
  ([38;35;120;50;57;56;53;59], lit "\(\("); (* 2040 *)
  ([38;35;120;50;57;56;52;59], lit "|\}"); (* 2041 *)
  ([38;35;120;50;57;56;51;59], lit "\{|"); (* 2042 *)
  ([38;35;120;50;57;56;48;59], lit "\||"); (* 2043 *)
  ([38;35;120;50;55;69;70;59], lit "\left. \right]"); (* 2044 *)
  ([38;35;120;50;55;69;69;59], lit "\left[ \right."); (* 2045 *)
  ([38;35;120;50;55;69;68;59], lit "\left. \right]]"); (* 2046 *)
  ([38;35;120;50;55;69;67;59], lit "\left[[ \right."); (* 2047 *)
  ([38;35;120;50;55;69;66;59], lit "\gg"); (* 2048 *)
  ([38;35;120;50;55;69;65;59], lit "\ll"); (* 2049 *)
  ([38;35;120;50;55;69;57;59], lit "\rangle"); (* 2050 *)
  ([38;35;120;50;55;69;56;59], lit "\langle"); (* 2051 *)
  ([38;35;120;50;55;69;55;59], lit "\left. \right]]"); (* 2052 *)
  ([38;35;120;50;55;69;54;59], lit "\left[[ \right."); (* 2053 *)
  ([38;35;120;50;55;55;51;59], lit "\left.\right)"); (* 2054 *)
  ([38;35;120;50;55;55;50;59], lit "\left(\right."); (* 2055 *)
  ([38;35;120;50;51;50;65;59], lit "\rangle"); (* 2056 *)
  ([38;35;120;50;51;50;57;59], lit "\langle"); (* 2057 *)
  ([38;35;120;50;51;48;66;59], lit "\rfloor"); (* 2058 *)
  ([38;35;120;50;51;48;65;59], lit "\lfloor"); (* 2059 *)
  ([38;35;120;50;51;48;57;59], lit "\rceil"); (* 2060 *)
  ([38;35;120;50;51;48;56;59], lit "\lceil"); (* 2061 *)
  ([38;35;120;50;48;49;54;59], lit "\parallel"); (* 2062 *)
  ([125], lit "\left.\right}"); (* 2063 *)
  ([123], lit "\left{\right."); (* 2064 *)
  ([93], lit "\left]\right."); (* 2065 *)
  ([91], lit "\left[\right."); (* 2066 *)
  ([41], lit "\left.\right)"); (* 2067 *)
  ([40], lit "\left(\right."); (* 2068 *)
  ([38;35;120;50;48;49;68;59], lit """"); (* 2069 *)
  ([38;35;120;50;48;49;67;59], lit "``"); (* 2070 *)
  ([38;35;120;50;48;49;57;59], lit "'"); (* 2071 *)
  ([38;35;120;50;48;49;56;59], lit "`"); (* 2072 *)
  ([37;67;69;37;66;49], lit "\alpha"); (* 2073 *)
  ([37;67;69;37;66;50], lit "\beta"); (* 2074 *)
  ([37;67;69;37;66;51], lit "\gamma"); (* 2075 *)
  ([37;67;69;37;57;51], lit "\Gamma"); (* 2076 *)
  ([37;67;69;37;66;52], lit "\delta"); (* 2077 *)
  ([37;67;69;37;57;52], lit "\Delta"); (* 2078 *)
  ([37;67;70;37;66;53], lit "\epsilon"); (* 2079 *)
  ([37;67;69;37;66;54], lit "\zeta"); (* 2080 *)
  ([37;67;69;37;66;55], lit "\eta"); (* 2081 *)
  ([37;67;69;37;66;56], lit "\theta"); (* 2082 *)
  ([37;67;69;37;57;56], lit "\Theta"); (* 2083 *)
  ([37;67;69;37;66;57], lit "\iota"); (* 2084 *)
  ([37;67;69;37;66;65], lit "\kappa"); (* 2085 *)
  ([37;67;69;37;66;66], lit "\lambda"); (* 2086 *)
  ([37;67;69;37;66;67], lit "\mu"); (* 2087 *)
  ([37;67;69;37;66;68], lit "\nu"); (* 2088 *)
  ([37;67;69;37;66;70], lit "\omicron"); (* 2089 *)
  ([37;67;70;37;56;48], lit "\pi"); (* 2090 *)
  ([37;67;69;37;65;48], lit "\Pi"); (* 2091 *)
  ([37;67;70;37;56;49], lit "\pho"); (* 2092 *)
  ([37;67;70;37;56;51], lit "\sigma"); (* 2093 *)
  ([37;67;69;37;65;51], lit "\Sigma"); (* 2094 *)
  ([37;67;70;37;56;52], lit "\tau"); (* 2095 *)
  ([37;67;70;37;56;53], lit "\upsilon"); (* 2096 *)
  ([37;67;69;37;65;53], lit "\Upsilon"); (* 2097 *)
  ([37;67;70;37;57;53], lit "\phi"); (* 2098 *)
  ([37;67;69;37;65;54], lit "\Phi"); (* 2099 *)
  ([37;67;70;37;56;55], lit "\chi"); (* 2100 *)
  ([37;67;70;37;56;56], lit "\psi"); (* 2101 *)
  ([37;67;69;37;65;56], lit "\Psi"); (* 2102 *)
  ([37;67;70;37;56;57], lit "\omega"); (* 2103 *)
  ([37;67;69;37;65;57], lit "\Omega") (* 2104 *)
].

(** syntax.py:2107-3309 *)
Definition all_math_operators_by_glyph : dict str := [
  ([95], lit "\underline"); (* 2108 *)
  ([9185], lit "\underbrace"); (* 2109 ⏡ *)
  ([9184], lit "\overbrace"); (* 2110 ⏠ *)
  ([9183], lit "\underbrace"); (* 2111 ⏟ *)
  ([9182], lit "\overbrace"); (* 2112 ⏞ *)
  ([9181], lit "\underbrace"); (* 2113 ⏝ *)
  ([9180], lit "\overbrace"); (* 2114 ⏜ *)
  ([9141], lit "\underbrace"); (* 2115 ⎵ *)
  ([9140], lit "\overbrace"); (* 2116 ⎴ *)
  ([8412], lit "\square"); (* 2117 *)
  ([8411], lit "\square"); (* 2118 *)
  ([8292], lit ""); (* 2119 *)
  ([8279], lit "''''"); (* 2120 ⁗ *)
  ([8254], lit "\overline"); (* 2121 ‾ *)
  ([8247], lit "```"); (* 2122 ‷ *)
  ([8246], lit "``"); (* 2123 ‶ *)
  ([8245], lit "`"); (* 2124 ‵ *)
  ([8244], lit "'''"); (* 2125 ‴ *)
  ([8243], lit "''"); (* 2126 ″ *)
  ([8223], lit "``"); (* 2127 ‟ *)
  ([8222], lit ",,"); (* 2128 „ *)
  ([8219], lit "`"); (* 2129 ‛ *)
  ([8218], lit ","); (* 2130 ‚ *)
  ([94], lit "\hat"); (* 2131 *)
  ([759], lit "\sim"); (* 2132 ˷ *)
  ([733], lit "\sim"); (* 2133 ˝ *)
  ([732], lit "\sim"); (* 2134 ˜ *)
  ([730], lit "\circ"); (* 2135 ˚ *)
  ([729], lit "\cdot"); (* 2136 ˙ *)
  ([728], lit " "); (* 2137 ˘ *)
  ([717], lit "\_"); (* 2138 ˍ *)
  ([715], [715]); (* 2139 ˋ *)
  ([714], [714]); (* 2140 ˊ *)
  ([713], [713]); (* 2141 ˉ *)
  ([711], lit ""); (* 2142 ˇ *)
  ([710], lit "\hat"); (* 2143 ˆ *)
  ([186], lit "o"); (* 2144 º *)
  ([185], lit "1"); (* 2145 ¹ *)
  ([184], lit ","); (* 2146 ¸ *)
  ([180], [180]); (* 2147 ´ *)
  ([179], lit "3"); (* 2148 ³ *)
  ([178], lit "2"); (* 2149 ² *)
  ([176], lit "\circ"); (* 2150 ° *)
  ([175], lit "\bar"); (* 2151 ¯ *)
  ([170], lit "a"); (* 2152 ª *)
  ([8603], lit "\nrightarrow"); (* 2153 ↛ *)
  ([168], lit "\cdot\cdot"); (* 2154 ¨ *)
  ([126], lit "\sim"); (* 2155 *)
  ([96], lit "`"); (* 2156 *)
  ([45;45], lit "--"); (* 2157 *)
  ([43;43], lit "++"); (* 2158 *)
  ([38], lit "\&"); (* 2159 *)
  ([8732], lit "\sqrt[4]{}"); (* 2160 ∜ *)
  ([8731], lit "\sqrt[3]{}"); (* 2161 ∛ *)
  ([8730], lit "\sqrt{}"); (* 2162 √ *)
  ([8518], lit "d"); (* 2163 ⅆ *)
  ([8517], lit "\mathbb{D}"); (* 2164 ⅅ *)
  ([63], lit "?"); (* 2165 *)
  ([64], lit "@"); (* 2166 *)
  ([47;47], lit "//"); (* 2167 *)
  ([33;33], lit "!!"); (* 2168 *)
  ([33], lit "!"); (* 2169 *)
  ([9839], lit "\#"); (* 2170 ♯ *)
  ([9838], lit ""); (* 2171 ♮ *)
  ([9837], lit ""); (* 2172 ♭ *)
  ([8242], lit "'"); (* 2173 ′ *)
  ([60;62], lit "<>"); (* 2174 *)
  ([42;42], lit "\star\star"); (* 2175 *)
  ([8711], lit "\nabla"); (* 2176 ∇ *)
  ([8706], lit "\partial"); (* 2177 ∂ *)
  ([8857], lit "\bigodot"); (* 2178 ⊙ *)
  ([172], lit "\neg"); (* 2179 ¬ *)
  ([8738], lit "\measuredangle"); (* 2180 ∢ *)
  ([8737], lit "\measuredangle"); (* 2181 ∡ *)
  ([8736], lit "\angle"); (* 2182 ∠ *)
  ([247], lit "\div"); (* 2183 ÷ *)
  ([47], lit "/"); (* 2184 *)
  ([8726], lit "\backslash"); (* 2185 ∖ *)
  ([92], lit "\backslash"); (* 2186 *)
  ([37], lit "\%"); (* 2187 *)
  ([8855], lit "\bigotimes"); (* 2188 ⊗ *)
  ([183], lit "\cdot"); (* 2189 · *)
  ([10815], lit "\coprod"); (* 2190 ⨿ *)
  ([10799], lit "\times"); (* 2191 ⨯ *)
  ([8901], lit "\cdot"); (* 2192 ⋅ *)
  ([8865], lit "\boxdot"); (* 2193 ⊡ *)
  ([8864], lit "\boxtimes"); (* 2194 ⊠ *)
  ([8290], lit ""); (* 2195 *)
  ([8259], lit "-"); (* 2196 ⁃ *)
  ([8226], lit "\cdot"); (* 2197 • *)
  ([46], lit "."); (* 2198 *)
  ([42], lit "\star"); (* 2199 *)
  ([8746], lit "\cup"); (* 2200 ∪ *)
  ([8745], lit "\cap"); (* 2201 ∩ *)
  ([8720], lit "\coprod"); (* 2202 ∐ *)
  ([8719], lit "\prod"); (* 2203 ∏ *)
  ([8768], lit ""); (* 2204 ≀ *)
  ([11007], lit ""); (* 2205 ⫿ *)
  ([11004], lit "\mid\mid\mid"); (* 2206 ⫼ *)
  ([10761], lit "\times"); (* 2207 ⨉ *)
  ([10760], lit ""); (* 2208 ⨈ *)
  ([10759], lit ""); (* 2209 ⨇ *)
  ([10758], lit "\sqcup"); (* 2210 ⨆ *)
  ([10757], lit "\sqcap"); (* 2211 ⨅ *)
  ([10754], lit "\otimes"); (* 2212 ⨂ *)
  ([10752], lit "\odot"); (* 2213 ⨀ *)
  ([8898], lit "\cap"); (* 2214 ⋂ *)
  ([8897], lit "\vee"); (* 2215 ⋁ *)
  ([8896], lit "\wedge"); (* 2216 ⋀ *)
  ([10756], lit "\uplus"); (* 2217 ⨄ *)
  ([10755], lit "\cup"); (* 2218 ⨃ *)
  ([8899], lit "\cup"); (* 2219 ⋃ *)
  ([10780], lit "\underline{\int}"); (* 2220 ⨜ *)
  ([10779], lit "\overline{\int}"); (* 2221 ⨛ *)
  ([10778], lit "\int"); (* 2222 ⨚ *)
  ([10777], lit "\int"); (* 2223 ⨙ *)
  ([10776], lit "\int"); (* 2224 ⨘ *)
  ([10775], lit "\int"); (* 2225 ⨗ *)
  ([10774], lit "\oint"); (* 2226 ⨖ *)
  ([10773], lit "\oint"); (* 2227 ⨕ *)
  ([10772], lit "\int"); (* 2228 ⨔ *)
  ([10771], lit "\int"); (* 2229 ⨓ *)
  ([10770], lit "\int"); (* 2230 ⨒ *)
  ([10769], lit "\int"); (* 2231 ⨑ *)
  ([10768], lit "\int"); (* 2232 ⨐ *)
  ([10767], lit "\bcancel{\int}"); (* 2233 ⨏ *)
  ([10766], lit ""); (* 2234 ⨎ *)
  ([10765], lit "\hcancel{\int}"); (* 2235 ⨍ *)
  ([10764], lit "\iiiint"); (* 2236 ⨌ *)
  ([8755], lit "\oint"); (* 2237 ∳ *)
  ([8754], lit "\oint"); (* 2238 ∲ *)
  ([8753], lit "\int"); (* 2239 ∱ *)
  ([8752], lit "\oiint"); (* 2240 ∰ *)
  ([8751], lit "\oiint"); (* 2241 ∯ *)
  ([8750], lit "\oint"); (* 2242 ∮ *)
  ([8747], lit "\int"); (* 2243 ∫ *)
  ([10753], lit "\oplus"); (* 2244 ⨁ *)
  ([8856], lit "\oslash"); (* 2245 ⊘ *)
  ([8854], lit "\ominus"); (* 2246 ⊖ *)
  ([8853], lit "\oplus"); (* 2247 ⊕ *)
  ([8749], lit "\iiint"); (* 2248 ∭ *)
  ([8748], lit "\iint"); (* 2249 ∬ *)
  ([10763], lit ""); (* 2250 ⨋ *)
  ([10762], lit ""); (* 2251 ⨊ *)
  ([8721], lit "\sum"); (* 2252 ∑ *)
  ([8863], lit "\boxminus"); (* 2253 ⊟ *)
  ([8862], lit "\boxplus"); (* 2254 ⊞ *)
  ([8724], lit "\dot{+}"); (* 2255 ∔ *)
  ([8723], lit "+-"); (* 2256 ∓ *)
  ([8722], lit "-"); (* 2257 − *)
  ([177], lit "\pm"); (* 2258 ± *)
  ([45], lit "-"); (* 2259 *)
  ([43], lit "+"); (* 2260 *)
  ([11078], lit "\Rrightarrow"); (* 2261 ⭆ *)
  ([11077], lit "\Lleftarrow"); (* 2262 ⭅ *)
  ([10740], lit ":\rightarrow"); (* 2263 ⧴ *)
  ([10735], lit ""); (* 2264 ⧯ *)
  ([10719], lit "\bullet-\bullet"); (* 2265 ⧟ *)
  ([10655], lit "\angle"); (* 2266 ⦟ *)
  ([10654], lit "\measuredangle"); (* 2267 ⦞ *)
  ([10653], lit "\measuredangle"); (* 2268 ⦝ *)
  ([10652], lit "\perp"); (* 2269 ⦜ *)
  ([10651], lit "\measuredangle"); (* 2270 ⦛ *)
  ([10650], lit ""); (* 2271 ⦚ *)
  ([10649], lit "\vdots"); (* 2272 ⦙ *)
  ([10623], lit ""); (* 2273 ⥿ *)
  ([10622], lit ""); (* 2274 ⥾ *)
  ([10621], lit "\prec"); (* 2275 ⥽ *)
  ([10620], lit "\succ"); (* 2276 ⥼ *)
  ([10619], lit "\underset{\rightarrow}{\supset}"); (* 2277 ⥻ *)
  ([10618], lit ""); (* 2278 ⥺ *)
  ([10617], lit "\underset{\rightarrow}{\subset}"); (* 2279 ⥹ *)
  ([10616], lit "\underset{\rightarrow}{>}"); (* 2280 ⥸ *)
  ([10615], lit ""); (* 2281 ⥷ *)
  ([10614], lit "\underset{\leftarrow}{<}"); (* 2282 ⥶ *)
  ([10613], lit "\underset{\approx}{\rightarrow}"); (* 2283 ⥵ *)
  ([10612], lit "\underset{\sim}{\rightarrow}"); (* 2284 ⥴ *)
  ([10611], lit "\underset{\sim}{\leftarrow}"); (* 2285 ⥳ *)
  ([10610], lit "\overset{\sim}{\rightarrow}"); (* 2286 ⥲ *)
  ([10609], lit "\overset{=}{\rightarrow}"); (* 2287 ⥱ *)
  ([10608], lit ""); (* 2288 ⥰ *)
  ([10607], lit ""); (* 2289 ⥯ *)
  ([10606], lit ""); (* 2290 ⥮ *)
  ([10605], lit "\overline{\rightharpoondown}"); (* 2291 ⥭ *)
  ([10604], lit "\underline{\rightharpoonup}"); (* 2292 ⥬ *)
  ([10603], lit "\overline{\leftharpoondown}"); (* 2293 ⥫ *)
  ([10602], lit "\underline{\leftharpoonup}"); (* 2294 ⥪ *)
  ([10601], lit "\rightleftharpoons"); (* 2295 ⥩ *)
  ([10600], lit "\rightleftharpoons"); (* 2296 ⥨ *)
  ([10599], lit "\rightleftharpoons"); (* 2297 ⥧ *)
  ([10598], lit "\rightleftharpoons"); (* 2298 ⥦ *)
  ([10597], lit "\Downarrow"); (* 2299 ⥥ *)
  ([10596], lit "\Rightarrow"); (* 2300 ⥤ *)
  ([10595], lit "\Uparrow"); (* 2301 ⥣ *)
  ([10594], lit "\Leftarrow"); (* 2302 ⥢ *)
  ([10593], lit "\downarrow"); (* 2303 ⥡ *)
  ([10592], lit "\uparrow"); (* 2304 ⥠ *)
  ([10591], lit "\rightarrow"); (* 2305 ⥟ *)
  ([10590], lit "\leftarrow"); (* 2306 ⥞ *)
  ([10589], lit "\downarrow"); (* 2307 ⥝ *)
  ([10588], lit "\uparrow"); (* 2308 ⥜ *)
  ([10587], lit "\rightarrow"); (* 2309 ⥛ *)
  ([10586], lit "\leftarrow"); (* 2310 ⥚ *)
  ([10585], lit "\downarrow"); (* 2311 ⥙ *)
  ([10584], lit "\uparrow"); (* 2312 ⥘ *)
  ([10583], lit "\rightarrow"); (* 2313 ⥗ *)
  ([10582], lit "\leftarrow"); (* 2314 ⥖ *)
  ([10581], lit "\downarrow"); (* 2315 ⥕ *)
  ([10580], lit "\uparrow"); (* 2316 ⥔ *)
  ([10579], lit "\rightarrow"); (* 2317 ⥓ *)
  ([10578], lit "\leftarrow"); (* 2318 ⥒ *)
  ([10577], lit "\updownarrow"); (* 2319 ⥑ *)
  ([10576], lit "\leftrightarrow"); (* 2320 ⥐ *)
  ([10575], lit "\updownarrow"); (* 2321 ⥏ *)
  ([10574], lit "\leftrightarrow"); (* 2322 ⥎ *)
  ([10573], lit "\updownarrow"); (* 2323 ⥍ *)
  ([10572], lit "\updownarrow"); (* 2324 ⥌ *)
  ([10571], lit "\leftrightarrow"); (* 2325 ⥋ *)
  ([10570], lit "\leftrightarrow"); (* 2326 ⥊ *)
  ([10569], lit ""); (* 2327 ⥉ *)
  ([10568], lit "\leftrightarrow"); (* 2328 ⥈ *)
  ([10567], lit "\nrightarrow"); (* 2329 ⥇ *)
  ([10566], lit ""); (* 2330 ⥆ *)
  ([10565], lit ""); (* 2331 ⥅ *)
  ([10564], lit "\rightleftarrows"); (* 2332 ⥄ *)
  ([10563], lit "\leftrightarrows"); (* 2333 ⥃ *)
  ([10562], lit "\rightleftarrows"); (* 2334 ⥂ *)
  ([10561], lit "\circlearrowright"); (* 2335 ⥁ *)
  ([10560], lit "\circlearrowleft"); (* 2336 ⥀ *)
  ([10559], lit "\rightarrow"); (* 2337 ⤿ *)
  ([10558], lit "\leftarrow"); (* 2338 ⤾ *)
  ([10557], lit "\leftarrow"); (* 2339 ⤽ *)
  ([10556], lit "\rightarrow"); (* 2340 ⤼ *)
  ([10555], lit "\rightarrow"); (* 2341 ⤻ *)
  ([10554], lit "\leftarrow"); (* 2342 ⤺ *)
  ([10553], lit "\downarrow"); (* 2343 ⤹ *)
  ([10552], lit "\downarrow"); (* 2344 ⤸ *)
  ([10551], lit "\Rsh"); (* 2345 ⤷ *)
  ([10550], lit "\Lsh"); (* 2346 ⤶ *)
  ([10549], lit "\downarrow"); (* 2347 ⤵ *)
  ([10548], lit "\uparrow"); (* 2348 ⤴ *)
  ([10547], lit "\rightarrow"); (* 2349 ⤳ *)
  ([10546], lit "\leftarrow"); (* 2350 ⤲ *)
  ([10545], lit " "); (* 2351 ⤱ *)
  ([10544], lit " "); (* 2352 ⤰ *)
  ([10543], lit " "); (* 2353 ⤯ *)
  ([10542], lit " "); (* 2354 ⤮ *)
  ([10541], lit " "); (* 2355 ⤭ *)
  ([10540], lit "\times"); (* 2356 ⤬ *)
  ([10539], lit "\times"); (* 2357 ⤫ *)
  ([10538], lit " "); (* 2358 ⤪ *)
  ([10537], lit " "); (* 2359 ⤩ *)
  ([10536], lit " "); (* 2360 ⤨ *)
  ([10535], lit " "); (* 2361 ⤧ *)
  ([10534], lit " "); (* 2362 ⤦ *)
  ([10533], lit " "); (* 2363 ⤥ *)
  ([10532], lit " "); (* 2364 ⤤ *)
  ([10531], lit " "); (* 2365 ⤣ *)
  ([10530], lit " "); (* 2366 ⤢ *)
  ([10529], lit " "); (* 2367 ⤡ *)
  ([10528], lit "\mapsto\cdot"); (* 2368 ⤠ *)
  ([10527], lit "\cdot\leftarrow"); (* 2369 ⤟ *)
  ([10526], lit "\rightarrow\cdot"); (* 2370 ⤞ *)
  ([10525], lit "\leftarrow"); (* 2371 ⤝ *)
  ([10524], lit "\rightarrow"); (* 2372 ⤜ *)
  ([10523], lit "\leftarrow"); (* 2373 ⤛ *)
  ([10522], lit "\rightarrow"); (* 2374 ⤚ *)
  ([10521], lit "\leftarrow"); (* 2375 ⤙ *)
  ([10520], lit "\rightarrow"); (* 2376 ⤘ *)
  ([10519], lit "\rightarrow"); (* 2377 ⤗ *)
  ([10518], lit "\rightarrow"); (* 2378 ⤖ *)
  ([10517], lit "\rightarrow"); (* 2379 ⤕ *)
  ([10516], lit "\rightarrow"); (* 2380 ⤔ *)
  ([10515], lit "\downarrow"); (* 2381 ⤓ *)
  ([10514], lit "\uparrow"); (* 2382 ⤒ *)
  ([10513], lit "\rightarrow"); (* 2383 ⤑ *)
  ([10512], lit "\rightarrow"); (* 2384 ⤐ *)
  ([10511], lit "\rightarrow"); (* 2385 ⤏ *)
  ([10510], lit "\leftarrow"); (* 2386 ⤎ *)
  ([10509], lit "\rightarrow"); (* 2387 ⤍ *)
  ([10508], lit "\leftarrow"); (* 2388 ⤌ *)
  ([10507], lit "\Downarrow"); (* 2389 ⤋ *)
  ([10506], lit "\Uparrow"); (* 2390 ⤊ *)
  ([10505], lit "\uparrow"); (* 2391 ⤉ *)
  ([10504], lit "\downarrow"); (* 2392 ⤈ *)
  ([10503], lit "\Rightarrow"); (* 2393 ⤇ *)
  ([10502], lit "\Leftarrow"); (* 2394 ⤆ *)
  ([10501], lit "\mapsto"); (* 2395 ⤅ *)
  ([10500], lit "\nLeftrightarrow"); (* 2396 ⤄ *)
  ([10499], lit "\nRightarrow"); (* 2397 ⤃ *)
  ([10498], lit "\nLeftarrow"); (* 2398 ⤂ *)
  ([10497], lit "\rightsquigarrow"); (* 2399 ⤁ *)
  ([10496], lit "\rightsquigarrow"); (* 2400 ⤀ *)
  ([10239], lit "\rightsquigarrow"); (* 2401 ⟿ *)
  ([10238], lit "\Rightarrow"); (* 2402 ⟾ *)
  ([10237], lit "\Leftarrow"); (* 2403 ⟽ *)
  ([10236], lit "\mapsto"); (* 2404 ⟼ *)
  ([10235], lit "\leftarrow"); (* 2405 ⟻ *)
  ([10234], lit "\Longleftrightarrow"); (* 2406 ⟺ *)
  ([10233], lit "\Longrightarrow"); (* 2407 ⟹ *)
  ([10232], lit "\Longleftarrow"); (* 2408 ⟸ *)
  ([10231], lit "\leftrightarrow"); (* 2409 ⟷ *)
  ([10230], lit "\rightarrow"); (* 2410 ⟶ *)
  ([10229], lit "\leftarrow"); (* 2411 ⟵ *)
  ([10225], lit "\Downarrow"); (* 2412 ⟱ *)
  ([10224], lit "\Uparrow"); (* 2413 ⟰ *)
  ([8888], lit "\rightarrow"); (* 2414 ⊸ *)
  ([8703], lit "\leftrightarrow"); (* 2415 ⇿ *)
  ([8702], lit "\rightarrow"); (* 2416 ⇾ *)
  ([8701], lit "\leftarrow"); (* 2417 ⇽ *)
  ([8700], lit "\nleftrightarrow"); (* 2418 ⇼ *)
  ([8699], lit "\nrightarrow"); (* 2419 ⇻ *)
  ([8698], lit "\nleftarrow"); (* 2420 ⇺ *)
  ([8697], lit "\nleftrightarrow"); (* 2421 ⇹ *)
  ([8696], lit "\nrightarrow"); (* 2422 ⇸ *)
  ([8695], lit "\nleftarrow"); (* 2423 ⇷ *)
  ([8694], lit "\Rrightarrow"); (* 2424 ⇶ *)
  ([8693], lit ""); (* 2425 ⇵ *)
  ([8692], lit "\rightarrow"); (* 2426 ⇴ *)
  ([8691], lit "\Updownarrow"); (* 2427 ⇳ *)
  ([8690], lit "\searrow"); (* 2428 ⇲ *)
  ([8689], lit "\nwarrow"); (* 2429 ⇱ *)
  ([8688], lit "\Leftarrow"); (* 2430 ⇰ *)
  ([8687], lit "\Uparrow"); (* 2431 ⇯ *)
  ([8686], lit "\Uparrow"); (* 2432 ⇮ *)
  ([8685], lit "\Uparrow"); (* 2433 ⇭ *)
  ([8684], lit "\Uparrow"); (* 2434 ⇬ *)
  ([8683], lit "\Uparrow"); (* 2435 ⇫ *)
  ([8682], lit "\Uparrow"); (* 2436 ⇪ *)
  ([8681], lit "\Downarrow"); (* 2437 ⇩ *)
  ([8680], lit "\Rightarrow"); (* 2438 ⇨ *)
  ([8679], lit "\Uparrow"); (* 2439 ⇧ *)
  ([8678], lit "\Leftarrow"); (* 2440 ⇦ *)
  ([8677], lit "\rightarrow"); (* 2441 ⇥ *)
  ([8676], lit "\leftarrow"); (* 2442 ⇤ *)
  ([8675], lit "\downarrow"); (* 2443 ⇣ *)
  ([8674], lit "\rightarrow"); (* 2444 ⇢ *)
  ([8673], lit "\uparrow"); (* 2445 ⇡ *)
  ([8672], lit "\leftarrow"); (* 2446 ⇠ *)
  ([8671], lit "\downarrow"); (* 2447 ⇟ *)
  ([8670], lit "\uparrow"); (* 2448 ⇞ *)
  ([8669], lit "\rightsquigarrow"); (* 2449 ⇝ *)
  ([8668], lit "\leftarrow"); (* 2450 ⇜ *)
  ([8667], lit "\Rrightarrow"); (* 2451 ⇛ *)
  ([8666], lit "\Lleftarrow"); (* 2452 ⇚ *)
  ([8665], lit "\swarrow"); (* 2453 ⇙ *)
  ([8664], lit "\searrow"); (* 2454 ⇘ *)
  ([8663], lit "\nearrow"); (* 2455 ⇗ *)
  ([8662], lit "\nwarrow"); (* 2456 ⇖ *)
  ([8661], lit "\Updownarrow"); (* 2457 ⇕ *)
  ([8660], lit "\Leftrightarrow"); (* 2458 ⇔ *)
  ([8659], lit "\Downarrow"); (* 2459 ⇓ *)
  ([8658], lit "\Rightarrow"); (* 2460 ⇒ *)
  ([8657], lit "\Uparrow"); (* 2461 ⇑ *)
  ([8656], lit "\Leftarrow"); (* 2462 ⇐ *)
  ([8655], lit "\nRightarrow"); (* 2463 ⇏ *)
  ([8654], lit "\nLeftrightarrow"); (* 2464 ⇎ *)
  ([8653], lit "\nLeftarrow"); (* 2465 ⇍ *)
  ([8652], lit "\rightleftharpoons"); (* 2466 ⇌ *)
  ([8651], lit "\leftrightharpoons"); (* 2467 ⇋ *)
  ([8650], lit "\downdownarrows"); (* 2468 ⇊ *)
  ([8649], lit "\rightrightarrows"); (* 2469 ⇉ *)
  ([8648], lit "\upuparrows"); (* 2470 ⇈ *)
  ([8647], lit "\leftleftarrows"); (* 2471 ⇇ *)
  ([8646], lit "\leftrightarrows"); (* 2472 ⇆ *)
  ([8645], lit ""); (* 2473 ⇅ *)
  ([8644], lit "\rightleftarrows"); (* 2474 ⇄ *)
  ([8643], lit "\downharpoonleft"); (* 2475 ⇃ *)
  ([8642], lit "\downharpoonright"); (* 2476 ⇂ *)
  ([8641], lit "\rightharpoondown"); (* 2477 ⇁ *)
  ([8640], lit "\rightharpoonup"); (* 2478 ⇀ *)
  ([8639], lit "\upharpoonleft"); (* 2479 ↿ *)
  ([8638], lit "\upharpoonright"); (* 2480 ↾ *)
  ([8637], lit "\leftharpoondown"); (* 2481 ↽ *)
  ([8636], lit "\leftharpoonup"); (* 2482 ↼ *)
  ([8635], lit "\circlearrowright"); (* 2483 ↻ *)
  ([8634], lit "\circlearrowleft"); (* 2484 ↺ *)
  ([8633], lit "\leftrightarrows"); (* 2485 ↹ *)
  ([8632], lit "\overline{\nwarrow}"); (* 2486 ↸ *)
  ([8631], lit "\curvearrowright"); (* 2487 ↷ *)
  ([8630], lit "\curvearrowleft"); (* 2488 ↶ *)
  ([8629], lit "\swarrow"); (* 2489 ↵ *)
  ([8628], lit "\searrow"); (* 2490 ↴ *)
  ([8627], lit "\Rsh"); (* 2491 ↳ *)
  ([8626], lit "\Lsh"); (* 2492 ↲ *)
  ([8625], lit "\Rsh"); (* 2493 ↱ *)
  ([8624], lit "\Lsh"); (* 2494 ↰ *)
  ([8623], lit "\swarrow"); (* 2495 ↯ *)
  ([8622], lit ""); (* 2496 ↮ *)
  ([8621], lit "\leftrightsquigarrow"); (* 2497 ↭ *)
  ([8620], lit "\looparrowright"); (* 2498 ↬ *)
  ([8619], lit "\looparrowleft"); (* 2499 ↫ *)
  ([8618], lit "\hookrightarrow"); (* 2500 ↪ *)
  ([8617], lit "\hookleftarrow"); (* 2501 ↩ *)
  ([8616], lit "\underline{\updownarrow}"); (* 2502 ↨ *)
  ([8615], lit "\downarrow"); (* 2503 ↧ *)
  ([8614], lit "\rightarrowtail"); (* 2504 ↦ *)
  ([8613], lit "\uparrow"); (* 2505 ↥ *)
  ([8612], lit "\leftarrowtail"); (* 2506 ↤ *)
  ([8611], lit "\rightarrowtail"); (* 2507 ↣ *)
  ([8610], lit "\leftarrowtail"); (* 2508 ↢ *)
  ([8609], lit "\downarrow"); (* 2509 ↡ *)
  ([8608], lit "\twoheadrightarrow"); (* 2510 ↠ *)
  ([8607], lit "\uparrow"); (* 2511 ↟ *)
  ([8606], lit "\twoheadleftarrow"); (* 2512 ↞ *)
  ([8605], lit "\nearrow"); (* 2513 ↝ *)
  ([8604], lit "\nwarrow"); (* 2514 ↜ *)
  ([8602], lit ""); (* 2515 ↚ *)
  ([8601], lit "\swarrow"); (* 2516 ↙ *)
  ([8600], lit "\searrow"); (* 2517 ↘ *)
  ([8599], lit "\nearrow"); (* 2518 ↗ *)
  ([8598], lit "\nwarrow"); (* 2519 ↖ *)
  ([8597], lit "\updownarrow"); (* 2520 ↕ *)
  ([8596], lit "\leftrightarrow"); (* 2521 ↔ *)
  ([8595], lit "\downarrow"); (* 2522 ↓ *)
  ([8594], lit "\rightarrow"); (* 2523 → *)
  ([8593], lit "\uparrow"); (* 2524 ↑ *)
  ([8592], lit "\leftarrow"); (* 2525 ← *)
  ([124;124;124], lit "\left|||\right."); (* 2526 *)
  ([124;124], lit "\left||\right."); (* 2527 *)
  ([124], lit "\mid"); (* 2528 *)
  ([11006], lit ""); (* 2529 ⫾ *)
  ([11005], lit "//"); (* 2530 ⫽ *)
  ([11003], lit "///"); (* 2531 ⫻ *)
  ([11002], lit ""); (* 2532 ⫺ *)
  ([11001], lit ""); (* 2533 ⫹ *)
  ([11000], lit ""); (* 2534 ⫸ *)
  ([10999], lit ""); (* 2535 ⫷ *)
  ([10998], lit "\vdots"); (* 2536 ⫶ *)
  ([10997], lit ""); (* 2537 ⫵ *)
  ([10996], lit ""); (* 2538 ⫴ *)
  ([10995], lit ""); (* 2539 ⫳ *)
  ([10994], lit "\nparallel"); (* 2540 ⫲ *)
  ([10993], lit ""); (* 2541 ⫱ *)
  ([10992], lit ""); (* 2542 ⫰ *)
  ([10991], lit ""); (* 2543 ⫯ *)
  ([10990], lit "\bcancel{\mid}"); (* 2544 ⫮ *)
  ([10989], lit ""); (* 2545 ⫭ *)
  ([10988], lit ""); (* 2546 ⫬ *)
  ([10987], lit ""); (* 2547 ⫫ *)
  ([10986], lit ""); (* 2548 ⫪ *)
  ([10985], lit ""); (* 2549 ⫩ *)
  ([10984], lit "\underline{\perp}"); (* 2550 ⫨ *)
  ([10983], lit "\overline{\top}"); (* 2551 ⫧ *)
  ([10982], lit ""); (* 2552 ⫦ *)
  ([10981], lit ""); (* 2553 ⫥ *)
  ([10980], lit ""); (* 2554 ⫤ *)
  ([10979], lit ""); (* 2555 ⫣ *)
  ([10978], lit ""); (* 2556 ⫢ *)
  ([10977], lit ""); (* 2557 ⫡ *)
  ([10976], lit "\perp"); (* 2558 ⫠ *)
  ([10975], lit "\top"); (* 2559 ⫟ *)
  ([10974], lit "\dashv"); (* 2560 ⫞ *)
  ([10973;824], lit ""); (* 2561 *)
  ([10973], lit ""); (* 2562 ⫝ *)
  ([10971], lit "\pitchfork"); (* 2563 ⫛ *)
  ([10970], lit ""); (* 2564 ⫚ *)
  ([10969], lit ""); (* 2565 ⫙ *)
  ([10968], lit ""); (* 2566 ⫘ *)
  ([10967], lit ""); (* 2567 ⫗ *)
  ([10966], lit ""); (* 2568 ⫖ *)
  ([10965], lit ""); (* 2569 ⫕ *)
  ([10964], lit ""); (* 2570 ⫔ *)
  ([10963], lit ""); (* 2571 ⫓ *)
  ([10962], lit ""); (* 2572 ⫒ *)
  ([10961], lit ""); (* 2573 ⫑ *)
  ([10960], lit ""); (* 2574 ⫐ *)
  ([10959], lit ""); (* 2575 ⫏ *)
  ([10958], lit ""); (* 2576 ⫎ *)
  ([10957], lit ""); (* 2577 ⫍ *)
  ([10956], lit "\underset{\neq}{\supset}"); (* 2578 ⫌ *)
  ([10955], lit "\underset{\neq}{\subset}"); (* 2579 ⫋ *)
  ([10954], lit "\underset{\approx}{\supset}"); (* 2580 ⫊ *)
  ([10953], lit "\underset{\approx}{\subset}"); (* 2581 ⫉ *)
  ([10952], lit "\underset{\sim}{\supset}"); (* 2582 ⫈ *)
  ([10951], lit "\underset{\sim}{\subset}"); (* 2583 ⫇ *)
  ([10950], lit "\supseteqq"); (* 2584 ⫆ *)
  ([10949], lit "\subseteqq"); (* 2585 ⫅ *)
  ([10948], lit "\dot{\supseteq}"); (* 2586 ⫄ *)
  ([10947], lit "\dot{\subseteq}"); (* 2587 ⫃ *)
  ([10946], lit "\underset{\times}{\supset}"); (* 2588 ⫂ *)
  ([10945], lit "\underset{\times}{\subset}"); (* 2589 ⫁ *)
  ([10944], lit "\underset{+}{\supset}"); (* 2590 ⫀ *)
  ([10943], lit "\underset{+}{\subset}"); (* 2591 ⪿ *)
  ([10942], lit ""); (* 2592 ⪾ *)
  ([10941], lit ""); (* 2593 ⪽ *)
  ([10940], lit "\gg "); (* 2594 ⪼ *)
  ([10939], lit "\ll"); (* 2595 ⪻ *)
  ([10938], lit "\underset{\cancel{\approx}}{\succ}"); (* 2596 ⪺ *)
  ([10937], lit "\underset{\cancel{\approx}}{\prec}"); (* 2597 ⪹ *)
  ([10936], lit "\underset{\approx}{\succ}"); (* 2598 ⪸ *)
  ([10935], lit "\underset{\approx}{\prec}"); (* 2599 ⪷ *)
  ([10934], lit "\underset{\cancel{=}}{\succ}"); (* 2600 ⪶ *)
  ([10933], lit "\underset{\cancel{=}}{\prec}"); (* 2601 ⪵ *)
  ([10932], lit "\underset{=}{\succ}"); (* 2602 ⪴ *)
  ([10931], lit "\underset{=}{\prec}"); (* 2603 ⪳ *)
  ([10930], lit ""); (* 2604 ⪲ *)
  ([10929], lit ""); (* 2605 ⪱ *)
  ([10926], lit ""); (* 2606 ⪮ *)
  ([10925], lit "\underline{\hcancel{>}}"); (* 2607 ⪭ *)
  ([10924], lit "\underline{\hcancel{>}}"); (* 2608 ⪬ *)
  ([10923], lit "\hcancel{>}"); (* 2609 ⪫ *)
  ([10922], lit "\hcancel{<}"); (* 2610 ⪪ *)
  ([10921], lit ""); (* 2611 ⪩ *)
  ([10920], lit ""); (* 2612 ⪨ *)
  ([10919], lit "\vartriangleright"); (* 2613 ⪧ *)
  ([10918], lit "\vartriangleleft"); (* 2614 ⪦ *)
  ([10917], lit "><"); (* 2615 ⪥ *)
  ([10916], lit "><"); (* 2616 ⪤ *)
  ([10915], lit "\underline{\ll}"); (* 2617 ⪣ *)
  ([10914;824], lit "\cancel{\gg}"); (* 2618 *)
  ([10914], lit "\gg"); (* 2619 ⪢ *)
  ([10913;824], lit "\cancel{\ll}"); (* 2620 *)
  ([10913], lit "\ll"); (* 2621 ⪡ *)
  ([10912], lit "\overset{\sim}{\geqq}"); (* 2622 ⪠ *)
  ([10911], lit "\overset{\sim}{\leqq}"); (* 2623 ⪟ *)
  ([10910], lit "\overset{\sim}{>}"); (* 2624 ⪞ *)
  ([10909], lit "\overset{\sim}{<}"); (* 2625 ⪝ *)
  ([10908], lit ""); (* 2626 ⪜ *)
  ([10907], lit ""); (* 2627 ⪛ *)
  ([10906], lit "\overset{=}{>}"); (* 2628 ⪚ *)
  ([10905], lit "\overset{=}{<}"); (* 2629 ⪙ *)
  ([10904], lit ""); (* 2630 ⪘ *)
  ([10903], lit ""); (* 2631 ⪗ *)
  ([10902], lit ""); (* 2632 ⪖ *)
  ([10901], lit ""); (* 2633 ⪕ *)
  ([10900], lit ""); (* 2634 ⪔ *)
  ([10899], lit ""); (* 2635 ⪓ *)
  ([10898], lit "\underset{=}{\gtrless}"); (* 2636 ⪒ *)
  ([10897], lit "\underset{=}{\lessgtr}"); (* 2637 ⪑ *)
  ([10896], lit "\underset{<}{\gtrsim}"); (* 2638 ⪐ *)
  ([10895], lit "\underset{>}{\lesssim}"); (* 2639 ⪏ *)
  ([10894], lit "\underset{\simeq}{>}"); (* 2640 ⪎ *)
  ([10893], lit "\underset{\simeq}{<}"); (* 2641 ⪍ *)
  ([10892], lit "\gtreqqless"); (* 2642 ⪌ *)
  ([10891], lit "\lesseqqgtr"); (* 2643 ⪋ *)
  ([10890], lit "\underset{\cancel{\approx}}{>}"); (* 2644 ⪊ *)
  ([10889], lit "\underset{\approx}{<}"); (* 2645 ⪉ *)
  ([10886], lit "\underset{\approx}{>}"); (* 2646 ⪆ *)
  ([10885], lit "\underset{\approx}{<}"); (* 2647 ⪅ *)
  ([10884], lit ""); (* 2648 ⪄ *)
  ([10883], lit ""); (* 2649 ⪃ *)
  ([10882], lit ""); (* 2650 ⪂ *)
  ([10881], lit ""); (* 2651 ⪁ *)
  ([10880], lit ""); (* 2652 ⪀ *)
  ([10879], lit ""); (* 2653 ⩿ *)
  ([10878;824], lit "\bcancel{\geq}"); (* 2654 *)
  ([10878], lit "\geq"); (* 2655 ⩾ *)
  ([10877;824], lit "\bcancel{\leq}"); (* 2656 *)
  ([10877], lit "\leq"); (* 2657 ⩽ *)
  ([10876], lit ""); (* 2658 ⩼ *)
  ([10875], lit ""); (* 2659 ⩻ *)
  ([10874], lit ""); (* 2660 ⩺ *)
  ([10873], lit ""); (* 2661 ⩹ *)
  ([10872], lit "\overset{\dots}{\equiv}"); (* 2662 ⩸ *)
  ([10871], lit ""); (* 2663 ⩷ *)
  ([10870], lit "==="); (* 2664 ⩶ *)
  ([10869], lit "=="); (* 2665 ⩵ *)
  ([10868], lit "::="); (* 2666 ⩴ *)
  ([10867], lit ""); (* 2667 ⩳ *)
  ([10866], lit "\underset{=}{+}"); (* 2668 ⩲ *)
  ([10865], lit "\overset{=}{+}"); (* 2669 ⩱ *)
  ([10864], lit "\overset{\approx}{=}"); (* 2670 ⩰ *)
  ([10863], lit "\overset{\wedge}{=}"); (* 2671 ⩯ *)
  ([10862], lit "\overset{*}{=}"); (* 2672 ⩮ *)
  ([10861], lit "\dot{\approx}"); (* 2673 ⩭ *)
  ([10860], lit ""); (* 2674 ⩬ *)
  ([10859], lit ""); (* 2675 ⩫ *)
  ([10858], lit "\dot{\sim}"); (* 2676 ⩪ *)
  ([10857], lit ""); (* 2677 ⩩ *)
  ([10856], lit ""); (* 2678 ⩨ *)
  ([10855], lit "\dot{\equiv}"); (* 2679 ⩧ *)
  ([10854], lit "\underset{\cdot}{=}"); (* 2680 ⩦ *)
  ([10853], lit ""); (* 2681 ⩥ *)
  ([10852], lit ""); (* 2682 ⩤ *)
  ([10851], lit "\underset{=}{\vee}"); (* 2683 ⩣ *)
  ([10850], lit "\overset{=}{\vee}"); (* 2684 ⩢ *)
  ([10849], lit "ul(vv)"); (* 2685 ⩡ *)
  ([10848], lit "\underset{=}{\wedge}"); (* 2686 ⩠ *)
  ([10847], lit "\underline{\wedge}"); (* 2687 ⩟ *)
  ([10846], lit "\overset{=}{\wedge}"); (* 2688 ⩞ *)
  ([10845], lit "\hcancel{\vee}"); (* 2689 ⩝ *)
  ([10844], lit "\hcancel{\wedge}"); (* 2690 ⩜ *)
  ([10843], lit ""); (* 2691 ⩛ *)
  ([10842], lit ""); (* 2692 ⩚ *)
  ([10841], lit ""); (* 2693 ⩙ *)
  ([10840], lit "\vee"); (* 2694 ⩘ *)
  ([10839], lit "\wedge"); (* 2695 ⩗ *)
  ([10838], lit ""); (* 2696 ⩖ *)
  ([10837], lit ""); (* 2697 ⩕ *)
  ([10836], lit ""); (* 2698 ⩔ *)
  ([10835], lit ""); (* 2699 ⩓ *)
  ([10834], lit "\dot{\vee}"); (* 2700 ⩒ *)
  ([10833], lit "\dot{\wedge}"); (* 2701 ⩑ *)
  ([10832], lit ""); (* 2702 ⩐ *)
  ([10831], lit ""); (* 2703 ⩏ *)
  ([10830], lit ""); (* 2704 ⩎ *)
  ([10829], lit "\overline{\cap}"); (* 2705 ⩍ *)
  ([10828], lit "\overline{\cup}"); (* 2706 ⩌ *)
  ([10827], lit ""); (* 2707 ⩋ *)
  ([10826], lit ""); (* 2708 ⩊ *)
  ([10825], lit ""); (* 2709 ⩉ *)
  ([10824], lit ""); (* 2710 ⩈ *)
  ([10823], lit ""); (* 2711 ⩇ *)
  ([10822], lit ""); (* 2712 ⩆ *)
  ([10821], lit ""); (* 2713 ⩅ *)
  ([10820], lit ""); (* 2714 ⩄ *)
  ([10819], lit "\overline{\cap}"); (* 2715 ⩃ *)
  ([10818], lit "\overline{\cup}"); (* 2716 ⩂ *)
  ([10817], lit ""); (* 2717 ⩁ *)
  ([10816], lit ""); (* 2718 ⩀ *)
  ([10814], lit ""); (* 2719 ⨾ *)
  ([10813], lit "\llcorner"); (* 2720 ⨽ *)
  ([10812], lit "\lrcorner"); (* 2721 ⨼ *)
  ([10811], lit ""); (* 2722 ⨻ *)
  ([10810], lit ""); (* 2723 ⨺ *)
  ([10809], lit ""); (* 2724 ⨹ *)
  ([10808], lit ""); (* 2725 ⨸ *)
  ([10807], lit ""); (* 2726 ⨷ *)
  ([10806], lit "\hat{\otimes}"); (* 2727 ⨶ *)
  ([10805], lit ""); (* 2728 ⨵ *)
  ([10804], lit ""); (* 2729 ⨴ *)
  ([10803], lit ""); (* 2730 ⨳ *)
  ([10802], lit "\underline{\times}"); (* 2731 ⨲ *)
  ([10801], lit "\underline{\times}"); (* 2732 ⨱ *)
  ([10800], lit "\dot{\times}"); (* 2733 ⨰ *)
  ([10798], lit "\bigodot"); (* 2734 ⨮ *)
  ([10797], lit "\bigodot"); (* 2735 ⨭ *)
  ([10796], lit ""); (* 2736 ⨬ *)
  ([10795], lit ""); (* 2737 ⨫ *)
  ([10794], lit ""); (* 2738 ⨪ *)
  ([10793], lit ""); (* 2739 ⨩ *)
  ([10792], lit ""); (* 2740 ⨨ *)
  ([10791], lit ""); (* 2741 ⨧ *)
  ([9723], lit "\Box"); (* 2742 ◻ *)
  ([10790], lit "\underset{\sim}{+}"); (* 2743 ⨦ *)
  ([10789], lit "\underset{\circ}{+}"); (* 2744 ⨥ *)
  ([10788], lit "\overset{\sim}{+}"); (* 2745 ⨤ *)
  ([10787], lit "\hat{+}"); (* 2746 ⨣ *)
  ([10786], lit "\dot{+}"); (* 2747 ⨢ *)
  ([10785], lit "\upharpoonright"); (* 2748 ⨡ *)
  ([10784], lit ">>"); (* 2749 ⨠ *)
  ([10783], lit ""); (* 2750 ⨟ *)
  ([10782], lit "\triangleleft"); (* 2751 ⨞ *)
  ([10781], lit "\bowtie"); (* 2752 ⨝ *)
  ([10751], lit ""); (* 2753 ⧿ *)
  ([10750], lit "+"); (* 2754 ⧾ *)
  ([10747], lit "\hcancel{|||}"); (* 2755 ⧻ *)
  ([10746], lit "\hcancel{||}"); (* 2756 ⧺ *)
  ([10745], lit "\backslash"); (* 2757 ⧹ *)
  ([10744], lit "/"); (* 2758 ⧸ *)
  ([10743], [104;99;97;110;99;101;108;123;8;97;99;107;115;108;97;115;104;125]); (* 2759 ⧷ *)
  ([10742], lit ""); (* 2760 ⧶ *)
  ([10741], lit "\backslash"); (* 2761 ⧵ *)
  ([10738], lit "\Phi"); (* 2762 ⧲ *)
  ([10737], lit ""); (* 2763 ⧱ *)
  ([10736], lit ""); (* 2764 ⧰ *)
  ([10734], lit ""); (* 2765 ⧮ *)
  ([10733], lit ""); (* 2766 ⧭ *)
  ([10732], lit ""); (* 2767 ⧬ *)
  ([10731], lit "\lozenge"); (* 2768 ⧫ *)
  ([10730], lit ""); (* 2769 ⧪ *)
  ([10729], lit ""); (* 2770 ⧩ *)
  ([10728], lit ""); (* 2771 ⧨ *)
  ([10727], lit "\ddagger"); (* 2772 ⧧ *)
  ([10722], lit "\sqcup\sqcup"); (* 2773 ⧢ *)
  ([10721], lit ""); (* 2774 ⧡ *)
  ([10720], lit "\square"); (* 2775 ⧠ *)
  ([10718], lit ""); (* 2776 ⧞ *)
  ([10717], lit ""); (* 2777 ⧝ *)
  ([10716], lit ""); (* 2778 ⧜ *)
  ([10715], lit "\{\{"); (* 2779 ⧛ *)
  ([10713], lit "\{"); (* 2780 ⧙ *)
  ([10712], lit "\}"); (* 2781 ⧘ *)
  ([10711], lit ""); (* 2782 ⧗ *)
  ([10710], lit ""); (* 2783 ⧖ *)
  ([10709], lit "\bowtie"); (* 2784 ⧕ *)
  ([10708], lit "\bowtie"); (* 2785 ⧔ *)
  ([10707], lit "\bowtie"); (* 2786 ⧓ *)
  ([10706], lit "\bowtie"); (* 2787 ⧒ *)
  ([10705], lit "\bowtie"); (* 2788 ⧑ *)
  ([10704;824], lit "| \not\triangleright"); (* 2789 *)
  ([10704], lit "| \triangleright"); (* 2790 ⧐ *)
  ([10703;824], lit "\not\triangleleft |"); (* 2791 *)
  ([10703], lit "\triangleleft |"); (* 2792 ⧏ *)
  ([10702], lit ""); (* 2793 ⧎ *)
  ([10701], lit "\triangle"); (* 2794 ⧍ *)
  ([10700], lit ""); (* 2795 ⧌ *)
  ([10699], lit "\underline{\triangle}"); (* 2796 ⧋ *)
  ([10698], lit "\dot{\triangle}"); (* 2797 ⧊ *)
  ([10697], lit ""); (* 2798 ⧉ *)
  ([10696], lit "\boxed{\circ}"); (* 2799 ⧈ *)
  ([10695], lit "\boxed{\circ}"); (* 2800 ⧇ *)
  ([10694], lit "\boxed{\rightarrow}"); (* 2801 ⧆ *)
  ([10693], lit "\bcancel{\square}"); (* 2802 ⧅ *)
  ([10692], lit "\cancel{\square}"); (* 2803 ⧄ *)
  ([10691], lit "\odot"); (* 2804 ⧃ *)
  ([10690], lit "\odot"); (* 2805 ⧂ *)
  ([10687], lit "\odot"); (* 2806 ⦿ *)
  ([10686], lit "\odot"); (* 2807 ⦾ *)
  ([10685], lit "\varnothing"); (* 2808 ⦽ *)
  ([10684], lit "\oplus"); (* 2809 ⦼ *)
  ([10683], lit "\otimes"); (* 2810 ⦻ *)
  ([10682], lit ""); (* 2811 ⦺ *)
  ([10681], lit "\varnothing"); (* 2812 ⦹ *)
  ([10680], lit "\varnothing"); (* 2813 ⦸ *)
  ([10679], lit "\ominus"); (* 2814 ⦷ *)
  ([10678], lit "\ominus"); (* 2815 ⦶ *)
  ([10677], lit "\ominus"); (* 2816 ⦵ *)
  ([10676], lit "\vec{\varnothing}"); (* 2817 ⦴ *)
  ([10675], lit "\vec{\varnothing}"); (* 2818 ⦳ *)
  ([10674], lit "\dot{\varnothing}"); (* 2819 ⦲ *)
  ([10673], lit "\overline{\varnothing}"); (* 2820 ⦱ *)
  ([10672], lit "\varnothing"); (* 2821 ⦰ *)
  ([10671], lit "\measuredangle"); (* 2822 ⦯ *)
  ([10670], lit "\measuredangle"); (* 2823 ⦮ *)
  ([10669], lit "\measuredangle"); (* 2824 ⦭ *)
  ([10668], lit "\measuredangle"); (* 2825 ⦬ *)
  ([10667], lit "\measuredangle"); (* 2826 ⦫ *)
  ([10666], lit "\measuredangle"); (* 2827 ⦪ *)
  ([10665], lit "\measuredangle"); (* 2828 ⦩ *)
  ([10664], lit "\measuredangle"); (* 2829 ⦨ *)
  ([10663], lit ""); (* 2830 ⦧ *)
  ([10662], lit ""); (* 2831 ⦦ *)
  ([10661], lit ""); (* 2832 ⦥ *)
  ([10660], lit ""); (* 2833 ⦤ *)
  ([10659], lit "\ulcorner"); (* 2834 ⦣ *)
  ([10658], lit "\measuredangle"); (* 2835 ⦢ *)
  ([10657], lit "\not\lor"); (* 2836 ⦡ *)
  ([10656], lit "\bcancel{>}"); (* 2837 ⦠ *)
  ([10626], lit ":"); (* 2838 ⦂ *)
  ([10625], lit "\cdot"); (* 2839 ⦁ *)
  ([10072], lit "\mid"); (* 2840 ❘ *)
  ([9650], lit "\bigtriangleup"); (* 2841 ▲ *)
  ([8959], lit "\Epsilon"); (* 2842 ⋿ *)
  ([8958], lit "\overline{\ni}"); (* 2843 ⋾ *)
  ([8957], lit "\overline{\ni}"); (* 2844 ⋽ *)
  ([8956], lit "\in"); (* 2845 ⋼ *)
  ([8955], lit "\in"); (* 2846 ⋻ *)
  ([8954], lit "\in"); (* 2847 ⋺ *)
  ([8953], lit "\underline{\in}"); (* 2848 ⋹ *)
  ([8952], lit "\underline{\in}"); (* 2849 ⋸ *)
  ([8951], lit "\overline{\in}"); (* 2850 ⋷ *)
  ([8950], lit "\overline{\in}"); (* 2851 ⋶ *)
  ([8949], lit "\dot{\in}"); (* 2852 ⋵ *)
  ([8948], lit "\in"); (* 2853 ⋴ *)
  ([8947], lit "\in"); (* 2854 ⋳ *)
  ([8946], lit "\in"); (* 2855 ⋲ *)
  ([8944], lit "\ddots"); (* 2856 ⋰ *)
  ([1417], lit ":"); (* 2857 ։ *)
  ([8937], lit "\underset{\sim}{\succ}"); (* 2858 ⋩ *)
  ([8936], lit "\underset{\sim}{\prec}"); (* 2859 ⋨ *)
  ([8935], lit "\underset{\not\sim}{>}"); (* 2860 ⋧ *)
  ([8934], lit "\underset{\not\sim}{<}"); (* 2861 ⋦ *)
  ([8933], lit "\not\sqsupseteq"); (* 2862 ⋥ *)
  ([8932], lit "\not\sqsubseteq"); (* 2863 ⋤ *)
  ([8931], lit "\not\sqsupseteq"); (* 2864 ⋣ *)
  ([8930], lit "\not\sqsubseteq"); (* 2865 ⋢ *)
  ([8929], lit "\nsucc"); (* 2866 ⋡ *)
  ([8928], lit "\nprec"); (* 2867 ⋠ *)
  ([8927], lit "\succ"); (* 2868 ⋟ *)
  ([8926], lit "\prec"); (* 2869 ⋞ *)
  ([8925], lit "\overline{>}"); (* 2870 ⋝ *)
  ([8924], lit "\overline{<}"); (* 2871 ⋜ *)
  ([8923], lit "\underset{>}{\leq}"); (* 2872 ⋛ *)
  ([8922], lit "\underset{<}{\geq}"); (* 2873 ⋚ *)
  ([8917], lit "\#"); (* 2874 ⋕ *)
  ([8915], lit "\cup"); (* 2875 ⋓ *)
  ([8914], lit "\cap"); (* 2876 ⋒ *)
  ([8913], lit "\supset"); (* 2877 ⋑ *)
  ([8912], lit "\subset"); (* 2878 ⋐ *)
  ([8911], lit "\wedge"); (* 2879 ⋏ *)
  ([8910], lit "\vee"); (* 2880 ⋎ *)
  ([8909], lit "\simeq"); (* 2881 ⋍ *)
  ([8904], lit "\Join"); (* 2882 ⋈ *)
  ([8903], lit "\ast"); (* 2883 ⋇ *)
  ([8902], lit "\star"); (* 2884 ⋆ *)
  ([8900], lit "\diamond"); (* 2885 ⋄ *)
  ([8895], lit "\triangle"); (* 2886 ⊿ *)
  ([8894], lit "\measuredangle"); (* 2887 ⊾ *)
  ([8893], lit "\overline{\lor}"); (* 2888 ⊽ *)
  ([8892], lit "\overline{\land}"); (* 2889 ⊼ *)
  ([8891], lit "\underline{\lor}"); (* 2890 ⊻ *)
  ([8890], lit "\top"); (* 2891 ⊺ *)
  ([22303], lit "\pm"); (* 2892 土 *)
  ([21313], lit "+"); (* 2893 十 *)
  ([8889], lit ""); (* 2894 ⊹ *)
  ([8887], lit "\circ\multimap"); (* 2895 ⊷ *)
  ([8886], lit "\circ\multimap"); (* 2896 ⊶ *)
  ([8883], lit "\triangleright"); (* 2897 ⊳ *)
  ([8882], lit "\triangleleft"); (* 2898 ⊲ *)
  ([8881], lit "\succ"); (* 2899 ⊱ *)
  ([8880], lit "\prec"); (* 2900 ⊰ *)
  ([8875], lit "|\models"); (* 2901 ⊫ *)
  ([8874], lit "|\models"); (* 2902 ⊪ *)
  ([8871], lit "\models"); (* 2903 ⊧ *)
  ([8870], lit "\vdash"); (* 2904 ⊦ *)
  ([8861], lit "\ominus"); (* 2905 ⊝ *)
  ([8860], lit "\ominus"); (* 2906 ⊜ *)
  ([8859], lit "\odot"); (* 2907 ⊛ *)
  ([8858], lit "\odot"); (* 2908 ⊚ *)
  ([8852], lit "\sqcup"); (* 2909 ⊔ *)
  ([8851], lit "\sqcap"); (* 2910 ⊓ *)
  ([8850], lit "\sqsupseteq"); (* 2911 ⊒ *)
  ([8849], lit "\sqsubseteq"); (* 2912 ⊑ *)
  ([8848;824], lit "\not\sqsupset"); (* 2913 *)
  ([8848], lit "\sqsupset"); (* 2914 ⊐ *)
  ([8847;824], lit "\not\sqsubset"); (* 2915 *)
  ([8847], lit "\sqsubset"); (* 2916 ⊏ *)
  ([8846], lit "\cup"); (* 2917 ⊎ *)
  ([8845], lit "\cup"); (* 2918 ⊍ *)
  ([8844], lit "\cup"); (* 2919 ⊌ *)
  ([8831;824], lit "\not\succsim"); (* 2920 *)
  ([8831], lit "\succsim"); (* 2921 ≿ *)
  ([8830], lit "\precsim"); (* 2922 ≾ *)
  ([8825], lit "\not\overset{>}{<}"); (* 2923 ≹ *)
  ([8824], lit "\not\overset{>}{<}"); (* 2924 ≸ *)
  ([8823], lit "\overset{>}{<}"); (* 2925 ≷ *)
  ([8822], lit "\overset{<}{>}"); (* 2926 ≶ *)
  ([8821], lit "\not\geg"); (* 2927 ≵ *)
  ([8820], lit "\not\leq"); (* 2928 ≴ *)
  ([8819], lit "\geg"); (* 2929 ≳ *)
  ([8818], lit "\leq"); (* 2930 ≲ *)
  ([8812], lit ""); (* 2931 ≬ *)
  ([8807], lit "\geg"); (* 2932 ≧ *)
  ([8806;824], lit "\not\leq"); (* 2933 *)
  ([8806], lit "\leq"); (* 2934 ≦ *)
  ([8803], lit "\overset{=}{=} "); (* 2935 ≣ *)
  ([8798], lit "\overset{m}{=} "); (* 2936 ≞ *)
  ([8797], lit "\overset{def}{=}"); (* 2937 ≝ *)
  ([8792], lit "="); (* 2938 ≘ *)
  ([8790], lit "="); (* 2939 ≖ *)
  ([8789], lit "=:"); (* 2940 ≕ *)
  ([8787], lit "\doteq"); (* 2941 ≓ *)
  ([8786], lit "\doteq"); (* 2942 ≒ *)
  ([8785], lit "\doteq"); (* 2943 ≑ *)
  ([8784], lit "\doteq"); (* 2944 ≐ *)
  ([8783;824], lit ""); (* 2945 *)
  ([8783], lit ""); (* 2946 ≏ *)
  ([8782;824], lit ""); (* 2947 *)
  ([8782], lit ""); (* 2948 ≎ *)
  ([8780], lit "\approx"); (* 2949 ≌ *)
  ([8779], lit "\approx"); (* 2950 ≋ *)
  ([8778], lit "\approx"); (* 2951 ≊ *)
  ([8770;824], lit "\neq"); (* 2952 *)
  ([8770], lit "="); (* 2953 ≂ *)
  ([8767], lit "\sim"); (* 2954 ∿ *)
  ([8766], lit "\infty"); (* 2955 ∾ *)
  ([8765;817], lit "\sim"); (* 2956 *)
  ([8765], lit "\sim"); (* 2957 ∽ *)
  ([8763], lit "\sim"); (* 2958 ∻ *)
  ([8762], lit ":-:"); (* 2959 ∺ *)
  ([8761], lit "-:"); (* 2960 ∹ *)
  ([8760], lit "\bot"); (* 2961 ∸ *)
  ([8759], lit "::"); (* 2962 ∷ *)
  ([8758], lit ":"); (* 2963 ∶ *)
  ([8739], lit "\mid"); (* 2964 ∣ *)
  ([8735], lit "\llcorner"); (* 2965 ∟ *)
  ([8728], lit "\circ"); (* 2966 ∘ *)
  ([8727], lit "*"); (* 2967 ∗ *)
  ([8725], lit "/"); (* 2968 ∕ *)
  ([8718], lit "\square"); (* 2969 ∎ *)
  ([8717], lit "\ni"); (* 2970 ∍ *)
  ([8714], lit "\in"); (* 2971 ∊ *)
  ([8710], lit "\Delta"); (* 2972 ∆ *)
  ([8260], lit "/"); (* 2973 ⁄ *)
  ([10928;824], lit "\nsucceq"); (* 2974 *)
  ([10928], lit "\succeq"); (* 2975 ⪰ *)
  ([10927;824], lit "\npreceq"); (* 2976 *)
  ([10927], lit "\preceq"); (* 2977 ⪯ *)
  ([10888], lit "\ngeqslant"); (* 2978 ⪈ *)
  ([10887], lit "\nleqslant"); (* 2979 ⪇ *)
  ([10739], lit "\Phi"); (* 2980 ⧳ *)
  ([10726], lit "\models"); (* 2981 ⧦ *)
  ([10725], lit "\not\equiv"); (* 2982 ⧥ *)
  ([10724], lit "\approx\neq"); (* 2983 ⧤ *)
  ([10723], lit "\neq"); (* 2984 ⧣ *)
  ([10689], lit "\circle"); (* 2985 ⧁ *)
  ([10688], lit "\circle"); (* 2986 ⧀ *)
  ([9702], lit "\circle"); (* 2987 ◦ *)
  ([9687], lit "\circle"); (* 2988 ◗ *)
  ([9686], lit "\circle"); (* 2989 ◖ *)
  ([9679], lit "\circle"); (* 2990 ● *)
  ([9678], lit "\circledcirc"); (* 2991 ◎ *)
  ([9677], lit "\circledcirc"); (* 2992 ◍ *)
  ([9676], lit "\circledcirc"); (* 2993 ◌ *)
  ([9673], lit "\circledcirc"); (* 2994 ◉ *)
  ([9672], lit "\diamond"); (* 2995 ◈ *)
  ([9671], lit "\diamond"); (* 2996 ◇ *)
  ([9670], lit "\diamond"); (* 2997 ◆ *)
  ([9669], lit "\triangleleft"); (* 2998 ◅ *)
  ([9668], lit "\triangleleft"); (* 2999 ◄ *)
  ([9667], lit "\triangleleft"); (* 3000 ◃ *)
  ([9666], lit "\triangleleft"); (* 3001 ◂ *)
  ([9665], lit "\triangleleft"); (* 3002 ◁ *)
  ([9664], lit "\triangleleft"); (* 3003 ◀ *)
  ([9663], lit "\triangledown"); (* 3004 ▿ *)
  ([9662], lit "\triangledown"); (* 3005 ▾ *)
  ([9661], lit "\triangledown"); (* 3006 ▽ *)
  ([9660], lit "\triangledown"); (* 3007 ▼ *)
  ([9657], lit "\triangleright"); (* 3008 ▹ *)
  ([9656], lit "\triangleright"); (* 3009 ▸ *)
  ([9655], lit "\triangleright"); (* 3010 ▷ *)
  ([9654], lit "\triangleright"); (* 3011 ▶ *)
  ([9653], lit "\triangle"); (* 3012 ▵ *)
  ([9652], lit "\triangle"); (* 3013 ▴ *)
  ([9651], lit "\triangle"); (* 3014 △ *)
  ([9649], lit "\square"); (* 3015 ▱ *)
  ([9648], lit "\blacksquare"); (* 3016 ▰ *)
  ([9647], lit "\square"); (* 3017 ▯ *)
  ([9646], lit "\blacksquare"); (* 3018 ▮ *)
  ([9645], lit "\square"); (* 3019 ▭ *)
  ([9643], lit "\square"); (* 3020 ▫ *)
  ([9642], lit "\square"); (* 3021 ▪ *)
  ([9633], lit "\square"); (* 3022 □ *)
  ([9632], lit "\blacksquare"); (* 3023 ■ *)
  ([8941], lit "\not\triangleright"); (* 3024 ⋭ *)
  ([8940], lit "\not\triangleleft"); (* 3025 ⋬ *)
  ([8939], lit "\not\triangleright"); (* 3026 ⋫ *)
  ([8938], lit "\not\triangleleft"); (* 3027 ⋪ *)
  ([8921], lit "\ggg"); (* 3028 ⋙ *)
  ([8920], lit "\lll"); (* 3029 ⋘ *)
  ([8919], lit "*>"); (* 3030 ⋗ *)
  ([8918], lit "<*"); (* 3031 ⋖ *)
  ([8916], lit "\pitchfork"); (* 3032 ⋔ *)
  ([8908], lit ""); (* 3033 ⋌ *)
  ([8907], lit "\bowtie"); (* 3034 ⋋ *)
  ([8906], lit "\ltimes"); (* 3035 ⋊ *)
  ([8905], lit "\rtimes"); (* 3036 ⋉ *)
  ([8885], lit "\triangleright"); (* 3037 ⊵ *)
  ([92;116;114;105;97;110;103;108;101;108;101;102;116], lit ""); (* 3038 *)
  ([8869], lit "\bot"); (* 3039 ⊥ *)
  ([8833], lit "\nsucc"); (* 3040 ⊁ *)
  ([8832], lit "\preceq"); (* 3041 ⊀ *)
  ([8829], lit "\succeq"); (* 3042 ≽ *)
  ([8828], lit "\preceq"); (* 3043 ≼ *)
  ([8827], lit "\succ"); (* 3044 ≻ *)
  ([8826], lit "\prec"); (* 3045 ≺ *)
  ([8817], lit "\geq/"); (* 3046 ≱ *)
  ([8816], lit "\leq/"); (* 3047 ≰ *)
  ([8813], lit "\neq"); (* 3048 ≭ *)
  ([8811;824], lit "\not\gg"); (* 3049 *)
  ([8811], lit "\gg"); (* 3050 ≫ *)
  ([8810;824], lit "\not\ll"); (* 3051 *)
  ([8810], lit "\ll"); (* 3052 ≪ *)
  ([8809], lit "\ngeqslant"); (* 3053 ≩ *)
  ([8808], lit "\nleqslant"); (* 3054 ≨ *)
  ([8801], lit "\equiv"); (* 3055 ≡ *)
  ([8799], lit "\doteq"); (* 3056 ≟ *)
  ([8796], lit "\triangleq"); (* 3057 ≜ *)
  ([8795], lit "\doteq"); (* 3058 ≛ *)
  ([8794], lit "\triangleq"); (* 3059 ≚ *)
  ([8793], lit "\triangleq"); (* 3060 ≙ *)
  ([8791], lit "\doteq"); (* 3061 ≗ *)
  ([8788], lit ":="); (* 3062 ≔ *)
  ([8781], lit "\asymp"); (* 3063 ≍ *)
  ([8775], lit "\ncong"); (* 3064 ≇ *)
  ([8774], lit "\ncong"); (* 3065 ≆ *)
  ([8773], lit "\cong"); (* 3066 ≅ *)
  ([8772], lit "\not\simeq"); (* 3067 ≄ *)
  ([8771], lit "\simeq"); (* 3068 ≃ *)
  ([8769], lit "\not\sim"); (* 3069 ≁ *)
  ([8742], lit "\not\parallel"); (* 3070 ∦ *)
  ([8741], lit "\parallel"); (* 3071 ∥ *)
  ([8740], lit "\not|"); (* 3072 ∤ *)
  ([8733], lit "\propto"); (* 3073 ∝ *)
  ([61;61], lit "=="); (* 3074 *)
  ([61], lit "="); (* 3075 *)
  ([58;61], lit ":="); (* 3076 *)
  ([47;61], lit "="); (* 3077 *)
  ([45;61], lit "-="); (* 3078 *)
  ([43;61], lit "+="); (* 3079 *)
  ([42;61], lit "*="); (* 3080 *)
  ([33;61], lit "!="); (* 3081 *)
  ([8800], lit "\neq"); (* 3082 ≠ *)
  ([8802], lit "\equiv /"); (* 3083 ≢ *)
  ([8777], lit "\approx /"); (* 3084 ≉ *)
  ([8764], lit "sim"); (* 3085 ∼ *)
  ([8776], lit "\approx"); (* 3086 ≈ *)
  ([8814], lit "</"); (* 3087 ≮ *)
  ([60], lit "<"); (* 3088 *)
  ([8815], lit ">/"); (* 3089 ≯ *)
  ([62;61], lit ">="); (* 3090 *)
  ([62], lit ">"); (* 3091 *)
  ([8805], lit "\geq"); (* 3092 ≥ *)
  ([8804], lit "\leq"); (* 3093 ≤ *)
  ([60;61], lit "<="); (* 3094 *)
  ([8843], lit "\supsetneq"); (* 3095 ⊋ *)
  ([8842], lit "\subsetneq"); (* 3096 ⊊ *)
  ([8841], lit "\nsupseteq"); (* 3097 ⊉ *)
  ([8840], lit "\nsubseteq"); (* 3098 ⊈ *)
  ([8839], lit "\supseteq"); (* 3099 ⊇ *)
  ([8838], lit "\subseteq"); (* 3100 ⊆ *)
  ([8837], lit "\not\supset"); (* 3101 ⊅ *)
  ([8836], lit "\not\subset"); (* 3102 ⊄ *)
  ([8835;8402], lit "\supset |"); (* 3103 *)
  ([8835], lit "\supset"); (* 3104 ⊃ *)
  ([8834;8402], lit "\subset |"); (* 3105 *)
  ([8834], lit "\subset"); (* 3106 ⊂ *)
  ([8716], lit "\not\in"); (* 3107 ∌ *)
  ([8713], lit "\notin"); (* 3108 ∉ *)
  ([8712], lit "\in"); (* 3109 ∈ *)
  ([8705], lit "C"); (* 3110 ∁ *)
  ([8708], lit "\nexists"); (* 3111 ∄ *)
  ([8707], lit "\exists"); (* 3112 ∃ *)
  ([8704], lit "\forall"); (* 3113 ∀ *)
  ([8743], lit "\land"); (* 3114 ∧ *)
  ([38;38], lit "\&\&"); (* 3115 *)
  ([8744], lit "\lor"); (* 3116 ∨ *)
  ([8879], lit "\cancel{\vDash}"); (* 3117 ⊯ *)
  ([8878], lit "\cancel{\Vdash}"); (* 3118 ⊮ *)
  ([8877], lit "\nvDash"); (* 3119 ⊭ *)
  ([8876], lit "\nvDash"); (* 3120 ⊬ *)
  ([8873], lit "\Vdash"); (* 3121 ⊩ *)
  ([8872], lit "\vDash"); (* 3122 ⊨ *)
  ([8868], lit "\top"); (* 3123 ⊤ *)
  ([8867], lit "\dashv"); (* 3124 ⊣ *)
  ([8866], lit "\vdash"); (* 3125 ⊢ *)
  ([8715], lit "\ni"); (* 3126 ∋ *)
  ([8945], lit "\ddots"); (* 3127 ⋱ *)
  ([8943], lit "\hdots"); (* 3128 ⋯ *)
  ([8942], lit "\vdots"); (* 3129 ⋮ *)
  ([1014], lit "\ni"); (* 3130 ϶ *)
  ([58], lit ":"); (* 3131 *)
  ([46;46;46], lit "\cdots"); (* 3132 *)
  ([46;46], lit ".."); (* 3133 *)
  ([45;62], lit "->"); (* 3134 *)
  ([8757], lit "\because"); (* 3135 ∵ *)
  ([8756], lit "\therefore "); (* 3136 ∴ *)
  ([8291], lit "\llbracket"); (* 3137 *)
  ([44], lit ","); (* 3138 *)
  ([59], lit ";"); (* 3139 *)
  ([10749], lit "\}"); (* 3140 ⧽ *)
  ([10748], lit "\{"); (* 3141 ⧼ *)
  ([10648], lit "\]"); (* 3142 ⦘ *)
  ([10647], lit "\["); (* 3143 ⦗ *)
  ([10646], lit "\ll"); (* 3144 ⦖ *)
  ([10645], lit "\gg"); (* 3145 ⦕ *)
  ([10644], lit "\gg"); (* 3146 ⦔ *)
  ([10643], lit "\ll"); (* 3147 ⦓ *)
  ([10642], lit "\gg"); (* 3148 ⦒ *)
  ([10641], lit "\ll"); (* 3149 ⦑ *)
  ([10640], lit "\]"); (* 3150 ⦐ *)
  ([10639], lit "\]"); (* 3151 ⦏ *)
  ([10638], lit "\]"); (* 3152 ⦎ *)
  ([10637], lit "\["); (* 3153 ⦍ *)
  ([10636], lit "\["); (* 3154 ⦌ *)
  ([10635], lit "\]"); (* 3155 ⦋ *)
  ([10634], lit "\triangleright"); (* 3156 ⦊ *)
  ([10633], lit "\triangleleft"); (* 3157 ⦉ *)
  ([10632], lit "|\)"); (* 3158 ⦈ *)
  ([10631], lit "\(|"); (* 3159 ⦇ *)
  ([10630], lit "|\)"); (* 3160 ⦆ *)
  ([10629], lit "\(\("); (* 3161 ⦅ *)
  ([10628], lit "|\}"); (* 3162 ⦄ *)
  ([10627], lit "\{|"); (* 3163 ⦃ *)
  ([10624], lit "\||"); (* 3164 ⦀ *)
  ([10223], lit "\left. \right]"); (* 3165 ⟯ *)
  ([10222], lit "\left[ \right."); (* 3166 ⟮ *)
  ([10221], lit "\left. \right]]"); (* 3167 ⟭ *)
  ([10220], lit "\left[[ \right."); (* 3168 ⟬ *)
  ([10219], lit "\gg"); (* 3169 ⟫ *)
  ([10218], lit "\ll"); (* 3170 ⟪ *)
  ([10215], lit "\)|"); (* 3171 ⟧ *)
  ([10214], lit "\(|"); (* 3172 ⟦ *)
  ([10099], lit "\left.\right)"); (* 3173 ❳ *)
  ([10098], lit "\left(\right."); (* 3174 ❲ *)
  ([9002], lit "\rangle"); (* 3175 〉 *)
  ([9001], lit "\langle"); (* 3176 〈 *)
  ([8971], lit "\rfloor"); (* 3177 ⌋ *)
  ([8970], lit "\lfloor"); (* 3178 ⌊ *)
  ([8969], lit "\rceil"); (* 3179 ⌉ *)
  ([8968], lit "\lceil"); (* 3180 ⌈ *)
  ([8214], lit "\parallel"); (* 3181 ‖ *)
  ([125], lit "\left.\right}"); (* 3182 *)
  ([123], lit "\left{\right."); (* 3183 *)
  ([93], lit "\left]\right."); (* 3184 *)
  ([91], lit "\left[\right."); (* 3185 *)
  ([41], lit "\left.\right)"); (* 3186 *)
  ([40], lit "\left(\right."); (* 3187 *)
  ([8221], lit "\"""); (* 3188 ” *)
  ([8220], lit "\text{``}"); (* 3189 “ *)
  ([8217], lit "'"); (* 3190 ’ *)
  ([8216], lit "`"); (* 3191 ‘ *)
  ([945], lit "\alpha"); (* 3192 α *)
  ([946], lit "\beta"); (* 3193 β *)
  ([947], lit "\gamma"); (* 3194 γ *)
  ([915], lit "\Gamma"); (* 3195 Γ *)
  ([948], lit "\delta"); (* 3196 δ *)
  ([916], lit "\Delta"); (* 3197 Δ *)
  ([1013], lit "\epsilon"); (* 3198 ϵ *)
  ([950], lit "\zeta"); (* 3199 ζ *)
  ([951], lit "\eta"); (* 3200 η *)
  ([952], lit "\theta"); (* 3201 θ *)
  ([920], lit "\Theta"); (* 3202 Θ *)
  ([953], lit "\iota"); (* 3203 ι *)
  ([954], lit "\kappa"); (* 3204 κ *)
  ([955], lit "\lambda"); (* 3205 λ *)
  ([957], lit "\nu"); (* 3206 ν *)
  ([959], lit "\omicron"); (* 3207 ο *)
  ([960], lit "\pi"); (* 3208 π *)
  ([928], lit "\Pi"); (* 3209 Π *)
  ([961], lit "\rho"); (* 3210 ρ *)
  ([963], lit "\sigma"); (* 3211 σ *)
  ([931], lit "\Sigma"); (* 3212 Σ *)
  ([964], lit "\tau"); (* 3213 τ *)
  ([965], lit "\upsilon"); (* 3214 υ *)
  ([933], lit "\Upsilon"); (* 3215 Υ *)
  ([981], lit "\phi"); (* 3216 ϕ *)
  ([934], lit "\Phi"); (* 3217 Φ *)
  ([967], lit "\chi"); (* 3218 χ *)
  ([968], lit "\psi"); (* 3219 ψ *)
  ([936], lit "\Psi"); (* 3220 Ψ *)
  ([969], lit "\omega"); (* 3221 ω *)
  ([937], lit "\Omega"); (* 3222 Ω *)
  ([8486], lit "\Omega"); (* 3223 Ω *)
  ([8709], lit "\emptyset"); (* 3224 ∅ *)
  ([10226], lit "\circlearrowleft"); (* 3225 ⟲ *)
  ([10227], lit "\circlearrowright"); (* 3226 ⟳ *)
  ([215], lit "\times"); (* 3227 × *)
  ([189], lit "\dfrac{1}{2}"); (* 3228 ½ *)
  ([956], lit "\mu"); (* 3229 μ *)
  ([1256], lit "\theta"); (* 3230 Ө *)
  ([10003], lit "\checkmark"); (* 3231 ✓ *)
  ([10217], lit "\rangle"); (* 3232 ⟩ *)
  ([10216], lit "\langle"); (* 3233 ⟨ *)
  ([188], lit "\dfrac{1}{4}"); (* 3234 ¼ *)
  ([8230], lit "\ldots"); (* 3235 … *)
  ([8463], lit "\hbar"); (* 3236 ℏ *)
  ([8476], lit "\mathfrak{R}"); (* 3237 ℜ *)
  ([1138], lit "\theta"); (* 3238 Ѳ *)
  ([216], lit "\emptyset"); (* 3239 Ø *)
  ([1009], lit "\varrho"); (* 3240 ϱ *)
  ([1092], lit "\phi"); (* 3241 ф *)
  ([8455], lit "\varepsilon"); (* 3242 ℇ *)
  ([84], lit "T"); (* 3243 *)
  ([8729], lit "\cdot"); (* 3244 ∙ *)
  ([929], lit "P"); (* 3245 Ρ *)
  ([8734], lit "\infty"); (* 3246 ∞ *)
  ([5121], lit "\nabla"); (* 3247 ᐁ *)
  ([414], lit "\eta"); (* 3248 ƞ *)
  ([8314], lit "^{+}"); (* 3249 ⁺ *)
  ([8315], lit "^{-}"); (* 3250 ⁻ *)
  ([8316], lit "^{=}"); (* 3251 ⁼ *)
  ([8317], lit "^{(}"); (* 3252 ⁽ *)
  ([8318], lit "^{)}"); (* 3253 ⁾ *)
  ([12311], lit "\)|"); (* 3254 〗 *)
  ([12310], lit "\langle"); (* 3255 〖 *)
  ([894], lit ";"); (* 3256 ; *)
  ([3430], lit "\circ"); (* 3257 ൦ *)
  ([9524], lit "\perp"); (* 3258 ┴ *)
  ([10005], lit "\times"); (* 3259 ✕ *)
  ([9147], lit "-"); (* 3260 ⎻ *)
  ([187], lit "\gg"); (* 3261 » *)
  ([11014], lit "\uparrow"); (* 3262 ⬆ *)
  ([11015], lit "\downarrow"); (* 3263 ⬇ *)
  ([11013], lit "\leftarrow"); (* 3264 ⬅ *)
  ([10145], lit "\rightarrow"); (* 3265 ➡ *)
  ([9148], lit "-"); (* 3266 ⎼ *)
  ([9116], lit "\mid"); (* 3267 ⎜ *)
  ([9125], lit "\mid"); (* 3268 ⎥ *)
  ([295], lit "\hbar"); (* 3269 ħ *)
  ([11157], lit "\rightarrow"); (* 3270 ⮕ *)
  ([12539], lit "\cdot"); (* 3271 ・ *)
  ([166], lit "\mid"); (* 3272 ¦ *)
  ([163], lit "\pounds"); (* 3273 £ *)
  ([165], lit "\yen"); (* 3274 ¥ *)
  ([10007], lit "\times"); (* 3275 ✗ *)
  ([10004], lit "\checkmark"); (* 3276 ✔ *)
  ([8319], lit "^{n}"); (* 3277 ⁿ *)
  ([171], lit "\ll"); (* 3278 « *)
  ([3648], lit "\prime"); (* 3279 เ *)
  ([8224], lit "\dagger"); (* 3280 † *)
  ([9474], lit "\mid"); (* 3281 │ *)
  ([36], lit "\$"); (* 3282 *)
  ([35], lit "\#"); (* 3283 *)
  ([8451], lit "\text{\textdegree C}"); (* 3284 ℃ *)
  ([8457], lit "\text{\textdegree F}"); (* 3285 ℉ *)
  ([9608], lit "\blacksquare"); (* 3286 █ *)
  ([8487], lit "\mho"); (* 3287 ℧ *)
  ([8519], lit "\text{e}"); (* 3288 ⅇ *)
  ([636], lit "r"); (* 3289 ɼ *)
  ([8225], lit "\ddagger"); (* 3290 ‡ *)
  ([7985], lit "i"); (* 3291 ἱ *)
  ([978], lit "\Upsilon"); (* 3292 ϒ *)
  ([120575], lit "\delta"); (* 3293 𝛿 *)
  ([755], lit "\cdot"); (* 3294 ˳ *)
  ([1139], lit "\theta"); (* 3295 ѳ *)
  ([120601], lit "\phi"); (* 3296 𝜙 *)
  ([1055], lit "\prod"); (* 3297 П *)
  ([1086], lit "o"); (* 3298 о *)
  ([1106], lit "\hbar"); (* 3299 ђ *)
  ([581], lit "\Lambda"); (* 3300 Ʌ *)
  ([2404], lit "\mid"); (* 3301 । *)
  ([8364], lit "\euro"); (* 3302 € *)
  ([8161], lit "\bar{u}"); (* 3303 ῡ *)
  ([966], lit "\varphi"); (* 3304 φ *)
  ([572], lit "c"); (* 3305 ȼ *)
  ([120750], lit "\epsilon"); (* 3306 𝞮 *)
  ([935], lit "\mathsf{X}"); (* 3307 Χ *)
  ([8345], lit "_{n}") (* 3308 ₙ *)
].
