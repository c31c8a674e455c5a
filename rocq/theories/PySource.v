(** The functions of /repo.  Made by tools/make_source.py; not to be edited. *)
From Coq Require Import String.
From Verif Require Export PySyntax.
Import ListNotations.
Local Open Scope string_scope.
Local Open Scope list_scope.

(** ** el_to_tex/services/normalizer.py *)
(** line 2 *)
Definition WhiteSpaceNormalizer_normalize_source : func := Func Plain [("self", None); ("string", None)]
    (SReturn (PCall (PAttr (PStr (lit " ")) "join") [(PCall (PAttr (PName "string") "split") [] [])] [])).
Definition WhiteSpaceNormalizer_class : class := Class "object" [] false
  [("normalize", WhiteSpaceNormalizer_normalize_source)].

(** ** el_to_tex/services/wrapper.py *)
(** line 4 *)
Definition Wrapper_init_source : func := Func Plain [("self", None); ("op", None); ("close", None)]
    (SSeq (SSetAttr (PName "self") "_open" (PName "op")) (SSetAttr (PName "self") "_close" (PName "close"))).
(** line 8 *)
Definition Wrapper_wrap_source : func := Func Plain [("self", None); ("val", None)]
    (SReturn (PBin OpAdd (PBin OpAdd (PAttr (PName "self") "_open") (PName "val")) (PAttr (PName "self") "_close"))).
Definition Wrapper_class : class := Class "object" [] false
  [("__init__", Wrapper_init_source); ("wrap", Wrapper_wrap_source)].
(** line 12 *)
Definition ParenthesisWrapper_init_source : func := Func Plain [("self", None)]
    (SSuperInit [(PStr (lit "\left(")); (PStr (lit "\right)"))]).
(** line 15 *)
Definition ParenthesisWrapper_wrap_source : func := Func Plain [("self", None); ("val", None)]
    (SReturn (PCall (PAttr PSuper "wrap") [(PName "val")] [])).
(** line 18 *)
Definition ParenthesisWrapper_wrap_if_more_than_one_char_source : func := Func Plain [("self", None); ("val", None)]
    (SSeq (SIf (PCmp OpLtE (PCall (PGlobal "len") [(PName "val")] []) (PInt 1%Z)) (SReturn (PName "val")) SPass) (SReturn (PCall (PAttr (PName "self") "wrap") [(PName "val")] []))).
Definition ParenthesisWrapper_class : class := Class "Wrapper" [] false
  [("__init__", ParenthesisWrapper_init_source); ("wrap", ParenthesisWrapper_wrap_source); ("wrap_if_more_than_one_char", ParenthesisWrapper_wrap_if_more_than_one_char_source)].
(** line 24 *)
Definition BracketWrapper_init_source : func := Func Plain [("self", None)]
    (SSuperInit [(PStr (lit "{")); (PStr (lit "}"))]).
(** line 27 *)
Definition BracketWrapper_wrap_source : func := Func Plain [("self", None); ("val", None)]
    (SReturn (PCall (PAttr PSuper "wrap") [(PName "val")] [])).
Definition BracketWrapper_class : class := Class "Wrapper" [] false
  [("__init__", BracketWrapper_init_source); ("wrap", BracketWrapper_wrap_source)].
(** line 31 *)
Definition GenericWrapper_init_source : func := Func Plain [("self", None); ("op", None); ("close", None)]
    (SSeq (SAssign "open_cmd" (PFormat [(PStr (lit "\left")); (PName "op")])) (SSeq (SAssign "close_cmd" (PFormat [(PStr (lit "\right")); (PName "close")])) (SSuperInit [(PName "open_cmd"); (PName "close_cmd")]))).
(** line 36 *)
Definition GenericWrapper_wrap_source : func := Func Plain [("self", None); ("val", None)]
    (SReturn (PCall (PAttr PSuper "wrap") [(PName "val")] [])).
Definition GenericWrapper_class : class := Class "Wrapper" [] false
  [("__init__", GenericWrapper_init_source); ("wrap", GenericWrapper_wrap_source)].
(** line 40 *)
Definition JoinWithManySeparators_init_source : func := Func Plain [("self", None); ("separators", None)]
    (SSetAttr (PName "self") "_separators" (PName "separators")).
(** line 43 *)
Definition JoinWithManySeparators_join_source : func := Func Plain [("self", None); ("arr", None)]
    (SSeq (SAssign "acc" (PStr (lit ""))) (SSeq (SFor ["index"; "current_str"] (PCall (PGlobal "enumerate") [(PName "arr")] []) (SSeq (SAssign "separator" (PIf (PCmp OpEq (PName "index") (PBin OpSub (PCall (PGlobal "len") [(PName "arr")] []) (PInt 1%Z))) (PStr (lit "")) (PCall (PAttr (PName "self") "_get") [(PName "index")] []))) (SAssign "acc" (PBin OpAdd (PName "acc") (PBin OpAdd (PName "current_str") (PName "separator")))))) (SReturn (PName "acc")))).
(** line 51 *)
Definition JoinWithManySeparators__get_source : func := Func Plain [("self", None); ("index", None)]
    (SSeq (SIf (PCmp OpLt (PName "index") (PCall (PGlobal "len") [(PAttr (PName "self") "_separators")] [])) (SReturn (PIndex (PAttr (PName "self") "_separators") (PName "index"))) SPass) (SReturn (PIf (PCmp OpGt (PCall (PGlobal "len") [(PAttr (PName "self") "_separators")] []) (PInt 0%Z)) (PIndex (PAttr (PName "self") "_separators") (PInt (-1)%Z)) (PStr (lit ","))))).
Definition JoinWithManySeparators_class : class := Class "object" [] false
  [("__init__", JoinWithManySeparators_init_source); ("join", JoinWithManySeparators_join_source); ("_get", JoinWithManySeparators__get_source)].

(** ** el_to_tex/protocols.py *)
Definition MathMLElement_class : class := Class "ABC" [] false
  [].
Definition ToLaTeXConverter_class : class := Class "ABC" [] false
  [].
(** line 33 *)
Definition GenericMathMLElement_init_source : func := Func Plain [("self", None); ("name", None); ("value", None); ("children", None); ("attributes", None)]
    (SSeq (SSetAttr (PName "self") "_name" (PName "name")) (SSeq (SSetAttr (PName "self") "_value" (PName "value")) (SSeq (SSetAttr (PName "self") "_children" (PName "children")) (SSetAttr (PName "self") "_attributes" (PName "attributes"))))).
(** line 40 *)
Definition GenericMathMLElement_name_source : func := Func Property [("self", None)]
    (SReturn (PAttr (PName "self") "_name")).
(** line 44 *)
Definition GenericMathMLElement_value_source : func := Func Property [("self", None)]
    (SReturn (PAttr (PName "self") "_value")).
(** line 48 *)
Definition GenericMathMLElement_children_source : func := Func Property [("self", None)]
    (SReturn (PAttr (PName "self") "_children")).
(** line 52 *)
Definition GenericMathMLElement_attributes_source : func := Func Property [("self", None)]
    (SReturn (PAttr (PName "self") "_attributes")).
Definition GenericMathMLElement_class : class := Class "MathMLElement" [] false
  [("__init__", GenericMathMLElement_init_source); ("name", GenericMathMLElement_name_source); ("value", GenericMathMLElement_value_source); ("children", GenericMathMLElement_children_source); ("attributes", GenericMathMLElement_attributes_source)].
(** line 58 *)
Definition VoidMathMLElement_name_source : func := Func Property [("self", None)]
    (SReturn (PStr (lit "void"))).
(** line 62 *)
Definition VoidMathMLElement_value_source : func := Func Property [("self", None)]
    (SReturn (PStr (lit ""))).
(** line 66 *)
Definition VoidMathMLElement_children_source : func := Func Property [("self", None)]
    (SReturn (PList [])).
(** line 70 *)
Definition VoidMathMLElement_attributes_source : func := Func Property [("self", None)]
    (SReturn (PDict [])).
Definition VoidMathMLElement_class : class := Class "MathMLElement" [] false
  [("name", VoidMathMLElement_name_source); ("value", VoidMathMLElement_value_source); ("children", VoidMathMLElement_children_source); ("attributes", VoidMathMLElement_attributes_source)].
(** line 75 *)
Definition MIMathMlElement_init_source : func := Func Plain [("self", None); ("value", None)]
    (SSetAttr (PName "self") "_value" (PName "value")).
(** line 79 *)
Definition MIMathMlElement_name_source : func := Func Property [("self", None)]
    (SReturn (PStr (lit "mi"))).
(** line 83 *)
Definition MIMathMlElement_value_source : func := Func Property [("self", None)]
    (SReturn (PAttr (PName "self") "_value")).
(** line 87 *)
Definition MIMathMlElement_children_source : func := Func Property [("self", None)]
    (SReturn (PList [])).
(** line 91 *)
Definition MIMathMlElement_attributes_source : func := Func Property [("self", None)]
    (SReturn (PDict [])).
Definition MIMathMlElement_class : class := Class "MathMLElement" [] false
  [("__init__", MIMathMlElement_init_source); ("name", MIMathMlElement_name_source); ("value", MIMathMlElement_value_source); ("children", MIMathMlElement_children_source); ("attributes", MIMathMlElement_attributes_source)].
(** line 96 *)
Definition InvalidNumberOfChildrenError_init_source : func := Func Plain [("self", None); ("tag_name", None); ("expected_number_of_child", None); ("current_number_of_child", None); ("comparison", Some (PStr (lit "exactly")))]
    (SSeq (SSuperInit [(PFormat [(PName "tag_name"); (PStr (lit " tag must have ")); (PName "comparison"); (PStr (lit " ")); (PName "expected_number_of_child"); (PStr (lit " children. It's actually ")); (PName "current_number_of_child")])]) (SSetAttr (PName "self") "name" (PStr (lit "InvalidNumberOfChildrenError")))).
Definition InvalidNumberOfChildrenError_class : class := Class "Exception" [] false
  [("__init__", InvalidNumberOfChildrenError_init_source)].

(** ** syntax.py *)
Definition UTF8ToLtXConverter_class : class := Class "ABC" [] false
  [].
(** line 25 *)
Definition HashUTF8ToLtXConverter_convert_source : func := Func Plain [("self", None); ("char", None)]
    (SSeq (SAssign "is_alphanumeric" (PCall (PAttr (PGlobal "re") "match") [(PStr (lit "[a-z0-9]")); (PName "char"); (PAttr (PGlobal "re") "IGNORECASE")] [])) (SSeq (SIf (PName "is_alphanumeric") (SReturn (PName "char")) SPass) (SSeq (SAssign "accent_char" (PCall (PAttr (PGlobal "vowels_with_accents") "get") [(PName "char")] [])) (SSeq (SIf (PName "accent_char") (SSeq (SAssign "ltx_cmd" (PCall (PAttr (PName "self") "convert_accent_char_to_ltx") [(PName "accent_char")] [])) (SSeq (SIf (PName "ltx_cmd") (SReturn (PName "ltx_cmd")) SPass) (SReturn (PName "char")))) SPass) (SSeq (SAssign "special_char" (PCall (PAttr (PName "self") "convert_special_char_to_ltx") [(PName "char")] [])) (SSeq (SIf (PName "special_char") (SReturn (PName "special_char")) SPass) (SReturn (PName "char")))))))).
(** line 43 *)
Definition HashUTF8ToLtXConverter_convert_accent_char_to_ltx_source : func := Func Plain [("self", None); ("accent_char", None)]
    (SSeq (SAssign "cmd" (PCall (PAttr (PGlobal "accent_to_ltx_cmd") "get") [(PAttr (PName "accent_char") "accent")] [])) (SSeq (SIf (PNot (PName "cmd")) (SReturn PNone) SPass) (SReturn (PFormat [(PStr (lit "\")); (PName "cmd"); (PStr (lit "{")); (PAttr (PName "accent_char") "char"); (PStr (lit "}"))])))).
(** line 49 *)
Definition HashUTF8ToLtXConverter_convert_special_char_to_ltx_source : func := Func Plain [("self", None); ("char", None)]
    (SSeq (SAssign "special_font_char" (PCall (PAttr (PGlobal "special_font_chars") "get") [(PName "char")] [])) (SSeq (SIf (PNot (PName "special_font_char")) (SReturn PNone) SPass) (SReturn (PFormat [(PStr (lit "\")); (PAttr (PName "special_font_char") "font_cmd"); (PStr (lit "{")); (PAttr (PName "special_font_char") "letter"); (PStr (lit "}"))])))).
Definition HashUTF8ToLtXConverter_class : class := Class "UTF8ToLtXConverter" [] false
  [("convert", HashUTF8ToLtXConverter_convert_source); ("convert_accent_char_to_ltx", HashUTF8ToLtXConverter_convert_accent_char_to_ltx_source); ("convert_special_char_to_ltx", HashUTF8ToLtXConverter_convert_special_char_to_ltx_source)].

(** ** el_to_tex/usecases.py *)
(** line 29 *)
Definition Math_init_source : func := Func Plain [("self", None); ("math_element", None); ("adapter", None)]
    (SSeq (SSetAttr (PName "self") "_white_space_normalizer" (PCall (PGlobal "WhiteSpaceNormalizer") [] [])) (SSeq (SSetAttr (PName "self") "_adapter" (PName "adapter")) (SSetAttr (PName "self") "_math_element" (PName "math_element")))).
(** line 34 *)
Definition Math_convert_source : func := Func Plain [("self", None)]
    (SSeq (SAssign "raw_tex" (PCall (PAttr (PStr (lit " ")) "join") [(PComp (PCall (PAttr (PCall (PAttr (PAttr (PName "self") "_adapter") "to_latex_converter") [(PName "child")] []) "convert") [] []) "child" (PAttr (PAttr (PName "self") "_math_element") "children") None)] [])) (SReturn (PCall (PAttr (PAttr (PName "self") "_white_space_normalizer") "normalize") [(PName "raw_tex")] []))).
Definition Math_class : class := Class "ToLaTeXConverter" [] false
  [("__init__", Math_init_source); ("convert", Math_convert_source)].
(** line 45 *)
Definition Void_init_source : func := Func Plain [("self", None); ("math_element", None)]
    (SSetAttr (PName "self") "_math_element" (PName "math_element")).
(** line 48 *)
Definition Void_convert_source : func := Func Plain [("self", None)]
    (SReturn (PStr (lit ""))).
Definition Void_class : class := Class "ToLaTeXConverter" [] false
  [("__init__", Void_init_source); ("convert", Void_convert_source)].
(** line 53 *)
Definition MI_init_source : func := Func Plain [("self", None); ("math_element", None)]
    (SSeq (SSetAttr (PName "self") "_utf8_converter" (PCall (PGlobal "HashUTF8ToLtXConverter") [] [])) (SSeq (SSetAttr (PName "self") "_normalizer" (PCall (PGlobal "WhiteSpaceNormalizer") [] [])) (SSetAttr (PName "self") "_math_element" (PName "math_element")))).
(** line 58 *)
Definition MI_convert_source : func := Func Plain [("self", None)]
    (SSeq (SAssign "normalized_value" (PCall (PAttr (PAttr (PName "self") "_normalizer") "normalize") [(PAttr (PAttr (PName "self") "_math_element") "value")] [])) (SSeq (SIf (PCmp OpEq (PName "normalized_value") (PStr (lit " "))) (SReturn (PCall (PAttr (PGlobal "Character") "apply") [(PName "normalized_value")] [])) SPass) (SSeq (SAssign "trimmed_value" (PCall (PAttr (PName "normalized_value") "strip") [] [])) (SSeq (SAssign "converted_char" (PCall (PAttr (PGlobal "Character") "apply") [(PName "trimmed_value")] [])) (SSeq (SAssign "parsed_char" (PCall (PAttr (PAttr (PName "self") "_utf8_converter") "convert") [(PName "converted_char")] [])) (SSeq (SIf (PCmp OpNotEq (PName "parsed_char") (PName "converted_char")) (SReturn (PName "parsed_char")) SPass) (SReturn (PCall (PAttr (PName "self") "_wrap_in_math_variant") [(PName "converted_char"); (PCall (PAttr (PName "self") "_get_math_variant") [(PAttr (PAttr (PName "self") "_math_element") "attributes")] [])] [])))))))).
(** line 74 *)
Definition MI__get_math_variant_source : func := Func Plain [("self", None); ("attributes", None)]
    (SSeq (SIf (POr (PNot (PName "attributes")) (PCmp OpNotIn (PStr (lit "mathvariant")) (PName "attributes"))) (SReturn (PStr (lit ""))) SPass) (SReturn (PIndex (PName "attributes") (PStr (lit "mathvariant"))))).
(** line 79 *)
Definition MI__wrap_in_math_variant_source : func := Func Plain [("self", None); ("value", None); ("math_variant", None)]
    (SSeq (SIf (PCmp OpEq (PName "math_variant") (PStr (lit "bold"))) (SReturn (PFormat [(PStr (lit "\mathbf{")); (PName "value"); (PStr (lit "}"))])) SPass) (SSeq (SIf (PCmp OpEq (PName "math_variant") (PStr (lit "italic"))) (SReturn (PFormat [(PStr (lit "\mathit{")); (PName "value"); (PStr (lit "}"))])) SPass) (SSeq (SIf (PCmp OpEq (PName "math_variant") (PStr (lit "bold-italic"))) (SReturn (PFormat [(PStr (lit "\mathbf{\mathit{")); (PName "value"); (PStr (lit "}}"))])) SPass) (SSeq (SIf (PCmp OpEq (PName "math_variant") (PStr (lit "double-struck"))) (SReturn (PFormat [(PStr (lit "\mathbb{")); (PName "value"); (PStr (lit "}"))])) SPass) (SSeq (SIf (PCmp OpEq (PName "math_variant") (PStr (lit "bold-fraktur"))) (SReturn (PFormat [(PStr (lit "\mathbf{\mathfrak{")); (PName "value"); (PStr (lit "}}"))])) SPass) (SSeq (SIf (PCmp OpEq (PName "math_variant") (PStr (lit "script"))) (SReturn (PFormat [(PStr (lit "\mathcal{")); (PName "value"); (PStr (lit "}"))])) SPass) (SSeq (SIf (PCmp OpEq (PName "math_variant") (PStr (lit "bold-script"))) (SReturn (PFormat [(PStr (lit "\mathbf{\mathcal{")); (PName "value"); (PStr (lit "}}"))])) SPass) (SSeq (SIf (PCmp OpEq (PName "math_variant") (PStr (lit "fraktur"))) (SReturn (PFormat [(PStr (lit "\mathfrak{")); (PName "value"); (PStr (lit "}"))])) SPass) (SSeq (SIf (PCmp OpEq (PName "math_variant") (PStr (lit "sans-serif"))) (SReturn (PFormat [(PStr (lit "\mathsf{")); (PName "value"); (PStr (lit "}"))])) SPass) (SSeq (SIf (PCmp OpEq (PName "math_variant") (PStr (lit "bold-sans-serif"))) (SReturn (PFormat [(PStr (lit "\mathbf{\mathsf{")); (PName "value"); (PStr (lit "}}"))])) SPass) (SSeq (SIf (PCmp OpEq (PName "math_variant") (PStr (lit "sans-serif-italic"))) (SReturn (PFormat [(PStr (lit "\mathsf{\mathit{")); (PName "value"); (PStr (lit "}}"))])) SPass) (SSeq (SIf (PCmp OpEq (PName "math_variant") (PStr (lit "sans-serif-bold-italic"))) (SReturn (PFormat [(PStr (lit "\mathbf{\mathsf{\mathit{")); (PName "value"); (PStr (lit "}}}"))])) SPass) (SSeq (SIf (PCmp OpEq (PName "math_variant") (PStr (lit "monospace"))) (SReturn (PFormat [(PStr (lit "\mathtt{")); (PName "value"); (PStr (lit "}"))])) SPass) (SReturn (PName "value"))))))))))))))).
Definition MI_class : class := Class "ToLaTeXConverter" [] false
  [("__init__", MI_init_source); ("convert", MI_convert_source); ("_get_math_variant", MI__get_math_variant_source); ("_wrap_in_math_variant", MI__wrap_in_math_variant_source)].
(** line 110 *)
Definition Character_init_source : func := Func Plain [("self", None); ("value", None)]
    (SSetAttr (PName "self") "value" (PName "value")).
(** line 114 *)
Definition Character_apply_source : func := Func Static [("value", None)]
    (SReturn (PCall (PAttr (PCall (PGlobal "Character") [(PName "value")] []) "_apply") [] [])).
(** line 117 *)
Definition Character__apply_source : func := Func Plain [("self", None)]
    (SReturn (POr (PCall (PAttr (PName "self") "_find_by_character") [] []) (POr (PCall (PAttr (PName "self") "_find_by_glyph") [] []) (POr (PCall (PAttr (PName "self") "_find_by_number") [] []) (PCall (PAttr (PCall (PGlobal "HashUTF8ToLtXConverter") [] []) "convert") [(PAttr (PName "self") "value")] []))))).
(** line 125 *)
Definition Character__find_by_character_source : func := Func Plain [("self", None)]
    (SReturn (PCall (PAttr (PGlobal "all_math_symbols_by_char") "get") [(PAttr (PName "self") "value"); (PStr (lit ""))] [])).
(** line 128 *)
Definition Character__find_by_glyph_source : func := Func Plain [("self", None)]
    (SReturn (PCall (PAttr (PGlobal "all_math_symbols_by_glyph") "get") [(PAttr (PName "self") "value"); (PStr (lit ""))] [])).
(** line 131 *)
Definition Character__find_by_number_source : func := Func Plain [("self", None)]
    (SReturn (PCall (PAttr (PGlobal "math_number_by_glyph") "get") [(PAttr (PName "self") "value"); (PStr (lit ""))] [])).
Definition Character_class : class := Class "object" [] true
  [("__init__", Character_init_source); ("apply", Character_apply_source); ("_apply", Character__apply_source); ("_find_by_character", Character__find_by_character_source); ("_find_by_glyph", Character__find_by_glyph_source); ("_find_by_number", Character__find_by_number_source)].
(** line 136 *)
Definition MO_init_source : func := Func Plain [("self", None); ("math_element", None)]
    (SSeq (SSetAttr (PName "self") "normalizer" (PCall (PGlobal "WhiteSpaceNormalizer") [] [])) (SSetAttr (PName "self") "_math_element" (PName "math_element"))).
(** line 140 *)
Definition MO_convert_source : func := Func Plain [("self", None)]
    (SSeq (SAssign "normalized_value" (PCall (PAttr (PAttr (PName "self") "normalizer") "normalize") [(PAttr (PAttr (PName "self") "_math_element") "value")] [])) (SSeq (SAssign "trimmed_value" (PCall (PAttr (PName "normalized_value") "strip") [] [])) (SReturn (PCall (PAttr (PGlobal "Operator") "operate") [(PName "trimmed_value")] [])))).
Definition MO_class : class := Class "ToLaTeXConverter" [] false
  [("__init__", MO_init_source); ("convert", MO_convert_source)].
(** line 148 *)
Definition Operator_init_source : func := Func Plain [("self", None); ("value", None)]
    (SSetAttr (PName "self") "_value" (PName "value")).
(** line 152 *)
Definition Operator_operate_source : func := Func Static [("value", None)]
    (SReturn (PCall (PAttr (PCall (PGlobal "Operator") [(PName "value")] []) "_operate") [] [])).
(** line 155 *)
Definition Operator__operate_source : func := Func Plain [("self", None)]
    (SSeq (SAssign "latex_command" (PCall (PAttr (PName "self") "_find_by_character") [] [])) (SSeq (SIf (PName "latex_command") (SReturn (PName "latex_command")) SPass) (SSeq (SAssign "latex_command" (PCall (PAttr (PName "self") "_find_by_glyph") [] [])) (SSeq (SIf (PName "latex_command") (SReturn (PName "latex_command")) SPass) (SSeq (SAssign "latex_command" (PCall (PAttr (PName "self") "_find_by_number") [] [])) (SSeq (SIf (PName "latex_command") (SReturn (PName "latex_command")) SPass) (SReturn (PCall (PAttr (PCall (PGlobal "HashUTF8ToLtXConverter") [] []) "convert") [(PAttr (PName "self") "_value")] [])))))))).
(** line 174 *)
Definition Operator__find_by_character_source : func := Func Plain [("self", None)]
    (SReturn (PCall (PAttr (PGlobal "all_math_operators_by_char") "get") [(PAttr (PName "self") "_value")] [])).
(** line 177 *)
Definition Operator__find_by_glyph_source : func := Func Plain [("self", None)]
    (SReturn (PCall (PAttr (PGlobal "all_math_operators_by_glyph") "get") [(PAttr (PName "self") "_value")] [])).
(** line 180 *)
Definition Operator__find_by_number_source : func := Func Plain [("self", None)]
    (SReturn (PCall (PAttr (PGlobal "math_number_by_glyph") "get") [(PAttr (PName "self") "_value")] [])).
Definition Operator_class : class := Class "object" [] false
  [("__init__", Operator_init_source); ("operate", Operator_operate_source); ("_operate", Operator__operate_source); ("_find_by_character", Operator__find_by_character_source); ("_find_by_glyph", Operator__find_by_glyph_source); ("_find_by_number", Operator__find_by_number_source)].
(** line 185 *)
Definition MN_init_source : func := Func Plain [("self", None); ("math_element", None)]
    (SSeq (SSetAttr (PName "self") "_normalizer" (PCall (PGlobal "WhiteSpaceNormalizer") [] [])) (SSetAttr (PName "self") "_math_element" (PName "math_element"))).
(** line 189 *)
Definition MN_convert_source : func := Func Plain [("self", None)]
    (SSeq (SAssign "normalized_value" (PCall (PAttr (PCall (PAttr (PAttr (PName "self") "_normalizer") "normalize") [(PAttr (PAttr (PName "self") "_math_element") "value")] []) "strip") [] [])) (SSeq (SAssign "converted_value" (PCall (PAttr (PGlobal "math_number_by_glyph") "get") [(PName "normalized_value"); (PStr (lit ""))] [])) (SReturn (POr (PName "converted_value") (PName "normalized_value"))))).
Definition MN_class : class := Class "ToLaTeXConverter" [] false
  [("__init__", MN_init_source); ("convert", MN_convert_source)].
(** line 197 *)
Definition MSup_init_source : func := Func Plain [("self", None); ("math_element", None); ("adapter", None)]
    (SSeq (SSetAttr (PName "self") "_math_element" (PName "math_element")) (SSeq (SSetAttr (PName "self") "_adapter" (PName "adapter")) (SSeq (SSetAttr (PName "self") "_parenthesis_wrapper" (PCall (PGlobal "ParenthesisWrapper") [] [])) (SSetAttr (PName "self") "_bracket_wrapper" (PCall (PGlobal "BracketWrapper") [] []))))).
(** line 203 *)
Definition MSup_convert_source : func := Func Plain [("self", None)]
    (SSeq (SAssign "name" (PAttr (PAttr (PName "self") "_math_element") "name")) (SSeq (SAssign "children" (PAttr (PAttr (PName "self") "_math_element") "children")) (SSeq (SAssign "children_length" (PCall (PGlobal "len") [(PName "children")] [])) (SSeq (SIf (PCmp OpNotEq (PName "children_length") (PInt 2%Z)) (SRaise (PCall (PGlobal "InvalidNumberOfChildrenError") [(PName "name"); (PInt 2%Z); (PName "children_length")] [])) SPass) (SSeq (SAssign "base_child" (PIndex (PName "children") (PInt 0%Z))) (SSeq (SAssign "exponent_child" (PIndex (PName "children") (PInt 1%Z))) (SReturn (PFormat [(PCall (PAttr (PName "self") "_handle_base_child") [(PName "base_child")] []); (PStr (lit "^")); (PCall (PAttr (PName "self") "_handle_exponent_child") [(PName "exponent_child")] [])])))))))).
(** line 216 *)
Definition MSup__handle_base_child_source : func := Func Plain [("self", None); ("base", None)]
    (SSeq (SAssign "base_children" (PAttr (PName "base") "children")) (SSeq (SAssign "base_str" (PCall (PAttr (PCall (PAttr (PAttr (PName "self") "_adapter") "to_latex_converter") [(PName "base")] []) "convert") [] [])) (SSeq (SIf (PCmp OpLtE (PCall (PGlobal "len") [(PName "base_children")] []) (PInt 1%Z)) (SReturn (PName "base_str")) SPass) (SReturn (PCall (PAttr (PAttr (PName "self") "_parenthesis_wrapper") "wrap_if_more_than_one_char") [(PName "base_str")] []))))).
(** line 225 *)
Definition MSup__handle_exponent_child_source : func := Func Plain [("self", None); ("exponent", None)]
    (SSeq (SAssign "exponent_str" (PCall (PAttr (PCall (PAttr (PAttr (PName "self") "_adapter") "to_latex_converter") [(PName "exponent")] []) "convert") [] [])) (SReturn (PCall (PAttr (PAttr (PName "self") "_bracket_wrapper") "wrap") [(PName "exponent_str")] []))).
Definition MSup_class : class := Class "ToLaTeXConverter" [] false
  [("__init__", MSup_init_source); ("convert", MSup_convert_source); ("_handle_base_child", MSup__handle_base_child_source); ("_handle_exponent_child", MSup__handle_exponent_child_source)].
(** line 232 *)
Definition GenericSpacingWrapper_init_source : func := Func Plain [("self", None); ("math_element", None); ("adapter", None)]
    (SSeq (SSetAttr (PName "self") "_math_element" (PName "math_element")) (SSetAttr (PName "self") "_adapter" (PName "adapter"))).
(** line 236 *)
Definition GenericSpacingWrapper_convert_source : func := Func Plain [("self", None)]
    (SReturn (PCall (PAttr (PStr (lit " ")) "join") [(PComp (PCall (PAttr (PCall (PAttr (PAttr (PName "self") "_adapter") "to_latex_converter") [(PName "child")] []) "convert") [] []) "child" (PAttr (PAttr (PName "self") "_math_element") "children") None)] [])).
Definition GenericSpacingWrapper_class : class := Class "ToLaTeXConverter" [] false
  [("__init__", GenericSpacingWrapper_init_source); ("convert", GenericSpacingWrapper_convert_source)].
(** line 246 *)
Definition MSqrt_init_source : func := Func Plain [("self", None); ("math_element", None); ("adapter", None)]
    (SSeq (SSetAttr (PName "self") "_math_element" (PName "math_element")) (SSetAttr (PName "self") "_adapter" (PName "adapter"))).
(** line 250 *)
Definition MSqrt_convert_source : func := Func Plain [("self", None)]
    (SSeq (SAssign "latex_joined_children" (PCall (PAttr (PStr (lit " ")) "join") [(PComp (PCall (PAttr (PCall (PAttr (PAttr (PName "self") "_adapter") "to_latex_converter") [(PName "child")] []) "convert") [] []) "child" (PAttr (PAttr (PName "self") "_math_element") "children") None)] [])) (SReturn (PFormat [(PStr (lit "\sqrt{")); (PName "latex_joined_children"); (PStr (lit "}"))]))).
Definition MSqrt_class : class := Class "ToLaTeXConverter" [] false
  [("__init__", MSqrt_init_source); ("convert", MSqrt_convert_source)].
(** line 262 *)
Definition Separators_init_source : func := Func Plain [("self", None); ("op", None); ("close", None)]
    (SSeq (SSetAttr (PName "self") "_open" (PName "op")) (SSetAttr (PName "self") "_close" (PName "close"))).
(** line 266 *)
Definition Separators_wrap_source : func := Func Plain [("self", None); ("string", None)]
    (SReturn (PCall (PAttr (PCall (PGlobal "GenericWrapper") [(PAttr (PName "self") "_open"); (PAttr (PName "self") "_close")] []) "wrap") [(PName "string")] [])).
(** line 269 *)
Definition Separators_are_parentheses_source : func := Func Plain [("self", None)]
    (SReturn (PCall (PAttr (PName "self") "_compare") [(PStr (lit "(")); (PStr (lit ")"))] [])).
(** line 272 *)
Definition Separators_are_square_brackets_source : func := Func Plain [("self", None)]
    (SReturn (PCall (PAttr (PName "self") "_compare") [(PStr (lit "[")); (PStr (lit "]"))] [])).
(** line 275 *)
Definition Separators_are_brackets_source : func := Func Plain [("self", None)]
    (SReturn (PCall (PAttr (PName "self") "_compare") [(PStr (lit "{")); (PStr (lit "}"))] [])).
(** line 278 *)
Definition Separators_are_divides_source : func := Func Plain [("self", None)]
    (SReturn (PCall (PAttr (PName "self") "_compare") [(PStr (lit "|")); (PStr (lit "|"))] [])).
(** line 281 *)
Definition Separators_are_parallels_source : func := Func Plain [("self", None)]
    (SReturn (PCall (PAttr (PName "self") "_compare") [(PStr (lit "||")); (PStr (lit "||"))] [])).
(** line 284 *)
Definition Separators_are_not_equal_source : func := Func Plain [("self", None)]
    (SReturn (PCmp OpNotEq (PAttr (PName "self") "_open") (PAttr (PName "self") "_close"))).
(** line 287 *)
Definition Separators__compare_source : func := Func Plain [("self", None); ("open_to_compare", None); ("close_to_compare", None)]
    (SReturn (PAnd (PCmp OpEq (PAttr (PName "self") "_open") (PName "open_to_compare")) (PCmp OpEq (PAttr (PName "self") "_close") (PName "close_to_compare")))).
Definition Separators_class : class := Class "object" [] false
  [("__init__", Separators_init_source); ("wrap", Separators_wrap_source); ("are_parentheses", Separators_are_parentheses_source); ("are_square_brackets", Separators_are_square_brackets_source); ("are_brackets", Separators_are_brackets_source); ("are_divides", Separators_are_divides_source); ("are_parallels", Separators_are_parallels_source); ("are_not_equal", Separators_are_not_equal_source); ("_compare", Separators__compare_source)].
(** line 292 *)
Definition Vector_init_source : func := Func Plain [("self", None); ("op", None); ("close", None); ("separators", None)]
    (SSeq (SSetAttr (PName "self") "_open" (PIf (PCmp OpNotEq (PName "op") (PStr (lit ""))) (PName "op") (PStr (lit "(")))) (SSeq (SSetAttr (PName "self") "_close" (PIf (PCmp OpNotEq (PName "close") (PStr (lit ""))) (PName "close") (PStr (lit ")")))) (SSetAttr (PName "self") "_separators" (PName "separators")))).
(** line 297 *)
Definition Vector_apply_source : func := Func Plain [("self", None); ("latex_contents", None)]
    (SSeq (SAssign "content_without_wrapper" (PCall (PAttr (PCall (PGlobal "JoinWithManySeparators") [(PAttr (PName "self") "_separators")] []) "join") [(PName "latex_contents")] [])) (SReturn (PCall (PAttr (PCall (PGlobal "GenericWrapper") [(PAttr (PName "self") "_open"); (PAttr (PName "self") "_close")] []) "wrap") [(PName "content_without_wrapper")] []))).
Definition Vector_class : class := Class "object" [] false
  [("__init__", Vector_init_source); ("apply", Vector_apply_source)].
(** line 305 *)
Definition Matrix_init_source : func := Func Plain [("self", None); ("op", None); ("close", None)]
    (SSeq (SSetAttr (PName "self") "_separators" (PCall (PGlobal "Separators") [(PName "op"); (PName "close")] [])) (SSetAttr (PName "self") "_generic_command" (PStr (lit "matrix")))).
(** line 309 *)
Definition Matrix_apply_source : func := Func Plain [("self", None); ("latex_contents", None)]
    (SSeq (SAssign "command" (PAttr (PName "self") "_command")) (SSeq (SAssign "matrix" (PFormat [(PStr (lit "\begin{")); (PName "command"); (PStr [125%N; 10%N]); (PCall (PAttr (PStr (lit "")) "join") [(PName "latex_contents")] []); (PStr [10%N; 92%N; 101%N; 110%N; 100%N; 123%N]); (PName "command"); (PStr (lit "}"))])) (SReturn (PIf (PCmp OpEq (PName "command") (PAttr (PName "self") "_generic_command")) (PCall (PAttr (PAttr (PName "self") "_separators") "wrap") [(PName "matrix")] []) (PName "matrix"))))).
(** line 320 *)
Definition Matrix__command_source : func := Func Property [("self", None)]
    (SSeq (SIf (PCall (PAttr (PAttr (PName "self") "_separators") "are_parentheses") [] []) (SReturn (PStr (lit "pmatrix"))) SPass) (SSeq (SIf (PCall (PAttr (PAttr (PName "self") "_separators") "are_square_brackets") [] []) (SReturn (PStr (lit "bmatrix"))) SPass) (SSeq (SIf (PCall (PAttr (PAttr (PName "self") "_separators") "are_brackets") [] []) (SReturn (PStr (lit "Bmatrix"))) SPass) (SSeq (SIf (PCall (PAttr (PAttr (PName "self") "_separators") "are_divides") [] []) (SReturn (PStr (lit "vmatrix"))) SPass) (SSeq (SIf (PCall (PAttr (PAttr (PName "self") "_separators") "are_parallels") [] []) (SReturn (PStr (lit "Vmatrix"))) SPass) (SSeq (SIf (PCall (PAttr (PAttr (PName "self") "_separators") "are_not_equal") [] []) (SReturn (PAttr (PName "self") "_generic_command")) SPass) (SReturn (PStr (lit "bmatrix"))))))))).
Definition Matrix_class : class := Class "object" [] false
  [("__init__", Matrix_init_source); ("apply", Matrix_apply_source); ("_command", Matrix__command_source)].
(** line 337 *)
Definition MFenced_init_source : func := Func Plain [("self", None); ("math_element", None); ("adapter", None)]
    (SSeq (SSetAttr (PName "self") "_math_element" (PName "math_element")) (SSeq (SSetAttr (PName "self") "_adapter" (PName "adapter")) (SSeq (SSetAttr (PName "self") "_open" (PCall (PAttr (PAttr (PAttr (PName "self") "_math_element") "attributes") "get") [(PStr (lit "open")); (PStr (lit ""))] [])) (SSeq (SSetAttr (PName "self") "_close" (PCall (PAttr (PAttr (PAttr (PName "self") "_math_element") "attributes") "get") [(PStr (lit "close")); (PStr (lit ""))] [])) (SSetAttr (PName "self") "_separators" (PCall (PGlobal "list") [(PCall (PAttr (PAttr (PAttr (PName "self") "_math_element") "attributes") "get") [(PStr (lit "separators")); (PStr (lit ""))] [])] [])))))).
(** line 344 *)
Definition MFenced_convert_source : func := Func Plain [("self", None)]
    (SSeq (SAssign "latex_children" (PComp (PCall (PAttr (PCall (PAttr (PAttr (PName "self") "_adapter") "to_latex_converter") [(PName "child")] []) "convert") [] []) "child" (PAttr (PAttr (PName "self") "_math_element") "children") None)) (SSeq (SIf (PCall (PAttr (PName "self") "_is_there_relative_of_name") [(PAttr (PAttr (PName "self") "_math_element") "children"); (PStr (lit "mtable"))] []) (SReturn (PCall (PAttr (PCall (PGlobal "Matrix") [(PAttr (PName "self") "_open"); (PAttr (PName "self") "_close")] []) "apply") [(PName "latex_children")] [])) SPass) (SReturn (PCall (PAttr (PCall (PGlobal "Vector") [(PAttr (PName "self") "_open"); (PAttr (PName "self") "_close"); (PAttr (PName "self") "_separators")] []) "apply") [(PName "latex_children")] [])))).
(** line 355 *)
Definition MFenced__is_there_relative_of_name_source : func := Func Plain [("self", None); ("mathml_elements", None); ("element_name", None)]
    (SReturn (PCall (PGlobal "any") [(PComp (POr (PCmp OpEq (PAttr (PName "child") "name") (PName "element_name")) (PCall (PAttr (PName "self") "_is_there_relative_of_name") [(PAttr (PName "child") "children"); (PName "element_name")] [])) "child" (PName "mathml_elements") None)] [])).
Definition MFenced_class : class := Class "ToLaTeXConverter" [] false
  [("__init__", MFenced_init_source); ("convert", MFenced_convert_source); ("_is_there_relative_of_name", MFenced__is_there_relative_of_name_source)].
(** line 366 *)
Definition MTable_init_source : func := Func Plain [("self", None); ("math_element", None); ("adapter", None)]
    (SSeq (SSetAttr (PName "self") "_math_element" (PName "math_element")) (SSeq (SSetAttr (PName "self") "_adapter" (PName "adapter")) (SExpr (PCall (PAttr (PName "self") "_add_flag_recursive_if_name") [(PAttr (PAttr (PName "self") "_math_element") "children"); (PStr (lit "mtable")); (PStr (lit "innerTable"))] [])))).
(** line 373 *)
Definition MTable_convert_source : func := Func Plain [("self", None)]
    (SSeq (SAssign "table_content" (PCall (PAttr (PStr [32%N; 92%N; 92%N; 10%N]) "join") [(PComp (PCall (PAttr (PCall (PAttr (PAttr (PName "self") "_adapter") "to_latex_converter") [(PName "child")] []) "convert") [] []) "child" (PAttr (PAttr (PName "self") "_math_element") "children") None)] [])) (SReturn (PIf (PCall (PAttr (PName "self") "_has_flag") [(PStr (lit "innerTable"))] []) (PCall (PAttr (PName "self") "_wrap") [(PName "table_content")] []) (PName "table_content")))).
(** line 385 *)
Definition MTable__wrap_source : func := Func Plain [("self", None); ("latex", None)]
    (SReturn (PFormat [(PStr (lit "\begin{matrix}")); (PName "latex"); (PStr (lit "\end{matrix}"))])).
(** line 388 *)
Definition MTable__add_flag_recursive_if_name_source : func := Func Plain [("self", None); ("mathml_elements", None); ("name", None); ("flag", None)]
    (SFor ["mathml_element"] (PName "mathml_elements") (SSeq (SIf (PCmp OpEq (PAttr (PName "mathml_element") "name") (PName "name")) (SSetItem (PAttr (PName "mathml_element") "attributes") (PName "flag") (PName "flag")) SPass) (SExpr (PCall (PAttr (PName "self") "_add_flag_recursive_if_name") [(PAttr (PName "mathml_element") "children"); (PName "name"); (PName "flag")] [])))).
(** line 394 *)
Definition MTable__has_flag_source : func := Func Plain [("self", None); ("flag", None)]
    (SReturn (PCall (PGlobal "bool") [(PCall (PAttr (PAttr (PAttr (PName "self") "_math_element") "attributes") "get") [(PName "flag")] [])] [])).
Definition MTable_class : class := Class "ToLaTeXConverter" [] false
  [("__init__", MTable_init_source); ("convert", MTable_convert_source); ("_wrap", MTable__wrap_source); ("_add_flag_recursive_if_name", MTable__add_flag_recursive_if_name_source); ("_has_flag", MTable__has_flag_source)].
(** line 399 *)
Definition MTr_init_source : func := Func Plain [("self", None); ("math_element", None); ("adapter", None)]
    (SSeq (SSetAttr (PName "self") "_math_element" (PName "math_element")) (SSetAttr (PName "self") "_adapter" (PName "adapter"))).
(** line 403 *)
Definition MTr_convert_source : func := Func Plain [("self", None)]
    (SReturn (PCall (PAttr (PStr (lit " & ")) "join") [(PComp (PCall (PAttr (PCall (PAttr (PAttr (PName "self") "_adapter") "to_latex_converter") [(PName "child")] []) "convert") [] []) "child" (PAttr (PAttr (PName "self") "_math_element") "children") None)] [])).
Definition MTr_class : class := Class "ToLaTeXConverter" [] false
  [("__init__", MTr_init_source); ("convert", MTr_convert_source)].
(** line 413 *)
Definition MSub_init_source : func := Func Plain [("self", None); ("math_element", None); ("adapter", None)]
    (SSeq (SSetAttr (PName "self") "_math_element" (PName "math_element")) (SSeq (SSetAttr (PName "self") "_adapter" (PName "adapter")) (SSeq (SSetAttr (PName "self") "_parenthesis_wrapper" (PCall (PGlobal "ParenthesisWrapper") [] [])) (SSetAttr (PName "self") "_bracket_wrapper" (PCall (PGlobal "BracketWrapper") [] []))))).
(** line 419 *)
Definition MSub_convert_source : func := Func Plain [("self", None)]
    (SSeq (SAssign "name" (PAttr (PAttr (PName "self") "_math_element") "name")) (SSeq (SAssign "children" (PAttr (PAttr (PName "self") "_math_element") "children")) (SSeq (SAssign "children_length" (PCall (PGlobal "len") [(PName "children")] [])) (SSeq (SIf (PCmp OpNotEq (PName "children_length") (PInt 2%Z)) (SRaise (PCall (PGlobal "InvalidNumberOfChildrenError") [(PName "name"); (PInt 2%Z); (PName "children_length")] [])) SPass) (SSeq (SAssign "base_child" (PIndex (PName "children") (PInt 0%Z))) (SSeq (SAssign "subscript_child" (PIndex (PName "children") (PInt 1%Z))) (SReturn (PFormat [(PCall (PAttr (PName "self") "_handle_base_child") [(PName "base_child")] []); (PStr (lit "_")); (PCall (PAttr (PName "self") "_handle_subscript_child") [(PName "subscript_child")] [])])))))))).
(** line 432 *)
Definition MSub__handle_base_child_source : func := Func Plain [("self", None); ("base", None)]
    (SSeq (SAssign "base_children" (PAttr (PName "base") "children")) (SSeq (SAssign "base_str" (PCall (PAttr (PCall (PAttr (PAttr (PName "self") "_adapter") "to_latex_converter") [(PName "base")] []) "convert") [] [])) (SSeq (SIf (PCmp OpLtE (PCall (PGlobal "len") [(PName "base_children")] []) (PInt 1%Z)) (SReturn (PName "base_str")) SPass) (SReturn (PCall (PAttr (PAttr (PName "self") "_parenthesis_wrapper") "wrap_if_more_than_one_char") [(PName "base_str")] []))))).
(** line 441 *)
Definition MSub__handle_subscript_child_source : func := Func Plain [("self", None); ("subscript", None)]
    (SSeq (SAssign "subscript_str" (PCall (PAttr (PCall (PAttr (PAttr (PName "self") "_adapter") "to_latex_converter") [(PName "subscript")] []) "convert") [] [])) (SReturn (PCall (PAttr (PAttr (PName "self") "_bracket_wrapper") "wrap") [(PName "subscript_str")] []))).
Definition MSub_class : class := Class "ToLaTeXConverter" [] false
  [("__init__", MSub_init_source); ("convert", MSub_convert_source); ("_handle_base_child", MSub__handle_base_child_source); ("_handle_subscript_child", MSub__handle_subscript_child_source)].
(** line 448 *)
Definition MFrac_init_source : func := Func Plain [("self", None); ("math_element", None); ("adapter", None)]
    (SSeq (SSetAttr (PName "self") "_math_element" (PName "math_element")) (SSeq (SSetAttr (PName "self") "_adapter" (PName "adapter")) (SSetAttr (PName "self") "_parenthesis_wrapper" (PCall (PGlobal "ParenthesisWrapper") [] [])))).
(** line 453 *)
Definition MFrac_convert_source : func := Func Plain [("self", None)]
    (SSeq (SAssign "children" (PAttr (PAttr (PName "self") "_math_element") "children")) (SSeq (SAssign "name" (PAttr (PAttr (PName "self") "_math_element") "name")) (SSeq (SAssign "children_length" (PCall (PGlobal "len") [(PName "children")] [])) (SSeq (SIf (PCmp OpNotEq (PName "children_length") (PInt 2%Z)) (SRaise (PCall (PGlobal "InvalidNumberOfChildrenError") [(PName "name"); (PInt 2%Z); (PName "children_length")] [])) SPass) (SSeq (SAssign "num" (PCall (PAttr (PCall (PAttr (PAttr (PName "self") "_adapter") "to_latex_converter") [(PIndex (PName "children") (PInt 0%Z))] []) "convert") [] [])) (SSeq (SAssign "den" (PCall (PAttr (PCall (PAttr (PAttr (PName "self") "_adapter") "to_latex_converter") [(PIndex (PName "children") (PInt 1%Z))] []) "convert") [] [])) (SSeq (SIf (PCall (PAttr (PName "self") "_is_bevelled") [] []) (SReturn (PFormat [(PCall (PAttr (PName "self") "_wrap_if_more_than_one_char") [(PName "num")] []); (PStr (lit "/")); (PCall (PAttr (PName "self") "_wrap_if_more_than_one_char") [(PName "den")] [])])) SPass) (SReturn (PFormat [(PStr (lit "\frac{")); (PName "num"); (PStr (lit "}{")); (PName "den"); (PStr (lit "}"))]))))))))).
(** line 469 *)
Definition MFrac__wrap_if_more_than_one_char_source : func := Func Plain [("self", None); ("val", None)]
    (SReturn (PCall (PAttr (PAttr (PName "self") "_parenthesis_wrapper") "wrap_if_more_than_one_char") [(PName "val")] [])).
(** line 472 *)
Definition MFrac__is_bevelled_source : func := Func Plain [("self", None)]
    (SReturn (PCall (PGlobal "bool") [(PCall (PAttr (PAttr (PAttr (PName "self") "_math_element") "attributes") "get") [(PStr (lit "bevelled"))] [])] [])).
Definition MFrac_class : class := Class "ToLaTeXConverter" [] false
  [("__init__", MFrac_init_source); ("convert", MFrac_convert_source); ("_wrap_if_more_than_one_char", MFrac__wrap_if_more_than_one_char_source); ("_is_bevelled", MFrac__is_bevelled_source)].
(** line 477 *)
Definition MRoot_init_source : func := Func Plain [("self", None); ("math_element", None); ("adapter", None)]
    (SSeq (SSetAttr (PName "self") "_math_element" (PName "math_element")) (SSetAttr (PName "self") "_adapter" (PName "adapter"))).
(** line 481 *)
Definition MRoot_convert_source : func := Func Plain [("self", None)]
    (SSeq (SAssign "name" (PAttr (PAttr (PName "self") "_math_element") "name")) (SSeq (SAssign "children" (PAttr (PAttr (PName "self") "_math_element") "children")) (SSeq (SAssign "children_length" (PCall (PGlobal "len") [(PName "children")] [])) (SSeq (SIf (PCmp OpNotEq (PName "children_length") (PInt 2%Z)) (SRaise (PCall (PGlobal "InvalidNumberOfChildrenError") [(PName "name"); (PInt 2%Z); (PName "children_length")] [])) SPass) (SSeq (SAssign "content" (PCall (PAttr (PCall (PAttr (PAttr (PName "self") "_adapter") "to_latex_converter") [(PIndex (PName "children") (PInt 0%Z))] []) "convert") [] [])) (SSeq (SAssign "root_index" (PCall (PAttr (PCall (PAttr (PAttr (PName "self") "_adapter") "to_latex_converter") [(PIndex (PName "children") (PInt 1%Z))] []) "convert") [] [])) (SReturn (PFormat [(PStr (lit "\sqrt[")); (PName "root_index"); (PStr (lit "]{")); (PName "content"); (PStr (lit "}"))])))))))).
Definition MRoot_class : class := Class "ToLaTeXConverter" [] false
  [("__init__", MRoot_init_source); ("convert", MRoot_convert_source)].
(** line 496 *)
Definition MAction_init_source : func := Func Plain [("self", None); ("math_element", None); ("adapter", None)]
    (SSeq (SSetAttr (PName "self") "_math_element" (PName "math_element")) (SSetAttr (PName "self") "_adapter" (PName "adapter"))).
(** line 500 *)
Definition MAction_convert_source : func := Func Plain [("self", None)]
    (SSeq (SAssign "children" (PAttr (PAttr (PName "self") "_math_element") "children")) (SSeq (SIf (PCall (PAttr (PName "self") "_is_toggle") [] []) (SReturn (PCall (PAttr (PStr (lit " \Longrightarrow ")) "join") [(PComp (PCall (PAttr (PCall (PAttr (PAttr (PName "self") "_adapter") "to_latex_converter") [(PName "child")] []) "convert") [] []) "child" (PName "children") None)] [])) SPass) (SReturn (PCall (PAttr (PCall (PAttr (PAttr (PName "self") "_adapter") "to_latex_converter") [(PIndex (PName "children") (PInt 0%Z))] []) "convert") [] [])))).
(** line 513 *)
Definition MAction__is_toggle_source : func := Func Plain [("self", None)]
    (SSeq (SAssign "action_type" (PCall (PAttr (PAttr (PAttr (PName "self") "_math_element") "attributes") "get") [(PStr (lit "actiontype"))] [])) (SReturn (POr (PCmp OpEq (PName "action_type") (PStr (lit "toggle"))) (PNot (PName "action_type"))))).
Definition MAction_class : class := Class "ToLaTeXConverter" [] false
  [("__init__", MAction_init_source); ("convert", MAction_convert_source); ("_is_toggle", MAction__is_toggle_source)].
(** line 519 *)
Definition MEnclose_init_source : func := Func Plain [("self", None); ("math_element", None); ("adapter", None)]
    (SSeq (SSetAttr (PName "self") "_math_element" (PName "math_element")) (SSeq (SSetAttr (PName "self") "_adapter" (PName "adapter")) (SSetAttr (PName "self") "_notation" (PCall (PAttr (PAttr (PAttr (PName "self") "_math_element") "attributes") "get") [(PStr (lit "notation")); (PStr (lit "longdiv"))] [])))).
(** line 524 *)
Definition MEnclose_convert_source : func := Func Plain [("self", None)]
    (SSeq (SAssign "latex_joined_children" (PCall (PAttr (PStr (lit " ")) "join") [(PComp (PCall (PAttr (PCall (PAttr (PAttr (PName "self") "_adapter") "to_latex_converter") [(PName "child")] []) "convert") [] []) "child" (PAttr (PAttr (PName "self") "_math_element") "children") None)] [])) (SSeq (SIf (PCmp OpEq (PAttr (PName "self") "_notation") (PStr (lit "actuarial"))) (SReturn (PFormat [(PStr (lit "\overline{\left.")); (PName "latex_joined_children"); (PStr (lit "\right|}"))])) SPass) (SSeq (SIf (PCmp OpEq (PAttr (PName "self") "_notation") (PStr (lit "radical"))) (SReturn (PFormat [(PStr (lit "\sqrt{")); (PName "latex_joined_children"); (PStr (lit "}"))])) SPass) (SSeq (SIf (PCmp OpIn (PAttr (PName "self") "_notation") (PList [(PStr (lit "box")); (PStr (lit "roundedbox")); (PStr (lit "circle"))])) (SReturn (PFormat [(PStr (lit "\boxed{")); (PName "latex_joined_children"); (PStr (lit "}"))])) SPass) (SSeq (SIf (PCmp OpEq (PAttr (PName "self") "_notation") (PStr (lit "left"))) (SReturn (PFormat [(PStr (lit "\left|")); (PName "latex_joined_children")])) SPass) (SSeq (SIf (PCmp OpEq (PAttr (PName "self") "_notation") (PStr (lit "right"))) (SReturn (PFormat [(PName "latex_joined_children"); (PStr (lit "\right|"))])) SPass) (SSeq (SIf (PCmp OpEq (PAttr (PName "self") "_notation") (PStr (lit "top"))) (SReturn (PFormat [(PStr (lit "\overline{")); (PName "latex_joined_children"); (PStr (lit "}"))])) SPass) (SSeq (SIf (PCmp OpEq (PAttr (PName "self") "_notation") (PStr (lit "bottom"))) (SReturn (PFormat [(PStr (lit "\underline{")); (PName "latex_joined_children"); (PStr (lit "}"))])) SPass) (SSeq (SIf (PCmp OpEq (PAttr (PName "self") "_notation") (PStr (lit "updiagonalstrike"))) (SReturn (PFormat [(PStr (lit "\cancel{")); (PName "latex_joined_children"); (PStr (lit "}"))])) SPass) (SSeq (SIf (PCmp OpEq (PAttr (PName "self") "_notation") (PStr (lit "downdiagonalstrike"))) (SReturn (PFormat [(PStr (lit "\bcancel{")); (PName "latex_joined_children"); (PStr (lit "}"))])) SPass) (SSeq (SIf (PCmp OpEq (PAttr (PName "self") "_notation") (PStr (lit "updiagonalarrow"))) (SReturn (PFormat [(PStr (lit "\cancelto{}{")); (PName "latex_joined_children"); (PStr (lit "}"))])) SPass) (SSeq (SIf (PCmp OpIn (PAttr (PName "self") "_notation") (PList [(PStr (lit "verticalstrike")); (PStr (lit "horizontalstrike"))])) (SReturn (PFormat [(PStr (lit "\hcancel{")); (PName "latex_joined_children"); (PStr (lit "}"))])) SPass) (SSeq (SIf (PCmp OpEq (PAttr (PName "self") "_notation") (PStr (lit "madruwb"))) (SReturn (PFormat [(PStr (lit "\underline{")); (PName "latex_joined_children"); (PStr (lit "\right|}"))])) SPass) (SSeq (SIf (PCmp OpEq (PAttr (PName "self") "_notation") (PStr (lit "phasorangle"))) (SReturn (PFormat [(PStr (lit "{\angle \underline{")); (PName "latex_joined_children"); (PStr (lit "}}"))])) SPass) (SReturn (PFormat [(PStr (lit "\overline{\left.\right)")); (PName "latex_joined_children"); (PStr (lit "}"))])))))))))))))))).
Definition MEnclose_class : class := Class "ToLaTeXConverter" [] false
  [("__init__", MEnclose_init_source); ("convert", MEnclose_convert_source)].
(** line 562 *)
Definition MError_init_source : func := Func Plain [("self", None); ("math_element", None); ("adapter", None)]
    (SSeq (SSetAttr (PName "self") "_math_element" (PName "math_element")) (SSetAttr (PName "self") "_adapter" (PName "adapter"))).
(** line 566 *)
Definition MError_convert_source : func := Func Plain [("self", None)]
    (SSeq (SAssign "latex_joined_children" (PCall (PAttr (PStr (lit " ")) "join") [(PComp (PCall (PAttr (PCall (PAttr (PAttr (PName "self") "_adapter") "to_latex_converter") [(PName "child")] []) "convert") [] []) "child" (PAttr (PAttr (PName "self") "_math_element") "children") None)] [])) (SReturn (PFormat [(PStr (lit "\color{red}{")); (PName "latex_joined_children"); (PStr (lit "}"))]))).
Definition MError_class : class := Class "ToLaTeXConverter" [] false
  [("__init__", MError_init_source); ("convert", MError_convert_source)].
(** line 578 *)
Definition MSubsup_init_source : func := Func Plain [("self", None); ("math_element", None); ("adapter", None)]
    (SSeq (SSetAttr (PName "self") "_math_element" (PName "math_element")) (SSeq (SSetAttr (PName "self") "_adapter" (PName "adapter")) (SSeq (SSetAttr (PName "self") "_parenthesis_wrapper" (PCall (PGlobal "ParenthesisWrapper") [] [])) (SSetAttr (PName "self") "_bracket_wrapper" (PCall (PGlobal "BracketWrapper") [] []))))).
(** line 584 *)
Definition MSubsup_convert_source : func := Func Plain [("self", None)]
    (SSeq (SAssign "name" (PAttr (PAttr (PName "self") "_math_element") "name")) (SSeq (SAssign "children" (PAttr (PAttr (PName "self") "_math_element") "children")) (SSeq (SAssign "children_length" (PCall (PGlobal "len") [(PName "children")] [])) (SSeq (SIf (PCmp OpNotEq (PName "children_length") (PInt 3%Z)) (SRaise (PCall (PGlobal "InvalidNumberOfChildrenError") [(PName "name"); (PInt 3%Z); (PName "children_length")] [])) SPass) (SSeq (SAssign "base_child" (PIndex (PName "children") (PInt 0%Z))) (SSeq (SAssign "subscript_child" (PIndex (PName "children") (PInt 1%Z))) (SSeq (SAssign "superscript_child" (PIndex (PName "children") (PInt 2%Z))) (SReturn (PFormat [(PCall (PAttr (PName "self") "_handle_base_child") [(PName "base_child")] []); (PStr (lit "_")); (PCall (PAttr (PName "self") "_handle_subscript_child") [(PName "subscript_child")] []); (PStr (lit "^")); (PCall (PAttr (PName "self") "_handle_superscript_child") [(PName "superscript_child")] [])]))))))))).
(** line 598 *)
Definition MSubsup__handle_base_child_source : func := Func Plain [("self", None); ("base", None)]
    (SSeq (SAssign "base_children" (PAttr (PName "base") "children")) (SSeq (SAssign "base_str" (PCall (PAttr (PCall (PAttr (PAttr (PName "self") "_adapter") "to_latex_converter") [(PName "base")] []) "convert") [] [])) (SSeq (SIf (PCmp OpLtE (PCall (PGlobal "len") [(PName "base_children")] []) (PInt 1%Z)) (SReturn (PName "base_str")) SPass) (SReturn (PCall (PAttr (PAttr (PName "self") "_parenthesis_wrapper") "wrap_if_more_than_one_char") [(PName "base_str")] []))))).
(** line 607 *)
Definition MSubsup__handle_subscript_child_source : func := Func Plain [("self", None); ("subscript", None)]
    (SSeq (SAssign "subscript_str" (PCall (PAttr (PCall (PAttr (PAttr (PName "self") "_adapter") "to_latex_converter") [(PName "subscript")] []) "convert") [] [])) (SReturn (PCall (PAttr (PAttr (PName "self") "_bracket_wrapper") "wrap") [(PName "subscript_str")] []))).
(** line 612 *)
Definition MSubsup__handle_superscript_child_source : func := Func Plain [("self", None); ("superscript", None)]
    (SSeq (SAssign "superscript_str" (PCall (PAttr (PCall (PAttr (PAttr (PName "self") "_adapter") "to_latex_converter") [(PName "superscript")] []) "convert") [] [])) (SReturn (PCall (PAttr (PAttr (PName "self") "_bracket_wrapper") "wrap") [(PName "superscript_str")] []))).
Definition MSubsup_class : class := Class "ToLaTeXConverter" [] false
  [("__init__", MSubsup_init_source); ("convert", MSubsup_convert_source); ("_handle_base_child", MSubsup__handle_base_child_source); ("_handle_subscript_child", MSubsup__handle_subscript_child_source); ("_handle_superscript_child", MSubsup__handle_superscript_child_source)].
(** line 619 *)
Definition TextCommand_init_source : func := Func Plain [("self", None); ("math_variant", None)]
    (SSetAttr (PName "self") "_math_variant" (POr (PName "math_variant") (PStr (lit "normal")))).
(** line 622 *)
Definition TextCommand_apply_source : func := Func Plain [("self", None); ("value", None)]
    (SSeq (SAssign "acc" (PName "value")) (SSeq (SFor ["command"] (PAttr (PName "self") "_commands") (SAssign "acc" (PFormat [(PName "command"); (PStr (lit "{")); (PName "acc"); (PStr (lit "}"))]))) (SReturn (PName "acc")))).
(** line 630 *)
Definition TextCommand__commands_source : func := Func Property [("self", None)]
    (SSeq (SIf (PCmp OpEq (PAttr (PName "self") "_math_variant") (PStr (lit "bold"))) (SReturn (PList [(PStr (lit "\textbf"))])) SPass) (SSeq (SIf (PCmp OpEq (PAttr (PName "self") "_math_variant") (PStr (lit "italic"))) (SReturn (PList [(PStr (lit "\textit"))])) SPass) (SSeq (SIf (PCmp OpEq (PAttr (PName "self") "_math_variant") (PStr (lit "bold-italic"))) (SReturn (PList [(PStr (lit "\textit")); (PStr (lit "\textbf"))])) SPass) (SSeq (SIf (PCmp OpEq (PAttr (PName "self") "_math_variant") (PStr (lit "double-struck"))) (SReturn (PList [(PStr (lit "\mathbb"))])) SPass) (SSeq (SIf (PCmp OpEq (PAttr (PName "self") "_math_variant") (PStr (lit "monospace"))) (SReturn (PList [(PStr (lit "\mathtt"))])) SPass) (SSeq (SIf (PCmp OpIn (PAttr (PName "self") "_math_variant") (PList [(PStr (lit "bold-fraktur")); (PStr (lit "fraktur"))])) (SReturn (PList [(PStr (lit "\mathfrak"))])) SPass) (SReturn (PList [(PStr (lit "\text"))])))))))).
Definition TextCommand_class : class := Class "object" [] false
  [("__init__", TextCommand_init_source); ("apply", TextCommand_apply_source); ("_commands", TextCommand__commands_source)].
(** line 647 *)
Definition Char_init_source : func := Func Plain [("self", None); ("value", None); ("is_alphanumeric", None)]
    (SSeq (SSetAttr (PName "self") "value" (PName "value")) (SSetAttr (PName "self") "is_alphanumeric" (PName "is_alphanumeric"))).
Definition Char_class : class := Class "object" [] true
  [("__init__", Char_init_source)].
(** line 653 *)
Definition MText_init_source : func := Func Plain [("self", None); ("math_element", None)]
    (SSetAttr (PName "self") "_math_element" (PName "math_element")).
(** line 656 *)
Definition MText_convert_source : func := Func Plain [("self", None)]
    (SSeq (SAssign "attributes" (PAttr (PAttr (PName "self") "_math_element") "attributes")) (SSeq (SAssign "value" (PAttr (PAttr (PName "self") "_math_element") "value")) (SSeq (SAssign "chars" (PComp (PIf (POr (PCall (PAttr (PGlobal "re") "match") [(PStr (lit "^[a-zA-Z0-9]$")); (PName "char")] []) (PCmp OpEq (PName "char") (PStr (lit " ")))) (PCall (PGlobal "Char") [(PName "char"); (PBool true)] []) (PCall (PGlobal "Char") [(PName "char"); (PBool false)] [])) "char" (PName "value") None)) (SSeq (SAssign "merged_chars" (PList [])) (SSeq (SFor ["char"] (PName "chars") (SSeq (SIf (PAttr (PName "char") "is_alphanumeric") (SSeq (SAssign "last_char" (PIf (PName "merged_chars") (PIndex (PName "merged_chars") (PInt (-1)%Z)) PNone)) (SIf (PAnd (PName "last_char") (PAttr (PName "last_char") "is_alphanumeric")) (SSeq (SSetAttr (PName "last_char") "value" (PBin OpAdd (PAttr (PName "last_char") "value") (PAttr (PName "char") "value"))) (SContinue)) SPass)) SPass) (SAppend "merged_chars" (PName "char")))) (SReturn (PCall (PAttr (PStr (lit "")) "join") [(PComp (PIf (PNot (PAttr (PName "char") "is_alphanumeric")) (PCall (PAttr (PCall (PGlobal "MI") [(PCall (PGlobal "MIMathMlElement") [(PAttr (PName "char") "value")] [])] []) "convert") [] []) (PCall (PAttr (PCall (PGlobal "TextCommand") [(PCall (PAttr (PName "attributes") "get") [(PStr (lit "mathvariant"))] [])] []) "apply") [(PAttr (PName "char") "value")] [])) "char" (PName "merged_chars") None)] []))))))).
Definition MText_class : class := Class "ToLaTeXConverter" [] false
  [("__init__", MText_init_source); ("convert", MText_convert_source)].
Definition TagTypes_class : class := Class "Enum" ["Under"; "Over"] false
  [].
(** line 696 *)
Definition UnderOverSetter_init_source : func := Func Plain [("self", None); ("ty", None)]
    (SSetAttr (PName "self") "_type" (PName "ty")).
(** line 699 *)
Definition UnderOverSetter_apply_source : func := Func Plain [("self", None); ("content", None); ("accent", None)]
    (SSeq (SAssign "latex_accents" (PList [(PStr (lit "\hat")); (PStr (lit "\bar")); (PStr (lit "\underbrace")); (PStr (lit "\overbrace"))])) (SReturn (PIf (PCmp OpIn (PName "accent") (PName "latex_accents")) (PFormat [(PName "accent"); (PStr (lit "{")); (PName "content"); (PStr (lit "}"))]) (PFormat [(PAttr (PName "self") "_default_command"); (PStr (lit "{")); (PName "accent"); (PStr (lit "}{")); (PName "content"); (PStr (lit "}"))])))).
(** line 708 *)
Definition UnderOverSetter__default_command_source : func := Func Property [("self", None)]
    (SReturn (PIf (PCmp OpEq (PAttr (PName "self") "_type") (PAttr (PGlobal "TagTypes") "Under")) (PStr (lit "\underset")) (PStr (lit "\overset")))).
Definition UnderOverSetter_class : class := Class "object" [] false
  [("__init__", UnderOverSetter_init_source); ("apply", UnderOverSetter_apply_source); ("_default_command", UnderOverSetter__default_command_source)].
(** line 713 *)
Definition GenericUnderOver_init_source : func := Func Plain [("self", None); ("math_element", None); ("adapter", None)]
    (SSeq (SSetAttr (PName "self") "_math_element" (PName "math_element")) (SSetAttr (PName "self") "_adapter" (PName "adapter"))).
(** line 717 *)
Definition GenericUnderOver_convert_source : func := Func Plain [("self", None)]
    (SSeq (SAssign "name" (PAttr (PAttr (PName "self") "_math_element") "name")) (SSeq (SAssign "children" (PAttr (PAttr (PName "self") "_math_element") "children")) (SSeq (SAssign "children_length" (PCall (PGlobal "len") [(PName "children")] [])) (SSeq (SIf (PCmp OpNotEq (PName "children_length") (PInt 2%Z)) (SRaise (PCall (PGlobal "InvalidNumberOfChildrenError") [(PName "name"); (PInt 2%Z); (PName "children_length")] [])) SPass) (SSeq (SAssign "content" (PCall (PAttr (PCall (PAttr (PAttr (PName "self") "_adapter") "to_latex_converter") [(PIndex (PName "children") (PInt 0%Z))] []) "convert") [] [])) (SSeq (SAssign "accent" (PCall (PAttr (PCall (PAttr (PAttr (PName "self") "_adapter") "to_latex_converter") [(PIndex (PName "children") (PInt 1%Z))] []) "convert") [] [])) (SReturn (PCall (PAttr (PName "self") "_apply_command") [(PName "content"); (PName "accent")] [])))))))).
(** line 730 *)
Definition GenericUnderOver__apply_command_source : func := Func Plain [("self", None); ("content", None); ("accent", None)]
    (SSeq (SAssign "ty" (PIf (PCall (PAttr (PGlobal "re") "search") [(PStr (lit "under")); (PAttr (PAttr (PName "self") "_math_element") "name")] []) (PAttr (PGlobal "TagTypes") "Under") (PAttr (PGlobal "TagTypes") "Over"))) (SReturn (PCall (PAttr (PCall (PGlobal "UnderOverSetter") [(PName "ty")] []) "apply") [(PName "content"); (PName "accent")] []))).
Definition GenericUnderOver_class : class := Class "ToLaTeXConverter" [] false
  [("__init__", GenericUnderOver_init_source); ("convert", GenericUnderOver_convert_source); ("_apply_command", GenericUnderOver__apply_command_source)].
(** line 740 *)
Definition MUnderover_init_source : func := Func Plain [("self", None); ("math_element", None); ("adapter", None)]
    (SSeq (SSetAttr (PName "self") "_math_element" (PName "math_element")) (SSetAttr (PName "self") "_adapter" (PName "adapter"))).
(** line 744 *)
Definition MUnderover_convert_source : func := Func Plain [("self", None)]
    (SSeq (SAssign "name" (PAttr (PAttr (PName "self") "_math_element") "name")) (SSeq (SAssign "children" (PAttr (PAttr (PName "self") "_math_element") "children")) (SSeq (SAssign "children_length" (PCall (PGlobal "len") [(PName "children")] [])) (SSeq (SIf (PCmp OpNotEq (PName "children_length") (PInt 3%Z)) (SRaise (PCall (PGlobal "InvalidNumberOfChildrenError") [(PName "name"); (PInt 3%Z); (PName "children_length")] [])) SPass) (SSeq (SAssign "base" (PCall (PAttr (PCall (PAttr (PAttr (PName "self") "_adapter") "to_latex_converter") [(PIndex (PName "children") (PInt 0%Z))] []) "convert") [] [])) (SSeq (SAssign "under_content" (PCall (PAttr (PCall (PAttr (PAttr (PName "self") "_adapter") "to_latex_converter") [(PIndex (PName "children") (PInt 1%Z))] []) "convert") [] [])) (SSeq (SAssign "over_content" (PCall (PAttr (PCall (PAttr (PAttr (PName "self") "_adapter") "to_latex_converter") [(PIndex (PName "children") (PInt 2%Z))] []) "convert") [] [])) (SReturn (PFormat [(PName "base"); (PStr (lit "_{")); (PName "under_content"); (PStr (lit "}^{")); (PName "over_content"); (PStr (lit "}"))]))))))))).
Definition MUnderover_class : class := Class "ToLaTeXConverter" [] false
  [("__init__", MUnderover_init_source); ("convert", MUnderover_convert_source)].
(** line 760 *)
Definition MMultiscripts_init_source : func := Func Plain [("self", None); ("math_element", None); ("adapter", None)]
    (SSeq (SSetAttr (PName "self") "_math_element" (PName "math_element")) (SSeq (SSetAttr (PName "self") "_adapter" (PName "adapter")) (SSetAttr (PName "self") "_parenthesis_wrapper" (PCall (PGlobal "ParenthesisWrapper") [] [])))).
(** line 765 *)
Definition MMultiscripts_convert_source : func := Func Plain [("self", None)]
    (SSeq (SAssign "name" (PAttr (PAttr (PName "self") "_math_element") "name")) (SSeq (SAssign "children" (PAttr (PAttr (PName "self") "_math_element") "children")) (SSeq (SAssign "children_length" (PCall (PGlobal "len") [(PName "children")] [])) (SSeq (SIf (PCmp OpLt (PName "children_length") (PInt 3%Z)) (SRaise (PCall (PGlobal "InvalidNumberOfChildrenError") [(PName "name"); (PInt 3%Z); (PName "children_length"); (PStr (lit "at least"))] [])) SPass) (SSeq (SAssign "base_content" (PCall (PAttr (PCall (PAttr (PAttr (PName "self") "_adapter") "to_latex_converter") [(PIndex (PName "children") (PInt 0%Z))] []) "convert") [] [])) (SReturn (PBin OpAdd (PBin OpAdd (PCall (PAttr (PName "self") "_prescript_latex") [] []) (PCall (PAttr (PName "self") "_wrap_in_parenthesis_if_there_is_space") [(PName "base_content")] [])) (PCall (PAttr (PName "self") "_postscript_latex") [] [])))))))).
(** line 781 *)
Definition MMultiscripts__prescript_latex_source : func := Func Plain [("self", None)]
    (SSeq (SAssign "children" (PAttr (PAttr (PName "self") "_math_element") "children")) (SSeq (SIf (PAnd (PCmp OpGtE (PCall (PGlobal "len") [(PName "children")] []) (PInt 4%Z)) (PCall (PAttr (PName "self") "_is_prescripts") [(PIndex (PName "children") (PInt 1%Z))] [])) (SSeq (SAssign "sub" (PIndex (PName "children") (PInt 2%Z))) (SAssign "sup" (PIndex (PName "children") (PInt 3%Z)))) (SIf (PAnd (PCmp OpGtE (PCall (PGlobal "len") [(PName "children")] []) (PInt 6%Z)) (PCall (PAttr (PName "self") "_is_prescripts") [(PIndex (PName "children") (PInt 3%Z))] [])) (SSeq (SAssign "sub" (PIndex (PName "children") (PInt 4%Z))) (SAssign "sup" (PIndex (PName "children") (PInt 5%Z)))) (SReturn (PStr (lit ""))))) (SSeq (SAssign "sub_latex" (PCall (PAttr (PCall (PAttr (PAttr (PName "self") "_adapter") "to_latex_converter") [(PName "sub")] []) "convert") [] [])) (SSeq (SAssign "sup_latex" (PCall (PAttr (PCall (PAttr (PAttr (PName "self") "_adapter") "to_latex_converter") [(PName "sup")] []) "convert") [] [])) (SReturn (PFormat [(PStr (lit "\_{")); (PName "sub_latex"); (PStr (lit "}^{")); (PName "sup_latex"); (PStr (lit "}"))])))))).
(** line 798 *)
Definition MMultiscripts__postscript_latex_source : func := Func Plain [("self", None)]
    (SSeq (SAssign "children" (PAttr (PAttr (PName "self") "_math_element") "children")) (SSeq (SIf (POr (PCmp OpLt (PCall (PGlobal "len") [(PName "children")] []) (PInt 3%Z)) (PAnd (PCmp OpGtE (PCall (PGlobal "len") [(PName "children")] []) (PInt 1%Z)) (PCall (PAttr (PName "self") "_is_prescripts") [(PIndex (PName "children") (PInt 1%Z))] []))) (SReturn (PStr (lit ""))) SPass) (SSeq (SAssign "sub" (PIndex (PName "children") (PInt 1%Z))) (SSeq (SAssign "sup" (PIndex (PName "children") (PInt 2%Z))) (SSeq (SAssign "sub_latex" (PCall (PAttr (PCall (PAttr (PAttr (PName "self") "_adapter") "to_latex_converter") [(PName "sub")] []) "convert") [] [])) (SSeq (SAssign "sup_latex" (PCall (PAttr (PCall (PAttr (PAttr (PName "self") "_adapter") "to_latex_converter") [(PName "sup")] []) "convert") [] [])) (SReturn (PFormat [(PStr (lit "_{")); (PName "sub_latex"); (PStr (lit "}^{")); (PName "sup_latex"); (PStr (lit "}"))])))))))).
(** line 814 *)
Definition MMultiscripts__wrap_in_parenthesis_if_there_is_space_source : func := Func Plain [("self", None); ("val", None)]
    (SSeq (SIf (PNot (PCall (PAttr (PGlobal "re") "search") [(PStr (lit "\s+")); (PName "val")] [])) (SReturn (PName "val")) SPass) (SReturn (PCall (PAttr (PAttr (PName "self") "_parenthesis_wrapper") "wrap") [(PName "val")] []))).
(** line 819 *)
Definition MMultiscripts__is_prescripts_source : func := Func Plain [("self", None); ("child", None)]
    (SReturn (PCmp OpEq (PAttr (PName "child") "name") (PStr (lit "mprescripts")))).
Definition MMultiscripts_class : class := Class "ToLaTeXConverter" [] false
  [("__init__", MMultiscripts_init_source); ("convert", MMultiscripts_convert_source); ("_prescript_latex", MMultiscripts__prescript_latex_source); ("_postscript_latex", MMultiscripts__postscript_latex_source); ("_wrap_in_parenthesis_if_there_is_space", MMultiscripts__wrap_in_parenthesis_if_there_is_space_source); ("_is_prescripts", MMultiscripts__is_prescripts_source)].

(** ** el_to_tex/adapter.py *)
(** line 29 *)
Definition MathMLElementToLatexConverterAdapter_to_latex_converter_source : func := Func Plain [("self", None); ("mathml_element", None)]
    (SSeq (SAssign "name" (POr (PAttr (PName "mathml_element") "name") (PAttr (PCall (PGlobal "VoidMathMLElement") [] []) "name"))) (SSeq (SAssign "converter" (PCall (PAttr (PCall (PAttr (PName "self") "_from_mathml_element_to_latex_converter") [] []) "get") [(PName "name"); (PAttr (PName "self") "_make_generic_spacing_wrapper")] [])) (SReturn (PCall (PName "converter") [(PName "mathml_element")] [])))).
(** line 37 *)
Definition MathMLElementToLatexConverterAdapter__from_mathml_element_to_latex_converter_source : func := Func Plain [("self", None)]
    (SReturn (PDict [((PStr (lit "math")), (PAttr (PName "self") "_make_math_tag_converter")); ((PStr (lit "mi")), (PGlobal "MI")); ((PStr (lit "mo")), (PGlobal "MO")); ((PStr (lit "mn")), (PGlobal "MN")); ((PStr (lit "msqrt")), (PAttr (PName "self") "_make_msqrt_tag_converter")); ((PStr (lit "mfenced")), (PAttr (PName "self") "_make_mfenced_tag_converter")); ((PStr (lit "mfrac")), (PAttr (PName "self") "_make_mfrac_tag_converter")); ((PStr (lit "mroot")), (PAttr (PName "self") "_make_mroot_tag_converter")); ((PStr (lit "maction")), (PAttr (PName "self") "_make_maction_tag_converter")); ((PStr (lit "menclose")), (PAttr (PName "self") "_make_menclose_tag_converter")); ((PStr (lit "merror")), (PAttr (PName "self") "_make_merror_tag_converter")); ((PStr (lit "mphantom")), (PGlobal "Void")); ((PStr (lit "msup")), (PAttr (PName "self") "_make_msup_tag_converter")); ((PStr (lit "msub")), (PAttr (PName "self") "_make_msub_tag_converter")); ((PStr (lit "msubsup")), (PAttr (PName "self") "_make_msubsup_tag_converter")); ((PStr (lit "mmultiscripts")), (PAttr (PName "self") "_make_mmultiscripts_tag_converter")); ((PStr (lit "mtext")), (PGlobal "MText")); ((PStr (lit "munderover")), (PAttr (PName "self") "_make_munderover_tag_converter")); ((PStr (lit "mtable")), (PAttr (PName "self") "_make_mtable_tag_converter")); ((PStr (lit "mtr")), (PAttr (PName "self") "_make_mtr_tag_converter")); ((PStr (lit "mover")), (PAttr (PName "self") "_make_generic_under_over_converter")); ((PStr (lit "munder")), (PAttr (PName "self") "_make_generic_under_over_converter")); ((PStr (lit "mrow")), (PAttr (PName "self") "_make_generic_spacing_wrapper")); ((PStr (lit "mpadded")), (PAttr (PName "self") "_make_generic_spacing_wrapper"))])).
(** line 65 *)
Definition MathMLElementToLatexConverterAdapter__make_math_tag_converter_source : func := Func Plain [("self", None); ("math_element", None)]
    (SReturn (PCall (PGlobal "Math") [(PName "math_element"); (PName "self")] [])).
(** line 68 *)
Definition MathMLElementToLatexConverterAdapter__make_msup_tag_converter_source : func := Func Plain [("self", None); ("math_element", None)]
    (SReturn (PCall (PGlobal "MSup") [(PName "math_element"); (PName "self")] [])).
(** line 71 *)
Definition MathMLElementToLatexConverterAdapter__make_msub_tag_converter_source : func := Func Plain [("self", None); ("math_element", None)]
    (SReturn (PCall (PGlobal "MSub") [(PName "math_element"); (PName "self")] [])).
(** line 74 *)
Definition MathMLElementToLatexConverterAdapter__make_msubsup_tag_converter_source : func := Func Plain [("self", None); ("math_element", None)]
    (SReturn (PCall (PGlobal "MSubsup") [(PName "math_element"); (PName "self")] [])).
(** line 77 *)
Definition MathMLElementToLatexConverterAdapter__make_msqrt_tag_converter_source : func := Func Plain [("self", None); ("math_element", None)]
    (SReturn (PCall (PGlobal "MSqrt") [(PName "math_element"); (PName "self")] [])).
(** line 80 *)
Definition MathMLElementToLatexConverterAdapter__make_mfenced_tag_converter_source : func := Func Plain [("self", None); ("math_element", None)]
    (SReturn (PCall (PGlobal "MFenced") [(PName "math_element"); (PName "self")] [])).
(** line 83 *)
Definition MathMLElementToLatexConverterAdapter__make_mtable_tag_converter_source : func := Func Plain [("self", None); ("math_element", None)]
    (SReturn (PCall (PGlobal "MTable") [(PName "math_element"); (PName "self")] [])).
(** line 86 *)
Definition MathMLElementToLatexConverterAdapter__make_mtr_tag_converter_source : func := Func Plain [("self", None); ("math_element", None)]
    (SReturn (PCall (PGlobal "MTr") [(PName "math_element"); (PName "self")] [])).
(** line 89 *)
Definition MathMLElementToLatexConverterAdapter__make_generic_under_over_converter_source : func := Func Plain [("self", None); ("math_element", None)]
    (SReturn (PCall (PGlobal "GenericUnderOver") [(PName "math_element"); (PName "self")] [])).
(** line 94 *)
Definition MathMLElementToLatexConverterAdapter__make_munderover_tag_converter_source : func := Func Plain [("self", None); ("math_element", None)]
    (SReturn (PCall (PGlobal "MUnderover") [(PName "math_element"); (PName "self")] [])).
(** line 97 *)
Definition MathMLElementToLatexConverterAdapter__make_mfrac_tag_converter_source : func := Func Plain [("self", None); ("math_element", None)]
    (SReturn (PCall (PGlobal "MFrac") [(PName "math_element"); (PName "self")] [])).
(** line 100 *)
Definition MathMLElementToLatexConverterAdapter__make_mroot_tag_converter_source : func := Func Plain [("self", None); ("math_element", None)]
    (SReturn (PCall (PGlobal "MRoot") [(PName "math_element"); (PName "self")] [])).
(** line 103 *)
Definition MathMLElementToLatexConverterAdapter__make_maction_tag_converter_source : func := Func Plain [("self", None); ("math_element", None)]
    (SReturn (PCall (PGlobal "MAction") [(PName "math_element"); (PName "self")] [])).
(** line 106 *)
Definition MathMLElementToLatexConverterAdapter__make_menclose_tag_converter_source : func := Func Plain [("self", None); ("math_element", None)]
    (SReturn (PCall (PGlobal "MEnclose") [(PName "math_element"); (PName "self")] [])).
(** line 109 *)
Definition MathMLElementToLatexConverterAdapter__make_merror_tag_converter_source : func := Func Plain [("self", None); ("math_element", None)]
    (SReturn (PCall (PGlobal "MError") [(PName "math_element"); (PName "self")] [])).
(** line 112 *)
Definition MathMLElementToLatexConverterAdapter__make_mmultiscripts_tag_converter_source : func := Func Plain [("self", None); ("math_element", None)]
    (SReturn (PCall (PGlobal "MMultiscripts") [(PName "math_element"); (PName "self")] [])).
(** line 117 *)
Definition MathMLElementToLatexConverterAdapter__make_generic_spacing_wrapper_source : func := Func Plain [("self", None); ("math_element", None)]
    (SReturn (PCall (PGlobal "GenericSpacingWrapper") [(PName "math_element"); (PName "self")] [])).
Definition MathMLElementToLatexConverterAdapter_class : class := Class "object" [] false
  [("to_latex_converter", MathMLElementToLatexConverterAdapter_to_latex_converter_source); ("_from_mathml_element_to_latex_converter", MathMLElementToLatexConverterAdapter__from_mathml_element_to_latex_converter_source); ("_make_math_tag_converter", MathMLElementToLatexConverterAdapter__make_math_tag_converter_source); ("_make_msup_tag_converter", MathMLElementToLatexConverterAdapter__make_msup_tag_converter_source); ("_make_msub_tag_converter", MathMLElementToLatexConverterAdapter__make_msub_tag_converter_source); ("_make_msubsup_tag_converter", MathMLElementToLatexConverterAdapter__make_msubsup_tag_converter_source); ("_make_msqrt_tag_converter", MathMLElementToLatexConverterAdapter__make_msqrt_tag_converter_source); ("_make_mfenced_tag_converter", MathMLElementToLatexConverterAdapter__make_mfenced_tag_converter_source); ("_make_mtable_tag_converter", MathMLElementToLatexConverterAdapter__make_mtable_tag_converter_source); ("_make_mtr_tag_converter", MathMLElementToLatexConverterAdapter__make_mtr_tag_converter_source); ("_make_generic_under_over_converter", MathMLElementToLatexConverterAdapter__make_generic_under_over_converter_source); ("_make_munderover_tag_converter", MathMLElementToLatexConverterAdapter__make_munderover_tag_converter_source); ("_make_mfrac_tag_converter", MathMLElementToLatexConverterAdapter__make_mfrac_tag_converter_source); ("_make_mroot_tag_converter", MathMLElementToLatexConverterAdapter__make_mroot_tag_converter_source); ("_make_maction_tag_converter", MathMLElementToLatexConverterAdapter__make_maction_tag_converter_source); ("_make_menclose_tag_converter", MathMLElementToLatexConverterAdapter__make_menclose_tag_converter_source); ("_make_merror_tag_converter", MathMLElementToLatexConverterAdapter__make_merror_tag_converter_source); ("_make_mmultiscripts_tag_converter", MathMLElementToLatexConverterAdapter__make_mmultiscripts_tag_converter_source); ("_make_generic_spacing_wrapper", MathMLElementToLatexConverterAdapter__make_generic_spacing_wrapper_source)].

(** ** xml_to_mathml/services/xml_elements_to_mathml_element.py *)
(** line 8 *)
Definition ElementsToMathMLAdapter_convert_source : func := Func Plain [("self", None); ("els", None)]
    (SReturn (PComp (PCall (PAttr (PName "self") "_convert_element") [(PName "el")] []) "el" (PName "els") (Some (PCmp OpIsNot (PAttr (PName "el") "tagName") PNone)))).
(** line 20 *)
Definition ElementsToMathMLAdapter__convert_element_source : func := Func Plain [("self", None); ("el", None)]
    (SSeq (SAssign "attributes" (PCall (PAttr (PName "self") "_convert_element_attributes") [(PAttr (PName "el") "attributes")] [])) (SSeq (SAssign "has_children" (PCall (PAttr (PName "self") "_has_element_child") [(PName "el")] [])) (SSeq (SAssign "value" (PIf (PName "has_children") (PStr (lit "")) (PIf (PAttr (PName "el") "firstChild") (PAttr (PAttr (PName "el") "firstChild") "nodeValue") (PStr (lit ""))))) (SSeq (SAssign "children" (PIf (PName "has_children") (PCall (PAttr (PName "self") "convert") [(PComp (PName "child") "child" (PAttr (PName "el") "childNodes") (Some (PCmp OpEq (PAttr (PName "child") "nodeType") (PAttr (PGlobal "Node") "ELEMENT_NODE"))))] []) (PList []))) (SReturn (PCall (PGlobal "GenericMathMLElement") [] [("name", (PAttr (PName "el") "tagName")); ("value", (PCall (PAttr (PName "value") "strip") [] [])); ("children", (PName "children")); ("attributes", (PName "attributes"))])))))).
(** line 46 *)
Definition ElementsToMathMLAdapter__convert_element_attributes_source : func := Func Plain [("self", None); ("attributes", None)]
    (SSeq (SAssign "attr_dict" (PDict [])) (SSeq (SFor ["attr"] (PCall (PAttr (PName "attributes") "values") [] []) (SSeq (SAssign "attr_value" (PIf (PCmp OpEq (PAttr (PName "attr") "value") (PAttr (PName "attr") "name")) (PStr (lit "")) (PAttr (PName "attr") "value"))) (SSetItem (PName "attr_dict") (PAttr (PName "attr") "name") (PName "attr_value")))) (SReturn (PName "attr_dict")))).
(** line 54 *)
Definition ElementsToMathMLAdapter__has_element_child_source : func := Func Plain [("self", None); ("el", None)]
    (SReturn (PCall (PGlobal "any") [(PComp (PCmp OpEq (PAttr (PName "child") "nodeType") (PAttr (PGlobal "Node") "ELEMENT_NODE")) "child" (PAttr (PName "el") "childNodes") None)] [])).
(** line 57 *)
Definition ElementsToMathMLAdapter__is_there_any_no_text_node_source : func := Func Plain [("self", None); ("children", None)]
    (SReturn (PCall (PGlobal "any") [(PComp (PCmp OpNotEq (PAttr (PName "child") "nodeName") (PStr (lit "#text"))) "child" (PName "children") None)] [])).
Definition ElementsToMathMLAdapter_class : class := Class "object" [] false
  [("convert", ElementsToMathMLAdapter_convert_source); ("_convert_element", ElementsToMathMLAdapter__convert_element_source); ("_convert_element_attributes", ElementsToMathMLAdapter__convert_element_attributes_source); ("_has_element_child", ElementsToMathMLAdapter__has_element_child_source); ("_is_there_any_no_text_node", ElementsToMathMLAdapter__is_there_any_no_text_node_source)].

(** ** xml_to_mathml/services/error_handler.py *)
(** line 6 *)
Definition ErrorHandler_init_source : func := Func Plain [("self", None)]
    (SSetAttr (PName "self") "error_locator" (PDict [])).
(** line 9 *)
Definition ErrorHandler_fix_error_source : func := Func Plain [("self", None); ("xml", None); ("error", None)]
    (SSeq (SIf (PNot (PCall (PGlobal "isinstance") [(PName "error"); (PGlobal "ExpatError")] [])) (SReturn (PName "xml")) SPass) (SReturn (PCall (PAttr (PName "self") "_fix_missing_attribute") [(PName "error"); (PName "xml")] []))).
(** line 15 *)
Definition ErrorHandler__fix_missing_attribute_source : func := Func Plain [("self", None); ("error", None); ("xml", None)]
    (SSeq (SAssign "result" (PCall (PAttr (PName "self") "_fix_missing_attribute_value") [(PName "error"); (PName "xml")] [])) (SSeq (SIf (PCmp OpNotEq (PName "result") (PName "xml")) (SReturn (PName "result")) SPass) (SSeq (SAssign "pattern" (PCall (PAttr (PName "self") "_math_generic_missing_value") [] [])) (SSeq (SAssign "counter" (PInt 0%Z)) (SSeq (SWhile (PAnd (PCall (PAttr (PGlobal "re") "search") [(PName "pattern"); (PName "xml")] []) (PCmp OpLt (PName "counter") (PInt 5%Z))) (SSeq (SAssign "counter" (PBin OpAdd (PName "counter") (PInt 1%Z))) (SAssign "result" (PCall (PAttr (PGlobal "re") "sub") [(PName "pattern"); (PStr (lit "\1\3")); (PName "xml")] [])))) (SReturn (PName "result"))))))).
(** line 28 *)
Definition ErrorHandler__fix_missing_attribute_value_source : func := Func Plain [("self", None); ("error", None); ("xml", None)]
    (SSeq (SAssign "error_code" (PAttr (PName "error") "code")) (SSeq (SIf (PCmp OpNotEq (PName "error_code") (PInt 4%Z)) (SReturn (PName "xml")) SPass) (SSeq (SAssign "error_line" (PAttr (PName "error") "lineno")) (SSeq (SAssign "error_offset" (PAttr (PName "error") "offset")) (SSeq (SAssign "goal_line" (PIndex (PCall (PAttr (PName "xml") "split") [(PStr [10%N])] []) (PBin OpSub (PName "error_line") (PInt 1%Z)))) (SSeq (SAssign "word" (PCall (PAttr (PName "self") "_get_word_at_str_pos") [(PName "goal_line"); (PName "error_offset")] [])) (SSeq (SAssign "pattern" (PCall (PAttr (PName "self") "_match_missing_value_for_attribute") [(PName "word")] [])) (SReturn (PCall (PAttr (PGlobal "re") "sub") [(PName "pattern"); (PStr (lit "")); (PName "xml")] []))))))))).
(** line 42 *)
Definition ErrorHandler__match_missing_value_for_attribute_source : func := Func Plain [("self", None); ("attribute", None)]
    (SSeq (SAssign "escaped_attribute" (PCall (PAttr (PGlobal "re") "escape") [(PName "attribute")] [])) (SSeq (SAssign "regex_pattern" (PFormat [(PStr (lit "(")); (PName "escaped_attribute"); (PStr (lit "=(?!([""\'])))|(")); (PName "escaped_attribute"); (PStr (lit "(?!([""\'])))"))])) (SReturn (PCall (PAttr (PGlobal "re") "compile") [(PName "regex_pattern"); (PAttr (PGlobal "re") "MULTILINE")] [])))).
(** line 53 *)
Definition ErrorHandler__math_generic_missing_value_source : func := Func Plain [("self", None)]
    (SReturn (PCall (PAttr (PGlobal "re") "compile") [(PStr (lit "(<.* )(\w+=(?!([""\'])))?(.*>)")); (PAttr (PGlobal "re") "MULTILINE")] [])).
(** line 64 *)
Definition ErrorHandler__get_word_at_str_pos_source : func := Func Plain [("self", None); ("string", None); ("pos", None)]
    (SSeq (SAssign "start" (PName "pos")) (SSeq (SAssign "end" (PName "pos")) (SSeq (SWhile (PAnd (PCmp OpGt (PName "start") (PInt 0%Z)) (PCmp OpNotEq (PIndex (PName "string") (PBin OpSub (PName "start") (PInt 1%Z))) (PStr (lit " ")))) (SAssign "start" (PBin OpSub (PName "start") (PInt 1%Z)))) (SSeq (SWhile (PAnd (PCmp OpLt (PName "end") (PCall (PGlobal "len") [(PName "string")] [])) (PAnd (PCmp OpNotEq (PIndex (PName "string") (PName "end")) (PStr (lit " "))) (PCmp OpNotEq (PIndex (PName "string") (PName "end")) (PStr (lit ">"))))) (SAssign "end" (PBin OpAdd (PName "end") (PInt 1%Z)))) (SReturn (PSlice (PName "string") (PName "start") (PName "end"))))))).
Definition ErrorHandler_class : class := Class "object" [] false
  [("__init__", ErrorHandler_init_source); ("fix_error", ErrorHandler_fix_error_source); ("_fix_missing_attribute", ErrorHandler__fix_missing_attribute_source); ("_fix_missing_attribute_value", ErrorHandler__fix_missing_attribute_value_source); ("_match_missing_value_for_attribute", ErrorHandler__match_missing_value_for_attribute_source); ("_math_generic_missing_value", ErrorHandler__math_generic_missing_value_source); ("_get_word_at_str_pos", ErrorHandler__get_word_at_str_pos_source)].

(** ** xml_to_mathml/adapter.py *)
(** line 13 *)
Definition XmlToMathMLAdapter_init_source : func := Func Plain [("self", None); ("elements_converter", None); ("error_handler", None)]
    (SSeq (SSetAttr (PName "self") "_xml" (PStr (lit ""))) (SSeq (SSetAttr (PName "self") "_elements_converter" (PName "elements_converter")) (SSetAttr (PName "self") "_error_handler" (PName "error_handler")))).
(** line 20 *)
Definition XmlToMathMLAdapter_convert_source : func := Func Plain [("self", None); ("xml", None)]
    (SSeq (SSetAttr (PName "self") "_xml" (PCall (PAttr (PName "self") "_remove_line_breaks") [(PName "xml")] [])) (SSeq (SSetAttr (PName "self") "_xml" (PCall (PAttr (PName "self") "_remove_ms_word_prefixes") [(PAttr (PName "self") "_xml")] [])) (SReturn (PCall (PAttr (PAttr (PName "self") "_elements_converter") "convert") [(PAttr (PName "self") "_mathml_elements")] [])))).
(** line 26 *)
Definition XmlToMathMLAdapter__fix_error_source : func := Func Plain [("self", None); ("error", None)]
    (SSetAttr (PName "self") "_xml" (PCall (PAttr (PAttr (PName "self") "_error_handler") "fix_error") [(PAttr (PName "self") "_xml"); (PName "error")] [])).
(** line 29 *)
Definition XmlToMathMLAdapter__remove_line_breaks_source : func := Func Plain [("self", None); ("xml", None)]
    (SSeq (SAssign "line_break_pattern" (PCall (PAttr (PGlobal "re") "compile") [(PStr (lit "\n|\r\n|\r"))] [])) (SReturn (PCall (PAttr (PName "line_break_pattern") "sub") [(PStr (lit "")); (PName "xml")] []))).
(** line 33 *)
Definition XmlToMathMLAdapter__remove_ms_word_prefixes_source : func := Func Plain [("self", None); ("xml", None)]
    (SSeq (SAssign "ms_word_prefix_pattern" (PCall (PAttr (PGlobal "re") "compile") [(PStr (lit "mml:"))] [])) (SReturn (PCall (PAttr (PName "ms_word_prefix_pattern") "sub") [(PStr (lit "")); (PName "xml")] []))).
(** line 38 *)
Definition XmlToMathMLAdapter__mathml_elements_source : func := Func Property [("self", None)]
    (SSeq (SAssign "exception" PNone) (SSeq (SFor ["_"] (PCall (PGlobal "range") [(PInt 5%Z)] []) (STry (SSeq (SAssign "dom" (PCall (PGlobal "parseString") [(PAttr (PName "self") "_xml")] [])) (SSeq (SAssign "elements" (PCall (PAttr (PName "dom") "getElementsByTagName") [(PStr (lit "math"))] [])) (SReturn (PCall (PGlobal "list") [(PName "elements")] [])))) "e" (SSeq (SExpr (PCall (PAttr (PName "self") "_fix_error") [(PName "e")] [])) (SAssign "exception" (PName "e"))))) (SIf (PName "exception") (SRaise (PName "exception")) SPass))).
Definition XmlToMathMLAdapter_class : class := Class "object" [] true
  [("__init__", XmlToMathMLAdapter_init_source); ("convert", XmlToMathMLAdapter_convert_source); ("_fix_error", XmlToMathMLAdapter__fix_error_source); ("_remove_line_breaks", XmlToMathMLAdapter__remove_line_breaks_source); ("_remove_ms_word_prefixes", XmlToMathMLAdapter__remove_ms_word_prefixes_source); ("_mathml_elements", XmlToMathMLAdapter__mathml_elements_source)].

(** ** xml_to_mathml/factory.py *)
(** line 8 *)
Definition make_xml_to_mathml_adapter_source : func := Func Plain []
    (SSeq (SAssign "xml_elements_to_mathml_element_adapter" (PCall (PGlobal "ElementsToMathMLAdapter") [] [])) (SSeq (SAssign "error_handler" (PCall (PGlobal "ErrorHandler") [] [])) (SReturn (PCall (PGlobal "XmlToMathMLAdapter") [(PName "xml_elements_to_mathml_element_adapter"); (PName "error_handler")] [])))).

(** ** converter.py *)
(** line 7 *)
Definition MathMLToLaTeX_convert_source : func := Func Static [("mathml", None)]
    (SSeq (SAssign "mathml_elements" (PCall (PAttr (PCall (PGlobal "make_xml_to_mathml_adapter") [] []) "convert") [(PName "mathml")] [])) (SSeq (SAssign "mathml_elements_to_latex_converters" (PComp (PCall (PAttr (PCall (PGlobal "MathMLElementToLatexConverterAdapter") [] []) "to_latex_converter") [(PName "mathml_element")] []) "mathml_element" (PName "mathml_elements") None)) (SReturn (PCall (PAttr (PCall (PAttr (PStr (lit "")) "join") [(PComp (PCall (PAttr (PName "to_latex_converters") "convert") [] []) "to_latex_converters" (PName "mathml_elements_to_latex_converters") None)] []) "strip") [] [])))).
Definition MathMLToLaTeX_class : class := Class "object" [] false
  [("convert", MathMLToLaTeX_convert_source)].

Definition source_classes : list (string * class) :=
  [("WhiteSpaceNormalizer", WhiteSpaceNormalizer_class); ("Wrapper", Wrapper_class); ("ParenthesisWrapper", ParenthesisWrapper_class); ("BracketWrapper", BracketWrapper_class); ("GenericWrapper", GenericWrapper_class); ("JoinWithManySeparators", JoinWithManySeparators_class); ("MathMLElement", MathMLElement_class); ("ToLaTeXConverter", ToLaTeXConverter_class); ("GenericMathMLElement", GenericMathMLElement_class); ("VoidMathMLElement", VoidMathMLElement_class); ("MIMathMlElement", MIMathMlElement_class); ("InvalidNumberOfChildrenError", InvalidNumberOfChildrenError_class); ("UTF8ToLtXConverter", UTF8ToLtXConverter_class); ("HashUTF8ToLtXConverter", HashUTF8ToLtXConverter_class); ("Math", Math_class); ("Void", Void_class); ("MI", MI_class); ("Character", Character_class); ("MO", MO_class); ("Operator", Operator_class); ("MN", MN_class); ("MSup", MSup_class); ("GenericSpacingWrapper", GenericSpacingWrapper_class); ("MSqrt", MSqrt_class); ("Separators", Separators_class); ("Vector", Vector_class); ("Matrix", Matrix_class); ("MFenced", MFenced_class); ("MTable", MTable_class); ("MTr", MTr_class); ("MSub", MSub_class); ("MFrac", MFrac_class); ("MRoot", MRoot_class); ("MAction", MAction_class); ("MEnclose", MEnclose_class); ("MError", MError_class); ("MSubsup", MSubsup_class); ("TextCommand", TextCommand_class); ("Char", Char_class); ("MText", MText_class); ("TagTypes", TagTypes_class); ("UnderOverSetter", UnderOverSetter_class); ("GenericUnderOver", GenericUnderOver_class); ("MUnderover", MUnderover_class); ("MMultiscripts", MMultiscripts_class); ("MathMLElementToLatexConverterAdapter", MathMLElementToLatexConverterAdapter_class); ("ElementsToMathMLAdapter", ElementsToMathMLAdapter_class); ("ErrorHandler", ErrorHandler_class); ("XmlToMathMLAdapter", XmlToMathMLAdapter_class); ("MathMLToLaTeX", MathMLToLaTeX_class)].
Definition source_functions : list (string * func) :=
  [("make_xml_to_mathml_adapter", make_xml_to_mathml_adapter_source)].
(** Names that are not local: ExpatError, Node, accent_to_ltx_cmd, all_math_operators_by_char, all_math_operators_by_glyph, all_math_symbols_by_char, all_math_symbols_by_glyph, any, bool, enumerate, isinstance, len, list, math_number_by_glyph, parseString, range, re, special_font_chars, vowels_with_accents. *)
