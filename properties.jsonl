{"id": "C01", "title": "Output whitespace is canonical", "statement": "Whenever MathMLToLaTeX.convert(xml) returns a string, that string has no leading or trailing whitespace, contains no whitespace character other than U+0020, and never two consecutive spaces.", "quantifier": "every input string, every XML parser behaviour, every document", "why_tests_cant": "The input space (any tree, any text, any number of math elements) is infinite; tests compare a few literals.", "anchors": ["src/mathml_to_latex/el_to_tex/services/normalizer.py:WhiteSpaceNormalizer.normalize", "src/mathml_to_latex/el_to_tex/usecases.py:Math.convert", "src/mathml_to_latex/converter.py:MathMLToLaTeX.convert"]}
{"id": "C02", "title": "A conversion does not depend on earlier conversions", "statement": "In any sequence of MathMLToLaTeX.convert calls, including ones that raise, each call gives exactly the result (or exception) it would give as the first call of the process, and no call disturbs elements built by earlier calls.", "quantifier": "every finite history of calls and every input", "why_tests_cant": "Hidden state shows only for some histories; the converters do mutate element attributes, so absence of interference needs an argument over all histories.", "anchors": ["src/mathml_to_latex/converter.py:MathMLToLaTeX.convert", "src/mathml_to_latex/el_to_tex/usecases.py:MTable._add_flag_recursive_if_name", "src/mathml_to_latex/xml_to_mathml/factory.py:make_xml_to_mathml_adapter"]}
{"id": "C03", "title": "Converting the same element object again gives the same outcome", "statement": "to_latex_converter(el).convert() called any number of times on one element tree gives the same string or the same exception every time, although the first call mutates attributes inside the tree; the second and later calls leave the attributes as the first left them.", "quantifier": "every element tree (no object shared by two positions) and every number of repetitions", "why_tests_cant": "The mutation is data dependent (tables in tables, early exceptions); only an invariant covers all trees.", "anchors": ["src/mathml_to_latex/el_to_tex/usecases.py:MTable.__init__", "src/mathml_to_latex/el_to_tex/usecases.py:MTable._add_flag_recursive_if_name", "src/mathml_to_latex/el_to_tex/adapter.py:MathMLElementToLatexConverterAdapter.to_latex_converter"]}
{"id": "C04", "title": "Side effects are confined to the innerTable flag", "statement": "Converting an element changes nothing observable except that mtable elements lying strictly inside an mtable of that tree may get attribute innerTable=\"innerTable\"; names, values, children, all other attributes, and all elements outside the tree are untouched.", "quantifier": "every element tree and heap", "why_tests_cant": "A frame property over all trees and all surrounding objects.", "anchors": ["src/mathml_to_latex/el_to_tex/usecases.py:MTable._add_flag_recursive_if_name"]}
{"id": "C05", "title": "Conversion is read-only except for tables in tables", "statement": "If a tree has no mtable nested in an mtable, converting it changes no attribute at all. (With nested tables this fails: converting the outer table changes what converting the inner one later returns.)", "quantifier": "every element tree without nested tables; a witness for the negative half", "why_tests_cant": "Depends on the shape of arbitrary trees and on call history.", "anchors": ["src/mathml_to_latex/el_to_tex/usecases.py:MTable"]}
{"id": "C06", "title": "Rendering is compositional", "statement": "The LaTeX of an element is a fixed function of its tag, its text, its attributes, the LaTeX of its children and, of each child, only whether it is named mprescripts, has at least two children, or contains an mtable (plus, for mtable, whether an mtable encloses it): it does not depend on siblings, position, or object identity.", "quantifier": "every element tree and every position", "why_tests_cant": "Needs induction over unboundedly deep trees under mutation.", "anchors": ["src/mathml_to_latex/el_to_tex/adapter.py:MathMLElementToLatexConverterAdapter", "src/mathml_to_latex/el_to_tex/usecases.py"]}
{"id": "C07", "title": "Exactly which trees convert", "statement": "Conversion of an element succeeds if and only if every element that is visited has the right number of children: 2 for msup, msub, mfrac, mroot, munder, mover; 3 for msubsup, munderover; at least 3 for mmultiscripts; at least 1 for a maction whose actiontype is given and not toggle. Not visited: descendants of mphantom, mi, mo, mn, mtext; all but the first child of a non-toggle maction; mmultiscripts children that are not base or the selected scripts.", "quantifier": "every element tree", "why_tests_cant": "Success or failure over all trees of all depths cannot be enumerated.", "anchors": ["src/mathml_to_latex/el_to_tex/usecases.py:MSup.convert", "src/mathml_to_latex/el_to_tex/usecases.py:MMultiscripts.convert", "src/mathml_to_latex/el_to_tex/usecases.py:MAction.convert", "src/mathml_to_latex/el_to_tex/protocols.py:InvalidNumberOfChildrenError"]}
{"id": "C08", "title": "Which error is reported", "statement": "When conversion fails, the exception is the one of the first badly-formed element in visiting order (an element before its children, children in conversion order); it is InvalidNumberOfChildrenError carrying that element's tag, required and actual child counts in the documented message, or IndexError for an empty non-toggle maction. No other exception can arise.", "quantifier": "every element tree", "why_tests_cant": "Depends on evaluation order across arbitrary trees.", "anchors": ["src/mathml_to_latex/el_to_tex/usecases.py", "src/mathml_to_latex/el_to_tex/protocols.py:InvalidNumberOfChildrenError"]}
{"id": "C09", "title": "A document is the concatenation of its math elements", "statement": "convert(xml) is the concatenation, in document order and with no separator, of the LaTeX of every element named math (nested ones included, so they are repeated); with no math element the result is the empty string; if any of them fails the call raises the first failure and returns nothing.", "quantifier": "every parsed document", "why_tests_cant": "Ranges over every document shape.", "anchors": ["src/mathml_to_latex/converter.py:MathMLToLaTeX.convert", "src/mathml_to_latex/xml_to_mathml/adapter.py:XmlToMathMLAdapter._mathml_elements"]}
{"id": "C10", "title": "mphantom content is invisible", "statement": "Whatever is inside an mphantom, valid or not, contributes the empty string, raises nothing, and changing it never changes the result of the conversion (except that mfenced looks inside it for an mtable).", "quantifier": "every tree and every mphantom content", "why_tests_cant": "Universally quantified over content and context.", "anchors": ["src/mathml_to_latex/el_to_tex/usecases.py:Void.convert", "src/mathml_to_latex/el_to_tex/adapter.py"]}
{"id": "C11", "title": "Braces balance", "statement": "If no converted token text contains { } or backslash, and on mfenced the separators have none of them and open/close have none of them either (or are exactly the pair { and }), the LaTeX of every tree and of every document has balanced, properly nested unescaped braces. (Without the condition it fails, e.g. <mo>{</mo>.)", "quantifier": "every tree; every token text without the three characters", "why_tests_cant": "Every depth and every combination of tags and table entries.", "anchors": ["src/mathml_to_latex/el_to_tex/usecases.py", "src/mathml_to_latex/syntax.py", "src/mathml_to_latex/el_to_tex/services/wrapper.py"]}
{"id": "C12", "title": "\\left and \\right pair up", "statement": "Under the C11 condition on texts, if additionally mfenced open/close are without braces and do not start with an ASCII letter or white space, an mfenced around a table has open equal to close or gives both, and no menclose uses notation left, right or madruwb, the control words \\left and \\right in the output are properly nested, each followed by a delimiter, and equal in number. Each extra condition is needed: a one-sided mfenced around a table ends with a bare \\right that merges with letters behind it, notation left leaves \\left out, a fence starting with a letter gives \\lefta.", "quantifier": "every such tree", "why_tests_cant": "Needs reasoning about TeX tokenisation of concatenations at every depth.", "anchors": ["src/mathml_to_latex/el_to_tex/usecases.py:MFenced", "src/mathml_to_latex/el_to_tex/usecases.py:MEnclose", "src/mathml_to_latex/el_to_tex/services/wrapper.py:GenericWrapper", "src/mathml_to_latex/syntax.py"]}
{"id": "C13", "title": "Environments balance", "statement": "Under the C11 condition on texts, \\begin{E} and \\end{E} occur properly nested with matching names in the output.", "quantifier": "every such tree", "why_tests_cant": "Nested tables in fences of any depth.", "anchors": ["src/mathml_to_latex/el_to_tex/usecases.py:Matrix.apply", "src/mathml_to_latex/el_to_tex/usecases.py:MTable._wrap"]}
{"id": "C14", "title": "No visible token is lost or reordered", "statement": "The LaTeX of every visited token (mi, mo, mn, mtext; below math with its white space normalised) occurs in the output as disjoint substrings in reading order (document order, with mroot index and under/over accents before their base and mmultiscripts prescripts before the base). The same holds for whole documents.", "quantifier": "every tree that converts", "why_tests_cant": "Content preservation over every tree.", "anchors": ["src/mathml_to_latex/el_to_tex/usecases.py"]}
{"id": "C15", "title": "Whitespace, comments and stray text between elements are ignored", "statement": "Adding, removing or changing text, comments, CDATA and processing instructions beside element children (pretty-printing) does not change the result of converting the document.", "quantifier": "every document and every such edit", "why_tests_cant": "Infinite family of equivalent documents.", "anchors": ["src/mathml_to_latex/xml_to_mathml/services/xml_elements_to_mathml_element.py:ElementsToMathMLAdapter._convert_element"]}
{"id": "C16", "title": "Unknown tags behave as mrow", "statement": "Renaming any elements whose tag the library does not know (other than mprescripts) to mrow anywhere in a tree leaves the conversion unchanged.", "quantifier": "every tree, every set of unknown tag names", "why_tests_cant": "All names and contexts.", "anchors": ["src/mathml_to_latex/el_to_tex/adapter.py:MathMLElementToLatexConverterAdapter._from_mathml_element_to_latex_converter", "src/mathml_to_latex/el_to_tex/usecases.py:GenericSpacingWrapper"]}
{"id": "C17", "title": "Irrelevant attributes are ignored", "statement": "Only mathvariant (mi, mtext), open/close/separators (mfenced), bevelled (mfrac), actiontype (maction), notation (menclose) and innerTable (mtable) can influence the result; deleting all others from every element changes nothing.", "quantifier": "every tree and attribute assignment", "why_tests_cant": "All attribute names and values.", "anchors": ["src/mathml_to_latex/el_to_tex/usecases.py"]}
{"id": "C18", "title": "mrow grouping does not change the result", "statement": "Replacing an mrow (or any unknown element) that is a child of math, or nested in such rows, by its children leaves the result of convert unchanged.", "quantifier": "every document and every nesting of rows", "why_tests_cant": "All nestings.", "anchors": ["src/mathml_to_latex/el_to_tex/usecases.py:GenericSpacingWrapper.convert", "src/mathml_to_latex/el_to_tex/usecases.py:Math.convert"]}
{"id": "C19", "title": "Token whitespace is insignificant", "statement": "For mi, mo and mn only the whitespace-separated words of the text matter: any two texts with the same words give the same LaTeX.", "quantifier": "every text", "why_tests_cant": "All texts and whitespace characters.", "anchors": ["src/mathml_to_latex/el_to_tex/usecases.py:MI.convert", "src/mathml_to_latex/el_to_tex/usecases.py:MO.convert", "src/mathml_to_latex/el_to_tex/usecases.py:MN.convert", "src/mathml_to_latex/el_to_tex/services/normalizer.py"]}
{"id": "C20", "title": "mfenced separators", "statement": "A non-matrix mfenced with children c1..cn and separators s1..sk yields \\left OPEN c1 s1 c2 s2 ... cn \\right CLOSE where the i-th gap uses s_i, the last separator repeats when there are too few, \",\" is used when there is none, extra ones are ignored, and absent or empty open/close default to ( and ).", "quantifier": "every number of children and separators", "why_tests_cant": "Unbounded lists.", "anchors": ["src/mathml_to_latex/el_to_tex/services/wrapper.py:JoinWithManySeparators.join", "src/mathml_to_latex/el_to_tex/usecases.py:Vector.apply", "src/mathml_to_latex/el_to_tex/usecases.py:MFenced.convert"]}
{"id": "C21", "title": "mfenced around a table becomes a matrix environment", "statement": "An mfenced with an mtable at any depth below it yields the concatenation of its children in pmatrix/bmatrix/Bmatrix/vmatrix/Vmatrix for () [] {} || ||||, in bmatrix when open and close are otherwise equal (also when both absent), and otherwise in \\left OPEN \\begin{matrix}..\\end{matrix} \\right CLOSE.", "quantifier": "every open/close strings, every content, every depth of the mtable", "why_tests_cant": "All strings and depths.", "anchors": ["src/mathml_to_latex/el_to_tex/usecases.py:Matrix", "src/mathml_to_latex/el_to_tex/usecases.py:MFenced._is_there_relative_of_name"]}
{"id": "C22", "title": "Table layout", "statement": "The raw LaTeX of an mtable is its rows in order joined by \" \\\\\" and a newline; of an mtr its cells in order joined by \" & \": n rows give exactly n-1 row separators and m cells exactly m-1 ampersands.", "quantifier": "every number of rows and cells", "why_tests_cant": "Unbounded.", "anchors": ["src/mathml_to_latex/el_to_tex/usecases.py:MTable.convert", "src/mathml_to_latex/el_to_tex/usecases.py:MTr.convert"]}
{"id": "C23", "title": "Exactly the inner tables are wrapped", "statement": "An mtable is wrapped in \\begin{matrix}..\\end{matrix} if and only if some ancestor in the converted tree is an mtable (at any distance, through any visited elements) or its own innerTable attribute is non-empty.", "quantifier": "every tree and position", "why_tests_cant": "Any depth; the information flows through mutation.", "anchors": ["src/mathml_to_latex/el_to_tex/usecases.py:MTable"]}
{"id": "C24", "title": "Script bases and parentheses", "statement": "msup/msub/msubsup put every script in braces, and put the base in \\left( \\right) exactly when the base element has at least two children and its LaTeX is longer than one character; munderover and mmultiscripts scripts are always braced.", "quantifier": "every base and script", "why_tests_cant": "All subtrees.", "anchors": ["src/mathml_to_latex/el_to_tex/usecases.py:MSup", "src/mathml_to_latex/el_to_tex/usecases.py:MSub", "src/mathml_to_latex/el_to_tex/usecases.py:MSubsup", "src/mathml_to_latex/el_to_tex/usecases.py:MUnderover", "src/mathml_to_latex/el_to_tex/services/wrapper.py:ParenthesisWrapper"]}
{"id": "C25", "title": "mi: symbol first, then variant", "statement": "An mi is the table symbol for its normalised text (by entity, then by glyph, then number, then accent/font conversion) wrapped by the commands of its mathvariant; the variant is applied to every mi, including converted symbols, and unknown variants add nothing.", "quantifier": "every text and attribute map", "why_tests_cant": "All texts: needs the fact that a converted symbol is never itself convertible.", "anchors": ["src/mathml_to_latex/el_to_tex/usecases.py:MI.convert", "src/mathml_to_latex/el_to_tex/usecases.py:Character._apply", "src/mathml_to_latex/syntax.py"]}
{"id": "C26", "title": "Accent and font conversion is idempotent and conservative", "statement": "HashUTF8ToLtXConverter().convert applied twice equals applied once; it never changes a string that is not exactly one listed accented or font character; it never returns an empty string for a non-empty one.", "quantifier": "every string", "why_tests_cant": "All Unicode strings.", "anchors": ["src/mathml_to_latex/syntax.py:HashUTF8ToLtXConverter.convert"]}
{"id": "C27", "title": "Numbers pass through", "statement": "The LaTeX of an mn is its text with whitespace normalised, unless the text is exactly one of the listed number glyphs; in particular every text of ASCII characters is unchanged apart from whitespace.", "quantifier": "every text", "why_tests_cant": "All texts.", "anchors": ["src/mathml_to_latex/el_to_tex/usecases.py:MN.convert", "src/mathml_to_latex/syntax.py:math_number_by_glyph"]}
{"id": "C28", "title": "Operators never vanish", "statement": "An mo with a non-blank text never yields the empty string. Operators whose table entry is empty (e.g. invisible times) are emitted as the raw character.", "quantifier": "every text; every table entry", "why_tests_cant": "All texts; couples falsy table values with the fallback chain.", "anchors": ["src/mathml_to_latex/el_to_tex/usecases.py:Operator._operate", "src/mathml_to_latex/syntax.py:all_math_operators_by_glyph"]}
{"id": "C29", "title": "mtext grouping", "statement": "mtext splits its text into maximal runs of ASCII letters, digits and spaces, each wrapped once in the text commands of the mathvariant, and single other characters each converted as an mi; the pieces in order make up the text exactly.", "quantifier": "every text and attribute map", "why_tests_cant": "All strings.", "anchors": ["src/mathml_to_latex/el_to_tex/usecases.py:MText.convert", "src/mathml_to_latex/el_to_tex/usecases.py:TextCommand"]}
{"id": "C30", "title": "At most five parse attempts", "statement": "convert parses at most five times; it uses the first parse that succeeds; when all five fail it raises the error of the fifth; each attempt after the first gets the text the recovery produced from the previous text and error.", "quantifier": "every parser behaviour and every input", "why_tests_cant": "Quantifies over every sequence of parser outcomes.", "anchors": ["src/mathml_to_latex/xml_to_mathml/adapter.py:XmlToMathMLAdapter._mathml_elements"]}
{"id": "C31", "title": "Recovery only deletes", "statement": "Whatever the text and the error, recovery returns a text obtained by deleting characters: never inserting, replacing or reordering; and it returns either the same text or a strictly shorter one.", "quantifier": "every text and parser error", "why_tests_cant": "All strings and error positions.", "anchors": ["src/mathml_to_latex/xml_to_mathml/services/error_handler.py:ErrorHandler.fix_error"]}
{"id": "C32", "title": "Well-formed input is converted as is", "statement": "If the cleaned text (line breaks and \"mml:\" removed) parses, recovery never runs and the result is that of the parsed document; errors that are not expat errors never change the text.", "quantifier": "every input and parser", "why_tests_cant": "All inputs.", "anchors": ["src/mathml_to_latex/xml_to_mathml/adapter.py", "src/mathml_to_latex/xml_to_mathml/services/error_handler.py"]}
{"id": "C33", "title": "Line breaks are insignificant", "statement": "Inserting or deleting CR and LF characters anywhere in the input (even inside tags or words) never changes the result.", "quantifier": "every input and every insertion", "why_tests_cant": "All positions.", "anchors": ["src/mathml_to_latex/xml_to_mathml/adapter.py:XmlToMathMLAdapter._remove_line_breaks"]}
{"id": "C34", "title": "MS Word prefixes", "statement": "Inserting \"mml:\" at any places into an input without \"mml:\" and converting gives the same result as converting the input; removal is one pass, so nested occurrences can survive.", "quantifier": "every input and set of insertion points", "why_tests_cant": "All positions.", "anchors": ["src/mathml_to_latex/xml_to_mathml/adapter.py:XmlToMathMLAdapter._remove_ms_word_prefixes"]}
{"id": "C35", "title": "Attributes equal to their own name count as empty", "statement": "An XML attribute whose value equals its name reaches the conversion as the empty string and every other value reaches it unchanged; hence bevelled=\"bevelled\" is not bevelled while bevelled=\"false\" is.", "quantifier": "every attribute list", "why_tests_cant": "All names and values.", "anchors": ["src/mathml_to_latex/xml_to_mathml/services/xml_elements_to_mathml_element.py:ElementsToMathMLAdapter._convert_element_attributes", "src/mathml_to_latex/el_to_tex/usecases.py:MFrac._is_bevelled"]}
{"id": "C36", "title": "menclose notations", "statement": "A menclose yields the template of its notation around the space-joined children; absent and unknown notations give the long-division template.", "quantifier": "every notation string and content", "why_tests_cant": "All strings and subtrees.", "anchors": ["src/mathml_to_latex/el_to_tex/usecases.py:MEnclose"]}
{"id": "C37", "title": "maction", "statement": "A maction without actiontype, with an empty one or with toggle yields all children joined by \" \\Longrightarrow \"; with any other actiontype it is its first child, and the other children do not matter.", "quantifier": "every actiontype and children", "why_tests_cant": "All strings and subtrees.", "anchors": ["src/mathml_to_latex/el_to_tex/usecases.py:MAction"]}
{"id": "C38", "title": "munder and mover", "statement": "With two children they yield ACCENT{BASE} when the second child's LaTeX is one of \\hat \\bar \\underbrace \\overbrace, otherwise \\underset{ACCENT}{BASE} for munder and \\overset{ACCENT}{BASE} for mover.", "quantifier": "every pair of children", "why_tests_cant": "All subtrees.", "anchors": ["src/mathml_to_latex/el_to_tex/usecases.py:GenericUnderOver", "src/mathml_to_latex/el_to_tex/usecases.py:UnderOverSetter"]}
{"id": "C39", "title": "mmultiscripts layout", "statement": "mmultiscripts yields prescripts, base, postscripts: prescripts are children 3,4 if child 2 is mprescripts, else children 5,6 if child 4 is mprescripts, else nothing; postscripts are children 2,3 unless child 2 is mprescripts; the base is parenthesised exactly when its LaTeX contains whitespace; all other children are ignored.", "quantifier": "every list of at least three children", "why_tests_cant": "All lists and subtrees.", "anchors": ["src/mathml_to_latex/el_to_tex/usecases.py:MMultiscripts"]}
{"id": "C40", "title": "Output size is linear in the element tree", "statement": "The length of the LaTeX of an element is at most a fixed constant times the size of the tree (number of elements plus characters of text and attributes).", "quantifier": "every tree", "why_tests_cant": "A growth bound over all inputs.", "anchors": ["src/mathml_to_latex/el_to_tex/usecases.py"]}
{"id": "C41", "title": "Element text is the first child node", "statement": "An element with an element child has empty text; otherwise its text is that of its first child node only (also when that is a comment), stripped. Later nodes are dropped.", "quantifier": "every DOM element", "why_tests_cant": "All node lists.", "anchors": ["src/mathml_to_latex/xml_to_mathml/services/xml_elements_to_mathml_element.py:ElementsToMathMLAdapter._convert_element"]}
{"id": "C42", "title": "Effect of generic recovery", "statement": "For a one-line text and an expat error not handled by the attribute rule, recovery deletes exactly the part after the last space that precedes the last > (with a < before it), through that last >; if there is no such place the text is unchanged.", "quantifier": "every one-line text", "why_tests_cant": "All strings: regex greedy semantics.", "anchors": ["src/mathml_to_latex/xml_to_mathml/services/error_handler.py:ErrorHandler._math_generic_missing_value", "src/mathml_to_latex/xml_to_mathml/services/error_handler.py:ErrorHandler._fix_missing_attribute"]}
{"id": "C43", "title": "Effect of attribute recovery", "statement": "For an invalid-token error the word around the error position is deleted (with a following =) at every place where it is not followed by a quote, and nothing else is deleted; the word contains no space.", "quantifier": "every text and error position", "why_tests_cant": "All strings and positions.", "anchors": ["src/mathml_to_latex/xml_to_mathml/services/error_handler.py:ErrorHandler._fix_missing_attribute_value", "src/mathml_to_latex/xml_to_mathml/services/error_handler.py:ErrorHandler._get_word_at_str_pos"]}
{"id": "C44", "title": "XML adapter objects are reusable", "statement": "An XmlToMathMLAdapter gives for each convert call the result a fresh one would give, whatever it converted before.", "quantifier": "every history of one adapter", "why_tests_cant": "All histories.", "anchors": ["src/mathml_to_latex/xml_to_mathml/adapter.py:XmlToMathMLAdapter"]}
{"id": "C45", "title": "Control words are not glued inside rows", "statement": "In rows (math, mrow, unknown tags, msqrt, merror, menclose, mtr, mtable, toggling maction) joining children never merges a control word of one child with letters of the next: the TeX tokens of the result are the tokens of the parts with the fixed text before, between and after them (for math, which normalises white space, up to white-space tokens), provided no part ends in a lone backslash; trees with plain texts never do. Between several math elements, inside mtext, with letter separators in mfenced and in mfenced around a table this fails.", "quantifier": "every list of children", "why_tests_cant": "All concatenations.", "anchors": ["src/mathml_to_latex/el_to_tex/usecases.py:GenericSpacingWrapper.convert", "src/mathml_to_latex/el_to_tex/usecases.py:Math.convert", "src/mathml_to_latex/converter.py", "src/mathml_to_latex/el_to_tex/usecases.py:MText.convert"]}
{"id": "C46", "title": "Output size of whole documents", "statement": "The result for a document is at most a fixed constant times the size of the document times the nesting depth of math elements; it is not linear in the size alone, because a math element inside another is converted again for every enclosing one.", "quantifier": "every document", "why_tests_cant": "A growth bound over all inputs.", "anchors": ["src/mathml_to_latex/converter.py", "src/mathml_to_latex/xml_to_mathml/adapter.py"]}
{"id": "C47", "title": "Fractions, roots, errors and rows", "statement": "For all children: a two-part mfrac gives \\frac{x}{y}, and if bevelled x/y with every part longer than one character in \\left( \\right); mroot gives \\sqrt[index]{base}; msqrt, merror and every tag without a converter of its own join their children with one space, inside \\sqrt{} or \\color{red}{} or nothing; math gives the words of that with one space between.", "quantifier": "every list of children and attributes", "why_tests_cant": "All children, arbitrarily nested.", "anchors": ["src/mathml_to_latex/el_to_tex/usecases.py:MFrac.convert", "src/mathml_to_latex/el_to_tex/usecases.py:MRoot.convert", "src/mathml_to_latex/el_to_tex/usecases.py:MSqrt.convert", "src/mathml_to_latex/el_to_tex/usecases.py:MError.convert", "src/mathml_to_latex/el_to_tex/usecases.py:GenericSpacingWrapper.convert", "src/mathml_to_latex/el_to_tex/usecases.py:Math.convert"]}
{"id": "C48", "title": "What counts as white space", "statement": "In mi, mo and mn a single character gives the empty result exactly when it is one of the 29 listed white-space code points; white space around a text changes nothing; the text of an element read from a document is the source text without exactly the white space at its two ends.", "quantifier": "every code point, every text", "why_tests_cant": "There are over a million code points and unboundedly many texts.", "anchors": ["src/mathml_to_latex/el_to_tex/usecases.py:MI.convert", "src/mathml_to_latex/el_to_tex/usecases.py:MO.convert", "src/mathml_to_latex/el_to_tex/usecases.py:MN.convert", "src/mathml_to_latex/el_to_tex/services/normalizer.py", "src/mathml_to_latex/xml_to_mathml/services/xml_elements_to_mathml_element.py"]}
{"id": "C49", "title": "Letters of mathematical fonts", "statement": "Every capital letter of the Unicode bold, italic, script, fraktur, double-struck and sans-serif alphabets, including those Unicode keeps among the letterlike symbols, gives the LaTeX font command with that very letter, in mi and mo and with any white space around; italic small letters in mi give the plain letter. The italic h is not converted and bold Greek capitals give wrong letters.", "quantifier": "all six alphabets, any surrounding white space, children and other attributes", "why_tests_cant": "Off-by-one errors in a table of letters are not seen by samples.", "anchors": ["src/mathml_to_latex/syntax.py:special_font_chars", "src/mathml_to_latex/syntax.py:all_math_symbols_by_glyph", "src/mathml_to_latex/syntax.py:HashUTF8ToLtXConverter.convert"]}
{"id": "C50", "title": "Number characters", "statement": "Subscript and superscript digits give _{d} and ^{d}, circled numbers 0 to 50 give \\textcircled{n}, vulgar fractions give \\dfrac{a}{b}, in mi, mn and mo alike, except that superscript 1, 2 and 3 in mo give the plain digit.", "quantifier": "every such character in each of the three elements, any surrounding white space", "why_tests_cant": "A sample does not show that the value is right for each.", "anchors": ["src/mathml_to_latex/syntax.py:math_number_by_glyph", "src/mathml_to_latex/el_to_tex/usecases.py:MN.convert", "src/mathml_to_latex/el_to_tex/usecases.py:MI.convert", "src/mathml_to_latex/el_to_tex/usecases.py:MO.convert"]}
{"id": "C51", "title": "Greek and accented letters", "statement": "Every Greek letter with a LaTeX name gives that name in mi, and in mo except for epsilon, xi, Lambda and Xi, which stay unchanged; Latin letters with one accent of the usual ten give the accent command with that letter, in mi and mo. Some other accented letters give wrong letters or accents.", "quantifier": "the listed letters, any surrounding white space", "why_tests_cant": "A sample does not show that the letter is right for each.", "anchors": ["src/mathml_to_latex/syntax.py:all_math_symbols_by_glyph", "src/mathml_to_latex/syntax.py:vowels_with_accents", "src/mathml_to_latex/syntax.py:accent_to_ltx_cmd"]}
{"id": "C52", "title": "Single ASCII characters", "statement": "A single visible or control ASCII character in mi is copied, except for # $ % & \\ |, and in mo, except for these and ( ) [ ] { } * ^ _ ~, for which the given LaTeX results.", "quantifier": "every ASCII character except white space, any surrounding white space", "why_tests_cant": "Copying must hold for all characters not listed.", "anchors": ["src/mathml_to_latex/el_to_tex/usecases.py:MI.convert", "src/mathml_to_latex/el_to_tex/usecases.py:MO.convert", "src/mathml_to_latex/syntax.py:all_math_operators_by_glyph"]}
{"id": "C53", "title": "Special characters in the output", "statement": "Every # $ % & or \\\\ that TeX sees in the output comes from a token element's own LaTeX, a row or a table. mtext with any text gives no bare # $ % &. A tree whose mi, mo and mn texts are free of # $ % & \\ (or, for mi and mo, are a single character) gives no bare # $ %. Longer texts with these characters, and any mn, are copied bare.", "quantifier": "every tree whose tokens give LaTeX without a dangling backslash, every mtext, every document", "why_tests_cant": "Counting must hold for every nesting of elements and every text.", "anchors": ["src/mathml_to_latex/el_to_tex/usecases.py:MText.convert", "src/mathml_to_latex/el_to_tex/usecases.py:MI.convert", "src/mathml_to_latex/el_to_tex/usecases.py:MO.convert", "src/mathml_to_latex/el_to_tex/usecases.py:MN.convert"]}
{"id": "C54", "title": "Column and row separators", "statement": "In the output for a tree without stray special characters TeX sees exactly one & less than cells for each converted row and one \\\\ less than rows for each converted table, and no others; so a table of r rows with c cells has r(c-1) of the first and r-1 of the second, plus those of its cells.", "quantifier": "every such tree and document, any nesting of tables and rows", "why_tests_cant": "The counts must be right for every size and nesting.", "anchors": ["src/mathml_to_latex/el_to_tex/usecases.py:MTr.convert", "src/mathml_to_latex/el_to_tex/usecases.py:MTable.convert", "src/mathml_to_latex/el_to_tex/usecases.py:MFenced.convert"]}
{"id": "C55", "title": "Converter objects", "statement": "Making a converter writes nothing but the innerTable mark of tables strictly below a table. A converter of any tag but mfenced and menclose reads its element when it is run, not when it is made: its outcome is the LaTeX of the tree the element holds at that time. mfenced and menclose keep their own attributes from the time they were made. In any sequence of making and running converters of elements that are the same or share no objects, every run gives the LaTeX of the tree its element held at the start; for overlapping elements this fails, since making a converter for an outer table changes what one made before for the inner table gives.", "quantifier": "every element and heap; every finite sequence of makes and runs over any number of elements", "why_tests_cant": "The sequences are unbounded and tests always run a converter right after making it.", "anchors": ["src/mathml_to_latex/el_to_tex/adapter.py:MathMLElementToLatexConverterAdapter.to_latex_converter", "src/mathml_to_latex/el_to_tex/usecases.py:MFenced.__init__", "src/mathml_to_latex/el_to_tex/usecases.py:MEnclose.__init__", "src/mathml_to_latex/el_to_tex/usecases.py:MTable.__init__"]}
{"id": "C56", "title": "Operators and relations by their usual names", "statement": "174 signs (relations, arrows, big operators, logic, sets, currency) give their usual LaTeX command in mo, and 64 in mi, with any white space around them. 88 listed others in mo and 13 in mi give another sign or something that is no command: minus-or-plus gives +-, the tilde operator gives sim without a backslash, the two semidirect products are swapped, the big operators lose their size and the small ones gain it, 'does not precede' gives the same LaTeX as 'precedes or equals'. 35 more in mo are written in another way than by the usual name, and 36 in mo and 20 in mi are copied though they have one.", "quantifier": "every listed sign, any surrounding white space, any attributes (mi: no mathvariant)", "why_tests_cant": "A sample does not show that the name is right for each sign.", "anchors": ["src/mathml_to_latex/syntax.py:all_math_operators_by_glyph", "src/mathml_to_latex/syntax.py:all_math_symbols_by_glyph", "src/mathml_to_latex/el_to_tex/usecases.py:Operator"]}
{"id": "C57", "title": "From XML text to LaTeX", "statement": "A text that, after the clean-up, writes a document in XML converts to exactly the LaTeX of that document: an XML declaration, a document type without internal subset, element tags with attributes in either quotes and any white space inside the tag, prefixed names whose prefixes are declared, empty-element tags, character data, named, decimal and hexadecimal references, CDATA sections, comments, processing instructions. It does not matter which of the many ways of writing the document is used. Every document without prefixed names has such a text. The parser is only assumed to read what is written; a concrete one is proved to do so.", "quantifier": "every document, every way of writing it, every parser that reads what is written", "why_tests_cant": "Tests use one way of writing one document.", "anchors": ["src/mathml_to_latex/converter.py", "src/mathml_to_latex/xml_to_mathml/adapter.py:XmlToMathMLAdapter"]}
{"id": "C58", "title": "Attributes without a value are dropped", "statement": "If the cleaned text is that of a document with up to four words too many in its start tags, each an attribute name without a value (name or name=) directly before > or with an unquoted value before a space or >, each after a space and different from everything else in the text, the result is the LaTeX of the document without them. Not so if the word occurs elsewhere (other text, even markup, is deleted with it; a properly quoted attribute of the same name elsewhere loses its name and then its value), if a name without value stands before a space, another attribute or />, or for five words.", "quantifier": "every document, every place in its start tags, every such word, every parser that reads what is written and reports the invalid token where it is", "why_tests_cant": "The tests have one such text; the places and words are unbounded, and the damage done elsewhere is not looked at.", "anchors": ["src/mathml_to_latex/xml_to_mathml/services/error_handler.py:ErrorHandler", "src/mathml_to_latex/xml_to_mathml/adapter.py:XmlToMathMLAdapter"]}
{"id": "C59", "title": "How the XML is written does not matter", "statement": "Two texts whose documents have the same elements in the same nesting, with the same attributes in any order, the same text (first child node, surrounding white space removed) in elements without element children, and anything but elements between elements (text, comments, CDATA sections, processing instructions), convert to the same result; in particular quotes, character references, empty-element tags, space inside tags and CDATA sections do not matter.", "quantifier": "every two such texts, every parser that reads what is written", "why_tests_cant": "All pairs of spellings of all documents.", "anchors": ["src/mathml_to_latex/xml_to_mathml/adapter.py:XmlToMathMLAdapter", "src/mathml_to_latex/xml_to_mathml/services/xml_elements_to_mathml_element.py"]}
{"id": "C60", "title": "TeX reads the formula the MathML stands for", "statement": "The LaTeX of a tree, read as TeX reads a formula (groups, commands with their arguments, roots with an index, \\left...\\right fences, environments with rows and cells, scripts that belong to the item before them), gives exactly the formula the tree stands for: a fraction of the formulas of the two children, a root with its index, scripts on the base (the base in parentheses if it has several children and more than one character), fences around the children with the separators, matrices with the cells in rows, accents on the base, and so on down to the token elements. This holds wherever the tree stands for such a formula, in particular for all ordinary trees (a class given by rules). Trees with different formulas have different LaTeX. Of several math elements TeX reads the formulas one after the other if no result ends in a command name. Named exceptions, where TeX rejects the output or reads something else: a script on a one-child row which has such a script, a root in the index of a root, a table without fences, fences { and }, the overline as an accent, prescripts; and a command name at the end of one math element before a letter at the start of the next.", "quantifier": "every tree of any depth and width, every attribute and text in the class", "why_tests_cant": "Tests compare strings for some trees; they do not say how TeX groups them, and nesting is unbounded.", "anchors": ["src/mathml_to_latex/el_to_tex/usecases.py", "src/mathml_to_latex/el_to_tex/adapter.py"]}
{"id": "C61", "title": "The commands in the output are those of a fixed list", "statement": "If no mn, mi or mo text (beyond a single character) and no fence or separator of an mfenced holds a backslash - mtext may hold anything - then every control word TeX reads in the output is one of 320 listed commands, possibly with letters after it that run into it, and every control symbol is one of 14; so no command that defines commands, changes the reading of characters, writes or opens files or runs programs can come out (a list of 31). For one formula in which no fence begins with a letter, no separator is a letter, fences around a table have one child and no mtext holds one of 46 letter-like characters, every control word is exactly one of the list; and it is one LaTeX with amsmath, amssymb, cancel and color knows, unless the formula has one of 7 listed identifiers, 50 listed operator texts or a horizontal or vertical strike. Every listed command does come out of some formula. Named exceptions: letters do run into \\in, \\pi etc. across formulas, in mtext, in fences around a table and with letters as separators (giving for instance \\input); a backslash in a longer mi, mo or mn is copied with the command after it; \\geg, \\hdots, \\llbracket and others come out for single characters.", "quantifier": "every document, every tree of any depth and width, every text and attribute under the conditions", "why_tests_cant": "A command that cannot come out cannot be tested for; the outputs are unbounded.", "anchors": ["src/mathml_to_latex/el_to_tex/usecases.py", "src/mathml_to_latex/syntax.py"]}
{"id": "C62", "title": "No foreign characters in the output", "statement": "Every character of the output is printable ASCII, a line feed, or stands in the text of a converted token element or in the fences or separators of a converted mfenced, except six characters that entries of the operator table hold (for the texts U+29F7 and six numeric references); without these texts there is no exception, and ASCII input gives ASCII output. Named exception: for U+29F7 a backspace character comes out.", "quantifier": "every document, every tree, every text and attribute", "why_tests_cant": "Tests see some outputs; this bounds the characters of all.", "anchors": ["src/mathml_to_latex/el_to_tex/usecases.py", "src/mathml_to_latex/syntax.py"]}
{"id": "C63", "title": "Which text reaches the output", "statement": "Of the texts of a document only those of mi, mo, mn and mtext elements matter: changing the text of any other element (ms, mspace, annotation, ci, unknown tags) does not change the result. A childless element the library does not know gives nothing. A semantics element with text-only annotations converts like its presentation child alone. Named exceptions to the expectation behind this: elements in an annotation-xml are converted beside the presentation; the text of ms and of an mtext that also holds an element is lost.", "quantifier": "every document and tree, all texts, attributes and nestings", "why_tests_cant": "Tests see a few annotations; here any text and any number of them at any place.", "anchors": ["src/mathml_to_latex/el_to_tex/usecases.py", "src/mathml_to_latex/el_to_tex/adapter.py"]}
{"id": "C64", "title": "Tag names are compared exactly", "statement": "An element whose name has any character other than a - z (a prefix, a capital, a digit) is treated as unknown. A math element all of whose descendants have unknown names converts to the empty string, and so does a document without an element named math, in particular one in which every name has a prefix.", "quantifier": "every document and tree, all names", "why_tests_cant": "The names are unbounded; tests try the known ones.", "anchors": ["src/mathml_to_latex/el_to_tex/adapter.py", "src/mathml_to_latex/converter.py"]}
{"id": "C65", "title": "No letter and no digit is special", "statement": "Replace the ASCII letters by letters and the digits by digits, in any way, in all mi and mo texts of letters, digits and spaces, all ASCII mn texts without a backslash and all mtext texts: the result changes by the same replacement at fixed places of the output (those that hold the replaced characters) and nowhere else, or is the same exception. So nothing in the conversion - parentheses, accents, joints, tables - depends on which letter or digit a name, number or text has.", "quantifier": "every document and tree, every replacement of letters by letters and digits by digits", "why_tests_cant": "Tests use particular letters; a special case for another one would not be seen.", "anchors": ["src/mathml_to_latex/el_to_tex/usecases.py", "src/mathml_to_latex/syntax.py"]}
{"id": "C66", "title": "Undefined entities", "statement": "A reference such as &alpha; to an entity that XML does not define, in the content of an element: if the document type has an external subset (SYSTEM or PUBLIC) and the document is not standalone, the text converts exactly as without the reference, so the character is silently missing from the LaTeX. Without XML declaration and document type convert raises: the parser's undefined-entity error with the position of the reference if no space stands before it, whatever follows; some exception if no space stands between the first > and the reference (attributes in the root tag are allowed).", "quantifier": "every document, every place in element content, every undefined name, every parser that reads what is written and reports these errors", "why_tests_cant": "The tests have no entities besides numeric and predefined ones; places and names are unbounded.", "anchors": ["src/mathml_to_latex/converter.py", "src/mathml_to_latex/xml_to_mathml/adapter.py:XmlToMathMLAdapter", "src/mathml_to_latex/xml_to_mathml/services/error_handler.py:ErrorHandler"]}
{"id": "C67", "title": "Broken texts are rejected", "statement": "A text that goes wrong inside its root element in one of four ways (an end tag with another name, an undefined entity, an undeclared prefix, an attribute given twice), or that ends before its root element does, makes convert raise an exception and is never converted with the broken part left out: if no space stands before the end of the broken part, the parser's error with the position of the fault, whatever follows; if there are spaces, but none after the first >, some exception. For a text cut off, the same with no space at all, or none between two >. A text without > always raises. Not so for a stray < (invalid token): <math> <mi>x</mi>< </math> converts to the empty string.", "quantifier": "every such text, every continuation, every parser that reports these errors", "why_tests_cant": "Recovery rewrites the text up to four times before giving up; no test set covers all broken texts.", "anchors": ["src/mathml_to_latex/xml_to_mathml/services/error_handler.py:ErrorHandler", "src/mathml_to_latex/xml_to_mathml/adapter.py:XmlToMathMLAdapter", "src/mathml_to_latex/converter.py"]}
{"id": "C68", "title": "Tags after the formula are dropped", "statement": "If the cleaned text is that of a document followed by up to four pieces, each a space and then a tag-like text from < and a letter or underscore up to > without another space (for example a second formula), the result is the LaTeX of the document, without an error. Not so without the space, or with five pieces: then convert raises.", "quantifier": "every document, every way of writing it, every up to four such pieces, every parser that reads what is written and reports junk after the root element", "why_tests_cant": "Nothing in the tests follows the root element.", "anchors": ["src/mathml_to_latex/xml_to_mathml/services/error_handler.py:ErrorHandler", "src/mathml_to_latex/xml_to_mathml/adapter.py:XmlToMathMLAdapter"]}
{"id": "C69", "title": "Element objects that stand at several places", "statement": "A graph of elements in which one object, or one attribute dictionary, stands at several places converts to the LaTeX of the tree it unfolds to, the same as often as it is converted, and only innerTable attributes of mtables inside mtables are written; likewise every run in any sequence of making and running converters for elements that share objects or are parts of one another. The one condition: no dictionary belongs both to an mtable inside another mtable and to an mtable outside of all, unless its innerTable attribute is already non-empty. Not so otherwise: a table object used both inside and outside of a table can convert differently from the tree, and differently the second time.", "quantifier": "every finite acyclic element graph, every heap that holds its dictionaries, every number of conversions, every sequence of making and running converters", "why_tests_cant": "The tests build a new tree for each conversion and never share an object.", "anchors": ["src/mathml_to_latex/el_to_tex/usecases.py:MTable", "src/mathml_to_latex/el_to_tex/adapter.py"]}
{"id": "C70", "title": "What is copied", "statement": "An identifier (mi), operator (mo) or number (mn) that is one character is copied as it is exactly if the character is in none of the listed ranges of code points. A text of several characters, with white space reduced to single spaces, is copied as it is: an mi (inside the commands of its mathvariant) unless it begins with & or is one listed text, an mo unless it begins with & or is one of 55 listed texts, for which the listed LaTeX results, an mn always. Among the single characters converted are some that only look like a sign: a Chinese character meaning white gives a space.", "quantifier": "every Unicode code point, every text, every mathvariant, any children and other attributes", "why_tests_cant": "The tests sample table entries; that nothing else is touched is a statement about all other characters and texts.", "anchors": ["src/mathml_to_latex/el_to_tex/usecases.py:MI.convert", "src/mathml_to_latex/el_to_tex/usecases.py:MO.convert", "src/mathml_to_latex/el_to_tex/usecases.py:MN.convert", "src/mathml_to_latex/syntax.py"]}
{"id": "C71", "title": "Threads", "statement": "Calls of MathMLToLaTeX.convert in several threads do not disturb one another: under every schedule of their single accesses to objects, a thread that has finished has, job by job, the results (or exceptions) it has when it runs alone, and a thread that gets its turn again and again finishes. The same holds if the threads also convert elements that they share, unless one mtable object stands both inside an mtable and outside of all, and if a thread reuses an adapter object that no other thread uses; of the objects that were there before, only the innerTable attributes of mtables inside converted mtables change. An XmlToMathMLAdapter object used by two threads at once can give one of them the LaTeX of the other's text.", "quantifier": "every number of threads, every list of calls and conversions in each, every finite or fair endless schedule, every parser function, every heap", "why_tests_cant": "The tests run in one thread; the number of schedules is beyond testing, and a race shows up rarely.", "anchors": ["src/mathml_to_latex/converter.py", "src/mathml_to_latex/xml_to_mathml/adapter.py", "src/mathml_to_latex/el_to_tex/usecases.py:MTable", "src/mathml_to_latex/el_to_tex/adapter.py"]}
{"id": "C72", "title": "Number of steps and depth of calls", "statement": "While an element is converted, to_latex_converter and convert() are each called at most once for every place of the element's tree, and no more convert() calls are under way at one time than the tree has levels. All steps together - calls of these two, accesses to attribute dictionaries, visits of the flagging of MTable and of the search of MFenced - are at most 6*size + text length + 2*size*nesting, where nesting is the greatest number of mtables and mfenceds on a path from the root; without these two elements the number of steps is linear in the size and the text. The same holds for a whole call of MathMLToLaTeX.convert, for the elements the text becomes, with at most 19 steps and one per element to read the text, and for a thread: a thread of conversions is over after so many turns, whatever other threads do. No bound that is a multiple of size plus text length holds for all trees: mfenceds in one another take a quadratic number of steps.", "quantifier": "every element tree, every state of all dictionaries, every text and parser function, every schedule of other threads", "why_tests_cant": "A test measures the time of one input; that no input makes the conversion run exponentially long, convert a child twice or recurse deeper than the tree needs all trees.", "anchors": ["src/mathml_to_latex/el_to_tex/usecases.py:MFenced", "src/mathml_to_latex/el_to_tex/usecases.py:MTable", "src/mathml_to_latex/el_to_tex/adapter.py", "src/mathml_to_latex/converter.py", "src/mathml_to_latex/xml_to_mathml/adapter.py"]}
{"id": "C73", "title": "Directions, opposites, struck signs, and signs that vanish", "statement": "As an operator, each of 134 arrows whose Unicode name has one direction gives LaTeX that points there and nowhere else; 13 listed others do not (the white arrow from a wall points right and gives \\Leftarrow). 227 pairs of opposite signs (left and right, less and greater, subset and superset, for all and there exists) never give the same LaTeX, in mo or mi; 42 listed pairs do in mo. Each of the 45 signs struck through never gives the LaTeX of the sign that is struck, and in mo is copied or written with a stroke, except 'does not precede'. A single character that is not white leaves something but for 16 characters in mo and 6 in mi, of which only white space is left: a math gives the same LaTeX without them.", "quantifier": "every listed sign or pair, every character for the last, any white space around them, any attributes (mi: no mathvariant), any other children of the math", "why_tests_cant": "Tables of a thousand entries hide single entries that reverse or drop a sign; a sample of entries misses them.", "anchors": ["src/mathml_to_latex/syntax.py:all_math_operators_by_glyph", "src/mathml_to_latex/syntax.py:all_math_symbols_by_glyph", "src/mathml_to_latex/el_to_tex/usecases.py:Operator", "src/mathml_to_latex/el_to_tex/usecases.py:Math"]}
{"id": "C74", "title": "Comparisons made by the regular expressions", "statement": "Reading a text of n characters (removing line breaks and mml:, then at most five attempts to parse with a repair after each failure) makes at most 686*(n+1)^3 comparisons of a character with a pattern, whatever the parser answers; at most 16*(n+1) if the parser accepts the cleaned text; the removal of a valueless attribute at most 2*(2n+3)*(n+1). The cubic order is reached: the unclosed comment '<!--' followed by k times '< ' makes at least (10/3)*(k^3-k) comparisons and then raises the parser's error, so no quadratic bound holds whatever its factor.", "quantifier": "every text, every parser, every set of word characters without '=' (upper bounds); every k, every parser that rejects the comment with a code other than 4, in particular the parser of the model (lower bound)", "why_tests_cant": "Tests use short texts, for which a cubic search is not noticed; a bound on the cost of all texts cannot be seen from the cost of some.", "anchors": ["src/mathml_to_latex/xml_to_mathml/adapter.py:XmlToMathMLAdapter", "src/mathml_to_latex/xml_to_mathml/services/error_handler.py:ErrorHandler"]}
{"id": "C75", "title": "Signs put together from others", "statement": "Each of 107 operators whose Unicode name describes how it is put together (one sign above or beside another, a bar, dot, hat, arrow, box, stroke or dash on a sign) gives LaTeX that draws just that, up to white space: \\overset or \\underset with the two signs in their places, \\underline, \\overline, \\dot, \\hat, \\vec, \\boxed, \\cancel, \\hcancel around the sign. 21 listed others do not: 'superset above leftwards arrow' has a rightwards arrow, the dot below a plus sign is a circle, three signs for 'contains' give \\in; one gives a text with a backspace character. 68 listed signs without a usual LaTeX name give the listed plainer sign.", "quantifier": "every listed sign, any white space around it, any attributes and children", "why_tests_cant": "One entry of a table of a thousand in which the two parts of a sign are exchanged or one is lost is not noticed by a sample.", "anchors": ["src/mathml_to_latex/syntax.py:all_math_operators_by_glyph", "src/mathml_to_latex/el_to_tex/usecases.py:Operator"]}
{"id": "C76", "title": "Characters escaped twice", "statement": "An mo whose text is a reference such as &#x2208; (the XML has &amp;#x2208;) gives the LaTeX of the character itself for 796 listed characters and 18 listed characters with a combining one; 18 listed references and 6 named texts (&lt;=) give the listed LaTeX, of which the 18 differ from the character's. Any other text of several characters that begins with an ampersand is copied as it is. The same holds for mi with 82 and 4 listed references, inside the commands of its mathvariant.", "quantifier": "every text beginning with &, any white space around it, any attributes and children", "why_tests_cant": "The tables by character and by glyph repeat each other by hand; a test of some entries does not show that they agree, nor that nothing else is touched.", "anchors": ["src/mathml_to_latex/syntax.py:all_math_operators_by_char", "src/mathml_to_latex/syntax.py:all_math_symbols_by_char", "src/mathml_to_latex/el_to_tex/usecases.py:Operator", "src/mathml_to_latex/el_to_tex/usecases.py:MI.convert"]}
{"id": "C77", "title": "What each character gives", "statement": "An mo, mi or mn whose text is a single character (white space aside) gives, for every Unicode character that is not white space, the LaTeX a complete catalogue has for it, and the character itself if the catalogue does not have it: 1411 characters for mo, 735 for mi (inside the commands of the mathvariant), 91 for mn. mo and mi without a mathvariant give the same for all characters but those of two listed catalogues (794 and 118); exactly 28 listed characters are converted by both, but to different LaTeX. The catalogues record what the tables hold; they do not claim that it is right.", "quantifier": "every character that is not white space, any white space around it, any attributes and children", "why_tests_cant": "There are more than a million characters and each lookup goes through three tables and two fallbacks; a test covers a few entries and cannot show that no other character is touched.", "anchors": ["src/mathml_to_latex/el_to_tex/usecases.py:Operator", "src/mathml_to_latex/el_to_tex/usecases.py:Character", "src/mathml_to_latex/el_to_tex/usecases.py:MN", "src/mathml_to_latex/syntax.py:all_math_operators_by_glyph", "src/mathml_to_latex/syntax.py:all_math_symbols_by_glyph"]}
{"id": "C78", "title": "A byte order mark before the text", "statement": "convert of U+FEFF followed by a text gives the LaTeX of the text, or raises the same exception, with the column one further if it is an error of the parser; for every document, and for every other text without U+FEFF as long as no parse attempt reports a wrong character (expat code 4) with no space before it. Without that condition it is false: the mark is then struck together with the first word.", "quantifier": "every text, every parser that skips the mark as a column (the modelled one does)", "why_tests_cant": "Files saved with a byte order mark reach the clean-up, five parse attempts and the recovery by position; that every position moves along in all of them is a statement about all broken texts.", "anchors": ["src/mathml_to_latex/xml_to_mathml/adapter.py", "src/mathml_to_latex/xml_to_mathml/services/error_handler.py", "src/mathml_to_latex/converter.py"]}
{"id": "C79", "title": "The source code does what the model does", "statement": "The Python source of the library, translated statement by statement into a syntax and run by an interpreter for that part of Python, does in MathMLToLaTeX.convert(text) exactly what the model of all other properties does: it returns the same LaTeX or raises the same exception, for every text, every parser and every state left by earlier calls. In particular the result does not depend on earlier calls.", "quantifier": "every text, every XML parser (as a function), every class of word characters, every memory, all bounds on call depth and loop turns from some bound on", "why_tests_cant": "A model written by hand may differ from the code on inputs nobody tried; here the two are proved equal for all inputs, so that every other property is a statement about the source text itself.", "anchors": ["src/mathml_to_latex/converter.py:MathMLToLaTeX", "src/mathml_to_latex/el_to_tex/usecases.py", "src/mathml_to_latex/el_to_tex/adapter.py", "src/mathml_to_latex/xml_to_mathml/adapter.py:XmlToMathMLAdapter", "src/mathml_to_latex/xml_to_mathml/services/error_handler.py:ErrorHandler", "src/mathml_to_latex/xml_to_mathml/services/xml_elements_to_mathml_element.py:ElementsToMathMLAdapter"]}
{"id": "C80", "title": "No unexpected failure", "statement": "Every call of MathMLToLaTeX.convert with a string ends (all loops of the source end, calls are nested to a finite depth) and either returns a string or raises an exception of the XML parser, an IndexError or an InvalidNumberOfChildrenError: the source never comes to a TypeError, AttributeError, NameError, UnboundLocalError or KeyError and never returns None.", "quantifier": "every text, every XML parser (as a function), every memory", "why_tests_cant": "A None that is used as a string, a variable that is not set on some path or a missing attribute shows only on the input that takes that path.", "anchors": ["src/mathml_to_latex/converter.py:MathMLToLaTeX", "src/mathml_to_latex/el_to_tex/usecases.py", "src/mathml_to_latex/el_to_tex/adapter.py", "src/mathml_to_latex/xml_to_mathml/adapter.py:XmlToMathMLAdapter"]}
{"id": "C81", "title": "Elements made by hand, in the source", "statement": "For every tree of GenericMathMLElement objects, with any attribute dictionaries, of which some may be one and the same object, MathMLElementToLatexConverterAdapter().to_latex_converter(element) run from the source gives a converter and writes into the dictionaries exactly what the model writes; whenever its convert() is called after that, once or many times and whatever other code has put into the dictionaries meanwhile, the source returns, raises and writes what the model does. The constructor of GenericMathMLElement makes these objects.", "quantifier": "every element tree, every contents of the dictionaries at the time of each call", "why_tests_cant": "The effect of flags written into shared dictionaries between making a converter and converting can be tried for a few trees only; and a hand-written model could differ from the code exactly there.", "anchors": ["src/mathml_to_latex/el_to_tex/adapter.py:MathMLElementToLatexConverterAdapter", "src/mathml_to_latex/el_to_tex/usecases.py", "src/mathml_to_latex/el_to_tex/protocols.py:GenericMathMLElement"]}
{"id": "C82", "title": "Threads, in the source", "statement": "Let several threads each call MathMLToLaTeX.convert with a list of texts, the source being run with one shared memory and any interleaving of single accesses to dictionaries and objects. After finitely many turns of its own, a number that does not depend on the schedule, a thread has ended with exactly what its calls give one after the other without other threads; at no moment has it ended otherwise or got stuck. Dictionaries and objects that were in the memory before are never changed. An XmlToMathMLAdapter object that two threads use at once can give one of them the LaTeX of the other's text.", "quantifier": "every number of threads, every texts, every memory, every schedule, every XML parser (as a function)", "why_tests_cant": "Schedules of threads cannot be enumerated and races show up rarely; the theorem covers all interleavings of memory accesses of the source itself.", "anchors": ["src/mathml_to_latex/converter.py:MathMLToLaTeX", "src/mathml_to_latex/el_to_tex/usecases.py:MTable", "src/mathml_to_latex/xml_to_mathml/adapter.py:XmlToMathMLAdapter"]}
{"id": "C83", "title": "Depth of calls", "statement": "Converting a text that the XML parser accepts as it is never nests calls (of functions, methods, properties, constructors and built-ins) deeper than twice the nesting depth of its elements plus 16, and then MathMLToLaTeX.convert of the source gives what the model gives. For a text that is repaired or cannot be, within five attempts, the same holds with the larger of twice the depth of the document in the end plus 16 and the length of the text plus 14 (a bound also on the turns of each loop). So with the XML parser as modelled no text, well-formed or not, needs more levels than its length plus 16, and convert always ends. For an element made by hand, to_latex_converter and convert() each stay within twice its nesting depth plus 14. The depth does grow: for n+1 msup elements one in the other, convert() of the converter cannot end within 2n+1 levels, whatever the memory; no bound is enough for all elements.", "quantifier": "every text, every XML parser (as a function; the bound by the length alone: the modelled one), every element tree, every contents of memory", "why_tests_cant": "A test finds one depth at which one document still works; that the depth of calls is linear in the nesting for every combination of converters, with these constants, needs a proof over all trees.", "anchors": ["src/mathml_to_latex/converter.py:MathMLToLaTeX", "src/mathml_to_latex/el_to_tex/adapter.py:MathMLElementToLatexConverterAdapter", "src/mathml_to_latex/xml_to_mathml/services/xml_elements_to_mathml_element.py:ElementsToMathMLAdapter", "src/mathml_to_latex/xml_to_mathml/services/error_handler.py:ErrorHandler"]}
{"id": "C84", "title": "Parts of the library used by themselves, in the source", "statement": "Used by itself, each part of the library's Python source behaves as its model: an XmlToMathMLAdapter, whatever text it still holds from an earlier conversion, turns a text into the elements or the exception of the model, changes no other object, and its result does not depend on what it held (it can be reused, also after a failure); make_xml_to_mathml_adapter() makes one with its own new dictionary; ErrorHandler().fix_error(text, error) gives the repaired text or the exception of C31, C42 and C43 for every text and exception, so it only deletes; ElementsToMathMLAdapter().convert of DOM elements gives the elements of C41 and leaves no other trace than the new dictionaries of attributes; HashUTF8ToLtXConverter().convert is the conversion of C26; WhiteSpaceNormalizer().normalize leaves the words joined by single blanks; JoinWithManySeparators puts each separator in turn and then the last one (a comma if there is none); GenericWrapper, BracketWrapper and ParenthesisWrapper put \\left…\\right…, {…} and \\left(…\\right) around the text, wrap_if_more_than_one_char only around texts of two or more characters.", "quantifier": "every text, every exception, every list of DOM elements, every list of separators and texts, every contents of memory, every XML parser (as a function)", "why_tests_cant": "A test calls a part with a few texts in a fresh object; that the result never depends on the text left by the conversion before, and that each part agrees with its model on every argument, needs a proof over the whole source.", "anchors": ["src/mathml_to_latex/xml_to_mathml/adapter.py:XmlToMathMLAdapter", "src/mathml_to_latex/xml_to_mathml/services/error_handler.py:ErrorHandler", "src/mathml_to_latex/xml_to_mathml/services/xml_elements_to_mathml_element.py:ElementsToMathMLAdapter", "src/mathml_to_latex/syntax.py:HashUTF8ToLtXConverter", "src/mathml_to_latex/el_to_tex/services/normalizer.py:WhiteSpaceNormalizer", "src/mathml_to_latex/el_to_tex/services/wrapper.py:JoinWithManySeparators"]}
{"id": "C85", "title": "The source, from text to LaTeX", "statement": "The source of MathMLToLaTeX.convert, run by the interpreter, with no function of the model in between: every text is either read as a document (within five attempts at parsing) and gives the LaTeX of the reference rendering of its math elements (or the error of the first element with a wrong number of children), or is rejected with the parser's last error. A text that writes a document in the grammar of XML gives the LaTeX of that document; where the reference tree stands for a formula, TeX reads the returned LaTeX as that formula. Whatever is returned is a str in canonical white space, at most 100 times the size times the nesting of math elements long, with the visible tokens in document order, with balanced braces and nested environments and fences and without dangerous commands under the conditions of C11-C13 and C61, with only ASCII and input characters under that of C62. Whatever is raised is the parser's error or that of an element with a wrong number of children. Truncated texts and texts without a tag raise; up to four tags after the formula are dropped; line breaks, and text and comments beside elements, do not matter. The prefix mml: does not matter, nor do names of unknown elements, attributes nobody looks at, contents of mphantom outside of mfenced, texts of elements other than tokens and rows directly below math, in any combination. Without stray marks in the texts there is one & between two cells, one \\\\ between two rows, and no other &, \\\\, #, $ or %.", "quantifier": "every text, every contents of memory, every XML parser as a function (statements about texts of the grammar: the modelled parser)", "why_tests_cant": "It is about all texts, well-formed or not, and joins the text of the program with a specification of its output; tests compare single outputs.", "anchors": ["src/mathml_to_latex/converter.py:MathMLToLaTeX", "src/mathml_to_latex/xml_to_mathml/adapter.py:XmlToMathMLAdapter", "src/mathml_to_latex/el_to_tex/adapter.py:MathMLElementToLatexConverterAdapter"]}
{"id": "C86", "title": "Text before and after the formula", "statement": "A text that begins, after white space, with a word (letters, digits, _, -, .) followed by white space, one of , [ ) | > % or the end is never converted, whatever formula follows and however often it is repaired: MathMLToLaTeX.convert raises the parser's syntax error (code 2) at the first character of the word. For a word after the formula it raises 'junk after document element' (code 9) at the word, provided no space comes before a > anywhere; without that condition the word may be dropped silently, as in '<math><mi>x</mi></math> b>'.", "quantifier": "every text of these forms, every XML parser that reports a word outside the root element (the modelled one does)", "why_tests_cant": "What follows the word is any text; that none of the five rounds of repair ever removes the word needs an induction over the repair for all texts.", "anchors": ["src/mathml_to_latex/xml_to_mathml/adapter.py:XmlToMathMLAdapter", "src/mathml_to_latex/xml_to_mathml/services/error_handler.py:ErrorHandler"]}
{"id": "C87", "title": "Element objects, in the source", "statement": "In the library's source, for element objects made by hand: whatever the order in which converters are made with to_latex_converter and their convert() is called, each call gives the LaTeX (or the exception) of the tree that its element held at the start, so converting again gives the same. The call never ends otherwise than with a str, an InvalidNumberOfChildrenError with its message, or an IndexError (a maction without children); it raises exactly if a visited element has a wrong number of children, and then for the first one in the order of conversion. It changes no dictionary but those of mtables inside mtables, and there only the key innerTable. A returned str is at most 100 times as long as the tree, and under the conditions of C11 - C13 its braces, environments and \\left/\\right nest. If attributes are changed between making and running, convert() gives the LaTeX of the tree at the time of the call, except that mfenced and menclose keep their own attributes of the time they were made.", "quantifier": "every finite element structure, with shared objects and dictionaries as long as no mtable dictionary is used both inside and outside of mtables; every sequence of making and running; every memory before; every bound on calls from some on", "why_tests_cant": "Programs and structures are unbounded, and the dictionaries are changed in place while converters exist, so the result could depend on the order.", "anchors": ["src/mathml_to_latex/el_to_tex/adapter.py:MathMLElementToLatexConverterAdapter", "src/mathml_to_latex/el_to_tex/protocols.py:GenericMathMLElement", "src/mathml_to_latex/el_to_tex/protocols.py:InvalidNumberOfChildrenError", "src/mathml_to_latex/el_to_tex/usecases.py:MTable"]}
