{
 "claims": [
  {
   "property": "C01",
   "status": "proved",
   "theorems": [
    "C01_canonical_whitespace",
    "C01_white_codes"
   ],
   "note": ""
  },
  {
   "property": "C02",
   "status": "proved",
   "theorems": [
    "C02_history_independent"
   ],
   "note": ""
  },
  {
   "property": "C03",
   "status": "proved",
   "theorems": [
    "C03_repeatable"
   ],
   "note": ""
  },
  {
   "property": "C04",
   "status": "proved",
   "theorems": [
    "C04_only_inner_table_flags"
   ],
   "note": ""
  },
  {
   "property": "C05",
   "status": "proved",
   "theorems": [
    "C05_read_only",
    "C05_nested_tables_refuted"
   ],
   "note": "C05_nested_tables_refuted: the witness for the exception the property names."
  },
  {
   "property": "C06",
   "status": "proved",
   "theorems": [
    "C06_function_of_tree",
    "C06_compositional",
    "C06_congruence"
   ],
   "note": ""
  },
  {
   "property": "C07",
   "status": "proved",
   "theorems": [
    "C07_exactly_well_formed"
   ],
   "note": ""
  },
  {
   "property": "C08",
   "status": "proved",
   "theorems": [
    "C08_first_fault",
    "C08_kinds",
    "C08_message"
   ],
   "note": ""
  },
  {
   "property": "C09",
   "status": "proved",
   "theorems": [
    "C09_concatenation",
    "C09_no_math",
    "C09_first_failure"
   ],
   "note": ""
  },
  {
   "property": "C10",
   "status": "proved",
   "theorems": [
    "C10_empty",
    "C10_invisible",
    "C10_fenced_refuted"
   ],
   "note": "C10_fenced_refuted: witness that an enclosing mfenced does notice a table inside mphantom."
  },
  {
   "property": "C11",
   "status": "proved",
   "theorems": [
    "C11_braces",
    "C11_documents",
    "C11_needed_refuted"
   ],
   "note": "C11_needed_refuted: the condition on texts is needed."
  },
  {
   "property": "C12",
   "status": "proved",
   "theorems": [
    "C12_fences",
    "C12_documents",
    "C12_one_sided_refuted",
    "C12_notation_refuted",
    "C12_letter_refuted"
   ],
   "note": "The _refuted theorems show that each extra condition is needed."
  },
  {
   "property": "C13",
   "status": "proved",
   "theorems": [
    "C13_environments",
    "C13_documents",
    "C13_needed_refuted"
   ],
   "note": "C13_needed_refuted: the condition on texts is needed."
  },
  {
   "property": "C14",
   "status": "proved",
   "theorems": [
    "C14_order",
    "C14_tokens",
    "C14_documents"
   ],
   "note": ""
  },
  {
   "property": "C15",
   "status": "proved",
   "theorems": [
    "C15_layout"
   ],
   "note": ""
  },
  {
   "property": "C16",
   "status": "proved",
   "theorems": [
    "C16_unknown_tags",
    "C16_documents"
   ],
   "note": ""
  },
  {
   "property": "C17",
   "status": "proved",
   "theorems": [
    "C17_attributes",
    "C17_needed"
   ],
   "note": ""
  },
  {
   "property": "C18",
   "status": "proved",
   "theorems": [
    "C18_ungrouped",
    "C18_documents"
   ],
   "note": ""
  },
  {
   "property": "C19",
   "status": "proved",
   "theorems": [
    "C19_words"
   ],
   "note": ""
  },
  {
   "property": "C20",
   "status": "proved",
   "theorems": [
    "C20_separators",
    "C20_gaps",
    "C20_alternating"
   ],
   "note": ""
  },
  {
   "property": "C21",
   "status": "proved",
   "theorems": [
    "C21_own_environment",
    "C21_equal_fences",
    "C21_other_fences"
   ],
   "note": ""
  },
  {
   "property": "C22",
   "status": "proved",
   "theorems": [
    "C22_rows",
    "C22_cells",
    "C22_plain_rows",
    "C22_count"
   ],
   "note": ""
  },
  {
   "property": "C23",
   "status": "proved",
   "theorems": [
    "C23_inner_tables"
   ],
   "note": ""
  },
  {
   "property": "C24",
   "status": "proved",
   "theorems": [
    "C24_msup",
    "C24_msub",
    "C24_msubsup",
    "C24_base",
    "C24_munderover"
   ],
   "note": ""
  },
  {
   "property": "C25",
   "status": "proved",
   "theorems": [
    "C25_mi",
    "C25_unknown_variant"
   ],
   "note": ""
  },
  {
   "property": "C26",
   "status": "proved",
   "theorems": [
    "C26_idempotent",
    "C26_conservative",
    "C26_nonempty",
    "C26_listed"
   ],
   "note": ""
  },
  {
   "property": "C27",
   "status": "proved",
   "theorems": [
    "C27_numbers",
    "C27_ascii",
    "C27_glyphs"
   ],
   "note": ""
  },
  {
   "property": "C28",
   "status": "proved",
   "theorems": [
    "C28_operators_never_vanish",
    "C28_empty_entries"
   ],
   "note": ""
  },
  {
   "property": "C29",
   "status": "proved",
   "theorems": [
    "C29_mtext",
    "C29_runs"
   ],
   "note": ""
  },
  {
   "property": "C30",
   "status": "proved",
   "theorems": [
    "C30_read_or_rejected",
    "C30_at_most_five"
   ],
   "note": ""
  },
  {
   "property": "C31",
   "status": "proved",
   "theorems": [
    "C31_only_deletes"
   ],
   "note": ""
  },
  {
   "property": "C32",
   "status": "proved",
   "theorems": [
    "C32_well_formed",
    "C32_other_errors"
   ],
   "note": ""
  },
  {
   "property": "C33",
   "status": "proved",
   "theorems": [
    "C33_line_breaks"
   ],
   "note": ""
  },
  {
   "property": "C34",
   "status": "proved",
   "theorems": [
    "C34_prefixes",
    "C34_one_pass"
   ],
   "note": ""
  },
  {
   "property": "C35",
   "status": "proved",
   "theorems": [
    "C35_attributes",
    "C35_bevelled"
   ],
   "note": ""
  },
  {
   "property": "C36",
   "status": "proved",
   "theorems": [
    "C36_known",
    "C36_other"
   ],
   "note": ""
  },
  {
   "property": "C37",
   "status": "proved",
   "theorems": [
    "C37_toggle",
    "C37_first_child"
   ],
   "note": ""
  },
  {
   "property": "C38",
   "status": "proved",
   "theorems": [
    "C38_accent",
    "C38_set"
   ],
   "note": ""
  },
  {
   "property": "C39",
   "status": "proved",
   "theorems": [
    "C39_multiscripts",
    "C39_positions",
    "C39_ignored"
   ],
   "note": ""
  },
  {
   "property": "C40",
   "status": "proved",
   "theorems": [
    "C40_linear"
   ],
   "note": ""
  },
  {
   "property": "C41",
   "status": "proved",
   "theorems": [
    "C41_text",
    "C41_first_node",
    "C41_element_child"
   ],
   "note": ""
  },
  {
   "property": "C42",
   "status": "proved",
   "theorems": [
    "C42_generic",
    "C42_unchanged",
    "C42_lines"
   ],
   "note": ""
  },
  {
   "property": "C43",
   "status": "proved",
   "theorems": [
    "C43_attribute",
    "C43_then_generic",
    "C43_word",
    "C43_strike"
   ],
   "note": ""
  },
  {
   "property": "C44",
   "status": "proved",
   "theorems": [
    "C44_adapter_reusable"
   ],
   "note": ""
  },
  {
   "property": "C45",
   "status": "proved",
   "theorems": [
    "C45_rows",
    "C45_tables",
    "C45_math",
    "C45_plain",
    "C45_documents_refuted",
    "C45_mtext_refuted",
    "C45_fenced_refuted",
    "C45_fenced_table_refuted"
   ],
   "note": "The _refuted theorems are the places the property names where merging does happen."
  },
  {
   "property": "C46",
   "status": "proved",
   "theorems": [
    "C46_documents",
    "C46_not_linear"
   ],
   "note": ""
  },
  {
   "property": "C47",
   "status": "proved",
   "theorems": [
    "C47_fraction",
    "C47_bevelled",
    "C47_root",
    "C47_square_root",
    "C47_error",
    "C47_row",
    "C47_math",
    "C47_squeeze"
   ],
   "note": ""
  },
  {
   "property": "C48",
   "status": "proved",
   "theorems": [
    "C48_white",
    "C48_around",
    "C48_strip"
   ],
   "note": ""
  },
  {
   "property": "C49",
   "status": "proved",
   "theorems": [
    "C49_capitals",
    "C49_italic",
    "C49_italic_h_refuted",
    "C49_bold_greek_refuted"
   ],
   "note": "The _refuted theorems are the exceptions the property names."
  },
  {
   "property": "C50",
   "status": "proved",
   "theorems": [
    "C50_subscripts",
    "C50_superscripts",
    "C50_superscript_operators",
    "C50_circled",
    "C50_fractions"
   ],
   "note": ""
  },
  {
   "property": "C51",
   "status": "proved",
   "theorems": [
    "C51_greek",
    "C51_greek_operators",
    "C51_accents",
    "C51_accents_refuted"
   ],
   "note": "C51_accents_refuted: the exceptions the property names."
  },
  {
   "property": "C52",
   "status": "proved",
   "theorems": [
    "C52_mi",
    "C52_mo"
   ],
   "note": ""
  },
  {
   "property": "C53",
   "status": "proved",
   "theorems": [
    "C53_marks",
    "C53_converted",
    "C53_text",
    "C53_clean",
    "C53_clean_tidy",
    "C53_documents",
    "C53_bare_refuted",
    "C53_quote_refuted"
   ],
   "note": "Counting of TeX tokens; bare marks and the quotation mark are refuted as witnesses."
  },
  {
   "property": "C54",
   "status": "proved",
   "theorems": [
    "C54_ampersands",
    "C54_breaks",
    "C54_documents",
    "C54_grid"
   ],
   "note": "Counting of & and double backslash."
  },
  {
   "property": "C55",
   "status": "proved",
   "theorems": [
    "C55_making",
    "C55_late",
    "C55_early",
    "C55_interleaving",
    "C55_overlap_refuted"
   ],
   "note": "C55_overlap_refuted is the exception the property names."
  },
  {
   "property": "C56",
   "status": "proved",
   "theorems": [
    "C56_operators",
    "C56_identifiers",
    "C56_wrong_refuted",
    "C56_near",
    "C56_copied",
    "C56_meaning_refuted"
   ],
   "note": "The _refuted theorems are the exceptions the property names."
  },
  {
   "property": "C57",
   "status": "proved",
   "theorems": [
    "C57_text",
    "C57_same",
    "C57_print",
    "C57_parser"
   ],
   "note": "C57_parser: the concrete parser meets the assumption."
  },
  {
   "property": "C58",
   "status": "proved",
   "theorems": [
    "C58_parser",
    "C58_dropped",
    "C58_one",
    "C58_refuted",
    "C58_quoted_refuted"
   ],
   "note": "C58_parser: the concrete parser meets the assumption. The _refuted theorems are the exceptions the property names."
  },
  {
   "property": "C59",
   "status": "proved",
   "theorems": [
    "C59_alike"
   ],
   "note": "Statement over document texts (grammar SpecXml.v) and the relation alike on documents; for every parser that reads what is written."
  },
  {
   "property": "C60",
   "status": "proved",
   "theorems": [
    "C60_reads",
    "C60_document",
    "C60_text",
    "C60_several",
    "C60_ordinary",
    "C60_different",
    "C60_number",
    "C60_double_script_refuted",
    "C60_nested_root_refuted",
    "C60_bare_table_refuted",
    "C60_brace_fence_refuted",
    "C60_overline_refuted",
    "C60_prescripts_refuted",
    "C60_several_refuted"
   ],
   "note": "Statement with a reader of TeX formulas (tex_reads) and the formula of a tree (formula_of); token elements stand for what TeX reads in their LaTeX. The _refuted theorems are the exceptions the property names."
  },
  {
   "property": "C61",
   "status": "proved",
   "theorems": [
    "C61_commands",
    "C61_harmless",
    "C61_exact",
    "C61_one_formula",
    "C61_defined",
    "C61_used",
    "C61_input_refuted",
    "C61_backslash_refuted",
    "C61_undefined_refuted"
   ],
   "note": "Commands as TeX tokens (SpecTeX); vocabulary, dangerous commands, commands unknown to LaTeX and the exceptional characters are lists written out in SpecCommands.v. The _refuted theorems are the exceptions the property names."
  },
  {
   "property": "C62",
   "status": "proved",
   "theorems": [
    "C62_characters",
    "C62_regular",
    "C62_documents",
    "C62_ascii",
    "C62_backspace_refuted"
   ],
   "note": "The _refuted theorem is the exception the property names."
  },
  {
   "property": "C63",
   "status": "proved",
   "theorems": [
    "C63_texts",
    "C63_documents",
    "C63_needed",
    "C63_leaves",
    "C63_annotations",
    "C63_alternatives_refuted",
    "C63_lost_refuted"
   ],
   "note": "Trees and documents; the four kinds of text that matter are shown to matter; lost and duplicated content as _refuted witnesses."
  },
  {
   "property": "C64",
   "status": "proved",
   "theorems": [
    "C64_foreign",
    "C64_names",
    "C64_documents",
    "C64_prefixed"
   ],
   "note": "Trees and documents; foreign names by a check of all known tag names."
  },
  {
   "property": "C65",
   "status": "proved",
   "theorems": [
    "C65_renaming",
    "C65_documents"
   ],
   "note": "Trees and documents: the output as a text with places, the same for every renaming."
  },
  {
   "property": "C66",
   "status": "proved",
   "theorems": [
    "C66_skipped",
    "C66_rejected",
    "C66_rejected_attributes"
   ],
   "note": "The concrete parser meets the assumptions: C57_parser, C67_parser."
  },
  {
   "property": "C67",
   "status": "proved",
   "theorems": [
    "C67_exact",
    "C67_rejected",
    "C67_truncated_exact",
    "C67_truncated",
    "C67_no_markup",
    "C67_parser",
    "C67_refuted"
   ],
   "note": "C67_parser: the concrete parser meets the assumptions. C67_refuted: the stray < that is converted silently."
  },
  {
   "property": "C68",
   "status": "proved",
   "theorems": [
    "C68_littered",
    "C68_parser",
    "C68_refuted"
   ],
   "note": "C68_parser: the concrete parser meets the assumption. C68_refuted: no space, five pieces."
  },
  {
   "property": "C69",
   "status": "proved",
   "theorems": [
    "C69_function_of_tree",
    "C69_repeatable",
    "C69_only_inner_table_flags",
    "C69_interleaving",
    "C69_distinct_objects",
    "C69_mixed_refuted"
   ],
   "note": "C69_distinct_objects: the hypotheses of C03 - C06 are a special case. C69_mixed_refuted is the exception the property names."
  },
  {
   "property": "C70",
   "status": "proved",
   "theorems": [
    "C70_identifier_characters",
    "C70_operator_characters",
    "C70_number_characters",
    "C70_identifiers",
    "C70_operators",
    "C70_numbers",
    "C70_refuted"
   ],
   "note": "C70_refuted: the exceptions the property names. The ranges of SpecOther.v were read off syntax.py."
  },
  {
   "property": "C71",
   "status": "proved",
   "theorems": [
    "C71_alone",
    "C71_threads",
    "C71_finishes",
    "C71_calls",
    "C71_objects",
    "C71_shared_adapter_refuted"
   ],
   "note": "Threads are programs of atomic accesses to dictionaries and adapter texts (ModelSteps.v), tied to the model without steps by C71_alone. C71_shared_adapter_refuted is the exception the property names."
  },
  {
   "property": "C72",
   "status": "proved",
   "theorems": [
    "C72_once",
    "C72_steps",
    "C72_kinds",
    "C72_linear",
    "C72_depth",
    "C72_reading",
    "C72_call",
    "C72_turns",
    "C72_size_alone_refuted"
   ],
   "note": "Steps are those of ModelSteps.v: accesses to mutable objects and the calls marked there; string operations and regular expressions within a step are not counted. C72_size_alone_refuted is the exception the property names."
  },
  {
   "property": "C73",
   "status": "proved",
   "theorems": [
    "C73_direction",
    "C73_direction_refuted",
    "C73_opposites",
    "C73_opposites_refuted",
    "C73_struck",
    "C73_struck_refuted",
    "C73_vanishing",
    "C73_no_trace"
   ],
   "note": "The _refuted theorems are the exceptions the property names."
  },
  {
   "property": "C74",
   "status": "proved",
   "theorems": [
    "C74_same",
    "C74_clean_up",
    "C74_cubic",
    "C74_missing_value",
    "C74_accepted",
    "C74_slow",
    "C74_open_comment",
    "C74_quadratic_refuted"
   ],
   "note": "Comparisons are those of a backtracking matcher (ModelCount.v), tied to the model by C74_same; those of the token patterns and the work of the parser are not counted. C74_quadratic_refuted: the bound that does not hold."
  },
  {
   "property": "C75",
   "status": "proved",
   "theorems": [
    "C75_built",
    "C75_built_refuted",
    "C75_backspace_refuted",
    "C75_plainer"
   ],
   "note": "C75_built_refuted, C75_backspace_refuted: the exceptions the property names. The figures are from Unicode names; the names of C75_plainer were chosen to fit the entries of syntax.py."
  },
  {
   "property": "C76",
   "status": "proved",
   "theorems": [
    "C76_operator",
    "C76_operator_pair",
    "C76_operator_refuted",
    "C76_operator_named",
    "C76_operator_copied",
    "C76_identifier",
    "C76_identifier_refuted",
    "C76_identifier_copied"
   ],
   "note": "C76_operator_refuted, C76_identifier_refuted: the exceptions the property names. The lists of SpecEscaped.v were read off syntax.py."
  },
  {
   "property": "C77",
   "status": "proved",
   "theorems": [
    "C77_operator",
    "C77_identifier",
    "C77_number",
    "C77_same",
    "C77_two_ways_refuted"
   ],
   "note": "The catalogues of SpecEach.v were generated from syntax.py: a complete record of what the library does, not an independent expectation. C77_two_ways_refuted: the characters for which mo and mi differ."
  },
  {
   "property": "C78",
   "status": "proved",
   "theorems": [
    "C78_same",
    "C78_document",
    "C78_expat",
    "C78_first_word_refuted"
   ],
   "note": "C78_first_word_refuted: the condition on the first word is needed. The XML parser is a parameter; C78_expat shows that ModelExpat.v meets what is asked of it."
  },
  {
   "property": "C79",
   "status": "proved",
   "theorems": [
    "C79_source",
    "C79_any_memory"
   ],
   "note": "PySource.v is made from /repo by tools/make_source.py; PySem.v is the interpreter. The Python library (str, re, dict, minidom's DOM) is shared with the model and its reading trusted. Python's recursion limit is not modelled."
  },
  {
   "property": "C80",
   "status": "proved",
   "theorems": [
    "C80_no_surprise"
   ],
   "note": "Being stuck stands for the errors that the interpreter does not describe (TypeError, AttributeError, NameError); IndexError and KeyError are raised as values. 'Exception' stands for other exceptions of the XML parser. Python's recursion limit is not modelled."
  },
  {
   "property": "C81",
   "status": "proved",
   "theorems": [
    "C81_elements",
    "C81_made"
   ],
   "note": "object_of is the object that the constructor makes (C81_made); holds compares the first n dictionaries of memory and heap. Elements of other classes (VoidMathMLElement, subclasses by users) are not covered."
  },
  {
   "property": "C82",
   "status": "proved",
   "theorems": [
    "C82_threads",
    "C82_any_moment",
    "C82_memory",
    "C82_shared_adapter_refuted"
   ],
   "note": "A turn is one access to the memory of the interpreter (PySem.v); computations on values between two accesses take no turn. Lists and unchanged instances are values in PySem.v and so cannot be shared; in the source no list or such instance is shared by two calls of convert. C71 has the same for shared elements, in the step model."
  },
  {
   "property": "C83",
   "status": "proved",
   "theorems": [
    "C83_text",
    "C83_repaired",
    "C83_length",
    "C83_elements",
    "C83_needed"
   ],
   "note": "The bound is that of PySem.v: it counts every call, also of constructors, properties and built-ins, but not comprehensions (a frame of their own before Python 3.12) nor what minidom and expat call; so it is no statement on the number at which CPython raises RecursionError. The same bound limits the turns of while loops, which only the repair of texts uses; that is why the length of the text is in the bound there (C83_repaired). C83_length is for the parser of ModelExpat.v, of which a document is proved to be at most half as high as its text is long."
  },
  {
   "property": "C84",
   "status": "proved",
   "theorems": [
    "C84_adapter",
    "C84_new_adapter",
    "C84_reusable",
    "C84_recovery",
    "C84_only_deletes",
    "C84_nodes",
    "C84_accents",
    "C84_normalize",
    "C84_join",
    "C84_wrap"
   ],
   "note": "Over the Python source as a term (PySource.v) run by the interpreter PySem.v: C84_adapter, C84_reusable, C84_new_adapter, C84_recovery, C84_only_deletes, C84_nodes, C84_accents, C84_normalize, C84_join, C84_wrap."
  },
  {
   "property": "C85",
   "status": "proved",
   "theorems": [
    "C85_read_or_rejected",
    "C85_document",
    "C85_text",
    "C85_print",
    "C85_formula",
    "C85_returned",
    "C85_raised",
    "C85_broken",
    "C85_littered",
    "C85_line_breaks",
    "C85_layout",
    "C85_prefixes",
    "C85_alike",
    "C85_marks"
   ],
   "note": "Composition of C79 with C01, C06, C09-C18, C30, C33, C34, C46, C53, C54, C57, C60-C62, C63, C67 and C68, stated over PySource.v, PySem.v and the reference rendering, without functions of the model."
  },
  {
   "property": "C86",
   "status": "proved",
   "theorems": [
    "C86_before",
    "C86_after",
    "C86_parser",
    "C86_source",
    "C86_after_needed_refuted"
   ],
   "note": "C86_before, C86_after for every parser with reports_words; C86_parser shows that the modelled one has it; C86_source over the Python source; C86_after_needed_refuted: the condition on spaces is needed."
  },
  {
   "property": "C87",
   "status": "proved",
   "theorems": [
    "C87_programs",
    "C87_latex",
    "C87_total",
    "C87_writes",
    "C87_again",
    "C87_exactly",
    "C87_returned",
    "C87_raised",
    "C87_late",
    "C87_early"
   ],
   "note": "Composition of C81 with C07, C08, C11-C13, C40, C55 and C69, stated over PySource.v, PySem.v and the LaTeX of the tree; performed is deterministic, so the statements hold for every run of the program. C87_total needs no condition on sharing."
  }
 ]
}