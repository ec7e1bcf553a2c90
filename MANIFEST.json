{
 "claims": [
  {
   "property": "C01",
   "status": "proved",
   "theorems": [
    "C01_both_given",
    "C01_none_given",
    "C01_one_given"
   ],
   "note": "Argument discipline of the two entry points, for every file system and both text and path arguments."
  },
  {
   "property": "C02",
   "status": "proved",
   "theorems": [
    "C02_odd_rejected",
    "C02_even_goes_on",
    "C02_count_defined"
   ],
   "note": "Odd number of non-overlapping ''' is rejected with the given message before any parsing; even goes on."
  },
  {
   "property": "C03",
   "status": "proved",
   "theorems": [
    "C03_file_like_text",
    "C03_invalid_file",
    "C03_empty_file",
    "C03_read_error"
   ],
   "note": "A file and the text it holds give the same outcome (any other outcome is a read error or the file-specific message)."
  },
  {
   "property": "C04",
   "status": "proved",
   "theorems": [
    "C04_parse_independent",
    "C04_create_tree_independent"
   ],
   "note": "Sessions of any length over any number of parser objects: each call answers as if it were alone."
  },
  {
   "property": "C05",
   "status": "proved",
   "theorems": [
    "C05_outcomes",
    "C05_closed",
    "C05_failing_rules"
   ],
   "note": "Every call ends in a value or one of the listed errors; the rules that can fail, and how, are tabulated. The model has no recursion limit: a RecursionError of the real interpreter on very deep nesting is outside it."
  },
  {
   "property": "C06",
   "status": "proved",
   "theorems": [
    "C06_tree_error_is_parse_error",
    "C06_tree_then_parse",
    "C06_same_errors"
   ],
   "note": "create_tree and parse agree on syntax errors; a transformer failure never affects create_tree."
  },
  {
   "property": "C07",
   "status": "proved",
   "theorems": [
    "C07_schema",
    "C07_schema_any_text",
    "C07_any_text_strict_refuted"
   ],
   "note": "document_ok (Spec/Schema.v) for every accepted text that does not contain the reserved key __child_resource__; any text with resources' attributes unconstrained; the unrestricted strict form is refuted by a witness. The property was first stated without these conditions; see DESIGN.md, Narrowed statements."
  },
  {
   "property": "C08",
   "status": "proved",
   "theorems": [
    "C08_plain_json"
   ],
   "note": "json (Spec/Json.v) of every result, no side condition."
  },
  {
   "property": "C09",
   "status": "proved",
   "theorems": [
    "C09_default",
    "C09_last_wins",
    "C09_invalid",
    "C09_valid"
   ],
   "note": "Default, last declaration wins, and any invalid value raises; any number and position of targetScope declarations. A valid scope never makes a call fail (C09_valid, added after a mutant that rejects tenant left the other C09 theorems true)."
  },
  {
   "property": "C10",
   "status": "proved",
   "theorems": [
    "C10_document",
    "C10_last_wins",
    "C10_exactly_declared",
    "C10_nothing_lost",
    "C10_order",
    "C10_first_failure",
    "C10_exactly_declared_refuted"
   ],
   "note": "The result is the document of the entries given by the declarative relation declares; last-wins lookup, order of first mention, exact set of keys, first failure. Side condition: the text does not contain the reserved key __child_resource__ (statement narrowed accordingly)."
  },
  {
   "property": "C11",
   "status": "proved",
   "theorems": [
    "C11_order",
    "C11_order_numbered",
    "C11_failure",
    "C11_order_refuted"
   ],
   "note": "Texts whose syntax trees are the same declarations in another order (positions aside, no duplicate (kind, name), no reserved key) give the same document up to dict order; with line numbers the same after erasing them; failures fail in every order. Side condition: the text does not contain the reserved key __child_resource__ (statement narrowed accordingly)."
  },
  {
   "property": "C12",
   "status": "proved",
   "theorems": [
    "C12_resource",
    "C12_chain",
    "C12_no_trace"
   ],
   "note": "Chains of any depth: names, types, api version, depends_on, no trace of the reserved key; contents of configs by plain_entries."
  },
  {
   "property": "C13",
   "status": "proved",
   "theorems": [
    "C13_only_last_sibling",
    "C13_all_siblings_refuted",
    "C13_loops_and_conditions",
    "C13_child_stays",
    "C13_lifted_wins"
   ],
   "note": "Only the last sibling counts (equality of reports with and without the others), loops/conditions/modules/nested objects are not lifted, a lifted name wins; the expected property is refuted."
  },
  {
   "property": "C14",
   "status": "proved",
   "theorems": [
    "C14_line_numbers_additive",
    "C14_no_source",
    "C14_any_text_refuted",
    "C14_reserved_key_refuted"
   ],
   "note": "Same error or same document after erasing the line keys, for every text without the reserved key in which no child resource sits where pycep turns a value into text; the unrestricted statement is false and refuted by two witnesses; calls without a source fail alike. The property was first stated without these conditions; see DESIGN.md, Narrowed statements."
  },
  {
   "property": "C15",
   "status": "proved",
   "theorems": [
    "C15_lines",
    "C15_bounds",
    "C15_ordered",
    "C15_child_end",
    "C15_child_end_real_refuted",
    "C15_lines_refuted"
   ],
   "note": "Every reported entry of any accepted text: the lines are those of a piece of the text that spells the declaration; bounds and order; the default scope has 0/0; for child resources the exact last line reported, and a witness that it need not be the line the child ends on. Side condition: the text does not contain the reserved key. The property was first stated without these conditions; see DESIGN.md, Narrowed statements."
  },
  {
   "property": "C16",
   "status": "proved",
   "theorems": [
    "C16_reported",
    "C16_faithful",
    "C16_determined"
   ],
   "note": "Spelling relation for types, its report, and that the report determines the type up to the listed spellings; any type part of any accepted text."
  },
  {
   "property": "C17",
   "status": "proved",
   "theorems": [
    "C17_no_trace",
    "C17_same_tree",
    "C17_two_pairs_refuted"
   ],
   "note": "Programs as abstract syntax (Spec/Syntax.v: every construct of the grammar), written in any spelling (Spec/Spelling.v); equality after Spec/Plain.v removes the marks. Rests on completeness of the LALR tables and lexer for well-formed programs. Double parentheses refuted."
  },
  {
   "property": "C18",
   "status": "proved",
   "theorems": [
    "C18_type_and_version",
    "C18_rejected"
   ],
   "note": "Exact split at the at sign; any other number of at signs is the ValueError."
  },
  {
   "property": "C19",
   "status": "proved",
   "theorems": [
    "C19_references",
    "C19_unique",
    "C19_components",
    "C19_well_formed"
   ],
   "note": "Reference shapes given by an independent segment matcher; prefix match, uniqueness, components; all others ValueError."
  },
  {
   "property": "C20",
   "status": "proved",
   "theorems": [
    "C20_known",
    "C20_unknown",
    "C20_in_order"
   ],
   "note": "Known decorators by table, unknown ones by name with their argument, order preserved."
  },
  {
   "property": "C21",
   "status": "proved",
   "theorems": [
    "C21_minus",
    "C21_bounds",
    "C21_literals",
    "C21_negative_literals"
   ],
   "note": "minValue/maxValue with any integer, positive or negative; the TypeError of maxValue(-n) for all n."
  },
  {
   "property": "C22",
   "status": "proved",
   "theorems": [
    "C22_calls",
    "C22_names",
    "C22_namespaces"
   ],
   "note": "Every call in any accepted text is reported by the table of Spec/Functions.v, keyed by name and namespace."
  },
  {
   "property": "C23",
   "status": "proved",
   "theorems": [
    "C23_which",
    "C23_variadic",
    "C23_unknown",
    "C23_resource_id",
    "C23_recoverable"
   ],
   "note": "Variadic and unknown functions keep all arguments, in order, under the listed names."
  },
  {
   "property": "C24",
   "status": "proved",
   "theorems": [
    "C24_table",
    "C24_arity",
    "C24_positions",
    "C24_exact_positions",
    "C24_surplus_ignored",
    "C24_parameters"
   ],
   "note": "Table of 67 signatures; positions, missing arguments, ignored surplus."
  },
  {
   "property": "C25",
   "status": "proved",
   "theorems": [
    "C25_resource_group"
   ],
   "note": "All argument patterns of resourceGroup."
  },
  {
   "property": "C26",
   "status": "proved",
   "theorems": [
    "C26_binary",
    "C26_unary",
    "C26_conditional",
    "C26_operators",
    "C26_chain",
    "C26_parentheses"
   ],
   "note": "Chains of any length over any operands (the last may itself end with an operand), from text to result (C26_chain); parenthesised chains are one operand; the callbacks of every operator separately."
  },
  {
   "property": "C27",
   "status": "proved",
   "theorems": [
    "C27_strings",
    "C27_one_token",
    "C27_report_determines_token"
   ],
   "note": "Every string or reference part of any accepted text; the report determines the token."
  },
  {
   "property": "C28",
   "status": "proved",
   "theorems": [
    "C28_integers",
    "C28_value_unique"
   ],
   "note": "Exact value for up to 4300 digits, the ValueError for more; any integer part of any accepted text."
  },
  {
   "property": "C29",
   "status": "proved",
   "theorems": [
    "C29_arrays",
    "C29_objects",
    "C29_keys_and_values",
    "C29_keys"
   ],
   "note": "Array reports are the reports of the parts, in order; objects: last value per key, key order by first mention, keys and values of any form."
  },
  {
   "property": "C30",
   "status": "proved",
   "theorems": [
    "C30_multi_line"
   ],
   "note": "Content verbatim, one leading line feed dropped."
  },
  {
   "property": "C31",
   "status": "proved",
   "theorems": [
    "C31_symbols",
    "C31_namespaces",
    "C31_statements",
    "C31_wildcards_kept_refuted"
   ],
   "note": "Any accepted text: each imported symbol is reported with its path and (iff given) alias by the last statement naming it; namespaces carry no attributes; keeping several wildcard imports is refuted by a witness."
  },
  {
   "property": "C32",
   "status": "proved",
   "theorems": [
    "C32_sources",
    "C32_shape",
    "C32_no_condition",
    "C32_if",
    "C32_other_condition",
    "C32_deploy_condition"
   ],
   "note": "Sources, conditions (with the if(...) rule and its KeyError), bodies and deploy conditions."
  },
  {
   "property": "C33",
   "status": "proved",
   "theorems": [
    "C33_functions",
    "C33_duplicate_parameters",
    "C33_shape",
    "C33_always_reported"
   ],
   "note": "Any func declaration of any accepted text reports; parameters in order, last type of a repeated name, return type and body are the reports of the parts."
  },
  {
   "property": "C34",
   "status": "proved",
   "theorems": [
    "C34_function_accessor",
    "C34_accessor_shape",
    "C34_lambda",
    "C34_lambda_names"
   ],
   "note": "Accessor and lambda parts in any accepted text; the dropped (falsy) arguments are characterised exactly."
  },
  {
   "property": "C35",
   "status": "proved",
   "theorems": [
    "C35_text",
    "C35_sentence",
    "C35_nodes"
   ],
   "note": "The text is gaps and declarations, declarations are tokens and blanks, tokens are lexemes of their terminals, their sequence a sentence of the EBNF grammar; the tree keeps every named token; every node stands for a piece of the text."
  },
  {
   "property": "C36",
   "status": "proved",
   "theorems": [
    "C36_layout",
    "C36_numbered",
    "C36_blank_refuted",
    "C36_comment_refuted"
   ],
   "note": "Same abstract syntax; any two spellings of a well-formed program. Insertions that change a token are refuted by witnesses."
  },
  {
   "property": "C37",
   "status": "proved",
   "theorems": [
    "C37_round_trip",
    "C37_injective",
    "C37_for_refuted",
    "C37_backslash_refuted"
   ],
   "note": "From text to result, with and without line numbers, for every plain value of any size; identifiers other than null, true, false, for; integers up to the interpreter's 4300-digit limit; and the report determines the value."
  },
  {
   "property": "C38",
   "status": "proved",
   "theorems": [
    "C38_compositional",
    "C38_parts_report",
    "C38_failing_part"
   ],
   "note": "Parts with equal reports can be exchanged under every context; failures of parts propagate."
  },
  {
   "property": "C39",
   "status": "proved",
   "theorems": [
    "C39_meaning"
   ],
   "note": "For every well-formed program (Spec/Syntax.v) and every way to write it (Spec/Spelling.v): parse returns meaning p (Spec/Meaning.v), values and exceptions alike. Resources must not use the reserved key __child_resource__ as an identifier key. Without line numbers; bodies of resources must not write the reserved key."
  },
  {
   "property": "C40",
   "status": "proved",
   "theorems": [
    "C40_same_report",
    "C40_accepted_text_refuted",
    "C40_same_text_refuted"
   ],
   "note": "Any depth of frames [..] and {k: ..}, one element or entry each, without line numbers; from C39. The same claim for texts is false: two witnesses (quoted text inside an interpolation in a conditional inside an object; a line break behind the question mark of a conditional). The first witness depends on the transcription of the recursive pattern (?R) of the regex module, which was not run."
  },
  {
   "property": "C41",
   "status": "proved",
   "theorems": [
    "C41_outline"
   ],
   "note": "Spec/Outline.v gives the outline by recursion over the abstract syntax and its text by rows; nothing there refers to Lark. Holds for every program_wf program and every spelling with an even number of triple quotes, without the reserved-name condition."
  },
  {
   "property": "C42",
   "status": "proved",
   "theorems": [
    "C42_accepted",
    "C42_reported"
   ],
   "note": "Converse of C39 and C41: from the accepted text to the program. The program is well-formed up to layout (program_shaped): where line breaks may stand is not part of the claim. Any text may stand between three quotes. For uniqueness see C45."
  },
  {
   "property": "C43",
   "status": "proved",
   "theorems": [
    "C43_brackets"
   ],
   "note": "The tokens are those of the program of C42."
  },
  {
   "property": "C44",
   "status": "proved",
   "theorems": [
    "C44_callbacks",
    "C44_result",
    "C44_result_any_text_refuted",
    "C44_corrections_needed",
    "C44_annotations_needed"
   ],
   "note": "The published table is data transcribed from typing.py (253 definitions). Keys that a comment in typing.py declares as numbered on are allowed under any number. The 21 replaced definitions are listed in Spec/Published.v; minimality is per definition, not per field."
  },
  {
   "property": "C45",
   "status": "proved",
   "theorems": [
    "C45_one_program",
    "C45_accepted"
   ],
   "note": "Programs are compared after plain_program (Spec/Plain.v), which C17 shows to leave no trace in reports. Other readings with the same tokens exist (1 - 2 - 3, C45_ex); Spec/Syntax.v counts only one of them as written by the tokens, and the theorem says that this choice is made everywhere."
  },
  {
   "property": "C46",
   "status": "proved",
   "theorems": [
    "C46_unexpected_token",
    "C46_unexpected_characters",
    "C46_same_place",
    "C46_first_character"
   ],
   "note": "Lark/Located.v runs the parser again with positions and columns (LineCounter, UnexpectedToken, UnexpectedCharacters) and is proved to fail exactly when the model does and with the same kind of error. Sentences are those of bicep.lark as a grammar (Spec/Sentences.v); the parser resolves its ambiguities, so a text that begins a sentence need not begin an accepted text. The set of expected tokens and the message are not modelled."
  },
  {
   "property": "C47",
   "status": "proved",
   "theorems": [
    "C47_file_bytes",
    "C47_source_is_file",
    "C47_not_utf8",
    "C47_read_errors",
    "C47_line_endings",
    "C47_byte_order_mark",
    "C47_same_bytes_refuted"
   ],
   "note": "Props/Files.v. Decoder and newline translation of Python in Py/Files.v against the definitions of UTF-8 and of line ends in Spec/Files.v. C47_same_bytes_refuted: the same characters given as text= and as a file differ (CR LF inside a multi-line text)."
  },
  {
   "property": "C48",
   "status": "proved",
   "theorems": [
    "C48_rules",
    "C48_terminals",
    "C48_order",
    "C48_patterns",
    "C48_sentence"
   ],
   "note": "Lark/BicepText.v holds the file verbatim; Lark/Loader.v reads grammars, Lark/RegexText.v reads regular expressions. The names of the two regexps inside rules are ours (Lark numbers them)."
  },
  {
   "property": "C49",
   "status": "proved",
   "theorems": [
    "C49_program",
    "C49_functions",
    "C49_decorators",
    "C49_unknown",
    "C49_callbacks",
    "C49_init",
    "C49_resource",
    "C49_custom_import"
   ],
   "note": "The callback of object is covered for children that are pairs, as the grammar makes them; resource and custom_import for children of the kinds the grammar makes. The evaluator says nothing (Stuck) about operations pycep does not use; the theorems show it never gets there. Not part of the statement: the method start, the traversal of whole trees and main.py, which are compared with the model on examples only (Tests/RunText.v)."
  }
 ]
}
