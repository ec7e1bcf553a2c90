{"id": "C01", "title": "Argument discipline of parse/create_tree", "statement": "parse(text=t, file_path=f) and create_tree(...) raise TypeError exactly when both arguments are truthy or both are falsy (so text=\"\" counts as not given); the decision is made before the file is read and before the text is looked at, and no other combination raises that TypeError.", "quantifier": "all texts (including empty and None), all paths (including None), all file systems and all settings of add_line_numbers", "why_tests_cant": "The claim is about every combination of argument values and about what is not touched before the error.", "anchors": ["pycep/main.py::BicepParser.parse", "pycep/main.py::BicepParser.create_tree", "pycep/main.py::BicepParser._create_tree"]}
{"id": "C02", "title": "Unbalanced triple quotes are rejected before anything else", "statement": "For every source whose number of non-overlapping ''' occurrences is odd, parse and create_tree raise ValueError (message naming the file when one was given), whatever else the source contains; for every source where it is even this ValueError is never the outcome of the validation step and the source goes on to the parser unchanged.", "quantifier": "all source texts, both entry points, text and file input", "why_tests_cant": "Quantifies over all strings; the validator must agree with the counting of overlapping quotes such as '''''.", "anchors": ["pycep/validator.py::BicepValidator.is_valid", "pycep/validator.py::BicepValidator.multi_line_string_valid", "pycep/main.py::BicepParser._create_tree"]}
{"id": "C03", "title": "text= and file_path= are interchangeable", "statement": "For every file whose decoded content is t, parse(file_path=f) has the same outcome as parsing the string t: same JSON, same exception, except that the unbalanced-quote message names the file and that an empty file is accepted while text=\"\" is a TypeError. A read error is passed through unchanged.", "quantifier": "all file contents, all paths, both settings of add_line_numbers", "why_tests_cant": "Two code paths must agree on all inputs.", "anchors": ["pycep/main.py::BicepParser._create_tree"]}
{"id": "C04", "title": "Calls are independent of each other", "statement": "The outcome of the n-th parse or create_tree call on a BicepParser is a function of its own arguments and of add_line_numbers only: it is the outcome the same call would have on a fresh parser, whatever calls (successful or failing) came before.", "quantifier": "all histories of calls on one parser object", "why_tests_cant": "The transformer accumulates imports and child resources in instance attributes; absence of leakage must hold for all histories.", "anchors": ["pycep/main.py::BicepParser.parse", "pycep/transformer.py::BicepToJson.__init__"]}
{"id": "C05", "title": "Totality and closed set of outcomes", "statement": "For every text whose nesting does not exhaust the interpreter's recursion limit or memory, parse returns (it neither loops nor leaks an internal error) and its outcome is one of: a JSON object, TypeError/ValueError of the argument checks, the OSError or UnicodeDecodeError of reading the file, a lark UnexpectedToken/UnexpectedCharacters, or a lark VisitError wrapping TypeError, ValueError, KeyError, IndexError or AttributeError raised by a transformer callback.", "quantifier": "all source texts of any length, with an interpreter stack deep enough for their nesting", "why_tests_cant": "Termination and absence of other exceptions is a statement over infinitely many inputs.", "anchors": ["pycep/main.py::BicepParser.parse", "pycep/transformer.py::BicepToJson", "pycep/bicep.lark::start"]}
{"id": "C06", "title": "create_tree and parse accept the same syntax", "statement": "create_tree fails with a syntax error, argument error or validation error exactly when parse fails with that same error; otherwise create_tree returns a string, while parse either returns JSON or raises VisitError.", "quantifier": "all arguments", "why_tests_cant": "Relates two entry points on every input.", "anchors": ["pycep/main.py::BicepParser.parse", "pycep/main.py::BicepParser.create_tree"]}
{"id": "C07", "title": "The result follows the documented schema", "statement": "Whenever parse returns for a text that does not mention pycep's internal name __child_resource__, the result is an object whose keys are among globals, imports, extensions, metadata, parameters, variables, outputs, resources, modules, types and functions, each once and each mapping names to attribute objects; globals has exactly the entry scope; the attribute objects carry exactly the documented keys (decorators/type/default for parameters and so on; for modules, the components belonging to the kind of reference), plus __start_line__/__end_line__ iff line numbers were requested (except namespace imports).", "quantifier": "all source texts without the reserved name for which parse returns", "why_tests_cant": "Consumers index the result without checks; tests see only a few samples of the infinitely many accepted texts.", "anchors": ["pycep/transformer.py::BicepToJson.start", "pycep/transformer.py::BicepToJson.param", "pycep/transformer.py::BicepToJson.var", "pycep/transformer.py::BicepToJson.output", "pycep/transformer.py::BicepToJson.resource", "pycep/transformer.py::BicepToJson.module", "pycep/typing.py::BicepJson"]}
{"id": "C08", "title": "The result is plain JSON data", "statement": "Whenever parse returns, the result contains only None, booleans, integers, strings (str or BicepElement), lists and dicts with string keys without duplicates; no lark Token, Tree or tuple survives anywhere at any depth, so json.dumps always succeeds on it.", "quantifier": "all source texts for which parse returns", "why_tests_cant": "Nesting depth is unbounded and every combination of constructs must be covered.", "anchors": ["pycep/transformer.py::BicepToJson.array", "pycep/transformer.py::BicepToJson.pair", "pycep/transformer.py::BicepToJson.base_type", "pycep/transformer.py::BicepToJson.string"]}
{"id": "C09", "title": "Target scope", "statement": "globals.scope.value is resourceGroup when the file declares no targetScope, otherwise the value of the last targetScope declaration, which must be one of resourceGroup, subscription, managementGroup, tenant; any other value makes parse raise (VisitError around ValueError).", "quantifier": "all programs, any number of targetScope declarations", "why_tests_cant": "All positions, all string contents.", "anchors": ["pycep/transformer.py::BicepToJson.scope", "pycep/transformer.py::BicepToJson.start"]}
{"id": "C10", "title": "Every declaration is reported, nothing else is", "statement": "For every program the entries of the result are exactly: one per (kind, name) declared by a top-level element, import or lifted child resource. When a (kind, name) occurs several times the last one in the order elements, imports, child resources wins, and entries appear in order of first occurrence. Condition: the text does not mention pycep's internal name __child_resource__.", "quantifier": "all programs: any number of elements, names, duplicates", "why_tests_cant": "Unbounded programs, arbitrary duplicates and interleavings.", "anchors": ["pycep/transformer.py::BicepToJson.start"]}
{"id": "C11", "title": "Declaration order does not matter", "statement": "Permuting top-level declarations with pairwise distinct (kind, name) gives a result with the same entries (equal under dict equality). Condition: neither text mentions pycep's internal name __child_resource__; with line numbers, also no nested child resource stands where pycep turns a value into text.", "quantifier": "all programs without duplicate declarations and all permutations of them", "why_tests_cant": "All permutations of arbitrarily many elements.", "anchors": ["pycep/transformer.py::BicepToJson.start"]}
{"id": "C12", "title": "Nested child resources are lifted at any depth", "statement": "For a resource whose body nests one child resource in the other to any depth d, the result has d additional resources named parent__child (accumulated), with type parent/child (accumulated), the parent's api_version, the direct parent's reported name appended to depends_on of the child's config, no __child_resource__ entry left in any config of the chain, and everything else of the bodies unchanged.", "quantifier": "all chains of nested child resources of any depth, all names, types and bodies", "why_tests_cant": "Unbounded nesting depth.", "anchors": ["pycep/transformer.py::BicepToJson.process_child_resource", "pycep/transformer.py::BicepToJson.child_resource", "pycep/transformer.py::BicepToJson.resource"]}
{"id": "C13", "title": "What child lifting does not do", "statement": "Of several sibling child resources in one body only the last is reported (the others are silently lost); children inside a loop or conditional body, a module or a nested object are not lifted and stay under the key __child_resource__; a lifted resource named a__b replaces a top-level resource a__b.", "quantifier": "all bodies with two or more sibling children; witnesses for the negative claims", "why_tests_cant": "Negative facts about all inputs of a form; the expected property (no resource is lost) is refuted.", "anchors": ["pycep/transformer.py::BicepToJson.object", "pycep/transformer.py::BicepToJson.process_child_resource"]}
{"id": "C14", "title": "Line numbers are purely additive", "statement": "For every text that does not mention pycep's internal name __child_resource__ and in which no nested child resource stands where pycep turns a value into text, parse with add_line_numbers=True and False agree: both raise the same exception or both return, and erasing the two line keys that the option adds to the attribute objects gives the result without the option.", "quantifier": "all source texts without the reserved name and without a child resource inside a value turned into text", "why_tests_cant": "Relates two configurations on every input.", "anchors": ["pycep/transformer.py::BicepToJson.__init__", "pycep/transformer.py::BicepToJson.start", "pycep/transformer.py::BicepToJson.child_resource"]}
{"id": "C15", "title": "Line numbers are the real ones", "statement": "With add_line_numbers=True, for every reported top-level element 1 <= __start_line__ <= __end_line__ <= number of lines, __start_line__ is the line of the first token of the element (its first decorator if any) and __end_line__ the line where its last token ends; successive elements have non-decreasing lines. The default scope reports 0/0. The last line reported for a nested child resource is the line of its last token only if exactly one line break follows it. Condition: the text does not mention pycep's internal name __child_resource__.", "quantifier": "all source texts without the reserved name for which parse returns", "why_tests_cant": "Unbounded texts, comments, blank lines, multi-line tokens.", "anchors": ["pycep/transformer.py::BicepToJson.param", "pycep/transformer.py::BicepToJson.resource", "pycep/transformer.py::BicepToJson.start", "pycep/main.py::BicepParser.__init__"]}
{"id": "C16", "title": "Data types are reported faithfully", "statement": "The reported type of a parameter, output, variable or function argument determines the declared type: names map to themselves, each [] suffix to one {type: array, item_type: ...} layer, unions to {type: union, members: [...]} in order, at any nesting; distinct type expressions give distinct reported types.", "quantifier": "all type expressions of any nesting depth", "why_tests_cant": "Unbounded recursive structure.", "anchors": ["pycep/transformer.py::BicepToJson.data_type", "pycep/transformer.py::BicepToJson.base_type", "pycep/transformer.py::BicepToJson.union_type", "pycep/transformer.py::BicepToJson.array_suffix"]}
{"id": "C17", "title": "Nullability markers and parentheses leave no trace", "statement": "Adding or removing the ? after a data type or an object entry, a ! after a value, a ? in .? and [? accessors, or one pair of parentheses around an operand, anywhere in a program, never changes the result of parse (without line numbers) nor the text of create_tree. (Two pairs of parentheses around one operand are a syntax error.)", "quantifier": "all pairs of programs of the language, of any size, that agree once these marks are removed, and all texts that write them", "why_tests_cant": "All positions in all programs; documents information the output does not carry.", "anchors": ["pycep/bicep.lark::value_brackets", "pycep/bicep.lark::pair", "pycep/bicep.lark::property_accessor", "pycep/bicep.lark::index_accessor"]}
{"id": "C18", "title": "Resource type and api version", "statement": "A resource type string is accepted iff it contains exactly one @; then type and api_version are exactly the parts before and after it; otherwise parse raises VisitError around ValueError.", "quantifier": "all type strings", "why_tests_cant": "All strings.", "anchors": ["pycep/transformer.py::BicepToJson.type_api_pair"]}
{"id": "C19", "title": "Module reference classification", "statement": "The kind of a module reference is determined by its prefix alone: br: registry, br/ registry alias, ts: template spec, ts/ template spec alias, anything else local. Local references never fail and are reported verbatim. For the others parse either raises VisitError(ValueError) or reports components that, joined with the separators, are a prefix of the reference, with full being the reference without its first three characters; well-formed references are reported component by component.", "quantifier": "all reference strings", "why_tests_cant": "All strings; regex backtracking over greedy classes that contain the separators.", "anchors": ["pycep/transformer.py::BicepToJson.module_path"]}
{"id": "C20", "title": "Decorators", "statement": "An element's decorators are reported in source order, one entry per decorator, sys. being ignored for the eleven known names; unknown decorators keep their full name and first argument.", "quantifier": "all decorator lists of any length", "why_tests_cant": "Unbounded lists and arbitrary arguments.", "anchors": ["pycep/transformer.py::BicepToJson.decorator", "pycep/transformer.py::BicepToJson.decorators", "pycep/rules/decorators.py::DECORATORS", "pycep/rules/decorators.py::unknown_deco"]}
{"id": "C21", "title": "Numeric bounds in decorators", "statement": "@minValue(n) and @minValue(-n) report the integers n and -n for every n, @maxValue(n) reports n; @maxValue(-n) raises VisitError around TypeError for every n (asymmetry).", "quantifier": "all integers (up to the interpreter's 4300 digit limit)", "why_tests_cant": "All integers.", "anchors": ["pycep/rules/decorators.py::deco_min_val", "pycep/rules/decorators.py::deco_max_val"]}
{"id": "C22", "title": "Function namespaces", "statement": "For every built-in function the namespaced name (sys.f, or az.f for the az group) is reported exactly like f for all arguments; a namespace that does not own the function is an unknown function reported under the full name.", "quantifier": "all built-in names and all argument lists", "why_tests_cant": "All argument lists of every table entry.", "anchors": ["pycep/rules/functions.py::FUNCTIONS", "pycep/transformer.py::BicepToJson.function"]}
{"id": "C23", "title": "Variadic and unknown functions keep every argument", "statement": "concat, max, min, union, intersection, format, guid, uniqueString, resourceId (5 or more) and every unknown function report each argument exactly once, in order, under distinct keys, for any number of arguments, so the argument list can be recovered from the report.", "quantifier": "all argument lists of any length", "why_tests_cant": "Unbounded arity; key numbering must not collide.", "anchors": ["pycep/rules/functions.py::concat", "pycep/rules/functions.py::union", "pycep/rules/functions.py::format_func", "pycep/rules/functions.py::guid", "pycep/rules/functions.py::resource_id", "pycep/rules/functions.py::unknown_func"]}
{"id": "C24", "title": "Fixed-arity functions: parameters and arity", "statement": "Each known function reports its arguments under the documented parameter names by position, optional ones as None when missing; the number of arguments accepted is exactly as tabulated; functions indexing args[0] ignore surplus arguments silently; a call with a number of arguments outside the table makes parse raise VisitError (ValueError or IndexError).", "quantifier": "all known functions, all argument lists", "why_tests_cant": "All arities and values for ~70 functions.", "anchors": ["pycep/rules/functions.py::FUNCTIONS"]}
{"id": "C25", "title": "resourceGroup argument order", "statement": "resourceGroup(s, n) reports subscription_id = s and resource_group_name = n for all truthy s and n; with one argument it is the resource group name; when one of two arguments is falsy the two are reported the other way round.", "quantifier": "all argument values", "why_tests_cant": "Truthiness-dependent behaviour over all values.", "anchors": ["pycep/rules/functions.py::resource_group"]}
{"id": "C26", "title": "Operator nesting", "statement": "A chain v0 op1 v1 op2 ... opn vn of binary operators over simple operands is reported as the right-nested tree v0 op1 (v1 op2 (...)), whatever the operators and the length: neither precedence nor left associativity is applied. Explicitly parenthesised operands are kept together.", "quantifier": "all chains of any length over all binary operators", "why_tests_cant": "Unbounded chains; LALR conflict resolution decides.", "anchors": ["pycep/bicep.lark::operator", "pycep/transformer.py::BicepToJson.operator"]}
{"id": "C27", "title": "Strings versus references", "statement": "A quoted string is reported as a plain str equal to the source characters between the quotes (escapes and interpolations untouched), an identifier as a BicepElement with the identifier's characters; the two are always distinguishable by type and the report determines the token.", "quantifier": "all string and identifier tokens", "why_tests_cant": "All strings.", "anchors": ["pycep/utils.py::transform_string_token", "pycep/transformer.py::BicepToJson.string"]}
{"id": "C28", "title": "Integers are exact", "statement": "An integer literal of at most 4300 digits is reported as the integer it denotes in decimal, of any magnitude; longer ones raise VisitError around ValueError.", "quantifier": "all digit strings", "why_tests_cant": "All magnitudes, leading zeros.", "anchors": ["pycep/transformer.py::BicepToJson.int_type"]}
{"id": "C29", "title": "Objects and arrays keep their structure", "statement": "An array is reported as the list of its items in order; an object as a dict whose keys are the source keys in order of first occurrence, each with the value of its last occurrence; quoted keys keep their quotes.", "quantifier": "all arrays and objects of any size and nesting", "why_tests_cant": "Unbounded size and nesting.", "anchors": ["pycep/transformer.py::BicepToJson.array", "pycep/transformer.py::BicepToJson.object", "pycep/transformer.py::BicepToJson.pair", "pycep/transformer.py::BicepToJson.key"]}
{"id": "C30", "title": "Multi-line strings are verbatim", "statement": "A '''...''' string is reported as the characters between the delimiters minus one leading newline (LF only) if present, with nothing interpreted.", "quantifier": "all contents", "why_tests_cant": "All strings.", "anchors": ["pycep/utils.py::sanitize_multi_line_string_token"]}
{"id": "C31", "title": "Imports", "statement": "An import statement reports one entry per imported symbol with the file path, and alias iff an alias is given; a namespace import reports the name with empty attributes (also with line numbers on); all wildcard imports share the name * so only the last survives.", "quantifier": "all import statements and programs", "why_tests_cant": "Unbounded numbers of symbols and statements.", "anchors": ["pycep/transformer.py::BicepToJson.custom_import", "pycep/transformer.py::BicepToJson.import_alias"]}
{"id": "C32", "title": "Loops and conditions", "statement": "A loop reports its variable(s), its source expression, its body and its condition: the argument of the if(...) when present, None when absent. Bodies under a deploy condition are reported with condition and config.", "quantifier": "all loops and conditions", "why_tests_cant": "All expressions in all positions.", "anchors": ["pycep/transformer.py::BicepToJson.loop", "pycep/transformer.py::BicepToJson.loop_array", "pycep/transformer.py::BicepToJson.loop_array_index", "pycep/transformer.py::BicepToJson.deploy_condition"]}
{"id": "C33", "title": "User-defined functions", "statement": "A func declaration always reports (its strict zip never raises on parsed input), with its parameters in order mapped to their types, later duplicates of a name overriding earlier ones, the return type and the body.", "quantifier": "all func declarations with any number of parameters", "why_tests_cant": "Unbounded parameter lists; the strict zip relies on a grammar invariant.", "anchors": ["pycep/transformer.py::BicepToJson.custom_func"]}
{"id": "C34", "title": "Accessors and lambdas", "statement": "Function accessors report the receiver, the function name and every truthy argument under its position; falsy arguments (0, '', false, null, {} and []) are silently dropped. Lambdas report variables var_1..var_n in order and the expression.", "quantifier": "all receivers and argument lists", "why_tests_cant": "Unbounded lists, truthiness of all values.", "anchors": ["pycep/transformer.py::BicepToJson.function_accessor", "pycep/transformer.py::BicepToJson.lambda_expression"]}
{"id": "C35", "title": "No character of the source is lost or invented", "statement": "When a text is accepted, it is the concatenation of the token texts of the syntax tree's derivation and of ignored pieces (blanks, tabs, /* */ and # comments), in order; the token sequence is a sentence of the grammar and the tree is its derivation.", "quantifier": "all accepted texts", "why_tests_cant": "Soundness of lexer and LALR automaton for all inputs.", "anchors": ["pycep/bicep.lark::start", "pycep/main.py::BicepParser._create_tree"]}
{"id": "C36", "title": "Layout does not matter", "statement": "Any two texts that write the same program with different blanks, tabs and # or /* */ comments between its tokens give the same result without line numbers, the same create_tree text, and with line numbers the same result up to the line numbers. (Inserting a blank or comment right behind a token may make it a different token: behind the name of a list function, behind a division sign.) The form with line numbers needs that no nested child resource stands where pycep turns a value into text.", "quantifier": "all programs of the language, of any size, and all pairs of texts that spell their tokens", "why_tests_cant": "All insertion points in all texts.", "anchors": ["pycep/bicep.lark::WS_INLINE", "pycep/bicep.lark::C_COMMENT", "pycep/bicep.lark::SH_COMMENT"]}
{"id": "C37", "title": "Canonical values round-trip", "statement": "For every value built from null, booleans, naturals, quoted strings without quotes, dollar signs and backslashes, identifiers other than null, true, false and for, arrays and objects with distinct keys, printing it canonically as a variable value and parsing the text reports exactly that value.", "quantifier": "all values of that form, any size and nesting depth", "why_tests_cant": "End-to-end completeness over infinitely many values.", "anchors": ["pycep/main.py::BicepParser.parse", "pycep/bicep.lark::value"]}
{"id": "C38", "title": "Deep structure is preserved by the transformer", "statement": "The transformer's report of a syntax tree is compositional: replacing a subtree by another with the same report leaves the whole report unchanged.", "quantifier": "all syntax trees and all subtrees", "why_tests_cant": "All contexts of any depth.", "anchors": ["pycep/transformer.py::BicepToJson"]}
{"id": "C39", "title": "Compositional meaning of whole programs", "statement": "However a well-formed program is written (blanks, comments, line breaks), parse returns the result obtained by recursion over its abstract syntax: every expression, decorator, type, reference, child resource and declaration contributes a report determined by its own parts only, or the first failing part raises its exception. (Without line numbers; resource bodies must not themselves write the key __child_resource__.)", "quantifier": "all well-formed programs of any size and all their spellings", "why_tests_cant": "Ranges over all programs; relates the text to the result across lexer, parser and transformer.", "anchors": ["pycep/main.py::BicepParser.parse", "pycep/bicep.lark", "pycep/transformer.py::BicepToJson"]}
{"id": "C40", "title": "A value means the same wherever it stands", "statement": "An expression of the language that begins on the line of what is in front of it is reported inside any number of nested arrays and objects exactly as it is reported on its own. This is a statement about expressions, not texts: the same text can be a value of a variable and a syntax error as the value of an object entry, or be silently read as two entries.", "quantifier": "all well-formed expressions of any size, all nestings of arrays and objects around them, all spellings", "why_tests_cant": "Expressions, nesting and spellings are unbounded, and the contextual lexer uses a different scanner in every parser state.", "anchors": ["pycep/transformer.py::BicepToJson.array", "pycep/transformer.py::BicepToJson.object", "pycep/transformer.py::BicepToJson.pair", "pycep/bicep.lark::pair", "pycep/bicep.lark::QUOTED_INTERPOLATION"]}
{"id": "C41", "title": "The outline create_tree prints", "statement": "However a well-formed program is written, create_tree succeeds and returns the outline of the program: one row per construct, in order of appearance, named after the construct and indented by two blanks per level, with the text of every identifier, literal and path, and the word None for every part left out; a construct whose only part is a text has it on the same row behind a tab. Blanks, comments, line breaks, parentheses, marks, separators and keywords do not appear.", "quantifier": "all well-formed programs of any size, all their spellings, given as text or file", "why_tests_cant": "Programs and spellings are unbounded; the repository only compares one outline.", "anchors": ["pycep/main.py::BicepParser.create_tree", "pycep/bicep.lark"]}
{"id": "C42", "title": "Every accepted text is a program and is reported as that program", "statement": "For every text that is accepted there is a program of the language whose tokens, with blanks and comments in between, are exactly the text; operands are grouped in it the way the language groups them (whatever follows an operand belongs to that operand). create_tree prints the outline of that program, and parse without line numbers returns its meaning, which is defined by recursion over the program. For the report, resource bodies must not use the name __child_resource__ as a key.", "quantifier": "all accepted texts of any size, given as text or file", "why_tests_cant": "It is about every text the parser accepts, including all texts nobody would write; tests only show that some intended texts are accepted and how.", "anchors": ["pycep/main.py::BicepParser.parse", "pycep/main.py::BicepParser.create_tree", "pycep/bicep.lark", "pycep/transformer.py::BicepToJson"]}
{"id": "C43", "title": "Brackets of accepted texts match", "statement": "In every accepted text the round, square and curly brackets outside of quotes and comments are closed in the right order, each by one of its kind; the bracket behind a function name counts.", "quantifier": "all accepted texts of any size", "why_tests_cant": "Nesting is unbounded and the claim is about all accepted texts; no finite set of rejected texts shows it.", "anchors": ["pycep/bicep.lark", "pycep/main.py::BicepParser.create_tree"]}
{"id": "C44", "title": "Reports have the types that pycep.typing publishes", "statement": "For every node of the tree of every accepted text, what its callback returns has the type the callback is annotated with; the report of a call or decorator moreover has the class registered for its name. The result of parse is a BicepJson (texts without the name __child_resource__). Types are those of typing.py except for 21 definitions and the annotations of array and pair, which are replaced by wider ones; each of these replacements is needed, as some accepted text has a report that does not fit the published type.", "quantifier": "all accepted texts of any size, all nodes, with and without line numbers", "why_tests_cant": "The types are only checked statically by the project, behind casts and ignore comments; no finite set of reports shows that a type fits all of them, nor which definitions have to change.", "anchors": ["pycep/typing.py", "pycep/transformer.py::BicepToJson", "pycep/rules/functions.py", "pycep/rules/decorators.py"]}
{"id": "C45", "title": "A text is a way to write one program only", "statement": "If two programs of the abstract syntax are both written by the same text, they are the same up to marks that leave no trace (question and exclamation marks, parentheses, braces around a single import, commas in front of the first argument) and layout. The program create_tree finds in an accepted text is the only one written by it in this sense.", "quantifier": "all texts, all well-formed programs of any size", "why_tests_cant": "Uniqueness speaks about all programs that might be written the same way; tests only compare one reading with one expectation.", "anchors": ["pycep/bicep.lark", "pycep/main.py::BicepParser.create_tree"]}
{"id": "C46", "title": "Syntax errors point at the first thing that cannot be read", "statement": "A syntax error holds a place (offset, line, column). For an unexpected token there is a token at this place, and it is the token of the exception (type and text); at the end of the text it is the last token, and only blanks and comments follow it. For unexpected characters, the character at the place begins no token. The text in front of the place (up to and including the last token, at the end of the text) consists of tokens that begin a sentence of the grammar, so nothing in it had to be reported. Lines count line feeds from 1, columns count characters since the last line feed from 1. parse and create_tree fail with the same kind of error at the same place. A text that starts with a character beyond ASCII is rejected at offset 0, line 1, column 1.", "quantifier": "all texts of any size", "why_tests_cant": "Positions depend on the whole text in front, of any length; that a sentence begins with it is an existential statement about all continuations.", "anchors": ["pycep/bicep.lark", "pycep/main.py::BicepParser.create_tree", "pycep/main.py::BicepParser.parse"]}
{"id": "C47", "title": "Files are UTF-8 text with line ends of any kind", "statement": "Where the locale's encoding is UTF-8, parse(file_path=p) on a file whose bytes are the UTF-8 form of a text gives what parse(text=t) gives for that text with every CR LF and every lone CR replaced by LF; create_tree likewise. So a file with the line ends of DOS is the same source as one with line feeds, whereas text= keeps carriage returns (inside ''' texts the results differ). Bytes that are not UTF-8 raise UnicodeDecodeError with the position behind the longest decodable text in front, and nothing but OSError and UnicodeDecodeError comes from reading. A file with a byte order mark in front is rejected with UnexpectedCharacters at line 1, column 1.", "quantifier": "all byte sequences a file can hold, all texts, all parsers", "why_tests_cant": "Byte sequences of any length, well-formed or not, at every place of the file.", "anchors": ["pycep/main.py::BicepParser._create_tree", "pycep/main.py::BicepParser.parse"]}
{"id": "C48", "title": "The grammar in force is the one in bicep.lark", "statement": "Reading the text of pycep/bicep.lark (with the definitions it imports from Lark's common.lark) the way Lark reads a grammar gives the rules, priorities, aliases and ignored terminals all other theorems speak about. Each terminal has the priority, pattern text and maximal width the file gives it; the scanner tries exactly the terminals of the file, ordered by priority, width and length of the text; and at every place of every text, in every state, scanning finds the same terminal with the same length as the pattern texts do when they are parsed as regular expressions and tried in order, with re's rule for iterations that match nothing. A text create_tree accepts is blanks and lexemes whose kinds are a sentence of the rules in the file.", "quantifier": "all texts, all sets of accepted terminals, all Unicode tables", "why_tests_cant": "Tests try texts; that two scanners agree on all texts and that the rules are those of the file is a statement about the whole grammar.", "anchors": ["pycep/bicep.lark", "pycep/main.py::BicepParser.__init__"]}
{"id": "C49", "title": "The model's functions, decorators and callbacks are what the text of pycep/*.py computes", "statement": "The text of models.py, utils.py, validator.py, rules/decorators.py, rules/functions.py, transformer.py and main.py, parsed by a parser for Python and run by an evaluator with mutable objects, computes what the model says. The dicts FUNCTIONS and DECORATORS of the text have exactly the names of the model's, each bound to a function which, called with a name and a list of arguments, returns a value that stands for the result of the model's function, or raises its exception; likewise the functions for unknown names. The method of BicepToJson that Lark calls for a tree returns, for the values of the children, a value that stands for the result of the model's callback, or raises its exception wrapped in VisitError, for every label except start, custom_import and resource (the three whose callback uses the state of the transformer). No object that existed before the call is changed, and objects of the result that existed before are objects of the arguments. BicepToJson(add_line_numbers=b) makes a new object with empty lists imports and child_resources. resource, given a name, a type with its API version and a config whose nested child resources are elements with name, type and config, returns the model's result and appends to child_resources what the model appends, changing no object except that list and the arguments, or raises the model's exception. custom_import, given a file or namespace token behind any number of dicts with a name, returns None and appends to imports what the model appends, changing no object except that list, or raises the model's exception.", "quantifier": "all arguments, all heaps, all Unicode tables, with and without line numbers", "why_tests_cant": "Tests compare results on examples; that code and model agree on all arguments, including wrong numbers and kinds of them, is a statement about the text of the program.", "anchors": ["pycep/transformer.py::BicepToJson", "pycep/rules/functions.py::FUNCTIONS", "pycep/rules/decorators.py::DECORATORS", "pycep/utils.py", "pycep/models.py"]}
