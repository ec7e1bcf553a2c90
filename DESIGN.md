# Formal model of gruebel/pycep in Rocq: design

Source of truth: `/repo` at the pinned commit. The model is a transcription of
`pycep/*.py`, `pycep/rules/*.py` and `pycep/bicep.lark`, plus a transcription of
the part of Lark 1.3 the parser uses (grammar compilation, LALR tables,
contextual lexer, tree builder, `Transformer`).  Nothing of pycep or Lark was run;
the expected results in the project's own tests were compared with the model by
reading them (`Tests/Conformance.v`).

Every theorem about `parse` and `create_tree` is about `bicep_parse` and
`bicep_create_tree` (`Pycep/Bicep.v`): argument checks, file oracle, quote check,
lexer, LR driver over the tables computed from `bicep.lark`, tree shaping and
transformer, all as one computable function from the arguments to the result.

## Layers

| layer | files (rocq/theories) | contents |
|---|---|---|
| Python runtime | `Py/Str.v`, `Py/Val.v`, `Py/Files.v` | `str` as list of code points, values, dict/list/int/str/repr, exceptions as values, `read_text` |
| pycep | `Pycep/*.v` | the package, function by function; `Session.v`: parser objects and call histories |
| Lark | `Lark/*.v` | regex matcher (backtracking, `(?R)`, possessive), EBNF to BNF, LALR(1) construction, contextual lexer, LR driver, tree shaping, `pretty` |
| Grammar | `Lark/BicepGrammar.v` | `bicep.lark`, line by line (`BicepText.v`: its text, from which C48 derives the rules again); `BicepTables.v`: its tables (621 states), computed inside Coq |
| Source text | `Python/*.v` | the text of `pycep/*.py` (`SourceText.v`), a lexer and parser for the part of Python it uses (`Syntax.v`), an evaluator over a heap of mutable objects (`Eval.v`), the program (`Program.v`); related to the model by C49 |
| Specifications | `Spec/*.v` | vocabulary of the theorems, independent of the model's helpers |
| Proofs | `Proofs/*.v` | lemmas |
| Theorems | `Props/*.v` | the theorems `Cnn_*`, an example beside each that meets its hypotheses, `Print Assumptions` at the end of each file |
| Tests | `Tests/*.v` | 125 texts with the expected result, by computation (`Conformance.v`); texts on which the source text is run and compared with the model (`RunText.v`); tests, not proofs |

The specification of the language proper has six parts, none of which mentions
Lark, tables or trees: `Spec/Spelling.v` (tokens, and which texts spell a sequence
of tokens), `Spec/Syntax.v` (programs as abstract syntax, their tokens, which of
them are well-formed), `Spec/Plain.v` (what is left of a program when marks and
layout are removed), `Spec/Meaning.v` (the report of a program by recursion), `Spec/Outline.v` (the
outline `create_tree` prints, by recursion) and `Spec/Reading.v` (what is known of
any accepted text: its tokens and how operands are grouped).

## How each property is modelled and proved

| property | method |
|---|---|
| C01, C03, C06 | case analysis on the arguments, a file system `path -> content or error` and the outcome of the front end |
| C02 | induction on the text against an inductive definition of non-overlapping occurrences |
| C04 | invariant of sessions: induction on call histories over any number of parser objects sharing one state |
| C05 | the front end runs with fuel; fuel never runs out (length of the text for the lexer, ranking of reductions for the LR driver, checked over all states); exceptions by induction on derivations |
| C07, C08 | LR soundness gives a derivation for every accepted text, hence a tree grammar (`Proofs/TreeGrammar.v`); typing of all callbacks by induction over it |
| C09-C11 | the transformer as a fold with state; entries given by the relation `declares`; lists, permutations |
| C12, C13 | `process_child_resource` against the relation `lifts`, induction on nesting; witnesses by `vm_compute` for what fails |
| C14 | simulation of the two runs, induction on trees |
| C15, C35 | invariants of the lexer's position and of position propagation: every node stands for a piece of the text |
| C16, C18-C25, C27-C34 | any part of the tree of any accepted text (`part_of`); algebra of the callbacks, inductions on lists and strings, the regexes of `module_path` through the generic matcher |
| C38 | induction on trees |
| C17, C36 | completeness: the tokens of a well-formed program have a derivation (`Proofs/Derive*.v`), the LR driver accepts every derivation (`Proofs/Complete.v`), the lexer splits every spelling into these tokens (`Proofs/Scan.v`, `Tokens.v`) |
| C39 | completeness as above, then induction over the abstract syntax (`Proofs/Meaning*.v`) |
| C26 | from C39: a flat chain of tokens is written by the right-nested expression |
| C40 | from C39, induction on the nesting; the form about texts is refuted by `vm_compute` |
| C41 | completeness as above, then induction over the abstract syntax: the printed tree is the outline of `Spec/Outline.v` |
| C42 | LR soundness gives a derivation, and in front of which token each reduction was made (`Proofs/Follow.v`); for each of the 344 productions a lemma turns the programs of its parts into one of the whole (`Proofs/Unparse*.v`); then as C39, C41 |
| C43 | from C42, induction over the abstract syntax |
| C44 | `typing.py` and the annotations of the transformer as data (`Pycep/PublishedTypes.v`); typing of all callbacks by induction over the tree grammar; the result from C07; misfits by a checker that accepts every value of a type |
| C45 | a function reads the plain program off the tree (`Proofs/Decode.v`); it is a left inverse of the tree of a program, and the tree is determined by the text |
| C46 | the parser again with positions and columns (`Lark/Located.v`), simulation with the first one; the stack of the LR driver begins a sentence: every item of a state is completed along the stack, symbols derive something, both checked over all states (`Proofs/Viable.v`) |
| C47 | `bytes.decode` and newline translation (`Py/Files.v`) against UTF-8 by arithmetic and line ends as a relation (`Spec/Files.v`); inversion of the decoder by induction on the length; first characters of tokens (`Proofs/FirstChar.v`) |
| C48 | the text of `bicep.lark` (`Lark/BicepText.v`) read by a transcription of Lark's grammar loader (`Lark/Loader.v`) and of `re`'s parser (`Lark/RegexText.v`); rules, order and texts by computation; agreement of the scanners by induction on the patterns, up to associativity and the one place where an iteration may match nothing (`Proofs/RegexText.v`) |
| C49 | a relation between values in a heap and values of the model, with the cells each owns (`Proofs/PyHeap.v`); symbolic execution of the text of each function (`Proofs/PyRun.v`, tactics), inductions for comprehensions and loops (`Proofs/PyLoops.v`), one lemma for each function, decorator and method (`Proofs/Py*.v`); for process_child_resource, which calls itself and moves parts of the config, induction on the depth of the config with a focus on the part in hand (`Proofs/PyChildren2.v`); `start`, the traversal and `main.py` are not covered |
| C37 | from the same induction, with a proof that the printed text spells the value's tokens and has no three quotes in a row |

No property of `properties.jsonl` was found to be inexpressible.  Where the
natural statement is false of the code, a theorem `..._refuted` gives a witness and
the main theorem carries the exact side condition.

## Narrowed statements

`properties.jsonl` was written before the proofs.  These statements were weakened
afterwards, to what holds of the code or to what is proved; git history has the
original wording.  "proved" in `MANIFEST.json` refers to the present wording.

| property | first stated for | now | the first form |
|---|---|---|---|
| C05 | every text | texts within the recursion limit and memory of the interpreter | outside this model, which has no stack limit |
| C07 | every accepted text | texts without the name `__child_resource__` | false: `C07_any_text_strict_refuted` |
| C10, C11 | every program | as C07; C11 with line numbers as C14 | false: `C10_exactly_declared_refuted`, `C11_order_refuted` |
| C14 | every text | as C07, and no child resource inside a value turned into text | false: `C14_any_text_refuted`, `C14_reserved_key_refuted` |
| C15 | every accepted text | as C07; last lines of child resources only if one line break follows | last lines of child resources: false, `C15_child_end_real_refuted`; without the condition on the name: false, `C15_lines_refuted` |
| C36 | insertion of layout at a token boundary | two spellings of one program; with line numbers under the condition of C14 | insertion can change a token |
| C37 | all identifiers, any objects | not `null`, `true`, `false`, `for`; distinct keys | false for `for`: `C37_for_refuted` |
| C44 | the published types | the published types with 21 definitions and two annotations replaced (`Spec/Published.v`) | false for each of the replaced ones: `C44_corrections_needed`, `C44_annotations_needed` |

C17 was strengthened (from the construct to the whole result); C39 was added later
and holds for the result without line numbers.

## Trusted base

* Coq 8.16.1 kernel, including the virtual machine (`vm_compute`).
* `Print Assumptions` says "Closed under the global context" for every theorem
  (each file of `Props` ends with one such query for the tuple of its theorems).
  No axioms are added and none of the standard library's are used.  (A listing of
  all axioms in loaded libraries shows those of `Coq.ssr.ssrunder`; no theorem
  depends on them.)
* The reading of Python and Lark semantics written down in `Py/` and `Lark/`.  The
  grammar is checked against the verbatim text of `bicep.lark` (C48).  `pycep/*.py` is
  transcribed by hand; C49 proves most of the transcription against the verbatim text,
  and then what is trusted is `Python/Syntax.v` and `Python/Eval.v` instead.

## Simplifications and what is not modelled

* Files: an oracle `path -> content or error` in most theorems; in C47 it is
  `Path.read_text()` on an oracle `path -> bytes or error`, for a locale whose
  encoding is UTF-8 (`Py/Files.v`).
* `Python/Eval.v` covers what pycep uses, everything else is `Stuck` (no theorem is
  true of a run that gets stuck): keys of dicts are `str`; `for` and comprehensions
  go through the elements there are at the start; all modules share one name space
  (no name is defined twice, `C49_program`); a module-level constant is evaluated
  where it is used; annotations, `cast` and docstrings have no effect; sets are lists;
  names of a comprehension are not visible after it.
* The Lark grammar cache (`cache=True`): a memo of the compiled grammar.
* Unicode tables: word/digit/printable/space properties of code points >= 128
  are parameters (a record `pyenv`); theorems hold for every choice.
* Python's recursion limit and memory.
* Messages of syntax errors and their sets of expected tokens (kind, token and place
  are modelled; an exception of the model holds its kind only, `locate` gives the rest).
* `Spec/Spelling.v` asks for spellings that cannot be read differently; it is
  sufficient, not necessary (for instance quoted texts inside an interpolation are
  allowed only where a value is expected).  Texts outside it are covered by the
  theorems that start from an accepted text, and C42 gives their program.
* C42 says nothing about where line breaks may stand; C45 compares the program only
  with programs that are well-formed with their line breaks.  The lemmas in `Proofs/UnparseExprs.v`,
  `UnparseDecos.v` and `UnparseDecls.v` were written by a script from the list of
  productions; Coq checks them like any other proof.
