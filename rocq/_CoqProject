-Q theories Verif
theories/Py/Str.v
theories/Py/Val.v
theories/Py/Files.v
theories/Pycep/Utils.v
theories/Pycep/Decorators.v
theories/Pycep/Functions.v
theories/Lark/Tree.v
theories/Pycep/Transformer.v
theories/Pycep/Main.v
theories/Lark/Regex.v
theories/Lark/Ebnf.v
theories/Lark/BicepGrammar.v
theories/Lark/Lalr.v
theories/Lark/BicepTables.v
theories/Lark/Terminals.v
theories/Lark/Lexer.v
theories/Lark/Driver.v
theories/Lark/Located.v
theories/Lark/Shape.v
theories/Lark/RegexText.v
theories/Lark/Loader.v
theories/Lark/BicepText.v
theories/Pycep/Bicep.v
theories/Pycep/Session.v
theories/Proofs/Base.v
theories/Proofs/Regex.v
theories/Proofs/LR.v
theories/Proofs/Refine.v
theories/Proofs/Complete.v
theories/Spec/Sentences.v
theories/Spec/Spelling.v
theories/Proofs/Lexer.v
theories/Proofs/Parse.v
theories/Proofs/Grammar.v
theories/Proofs/Follow.v
theories/Proofs/Sentences.v
theories/Proofs/TreeGrammar.v
theories/Spec/Json.v
theories/Spec/Schema.v
theories/Spec/Trees.v
theories/Spec/Outcomes.v
theories/Spec/Text.v
theories/Spec/Lexemes.v
theories/Spec/Program.v
theories/Spec/Reports.v
theories/Spec/Calls.v
theories/Spec/Children.v
theories/Spec/Chains.v
theories/Spec/Declarations.v
theories/Spec/Parts.v
theories/Spec/Values.v
theories/Proofs/JsonLemmas.v
theories/Proofs/FunctionsLemmas.v
theories/Proofs/Transform.v
theories/Proofs/Typing.v
theories/Proofs/State.v
theories/Proofs/Tokens.v
theories/Proofs/TokenForms.v
theories/Proofs/Match.v
theories/Proofs/RegexText.v
theories/Proofs/Patterns.v
theories/Proofs/Quotes.v
theories/Proofs/Lexable.v
theories/Proofs/Scan.v
theories/Proofs/Accept.v
theories/Spec/Syntax.v
theories/Spec/Meaning.v
theories/Spec/Canon.v
theories/Proofs/SyntaxInd.v
theories/Proofs/Generate.v
theories/Proofs/Derive.v
theories/Proofs/DerivePrograms.v
theories/Spec/Outline.v
theories/Proofs/Outline.v
theories/Proofs/Write.v
theories/Spec/Plain.v
theories/Proofs/Plain.v
theories/Proofs/SpellCheck.v
theories/Proofs/EndToEnd.v
theories/Proofs/Quiet.v
theories/Proofs/Program.v
theories/Proofs/Children.v
theories/Proofs/Elements.v
theories/Proofs/Documents.v
theories/Proofs/Parts.v
theories/Proofs/Values.v
theories/Spec/Functions.v
theories/Spec/Types.v
theories/Proofs/Functions.v
theories/Proofs/Types.v
theories/Props/Calls.v
theories/Props/Documents.v
theories/Props/Children.v
theories/Props/Values.v
theories/Props/Functions.v
theories/Spec/Reading.v
theories/Spec/Errors.v
theories/Spec/Files.v
theories/Proofs/Like.v
theories/Proofs/Shaped.v
theories/Proofs/Unparse.v
theories/Proofs/UnparseTactics.v
theories/Proofs/UnparseExprs.v
theories/Proofs/UnparseDecos.v
theories/Proofs/UnparseDecls.v
theories/Proofs/UnparseText.v
theories/Proofs/Meaning.v
theories/Spec/Layout.v
theories/Proofs/Layout.v
theories/Props/Programs.v
theories/Props/Layout.v
theories/Props/Types.v
theories/Proofs/MeaningPrograms.v
theories/Props/Constructs.v
theories/Spec/Numbering.v
theories/Proofs/Erase.v
theories/Proofs/EraseCalls.v
theories/Proofs/EraseTrees.v
theories/Proofs/EraseElements.v
theories/Proofs/EraseDocuments.v
theories/Proofs/Permute.v
theories/Props/Numbering.v
theories/Props/Reserved.v
theories/Props/Syntax.v
theories/Props/Meaning.v
theories/Props/Outline.v
theories/Proofs/Decode.v
theories/Proofs/Viable.v
theories/Proofs/Located.v
theories/Proofs/FirstChar.v
theories/Proofs/Files.v
theories/Props/Reading.v
theories/Props/Unique.v
theories/Props/Errors.v
theories/Props/Files.v
theories/Props/GrammarFile.v
theories/Props/Contexts.v
theories/Pycep/PublishedTypes.v
theories/Spec/Published.v
theories/Proofs/Published.v
theories/Props/Published.v
theories/Proofs/Canon.v
theories/Props/Canon.v
theories/Tests/Conformance.v
theories/Python/SourceText.v
theories/Python/Syntax.v
theories/Python/Eval.v
theories/Python/Program.v
theories/Proofs/PyHeap.v
theories/Proofs/PyRun.v
theories/Proofs/PyLoops.v
theories/Proofs/PyMethods.v
theories/Proofs/PyDecorators.v
theories/Proofs/PyFunctions1.v
theories/Proofs/PyFunctions2.v
theories/Proofs/PyFunctions3.v
theories/Proofs/PyCallbacks1.v
theories/Proofs/PyCallbacks2.v
theories/Proofs/PyCallbacks3.v
theories/Proofs/PyCallbacks4.v
theories/Proofs/PyCallbacks5.v
theories/Proofs/PyCallbacks6.v
theories/Proofs/PyCallbacks7.v
theories/Proofs/PyCallbacks8.v
theories/Proofs/PyUserfunc.v
theories/Proofs/PyChildren.v
theories/Proofs/PyChildren2.v
theories/Proofs/PyResource.v
theories/Proofs/PyImports.v
theories/Proofs/PyImports2.v
theories/Proofs/PyInit.v
theories/Proofs/PyState.v
theories/Props/SourceCode.v
theories/Tests/RunText.v
