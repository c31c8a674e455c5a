# Formal model of py-mathml-to-latex in Rocq (Coq 8.16.1)

Source: `/repo` (Python), read as text and never run.  Build: `cd rocq && coq_makefile -f _CoqProject -o Makefile && make -j4`
(six to eight minutes).

## Layout (rocq/theories)

| file | content |
|---|---|
| `PyStr.v` | Python strings as lists of code points; `isspace`, `split`, `join`, `strip`, dict lookup and update, decimal printing |
| `Regex.v` | a backtracking matcher with the semantics of Python's `re` (leftmost, ordered alternatives, greedy, groups, negative lookahead), `match`, `search`, `sub` |
| `Tables.v` | the tables of `syntax.py`, generated entry by entry, each with its source line |
| `ModelTokens.v` | normalizer, wrappers, `mi`/`mo`/`mn`/`mtext` text handling |
| `ModelConv.v` | elements in a heap, all converter classes of `usecases.py`, `adapter.py` of `el_to_tex` |
| `ModelXml.v` | DOM to elements, clean-up, error recovery, parse loop, `MathMLToLaTeX.convert` |
| `ModelSteps.v` | the same code as `ModelConv.v` and `ModelXml.v` once more, as a program of single steps, for several threads (C71); calls of some functions are steps, too, to be counted (C72) |
| `ModelCount.v` | the matcher of `Regex.v`, clean-up and recovery once more, counting comparisons of a character with a pattern (C74) |
| `ModelExpat.v` | the XML parser (not code of /repo) for a fragment of XML; used only in C57 - C59, C66 - C68, C74, C78 and `Conformance.v` |
| `PySyntax.v`, `PySource.v` | a syntax for the part of Python the library uses; the source of the library in it, made from /repo by `tools/make_source.py` |
| `PyRegex.v`, `PySem.v` | reading of regular expressions; an interpreter for that syntax |
| `Spec*.v` | specifications used in the statements; they do not use the functions of the model they talk about |
| `Lem*.v` | lemmas and proofs; `LemPy*.v`: the source, interpreted, does what the model does |
| `Prop*.v` | the property theorems with short proofs, `Print Assumptions`, and examples that meet the hypotheses |
| `Conformance.v` | the library's own 640 test cases run on the model from the text up (tests, not proofs) |

Every definition of a `Model*.v` file cites the file and lines of /repo that it models.

## Common ground

A Python object graph of elements is an `elem` tree whose attribute dictionaries are locations in a heap (a list of dictionaries).
`to_latex_converter` runs the constructor on the heap and gives back the suspended `convert()`; both may change the heap;
exceptions are values.  So `MTable`'s assignment to the attributes of inner tables is modelled as an assignment, not as a pure function.

The XML parser (`xml.dom.minidom.parseString`) is a parameter of the model: an arbitrary function from text to "document or
exception".  All theorems about `convert` up to C56 hold for every such function.  C57 - C59 ask that the parser reads what the grammar of
`SpecXml.v` writes (`reads`) and reports an invalid token where it is (`stops`), C66 - C68 that it reports the errors of `SpecXml2.v`, C86 those of `SpecAround.v`, C78 that it skips a byte order mark (`skips_mark`);
`C57_parser`, `C58_parser`, `C67_parser`, `C68_parser`, `C78_expat` and `C86_parser` show that the concrete parser of `ModelExpat.v` does, so the assumptions can be met.  The set `\w` of the regular expressions is a parameter, too.

`SpecTree.v` has a pure reference rendering on trees with inline attributes (no heap, no mutation, no object identity).  The main refinement
theorem (`LemMain.v`) connects it to the heap model: on any heap, converting elements that hold a tree gives the reference rendering, keeps
the tree, and writes nothing but flags of inner tables.  C06 states it; most other tree properties are then proved about the
reference rendering.

## How each property is modelled and proved

- C01: invariant of `normalize` (split/join); concatenation of normalised strings is normalised; white space by code points (C48).
- C02: heap frame: a call only appends cells; the result is independent of the heap; induction over the list of calls.
- C03, C04, C05, C23: simulation invariant, frame lemma, exact description of the cells written.
- C06: refinement to the reference rendering, for every context.
- C07, C08: inductive predicate and first-fault function on trees, equivalence by nested induction; also the error message.
- C09, C15, C35, C41: DOM level, induction over the document.
- C10, C16, C17, C18, C19: equivalences of trees, congruence by nested induction.
- C11, C12, C13, C45: a TeX tokenizer (`SpecTeX.v`) and nesting of groups, `\left`/`\right`, environments; compositional lemmas,
  and an exhaustive check of the finite tables inside the kernel (`vm_compute`) lifted by `forallb_forall`.
- C14: relation "these strings occur in order"; nested induction.
- C20, C21, C22, C24, C36 - C39, C47: statements about all children lists, from the refinement theorem.
- C25 - C29: all strings; table sweeps for the finite part.
- C30, C32, C44: induction over the five attempts, any parser function.
- C31, C42, C43: regex engine semantics; characterisation lemmas by induction on the text.
- C33, C34: regex `sub` characterised as filtering and splitting.
- C40, C46: nested induction with explicit constants; table entries bounded by a sweep.
- C48 - C52, C56, C70, C73, C75 - C77: characters by Unicode code point and the LaTeX they give, in `SpecGlyphs.v`, `SpecOperators.v`, `SpecOther.v`,
  `SpecSigns.v`, `SpecBuilt.v`, `SpecEscaped.v` and `SpecEach.v`; compared with the model by sweeps.  No definition there refers to a table of the
  library, but not all of the lists are independent of it.
  - From knowledge of Unicode and LaTeX: the fonts, number characters, Greek and accented letters, usual names of signs, figures of built signs; from
    Unicode names and decompositions: directions, opposites, struck signs.  Which of these stand in the list that holds and which in the list of exceptions,
    and what an exception gives, was found by comparing them with `syntax.py`.  A sign the library gets wrong is in an exception list, not left out
    silently, as far as it was noticed.
  - Read off `syntax.py`: what is converted at all and operators of several characters (C70), signs that vanish (C73), the plainer names (C75, chosen
    by their fitting the entry), the escaped characters (C76), and all of C77.  These pin down what the library does, as a complete list; they are no
    opinion on what it should do.
- C53, C54: counting of TeX tokens and separators.
- C55: converter objects: making and running are separate steps and other steps may come in between.
- C69: as C03 - C06 and C55, with an invariant that is about the whole heap and not about one element: only mtables read the flag, so what must
  not be shared are mtables inside and outside of tables.
- C71: every access to an attribute dictionary or to the `_xml` of an adapter is a step of its own, and a schedule says which thread does the next
  one.  `C71_alone`: a thread on its own does what the model without steps does.  For several, a thread has a record of what it owns
  (adapters, dictionaries it made) and of what it has set (flags); a program is `safe` if it writes only these and comes to its result
  whatever the rest of the state is; each step keeps one's own record and those of the others.  Termination by induction on the program.
- C72: predicates "at most so many steps, whatever is read" and "never more than so many calls in one another" that all ways to build
  programs keep; nested induction on the element; for several threads the bound does not depend on what is read.
- C74: a worst number of comparisons for a pattern by induction on it; for the third pattern, with two `.*`, a finer count by its parts; the
  lower bound by induction on the number of less-than signs.
- C57, C58: a grammar of XML texts as an inductive relation `document_text`, with a cut in a start tag (`gap_document`); the parser is a
  character automaton; by rule induction on the grammar, running it over a written node adds just that node.
- C59: a relation `alike` on documents, lifted to trees and then by the congruence of C17.
- C60: a reader for TeX formulas (`SpecMath.v`: `tex_reads`, a stack automaton over the tokens of `SpecTeX.v`, stricter than TeX) and the
  formula a tree stands for (`formula_of`, by recursion on the tree, undefined where TeX would not read the output as intended).
  What a token element (mi, mo, mn, mtext) stands for is what TeX reads in its LaTeX, which the token properties describe; everything
  above the tokens is independent of LaTeX text.  Proof: a text "displays" items if reading it adds just them in every state; nested
  induction.  `ordinary` is a class of trees, defined by rules, on which `formula_of` is always defined.
- C61, C62: sets of TeX tokens (of characters) closed under joining texts; what can run together is the one condition.  The list of commands
  that LaTeX does not have (`not_latex`) is from knowledge of LaTeX, amsmath, amssymb, cancel and color and is part of the statement.
- C63 - C65: the congruence of C17 for texts; for C65 the outcome of each element as a text with places (`place`), built from those of the
  children by nested induction; that no renaming turns an output into one of the four accent commands is part of the induction.

- C66 - C68: texts up to a place between two nodes (`inside`), documents with a place for a reference (`slot_document`), text after a document
  (`littered`); what the parser reports there, by running the automaton; then induction over the five attempts: one step of
  recovery keeps the broken beginning or leaves a text without `>`.
- C78: the mark before a text, the error one column further, and the condition that no reported wrong character lies in the first word
  (`SpecByteMark.v`); `C78_first_word_refuted` shows that the condition is needed.

- C79, C80: the source itself, as data, is run by an interpreter with a memory (`PySem.v`), which was written from Python and not from the model.
  `LemPy*.v` go through every function: token functions compute the model's values (`calc`); converters simulate it, with a
  correspondence `pi` between the attribute dictionaries of both sides (`sims`, `LemPySim.v`), by nested induction on the element
  (`element_ok`); `xml_to_mathml` step by step with the exact memory; then `convert`.  So every property of `mathml_to_latex` is one of the source
  text, as far as `make_source.py` and `PySem.v` are right.  The results are for all bounds on calls and turns from some bound on.
- C83: which bound: every lemma of `LemPy*.v` says from which bound `K` on it holds (`evs K`, `calc K`, `sims K`), a call costing one; an element needs 2 more
  than its children (`one_ok`).  The repair of texts (`LemPyErrors.v`) has loops (`whiles`), which turn at most as often as the text is long;
  repair makes no text longer (`LemPyLength.v`); a parsed document is at most half as high as its text is long (`LemDocHeight.v`, a potential over the automaton).
  That the depth must grow is shown for powers of powers (`LemPyNeed.v`).

- C81: `element_ok` with the identity as correspondence, for expressions of Python that make a converter and run it.
- C82: the interpreter does the same in two memories that differ in where things are (`crel`, `LemPyRename.v`; `call_rel`, `LemPyPar.v`: through every construct of the
  interpreter, for any program).  So the steps of a thread among others correspond to its steps alone (`step_rel`, `LemPyThreads.v`), the places of different
  threads staying apart; alone it does what C79 says.
- C84: the lemmas of `LemPy*.v` about `XmlToMathMLAdapter`, `ErrorHandler`, `ElementsToMathMLAdapter`, `HashUTF8ToLtXConverter` and the services of `el_to_tex`, for
  expressions of Python that make such an object and call it (`LemPyParts.v`).
- C86: repair of an error other than an invalid token does nothing before the first `<` (`cut_keeps_before`), so a word there stays; what the parser says about a word
  outside the root element (`reports_words`), by running the automaton.
- C87: the same for element objects: programs of making and running converters are sequences of two expressions (`SpecMade.v`); by induction with C81 they do what the
  programs of C69 do.
- C85: the properties of `convert` again, over the source: C79 composed with them, so that no function of the model is left in the statements.

Where a natural claim is false of the code, the property names the exception and a theorem `..._refuted` gives a witness.

## Trusted base

- Coq's kernel, including `vm_compute`.
- `Print Assumptions` of each theorem in the `Prop*.v` files says "Closed under the global context": no axiom at all, neither own ones
  nor those of the standard library.  (`Lia`/`ZifyBool` load `Coq.ssr.ssrunder`, whose module parameters are listed by `vcheck`
  as library axioms; no theorem depends on them.)
- The reading of the Python source: the model definitions, by the cited lines.  `Conformance.v` is a check on this.  `tools/check_tables.py` compares
  every entry of `Tables.v`, with its order and line number, with the text of `syntax.py`; no difference.  `tools/check_citations.py` checks that
  the cited lines exist and that together they cover the body of every function of the library.
- For `convert`, `to_latex_converter(...).convert()` (C81) and the adapter, the repair, the DOM conversion and the services used by themselves (C84) the reading
  of the source is not needed: C79, C81 and C84 prove the model from the source.  Trusted instead are
  `tools/make_source.py` (a translation node by node of Python's own `ast`; run `python3 tools/make_source.py /tmp/s.v && diff /tmp/s.v
  rocq/theories/PySource.v` to see that the committed file is that of /repo; `tools/check_source.py`, written apart from it, reads the terms
  of `PySource.v` back into Python and compares them with /repo, and the local names with `symtable`), the meaning `PySem.v` gives to the syntax, and `PyRegex.v`.  What `PySem.v` shares with
  the model are the data types and the Python library: `PyStr.v`, `Regex.v`, `Tables.v`, the DOM and `getElementsByTagName`.  `tools/check_interpreter.py` translates programs of our own (`tools/snippets.py`: classes, exceptions, loops,
  dictionaries, comprehensions, the regular expressions, the DOM) and compares CPython with `PySem.v` on made-up arguments: twelve thousand runs, no
  difference; TypeError, AttributeError and NameError are where the interpreter is stuck.  C71, C72 and C74 are
  about models of their own and still rest on the reading (C82 has the main part of C71 for the source).
- The reading of the Python library: `str` methods (`PyStr.v`), `re` (`Regex.v`), dictionaries keep insertion order, and for C57 - C59 and C66 - C68 the
  parser.  The set of white space characters and the result of `str.split`/`strip` were compared with CPython for all code points.
  A Python transcription of `ModelExpat.v` was compared with CPython's `parseString` on two million random texts, 1.07 million of
  them in the fragment (documents, error codes, error positions), `ModelExpat.v` itself, by `vm_compute`, on ten thousand, and on fifteen thousand with
  character data outside the root element; no difference.
- The statements: `Spec*.v` and `properties.jsonl`.

## Modelled

`converter.py`; `el_to_tex/adapter.py`, `protocols.py`, `usecases.py`, `services/normalizer.py`, `services/wrapper.py`;
`xml_to_mathml/adapter.py`, `factory.py`, `services/error_handler.py`, `services/xml_elements_to_mathml_element.py`; all tables of `syntax.py`.
All classes and all branches, including dead ones.

## Simplifications and parts not modelled

- Python's recursion limit (C83 bounds the depth of calls by the nesting of the elements, without saying what CPython's limit counts), memory exhaustion, running time.  C72 counts calls of `to_latex_converter` and `convert()`, visits of elements by
  `MTable` and `MFenced`, accesses to dictionaries and `_xml`; string operations, regular expressions and the parser are within a step.  C74 counts the
  comparisons made by the regular expressions of clean-up and recovery, in the order of a backtracking matcher; it does not count those of the tokens,
  nor the shortcuts of CPython's `re` (a literal prefix is sought without trying the pattern), which do not change the order of growth.
- `PySem.v`: the simplifications are in its head comment: lists and objects that are never changed are values, generators are computed at once; in a `try`
  the names assigned before an exception are forgotten (the handlers do not use them) and the name of the exception is kept.  A keyword argument that the function does not have is ignored and a default value is
  computed at each call; `make_source.py` refuses a program where either would matter.  Where Python would raise
  TypeError, AttributeError or NameError the interpreter is stuck; C80 says that it never is.
- Elements built by hand with a `name` or `value` that is not a `str`, and subclasses or replaced methods.
- Threads (C71): one access to a dictionary or to `_xml` is atomic, as under CPython's lock; filling a new element's dictionary is one step, for
  nobody else has it yet; the parser is a function of its text, so that its own state is not shared between threads.
- Elements that contain themselves (an `elem` is a finite tree or, with shared dictionaries, an acyclic graph).
- Exceptions are values of a small type: invalid number of children (with its three arguments), `IndexError`, an expat error with code, line and
  column, and any other exception of the parser.  Tracebacks and exception chaining are not modelled.
- `except Exception` also catches what `getElementsByTagName` raises; it raises nothing.
- In the DOM a document type node is left out (the code never looks at it).
- Methods that only the tests or type annotations use, `__repr__`, the protocol classes without behaviour.
- `ModelExpat.v`: see its head comment for the texts outside the fragment; C57 - C59 and C66 - C68 say nothing about those.  The grammar of C57 has no bare tab, newline or `<` in an attribute value (a tab or newline there is read as a space, a `<` is rejected): two wrong parsers that differ only there are not caught (c02, c09 in the log).

## Testing the theorems against wrong programs

`seeded/LOG.jsonl`: each line is one edit of the model in a scratch copy, made like a realistic bug, with the theorems that stopped
proving.  Beyond watching the build fail, the negation of the affected claim was proved by a concrete counterexample for
the edited model where it could be, so that the theorem is known to be false there and not just its proof broken.  A bug that no theorem noticed led to a
tighter or a new theorem; the log says which.

## What the proofs showed about the library

- `mi`: some branches cannot be reached; tables "by character" are keyed by entity text such as `&#x3B1;`, which a parser has already replaced.
- Operators: 373 entries have an empty value, so the raw text is put out; 16 operators and 6 symbols give a space and vanish (C73);
  88 operators are another sign or no command at all, semidirect product signs are swapped (C56); U+21F0 points right and gives `\Leftarrow`, 42 pairs of
  opposite signs give the same LaTeX (C73); one value contains a backspace character (C75);
  "superset above leftwards arrow" has its arrow turned, the dot below and the circle above a plus are exchanged, three signs for "contains" give `\in` (C75).
- 28 characters are converted both as operators and as identifiers, but differently: a circled plus gives `\oplus` and `o+`, a superscript two `2` and
  `^{2}` (C77).
- A character escaped twice (`&amp;#x2208;`) is mostly converted as the character is; otherwise the text is copied with its `&` and `#` (C76).
- `mo` with `{` gives `\left{\right.` (C11, C12 name it); a one-sided `mfenced` around a table gives a bare `\right`.
- `bevelled="false"` is bevelled, `bevelled="bevelled"` is not (C35).
- An empty `maction` raises `IndexError`; nested `math` elements are converted twice; `math` elements are joined without a separator.
- Removing line breaks joins words (`<mi\nid="1">` becomes `<miid="1">`, C33); `mml:` is removed in one pass (C34).
- Recovery: a valueless attribute is deleted as a word everywhere in the text: `<math><mi a>a</mi></math>` gives the empty string, and a
  properly quoted attribute of the same name elsewhere is lost (C58); before a space, another attribute or `/>` recovery breaks the text.
- Recovery is cubic in the length of the text: `<!--` followed by `< ` a few thousand times, a text of some kilobytes, takes minutes before the
  error is raised (C74).
- A wrong character in the first word of a text with a byte order mark: the mark is struck with the word, and other occurrences of the word
  are kept (C78); without the mark they are struck, too.
- A stray `<` can make a formula convert to the empty string without an error (C67); a second formula after a space is dropped (C68); named
  entities such as `&alpha;` raise, or vanish when the document type has an external subset (C66).
- The Chinese characters for ten, earth and white give `+`, `\pm` and a space (C70).
- Bold Greek capitals and some accents in the tables are wrong (C51).
- TeX cannot read the output, or reads something else (C60), for: a script on a one-child row that has such a script
  (`x^{2}^{3}`), a root in the index of a root, a table that is not in fences (no environment), fences `{` `}` (`\left{`), an overline as an
  accent (`\overset{\overline}{x}`), prescripts (`\_{1}^{2}` is an underscore sign).
- Commands (C61): the undefined `\geg` for `≧`, `\hdots` for `⋯`, `\llbracket` for the invisible separator and others; letters run into
  commands across formulas (`∈` and `put` give `\input`); a backslash in `mi`, `mo`, `mn` is copied, so `\write18{...}` comes out as it is.
- Content (C63): the text of `ms` is lost, and so is that of an `mtext` that also holds an element; elements in an `annotation-xml` are
  converted beside the presentation they annotate.
