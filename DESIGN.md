# Formal model of enolib (Python) in Rocq/Coq

Source modelled: `/repo/python/enolib` (the Python implementation, 3258 lines). The other language
implementations in the repository are out of scope. The code was read, never run.

## 1. Shape of the model

Every Python function becomes an executable, total Gallina function that follows it branch by
branch. Each definition cites the file and the lines it transcribes.

* **Exceptions are values** (`Raise e`), including those the authors did not intend
  (`KeyError`, `TypeError`, `AttributeError`, `UnboundLocalError`, ...). A mutation that happened
  before the exception stays in the state, as in Python.
* **Mutable dicts become nodes of a heap** addressed by number (`Types.node`; node 0 is the document).
  Dicts that nobody mutates (continuations, values, operators, comments) are immutable leaves.
  API objects (Section, Field, ...) are numbered objects of a second store (`Elements.obj`).
* **Loops that are not structural run on fuel** with a distinguished `Fuel` outcome. It stands for
  "does not return" (in Python: `RecursionError`). C01 proves that parsing never yields it; C26 says
  exactly when the section queries do.
* **Text is a list of Unicode code points** (`list N`), regular expressions are run by a
  backtracking engine with the priorities of Python's `re`.

| model file | Python source |
| --- | --- |
| `Base.v` | characters, Python's `\s`, slices, `str.find`, `str(int)`, `rjust`, `join`, results |
| `Regex.v` | `re` matching: greedy/lazy repetition, groups, look-ahead, back references, `$` |
| `Grammar.v` | `grammar_regex.py` group by group; multiline terminator (`analyzer.py`), `UNTERMINATED_ESCAPED_KEY` (`errors/parsing.py`) |
| `Types.v` | `constants.py`; the instruction dicts |
| `Analyzer.v` | `analyzer.py` |
| `Resolver.v` | `resolver.py` |
| `Messages.v` | `messages/{en,de,es}.py` |
| `Reporter.v` | `reporters/*.py` (text, HTML, terminal) |
| `Errors.v` | `errors/*.py`, `error_types.py` |
| `Context.v` | `context.py`, `parse.py` |
| `Elements.v` | `elements/*.py`, `elements/missing/*.py` |
| `Lookup.v` | `lookup.py` |
| `Register.v` | `register.py`; the classes of `elements/` with the names of their methods, Python's method lookup |
| `Session.v` | not in the code: sequences of API calls a client can make, and the states they reach |

`ReplayTests.v` replays the expectations of the repository's generated test suite
(`python/tests/generated`, read as text) against the model by computation. It guards the
transcription; no proof uses it.

Files other than these: `Scan.v` is a declarative scanner (the specification for C03, written
without regular expressions). `Spec*.v` contain the vocabulary of the property statements. They use
only the data types, never the functions of the model whose result they describe. `Prop*.v` (without
`Proofs`) contain the property theorems and nothing else, each closed by `exact` and followed by
`Print Assumptions`, with a concrete example of the hypotheses beside it. All other files are proofs.

### What is not modelled, and simplifications

* Python's recursion limit: deep but finite recursion succeeds in the model. Only unbounded
  recursion is an outcome (`Fuel`).
* `__init__.py` re-exports, deprecated aliases; exception texts of
  internal errors (`KeyError`, ...) and of the `IndexError` raised by `lookup`.
* `Section.to_*`-style conversions are modelled for `SectionElement`; `to_fieldset_entry`/`to_list_item`
  (AttributeError in the source) are only noted as a finding.
* A client that mutates lists returned by the API or private attributes.
* Loaders and message callables are pure functions (`text -> value | ValueError | other`); their side
  effects, and re-entrant calls into enolib from a loader, are not represented.
* Dict entry order and `enumerate` order are those of lists. Interned strings, object identity other
  than that of API objects, and memory limits are absent.
* The `context['input']` etc. are fields of a record; `reporter.index` is recomputed on use
  instead of stored (it depends only on the document, which does not change in the fields it reads).

## 2. Trusted base

* The Coq 8.16.1 kernel (and `coqchk`), including `vm_compute` for concrete examples.
* `Print Assumptions` under every property theorem prints `Closed under the global context`: no
  axiom is used by any of them, neither own nor from the standard library.
* `coqchk -o` lists 7 names `Coq.ssr.ssrunder.Under_rel.*` from Coq's standard distribution. They are
  members of an opaque module of the ssreflect library that is loaded with the prelude's plugins;
  no theorem depends on them.
* The claim that the model is the code: by reading, citation of lines, and the replayed tests.
* The transcription of Python's `re` priorities and of `str.isspace` (a table in `Base.v`).

## 3. Properties

Status words: **proved** - the statement holds and is proved in full. **partial** - the statement is
false of the code or too strong; a `_refuted` theorem gives a witness, and the `_partial` theorems say
exactly what holds instead. **open** - not proved yet.

| id | approach | status |
| --- | --- | --- |
| C01 | index grows in each iteration; resolver's chains never repeat | proved |
| C02 | invariant of the loop excludes internal errors; resolver: `KeyError` and `UnboundLocalError` witnesses; exact condition otherwise | partial (false) |
| C03 | engine on the transcribed expression = declarative scanner, for every text and position | proved |
| C04-C07, C09-C13 | invariants of the analysis loop, by induction over iterations, on top of C03 | proved |
| C08 | `\s*` crosses line feeds: false; exactly, numbers are short by the line feeds inside earlier instructions (`CountProofs`: number + swallowed feeds = feeds before, kept by every step; no instruction ends with a line feed); distinct and in text order always (`NumberOrder`) | partial (false) |
| C14 | induction over document trees: canonical lines are scanned as written (`CanonScan`), each piece of text grows the heap by its subtree (`settled`, `grown`), sections keep the enclosing ones open (`open_at`) | proved |
| C15 | equality with a declarative join; accessors of objects in every state | proved |
| C16 | cache invariant over any sequence of reads; accessors of objects in any two states | proved |
| C17 | witnesses (exception, then truncated result; sections extending each other in a circle, result depends on earlier calls); same result from every reachable state otherwise | partial (false) |
| C18 | witnesses; exact text when the block has a non-empty line | partial (false) |
| C19-C21 | invariants of the resolver's heap; what is reported is real; witnesses for the unreported cases | C19 proved, C20, C21 partial (false) |
| C22-C24 | relations `value_text`, `item_list`, `entry_list` over copy chains (`Context`); `whole_value`, `whole_items`, `whole_entries` follow only the templates the document names and hold of what the objects return in every state (`PropWhole`) | proved |
| C25 | own elements before copied ones, for plain copies and (exact, SpecMerge.v) for everything inside deep copies; deep copies override a subsection's own template: false there | partial (false) |
| C26 | witness of endless recursion; termination iff the links of the section end; no deep copies suffice | partial (false) |
| C27 | relation `raw_tree`; order differs for extended sections, `TypeError` for mirrored ones; unless a section shows itself (`grounded`), the document's raw() returns exactly if no section is nothing but a copy and no comment is empty (`CopiedRaw`, `HollowRaw`) | partial (false) |
| C28, C29 | exact outcome of every query in every reachable state; wrong-type error can be `TypeError` | partial (false) |
| C30 | any chain of missing queries, also read as something (`MissingRead`); `required_values` of a missing list does not raise | partial (false) |
| C31, C47 | invariant of the object store over all reachable states | proved |
| C32 | history: touched flags over the object store; fieldsets raise TypeError | proved |
| C33, C34 | same; false as stated, exact conditions proved | partial (false) |
| C35 | arbitrary loader functions; false for keys of items and for empty comments | partial (false) |
| C36 | totality by the shape of parsed documents; without column false | partial (false) |
| C37 | the document as a sequence of instructions with ascending lines; lookup = the latest instruction covering the position, where lists end too early | partial (false) |
| C38 | comparing positions = comparing line numbers, for documents without instructions over several lines | partial (false) |
| C39 | exact description of the picked range | proved |
| C40 | every error of a call is one of ten complaints (`Faults`); each selection is made of ranges of the document; line numbers only if no instruction crosses lines | partial (false) |
| C41 | for each complaint the exact condition under which it can be reported (`SpecPrint.reportable`): both directions, by the shape of parsed documents and the tags of the reporter | partial (false) |
| C42 | the index of a report holds every line read (tiling of C07, shape of the tree); snippets are rows of numbered lines; in the terminal with styles around parts of lines, put in from right to left, which is right as ranges do not overlap (C06) | partial (false); the exceptions are characterised for all three reporters |
| C43 | snippet lines: off by one after line 0; exact otherwise | partial (false) |
| C44 | escaping is lossless and complete; the source label is not escaped | partial (false) |
| C45 | parametricity in locale and label | proved |
| C46 | `Register.v`: table of methods per class, lookup along the classes; the table after any registrations is characterised, names set by `register` are shown injective and met by built-in methods only for "string" and "" | partial: false for these two names (`C46_string_refuted`, `C46_empty_refuted`), proved for all others |
| C48 | `means`, a functional relation on the instructions of the document; the resolver's final nodes (`final`) satisfy it; strays contradict `final` | proved |
| C49 | `commented`, functional; exact for elements and for sections outside deep copies; inside deep copies along `draws_on` (invariant `Links`); which section it is: `remark`, functional, if no section takes over its own elements (invariant `CInv`) | proved |
| C50 | whatever raw() gives for a parsed document in which no section takes over a section by copying is a `document` (SpecCanon): keys, comments, values trimmed, lists non-empty, sections last (from `tree`, and cached element lists always end with the own elements); then C14 | proved; without the proviso false (witness: raw() puts taken-over sections in front of own elements) |
| C51 | printing reads the same lists and values as the queries: `counted` from the invariant, `value_run`; `dec` writes decimal numbers; uniqueness of the text; missing elements by cases | partial: false for list items and the document found by `lookup`; sections with endless copies can not be printed (`C51_endless`) |
| C52 | the parent of an object never changes (`obj_ext`), and the invariant says where it is listed | partial: false for sections, the document and what `lookup` found (each characterised) |
| C53 | per token of the scanner the spans in order (`scan_laid`), then a node invariant over the analysis (`reach_forall`) | proved |
| C54 | every report is one function of the table of marks, independent of the reporter (`ReporterFree.form`); each print function draws the rows computed from it (`DrawProofs`); which lines the terminal cannot draw from the uniqueness of line numbers (`NumberOrder`, `DrawDoc`) | proved |
| C55 | the marks a report leaves are computed as line sets (`sets`, `TagProofs`) against `line_of`, using that children lie in the order and within the range of their lines (`LineOrder`); the display pass over them once and for all (`LayoutProofs`); then per complaint (`MarkProofs`) and per parse error (`FaultMarks`) | proved |
| C56 | scanning is local: what a scan of the rest of the text finds it still finds with more lines behind (`AppendScan`), so a run on the beginning is a run on the whole (`AppendRun`); steps only add to instructions (`extends`); accessors see the text through the values of multiline fields alone (`AppendReads`) | proved; errors that stay are refuted for cut-off instructions and unended fields |
| C57 | the analysis of a text is the run of an abstract step on what its instructions say, once positions are removed from the heap (`skin`, `SaidRun`, `SaidLoop`); resolving commutes with removing them (`SaidResolve`), and reading accesses give the same answers for heaps equal up to them (`SaidReads`; comments by shifting columns); `SpecWritten` lists the ways to write an instruction and `WrittenProofs` shows that the line grammar reads each as intended; texts the grammar fails on are covered by what they say up to there (`SpecBroken`, `BrokenLoop`) | proved |
| C58 | two runs of a program in step (`TwinRun.twin`): equal objects, heaps equal up to positions (C57), contexts as parsed up to caches; every API function keeps this and has the same outcome, hence every program (`SpecProgram.program`) | proved |
| C59 | the line grammar on `crlf t` reads the instructions of `t` at shifted positions (`CrlfScan`), so `crlf t` says the same with carriage returns in multiline values (`CrlfProofs`); analysis and copies do not look at these values (`CrlfRun`), accessors hand them through (`CrlfReads`) | proved |
| C60 | a map of nodes renames keys and observes values; the analysis (`nrun_cast`), the copies (`RenameRun.resolve_hom`) and the accessors (`RenameReads`) commute with it | proved |
| C61 | pairs of programs related call by call (`SpecRenamed.paired`); object stores agree up to the keys of their indices (`RenamedRun`), heaps up to C60's map; also gives `C59_programs` | proved |
| C62 | a `notice` is a sort of mistake with its line and key (`SpecNotice`); every pair of message templates is separated by its beginning or end (computed, `NoticeProofs`), `In line N the (non-section) element` by the decimal digits ending; the pattern of parsing.py:7 described declaratively (`OpenKeyProofs`) | proved |
| C63 | building any complaint about a parsed document gives an error, a `KeyError` or a `TypeError` (`RefuseProofs`; an empty list of elements or a value of something without one would be others, and are never asked for); every operation keeps to a set of exceptions (`CrashProofs`); running out of fuel from the answers of C23–C35, C51 (`CrashRun`); reading and asking fail as documented where the report can be built (`ReadFails`, `AskFails`, from C28–C35 and C41) | proved |
| C64 | the invariant of sessions says which objects exist for what; every operation only extends the objects and fills caches (`SessionInv`); lists of elements, entries and items have no repetitions (`StayProofs`: items by their parents along the chain of links) | proved |

For the queries (C25-C35, C47) a state is any state that some sequence of API calls brings about
(`reach`): queries, conversions, reads, errors, loaders, touching, requiring, in any order and
with any arguments, including calls that raised.

## 4. Findings in the code

Each is a theorem (`_refuted` or part of an exact statement) or, where marked (n), a note from reading.

1. `\s*` in SECTION, LATE_DETERMINED and COPY crosses line feeds: `#\n a` is a section with the key on
   the next line and every later line number is off by one (C08).
2. A template that is missing further down a chain raises `KeyError`; a cycle through section copies can
   raise `UnboundLocalError` in `cyclic_dependency` (C02, C20, C21).
3. `Context.comment` raises `KeyError` for a comment that is one empty line; stripped indentation is
   rebuilt with spaces where tabs were (C18).
4. `Context.elements` lacks a `return` in the mirror branch: `raw()` raises `TypeError` for sections that
   are nothing but a copy, so `document.raw()` raises whenever there is one (`C27_mirrored_fails`); for a
   section that extends one, the second call succeeds with the copied elements missing (C17, C27). Where
   deep copies make sections extend each other in a circle, what `raw()` returns depends on what it was
   called on before (`C17_earlier_calls_refuted`).
5. `raw()` lists copied elements before own ones, `elements()` after them (C27).
6. `'# a\n## x < x\n# b << a\n## x\nfoo: 1'` parses, and then `elements()` recurses without end (C26).
7. A deep copy overwrites the template a merged subsection names itself (C25); the subsection still has
   the comment of that template, not that of the section whose elements it has (`C49_remark_sample`). If deep copies loop, what
   an empty merged subsection mirrors even depends on the order of the copies in the document (`takes` in
   SpecMerge.v leaves that case out; it needs a section that takes over its own elements).
8. `_tag_element` returns `None` for empty elements and for fieldsets without entries: on
   `"# s\na:\nb: x"`, `document.field('s')` raises `TypeError` instead of a ValidationError (C28, C29).
9. `required_values`/`required_string_values` of a missing list return `[]` (C30). A missing empty reports
   the message for a missing element (n).
10. A key loader that fails on a list item: `KeyError` (C35). `comment_error` on an element without
    comments and `error` on the document: `KeyError` (C41).
11. Snippet context is off by one after line 0: none is shown behind a marked first line (C43, C55).
12. The HTML report does not escape the `source` label (C44).
13. `all_elements_required` raises `AttributeError` on sections not yielded yet, and does not reach the
    fieldsets that empty elements were read as before (n, C34).
14. `touch()` does not touch elements that were not yielded; `assert_all_touched` reports them (n, C33).
15. `Fieldset.assert_all_touched` raises `TypeError`; `Fieldset._missingError` is misnamed
    (`AttributeError`); `Fieldset.entry` returns `None` by default for missing entries (n).
16. `Section.parent()` tests the wrong way round: `None` for sections, `KeyError` for the document. Fields and empty
    elements found by `lookup` raise `AttributeError` (`C52_sections`, `C52_looked_up`).
17. Comments pending at a parse error are lost from the snippet (`"> c\n- item"`); `"-- key"` without a line feed
    behind it is reported with a second line that does not exist; behind instructions over several lines,
    numbers and contents do not match (C42).
18. `TerminalReporter` raises `KeyError` for line-level parse errors and for deep copies (C41).
19. `lookup` by index never reports the ranges of comments at the document, by line it does (C38). An
    unterminated `-- key` at the end of the text gets the range (len+1, len) (n, C40).
20. `register(string=f)` replaces the built-in accessors for texts, except those of field values (`C46_string_refuted`). A definition with the empty name (`register({'': f})`) overwrites `_key`, after which reading any key recurses for ever (`C46_empty_refuted`).
21. `lookup(line=n)` without `column` raises `TypeError` if anything is on the line (C36).
22. `lookup` ends a list (fieldset) with the first line of its last item (entry): on the continuation in
    `"list:\n- a\n| b"` it finds the document (C37). Between two items it finds the list (C37).
23. `repr()` of a list item or the document found by `lookup` raises `KeyError` (C51).
24. For the same reason as 1, an invalid line can become valid through the lines behind it: `key`, `#` or
    `copy <` at the end of a line is completed by the next line that is not blank (`C56_errors_undone_refuted`).
25. In a text with Windows line endings the value of a multiline field ends with a carriage return and has one before every line feed;
    all other values are trimmed (C59).
