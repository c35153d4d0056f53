# Formal model of SamsungDS/Spex in Rocq (Coq 8.16.1)

Spex turns NVMe specification documents (docx) into an HTML model (stage 1,
`htmlspec`) and the HTML model into a JSON model plus lint report (stage 2,
`jsonspec`).  This directory holds a shallow, executable Gallina model of that code,
function by function, and theorems about it.

## How the model is built

* **Python values.** `str` is `list N` (code points).  Character predicates
  (`str.isspace`, `\w`, `\d`, `upper`, `lower`) are tables generated from Python
  3.11's own Unicode database (`theories/PyTables.v`), so `\w` in the model is the
  real Unicode `\w` and not an ASCII approximation.  `int` is `Z`; `int(text)` models
  white space, sign, underscores, Unicode digits and the 4300 digit limit.
* **Regular expressions.** The repository's patterns are *data* (an AST) run by one
  backtracking matcher (`Regex.v`) with Python's greedy/ordered-choice semantics;
  what a pattern means is a theorem, not an assumption.
* **XML.** lxml elements are an inductive tree `Elem tag attrs text kids` where each
  kid carries its tail.  XPath queries used by the code are functions on it.
* **Exceptions and generators.** A generator that yields entities and may raise is a
  state transformer that appends to the output and ends in `Ok`/`Exn e`.  The lazily
  consumed row iterator is a list of rows plus an optional final exception.
* **Recursion.** Nested tables: recursion on fuel, exhaustion is a separate outcome;
  a theorem shows the fuel used at the top always suffices.

Properties are stated in `Prop_*.v` files in terms of the modelled API functions and
small independent specifications (`Spec*.v`), proofs are in `*Facts.v`/`*Proofs.v`.
Claims that are false of the code are kept as `..._refuted` theorems with a concrete
witness, next to the exact condition under which they hold.

## Plan per property

* **C01 Bit/byte range text is read as high:low.** Regex AST + matcher, `parse_range`; characterise the match by the longest digit run, white space run, etc.; induction on the text.
* **C02 Reversed ranges are reported.** Same function; case analysis on the characterisation.
* **C03 Gap and overlap lints are sound and complete between neighbours.** `validate_struct` mirrors the two loops; induction over the field list with the carried previous range.
* **C04 A lint-free struct table is a partition.** Consequence of C03/C06 on lint-free runs; induction gives contiguity, then partition of the interval.
* **C05 Contiguous well-formed tables are never flagged.** Induction over the field list: invariant 'previous range is the neighbour's'.
* **C06 Row order lint.** Induction over the first loop with the carried first range; a literal witness for the naive claim.
* **C07 Bits tables come out reversed, bytes tables in document order.** Row loop invariant: accumulated fields; `rev` at the end.
* **C08 Duplicate struct labels.** Induction with invariant 'labels set = labels of earlier fields'.
* **C09 Duplicate labels and values in value tables.** Same for `validate_values`.
* **C10 Column headers are normalised independently of layout.** `extract_tbl_headers` over all header cells; string lemmas on replace/collapse/strip.
* **C11 Choice of extractor.** `select_extractor` = the loop over the three classes; case analysis; lint log equation of the figure parser.
* **C12 Column used when headers repeat.** `col_index` as built by the dict comprehension (last wins); lemma by induction; witness.
* **C13 Rowspan cells are restored in every row they cover.** Independent tiling specification; invariant: span list = covering cells that started above, sorted by column.
* **C14 Rowspans across header rows and empty rows.** Equation for th/empty rows on the span list + witness table.
* **C15 Tables without spans are iterated verbatim.** Induction: the span list stays empty.
* **C16 Brief is short and quoted from the content.** `content_extract_brief` via the struct-label characterisation; substring relation.
* **C17 Struct label grammar.** Matcher characterisation for all texts.
* **C18 Value label grammar.** Matcher characterisation for all texts.
* **C19 Labels are normalised.** Character-level lemmas on replace/strip/upper; witness for non-idempotence.
* **C20 Labels with invalid characters are reported.** Matcher characterisation for both patterns; iff.
* **C21 Emitted labels are identifiers when unflagged.** Table sweep: upper/lower preserve `\w` except U+0130; ASCII corollary.
* **C22 Invented labels and L1003.** Case analysis on the label functions using totality of the pattern.
* **C23 Skipping a failing figure does not affect the others.** Compositionality of the document loop: state effect of one figure does not depend on earlier state except the missing-id counter.
* **C24 With skip-on-error processing does not abort.** Invariant on the guarded region; two witnesses for the abort paths.
* **C25 One parse-error lint per failing figure.** Induction on nesting (fuel) over the figure parser with the unwind flag.
* **C26 Fail-fast without skip-on-error.** Same, non-skip mode.
* **C27 Every lint entry is well formed.** Invariant on the lint log over the whole processing, with message and context fixed per code.
* **C28 Unidentified figures get distinct numbers.** Counter invariant over the document loop.
* **C29 Figure id is read from the title.** Matcher characterisation of the title pattern.
* **C30 Nested tables become sub-entities of their row.** Invariant over emitted entities by nesting induction.
* **C31 Figure ids are not unique.** Witness document computed by the model.
* **C32 Ignoring lint codes only filters the report.** Non-interference of `parse_spec`: both runs share one trace.
* **C33 The output document is complete exactly on success.** Writer model: state of file after every outcome.
* **C34 Progress reporting does not change the result.** Consumer-driven step model of the generator versus the batch run.
* **C35 Progress total is an upper bound for figures, not for entities.** Length argument + witness.
* **C36 Every emitted entity satisfies the published schema, with two exceptions.** JSON value type, the schema as a predicate transcribed from stage2.schema.json; invariant over emitted entities.
* **C37 Processing terminates.** Fuel sufficiency by induction on tree size.
* **C38 Dynamic list ranges.** Matcher characterisation of the dynamic pattern + row loop mode flag.
* **C39 Reserved, obsolete and ellipsis rows.** Row step case analysis.
* **C40 Label overrides win in value tables.** Row step case analysis of the value extractor.
* **C41 Merged docx cells form rectangles.** docx grid algorithm over rows of (gridSpan, vMerge); invariant by induction on rows.
* **C42 Each docx cell is rendered once, at its origin, with its spans.** Renderer emission order vs cell extents.
* **C43 docx grid to HTML to rows is lossless.** Composition of C41/C42 with C13's tiling theorem.
* **C44 Each docx table is rendered exactly once.** The grid as blocks of cells; reading a table gives the tree of its nested tables and marks exactly these (mutual induction on fuel); invariant of the loop over all tables with unique parents and document order; rendering keeps the trees. Witness for a lost table under a negative span.
* **C45 Lists keep every item in order.** List parser over a stream of paragraphs; induction on the stream length.
* **C46 Rendered list markup is balanced.** Dyck-word argument over emitted tags.
* **C47 Text is escaped reversibly.** Character-wise escaping; induction on the text.
* **C48 CSS classes identify formatting.** Cache state machine; invariant over request histories.
* **C49 Style merging.** Option-wise merge; algebra.
* **C50 Explicitly disabled underline/strike-through still shows.** Evaluation of the CSS computation; witness and exact condition.
* **C51 Style inheritance.** Fuelled resolution over a style map; induction on the chain.
* **C52 Stream delivers every element once.** Stream state machine.
* **C53 Table id attribute.** Matcher characterisation of the table id pattern.
* **C54 Spec title and revision.** Matcher characterisation of the revision pattern; split on the first comma.
* **C55 Cached report belongs to the uploaded document.** Server state machine over interleaved uploads; invariant relating every cached file to an upload; a colliding history as witness.
* **C56 Report completion is announced after the report is available.** Invariant giving the state of every stream and its events as a prefix of one list; case analysis of the last step; witness that a failing upload can change a cached file.
* **C57 Unknown report hash.** The same invariant: a hash is in the table exactly if its completion was announced.
* **C58 Lint summary adds up.** Invariants of the grouping folds, permutation and sortedness of the sort, parity of clicks; witness of a figure called constructor.
* **C59 CLI exit status and isolation of inputs.** Loop over inputs with outcomes.
* **C60 Output names.** Path name functions; injectivity on stems.
* **C61 --lint-ignore parsing.** Split/strip/upper and lookup.
* **C62 Numbers leading a value label are moved to its end.** Matcher characterisation of the number pattern; strip lemmas.
* **C63 The docx stage terminates.** The fuel of every recursive function of the stage is shown to suffice; induction on the size of the document.
* **C64 A list number leads to the definition Word would use by number.** Dictionary filling and lookup characterised by last occurrence; positions by nth_error with Python's negative index.
* **C65 The text of a paragraph.** The run iteration against a declarative list of runs; uniqueness of the reading.
* **C66 The HTML document is one well-formed element.** Content relation of the whole token list; witness with an ampersand refutes the unconditional claim.
* **C67 The JSON stage reads the header back.** Composition of C66's tree with the model of the JSON stage's opening.
* **C68 Where an upload is saved.** Path joining and resolution on component lists; witnesses for absolute names and dot-dot.
* **C69 The digest covers the whole document.** The chunks read concatenate to the content; fold over the chunks.
* **C70 The table shown with a lint entry.** The search by XPath predicate against a declarative first table; independence of the order of the figures.
* **C71 The JSON file is JSON for the document.** The encoder of json.dump against a declarative grammar; a recursive-descent reader proved equivalent to the grammar gives uniqueness; distinct keys from C27 and the shape of the entities.
* **C72 The upload page follows the event stream.** Induction over the events with the chunks peeled line by line; no proper prefix of an object's text is JSON (C71's reader); composed with C56.
* **C73 The HTML file is read as XML and gives the tables back.** SpecXml.v gives the part of the XML grammar used (characters, references, attributes, content, document with a doctype) as inductive relations. XmlProofs.v has a reader that is sound and complete for it, hence one reading. XmlText.v: the pieces of a well-formed list are written to characters with a reading that differs only in white space between elements, by induction over the pieces; XmlNeat.v: the renderer's pieces hold only XML characters and names. Composed with C66 and C67.
* **C74 Texts and cells look as in the docx document.** SpecCss.v gives the part of CSS syntax, selectors and cascade used, as relations. The lines written are read as the rules of the sheet (CssProofs.v), in one way (a reader, CssRead.v). Class names are in one-to-one correspondence with formats (C40, C41), so among the rules for a class only its own applies (CssCascade.v). Places in the tree are traced back to spans, cells and lists by induction over C66's relation (CssPlaces.v). Composed with C73.
* **C75 The markers of list items.** Matching of the descendant selectors 'ol.olN ol ... ol' counted along the chain of enclosing lists (CssLists.v); the winner by specificity and order is the deepest level that matches. Witnesses for mixed kinds and for a list that begins at level 1.
* **C76 Borders and margins.** The rules for classes and lists set other properties; the cascade of the seven fixed rules is computed for an arbitrary place (CssTags.v).
* **C77 Every figure that can be read is in the output.** SpecReads.v says what a table gives, when it comes to its end and what an obstacle is. The loop over the rows is run with a parser that ignores nested figures (ReadProofs.v): it ends with what the rows give, or raises at an obstacle, and the two exclude each other. ReadFigs.v puts the nested figures back with the step lists of C23-C30; readability by induction on the size of the table.
* **C78 From the cells of the docx document to the JSON file.** SpecEnd.v says what the cells of a docx table say (own vocabulary: texts of runs, cells covering a row) and what fields they give. EndProofs.v: a cell that says a text is written as an element the extractor reads that text from; EndRows.v: the rows the JSON stage iterates over, without the title row (on top of C43); EndFigure.v: every row gives what its texts give, no figure is nested. Then C73, C44, C77 and C71 are chained.
* **C79 Cells with several paragraphs, lists and tables.** SpecDeep.v adds to SpecEnd.v's vocabulary cells that open with a paragraph, their text up to line breaks, and the tables in them. DeepText.v: what a cell with several blocks is written as and what its first paragraph and its whole text are read as; DeepTables.v: a table in a cell of a written table is the writing of the table in that cell; DeepRows.v and DeepFigure.v: the rows give the fields and nested figures the cells say, by induction on the nesting. Chained as for C78.
* **C80 Everything a document gives.** SpecOut.v says, as mutually inductive relations, what rows, tables, figures and documents give: entries, nested figures, checks, entity, endings. OutProofs.v: a row's run is the row's items (exactly, not only the codes); OutFigure.v: the run of a table is its items, then checks and entity, and by induction on the size of the table the run of a figure is what the specification gives; OutUnique.v: the specification leaves no choice (items of the first rows come first; a failing row gives no items), by induction on the derivation. Then over the tables of the document, and composed with C33 and C71 for the file.
* **C81 What a docx document means.** SpecStage1.v says, as mutually inductive relations over the elements of the document, what contents, tables, rows and cells mean, with the tables met so far; SpecQuery.v, SpecRuns.v, SpecGrid.v and SpecList.v give the vocabulary (values at paths, runs and formats, layout, numbering), none of it with the functions of the model. Stage1Proofs.v: the grid has at every position the cell of the layout; what is read is meant, by induction on the fuel; what is meant is read unless the fuel runs out, by induction on the meaning; the fuel suffices (C63).
* **C82 A run writes its outputs and nothing else.** Disk.v models a run as a relation between the disk, the texts written in order and the status; an interruption keeps of the writes to each file some prefix, the last one perhaps cut short. Induction over the inputs gives the paths written; file names are told apart by C60's lemmas. Every run is one of Cli.v's with the same status and JSON files, so C59-C61 carry over. Witness for the replaced HTML file.
* **C83 Status 0 means that all outputs are there.** The run is split at the input; the last write to each of its outputs is found, and C73, C81, C80 and C71 say what is in it. The document in a docx file is specified from its parts (SpecDisk.v) and unique.
* **C84 An interruption leaves no file that looks complete.** No proper prefix of an object's text is JSON (C71's reader). No proper prefix of a document is one, up to white space (XmlPrefix.v, on C73's reader); what is written if a table raises is such a prefix, because with the closing tags it is the document for the tables before. What a run writes depends on the contents of its inputs only, by induction over the inputs.
* **C85 Inputs that can be processed are processed.** Every stage of Disk.v has an outcome for each input; induction over the inputs gives a run. For success the disk agrees with the first one on the remaining inputs (C82), opening gives the document specified in SpecDisk.v, C81 and C73 the HTML file, C80 that its processing comes to the end, C36 that it is valid. With --skip-figure-on-error by C24: a figure without rows cannot come from tables that have rows, by induction on what the document means.
* **C86 What is logged can be read back.** Log.v models the two handlers on a list of records; SpecLog.v says what an entry tells (objects up to the order of their members) and which texts are a log. That lines are JSON and ASCII by induction on the value, with C72's writer; the split at line breaks is unique, JSON texts have one value (C71), and the members determine the record, by induction on the chain of causes. No proper prefix of an object is JSON (C84). SPEX_DEBUG: inversion of lower casing by a sweep over its table.
* **C87 The rows of any table.** SpecIter.v gives the rules as inductive relations that do not use the model; IterProofs.v: each function of RowIter.v computes its relation, which leaves no choice, by induction on the cells and the rows. Own cells, cells above and the end of the rows: induction on the derivation, with the invariant that what reaches into a row comes from cells above. The theorems about figures (C07, C16, C25, C30, C38, C39, C77, C78, C80) take the rows of a table from this relation.
* **C88 Every figure that fails is named in the log.** Messages.v repeats the functions of Document.v and Extract.v that log, with a list of acts (events and messages); erasing the messages gives the old functions (MsgProofs.v). SpecMsg.v says what a report is and what Python literals stand for. MsgFlow.v: the acts of a table are reports with their entries, by induction on the fuel, with the flag on exceptions that says whether one has been reported. repr is inverted by induction on the string; literals end in one place only. Prop_Bound.v: an invariant of all messages a computation logs, by induction on the computation.
* **C89 What a run tells its user.** RunLog.v repeats the relations of Disk.v with what is logged and written to the standard error; they have the same runs. SpecRunLog.v says what is told about an input and about a run. One document: C88 with the outputs of C80 and the JSON file of C71; one input: the HTML file that is read is the one on the disk or the one just written (C82's lemmas on names); then induction over the inputs. The rest by induction on what is told. The console by C86.
* **C90 What a command line means.** Args.v models the part of argparse that is used and the conversions of the values; it was compared with Python's argparse on random lines. SpecArgs.v says how an option can be written, what a line is and what it means (the last setting of each kind), as relations without the functions of the model. ArgsProofs.v: a word is an option, an argument or neither exactly as specified; ArgsLine.v: by induction on the line, the actions taken for it are its settings and inputs, and a line that is accepted has the specified form.
* **C91 What the program does for a command line.** Program.v puts Args.v and RunLog.v together. The theorems follow from C90 (the line and its meaning), C89 (what is told), C82 (the files changed) and C85 (success); that the statuses 0 and 1 are the only ones after the arguments were read is by induction on what is told.
* **C92 The characters of the JSON file.** SpecChars.v says which characters a document has and what can be derived from them. CharProofs.v: each string operation, pattern match and row iteration keeps within a set of characters that has ASCII and is closed under change of case. CharFlow.v: an invariant of all entities and lint entries a computation gives, by induction on the rows and the fuel; the tables of the quirks and of the case mapping are checked by computation. Then the text of a JSON value by induction on it.
* **C93 Only texts and table structure count.** SpecAlike.v says which elements and attributes are looked at and when two documents are alike. AlikeProofs.v: alike elements have the same text and children that are alike; the row iteration keeps this, carried cells included; a relation between computations (same events, related results) is kept by all loops, by induction on the rows and the fuel, and C37 removes the fuel, which depends on the size of a table and so on its formatting.
* **C94 How the parts of a document are read.** The model functions for the queries (Xml.v), for int() (PyStr.v) and for the spans (RowIter.v) against relations that do not use them (SpecElem.v). It gives the words 'text', 'child', 'attribute' and 'integer' in the other specifications their meaning. By induction on the children, the attributes and the characters.
* **C95 Special treatment is confined to its figures.** SpecQuirks.v lists the documents, their special figures and the labels set by hand. Two parsers that treat a set of figures in the same way, closed under nesting and splitting off, run alike on them: the relation between computations of C93, by induction on the rows and the fuel. That the tables of the program are the listed ones is checked by computation; the rest is for all names, figures and tables.
* **C96 What is not read of a docx document changes nothing.** SpecResaved.v lists the elements and attributes that are read and says when two docx documents differ in the rest only. ResavedProofs.v: every query of the docx stage (Docx.v) gives related elements or the same values; then styles, numbering, grid, lists, cells and tables are the same, by induction on the children, the chains of styles, the rows and the fuel, which differs between the two documents as it depends on their sizes. Prop_Resaved.v takes this through Disk.v to runs of the program, errors and unfinished conversions included.
* **C97 The skip option changes nothing unless a figure fails.** Prop_Skip.v: a table on its own gives the same events with and without the option (the comparison behind C25), and the run without it ends well only if all tables do; C23 puts them together, by induction on the tables. Then parse_spec (Output.v), the inputs of a run and runs (Disk.v), by induction on the inputs. Prop_SkipLog.v does the same for the messages (Messages.v, RunLog.v): a relation between computations, kept by all loops, by induction on the rows and the fuel. Prop_SkipLine.v takes it through Args.v and Program.v to command lines. That the two settings do differ on a document with a figure that fails is C97_always_refuted.

## Trusted base

* Coq 8.16.1's kernel (including `vm_compute`, used for witnesses and table sweeps).
* `Print Assumptions` is issued for every property theorem; the answer everywhere is
  "Closed under the global context": no theorem uses an axiom.  Loading the standard
  library's ssreflect files brings the seven declarations `Coq.ssr.ssrunder.Under_rel.*`
  into the environment; no theorem depends on them.
* No axioms, parameters or admitted goals of our own.  `Variable`s occur inside sections
  only (the program version, the MD5 function, what a file contains) and are universally
  quantified in the theorems.
* The correspondence between the Gallina definitions and /repo, documented by the
  file/line citation above every definition.

## What is modelled

| source | model | not modelled |
|---|---|---|
| `jsonspec/extractors/*.py` | `Regexes.v`, `Helpers.v`, `Extract.v`; the log messages: `Messages.v` | |
| `jsonspec/rowiter.py` | `RowIter.v` | |
| `jsonspec/document.py`, `quirks/*.py`, `queries.py`, `parserargs.py` | `Document.v`, `Xml.v`; the log messages: `Messages.v` | |
| `jsonspec/lint.py`, `defs.py`, `exceptions.py` | `Lint.v`, `Json.v` | exception texts |
| `parse.py`, `writer.py`, `jsonspec/parse.py` | `Output.v`, `JsonText.v`; the log messages: `RunLog.v` | the stdout writer; I/O errors |
| `resources/stage2.schema.json`, `validate.py` | `Schema.v` | jsonschema itself is replaced by the meaning of the keywords used |
| `__main__.py`, `progressbar.py` | `Cli.v`, `Disk.v` (with the files read and written, interruptions), `RunLog.v` (with what is logged), `Args.v` (the words of the command line, with the part of Python's argparse that is used; making the output directory), `Program.v` | help texts and error messages of argparse, parents of an output directory that are made with it, the progress display, errors of writing |
| `htmlspec/parser.py`, `stream.py`, `docx/*.py` | `Docx.v` | unzipping the docx file |
| `htmlspec/htmlrenderer.py`, `css.py` | `Render.v`, `Css.v` | — (for C74 to C76 the tree is the one an XML parser reads; a browser may insert a tbody element, which no rule mentions) |
| `xml.py` | `Xml.v` | lxml's parser: for the files the docx stage writes it is replaced by the XML grammar in `SpecXml.v` (C73), elsewhere the input is the tree |
| `spexsrv/application/app.py` | `Server.v` | Quart's routing and request parsing, MD5 (a function), page templates |
| `spexsrv/application/report_view.py`, `templates/report.html` | `Report.v` | markup and styling; XPath other than comparison with a number |
| `templates/upload-form.html` | `Client.v` | markup; decoding of UTF-8 (the stream is ASCII) |
| `log/` | `Log.v` | colours; loguru's formatting of stack traces (a function); the lines jsonify_exc prints to the standard output |

Language built-ins used by the code (Python's `str` and `int` operations, its regular
expressions, JavaScript's objects and sort) are modelled in `PyStr.v`, `PyTables.v`,
`Regex.v`, `JsonText.v` and `Report.v`; `Conformance.v` runs the documents of
/repo/tests through the model and compares with the results the tests expect.
