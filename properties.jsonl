{"id": "C01", "title": "Bit/byte range text is read as high:low", "statement": "For a row of a bits/bytes table whose range cell reads '<digits>', or '<digits> : <digits>' with any white space around the colon, the emitted field has high = the first number and low = the second (or low = high when there is only one), whatever text follows. A range cell that does not begin with a decimal digit is emitted verbatim as a string and recorded as R1001; a range cell that does begin with one is never recorded as R1001.", "quantifier": "every range text (any length, any digits, any white space, any trailing text)", "why_tests_cant": "unbounded set of texts; regex backtracking and greedy choices matter on all of them", "anchors": ["src/spex/jsonspec/extractors/structtable.py:StructTableExtractor._parse_range", "src/spex/jsonspec/extractors/regular_expressions.py:RANGE_REGEX"]}
{"id": "C02", "title": "Reversed ranges are reported", "statement": "R1002 is recorded for a row if and only if its range was read as two numbers with low > high; nothing else is recorded by reading that range, and the field still carries the two numbers as written.", "quantifier": "every pair of numbers of any size", "why_tests_cant": "iff over all integers", "anchors": ["src/spex/jsonspec/extractors/structtable.py:StructTableExtractor._parse_range"]}
{"id": "C03", "title": "Gap and overlap lints are sound and complete between neighbours", "statement": "For a struct table whose rows were not reported as T1004, T1001 (overlap) is recorded for a field exactly when the preceding field's high >= its low, and T1002 (gap) exactly when the preceding high + 1 < its low, for every pair of neighbouring fields that both have numeric ranges and are not ellipsis rows; no other T1001/T1002 is recorded.", "quantifier": "every list of fields of any length", "why_tests_cant": "quantifies over all field lists; a test covers a handful of layouts", "anchors": ["src/spex/jsonspec/extractors/structtable.py:StructTableExtractor.validate_fields"]}
{"id": "C04", "title": "A lint-free struct table is a partition", "statement": "If a bits/bytes entity with only numeric ranges (no ellipsis, no formula) comes out with none of T1001, T1002, T1004, R1002 recorded for its rows, then its fields in emitted order are contiguous and every offset between the first low and the last high belongs to exactly one field.", "quantifier": "every table, every offset", "why_tests_cant": "universally quantified over tables and offsets", "anchors": ["src/spex/jsonspec/extractors/structtable.py:StructTableExtractor.validate_fields", "src/spex/jsonspec/extractors/structtable.py:StructTableExtractor.__call__"]}
{"id": "C05", "title": "Contiguous well-formed tables are never flagged", "statement": "If the fields of a struct table, in emitted order, have numeric ranges with low <= high and each field starts right after its predecessor, then none of T1001, T1002, T1004 is recorded.", "quantifier": "every field list", "why_tests_cant": "absence of false positives for all layouts", "anchors": ["src/spex/jsonspec/extractors/structtable.py:StructTableExtractor.validate_fields"]}
{"id": "C06", "title": "Row order lint", "statement": "Cut the emitted fields into stretches at ellipsis rows and rows whose range is plain text. T1004 is recorded exactly when, in some stretch, some field's numeric low is smaller than the numeric low of the FIRST field of that stretch; then it is recorded once and no other overlap/gap/duplicate lint is produced for the table. In particular a descending pair that does not fall below the stretch's first low is not reported as T1004.", "quantifier": "every field list", "why_tests_cant": "exact iff over all orders; includes the counterexample to the naive reading", "anchors": ["src/spex/jsonspec/extractors/structtable.py:StructTableExtractor.validate_fields"]}
{"id": "C07", "title": "Bits tables come out reversed, bytes tables in document order", "statement": "The fields of a bytes entity are in the order of the table rows and the fields of a bits entity are in exactly the reverse order of the table rows, with no field lost or added by the reordering.", "quantifier": "every table", "why_tests_cant": "all row sequences", "anchors": ["src/spex/jsonspec/extractors/structtable.py:StructTableExtractor.__call__"]}
{"id": "C08", "title": "Duplicate struct labels", "statement": "When T1004 is not recorded, L1002 is recorded for a struct field exactly when an earlier emitted field has the same label and that label is neither RESERVED nor the ellipsis; hence if no L1002 is recorded all labels other than RESERVED/ellipsis are pairwise distinct.", "quantifier": "every field list", "why_tests_cant": "set-membership over arbitrary histories of labels", "anchors": ["src/spex/jsonspec/extractors/structtable.py:StructTableExtractor.validate_fields"]}
{"id": "C09", "title": "Duplicate labels and values in value tables", "statement": "For a value table, L1002 (resp. V1002) is recorded for a field exactly when an earlier field that is not RESERVED/ellipsis has the same label (resp. value); RESERVED and ellipsis rows never produce either. Hence a table without them has pairwise distinct labels and values among the other rows.", "quantifier": "every list of value fields", "why_tests_cant": "all histories of labels/values", "anchors": ["src/spex/jsonspec/extractors/valuetable.py:ValueTableExtractor.validate_fields"]}
{"id": "C10", "title": "Column headers are normalised independently of layout", "statement": "The header text of each column is lower-cased, stripped, with line breaks turned into spaces and runs of spaces collapsed; exactly the headers 'code', 'bit', 'byte' are replaced by 'value', 'bits', 'bytes', each replacement recorded as one T1006 naming both, and no other T1006 is recorded. One header is produced per header cell, in order, and normalising an already normalised header changes nothing.", "quantifier": "every header row", "why_tests_cant": "all header strings", "anchors": ["src/spex/jsonspec/document.py:DocumentParser.extract_tbl_headers"]}
{"id": "C11", "title": "Choice of extractor", "statement": "A table is handled as bytes, else values, else bits, according to the first of these whose required columns are all present, as a function of the header texts only; if none applies the table yields no entity and exactly one T1007 carrying its headers, and if one applies no T1007 is recorded for it.", "quantifier": "every list of header texts", "why_tests_cant": "all header combinations", "anchors": ["src/spex/jsonspec/document.py:DocumentParser._on_parse_fig", "src/spex/jsonspec/extractors/figure.py:FigureExtractor.can_apply", "src/spex/jsonspec/extractors/structtable.py:StructTableExtractor._can_apply", "src/spex/jsonspec/extractors/valuetable.py:ValueTableExtractor._can_apply"]}
{"id": "C12", "title": "Column used when headers repeat", "statement": "For each component (range/value, label, content) the extractor picks the first header in the table that is one of the accepted names, and then reads the LAST column carrying that header; when accepted headers are distinct this is the first matching column, as documented. With a repeated header the documented 'first match' does not hold.", "quantifier": "every header list", "why_tests_cant": "all header lists incl. duplicates", "anchors": ["src/spex/jsonspec/extractors/structtable.py:StructTableExtractor.__init__", "src/spex/jsonspec/extractors/valuetable.py:ValueTableExtractor.__init__"]}
{"id": "C13", "title": "Rowspan cells are restored in every row they cover", "statement": "For every rectangular table (a tiling by cells with arbitrary rowspan/colspan, each row having at least one cell of its own, no header cells), iterating its rows yields one row per table row, and row r consists of exactly the cells covering row r, left to right; content of the cells is unchanged.", "quantifier": "every tiling of every size", "why_tests_cant": "unbounded grids and span combinations", "anchors": ["src/spex/jsonspec/rowiter.py:row_iter", "src/spex/jsonspec/rowiter.py:sorted_row_children", "src/spex/jsonspec/rowiter.py:alst_insert", "src/spex/jsonspec/rowiter.py:alst_count_decr"]}
{"id": "C14", "title": "Rowspans across header rows and empty rows", "statement": "A header (th) row, or a row without any cell, does not use up a row of an open rowspan: the spanning cell is re-inserted into one later row for each such row crossed. So the per-row restoration of C13 fails for tables with such rows.", "quantifier": "every table with such a row; witnesses", "why_tests_cant": "state of the span list over arbitrary row histories", "anchors": ["src/spex/jsonspec/rowiter.py:row_iter"]}
{"id": "C15", "title": "Tables without spans are iterated verbatim", "statement": "If no data cell has a rowspan above 1, iterating the rows yields exactly the table's rows that contain a cell, in order and unchanged.", "quantifier": "every table", "why_tests_cant": "all tables", "anchors": ["src/spex/jsonspec/rowiter.py:row_iter"]}
{"id": "C16", "title": "Brief is short and quoted from the content", "statement": "An emitted brief is at most 60 characters, never begins with a space, is a contiguous piece of the content text, and is only emitted if the content text contains a colon.", "quantifier": "every content text", "why_tests_cant": "all texts, all lengths, regex backtracking", "anchors": ["src/spex/jsonspec/extractors/helpers.py:content_extract_brief", "src/spex/jsonspec/extractors/structtable.py:StructTableExtractor._parse_brief", "src/spex/jsonspec/extractors/valuetable.py:ValueTableExtractor._content_extract_brief"]}
{"id": "C17", "title": "Struct label grammar", "statement": "The struct label pattern matches every text; its label part is the longest prefix of word/space/,-./& characters, an opening parenthesis is skipped, the acronym is the longest following run of word/space characters, then an optional ')' and ':' are skipped and everything else is the brief. So 'Name (ACR): text' gives acronym ACR for every Name over that alphabet and every acronym of word characters.", "quantifier": "every text", "why_tests_cant": "needs a characterisation of the backtracking matcher on all strings", "anchors": ["src/spex/jsonspec/extractors/regular_expressions.py:STRUCT_LABEL_REGEX", "src/spex/jsonspec/extractors/structtable.py:StructTableExtractor._extract_label_same_column"]}
{"id": "C18", "title": "Value label grammar", "statement": "In a value table without a separate attribute column the label is built from the longest prefix of the first paragraph's text made of word, space, '/' and '-' characters (the whole text when that prefix is empty, recorded as L1000); the pattern never fails to match.", "quantifier": "every text", "why_tests_cant": "all strings", "anchors": ["src/spex/jsonspec/extractors/regular_expressions.py:VALUE_LABEL_REGEX", "src/spex/jsonspec/extractors/valuetable.py:ValueTableExtractor._extract_label"]}
{"id": "C19", "title": "Labels are normalised", "statement": "A normalised label contains no space, '/' or '-', has no surrounding white space other than what removing a '/' exposes, and is unaffected by upper-casing; normalisation is not idempotent for runs of three or more separators, and is idempotent when the label has no two adjacent separators.", "quantifier": "every label text", "why_tests_cant": "all strings", "anchors": ["src/spex/jsonspec/extractors/helpers.py:normalize_label"]}
{"id": "C20", "title": "Labels with invalid characters are reported", "statement": "After normalisation a label is accepted without L1004 exactly when it is a letter a-z/A-Z followed by word characters (optionally one final newline), or begins with optional white space and a '.', or is an ellipsis followed only by white space; every other label is recorded as L1004 with its figure, row and text.", "quantifier": "every label text", "why_tests_cant": "all strings; the ellipsis pattern has operator-precedence surprises", "anchors": ["src/spex/jsonspec/extractors/helpers.py:validate_label", "src/spex/jsonspec/extractors/regular_expressions.py:LABEL_VALIDATION_REGEX", "src/spex/jsonspec/extractors/regular_expressions.py:ELLIPSIS_LABEL_REGEX"]}
{"id": "C21", "title": "Emitted labels are identifiers when unflagged", "statement": "If a struct field's label was produced from a description without L1004 and does not start with '.' or an ellipsis, then the emitted (lower-cased) label is a letter followed by word characters, provided it contains no newline and no U+0307 (which lower-casing U+0130 introduces); an ASCII label is then a lower-case C identifier.", "quantifier": "every label text", "why_tests_cant": "all Unicode strings through upper/lower casing", "anchors": ["src/spex/jsonspec/extractors/structtable.py:StructTableExtractor._parse_label"]}
{"id": "C22", "title": "Invented labels and L1003", "statement": "In a struct table with a separate attribute column, L1003 is recorded exactly when the attribute text has no colon, i.e. when the label had to be invented from initials. In a table where label and content share a column an invented (initials) label is NOT reported: L1003 is never recorded there.", "quantifier": "every label text", "why_tests_cant": "all strings; dead branch only visible by proof that the pattern always matches", "anchors": ["src/spex/jsonspec/extractors/structtable.py:StructTableExtractor._extract_label_separate_column", "src/spex/jsonspec/extractors/structtable.py:StructTableExtractor._extract_label_same_column"]}
{"id": "C23", "title": "Skipping a failing figure does not affect the others", "statement": "With skip-on-error, the entities and lints produced for a document are the concatenation, in document order, of what each top-level table produces on its own; so replacing or removing one figure (failing or not) leaves the entities and lints of all other figures unchanged, except for the numbering in FIG_ID_MISSING[n] figure names.", "quantifier": "every document, every figure, every failure inside it", "why_tests_cant": "all documents and failure positions", "anchors": ["src/spex/jsonspec/document.py:DocumentParser.parse", "src/spex/jsonspec/document.py:DocumentParser._on_parse_fig"]}
{"id": "C24", "title": "With skip-on-error processing does not abort", "statement": "With skip-on-error, processing a document in which every top-level table has at least one row and no table matches a document-specific extractor override always finishes without an exception. It can abort for a table without rows, and for an overridden figure whose columns are not recognised.", "quantifier": "every document", "why_tests_cant": "all documents; two abort paths lie outside the guarded region", "anchors": ["src/spex/jsonspec/document.py:DocumentParser._on_parse_fig", "src/spex/jsonspec/document.py:DocumentParser.iter_figures"]}
{"id": "C25", "title": "One parse-error lint per failing figure", "statement": "With skip-on-error, each top-level figure whose extraction raises, at any nesting depth, is recorded with exactly one T1000 (attributed to the innermost figure that raised), its own entity is not emitted and sub-entities completed before the failure are kept; a figure whose extraction does not raise records no T1000.", "quantifier": "every figure and nesting depth", "why_tests_cant": "failure at any depth and row", "anchors": ["src/spex/jsonspec/document.py:DocumentParser._on_parse_fig"]}
{"id": "C26", "title": "Fail-fast without skip-on-error", "statement": "Without skip-on-error the first figure whose extraction raises ends processing with that exception; the entities and lints of the figures before it are exactly those they produce on their own and nothing after it is processed.", "quantifier": "every document and failure position", "why_tests_cant": "all positions", "anchors": ["src/spex/jsonspec/document.py:DocumentParser._on_parse_fig", "src/spex/jsonspec/document.py:DocumentParser.parse"]}
{"id": "C27", "title": "Every lint entry is well formed", "statement": "No reachable processing step violates the lint entry assertions: each recorded issue has a non-empty figure id, a non-empty message, a code of the published list with the message published for that code, the context its code calls for (such as the label for L1002 or the two column names for T1006), and a row whenever its code starts with R, L or V.", "quantifier": "every document", "why_tests_cant": "all documents and code paths", "anchors": ["src/spex/jsonspec/lint.py:LintEntry", "src/spex/jsonspec/document.py:DocLinter.add_issue"]}
{"id": "C28", "title": "Unidentified figures get distinct numbers", "statement": "The n-th title row that mentions 'Figure' but from which no id can be read is recorded as T1008 under FIG_ID_MISSING[n] with n counting from 0 without gaps, and yields no entity; a table whose title does not mention 'Figure' yields neither entity nor lint.", "quantifier": "every document", "why_tests_cant": "all documents", "anchors": ["src/spex/jsonspec/document.py:DocumentParser._on_extract_figure_id", "src/spex/jsonspec/document.py:DocumentParser.iter_figures"]}
{"id": "C29", "title": "Figure id is read from the title", "statement": "For every title of the form 'Figure', white space, then a non-empty run of characters other than white space, ':' and '^', the figure id is exactly that longest run, whatever follows; titles of any other form yield no id.", "quantifier": "every title text", "why_tests_cant": "all strings", "anchors": ["src/spex/jsonspec/document.py:DocumentParser.rgx_fig_id", "src/spex/jsonspec/document.py:DocumentParser._on_extract_figure_id"]}
{"id": "C30", "title": "Nested tables become sub-entities of their row", "statement": "Every entity emitted for a table nested in a data row of figure F carries parent_fig_id = F and fig_id = F_<row key>; it is emitted before the entity of F, and sub-entities appear in row order.", "quantifier": "every nesting depth and table", "why_tests_cant": "all trees", "anchors": ["src/spex/jsonspec/extractors/figure.py:FigureExtractor.extract_data_sub_table", "src/spex/jsonspec/extractors/structtable.py:StructTableExtractor.__call__", "src/spex/jsonspec/extractors/valuetable.py:ValueTableExtractor.__call__"]}
{"id": "C31", "title": "Figure ids are not unique", "statement": "The schema calls fig_id the unique id of a figure, but two tables nested in one cell (or two rows with the same key) are emitted under the same fig_id.", "quantifier": "witness document", "why_tests_cant": "existential counterexample to a claim made for every document", "anchors": ["src/spex/jsonspec/extractors/figure.py:FigureExtractor.extract_data_sub_table", "src/spex/resources/stage2.schema.json"]}
{"id": "C32", "title": "Ignoring lint codes only filters the report", "statement": "For every set of ignored lint codes, the entities, their order, and the success or failure of processing are the same as with none ignored; the reported lint list is exactly the recorded list without entries of ignored codes, in order.", "quantifier": "every document and every set of codes", "why_tests_cant": "non-interference over all inputs", "anchors": ["src/spex/parse.py:parse_spec"]}
{"id": "C33", "title": "The output document is complete exactly on success", "statement": "The JSON file written for an input always contains every entity produced before processing ended, in order, and the meta keys written so far; it has a 'lint' key if and only if processing of the document finished without an exception. On failure the file is still written and the exception is re-raised; an input that cannot be read or does not name its specification and revision leaves an empty document.", "quantifier": "every document and failure point", "why_tests_cant": "all failure points", "anchors": ["src/spex/writer.py:FileWriter", "src/spex/parse.py:parse_spec"]}
{"id": "C34", "title": "Progress reporting does not change the result", "statement": "Driving the parser with progress reporting to completion writes exactly the same document as without; the json phase reports indices 0,1,2,... one per entity, each before that entity is written. If the consumer stops early, the document holds exactly the entities before the last reported one, and no lint key.", "quantifier": "every document and every stopping point", "why_tests_cant": "all histories of the consumer", "anchors": ["src/spex/parse.py:parse_spec"]}
{"id": "C35", "title": "Progress total is an upper bound for figures, not for entities", "statement": "The number of emitted figures that are not nested in another figure never exceeds the announced total, unless the document has a figure whose own extractor splits another figure off; but the reported index counts all entities and exceeds the total for documents with nested tables.", "quantifier": "every document; witness", "why_tests_cant": "claim over all documents with an existential refutation", "anchors": ["src/spex/parse.py:parse_spec", "src/spex/jsonspec/document.py:DocumentParser.num_figures"]}
{"id": "C36", "title": "Every emitted entity satisfies the published schema, with two exceptions", "statement": "A finished document validates against stage2.schema.json if and only if no emitted values entity has an empty field list and no emitted struct field has a textual (dynamic) low/high; documents with such an entity are rejected by the schema.", "quantifier": "every document", "why_tests_cant": "all documents against the whole schema", "anchors": ["src/spex/resources/stage2.schema.json", "src/spex/validate.py:validate_json"]}
{"id": "C37", "title": "Processing terminates", "statement": "For every document tree processing terminates: a bound on recursion computed from the size of the tree always suffices.", "quantifier": "every document tree", "why_tests_cant": "termination over unbounded nesting", "anchors": ["src/spex/jsonspec/document.py:DocumentParser._on_parse_fig"]}
{"id": "C38", "title": "Dynamic list ranges", "statement": "After a full-width header row whose text contains 'List', every later regular row's range 'A:B' of letters, digits and +-*() (blanks and line breaks dropped) is emitted as high = A and low = B as text; any other range text is emitted verbatim and recorded as R1001.", "quantifier": "every range text and table", "why_tests_cant": "all strings", "anchors": ["src/spex/jsonspec/extractors/structtable.py:StructTableExtractor._parse_dynamic_range", "src/spex/jsonspec/extractors/regular_expressions.py:DYNAMIC_RANGE_REGEX"]}
{"id": "C39", "title": "Reserved, obsolete and ellipsis rows", "statement": "In struct tables a row whose content is 'reserved'/'obsolete' in any letter case becomes a field labelled RESERVED/OBSOLETE with its range and no brief; a row whose range cell is a special word is dropped; a row whose label but not content is special is dropped.", "quantifier": "every row", "why_tests_cant": "all texts", "anchors": ["src/spex/jsonspec/extractors/structtable.py:StructTableExtractor.is_special_case", "src/spex/jsonspec/extractors/structtable.py:StructTableExtractor.handle_special_case"]}
{"id": "C40", "title": "Label overrides win in value tables", "statement": "For a (figure, value) pair with a configured override, other than the ellipsis, the emitted label is the override, L1007 is recorded for that row, and no label extraction takes place for it.", "quantifier": "every override table and value table", "why_tests_cant": "all tables", "anchors": ["src/spex/jsonspec/extractors/valuetable.py:ValueTableExtractor.__call__", "src/spex/jsonspec/quirks/"]}
{"id": "C41", "title": "Merged docx cells form rectangles", "statement": "For every docx table of positive column spans, the grid computation accepts the table with every cell's extent a rectangle (all positions inside [top..bottom]x[left..right] refer to that cell and none outside) exactly when every vertically continued cell has, directly above it, a cell with the same left edge and the same width. Then the grid has, at exactly the positions of the table, the cell that Word shows there, each cell begins where its w:tc begins and its colspan is its gridSpan. A table whose continued cells are misaligned may be accepted with a grid that is not made of rectangles.", "quantifier": "every docx table", "why_tests_cant": "unbounded grids", "anchors": ["src/spex/htmlspec/docx/tablewrap.py:TableWrap.grid"]}
{"id": "C42", "title": "Each docx cell is rendered once, at its origin, with its spans", "statement": "Rendering a docx table in which every continued cell lies below a cell of the same place and width gives one table with one tr for each row, holding one element for each cell that begins in that row, from left to right, with its contents and with colspan and rowspan equal to the columns and rows it reaches over (left out if one). The element is a th exactly if the cell is filled with a grey other than white, else a td.", "quantifier": "every docx table", "why_tests_cant": "all grids", "anchors": ["src/spex/htmlspec/htmlrenderer.py:SpexHtmlRenderer._render_table", "src/spex/htmlspec/parser.py:SpexParser._parse_table"]}
{"id": "C43", "title": "docx grid to HTML to rows is lossless", "statement": "For every aligned docx table whose rows each start at least one cell, whose data rows (those without a header cell) are equally wide and in which no cell reaches from or into a header row, rendering to HTML and iterating the HTML rows gives back the header rows unchanged and for every data row exactly the cells covering that row from left to right. A row without a cell of its own is lost.", "quantifier": "every docx table", "why_tests_cant": "composition of two algorithms over all grids", "anchors": ["src/spex/htmlspec/docx/tablewrap.py:TableWrap.grid", "src/spex/htmlspec/htmlrenderer.py:SpexHtmlRenderer._render_table", "src/spex/jsonspec/rowiter.py:row_iter"]}
{"id": "C44", "title": "Each docx table is rendered exactly once", "statement": "If no cell has a negative grid span, every w:tbl of the document is shown by exactly one table element of the HTML and every table element shows one: a table that is a direct child of a cell with a place of its own (it spans at least one column and does not continue the cell above) stands inside that cell, in order, and every other table stands in the body, in document order. The number of tables announced to the progress bar is at least the number written into the body. With a negative span a table can get lost.", "quantifier": "every document, any nesting", "why_tests_cant": "all nesting structures", "anchors": ["src/spex/htmlspec/parser.py:SpexParser.parse", "src/spex/htmlspec/parser.py:SpexParser._parse_table"]}
{"id": "C45", "title": "Lists keep every item in order", "statement": "Parsing a list consumes a non-empty beginning of the stream: paragraphs of the same abstract numbering on the level of the first one or deeper, up to the first element that is no such paragraph. Every consumed paragraph becomes exactly one item, in order. A paragraph closes the open lists of deeper levels and then is an item of the innermost open list if that has its level, and otherwise opens exactly one new list inside it; so the lists around an item are on strictly increasing levels, the innermost on its own. Parsing a list terminates.", "quantifier": "every sequence of list paragraphs", "why_tests_cant": "all level sequences", "anchors": ["src/spex/htmlspec/parser.py:SpexParser._parse_list", "src/spex/htmlspec/parser.py:SpexParser._parse_list_elems"]}
{"id": "C46", "title": "Rendered list markup is balanced", "statement": "The tags emitted for a list are properly nested for every list, and the text between them is the items' text in order.", "quantifier": "every list of any nesting", "why_tests_cant": "all list trees", "anchors": ["src/spex/htmlspec/htmlrenderer.py:SpexHtmlRenderer._render_list"]}
{"id": "C47", "title": "Text is escaped reversibly", "statement": "Rendered text contains no '<', '>', quote characters or bare '&', and unescaping it gives the original text back.", "quantifier": "every text", "why_tests_cant": "all strings", "anchors": ["src/spex/htmlspec/htmlrenderer.py:SpexHtmlRenderer._render_span"]}
{"id": "C48", "title": "CSS classes identify formatting", "statement": "Over any sequence of requests, two formats get the same class name if and only if they have the same CSS attributes; formats without attributes get none; every class handed out is emitted exactly once, with the attributes of the formats it was handed out for.", "quantifier": "every request history", "why_tests_cant": "all histories", "anchors": ["src/spex/htmlspec/css.py:CssCache"]}
{"id": "C49", "title": "Style merging", "statement": "Merging run properties takes each property from the overriding side if set there and from the base otherwise; it is associative, has the empty format as identity, and equal formats hash equally.", "quantifier": "all run properties", "why_tests_cant": "algebraic laws", "anchors": ["src/spex/htmlspec/docx/runproperties.py:RunProperties.merge", "src/spex/htmlspec/docx/runproperties.py:RunProperties.__eq__", "src/spex/htmlspec/docx/runproperties.py:RunProperties.__hash__"]}
{"id": "C50", "title": "Explicitly disabled underline/strike-through still shows", "statement": "A run whose underline (w:u val=none) or strike-through (w:strike val=0) is explicitly switched off is nevertheless given the corresponding text-decoration.", "quantifier": "witness and all runs", "why_tests_cant": "existential counterexample plus exact condition", "anchors": ["src/spex/htmlspec/docx/runproperties.py:RunProperties.__compute_css_attrs"]}
{"id": "C51", "title": "Style inheritance", "statement": "A style is found by the last style definition having the name as its id or among its aliases. Resolving a style whose basedOn chain ends yields, for each property, the value of the nearest style in the chain that sets it; a cyclic chain or a chain naming an undefined style raises.", "quantifier": "every style sheet", "why_tests_cant": "all chains", "anchors": ["src/spex/htmlspec/docx/styles.py:StyleResolver"]}
{"id": "C52", "title": "Stream delivers every element once", "statement": "Consuming a stream until its end yields exactly the underlying sequence; peek never changes what is consumed next; end is true exactly when nothing is left; consuming or peeking at the end raises.", "quantifier": "every sequence and every operation history", "why_tests_cant": "all histories", "anchors": ["src/spex/htmlspec/stream.py:Stream"]}
{"id": "C53", "title": "Table id attribute", "statement": "A rendered table has id N exactly when its first cell is a td whose first element is a paragraph with text 'Figure N:...', N the full digit run (for documents in which no cell has a negative gridSpan).", "quantifier": "every table", "why_tests_cant": "all texts", "anchors": ["src/spex/htmlspec/parser.py:find_id", "src/spex/jsonspec/extractors/regular_expressions.py:TABLE_ID_REGEX"]}
{"id": "C54", "title": "Spec title and revision", "statement": "The title is the header text before the first comma, stripped; the revision is the word (run of non-space characters) after the last 'Revision'/'revision' that begins on the header's first line and is followed by white space and a word (none if there is no such place).", "quantifier": "every header text", "why_tests_cant": "greedy backtracking over all strings", "anchors": ["src/spex/htmlspec/docx/header.py:Header"]}
{"id": "C55", "title": "Cached report belongs to the uploaded document", "statement": "As long as uploads with different content share neither a file stem nor a digest, and uploads with the same content are all docx files or all not, after every history of interleaved uploads the hash of a completed upload leads to the report, the HTML document and the report page of that upload; a later upload of a different document with the same stem replaces the report under the first hash.", "quantifier": "every history of the server: uploads in any number, interleaved in any way, failing or abandoned at any point", "why_tests_cant": "all histories and interleavings", "anchors": ["src/spexsrv/application/app.py:spec_parse", "src/spexsrv/application/app.py:json_report"]}
{"id": "C56", "title": "Report completion is announced after the report is available", "statement": "Whatever else the server does, the client of an upload is sent, as far as it asks, exactly the progress reports of processing that upload in order and, if and only if that succeeds and the file is named '<stem>.html' or '<stem>.docx', last of all one completion event with the digest of the upload. When it is sent the report, HTML document and report page of that upload are served under the digest, and from then on something is. A step without completion event changes no hash, and changes a cached file only when it ends the processing of an upload that is neither an HTML nor a docx file: such an upload fails, but may have replaced the report of another.", "quantifier": "every history of the server, with every interleaving, failure and abandoned upload", "why_tests_cant": "all histories and interleavings", "anchors": ["src/spexsrv/application/app.py:spec_parse"]}
{"id": "C57", "title": "Unknown report hash", "statement": "A request for the report, JSON or HTML of a hash whose completion was never announced raises an exception in the handler; no request for them is ever answered with 404.", "quantifier": "every history of the server and every hash", "why_tests_cant": "all histories", "anchors": ["src/spexsrv/application/app.py:report"]}
{"id": "C58", "title": "Lint summary adds up", "statement": "The summary has one row per code that occurs, with the number of entries with that code and the message of the first of them, in descending order of the numbers, which add up to the number of entries. A row is selected exactly if it was clicked an odd number of times since the filters were last cleared. The page shows every figure with an entry whose code is selected (or with any entry if none is), once, with exactly those entries in document order, unless a figure bears the name of a builtin property of JavaScript objects such as 'constructor', which breaks the page.", "quantifier": "every lint list and every sequence of clicks", "why_tests_cant": "all lists and histories of clicks", "anchors": ["src/spexsrv/templates/report.html:lintGroupByCode", "src/spexsrv/templates/report.html:errorSum"]}
{"id": "C59", "title": "CLI exit status and isolation of inputs", "statement": "Inputs are processed in order; the exit status is 0 exactly when there is at least one input, all exist, the lint codes to ignore are known and every input is named '<stem>.html' or '<stem>.docx', is processed without exception and, with --validate-json, passes the schema; the first failing input ends the run with status 1: outputs of earlier inputs and what was written of its own remain, and later inputs are not touched; a command line with a missing file or an unknown code writes nothing.", "quantifier": "every list of inputs", "why_tests_cant": "all input lists", "anchors": ["src/spex/__main__.py:main", "src/spex/__main__.py:arg_input"]}
{"id": "C60", "title": "Output names", "statement": "The output of '<dir>/<stem>.<ext>' is '<output dir>/<stem>.json'; so inputs with distinct stems never share an output file while inputs with equal stems overwrite each other.", "quantifier": "all file names", "why_tests_cant": "all names", "anchors": ["src/spex/writer.py:FileWriter.__init__", "src/spex/parse.py:get_writer"]}
{"id": "C61", "title": "--lint-ignore parsing", "statement": "A comma separated list of known codes in any letter case with any surrounding blanks is read as exactly those codes in order; any unknown code raises.", "quantifier": "every argument text", "why_tests_cant": "all strings", "anchors": ["src/spex/__main__.py:arg_lintcode"]}
{"id": "C62", "title": "Numbers leading a value label are moved to its end", "statement": "In a value table a label that begins with decimal digits gets them moved behind the rest of its first line, joined by one underscore, with underscores at the ends removed; text after the first line break is lost. Other labels are unchanged by this step.", "quantifier": "every label text", "why_tests_cant": "all strings", "anchors": ["src/spex/jsonspec/extractors/helpers.py:rearrange_num_label"]}
{"id": "C63", "title": "The docx stage terminates", "statement": "Reading the tables of a docx document ends, with a result or an exception, whatever the document: nested tables, lists of any levels and styles based on each other in a circle included.", "quantifier": "every docx document", "why_tests_cant": "all documents", "anchors": ["src/spex/htmlspec/parser.py:SpexParser.parse", "src/spex/htmlspec/parser.py:SpexParser._parse_any"]}
{"id": "C64", "title": "A list number leads to the definition Word would use by number", "statement": "A paragraph belongs to a list exactly when the numbering part has a w:num with the paragraph's number. Its list style is then the one of the last such w:num: the last w:abstractNum with the number that w:num refers to, and of that the level at the position given by the paragraph's level (counted from the end when negative). The level is taken by position and not by its w:ilvl attribute.", "quantifier": "every numbering part and every paragraph", "why_tests_cant": "all documents: repeated, missing and unordered numbers", "anchors": ["src/spex/htmlspec/docx/numbering.py:NumberingDocument", "src/spex/htmlspec/docx/numbering.py:AbstractNum.get_ilvl", "src/spex/htmlspec/parser.py:SpexParser.__p_is_list_paragraph"]}
{"id": "C65", "title": "The text of a paragraph", "statement": "The spans of a paragraph are, in order, its w:r children and the first w:r of each w:hyperlink and w:fldSimple child; the text of each is that of its first w:t. Other text of the paragraph (further w:t in a run, further runs in a hyperlink) is not shown.", "quantifier": "every paragraph element", "why_tests_cant": "all documents", "anchors": ["src/spex/htmlspec/parser.py:SpexParser._parse_spans"]}
{"id": "C66", "title": "The HTML document is one well-formed element", "statement": "Whatever the tables, the document written is a doctype followed by one html element with head (title, revision, version, file name and style sheet link) and a body showing the tables in order, provided title, revision, version and file name hold no quote, angle bracket, ampersand, tab or line break; these four are written unescaped, so a title with an ampersand gives a document no XML reader accepts.", "quantifier": "every docx document, title, revision and file name", "why_tests_cant": "all documents and texts", "anchors": ["src/spex/htmlspec/htmlrenderer.py:SpexHtmlRenderer.generate", "src/spex/htmlspec/docx/header.py"]}
{"id": "C67", "title": "The JSON stage reads the header back", "statement": "The document written by the docx stage is opened by the JSON stage with the same title and revision in lower case and one figure for every top-level table, in order; a document without a revision makes it raise.", "quantifier": "every docx document with a readable header", "why_tests_cant": "composition of the two stages over all documents", "anchors": ["src/spex/htmlspec/htmlrenderer.py:SpexHtmlRenderer.generate", "src/spex/jsonspec/parse.py:open_doc"]}
{"id": "C68", "title": "Where an upload is saved", "statement": "An upload whose file name has no slash and is not empty, '.' or '..' is saved under that name in its own temporary directory. The file name is not checked: an absolute name, or one with '..', is saved outside of it.", "quantifier": "every file name", "why_tests_cant": "all strings", "anchors": ["src/spexsrv/application/app.py:spec_parse"]}
{"id": "C69", "title": "The digest covers the whole document", "statement": "For a digest that may be fed piece by piece, the hash computed in chunks is the digest of the content as a whole, whatever the content and the positive chunk size.", "quantifier": "every file content and chunk size", "why_tests_cant": "all contents", "anchors": ["src/spexsrv/application/app.py:md5sum"]}
{"id": "C70", "title": "The table shown with a lint entry", "statement": "The report page shows an entry of a figure with a decimal id, or of a figure nested in it at any depth, with the first table in the body of the HTML document whose id is that number, and with the id of the figure if there is none; in whatever order the figures are processed.", "quantifier": "every lint list, HTML document and order of the figures", "why_tests_cant": "all documents and set orders", "anchors": ["src/spexsrv/application/report_view.py:get_erroneous_figures", "src/spexsrv/application/app.py:report", "src/spexsrv/templates/report.html:getFigureId"]}
{"id": "C71", "title": "The JSON file is JSON for the document", "statement": "The text of the written file is a JSON text by the grammar of RFC 8259; it stands for the written document and for no other value, so that reading it gives exactly the document back, whatever quotes, control characters or non-ASCII letters it holds. Its entities say of every figure produced, in order, exactly what was extracted (id, title, type, and of each field the label, the range or value and the brief), so that different figures have different JSON. No object in it has the same key twice, and it holds no control character but line feeds.", "quantifier": "every document, and every run of the processing, complete or not", "why_tests_cant": "all texts in all fields; all inputs", "anchors": ["src/spex/writer.py:FileWriter.__exit__", "src/spex/validate.py:validate_json"]}
{"id": "C72", "title": "The upload page follows the event stream", "statement": "However the network divides the event stream into chunks, the upload page shows exactly the events whose line does not contain a chunk boundary, in order; once the stream has announced the report and ended, the browser goes to the page of that report, which the server has, with both bars full, unless a boundary falls inside the announcement: then it goes to 'null'. All bytes of the stream are ASCII.", "quantifier": "every stream of events and every division of its bytes; every history of the server", "why_tests_cant": "all divisions of the stream", "anchors": ["src/spexsrv/templates/upload-form.html:submitForm", "src/spexsrv/application/app.py:json_to_sse"]}
{"id": "C73", "title": "The HTML file is read as XML and gives the tables back", "statement": "The characters of the HTML file written for a docx document, however the lines are indented, are a well-formed XML document with exactly one reading, provided the texts of the document hold only XML characters and no carriage return, and the title, revision, version and file name hold no quote, angle bracket, ampersand, tab or line break. The tree an XML parser reads from them shows every table with exactly the texts, spans and classes written, and the JSON stage opens it with the header's title and revision. A carriage return in a text is read back as a line feed.", "quantifier": "every docx document, header, file name and indentation", "why_tests_cant": "all texts: every character that needs escaping, in every position", "anchors": ["src/spex/htmlspec/htmlrenderer.py:SpexHtmlRenderer.generate", "src/spex/htmlspec/htmlrenderer.py:SpexHtmlRenderer._render_span", "src/spex/jsonspec/parse.py:open_doc"]}
{"id": "C74", "title": "Texts and cells look as in the docx document", "statement": "The style sheet written with the HTML file is read in exactly one way. The spans, cells and lists of the HTML file are those of the document one by one, in the same order. Under the sheet every text in the HTML file gets exactly the properties its run sets in the docx document (bold, italic, underline, strike, sub- or superscript, colour) and no others, and every cell the background colour of its docx cell, or none; provided the texts are as for C73 and every colour of six characters is made of letters and digits. A fill such as '}b{c:d' is written as it is and adds a rule of its own to the sheet.", "quantifier": "every docx document and every indentation of the two files; every element of the HTML file", "why_tests_cant": "all documents: every combination of formats, class names and nesting", "anchors": ["src/spex/htmlspec/htmlrenderer.py:SpexHtmlRenderer.generate", "src/spex/htmlspec/css.py:StyleCache", "src/spex/htmlspec/stream.py"]}
{"id": "C75", "title": "The markers of list items", "statement": "Under the style sheet a list gets the marker of a level of its numbering of the same kind (numbered or not): the deepest one that is not deeper than the list is nested in lists of that kind, and no marker if there is none. So, if the levels are written in order and a list begins at level 0, goes down level by level and is of one kind throughout, every list in it has the marker of its own level: decimal, letters or Roman numerals as in the docx document, discs and circles in turn if not numbered. A bulleted list in a numbered one may have no marker, and a list that begins at level 1 has that of level 0.", "quantifier": "every docx document with lists nested in any way", "why_tests_cant": "all nestings and numberings", "anchors": ["src/spex/htmlspec/docx/numbering.py:ListLevel.to_css", "src/spex/htmlspec/htmlrenderer.py:SpexHtmlRenderer._render_list"]}
{"id": "C76", "title": "Borders and margins", "statement": "Under the style sheet every table and cell has a border; a table in a td cell has less space below than one that is in none; the first paragraph of an element has space above it and the last below it. No format of a document changes that.", "quantifier": "every docx document and every element of the HTML file", "why_tests_cant": "all documents", "anchors": ["src/spex/htmlspec/htmlrenderer.py:SpexHtmlRenderer.generate", "src/spex/htmlspec/css.py:css_block"]}
{"id": "C77", "title": "Every figure that can be read is in the output", "statement": "A figure whose rows give fields up to the end of its table, or up to a row that ends it, and whose nested figures can be read likewise, is in the output with exactly those fields, whatever the other figures of the document are, if the run ends normally (with --skip-figure-on-error it does so but for C24's two exceptions). Extracting a figure raises exactly if there is an obstacle: a data row with a number of more than 4300 digits, a data row with too few cells that is neither '...' nor a note, a value whose label cell has no paragraph, inconsistent row or column spans before the end, columns a document's own extractor does not recognise, or such an obstacle in a nested figure.", "quantifier": "every document and every figure in it, nested to any depth", "why_tests_cant": "all tables: every combination of rows that can and cannot be read", "anchors": ["src/spex/jsonspec/extractors/structtable.py:StructTableExtractor.__call__", "src/spex/jsonspec/extractors/valuetable.py:ValueTableExtractor.__call__", "src/spex/jsonspec/document.py:DocumentParser.iter_figures", "src/spex/jsonspec/extractors/figure.py"]}
{"id": "C78", "title": "From the cells of the docx document to the JSON file", "statement": "A table of a docx document that stands in no cell of another, has a row with a figure title above a shaded header row, and whose merged cells line up, is an entity of the JSON file with the title and id of that row and the fields its cells say: for every row the range or value, the label and the brief taken from the texts of its paragraphs, a merged cell counting in every row it covers, up to a note or the end of the table; for tables with one paragraph in every cell the extractor reads, a complete run, and texts as for C73.", "quantifier": "every docx document and every such table in it, with any number of rows, columns and merged cells", "why_tests_cant": "all tables, texts and merges, through both stages and the three file formats between them", "anchors": ["src/spex/htmlspec/parser.py:SpexParser._parse_any", "src/spex/htmlspec/htmlrenderer.py:SpexHtmlRenderer.generate", "src/spex/jsonspec/rowiter.py:row_iter", "src/spex/jsonspec/extractors/structtable.py:StructTableExtractor.__call__", "src/spex/jsonspec/extractors/valuetable.py:ValueTableExtractor.__call__", "src/spex/writer.py:FileWriter.__exit__"]}
{"id": "C79", "title": "Cells with several paragraphs, lists and tables", "statement": "C78 holds as well if the label and content cells hold several paragraphs, lists and further tables: the label is taken from the first paragraph of the label cell, the brief from the text of the whole content cell, in which every paragraph and list item is on lines of its own, and every table in a content cell with columns that can be read is an entity of its own, with no title, named after the figure and the row it is in and with the fields its cells say, to any depth; tables in cells whose columns cannot be read are left out. Nested figures that raise are excluded, and so are the nested figures of a figure the document's extractor splits.", "quantifier": "every docx document and every such table in it, with tables nested to any depth", "why_tests_cant": "all tables, texts, lists and nestings, through both stages and the three file formats between them", "anchors": ["src/spex/htmlspec/parser.py:SpexParser._parse_any", "src/spex/htmlspec/htmlrenderer.py:SpexHtmlRenderer.generate", "src/spex/jsonspec/extractors/structtable.py:StructTableExtractor.__call__", "src/spex/jsonspec/extractors/valuetable.py:ValueTableExtractor.__call__", "src/spex/jsonspec/document.py:DocumentParser.iter_figures", "src/spex/writer.py:FileWriter.__exit__"]}
{"id": "C80", "title": "Everything a document gives", "statement": "The entities and lint entries of a document, in their order, are exactly these, and what a figure and a document give is determined by its table: for each figure with an id, an entry for every header under another name; for each row up to the end of the table the entries of its range and label, then what the figures nested in it give; then the entries of the checks on the finished fields (repeated labels and values, gaps, overlaps, wrong order), the entity, and what a figure split off gives. At a row that cannot be read, inconsistent spans or a nested figure with an error the figure ends with one entry for the error, unless it has been reported already, and gives no entity. A figure without an id gives one numbered entry, other tables nothing. An error ends the document unless it was reported and errors are to be skipped. The JSON file holds all these entities and, if the document did not end with an error, all these lint entries but the ignored ones, in the same order.", "quantifier": "every document, with figures nested and split to any depth, with errors anywhere, with and without --skip-figure-on-error, and every list of ignored codes", "why_tests_cant": "all documents, every combination and position of irregularities", "anchors": ["src/spex/jsonspec/document.py:DocumentParser.iter_figures", "src/spex/jsonspec/extractors/structtable.py:StructTableExtractor.__call__", "src/spex/jsonspec/extractors/valuetable.py:ValueTableExtractor.__call__", "src/spex/jsonspec/lint.py:Linter.add_issue", "src/spex/parse.py"]}
{"id": "C81", "title": "What a docx document means", "statement": "The docx stage reads from a document whose merged cells line up exactly what the document says, and raises if it says nothing: of every table, at any depth and in document order but each once, at every position of its layout the cell that covers it with its width, height, place, colour and kind (a header if the colour is a grey), and in the cell, in order, its paragraphs that have a text, its lists with the paragraphs of deeper levels as lists within, and its tables; the runs of a paragraph with their formats; the number of the table if its first cell is no header and begins with 'Figure', a number and a colon. A document says one thing at most, and the HTML file shows it.", "quantifier": "every docx document with any nesting of tables, lists and merged cells", "why_tests_cant": "all documents: every combination of merges, numberings, nestings and formats", "anchors": ["src/spex/htmlspec/parser.py:SpexParser.parse", "src/spex/htmlspec/parser.py:SpexParser._parse_any", "src/spex/htmlspec/parser.py:SpexParser._parse_list", "src/spex/htmlspec/parser.py:SpexParser._parse_table", "src/spex/htmlspec/parser.py:find_id"]}
{"id": "C82", "title": "A run writes its outputs and nothing else", "statement": "Whether it succeeds, fails or is interrupted at any point, a run of the program changes no files other than the log and the outputs of its inputs: in the output directory the JSON file of each input and the HTML file and style sheet of each docx input, named like the input. In particular it changes no docx file, and no HTML file but that of a docx input: an HTML input of the same name as a docx input, in the output directory, is replaced.", "quantifier": "every command line, every content of the disk, every outcome and every point of interruption", "why_tests_cant": "all contents of the disk, all file names and all points of interruption", "anchors": ["src/spex/__main__.py:main", "src/spex/parse.py:parse_spec", "src/spex/writer.py:FileWriter", "src/spex/htmlspec/htmlrenderer.py:SpexHtmlRenderer.__del__"]}
{"id": "C83", "title": "Status 0 means that all outputs are there", "statement": "After a run with status 0 each input has its outputs, unless a later input has the same name: for a docx file the HTML file and style sheet written for the one document in it (whose title and revision are those of its header), and the JSON file for what that HTML file says; for an HTML file the JSON file for what it says when the run ends. A run that fails is a run with status 0 on the inputs before the failing one, and writes nothing more than outputs of this one.", "quantifier": "every command line and every content of the disk", "why_tests_cant": "all contents of the disk and all lists of inputs", "anchors": ["src/spex/__main__.py:main", "src/spex/parse.py:parse_spec", "src/spex/writer.py:FileWriter.__exit__", "src/spex/htmlspec/htmlrenderer.py:SpexHtmlRenderer.__del__", "src/spex/htmlspec/docx/document.py:Document"]}
{"id": "C84", "title": "An interruption leaves no file that looks complete", "statement": "If a run is interrupted at any point, each file being cut short independently, or fails, then each JSON file in the output directory is the old one, or holds no JSON text, or is a whole output of the run, and in the last case, if it has a list of lint entries, the one for what the HTML file of an input says; and the HTML file of each docx input is the old one, or is not well-formed, or is the whole output for the document but for white space at its end (for documents as in C73). Running the program again writes and returns what it would have without the interruption, if all inputs are HTML and docx files and no HTML input is the output for a docx input.", "quantifier": "every command line, every content of the disk and every point of interruption of each file", "why_tests_cant": "all crash points: every prefix of every write, in any combination", "anchors": ["src/spex/__main__.py:main", "src/spex/parse.py:parse_spec", "src/spex/writer.py:FileWriter.__exit__", "src/spex/htmlspec/htmlrenderer.py:SpexHtmlRenderer.__del__"]}
{"id": "C85", "title": "Inputs that can be processed are processed", "statement": "A run of the program always comes to an end with status 0, 1 or 2. It succeeds if the options are valid and there are inputs, and each of them can be processed: an HTML file, not the output for a docx input, that is an XML document with a title, a revision and no figure that ends the run (and with --validate no entity outside the schema); or a docx file with its parts, ids for its styles, tables whose merged cells line up, texts that can be written, which means something of which each HTML document can be processed. With --skip-figure-on-error and without --validate the latter holds for each specification without extractors of its own whose header has a revision and whose tables have rows, whatever they say.", "quantifier": "every command line and every content of the disk", "why_tests_cant": "all contents of the disk and all lists of inputs", "anchors": ["src/spex/__main__.py:main", "src/spex/parse.py:parse_spec", "src/spex/htmlspec/docx/document.py:Document", "src/spex/jsonspec/document.py:DocumentParser.iter_figures"]}
{"id": "C86", "title": "What is logged can be read back", "statement": "Without SPEX_DEBUG the console shows the messages to the user (levels U_INFO to U_CRITICAL), in order, each after a bullet and followed by a line break, and nothing else: no message of the program's own levels and no stack trace. If SPEX_DEBUG is true, yes or 1, in any letter case and with any blanks around it, and only then, the messages of the other levels from DEBUG on are shown too, with the level before each and the stack trace of the exception after it. The file spex.log holds one line for each record from DEBUG on, in order, of printable ASCII characters: the JSON text of an object with level, message, file, function and line, with the values bound to the record if there are any, and with the exception being handled, if there is one: type, message, stack trace and, nested, what caused it. The text determines the records. Of an interrupted program's log every line but the last is whole and tells its record; what follows the last line break is nothing, the line of the next record, or not JSON.", "quantifier": "every sequence of records with any texts (proper Unicode), any chain of causes, every value of SPEX_DEBUG, every point of interruption", "why_tests_cant": "all texts, all lengths of the log and of the chain of causes, all crash points", "anchors": ["src/spex/log/_log_config.py:jsonify_exc", "src/spex/log/_log_config.py:LogFileSerializer.__call__", "src/spex/log/_log_config.py:fmt_no_stacktrace", "src/spex/log/_log_config.py:ULog"]}
{"id": "C87", "title": "The rows of any table", "statement": "Whatever the spans of its cells are, the rows read from a table are those that follow from these rules: rows without cells are left out; rows with header cells are given as they are and use up no row of a span; any other row is given with its own cells, all of them in their order, and among them the cells of earlier rows reaching into it, each at its column and without its rowspan, those left over at the end of the row (of which the first one is lost if it is not at its column). There is no other outcome. All rows are given exactly if every span, header rows apart, is missing or an integer; if not, the rows before the one with the bad span.", "quantifier": "every table with any rows, cells and span attributes", "why_tests_cant": "all tables, with spans that overlap, leave gaps or are not numbers", "anchors": ["src/spex/jsonspec/rowiter.py:row_iter", "src/spex/jsonspec/rowiter.py:sorted_row_children", "src/spex/jsonspec/rowiter.py:alst_insert", "src/spex/jsonspec/rowiter.py:alst_count_decr"]}
{"id": "C88", "title": "Every figure that fails is named in the log", "statement": "The messages logged while a document is processed are reports, one for each entry of the output about a figure that failed (T1000) or that has no id (T1008), in the order of the entries, and nothing else; processing is otherwise what it would be without messages. The report of a failed figure is an error message for the user with a description of the figure from which its id, title and parent can be read back (a Python dict of literals), a record for the log file with the exception, and one message for the user for each figure around it, from the inside out; if a row failed, the record of the row comes first. The report of a figure without an id gives its title. Each message about a figure carries the figure, the title and revision of the document and the name of the extractor the figure is read with. If processing ends with an exception, the last report is of that exception and leads from the figure that failed to the figure of the document it is in, unless a table has no rows or the document's own extractor does not recognise the columns of a figure: then nothing is reported (witnesses).", "quantifier": "every document, every parser with extractors that do not lead back to themselves", "why_tests_cant": "all documents, all nestings of figures, all strings in titles", "anchors": ["src/spex/jsonspec/document.py:DocumentParser._on_parse_fig", "src/spex/jsonspec/document.py:DocumentParser._parse_fig", "src/spex/jsonspec/document.py:DocumentParser.iter_figures", "src/spex/jsonspec/extractors/structtable.py:StructTableExtractor.__call__"]}
{"id": "C89", "title": "What a run tells its user", "statement": "Unless the command line is not valid (then nothing is logged), a run announces its inputs one after the other with a message of level U_INFO, all of them if its status is 0 and otherwise those up to the one at which it ends. Between the announcements there are, in order, the reports about the figures of the document that failed or have no id (C88) and, if the list of lint entries in the JSON file written for the input is not empty, one message with the length of this list and the path of the file. The status is 0 exactly if the run ends after the last input with no other message. Otherwise it is 1, and the run ends either with a text on the standard error that rejects an input with another suffix, or with a record of the exception and the message that the program gives up; the exception is the one reported last, unless the docx file could not be converted, the HTML file could not be read or has no title or revision, the JSON file is not valid, or a table without rows or columns that the document's own extractor does not recognise went unreported. A run with status 0 and no entries in its JSON files, without --lint-ignore, shows the announcements only. Logging changes neither the files nor the status. Not true: that ignored codes are not shown; that there are messages about figures above the last message (witnesses).", "quantifier": "every command line, every content of the disk, every run", "why_tests_cant": "all lists of inputs, all documents, all ways in which a run can end", "anchors": ["src/spex/__main__.py:main", "src/spex/parse.py:parse_spec", "src/spex/log/_log_config.py:ULog"]}
{"id": "C90", "title": "What a command line means", "statement": "A command line starts the program exactly if it consists of options, one or more inputs and options, or of options and inputs with '--' before the last of them, nothing in it ends the program, each input is a file, each output directory exists or can be made and each value of --lint-ignore is a list of lint codes. An option can be written by its name or a beginning that no other name has, by its letter alone or in a group with others, and its value in the next word, after '=' or directly after the letter. Then the program is started with the inputs in their order, and each setting is the one said last, or its default. A line has one reading at most. Otherwise the program does not start. A line of this form ends at the first request for help with status 0 or at the first value that cannot be used with status 1, whichever comes first; the directories made are those named by --output before it that did not exist, each once. A line of another form ends with status 0, 1 or 2, and 2 is only given for such a line: at once and without making a directory if an option is ambiguous; otherwise as above if one of the options it begins with asks for help or has a value that cannot be used; with 2 if there are valid options only. Inputs with options in between are refused.", "quantifier": "every list of words, every content of the disk", "why_tests_cant": "all lists of words, with all abbreviations, groups of letters, values that look like options", "anchors": ["src/spex/__main__.py:main", "src/spex/__main__.py:arg_input", "src/spex/__main__.py:arg_output", "src/spex/__main__.py:arg_lintcode"]}
{"id": "C91", "title": "What the program does for a command line", "statement": "For every list of words and every content of the disk the program ends with status 0, 1 or 2. Either the reading of the arguments ends it (C90), with no file written and nothing logged; or the words are a command line whose inputs are files, and the inputs are processed in their order with the settings the line gives, the outputs going to the directory named last or else to the working directory, and its user is told what C89 says; then the status is not 2. Status 2 is for words that are no command line. Wherever it is interrupted, the program changes no file but the log and the outputs of the inputs of the line in this directory. If all inputs can be processed (C85) the status is 0.", "quantifier": "every list of words, every content of the disk, every point of interruption", "why_tests_cant": "all command lines together with all contents of the disk", "anchors": ["src/spex/__main__.py:main", "src/spex/parse.py:parse_spec"]}
{"id": "C92", "title": "The characters of the JSON file", "statement": "Every character of the JSON file a run writes, complete or not, is an ASCII character, a character of the program's version, a character of a text or attribute value of the document, or such a one with its case changed. Hence a document of ASCII characters gives an ASCII file, and a document without surrogate code points gives a file that can be written in UTF-8. For other encodings this fails: the micro sign in a label makes a Latin-1 document a file that Latin-1 cannot encode.", "quantifier": "every input, every set of characters, every run, complete or closed early", "why_tests_cant": "all documents, all characters in them", "anchors": ["src/spex/writer.py:FileWriter", "src/spex/parse.py:parse_spec", "src/spex/jsonspec/extractors/helpers.py:normalize_label", "src/spex/jsonspec/document.py:DocumentParser.parse"]}
{"id": "C93", "title": "Only texts and table structure count", "statement": "Two HTML documents that differ only in attributes other than rowspan, colspan, data-spec and data-revision (classes, styles, identifiers) and in the formatting elements inside their paragraphs give the same run: the same progress reports, the same JSON file with the same lint entries, the same end; a run of the program on such files writes the same files and has the same status. In particular all other attributes can be removed from a document, and every paragraph can be replaced by its text. Nothing outside the tables that stand directly in the body counts, but the name and the revision. The division of a cell into paragraphs does count: two documents whose cells have the same texts can give different files.", "quantifier": "every two documents that differ only in such ways, every input kind, setting and point of closing", "why_tests_cant": "all pairs of documents, at any depth of nesting", "anchors": ["src/spex/xml.py:XmlUtils.to_text", "src/spex/jsonspec/rowiter.py:row_iter", "src/spex/jsonspec/document.py:DocumentParser.parse", "src/spex/parse.py:parse_spec"]}
{"id": "C94", "title": "How the parts of a document are read", "statement": "The text of an element is all the text inside it, at any depth and in order, without the white space at its ends. The children with a tag are exactly these, in order, and the one of number n is the one with n of them before it. An attribute is the first of its name. A row is a heading row exactly if it has a th child. How far a cell reaches is the integer its attribute writes down and one without the attribute; an integer is white space, a sign, digits that may be grouped by single underscores, at most 4300 of them, and white space, and nothing else is read as one. A cell that is carried on has the same text, children and other attributes.", "quantifier": "every element, every text, every number of a child", "why_tests_cant": "all trees, of any depth, and all texts, of any length", "anchors": ["src/spex/xml.py:XmlUtils.to_text", "src/spex/xml.py:Xpath.elems", "src/spex/xml.py:Xpath.elem_first", "src/spex/jsonspec/queries.py:contains_th", "src/spex/jsonspec/queries.py:find_colspan", "src/spex/jsonspec/rowiter.py:row_iter"]}
{"id": "C95", "title": "Special treatment is confined to its figures", "statement": "Five documents, known by name and revision in any case of letters, have figures that are treated specially. A figure that is not one of these and not nested in one gives the same entities and lint entries in every document: two documents with the same body, whose figures are special for neither, give the same progress reports and the same end, and JSON files that differ only in name and revision. The labels set by hand are exactly the listed ones, for the listed document, revision, figure and value. For a special figure the results do differ.", "quantifier": "every two documents, every table, every setting and point of closing", "why_tests_cant": "all names and revisions and all tables, at any depth of nesting", "anchors": ["src/spex/jsonspec/parse.py:SpecDocument.get_parser", "src/spex/jsonspec/quirks/__init__.py:QUIRKS_MAP", "src/spex/jsonspec/document.py:DocumentParser.label_overrides", "src/spex/jsonspec/document.py:DocumentParser.fig_extractor_overrides"]}
{"id": "C96", "title": "What is not read of a docx document changes nothing", "statement": "Two docx files that differ only in attributes other than the seven that are read, in texts outside of w:t, and in elements that are not read and hold no table (bookmarks, marks of the spelling checker, page breaks, sections, editing sessions, also insertions being tracked) give the same tables or the same error, and the program on them, for every command line, makes the same directories, writes the same files with the same texts, tells its user the same and has the same status. All of this can be taken out of a document or put in. Of the header only its text counts. In a cell such an element may be another one but not more or fewer: a bookmark between two items of a list divides the list.", "quantifier": "every two docx files that differ only in such ways, every command, every content of the disk", "why_tests_cant": "all pairs of documents, at any depth of nesting, with all settings", "anchors": ["src/spex/htmlspec/parser.py:SpexParser", "src/spex/htmlspec/docx/document.py:Document", "src/spex/htmlspec/docx/styles.py:StylesDocument", "src/spex/htmlspec/docx/numbering.py:NumberingDocument", "src/spex/htmlspec/docx/tablewrap.py:TableWrap.grid", "src/spex/xml.py:Xpath", "src/spex/__main__.py:main"]}
{"id": "C97", "title": "The skip option changes nothing unless a figure fails", "statement": "If a document is processed to the end without --skip-figure-on-error, then with the option the outcome is identical: the same progress reports, the same JSON file with the same lint entries, the same end; and a run with exit status 0 without the option writes the same files, logs the same messages and shows the same with it, again with status 0; so does the program for every command line to which the option is added, at any place and in any of the ways to write it. Conversely, a document processed with the option and without a T1000 lint entry is processed without the option too, with the same results. If a figure does fail, what is produced with the option begins with what is produced without it.", "quantifier": "every document, every parser the program can choose, every setting and point of closing, every command, every content of the disk", "why_tests_cant": "all documents with any number of figures, at any depth of nesting", "anchors": ["src/spex/jsonspec/document.py:DocumentParser.parse", "src/spex/jsonspec/document.py:DocumentParser._on_parse_fig", "src/spex/parse.py:parse_spec", "src/spex/__main__.py:main"]}
