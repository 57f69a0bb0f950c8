# Formal model of flatten-tool in Rocq (Coq 8.16.1)

Everything is in `rocq/theories`; `properties.jsonl` holds the English properties, `MANIFEST.json`
maps each to its theorems (generated from `tools/claims.txt` by `tools/manifest.py`), and
`seeded/LOG.jsonl` records the wrong programs the theorems were tried on.

## 1. Layout

| directory | contents |
|---|---|
| `Base/`  | Python primitives the code uses: texts as lists of code points, `int()`/`Decimal()` parsing and printing, Python `==` on cell values, insertion-ordered dicts, outcomes with warnings and exceptions |
| `Model/` | the functions of /repo, branch by branch; each definition cites file and lines |
| `Spec/`  | small specifications, written without the helpers of the model |
| `Proofs/`| lemmas |
| `Props/` | one file per group of properties: the theorem statements, `Print Assumptions` for each, and `Example`s showing that the hypotheses are met by a non-trivial case |
| `Tests/` | expectations copied from /repo's own tests and evaluated in the model (tests of the model, not proofs) |

A property that is false of the code as it stands is stated with the carve-out that makes it true,
and a theorem with the suffix `_refuted` proves that the carve-out is needed (the statement without it
implies False).

## 2. What is modelled

| /repo | model |
|---|---|
| `input.py` `Cell`, `TemporaryDict`, `merge`, `convert_type`, `unflatten_main_with_parser`, `list_as_dicts_to_temporary_dicts`, `SpreadsheetInput.do_unflatten`, `unflatten`, `extract_list_to_error_path`, `extract_dict_to_error_path`, `extract_error_path_to_value`, `fancy_unflatten`, `convert_title`, `convert_dict_titles` | `Convert`, `Input`, `SourceMap`, `Titles`, `TitleLines` |
| `input.py` `CSVInput`, `XLSXInput`, `ODSInput`, sheet configuration (`#` / skiprows / headerrows / ignore ...), hashcomments, include and exclude lists, vertical orientation | `Readers`, `Csv`, `Ods` |
| `ODSReader.py` | `Ods` |
| `json_input.py` `JSONParser.__init__` (schema sheets, roll-up argument, filter, preserve fields, root list path, `xml`), `parse`, `parse_json_dict`, `sheet_key*` | `Flatten`, `Commands` |
| `sheet.py` `Sheet`, `PersistentSheet` (the ZODB tree is a map) | `Flatten` |
| `output.py` all writers | `Output`, `Csv` |
| `schema.py` `make_sub_sheet_name`, `get_property_type_set`, `TitleLookup`, `SchemaParser.parse`/`parse_schema_json`, remote-only reference loader | `Schema`, `Titles` |
| `sort_xml.py` | `SortXml` |
| `xml_output.py`, `convert_xml...` helpers (`force_list` detection of `json_input.py`) | `XmlOut`, `XmlInput` |
| `lib.py` | `Lib` |
| `__init__.py` `create_template`, `flatten`, `unflatten`, `decimal_default` | `Commands`, `Json` |
| `cli.py` `create_parser` (and the parts of the standard library's argparse it uses), `kwargs_from_parsed_args`, `main` | `Cli` |
| `xmltodict.parse` with the arguments `json_input.py` gives it (its handler: attributes, children, texts; not the XML text) | `XmlDict` |
| `json.dump`, `json.load` of the standard library as `__init__.py` uses them | `Json`, `JsonText`, `MapText` |

Not modelled: `i18n.py` (gettext), the texts of messages (help, usage, warnings, errors), serialising XML to text,
parsing of XML text, ijson (what it makes of a JSON text is a parameter),
the zip/XML containers of XLSX and ODS (openpyxl and odfpy are taken at the level of the cells they
return and are given), ZODB and transactions, file encodings other than UTF-8, recursive JSON schemas, memory and time.

### Parameters (oracles)
Theorems quantify over these, so nothing is assumed about them unless the statement says so:
`env` (`str(float)`, `str(datetime)`, localised `isoformat`, shapely/geojson), `conv_env` (repr of a cell
value), `wenv` (`float()`, what openpyxl refuses, files that cannot be opened), `xenv` (what lxml accepts),
`so_lower` (`str.lower`), `po_set_order` (iteration order of a Python set), `po_shape` (shapely),
`world` (the contents of files, `os.path.isfile`).

### Simplifications
* Value semantics: Python mutates shared objects; the only observable sharing (one `Cell` at two places
  of a row) is discussed in `Model/Input.v`.
* Comparison of signalling NaNs (which raises in Python) is `false`.
* `get_column_letter` above 18278, the 4300-digit limit of `int()`, a negative truncation length are not modelled.
* Readers deliver a whole sheet before its rows are processed (the code is lazy): an exception while
  reading is raised before, not between, the warnings of earlier rows of that sheet.
* Grids from openpyxl are rectangular.
* The sort of source-map paths raises as soon as any two paths are incomparable (timsort may not compare
  them): stronger than the code in the direction that matters for C12.
* `Cli` models the argparse of CPython 3.11 without the separator `--` (such lines are `NotModelled`), and not
  what it prints. The encoding given to unflatten is kept beside its options: the commands take decoded texts, and C70 ties these to the bytes for UTF-8 (`Model/Utf8.v`); other encodings are not modelled.
  `EOSError` stands for every OSError.
* `JsonText` is the json package of CPython 3.11, on code points: no limit to nesting, a byte order mark is just not JSON.
* The CSV module is that of CPython 3.11, as a state machine over code points.
* Recursion over XML schemas is bounded by fuel; the theorems hold for every fuel.
* A file that cannot be written leaves no partial file.
* GeoJSON values are texts in XML output; `id_name=None` (metatab) is an id that no heading can spell.

## 3. How each property is stated and proved

* **C01, C02 (round trip).** `Spec/RoundTrip.v`.  A row of a table is described by the place of its object
  in the document; unflattening it gives a *view* of the document (`Proofs/RtMerge.v`: a tree all of whose
  leaves are leaves of the document at the same place, arrays keyed by ids).  Merging two views is a view
  with the leaves of both and no warning; an invariant of the run keeps, per record, the set of leaves
  seen; flattening shows every leaf in some row (C25/C26 theorems).  Order: positions appear in order
  when every earlier item has been seen (`ready_for`).
* **C03, C44.** Simulation: two runs over inputs that differ by blanks (or by splitting) go through equal states.
* **C04, C05, C06, C10, C18.** Invariants and embedding relations over the fold over rows.
* **C07, C08, C09.** Induction over the columns of a row; the tree is characterised by its path lookup.
* **C11, C12, C14, C46.** The extract functions against a path-indexed specification.
* **C13, C19 - C21, C42.** Readers as functions over grids, compared with declarative row/column specifications.
* **C15 - C17.** Decision table of `convert_type`; print/parse theorem for decimals.
* **C22 - C31, C45.** A trace of the recursive descent (`Proofs/FlattenTrace.v`), invariants over it, and
  relational theorems (filter, preserve, roll-up).
* **C32, C33, C47, C48.** Writers over tables; the CSV writer and reader automata composed.
* **C34 - C36.** XML trees; stable sort specification.
* **C37 - C40.** Trace of the schema generator; title lookup as a relation on schema fields.
* **C41, C43, C49, C50.** The three commands over a `world`, with a log of the files opened and written.
* **C51, C52.** The composition: C38's tables, C33's files in any order of listing, C01/C02's round trip, the JSON dump
  (`Spec/Trip.v`, `Proofs/Trip*.v`); the prefix matching of ijson against paths.
* **C53.** The walk along a heading with types: an outcome is a row or the schema error at a field (`Proofs/Odds.v`).
* **C54.** Induction over the document: parsing it with conversion equals parsing the converted document without (`Proofs/WktFlat.v`); without shapely the outcomes differ in warnings only (`Proofs/WktAbsent.v`).
* **C55.** The types recorded for the paths of a conforming document, by induction along the path (`Proofs/Conforms.v`); then C51 (`Proofs/ConformsEnd.v`).
* **C56.** The run of the command is split into its stages; each stage is compared with what Spec/FlattenRun.v says of the option, and the warnings of the other stages are shown to be others (`Proofs/FlattenCommand.v`).
* **C57.** The dictionary of repeated headings, built from the right, is given in closed form (induction on the columns already seen); every other function of the unflattener is shown to emit no such warning (induction on paths and trees). A line is a fold of assignments, so the last column of a heading decides (split at that column); two folds whose cells differ only where the key comes again are equal (simulation).
* **C58.** The proof of C24-C29 again, with the state's titles as an invariant (no step changes the titles of a sheet, and the schema's sheets stay): each step of the parser names its cell by the title on its sheet, by induction on the value; then the rows are put in terms of places (induction on the value and on the path), with the sheet carried along the path.  C58_columns repeats the proof for the columns that are added (TitledUsed.v).
* **C59.** The readers' vertical branches are shown equal, as functions of the grid, to the horizontal ones on the turned grid (columns padded to the height of the sheet); the theorems about rows (C20, C13) then carry over. That the orientation does not change the JSON follows from erasing locations.
* **C60.** The parse of the schema is a sequence of actions (Proofs/SchemaTrace.v); which title and sheet-name actions there are is proved by induction over the schema (SchemaColumns.v), what they leave in the titles by induction over the actions (SchemaHeadings.v: an action's title stays until another one for the same column comes; the id columns of a sheet write only to paths without an array position, by following the look-up).  That a plain schema gives one title at most is SchemaOnce.v. That no heading of a sheet the schema gives is there twice (C60_ready, Proofs/TitledReady.v): an id column is the titles of some of the objects the array is in, then a word; a column of the array's items is the titles of all of them, then the array's title, ':' and a title; so they differ by the ':'.  TitledSchema.v composes this with C58.
* **C61.** Rows are related by `same_but_positions` (Spec/Positions.v): same values, headings with the same names, one position per array and row on each side. A mutual inductive relation `sh`/`shd` between the two trees that `walk` builds (single-entry lists whose index is the row's position for that path) is preserved by every step, by induction on the two paths together; finishing the trees erases the index; merging and placing do not look at locations (`merge_un`, `place_un`), so the runs agree. `C61_left_out` is the instance in which the second spreadsheet has no numbers.
* **C62.** A `chain` (Proofs/TitleChain.v) is a path of the schema with the titles on the way; the heading of a cell is the titles of its chain joined by ":", and converting it back gives the path without positions (`back_chain`). Each row with titles is paired with the row that a run without titles would give (`row_ok`), each sheet with a sheet without titles (`sheet_virtual`): same cells, headings that are the same but for positions. C61 then gives that both unflatten alike, and the proof of C01/C02 (`run_same`) that the one without titles gives the documents. Columns of the schema that no row uses, and the untitled root id column in front, are blank and change nothing.
* **C63.** Model/Cli.v models the standard library's argparse as far as cli.py uses it: the tables of options, the classification of the words (exact names, `=`, stuck values, abbreviations, ambiguity, negative numbers), `consume_optional`, positionals, subparsers, `kwargs_from_parsed_args`, and `main`. Tests/CliArgparse.v compares it with real argparse on the documented lines and on random ones. Spec/CommandLine.v says what each word says (`says`), and what a list of things said means (`*_meaning`). Proof: `word_step` - one word of the line is one `step` of the state, whatever follows -, then the value of each attribute after all steps is read off the list (CliMeaning.v), then the three functions' arguments (CliRun.v).
* **C64.** An invariant of the parser's state (`fits_all`, Proofs/CliAll.v): every attribute has its default or a value read from the end of a word, of the kind of its option; no other attributes appear. It is kept by every step, including words that mean nothing; the three argument lists are then checked attribute by attribute.
* **C65.** `Model/JsonText.v` models the writer (json/encoder.py with an indent) and the reader (Modules/_json.c); `Spec/JsonGrammar.v` is RFC 8259 as an inductive relation between texts and values. Reading is shown complete (Proofs/JsonScan.v, by induction over the derivation) and sound (Proofs/JsonSound.v, by induction over the steps of the reader), so a text has one meaning; writing is by induction over the data (Proofs/JsonWrite.v). Tests/JsonPython.v (generated by tools/jsontests.py) compares both with CPython's json on some 230 texts.
* **C66.** C51 with C65 at both ends: `data_of` is what ijson makes of a value, `same_data` compares values of two texts with numbers compared as rationals. That the shortest digits of a double are the number (`digits_kept`) is a hypothesis for numbers that are not whole; the strengthened `same_json` of C51 says that whole numbers are never written as doubles.
* **C67, C68.** The rows of the tables (flatten side, as in C51) are cells of a grid; the reader's grid may have rows that are shorter (ODS) and cells that differ from those written; `filled_decides` (C03) says that only filled cells matter, so the grid is compared with an ideal one whose unflattening is `RtTrip`'s round trip with `write := back`. `back` says what a cell is read as; `C67_typed` discharges `survive` when every cell is read as put there, as its text, or as an equal float. For ODS the cells written are those of C33/C47 and the reading is that of C42. Numbers that floats only approximate: the whole round-trip proof (`RtMerge` … `RtTrip`) is for any relation `alike` between a value and what it comes back as (Spec/Alike.v: equal values come back for equal ones, no geometries), with `same_leaf` for C01/C51 and `near_leaf near` for `C67_near`/`C68_near`, where the records that come back are those with `near c` in the place of `c`.
* **C69.** Every cell of a row with titles is the value of a leaf under the titles of its chain (`TitleFiles.rows_from`, from C58's rows and C62's chains), every heading is such a heading or one of the schema's; so each table is `fine` (C33) and comes back from its file as shown (`CsvShown.csv_shown`, for any tables). C62's `titled_any`/`titled_ordered` then give the records, and `TripRun.unflatten_runs_with` (with or without titles) the command. `inner_names_later` is what sorting by file name needs for `outer_sheets_first`.
* **C70.** `Model/Utf8.v` models CPython's strict UTF-8 codec (ranges of the second byte and all), `Spec/Bytes.v` is RFC 3629 as a relation between code points and bytes. `Utf8Facts.encode_says`/`decode_says`: both are the relation (induction; arithmetic by lia). `BytesFacts`: a CSV text has bytes iff its fields have, a JSON text has bytes if its data has (induction over the grammar of C65), and JSON from UTF-8 has data with bytes. `BytesTrip` then lifts C66 to bytes: cells and headings of the tables come from the documents or the schema (`Trip.rows_placed`, `heads_placed`), numbers are ASCII.
* **C71.** `Model/MapText.v`: the two maps as json.dump writes them (tuples as arrays, headings by `decimal_datetime_default`); `Spec/MapText.v`: what they should say, as JSON values. `MapTextFacts`: the text says the map, by C65's `text_says`; `MapFiles.run_parts` takes output, records and maps from one run, `place_said` follows a place through records, written JSON and the value its text says, and C11, C14, C46 give the cells. Tests/DocExamples.v (made by tools/examples.py) runs the model on all 65 examples of the documentation that are not help texts, from the command line to the texts of the files, and compares with the expected files to the letter (XML: the elements).
* **C72.** `Spec/SchemaWarnings.v` says, with the relations of C38, what should be reported. `Proofs/SchemaWarnings.v` follows the parser once more, for any consumer of the fields (`says`: what it warns of depends on field and title only): one induction gives the fields handed on, the roll-up lists and the warnings (`covers`); `SchemaReports` draws the consequences (`kind_dec`).
* **C73.** `Spec/XmlTrip.v` says what it is for a value to be data read back (`reread`: attribute by attribute, text, and for every tag the list of its elements). `Proofs/XmlTripFacts.v`: sorting only rearranges elements with different tags (`rearranged`, from the stability of the sort), what xmltodict builds by pushing one child after the other is characterised key by key (induction over the children, then over the tree), and list_dict_consistency changes single elements into lists of one, which `reread` does not tell apart. With C35 (the written tree mirrors the data) this gives C73_read_back; `Proofs/XmlTripRun.v` follows it through the two commands (forced list at the root list path, root tag from the configuration). `Proofs/XmlShapes.v` is a checker for the shape, used in the examples. That the records of a spreadsheet have the shape follows from conditions on its headings (`Spec/XmlSheets.v`): `Proofs/XmlRows.v` carries an invariant (unique keys; values only under attribute names and "text()", objects only under element names) through the walk along a heading, row finalisation, merging and grouping, and `Proofs/XmlSheets.v` turns it into C35_sheets and C73_sheets.
* **C74.** `Spec/Outcomes.v` says what it takes for a run to be possible, in terms of `main_run` (C41). `Proofs/CommandTotal.v` runs the command forwards: what was said backwards for C41 (if the run succeeded, then ...) is turned round stage by stage; source maps never fail (C12), JSON can be written for every finite value (induction over the records and over the base JSON), without a schema all values are finite (C17). `Proofs/LinesFit.v` shows that no line that is read has more cells than there are headings, for each format and also with `--convert-titles`. With C18 and C53 for the conversion this gives the outcomes.
* **C75.** `Spec/FlattenOutcome.v` says what a run needs (in terms of `run_inputs`, C56), which data fits (`regular` of C45 with the conditions of roll-ups, which concern only the arrays at the top of a record) and what the writers ask of the libraries. `Proofs/FlattenOutcome.v`: totality by induction over the value, with roll-ups only at an empty parent path and WKT only where there is a row to put it in; then the command forwards, as for C74; for CSV the rows are covered by the headings (C22).
* **C76.** The options, writer and tables of a template are in `Spec/FlattenOutcome.v`. C38_total gives the sheets, the invariant of `Proofs/SchemaState.v` that they have no lines, so only headings and titles are written; then as for C75. Failure: the error of the schema parser passes through, and reading is silent.

## 4. Trusted base
* Coq 8.16.1's kernel and `vm_compute` (used in `Tests/` and in the examples and refutations in `Props/`).
* `Print Assumptions` answers "Closed under the global context" for every theorem listed in `MANIFEST.json`:
  no axiom, neither own nor of the standard library.  (A whole-environment scan lists seven
  `Coq.ssr.ssrunder.Under_rel.*` entries: parameters of a module *type* of the standard library's ssreflect
  plugin, loaded with it; no theorem here depends on them.)
* The reading of the Python code, definition by definition, and of the libraries named above; the tests in
  `Tests/` replay the expectations of /repo's own test files on the model, and all examples of its documentation
  (65 of 68, without the three help texts) from the command line to the texts of the written files (Tests/DocExamples.v).
* No functors, module types, `Declare Module`, axioms, admitted proofs, disabled checks or plugins.

