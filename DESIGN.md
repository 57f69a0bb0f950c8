# Formal model of flatten-tool in Rocq (Coq 8.16.1)

Everything is in `rocq/theories`; `properties.jsonl` holds the English properties, `MANIFEST.json`
maps each to its theorems (generated from `tools/claims.txt` by `tools/manifest.py`), and
`seeded/LOG.jsonl` records the wrong programs the theorems were tried on.

## 1. Layout

| directory | contents |
|---|---|
| `Base/`  | Python primitives the code uses: texts as lists of code points, `int()`/`Decimal()` parsing and printing, Python `==` on cell values, insertion-ordered dicts, outcomes with warnings and exceptions |
| `Model/` | the functions of /repo, branch by branch; each definition cites file and lines |
| `Spec/`  | small specifications, written without the helpers of the model |
| `Proofs/`| lemmas |
| `Props/` | one file per group of properties: the theorem statements, `Print Assumptions` for each, and `Example`s showing that the hypotheses are met by a non-trivial case |
| `Tests/` | expectations copied from /repo's own tests and evaluated in the model (tests of the model, not proofs) |

A property that is false of the code as it stands is stated with the carve-out that makes it true,
and a theorem with the suffix `_refuted` proves that the carve-out is needed (the statement without it
implies False).

## 2. What is modelled

| /repo | model |
|---|---|
| `input.py` `Cell`, `TemporaryDict`, `merge`, `convert_type`, `unflatten_main_with_parser`, `list_as_dicts_to_temporary_dicts`, `SpreadsheetInput.do_unflatten`, `unflatten`, `extract_list_to_error_path`, `extract_dict_to_error_path`, `extract_error_path_to_value`, `fancy_unflatten`, `convert_title`, `convert_dict_titles` | `Convert`, `Input`, `SourceMap`, `Titles`, `TitleLines` |
| `input.py` `CSVInput`, `XLSXInput`, `ODSInput`, sheet configuration (`#` / skiprows / headerrows / ignore ...), hashcomments, include and exclude lists, vertical orientation | `Readers`, `Csv`, `Ods` |
| `ODSReader.py` | `Ods` |
| `json_input.py` `JSONParser.__init__` (schema sheets, roll-up argument, filter, preserve fields, root list path, `xml`), `parse`, `parse_json_dict`, `sheet_key*` | `Flatten`, `Commands` |
| `sheet.py` `Sheet`, `PersistentSheet` (the ZODB tree is a map) | `Flatten` |
| `output.py` all writers | `Output`, `Csv` |
| `schema.py` `make_sub_sheet_name`, `get_property_type_set`, `TitleLookup`, `SchemaParser.parse`/`parse_schema_json`, remote-only reference loader | `Schema`, `Titles` |
| `sort_xml.py` | `SortXml` |
| `xml_output.py`, `convert_xml...` helpers (`force_list` detection of `json_input.py`) | `XmlOut`, `XmlInput` |
| `lib.py` | `Lib` |
| `__init__.py` `create_template`, `flatten`, `unflatten`, `decimal_default` | `Commands`, `Json` |
| `cli.py` `create_parser` (and the parts of the standard library's argparse it uses), `kwargs_from_parsed_args`, `main` | `Cli` |
| `xmltodict.parse` with the arguments `json_input.py` gives it (its handler: attributes, children, texts; not the XML text) | `XmlDict` |
| `json.dump`, `json.load` of the standard library as `__init__.py` uses them | `Json`, `JsonText`, `MapText` |

Not modelled: `i18n.py` (gettext), the texts of messages (help, usage, warnings, errors), serialising XML to text,
parsing of XML text, ijson (what it makes of a JSON text is a parameter),
the zip/XML containers of XLSX and ODS (openpyxl and odfpy are taken at the level of the cells they
return and are given), ZODB and transactions, file encodings other than UTF-8, recursive JSON schemas, memory and time.

### Parameters (oracles)
Theorems quantify over these, so nothing is assumed about them unless the statement says so:
`env` (`str(float)`, `str(datetime)`, localised `isoformat`, shapely/geojson), `conv_env` (repr of a cell
value), `wenv` (`float()`, what openpyxl refuses, files that cannot be opened), `xenv` (what lxml accepts),
`so_lower` (`str.lower`), `po_set_order` (iteration order of a Python set), `po_shape` (shapely),
`world` (the contents of files, `os.path.isfile`).

### Simplifications
* Value semantics: Python mutates shared objects; the only observable sharing (one `Cell` at two places
  of a row) is discussed in `Model/Input.v`.
* Comparison of signalling NaNs (which raises in Python) is `false`.
* `get_column_letter` above 18278, the 4300-digit limit of `int()`, a negative truncation length are not modelled.
* Readers deliver a whole sheet before its rows are processed (the code is lazy): an exception while
  reading is raised before, not between, the warnings of earlier rows of that sheet.
* Grids from openpyxl are rectangular.
* The sort of source-map paths raises as soon as any two paths are incomparable (timsort may not compare
  them): stronger than the code in the direction that matters for C12.
* `Cli` models the argparse of CPython 3.11 without the separator `--` (such lines are `NotModelled`), and not
  what it prints. The encoding given to unflatten is kept beside its options: the commands take decoded texts, and C70 ties these to the bytes for UTF-8 (`Model/Utf8.v`); other encodings are not modelled.
  `EOSError` stands for every OSError.
* `JsonText` is the json package of CPython 3.11, on code points: no limit to nesting, a byte order mark is just not JSON.
* The CSV module is that of CPython 3.11, as a state machine over code points.
* Recursion over XML schemas is bounded by fuel; the theorems hold for every fuel.
* A file that cannot be written leaves no partial file.
* GeoJSON values are texts in XML output; `id_name=None` (metatab) is an id that no heading can spell.

## 3. How each property is stated and proved

* **C01, C02 (round trip).** `Spec/RoundTrip.v`.  A row of a table is described by the place of its object
  in the document; unflattening it gives a *view* of the document (`Proofs/RtMerge.v`: a tree all of whose
  leaves are leaves of the document at the same place, arrays keyed by ids).  Merging two views is a view
  with the leaves of both and no warning; an invariant of the run keeps, per record, the set of leaves
  seen; flattening shows every leaf in some row (C25/C26 theorems).  Order: positions appear in order
  when every earlier item has been seen (`ready_for`).
* **C03, C44.** Simulation: two runs over inputs that differ by blanks (or by splitting) go through equal states.
* **C04, C05, C06, C10, C18.** Invariants and embedding relations over the fold over rows.
* **C07, C08, C09.** Induction over the columns of a row; the tree is characterised by its path lookup.
* **C11, C12, C14, C46.** The extract functions against a path-indexed specification.
* **C13, C19 - C21, C42.** Readers as functions over grids, compared with declarative row/column specifications.
* **C15 - C17.** Decision table of `convert_type`; print/parse theorem for decimals.
* **C22 - C31, C45.** A trace of the recursive descent (`Proofs/FlattenTrace.v`), invariants over it, and
  relational theorems (filter, preserve, roll-up).
* **C32, C33, C47, C48.** Writers over tables; the CSV writer and reader automata composed.
* **C34 - C36.** XML trees; stable sort specification.
* **C37 - C40.** Trace of the schema generator; title lookup as a relation on schema fields.
* **C41, C43, C49, C50.** The three commands over a `world`, with a log of the files opened and written.
* **C51, C52.** The composition: C38's tables, C33's files in any order of listing, C01/C02's round trip, the JSON dump
  (`Spec/Trip.v`, `Proofs/Trip*.v`); the prefix matching of ijson against paths.
* **C53.** The walk along a heading with types: an outcome is a row or the schema error at a field (`Proofs/Odds.v`).
* **C54.** Induction over the document: parsing it with conversion equals parsing the converted document without (`Proofs/WktFlat.v`); without shapely the outcomes differ in warnings only (`Proofs/WktAbsent.v`).
* **C55.** The types recorded for the paths of a conforming document, by induction along the path (`Proofs/Conforms.v`); then C51 (`Proofs/ConformsEnd.v`).
* **C56.** The run of the command is split into its stages; each stage is compared with what Spec/FlattenRun.v says of the option, and the warnings of the other stages are shown to be others (`Proofs/FlattenCommand.v`).
* **C57.** The dictionary of repeated headings, built from the right, is given in closed form (induction on the columns already seen); every other function of the unflattener is shown to emit no such warning (induction on paths and trees). A line is a fold of assignments, so the last column of a heading decides (split at that column); two folds whose cells differ only where the key comes again are equal (simulation).
* **C58.** The proof of C24-C29 again, with the state's titles as an invariant (no step changes the titles of a sheet, and the schema's sheets stay): each step of the parser names its cell by the title on its sheet, by induction on the value; then the rows are put in terms of places (induction on the value and on the path), with the sheet carried along the path.  C58_columns repeats the proof for the columns that are added (TitledUsed.v).
* **C59.** The readers' vertical branches are shown equal, as functions of the grid, to the horizontal ones on the turned grid (columns padded to the height of the sheet); the theorems about rows (C20, C13) then carry over. That the orientation does not change the JSON follows from erasing locations.
* **C60.** The parse of the schema is a sequence of actions (Proofs/SchemaTrace.v); which title and sheet-name actions there are is proved by induction over the schema (SchemaColumns.v), what they leave in the titles by induction over the actions (SchemaHeadings.v: an action's title stays until another one for the same column comes; the id columns of a sheet write only to paths without an array position, by following the look-up).  That a plain schema gives one title at most is SchemaOnce.v. That no heading of a sheet the schema gives is there twice (C60_ready, Proofs/TitledReady.v): an id column is the titles of some of the objects the array is in, then a word; a column of the array's items is the titles of all of them, then the array's title, ':' and a title; so they differ by the ':'.  TitledSchema.v composes this with C58.
* **C61.** Rows are related by `same_but_positions` (Spec/Positions.v): same values, headings with the same names, one position per array and row on each side. A mutual inductive relation `sh`/`shd` between the two trees that `walk` builds (single-entry lists whose index is the row's position for that path) is preserved by every step, by induction on the two paths together; finishing the trees erases the index; merging and placing do not look at locations (`merge_un`, `place_un`), so the runs agree. `C61_left_out` is the instance in which the second spreadsheet has no numbers.
* **C62.** A `chain` (Proofs/TitleChain.v) is a path of the schema with the titles on the way; the heading of a cell is the titles of its chain joined by ":", and converting it back gives the path without positions (`back_chain`). Each row with titles is paired with the row that a run without titles would give (`row_ok`), each sheet with a sheet without titles (`sheet_virtual`): same cells, headings that are the same but for positions. C61 then gives that both unflatten alike, and the proof of C01/C02 (`run_same`) that the one without titles gives the documents. Columns of the schema that no row uses, and the untitled root id column in front, are blank and change nothing.
* **C63.** Model/Cli.v models the standard library's argparse as far as cli.py uses it: the tables of options, the classification of the words (exact names, `=`, stuck values, abbreviations, ambiguity, negative numbers), `consume_optional`, positionals, subparsers, `kwargs_from_parsed_args`, and `main`. Tests/CliArgparse.v compares it with real argparse on the documented lines and on random ones. Spec/CommandLine.v says what each word says (`says`), and what a list of things said means (`*_meaning`). Proof: `word_step` - one word of the line is one `step` of the state, whatever follows -, then the value of each attribute after all steps is read off the list (CliMeaning.v), then the three functions' arguments (CliRun.v).
* **C64.** An invariant of the parser's state (`fits_all`, Proofs/CliAll.v): every attribute has its default or a value read from the end of a word, of the kind of its option; no other attributes appear. It is kept by every step, including words that mean nothing; the three argument lists are then checked attribute by attribute.
* **C65.** `Model/JsonText.v` models the writer (json/encoder.py with an indent) and the reader (Modules/_json.c); `Spec/JsonGrammar.v` is RFC 8259 as an inductive relation between texts and values. Reading is shown complete (Proofs/JsonScan.v, by induction over the derivation) and sound (Proofs/JsonSound.v, by induction over the steps of the reader), so a text has one meaning; writing is by induction over the data (Proofs/JsonWrite.v). Tests/JsonPython.v (generated by tools/jsontests.py) compares both with CPython's json on some 230 texts.
* **C66.** C51 with C65 at both ends: `data_of` is what ijson makes of a value, `same_data` compares values of two texts with numbers compared as rationals. That the shortest digits of a double are the number (`digits_kept`) is a hypothesis for numbers that are not whole; the strengthened `same_json` of C51 says that whole numbers are never written as doubles.
* **C67, C68.** The rows of the tables (flatten side, as in C51) are cells of a grid; the reader's grid may have rows that are shorter (ODS) and cells that differ from those written; `filled_decides` (C03) says that only filled cells matter, so the grid is compared with an ideal one whose unflattening is `RtTrip`'s round trip with `write := back`. `back` says what a cell is read as; `C67_typed` discharges `survive` when every cell is read as put there, as its text, or as an equal float. For ODS the cells written are those of C33/C47 and the reading is that of C42. Numbers that floats only approximate: the whole round-trip proof (`RtMerge` … `RtTrip`) is for any relation `alike` between a value and what it comes back as (Spec/Alike.v: equal values come back for equal ones, no geometries), with `same_leaf` for C01/C51 and `near_leaf near` for `C67_near`/`C68_near`, where the records that come back are those with `near c` in the place of `c`.
* **C69.** Every cell of a row with titles is the value of a leaf under the titles of its chain (`TitleFiles.rows_from`, from C58's rows and C62's chains), every heading is such a heading or one of the schema's; so each table is `fine` (C33) and comes back from its file as shown (`CsvShown.csv_shown`, for any tables). C62's `titled_any`/`titled_ordered` then give the records, and `TripRun.unflatten_runs_with` (with or without titles) the command. `inner_names_later` is what sorting by file name needs for `outer_sheets_first`.
* **C70.** `Model/Utf8.v` models CPython's strict UTF-8 codec (ranges of the second byte and all), `Spec/Bytes.v` is RFC 3629 as a relation between code points and bytes. `Utf8Facts.encode_says`/`decode_says`: both are the relation (induction; arithmetic by lia). `BytesFacts`: a CSV text has bytes iff its fields have, a JSON text has bytes if its data has (induction over the grammar of C65), and JSON from UTF-8 has data with bytes. `BytesTrip` then lifts C66 to bytes: cells and headings of the tables come from the documents or the schema (`Trip.rows_placed`, `heads_placed`), numbers are ASCII.
* **C71.** `Model/MapText.v`: the two maps as json.dump writes them (tuples as arrays, headings by `decimal_datetime_default`); `Spec/MapText.v`: what they should say, as JSON values. `MapTextFacts`: the text says the map, by C65's `text_says`; `MapFiles.run_parts` takes output, records and maps from one run, `place_said` follows a place through records, written JSON and the value its text says, and C11, C14, C46 give the cells. Tests/DocExamples.v (made by tools/examples.py) runs the model on all 65 examples of the documentation that are not help texts, from the command line to the texts of the files, and compares with the expected files to the letter (XML: the elements).
* **C72.** `Spec/SchemaWarnings.v` says, with the relations of C38, what should be reported. `Proofs/SchemaWarnings.v` follows the parser once more, for any consumer of the fields (`says`: what it warns of depends on field and title only): one induction gives the fields handed on, the roll-up lists and the warnings (`covers`); `SchemaReports` draws the consequences (`kind_dec`).
* **C73.** `Spec/XmlTrip.v` says what it is for a value to be data read back (`reread`: attribute by attribute, text, and for every tag the list of its elements). `Proofs/XmlTripFacts.v`: sorting only rearranges elements with different tags (`rearranged`, from the stability of the sort), what xmltodict builds by pushing one child after the other is characterised key by key (induction over the children, then over the tree), and list_dict_consistency changes single elements into lists of one, which `reread` does not tell apart. With C35 (the written tree mirrors the data) this gives C73_read_back; `Proofs/XmlTripRun.v` follows it through the two commands (forced list at the root list path, root tag from the configuration). `Proofs/XmlShapes.v` is a checker for the shape, used in the examples. That the records of a spreadsheet have the shape follows from conditions on its headings (`Spec/XmlSheets.v`): `Proofs/XmlRows.v` carries an invariant (unique keys; values only under attribute names and "text()", objects only under element names) through the walk along a heading, row finalisation, merging and grouping, and `Proofs/XmlSheets.v` turns it into C35_sheets and C73_sheets.
* **C74.** `Spec/Outcomes.v` says what it takes for a run to be possible, in terms of `main_run` (C41). `Proofs/CommandTotal.v` runs the command forwards: what was said backwards for C41 (if the run succeeded, then ...) is turned round stage by stage; source maps never fail (C12), JSON can be written for every finite value (induction over the records and over the base JSON), without a schema all values are finite (C17). `Proofs/LinesFit.v` shows that no line that is read has more cells than there are headings, for each format and also with `--convert-titles`. With C18 and C53 for the conversion this gives the outcomes.
* **C75.** `Spec/FlattenOutcome.v` says what a run needs (in terms of `run_inputs`, C56), which data fits (`regular` of C45 with the conditions of roll-ups, which concern only the arrays at the top of a record) and what the writers ask of the libraries. `Proofs/FlattenOutcome.v`: totality by induction over the value, with roll-ups only at an empty parent path and WKT only where there is a row to put it in; then the command forwards, as for C74; for CSV the rows are covered by the headings (C22).
* **C76.** The options, writer and tables of a template are in `Spec/FlattenOutcome.v`. C38_total gives the sheets, the invariant of `Proofs/SchemaState.v` that they have no lines, so only headings and titles are written; then as for C75. Failure: the error of the schema parser passes through, and reading is silent.

## 4. Trusted base
* Coq 8.16.1's kernel and `vm_compute` (used in `Tests/` and in the examples and refutations in `Props/`).
* `Print Assumptions` answers "Closed under the global context" for every theorem listed in `MANIFEST.json`:
  no axiom, neither own nor of the standard library.  (A whole-environment scan lists seven
  `Coq.ssr.ssrunder.Under_rel.*` entries: parameters of a module *type* of the standard library's ssreflect
  plugin, loaded with it; no theorem here depends on them.)
* The reading of the Python code, definition by definition, and of the libraries named above; the tests in
  `Tests/` replay the expectations of /repo's own test files on the model, and all examples of its documentation
  (65 of 68, without the three help texts) from the command line to the texts of the written files (Tests/DocExamples.v).
* No functors, module types, `Declare Module`, axioms, admitted proofs, disabled checks or plugins.

## 5. Status

| property | status | theorems | scope |
|---|---|---|---|
| C01 flatten then unflatten is the identity on well-formed data | proved | `C01_round_trip`, `C01_untyped`, `C01_typed`, `C01_single_elements_refuted` | every document, order of tables, order of rows, blank and way of writing the cells; with or without schema types; no truncation or depth bound. `survive` asks per value that the cell, as written, converts back; C01_untyped shows this for texts and whole numbers without a schema, C01_typed for every document whose fields have the types of the schema, written raw or as text; an array of one-element arrays does not survive (refuted). Items without ids and empty objects or arrays are outside the statement (they do not survive). |
| C02 array order survives the round trip | proved | `C02_order`, `C02_written`, `C02_written_refuted`, `C02_roots_refuted`, `C02_csv_refuted` | exact order under the stated reading order; the three conditions are shown necessary by refutations. |
| C03 blank cells, columns and rows never influence unflatten | proved | `C03_filled`, `C03_root_column_refuted` | for every option set, including id name, root id and schema types; the root id column is carved out, with a refuted theorem showing why. Rows not longer than their headings (what every reader produces). |
| C04 one object per identifier | proved | `C04_nested`, `C04_root`, `C04_C10_groups` | every array of the output; for the root list per root id. Rows whose root id or id is NaN are excluded from the per-root theorem. |
| C05 earlier values are never overwritten by later rows | proved | `C05_kept`, `C05_conflict` | embedding of every output into the output of every continuation; differing values at one identified place are reported (conflict theorem for runs without a root id). |
| C06 merging loses no cell silently | proved | `C06_no_cell_lost`, `C06_no_cell_invented` | whole runs: every cell of every row is carried by the output at its place or named by a warning, and nothing else is in the output. |
| C07 a row loses no cell silently | proved | `C07_row`, `C07_run`, `C07_same_id_refuted`, `C07_position_last_refuted`, `C07_same_path_refuted`, `C07_number_first_refuted` | with or without schema types, provided headings fit the schema; the carve-outs of the statement are necessary (refuted theorems): without them cells are lost without a warning. |
| C08 a heading is the path of its cell | proved | `C08_paths`, `C08_only`, `C08_empty_part_refuted` | with or without schema types, provided headings fit the schema (positions left out are completed to -1); an empty part in a heading stores the value twice (refuted theorem). |
| C09 array indexes in headings only give an order | proved | `C09_increasing`, `C09_renumber`, `C09_column_order`, `C09_mixed_ids_refuted` | with or without schema types, provided headings fit the schema; arrays in which only some items have an id list those first (refuted theorem). |
| C10 output order is order of first mention | proved | `C10_order`, `C04_C10_groups` | rows with NaN root id or id are excluded. |
| C11 the cell source map describes exactly the output | proved | `C11_cells`, `C11_complete`, `C11_order` | every option set, with and without root list path. The listed location is one of raw_at: a cell of the tables handed to the unflattener (that its column letter and row are those of the file is C13). |
| C12 source map generation never fails | proved | `C12_total` | the sort of paths raises in the model whenever two paths are not comparable, which is stronger than Python's. |
| C13 source map locations point at the right cell | proved | `C13_locations`, `C13_plain`, `C13_skipped_rows_refuted`, `C13_repeated_heading_refuted`, `C13_empty_row_refuted` | Locations refer to sheet rows and columns under the hypotheses of Spec/Grids.v:locatable; three refuted theorems show why each is needed. Vertical sheets are not covered. |
| C14 heading source map is complete and sound | proved | `C14_headings`, `C14_cells` | headings compared with Python equality, as the code does. |
| C15 type conversion never fails and never invents values | proved | `C15_convert`, `C15_blank`, `C15_geojson`, `C15_infinity_refuted` | infinite and NaN floats do raise (refuted theorem). Float printing, datetime localisation and the WKT parser are oracles. |
| C16 decimal numbers are preserved exactly | proved | `C16_decimal_text`, `C16_any_decimal_text`, `C16_integer_text` | str() and Decimal() as modelled digit by digit. |
| C17 every successfully converted value can be written as JSON | proved | `C17_leaves`, `C17_serialises`, `C17_integral`, `C17_nan_refuted` | a number column holding NaN/Infinity unflattens but cannot be written (refuted theorem). |
| C18 unflatten is total on data | proved | `C18_total`, `C18_id_object_refuted` | a heading id/x crashes (refuted theorem). The schema-less JSON mode; XML mode is excluded. |
| C19 sheet configuration commands are clamped, independent and unambiguous | proved | `C19_configuration`, `C19_clamped`, `C19_non_text_refuted` | a configuration row with a non-text cell fails (refuted theorem). |
| C20 configured rows are skipped, all others are read | proved | `C20_rows`, `C20_configuration`, `C20_ignored`, `C20_same_in_all_formats`, `C20_csv_columns_refuted`, `C20_csv_short_refuted`, `C20_ods_gap_refuted`, `C20_repeated_refuted`, `C20_ods_vertical_refuted` | Readers are modelled from the grid of cells on (CSV and ODS parsing and openpyxl are separate). The refuted theorems show where the three formats differ. |
| C21 sheet selection | proved | `C21_selected`, `C21_csv_files` | Include and exclude lists, order of sheets; which file names are CSV sheets. |
| C22 every flattened value has a column | proved | `C22_every_value_has_a_column`, `C22_unnamed_sheet_refuted` | all option combinations, including titles, roll-up, WKT and filters. A sub sheet whose truncated name equals the main sheet's name is excluded (refuted theorem). |
| C23 headers have no duplicates and grow only at the end | proved | `C23_no_column_twice`, `C23_columns_grow`, `C23_sheet_names_differ`, `C23_one_value_per_column`, `C23_columns_used`, `C23_unused_column_refuted` | for runs started from schema sheets whose headings are already distinct (schema_ready). |
| C24 one row per object | proved | `C24_main_rows`, `C24_main_rows_in_order`, `C24_sub_rows_in_order`, `C24_sub_sheets`, `C24_items_sound`, `C24_items_complete`, `C24_document_order_refuted` | runs without titles, XML mode or WKT; a schema is allowed without roll-up. Nested items come before the item that holds them (refuted theorem). |
| C25 flattening is lossless | proved | `C25_item_row`, `C25_separator_refuted` | runs without titles, XML mode or WKT; keys containing '/' excluded (refuted theorem). |
| C26 sub-sheet rows carry the ids of their ancestors | proved | `C26_ids`, `C26_root_id_refuted` | runs without titles, XML mode or WKT; a nested object that has the root id key itself is excluded (refuted theorem). |
| C27 filtering equals pre-filtering | proved | `C27_filter` | runs without WKT conversion; compares the run with the run of the list already filtered. |
| C28 preserve-fields keeps exactly the requested fields | proved | `C28_kept`, `C28_dropped`, `C28_deep_request_refuted`, `C28_substring_refuted` | a field requested below two or more unrequested objects is lost, and a request that mentions another object's path changes what is kept inside it (refuted theorems). |
| C29 rollup only adds to the main sheet | proved | `C29_main_rows`, `C29_only_adds`, `C29_other_array_refuted` | runs without titles, XML mode or WKT. |
| C30 stored rows are read back complete and in order | proved | `C30_read_back`, `C30_sheets_exist`, `C30_same_name_refuted` | all histories of sheet creations and appends with distinct names; a second sheet of the same name takes over the rows (refuted theorem). ZODB itself is modelled as a map. |
| C31 sub-sheet names | proved | `C31_name`, `C31_no_colon`, `C31_columns_differ` | sheet names as computed by the flattener, before the 31-character limit of XLSX. |
| C32 writers put every value under its header | proved | `C32_xlsx`, `C32_ods`, `C32_csv`, `C32_flattened` | XLSX and ODS output as handed to openpyxl/odfpy (whose refusals are oracles); CSV as the text of the files. |
| C33 CSV text round trip | proved | `C33_round_trip`, `C33_exact`, `C33_exact_total`, `C33_files`, `C33_return_refuted`, `C33_nul_refuted`, `C33_long_refuted` | CPython 3.11 csv module, modelled as its state machine; for the bytes of the files see C70. The carve-outs of the statement are necessary (refuted theorems). |
| C34 XML children are sorted by schema, stably and without loss | proved | `C34_sorted`, `C34_schema`, `C34_extension_refuted` | sort_element for every proper order; orders from XML schemas without extended types. |
| C35 XML output contains every value exactly once | proved | `C35_written`, `C35_no_loss`, `C35_document`, `C35_sheets`, `C35_heading_refuted`, `C35_attribute_list_refuted`, `C35_bad_attribute_refuted`, `C35_bad_text_refuted`, `C35_own_namespace_refuted`, `C35_default_namespace_refuted` | What lxml accepts is an oracle; namespace declarations inside the data are excluded (and shown to go wrong). Serialisation to text is lxml's. That unflatten's data has the required shape is C35_sheets, from conditions on the headings. |
| C36 repeated XML tags are consistently lists | proved | `C36_exact`, `C36_consistent`, `C36_twice`, `C36_empty_first_refuted` | Lists that start with an empty element do not count, shown by the refuted theorem. |
| C37 title headings resolve to fields | proved | `C37_lookup`, `C37_total`, `C37_sheets`, `C37_untitled`, `C37_any_title_refuted`, `C37_colon_refuted`, `C37_untitled_object_refuted`, `C37_same_field_refuted`, `C37_no_schema_refuted` | str.lower is an oracle; schemas are finite trees with references resolved. The carve-outs are necessary (refuted theorems). |
| C38 schema columns are complete | proved | `C38_columns`, `C38_total`, `C38_ready`, `C38_integers_refuted`, `C38_sheets_refuted`, `C38_root_id_refuted` | Recursive schemas are not modelled. The carve-outs are necessary (refuted theorems). |
| C39 schema types drive conversion | proved | `C39_found`, `C39_alternatives`, `C39_recorded`, `C39_object_in_array_refuted` | The carve-out for objects in arrays is necessary (refuted theorem). |
| C40 remote-only mode never opens local references | proved | `C40_remote_only` | What the loader of jsonref does with a URI is a parameter. |
| C41 base JSON and metatab are preserved | proved | `C41_base`, `C41_metatab`, `C41_list`, `C41_second_record_refuted`, `C41_list_xml_refuted` | Contents of files are parameters of the model; XML output is C35. |
| C42 ODS cells keep their column | proved | `C42_columns`, `C42_sheets`, `C42_merged_refuted`, `C42_repeated_rows_refuted`, `C42_exponent_refuted` | Rows without merged cells; merged cells, repeated rows and numbers in exponent notation are shown to go wrong. |
| C43 invalid option combinations are rejected before any output | proved | `C43_unflatten`, `C43_flatten`, `C43_template`, `C43_flatten_format`, `C43_template_format`, `C43_format_late_refuted` | An unknown output format is noticed only after parsing (refuted theorem); nothing is written. |
| C44 sheets or rows may be split freely | proved | `C44_split` | for every option set; rows not longer than their headings. |
| C45 flatten is total on JSON | proved | `C45_regular`, `C45_mixed_array_refuted`, `C45_nested_array_refuted` | regular inputs; two shapes of irregular arrays raise (refuted theorems). |
| C46 row entries of the cell source map | proved | `C46_rows` |  |
| C47 CSV files stay in the output directory, one per sheet | proved | `C47_inside`, `C47_outside_refuted`, `C47_clash_refuted` | File system as a map from paths to texts; directory creation not modelled. |
| C48 texts written to an ODS file come back | proved | `C48_texts`, `C48_number_refuted`, `C48_nan_refuted`, `C48_zero_refuted`, `C48_names_refuted` | float() is an oracle; the carve-outs of the statement are necessary (refuted theorems). |
| C49 output format "all" is the three formats | proved | `C49_flatten`, `C49_template` |  |
| C50 written source maps describe the written document | proved | `C50_main`, `C50_metatab`, `C50_second_record_refuted` | The carve-out for several metatab records is necessary (refuted theorem). |
| C51 JSON to CSV files and back with the two commands | proved | `C51_round_trip`, `C51_ordered`, `C51_typed`, `C51_main_first_refuted` | CSV codec, directory and JSON reader as in Model/Csv.v, Model/Commands.v. The condition on the order of the files is necessary (refuted theorem). |
| C52 which records flatten reads | proved | `C52_records`, `C52_run`, `C52_dots_refuted` | ijson as a function on the parsed document. The carve-out for dots is necessary (refuted theorem). |
| C53 headings at odds with the schema | proved | `C53_fails`, `C53_heard`, `C53_parsed`, `C53_id_array_refuted` | JSON mode. C53_parsed: the types of every parsed schema are among the known ones. An id that is an array for the schema gives a TypeError (refuted theorem). |
| C54 flattening geometries as WKT | proved | `C54_flatten`, `C54_absent`, `C54_item_refuted`, `C54_invalid_refuted` | JSON input, no roll-ups. A geometry that is an array item or a record makes flatten fail with a TypeError; an invalid one keeps its column (refuted theorems). |
| C55 documents that conform to a schema survive the round trip | proved | `C55_types`, `C55_round_trip` | Uses C51 (round trip through files) and C39 (types recorded by the schema parser). |
| C56 the flatten command does what its options say | proved | `C56_flatten`, `C56_template`, `C56_configuration`, `C56_items`, `C56_rollup_true_refuted`, `C56_preserve_warning_refuted`, `C56_xml_nested_refuted` | A roll-up list that mixes True and paths is excluded. The records of JSON documents are spelled out for paths without dots and keys 'item'. What flatten then does with the options is C22-C31. |
| C57 repeated headings: the last column counts, the others are reported | proved | `C57_reported`, `C57_last_column`, `C57_ignored`, `C57_ods_short_refuted` | ODS rows must reach the last column of each repeated heading (refuted otherwise). Vertical sheets are not covered. |
| C58 flattening with titles, a schema and roll-up: every value is under the heading the options ask for | proved | `C58_records`, `C58_items`, `C58_sheets`, `C58_columns`, `C58_several_unsaid_refuted`, `C58_empty_root_column_refuted` | Keys without '/', none twice in an object (clean); without a schema no array of objects is named so that its sheet is the empty name. XML and WKT input are excluded (C36, C54). The iteration order of a set is an arbitrary permutation. |
| C59 sheets read by columns | proved | `C59_turned`, `C59_cells`, `C59_columns`, `C59_json`, `C59_locations`, `C59_csv`, `C59_ods_skip_refuted` | There is a cell below the configuration row; ODS with skipped or further header columns is excluded (C59_ods_skip_refuted). C59_columns needs headings not repeated and at least one heading and data column; C59_json no configuration rows and, for ODS, no rows without cells; C59_locations sheets whose turned form is locatable (as C13). |
| C60 flattening with titles uses the titles of the schema | proved | `C60_main`, `C60_items`, `C60_sheets`, `C60_once`, `C60_records`, `C60_item_rows`, `C60_rollup`, `C60_ready`, `C60_roll_fails_refuted`, `C60_root_twice_refuted` | Composed with C58 (which says what the rows hold, given the titles). |
| C61 the numbers in headings only keep the items of a row apart | proved | `C61_positions`, `C61_left_out`, `C61_mixed_refuted` | XML is excluded; headings with an empty part ("a//b") are excluded |
| C62 Flattening with titles and unflattening with the same schema gives the data back | proved | `C62_titles_round_trip`, `C62_order`, `C62_typed`, `C62_run`, `C62_extra_refuted` | no roll-up, filter or preserved fields; XML and GeoJSON are excluded; every object needs an id as for C01 |
| C63 A command line means what its options say | proved | `C63_template`, `C63_flatten`, `C63_unflatten`, `C63_rollup_swallows_refuted`, `C63_schemas_swallow_refuted` | The lines with the separator -- and negative truncation lengths are not modelled (C64 shows these are the only ones). |
| C64 Every command line either does nothing or runs one function on what it names | proved | `C64_any_line`, `C64_status_refuted` |  |
| C65 The JSON that unflatten writes says exactly the data, and base JSON is read as what it says | proved | `C65_written`, `C65_always`, `C65_one_meaning`, `C65_read`, `C65_read_once`, `C65_only`, `C65_back`, `C65_not_json`, `C65_nan_refuted` | Texts are sequences of code points; for the bytes of the files see C70. How Python prints a float is a parameter. |
| C66 From JSON text to JSON text nothing is lost | proved | `C66_text`, `C66_ordered` | That ijson gives what the text says, with Decimals, is the hypothesis file_has; texts with half a surrogate pair are excluded. |
| C67 Flattening to a workbook and unflattening it gives the same records | proved | `C67_workbook`, `C67_typed`, `C67_near`, `C67_typed_near` | What openpyxl reads in a cell (read) is a parameter of the theorem; C67_workbook is for numbers that floats hold exactly, C67_near for numbers that come back as nearby ones (0.1), whose values are then those of the JSON. Texts must not be formulas (xlsx_ready). |
| C68 Flattening to an ODS document and unflattening it gives the same records | proved | `C68_ods`, `C68_near`, `C67_typed`, `C67_typed_near`, `C68_true_refuted`, `C68_digits_refuted`, `C68_titles_refuted` | float(text) and str(float) are parameters. The three refutations show what the conditions exclude. |
| C69 flatten --use-titles to CSV files, then unflatten --convert-titles with the same schema, gives the same records | proved | `C69_round_trip`, `C69_ordered`, `C69_typed`, `C69_order_refuted` | Command-level version of C62. Conditions on the schema as in C62 (that the parsed schema is ready follows from the others: C62_run). JSON text, CSV text and UTF-8 are modelled apart (C33, C65, C70). |
| C70 Files are UTF-8, from the bytes of a JSON file to those of another | proved | `C70_written`, `C70_read`, `C70_one`, `C70_refused`, `C70_csv_refused`, `C70_json`, `C70_round_trip`, `C70_ordered`, `C70_mark_refuted`, `C70_half_refuted` | UTF-8 only (the default). A text is encoded as a whole: what a failing run leaves in a file is not modelled. ijson and the schema reader are taken to read UTF-8 (file_holds). |
| C71 source map files lead from the output text to the input cells | proved | `C71_cells`, `C71_headings`, `C71_cell_file`, `C71_heading_file` | examples C71_meets, C71_text, C71_heads_text; Tests/DocExamples.v replays the documented source maps to the letter |
| C72 what is left out of a schema is reported | proved | `C72_reported`, `C72_properties`, `C72_columns`, `C72_quiet` | example C72_meets has a schema with all six kinds of warning; the order of the fields in a roll-up warning is not fixed (a Python set) |
| C73 XML that unflatten writes is read back by flatten | proved | `C73_read_back`, `C73_files`, `C73_commands`, `C73_sheets`, `C73_same_data_refuted`, `C73_text_tag_refuted` | names without prefix, no tag "#text", data of the shape of C35; the XML text (serialisation and parsing) is not modelled: what is written is the element tree, what is read is what xmltodict makes of that tree |
| C74 An unflatten run on readable input succeeds | proved | `C74_no_schema`, `C74_schema`, `C74_succeeds`, `C74_fails` | that the files can be opened and written is a premise (what the world answers); XML and metatab are excluded |
| C75 A flatten run on readable input and regular data succeeds | proved | `C75_data`, `C75_run`, `C75_succeeds`, `C75_fails`, `C75_geometry_refuted` | what the libraries that write files accept is a premise on the tables (taken); XML is excluded; format "all" is three runs (C49); with WKT a record or item that is itself a geometry raises (refuted theorem) |
| C76 A template is written for every well-formed schema | proved | `C76_template`, `C76_taken`, `C76_fails` | what the libraries that write files accept is a premise on titles and headings (C76_taken says what); format "all" is three runs (C49) |

## 6. Findings about the code
Each was met while proving; most are proved as `_refuted` theorems (see section 5).
1. Array order does not survive the round trip when names of arrays are cut (the default is three characters): `tes_x` sorts before `tests` (C02_written_refuted); nor with CSV files, which are read by name (C02_csv_refuted); nor with scattered root ids (C02_roots_refuted).
2. Cells lost without a warning: two columns for the same array item id, a position as last part of a heading, the same path twice, a heading that begins with a number (C07_*_refuted).
3. An empty part in a heading stores the value twice (C08_empty_part_refuted).
4. Arrays in which only some items have ids list those first (C09_mixed_ids_refuted).
5. A heading `id/x` crashes unflatten (C18_id_object_refuted); infinities and NaN crash conversion or writing (C15_infinity_refuted, C17_nan_refuted).
6. Source locations are wrong after skipped rows, for repeated headings and after empty rows (C13_*_refuted).
7. The three spreadsheet formats treat short rows, repeated cells, gaps and vertical sheets differently (C20_*_refuted); ODS merged cells and repeated rows shift values (C42_*_refuted).
8. A configuration row with a number in it fails (C19_non_text_refuted).
9. A sub-sheet can take over the rows of the main sheet's store (C22_unnamed_sheet_refuted, C30_same_name_refuted); two arrays can share a sub-sheet (C38_sheets_refuted).
10. `preserve_fields` loses deep requests and matches substrings (C28_*_refuted).
11. flatten raises on arrays that mix objects and values (C45_*_refuted).
12. CSV files can leave the output directory or overwrite each other (C47_*_refuted); a CSV field with a lone return or NUL does not come back (C33_*_refuted).
13. XML: own and default namespaces, lists under attribute names, extended types (C34_extension_refuted, C35_*_refuted), lists that start with an empty element (C36_empty_first_refuted).
14. Titles: C37_*_refuted; schema columns for integers-only unions, root ids: C38_*_refuted.
15. `root_is_list` with XML output fails, a second metatab record is lost (C41_*_refuted, C50_second_record_refuted); an unknown output format is noticed only after parsing (C43_format_late_refuted).
16. With `convert_wkt` a geometry that is an array item or a record makes flatten fail with a TypeError; an invalid geometry is dropped but its column stays (C54_*_refuted).
17. Roll-ups asked for by True without roll-ups in the schema are a TypeError because gettext is called with two arguments; the warning about fields to preserve is given with an empty list; with XML input and a nested root list path a single record is lost (C56_*_refuted).
18. (modelled, not stated as theorems) `remove_empty_schema_columns` keeps id columns and never drops empty sub-sheets stored persistently; the ijson path also matches an object's key "item".
19. Titles: a column of a rolled-up array and a field outside the schema get headings that convert_titles cannot read back or that split an item (C58_*_refuted, C60_roll_fails_refuted, C61_mixed_refuted, C62_extra_refuted).
20. ODS rows that are shorter than the headings lose their repeated headings differently from CSV (C57_ods_short_refuted); in vertical sheets warnings about repeated headings name column letters although headings are in rows.
21. `flatten --rollup in.json` and `unflatten --xml-schema a.xsd in.csv` take the input's name for a value of the option and end with a usage error (C63_*_refuted). `create-template` with a schema that is not there prints the error but exits with status 0 (C64_status_refuted).
22. NaN, Infinity and -Infinity in the base JSON are accepted and written: the output is then not JSON (C65_nan_refuted). Half a surrogate pair in the base JSON (`"\ud800"`) is accepted too; it has no UTF-8 (C70_half_refuted), so writing fails after the output file has been truncated.
23. By way of an ODS document, `true` becomes the text "1.0" (its cell is a float cell, and "1.0" is no truth value), a text that float() accepts ("007", an id "12") becomes a float ("7.0"), and of two sheets whose names have the same first 31 characters only the last is read (C68_true_refuted, C68_digits_refuted, C68_titles_refuted).
24. With titles the sheet of an inner array is named after the first three letters of the outer title: "Bids" gives Bids.csv and Bid_Documents.csv, and unflatten reads the inner sheet first, so items can come back in another order (C69_order_refuted).
25. A CSV file with a byte order mark is read with the mark as first character of the first heading: the column "id" is then no id, rows are not merged and the JSON has a key "\ufeffid" (C70_mark_refuted). The base JSON is opened in the encoding of the locale (__init__.py:256), all else in UTF-8.
26. If the title of the records' id is the root id itself ("ocid"), the sheet of every array of objects that a schema with titles gives starts with that heading twice (C60_root_twice_refuted).
27. XML read back after unflatten has lost white space around texts (" T " comes back as "T", a text of white space is gone) and has None for elements with nothing in them; a list of one element may come back as that element (C73_same_data_refuted).
