
## 6. Findings about the code
Each was met while proving; most are proved as `_refuted` theorems (see section 5).
1. Array order does not survive the round trip when names of arrays are cut (the default is three characters): `tes_x` sorts before `tests` (C02_written_refuted); nor with CSV files, which are read by name (C02_csv_refuted); nor with scattered root ids (C02_roots_refuted).
2. Cells lost without a warning: two columns for the same array item id, a position as last part of a heading, the same path twice, a heading that begins with a number (C07_*_refuted).
3. An empty part in a heading stores the value twice (C08_empty_part_refuted).
4. Arrays in which only some items have ids list those first (C09_mixed_ids_refuted).
5. A heading `id/x` crashes unflatten (C18_id_object_refuted); infinities and NaN crash conversion or writing (C15_infinity_refuted, C17_nan_refuted).
6. Source locations are wrong after skipped rows, for repeated headings and after empty rows (C13_*_refuted).
7. The three spreadsheet formats treat short rows, repeated cells, gaps and vertical sheets differently (C20_*_refuted); ODS merged cells and repeated rows shift values (C42_*_refuted).
8. A configuration row with a number in it fails (C19_non_text_refuted).
9. A sub-sheet can take over the rows of the main sheet's store (C22_unnamed_sheet_refuted, C30_same_name_refuted); two arrays can share a sub-sheet (C38_sheets_refuted).
10. `preserve_fields` loses deep requests and matches substrings (C28_*_refuted).
11. flatten raises on arrays that mix objects and values (C45_*_refuted).
12. CSV files can leave the output directory or overwrite each other (C47_*_refuted); a CSV field with a lone return or NUL does not come back (C33_*_refuted).
13. XML: own and default namespaces, lists under attribute names, extended types (C34_extension_refuted, C35_*_refuted), lists that start with an empty element (C36_empty_first_refuted).
14. Titles: C37_*_refuted; schema columns for integers-only unions, root ids: C38_*_refuted.
15. `root_is_list` with XML output fails, a second metatab record is lost (C41_*_refuted, C50_second_record_refuted); an unknown output format is noticed only after parsing (C43_format_late_refuted).
16. With `convert_wkt` a geometry that is an array item or a record makes flatten fail with a TypeError; an invalid geometry is dropped but its column stays (C54_*_refuted).
17. Roll-ups asked for by True without roll-ups in the schema are a TypeError because gettext is called with two arguments; the warning about fields to preserve is given with an empty list; with XML input and a nested root list path a single record is lost (C56_*_refuted).
18. (modelled, not stated as theorems) `remove_empty_schema_columns` keeps id columns and never drops empty sub-sheets stored persistently; the ijson path also matches an object's key "item".
19. Titles: a column of a rolled-up array and a field outside the schema get headings that convert_titles cannot read back or that split an item (C58_*_refuted, C60_roll_fails_refuted, C61_mixed_refuted, C62_extra_refuted).
20. ODS rows that are shorter than the headings lose their repeated headings differently from CSV (C57_ods_short_refuted); in vertical sheets warnings about repeated headings name column letters although headings are in rows.
21. `flatten --rollup in.json` and `unflatten --xml-schema a.xsd in.csv` take the input's name for a value of the option and end with a usage error (C63_*_refuted). `create-template` with a schema that is not there prints the error but exits with status 0 (C64_status_refuted).
22. NaN, Infinity and -Infinity in the base JSON are accepted and written: the output is then not JSON (C65_nan_refuted). Half a surrogate pair in the base JSON (`"\ud800"`) is accepted too; it has no UTF-8 (C70_half_refuted), so writing fails after the output file has been truncated.
23. By way of an ODS document, `true` becomes the text "1.0" (its cell is a float cell, and "1.0" is no truth value), a text that float() accepts ("007", an id "12") becomes a float ("7.0"), and of two sheets whose names have the same first 31 characters only the last is read (C68_true_refuted, C68_digits_refuted, C68_titles_refuted).
24. With titles the sheet of an inner array is named after the first three letters of the outer title: "Bids" gives Bids.csv and Bid_Documents.csv, and unflatten reads the inner sheet first, so items can come back in another order (C69_order_refuted).
25. A CSV file with a byte order mark is read with the mark as first character of the first heading: the column "id" is then no id, rows are not merged and the JSON has a key "\ufeffid" (C70_mark_refuted). The base JSON is opened in the encoding of the locale (__init__.py:256), all else in UTF-8.
26. If the title of the records' id is the root id itself ("ocid"), the sheet of every array of objects that a schema with titles gives starts with that heading twice (C60_root_twice_refuted).
27. XML read back after unflatten has lost white space around texts (" T " comes back as "T", a text of white space is gone) and has None for elements with nothing in them; a list of one element may come back as that element (C73_same_data_refuted).
