{
 "claims": [
  {
   "property": "C01",
   "status": "proved",
   "theorems": [
    "C01_round_trip",
    "C01_untyped",
    "C01_typed",
    "C01_single_elements_refuted"
   ],
   "note": "every document, order of tables, order of rows, blank and way of writing the cells; with or without schema types; no truncation or depth bound. `survive` asks per value that the cell, as written, converts back; C01_untyped shows this for texts and whole numbers without a schema, C01_typed for every document whose fields have the types of the schema, written raw or as text; an array of one-element arrays does not survive (refuted). Items without ids and empty objects or arrays are outside the statement (they do not survive)."
  },
  {
   "property": "C02",
   "status": "proved",
   "theorems": [
    "C02_order",
    "C02_written",
    "C02_written_refuted",
    "C02_roots_refuted",
    "C02_csv_refuted"
   ],
   "note": "exact order under the stated reading order; the three conditions are shown necessary by refutations."
  },
  {
   "property": "C03",
   "status": "proved",
   "theorems": [
    "C03_filled",
    "C03_root_column_refuted"
   ],
   "note": "for every option set, including id name, root id and schema types; the root id column is carved out, with a refuted theorem showing why. Rows not longer than their headings (what every reader produces)."
  },
  {
   "property": "C04",
   "status": "proved",
   "theorems": [
    "C04_nested",
    "C04_root",
    "C04_C10_groups"
   ],
   "note": "every array of the output; for the root list per root id. Rows whose root id or id is NaN are excluded from the per-root theorem."
  },
  {
   "property": "C05",
   "status": "proved",
   "theorems": [
    "C05_kept",
    "C05_conflict"
   ],
   "note": "embedding of every output into the output of every continuation; differing values at one identified place are reported (conflict theorem for runs without a root id)."
  },
  {
   "property": "C06",
   "status": "proved",
   "theorems": [
    "C06_no_cell_lost",
    "C06_no_cell_invented"
   ],
   "note": "whole runs: every cell of every row is carried by the output at its place or named by a warning, and nothing else is in the output."
  },
  {
   "property": "C07",
   "status": "proved",
   "theorems": [
    "C07_row",
    "C07_run",
    "C07_same_id_refuted",
    "C07_position_last_refuted",
    "C07_same_path_refuted",
    "C07_number_first_refuted"
   ],
   "note": "with or without schema types, provided headings fit the schema; the carve-outs of the statement are necessary (refuted theorems): without them cells are lost without a warning."
  },
  {
   "property": "C08",
   "status": "proved",
   "theorems": [
    "C08_paths",
    "C08_only",
    "C08_empty_part_refuted"
   ],
   "note": "with or without schema types, provided headings fit the schema (positions left out are completed to -1); an empty part in a heading stores the value twice (refuted theorem)."
  },
  {
   "property": "C09",
   "status": "proved",
   "theorems": [
    "C09_increasing",
    "C09_renumber",
    "C09_column_order",
    "C09_mixed_ids_refuted"
   ],
   "note": "with or without schema types, provided headings fit the schema; arrays in which only some items have an id list those first (refuted theorem)."
  },
  {
   "property": "C10",
   "status": "proved",
   "theorems": [
    "C10_order",
    "C04_C10_groups"
   ],
   "note": "rows with NaN root id or id are excluded."
  },
  {
   "property": "C11",
   "status": "proved",
   "theorems": [
    "C11_cells",
    "C11_complete",
    "C11_order"
   ],
   "note": "every option set, with and without root list path. The listed location is one of raw_at: a cell of the tables handed to the unflattener (that its column letter and row are those of the file is C13)."
  },
  {
   "property": "C12",
   "status": "proved",
   "theorems": [
    "C12_total"
   ],
   "note": "the sort of paths raises in the model whenever two paths are not comparable, which is stronger than Python's."
  },
  {
   "property": "C13",
   "status": "proved",
   "theorems": [
    "C13_locations",
    "C13_plain",
    "C13_skipped_rows_refuted",
    "C13_repeated_heading_refuted",
    "C13_empty_row_refuted"
   ],
   "note": "Locations refer to sheet rows and columns under the hypotheses of Spec/Grids.v:locatable; three refuted theorems show why each is needed. Vertical sheets are not covered."
  },
  {
   "property": "C14",
   "status": "proved",
   "theorems": [
    "C14_headings",
    "C14_cells"
   ],
   "note": "headings compared with Python equality, as the code does."
  },
  {
   "property": "C15",
   "status": "proved",
   "theorems": [
    "C15_convert",
    "C15_blank",
    "C15_geojson",
    "C15_infinity_refuted"
   ],
   "note": "infinite and NaN floats do raise (refuted theorem). Float printing, datetime localisation and the WKT parser are oracles."
  },
  {
   "property": "C16",
   "status": "proved",
   "theorems": [
    "C16_decimal_text",
    "C16_any_decimal_text",
    "C16_integer_text"
   ],
   "note": "str() and Decimal() as modelled digit by digit."
  },
  {
   "property": "C17",
   "status": "proved",
   "theorems": [
    "C17_leaves",
    "C17_serialises",
    "C17_integral",
    "C17_nan_refuted"
   ],
   "note": "a number column holding NaN/Infinity unflattens but cannot be written (refuted theorem)."
  },
  {
   "property": "C18",
   "status": "proved",
   "theorems": [
    "C18_total",
    "C18_id_object_refuted"
   ],
   "note": "a heading id/x crashes (refuted theorem). The schema-less JSON mode; XML mode is excluded."
  },
  {
   "property": "C19",
   "status": "proved",
   "theorems": [
    "C19_configuration",
    "C19_clamped",
    "C19_non_text_refuted"
   ],
   "note": "a configuration row with a non-text cell fails (refuted theorem)."
  },
  {
   "property": "C20",
   "status": "proved",
   "theorems": [
    "C20_rows",
    "C20_configuration",
    "C20_ignored",
    "C20_same_in_all_formats",
    "C20_csv_columns_refuted",
    "C20_csv_short_refuted",
    "C20_ods_gap_refuted",
    "C20_repeated_refuted",
    "C20_ods_vertical_refuted"
   ],
   "note": "Readers are modelled from the grid of cells on (CSV and ODS parsing and openpyxl are separate). The refuted theorems show where the three formats differ."
  },
  {
   "property": "C21",
   "status": "proved",
   "theorems": [
    "C21_selected",
    "C21_csv_files"
   ],
   "note": "Include and exclude lists, order of sheets; which file names are CSV sheets."
  },
  {
   "property": "C22",
   "status": "proved",
   "theorems": [
    "C22_every_value_has_a_column",
    "C22_unnamed_sheet_refuted"
   ],
   "note": "all option combinations, including titles, roll-up, WKT and filters. A sub sheet whose truncated name equals the main sheet's name is excluded (refuted theorem)."
  },
  {
   "property": "C23",
   "status": "proved",
   "theorems": [
    "C23_no_column_twice",
    "C23_columns_grow",
    "C23_sheet_names_differ",
    "C23_one_value_per_column",
    "C23_columns_used",
    "C23_unused_column_refuted"
   ],
   "note": "for runs started from schema sheets whose headings are already distinct (schema_ready)."
  },
  {
   "property": "C24",
   "status": "proved",
   "theorems": [
    "C24_main_rows",
    "C24_main_rows_in_order",
    "C24_sub_rows_in_order",
    "C24_sub_sheets",
    "C24_items_sound",
    "C24_items_complete",
    "C24_document_order_refuted"
   ],
   "note": "runs without titles, XML mode or WKT; a schema is allowed without roll-up. Nested items come before the item that holds them (refuted theorem)."
  },
  {
   "property": "C25",
   "status": "proved",
   "theorems": [
    "C25_item_row",
    "C25_separator_refuted"
   ],
   "note": "runs without titles, XML mode or WKT; keys containing '/' excluded (refuted theorem)."
  },
  {
   "property": "C26",
   "status": "proved",
   "theorems": [
    "C26_ids",
    "C26_root_id_refuted"
   ],
   "note": "runs without titles, XML mode or WKT; a nested object that has the root id key itself is excluded (refuted theorem)."
  },
  {
   "property": "C27",
   "status": "proved",
   "theorems": [
    "C27_filter"
   ],
   "note": "runs without WKT conversion; compares the run with the run of the list already filtered."
  },
  {
   "property": "C28",
   "status": "proved",
   "theorems": [
    "C28_kept",
    "C28_dropped",
    "C28_deep_request_refuted",
    "C28_substring_refuted"
   ],
   "note": "a field requested below two or more unrequested objects is lost, and a request that mentions another object's path changes what is kept inside it (refuted theorems)."
  },
  {
   "property": "C29",
   "status": "proved",
   "theorems": [
    "C29_main_rows",
    "C29_only_adds",
    "C29_other_array_refuted"
   ],
   "note": "runs without titles, XML mode or WKT."
  },
  {
   "property": "C30",
   "status": "proved",
   "theorems": [
    "C30_read_back",
    "C30_sheets_exist",
    "C30_same_name_refuted"
   ],
   "note": "all histories of sheet creations and appends with distinct names; a second sheet of the same name takes over the rows (refuted theorem). ZODB itself is modelled as a map."
  },
  {
   "property": "C31",
   "status": "proved",
   "theorems": [
    "C31_name",
    "C31_no_colon",
    "C31_columns_differ"
   ],
   "note": "sheet names as computed by the flattener, before the 31-character limit of XLSX."
  },
  {
   "property": "C32",
   "status": "proved",
   "theorems": [
    "C32_xlsx",
    "C32_ods",
    "C32_csv",
    "C32_flattened"
   ],
   "note": "XLSX and ODS output as handed to openpyxl/odfpy (whose refusals are oracles); CSV as the text of the files."
  },
  {
   "property": "C33",
   "status": "proved",
   "theorems": [
    "C33_round_trip",
    "C33_exact",
    "C33_exact_total",
    "C33_files",
    "C33_return_refuted",
    "C33_nul_refuted",
    "C33_long_refuted"
   ],
   "note": "CPython 3.11 csv module, modelled as its state machine; for the bytes of the files see C70. The carve-outs of the statement are necessary (refuted theorems)."
  },
  {
   "property": "C34",
   "status": "proved",
   "theorems": [
    "C34_sorted",
    "C34_schema",
    "C34_extension_refuted"
   ],
   "note": "sort_element for every proper order; orders from XML schemas without extended types."
  },
  {
   "property": "C35",
   "status": "proved",
   "theorems": [
    "C35_written",
    "C35_no_loss",
    "C35_document",
    "C35_sheets",
    "C35_heading_refuted",
    "C35_attribute_list_refuted",
    "C35_bad_attribute_refuted",
    "C35_bad_text_refuted",
    "C35_own_namespace_refuted",
    "C35_default_namespace_refuted"
   ],
   "note": "What lxml accepts is an oracle; namespace declarations inside the data are excluded (and shown to go wrong). Serialisation to text is lxml's. That unflatten's data has the required shape is C35_sheets, from conditions on the headings."
  },
  {
   "property": "C36",
   "status": "proved",
   "theorems": [
    "C36_exact",
    "C36_consistent",
    "C36_twice",
    "C36_empty_first_refuted"
   ],
   "note": "Lists that start with an empty element do not count, shown by the refuted theorem."
  },
  {
   "property": "C37",
   "status": "proved",
   "theorems": [
    "C37_lookup",
    "C37_total",
    "C37_sheets",
    "C37_untitled",
    "C37_any_title_refuted",
    "C37_colon_refuted",
    "C37_untitled_object_refuted",
    "C37_same_field_refuted",
    "C37_no_schema_refuted"
   ],
   "note": "str.lower is an oracle; schemas are finite trees with references resolved. The carve-outs are necessary (refuted theorems)."
  },
  {
   "property": "C38",
   "status": "proved",
   "theorems": [
    "C38_columns",
    "C38_total",
    "C38_ready",
    "C38_integers_refuted",
    "C38_sheets_refuted",
    "C38_root_id_refuted"
   ],
   "note": "Recursive schemas are not modelled. The carve-outs are necessary (refuted theorems)."
  },
  {
   "property": "C39",
   "status": "proved",
   "theorems": [
    "C39_found",
    "C39_alternatives",
    "C39_recorded",
    "C39_object_in_array_refuted"
   ],
   "note": "The carve-out for objects in arrays is necessary (refuted theorem)."
  },
  {
   "property": "C40",
   "status": "proved",
   "theorems": [
    "C40_remote_only"
   ],
   "note": "What the loader of jsonref does with a URI is a parameter."
  },
  {
   "property": "C41",
   "status": "proved",
   "theorems": [
    "C41_base",
    "C41_metatab",
    "C41_list",
    "C41_second_record_refuted",
    "C41_list_xml_refuted"
   ],
   "note": "Contents of files are parameters of the model; XML output is C35."
  },
  {
   "property": "C42",
   "status": "proved",
   "theorems": [
    "C42_columns",
    "C42_sheets",
    "C42_merged_refuted",
    "C42_repeated_rows_refuted",
    "C42_exponent_refuted"
   ],
   "note": "Rows without merged cells; merged cells, repeated rows and numbers in exponent notation are shown to go wrong."
  },
  {
   "property": "C43",
   "status": "proved",
   "theorems": [
    "C43_unflatten",
    "C43_flatten",
    "C43_template",
    "C43_flatten_format",
    "C43_template_format",
    "C43_format_late_refuted"
   ],
   "note": "An unknown output format is noticed only after parsing (refuted theorem); nothing is written."
  },
  {
   "property": "C44",
   "status": "proved",
   "theorems": [
    "C44_split"
   ],
   "note": "for every option set; rows not longer than their headings."
  },
  {
   "property": "C45",
   "status": "proved",
   "theorems": [
    "C45_regular",
    "C45_mixed_array_refuted",
    "C45_nested_array_refuted"
   ],
   "note": "regular inputs; two shapes of irregular arrays raise (refuted theorems)."
  },
  {
   "property": "C46",
   "status": "proved",
   "theorems": [
    "C46_rows"
   ],
   "note": ""
  },
  {
   "property": "C47",
   "status": "proved",
   "theorems": [
    "C47_inside",
    "C47_outside_refuted",
    "C47_clash_refuted"
   ],
   "note": "File system as a map from paths to texts; directory creation not modelled."
  },
  {
   "property": "C48",
   "status": "proved",
   "theorems": [
    "C48_texts",
    "C48_number_refuted",
    "C48_nan_refuted",
    "C48_zero_refuted",
    "C48_names_refuted"
   ],
   "note": "float() is an oracle; the carve-outs of the statement are necessary (refuted theorems)."
  },
  {
   "property": "C49",
   "status": "proved",
   "theorems": [
    "C49_flatten",
    "C49_template"
   ],
   "note": ""
  },
  {
   "property": "C50",
   "status": "proved",
   "theorems": [
    "C50_main",
    "C50_metatab",
    "C50_second_record_refuted"
   ],
   "note": "The carve-out for several metatab records is necessary (refuted theorem)."
  },
  {
   "property": "C51",
   "status": "proved",
   "theorems": [
    "C51_round_trip",
    "C51_ordered",
    "C51_typed",
    "C51_main_first_refuted"
   ],
   "note": "CSV codec, directory and JSON reader as in Model/Csv.v, Model/Commands.v. The condition on the order of the files is necessary (refuted theorem)."
  },
  {
   "property": "C52",
   "status": "proved",
   "theorems": [
    "C52_records",
    "C52_run",
    "C52_dots_refuted"
   ],
   "note": "ijson as a function on the parsed document. The carve-out for dots is necessary (refuted theorem)."
  },
  {
   "property": "C53",
   "status": "proved",
   "theorems": [
    "C53_fails",
    "C53_heard",
    "C53_parsed",
    "C53_id_array_refuted"
   ],
   "note": "JSON mode. C53_parsed: the types of every parsed schema are among the known ones. An id that is an array for the schema gives a TypeError (refuted theorem)."
  },
  {
   "property": "C54",
   "status": "proved",
   "theorems": [
    "C54_flatten",
    "C54_absent",
    "C54_item_refuted",
    "C54_invalid_refuted"
   ],
   "note": "JSON input, no roll-ups. A geometry that is an array item or a record makes flatten fail with a TypeError; an invalid one keeps its column (refuted theorems)."
  },
  {
   "property": "C55",
   "status": "proved",
   "theorems": [
    "C55_types",
    "C55_round_trip"
   ],
   "note": "Uses C51 (round trip through files) and C39 (types recorded by the schema parser)."
  },
  {
   "property": "C56",
   "status": "proved",
   "theorems": [
    "C56_flatten",
    "C56_template",
    "C56_configuration",
    "C56_items",
    "C56_rollup_true_refuted",
    "C56_preserve_warning_refuted",
    "C56_xml_nested_refuted"
   ],
   "note": "A roll-up list that mixes True and paths is excluded. The records of JSON documents are spelled out for paths without dots and keys 'item'. What flatten then does with the options is C22-C31."
  },
  {
   "property": "C57",
   "status": "proved",
   "theorems": [
    "C57_reported",
    "C57_last_column",
    "C57_ignored",
    "C57_ods_short_refuted"
   ],
   "note": "ODS rows must reach the last column of each repeated heading (refuted otherwise). Vertical sheets are not covered."
  },
  {
   "property": "C58",
   "status": "proved",
   "theorems": [
    "C58_records",
    "C58_items",
    "C58_sheets",
    "C58_columns",
    "C58_several_unsaid_refuted",
    "C58_empty_root_column_refuted"
   ],
   "note": "Keys without '/', none twice in an object (clean); without a schema no array of objects is named so that its sheet is the empty name. XML and WKT input are excluded (C36, C54). The iteration order of a set is an arbitrary permutation."
  },
  {
   "property": "C59",
   "status": "proved",
   "theorems": [
    "C59_turned",
    "C59_cells",
    "C59_columns",
    "C59_json",
    "C59_locations",
    "C59_csv",
    "C59_ods_skip_refuted"
   ],
   "note": "There is a cell below the configuration row; ODS with skipped or further header columns is excluded (C59_ods_skip_refuted). C59_columns needs headings not repeated and at least one heading and data column; C59_json no configuration rows and, for ODS, no rows without cells; C59_locations sheets whose turned form is locatable (as C13)."
  },
  {
   "property": "C60",
   "status": "proved",
   "theorems": [
    "C60_main",
    "C60_items",
    "C60_sheets",
    "C60_once",
    "C60_records",
    "C60_item_rows",
    "C60_rollup",
    "C60_ready",
    "C60_roll_fails_refuted",
    "C60_root_twice_refuted"
   ],
   "note": "Composed with C58 (which says what the rows hold, given the titles)."
  },
  {
   "property": "C61",
   "status": "proved",
   "theorems": [
    "C61_positions",
    "C61_left_out",
    "C61_mixed_refuted"
   ],
   "note": "XML is excluded; headings with an empty part (\"a//b\") are excluded"
  },
  {
   "property": "C62",
   "status": "proved",
   "theorems": [
    "C62_titles_round_trip",
    "C62_order",
    "C62_typed",
    "C62_run",
    "C62_extra_refuted"
   ],
   "note": "no roll-up, filter or preserved fields; XML and GeoJSON are excluded; every object needs an id as for C01"
  },
  {
   "property": "C63",
   "status": "proved",
   "theorems": [
    "C63_template",
    "C63_flatten",
    "C63_unflatten",
    "C63_rollup_swallows_refuted",
    "C63_schemas_swallow_refuted"
   ],
   "note": "The lines with the separator -- and negative truncation lengths are not modelled (C64 shows these are the only ones)."
  },
  {
   "property": "C64",
   "status": "proved",
   "theorems": [
    "C64_any_line",
    "C64_status_refuted"
   ],
   "note": ""
  },
  {
   "property": "C65",
   "status": "proved",
   "theorems": [
    "C65_written",
    "C65_always",
    "C65_one_meaning",
    "C65_read",
    "C65_read_once",
    "C65_only",
    "C65_back",
    "C65_not_json",
    "C65_nan_refuted"
   ],
   "note": "Texts are sequences of code points; for the bytes of the files see C70. How Python prints a float is a parameter."
  },
  {
   "property": "C66",
   "status": "proved",
   "theorems": [
    "C66_text",
    "C66_ordered"
   ],
   "note": "That ijson gives what the text says, with Decimals, is the hypothesis file_has; texts with half a surrogate pair are excluded."
  },
  {
   "property": "C67",
   "status": "proved",
   "theorems": [
    "C67_workbook",
    "C67_typed",
    "C67_near",
    "C67_typed_near"
   ],
   "note": "What openpyxl reads in a cell (read) is a parameter of the theorem; C67_workbook is for numbers that floats hold exactly, C67_near for numbers that come back as nearby ones (0.1), whose values are then those of the JSON. Texts must not be formulas (xlsx_ready)."
  },
  {
   "property": "C68",
   "status": "proved",
   "theorems": [
    "C68_ods",
    "C68_near",
    "C67_typed",
    "C67_typed_near",
    "C68_true_refuted",
    "C68_digits_refuted",
    "C68_titles_refuted"
   ],
   "note": "float(text) and str(float) are parameters. The three refutations show what the conditions exclude."
  },
  {
   "property": "C69",
   "status": "proved",
   "theorems": [
    "C69_round_trip",
    "C69_ordered",
    "C69_typed",
    "C69_order_refuted"
   ],
   "note": "Command-level version of C62. Conditions on the schema as in C62 (that the parsed schema is ready follows from the others: C62_run). JSON text, CSV text and UTF-8 are modelled apart (C33, C65, C70)."
  },
  {
   "property": "C70",
   "status": "proved",
   "theorems": [
    "C70_written",
    "C70_read",
    "C70_one",
    "C70_refused",
    "C70_csv_refused",
    "C70_json",
    "C70_round_trip",
    "C70_ordered",
    "C70_mark_refuted",
    "C70_half_refuted"
   ],
   "note": "UTF-8 only (the default). A text is encoded as a whole: what a failing run leaves in a file is not modelled. ijson and the schema reader are taken to read UTF-8 (file_holds)."
  },
  {
   "property": "C71",
   "status": "proved",
   "theorems": [
    "C71_cells",
    "C71_headings",
    "C71_cell_file",
    "C71_heading_file"
   ],
   "note": "examples C71_meets, C71_text, C71_heads_text; Tests/DocExamples.v replays the documented source maps to the letter"
  },
  {
   "property": "C72",
   "status": "proved",
   "theorems": [
    "C72_reported",
    "C72_properties",
    "C72_columns",
    "C72_quiet"
   ],
   "note": "example C72_meets has a schema with all six kinds of warning; the order of the fields in a roll-up warning is not fixed (a Python set)"
  },
  {
   "property": "C73",
   "status": "proved",
   "theorems": [
    "C73_read_back",
    "C73_files",
    "C73_commands",
    "C73_sheets",
    "C73_same_data_refuted",
    "C73_text_tag_refuted"
   ],
   "note": "names without prefix, no tag \"#text\", data of the shape of C35; the XML text (serialisation and parsing) is not modelled: what is written is the element tree, what is read is what xmltodict makes of that tree"
  },
  {
   "property": "C74",
   "status": "proved",
   "theorems": [
    "C74_no_schema",
    "C74_schema",
    "C74_succeeds",
    "C74_fails"
   ],
   "note": "that the files can be opened and written is a premise (what the world answers); XML and metatab are excluded"
  },
  {
   "property": "C75",
   "status": "proved",
   "theorems": [
    "C75_data",
    "C75_run",
    "C75_succeeds",
    "C75_fails",
    "C75_geometry_refuted"
   ],
   "note": "what the libraries that write files accept is a premise on the tables (taken); XML is excluded; format \"all\" is three runs (C49); with WKT a record or item that is itself a geometry raises (refuted theorem)"
  },
  {
   "property": "C76",
   "status": "proved",
   "theorems": [
    "C76_template",
    "C76_taken",
    "C76_fails"
   ],
   "note": "what the libraries that write files accept is a premise on titles and headings (C76_taken says what); format \"all\" is three runs (C49)"
  }
 ]
}