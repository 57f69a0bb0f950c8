C01|proved|C01_round_trip C01_untyped C01_typed C01_single_elements_refuted|every document, order of tables, order of rows, blank and way of writing the cells; with or without schema types; no truncation or depth bound. `survive` asks per value that the cell, as written, converts back; C01_untyped shows this for texts and whole numbers without a schema, C01_typed for every document whose fields have the types of the schema, written raw or as text; an array of one-element arrays does not survive (refuted). Items without ids and empty objects or arrays are outside the statement (they do not survive).
C02|proved|C02_order C02_written C02_written_refuted C02_roots_refuted C02_csv_refuted|exact order under the stated reading order; the three conditions are shown necessary by refutations.
C03|proved|C03_filled C03_root_column_refuted|for every option set, including id name, root id and schema types; the root id column is carved out, with a refuted theorem showing why. Rows not longer than their headings (what every reader produces).
C04|proved|C04_nested C04_root C04_C10_groups|every array of the output; for the root list per root id. Rows whose root id or id is NaN are excluded from the per-root theorem.
C05|proved|C05_kept C05_conflict|embedding of every output into the output of every continuation; differing values at one identified place are reported (conflict theorem for runs without a root id).
C06|proved|C06_no_cell_lost C06_no_cell_invented|whole runs: every cell of every row is carried by the output at its place or named by a warning, and nothing else is in the output.
C07|proved|C07_row C07_run C07_same_id_refuted C07_position_last_refuted C07_same_path_refuted C07_number_first_refuted|with or without schema types, provided headings fit the schema; the carve-outs of the statement are necessary (refuted theorems): without them cells are lost without a warning.
C08|proved|C08_paths C08_only C08_empty_part_refuted|with or without schema types, provided headings fit the schema (positions left out are completed to -1); an empty part in a heading stores the value twice (refuted theorem).
C09|proved|C09_increasing C09_renumber C09_column_order C09_mixed_ids_refuted|with or without schema types, provided headings fit the schema; arrays in which only some items have an id list those first (refuted theorem).
C10|proved|C10_order C04_C10_groups|rows with NaN root id or id are excluded.
C11|proved|C11_cells C11_complete C11_order|every option set, with and without root list path. The listed location is one of raw_at: a cell of the tables handed to the unflattener (that its column letter and row are those of the file is C13).
C12|proved|C12_total|the sort of paths raises in the model whenever two paths are not comparable, which is stronger than Python's.
C13|proved|C13_locations C13_plain C13_skipped_rows_refuted C13_repeated_heading_refuted C13_empty_row_refuted|Locations refer to sheet rows and columns under the hypotheses of Spec/Grids.v:locatable; three refuted theorems show why each is needed. Vertical sheets are not covered.
C14|proved|C14_headings C14_cells|headings compared with Python equality, as the code does.
C15|proved|C15_convert C15_blank C15_geojson C15_infinity_refuted|infinite and NaN floats do raise (refuted theorem). Float printing, datetime localisation and the WKT parser are oracles.
C16|proved|C16_decimal_text C16_any_decimal_text C16_integer_text|str() and Decimal() as modelled digit by digit.
C17|proved|C17_leaves C17_serialises C17_integral C17_nan_refuted|a number column holding NaN/Infinity unflattens but cannot be written (refuted theorem).
C18|proved|C18_total C18_id_object_refuted|a heading id/x crashes (refuted theorem). The schema-less JSON mode; XML mode is excluded.
C19|proved|C19_configuration C19_clamped C19_non_text_refuted|a configuration row with a non-text cell fails (refuted theorem).
C20|proved|C20_rows C20_configuration C20_ignored C20_same_in_all_formats C20_csv_columns_refuted C20_csv_short_refuted C20_ods_gap_refuted C20_repeated_refuted C20_ods_vertical_refuted|Readers are modelled from the grid of cells on (CSV and ODS parsing and openpyxl are separate). The refuted theorems show where the three formats differ.
C21|proved|C21_selected C21_csv_files|Include and exclude lists, order of sheets; which file names are CSV sheets.
C22|proved|C22_every_value_has_a_column C22_unnamed_sheet_refuted|all option combinations, including titles, roll-up, WKT and filters. A sub sheet whose truncated name equals the main sheet's name is excluded (refuted theorem).
C23|proved|C23_no_column_twice C23_columns_grow C23_sheet_names_differ C23_one_value_per_column C23_columns_used C23_unused_column_refuted|for runs started from schema sheets whose headings are already distinct (schema_ready).
C24|proved|C24_main_rows C24_main_rows_in_order C24_sub_rows_in_order C24_sub_sheets C24_items_sound C24_items_complete C24_document_order_refuted|runs without titles, XML mode or WKT; a schema is allowed without roll-up. Nested items come before the item that holds them (refuted theorem).
C25|proved|C25_item_row C25_separator_refuted|runs without titles, XML mode or WKT; keys containing '/' excluded (refuted theorem).
C26|proved|C26_ids C26_root_id_refuted|runs without titles, XML mode or WKT; a nested object that has the root id key itself is excluded (refuted theorem).
C27|proved|C27_filter|runs without WKT conversion; compares the run with the run of the list already filtered.
C28|proved|C28_kept C28_dropped C28_deep_request_refuted C28_substring_refuted|a field requested below two or more unrequested objects is lost, and a request that mentions another object's path changes what is kept inside it (refuted theorems).
C29|proved|C29_main_rows C29_only_adds C29_other_array_refuted|runs without titles, XML mode or WKT.
C30|proved|C30_read_back C30_sheets_exist C30_same_name_refuted|all histories of sheet creations and appends with distinct names; a second sheet of the same name takes over the rows (refuted theorem). ZODB itself is modelled as a map.
C31|proved|C31_name C31_no_colon C31_columns_differ|sheet names as computed by the flattener, before the 31-character limit of XLSX.
C32|proved|C32_xlsx C32_ods C32_csv C32_flattened|XLSX and ODS output as handed to openpyxl/odfpy (whose refusals are oracles); CSV as the text of the files.
C33|proved|C33_round_trip C33_exact C33_exact_total C33_files C33_return_refuted C33_nul_refuted C33_long_refuted|CPython 3.11 csv module, modelled as its state machine; for the bytes of the files see C70. The carve-outs of the statement are necessary (refuted theorems).
C34|proved|C34_sorted C34_schema C34_extension_refuted|sort_element for every proper order; orders from XML schemas without extended types.
C35|proved|C35_written C35_no_loss C35_document C35_sheets C35_heading_refuted C35_attribute_list_refuted C35_bad_attribute_refuted C35_bad_text_refuted C35_own_namespace_refuted C35_default_namespace_refuted|What lxml accepts is an oracle; namespace declarations inside the data are excluded (and shown to go wrong). Serialisation to text is lxml's. That unflatten's data has the required shape is C35_sheets, from conditions on the headings.
C36|proved|C36_exact C36_consistent C36_twice C36_empty_first_refuted|Lists that start with an empty element do not count, shown by the refuted theorem.
C37|proved|C37_lookup C37_total C37_sheets C37_untitled C37_any_title_refuted C37_colon_refuted C37_untitled_object_refuted C37_same_field_refuted C37_no_schema_refuted|str.lower is an oracle; schemas are finite trees with references resolved. The carve-outs are necessary (refuted theorems).
C38|proved|C38_columns C38_total C38_ready C38_integers_refuted C38_sheets_refuted C38_root_id_refuted|Recursive schemas are not modelled. The carve-outs are necessary (refuted theorems).
C39|proved|C39_found C39_alternatives C39_recorded C39_object_in_array_refuted|The carve-out for objects in arrays is necessary (refuted theorem).
C40|proved|C40_remote_only|What the loader of jsonref does with a URI is a parameter.
C41|proved|C41_base C41_metatab C41_list C41_second_record_refuted C41_list_xml_refuted|Contents of files are parameters of the model; XML output is C35.
C42|proved|C42_columns C42_sheets C42_merged_refuted C42_repeated_rows_refuted C42_exponent_refuted|Rows without merged cells; merged cells, repeated rows and numbers in exponent notation are shown to go wrong.
C43|proved|C43_unflatten C43_flatten C43_template C43_flatten_format C43_template_format C43_format_late_refuted|An unknown output format is noticed only after parsing (refuted theorem); nothing is written.
C44|proved|C44_split|for every option set; rows not longer than their headings.
C45|proved|C45_regular C45_mixed_array_refuted C45_nested_array_refuted|regular inputs; two shapes of irregular arrays raise (refuted theorems).
C46|proved|C46_rows|
C47|proved|C47_inside C47_outside_refuted C47_clash_refuted|File system as a map from paths to texts; directory creation not modelled.
C48|proved|C48_texts C48_number_refuted C48_nan_refuted C48_zero_refuted C48_names_refuted|float() is an oracle; the carve-outs of the statement are necessary (refuted theorems).
C49|proved|C49_flatten C49_template|
C50|proved|C50_main C50_metatab C50_second_record_refuted|The carve-out for several metatab records is necessary (refuted theorem).
C51|proved|C51_round_trip C51_ordered C51_typed C51_main_first_refuted|CSV codec, directory and JSON reader as in Model/Csv.v, Model/Commands.v. The condition on the order of the files is necessary (refuted theorem).
C52|proved|C52_records C52_run C52_dots_refuted|ijson as a function on the parsed document. The carve-out for dots is necessary (refuted theorem).
C53|proved|C53_fails C53_heard C53_parsed C53_id_array_refuted|JSON mode. C53_parsed: the types of every parsed schema are among the known ones. An id that is an array for the schema gives a TypeError (refuted theorem).
C54|proved|C54_flatten C54_absent C54_item_refuted C54_invalid_refuted|JSON input, no roll-ups. A geometry that is an array item or a record makes flatten fail with a TypeError; an invalid one keeps its column (refuted theorems).
C55|proved|C55_types C55_round_trip|Uses C51 (round trip through files) and C39 (types recorded by the schema parser).
C56|proved|C56_flatten C56_template C56_configuration C56_items C56_rollup_true_refuted C56_preserve_warning_refuted C56_xml_nested_refuted|A roll-up list that mixes True and paths is excluded. The records of JSON documents are spelled out for paths without dots and keys 'item'. What flatten then does with the options is C22-C31.
C57|proved|C57_reported C57_last_column C57_ignored C57_ods_short_refuted|ODS rows must reach the last column of each repeated heading (refuted otherwise). Vertical sheets are not covered.
C58|proved|C58_records C58_items C58_sheets C58_columns C58_several_unsaid_refuted C58_empty_root_column_refuted|Keys without '/', none twice in an object (clean); without a schema no array of objects is named so that its sheet is the empty name. XML and WKT input are excluded (C36, C54). The iteration order of a set is an arbitrary permutation.
C59|proved|C59_turned C59_cells C59_columns C59_json C59_locations C59_csv C59_ods_skip_refuted|There is a cell below the configuration row; ODS with skipped or further header columns is excluded (C59_ods_skip_refuted). C59_columns needs headings not repeated and at least one heading and data column; C59_json no configuration rows and, for ODS, no rows without cells; C59_locations sheets whose turned form is locatable (as C13).
C60|proved|C60_main C60_items C60_sheets C60_once C60_records C60_item_rows C60_rollup C60_ready C60_roll_fails_refuted C60_root_twice_refuted|Composed with C58 (which says what the rows hold, given the titles).
C61|proved|C61_positions C61_left_out C61_mixed_refuted|XML is excluded; headings with an empty part ("a//b") are excluded
C62|proved|C62_titles_round_trip C62_order C62_typed C62_run C62_extra_refuted|no roll-up, filter or preserved fields; XML and GeoJSON are excluded; every object needs an id as for C01
C63|proved|C63_template C63_flatten C63_unflatten C63_rollup_swallows_refuted C63_schemas_swallow_refuted|The lines with the separator -- and negative truncation lengths are not modelled (C64 shows these are the only ones).
C64|proved|C64_any_line C64_status_refuted|
C65|proved|C65_written C65_always C65_one_meaning C65_read C65_read_once C65_only C65_back C65_not_json C65_nan_refuted|Texts are sequences of code points; for the bytes of the files see C70. How Python prints a float is a parameter.
C66|proved|C66_text C66_ordered|That ijson gives what the text says, with Decimals, is the hypothesis file_has; texts with half a surrogate pair are excluded.
C67|proved|C67_workbook C67_typed C67_near C67_typed_near|What openpyxl reads in a cell (read) is a parameter of the theorem; C67_workbook is for numbers that floats hold exactly, C67_near for numbers that come back as nearby ones (0.1), whose values are then those of the JSON. Texts must not be formulas (xlsx_ready).
C68|proved|C68_ods C68_near C67_typed C67_typed_near C68_true_refuted C68_digits_refuted C68_titles_refuted|float(text) and str(float) are parameters. The three refutations show what the conditions exclude.
C69|proved|C69_round_trip C69_ordered C69_typed C69_order_refuted|Command-level version of C62. Conditions on the schema as in C62 (that the parsed schema is ready follows from the others: C62_run). JSON text, CSV text and UTF-8 are modelled apart (C33, C65, C70).
C70|proved|C70_written C70_read C70_one C70_refused C70_csv_refused C70_json C70_round_trip C70_ordered C70_mark_refuted C70_half_refuted|UTF-8 only (the default). A text is encoded as a whole: what a failing run leaves in a file is not modelled. ijson and the schema reader are taken to read UTF-8 (file_holds).
C71|proved|C71_cells C71_headings C71_cell_file C71_heading_file|examples C71_meets, C71_text, C71_heads_text; Tests/DocExamples.v replays the documented source maps to the letter
C72|proved|C72_reported C72_properties C72_columns C72_quiet|example C72_meets has a schema with all six kinds of warning; the order of the fields in a roll-up warning is not fixed (a Python set)
C73|proved|C73_read_back C73_files C73_commands C73_sheets C73_same_data_refuted C73_text_tag_refuted|names without prefix, no tag "#text", data of the shape of C35; the XML text (serialisation and parsing) is not modelled: what is written is the element tree, what is read is what xmltodict makes of that tree
C74|proved|C74_no_schema C74_schema C74_succeeds C74_fails|that the files can be opened and written is a premise (what the world answers); XML and metatab are excluded
C75|proved|C75_data C75_run C75_succeeds C75_fails C75_geometry_refuted|what the libraries that write files accept is a premise on the tables (taken); XML is excluded; format "all" is three runs (C49); with WKT a record or item that is itself a geometry raises (refuted theorem)
C76|proved|C76_template C76_taken C76_fails|what the libraries that write files accept is a premise on titles and headings (C76_taken says what); format "all" is three runs (C49)
