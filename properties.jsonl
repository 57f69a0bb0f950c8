{"id": "C01", "title": "flatten then unflatten is the identity on well-formed data", "statement": "Flattening a list of JSON objects and unflattening the tables gives back the same records: flatten does not fail, unflatten gives no warning, every object has the same keys and values, every array the same items (arrays of objects as a multiset; C02 is about their order). Provided: the same id and root id fields on both sides, no titles, XML, roll-up, filter or preserved fields; every record and every object in an array has an id that is a non-empty text or a whole number, distinct within its array (records: distinct with their root id, which each has and which is not used inside); keys are not empty, not numbers, without '/' and not ending in a square bracket; no empty object or array; and each single value (or array of values) survives: written in its cell and converted to the type the schema gives for its field it is the value again (without a schema: non-empty texts and whole numbers; with one: texts, numbers, truth values, arrays of texts without ';' and ',', of numbers, and arrays of such arrays, each where the schema has that type, written raw or as text).", "quantifier": "every list of such documents of any width, nesting depth and number; every order of the tables, every order of the rows within a table, any blank for missing cells", "why_tests_cant": "round-trip tests use three fixed fixture files; the claim is about every document and every nesting depth", "anchors": ["flattentool/json_input.py:JSONParser.parse_json_dict", "flattentool/input.py:unflatten_main_with_parser", "flattentool/input.py:merge", "flattentool/input.py:SpreadsheetInput.do_unflatten"]}
{"id": "C02", "title": "array order survives the round trip", "statement": "After flatten and unflatten the items of every array, and the records, are in their original order, provided the main table is read first, no table is read before the one with the items around its own, and records with the same root id are next to each other. This is the order in which the sheets are written when the keys of arrays that contain arrays are not longer than the truncation length; with the default truncation, with CSV files read by name, and with scattered root ids the order is lost (refuted).", "quantifier": "every list of documents as in C01, every such order of the tables", "why_tests_cant": "order depends on how sheet names sort, which fixtures happen not to exercise", "anchors": ["flattentool/output.py:SpreadsheetOutput.write_sheets", "flattentool/schema.py:make_sub_sheet_name", "flattentool/input.py:TemporaryDict", "flattentool/input.py:CSVInput.read_sheets"]}
{"id": "C03", "title": "blank cells, columns and rows never influence unflatten", "statement": "Adding or removing blank cells (empty or None), whole blank columns or blank rows changes neither the produced JSON (or the exception raised) nor the warnings, other than those about repeated headings; the one exception is the column of the root id, where a blank root id and a missing root id column are told apart.", "quantifier": "every table and every placement of blank cells and rows", "why_tests_cant": "there are exponentially many placements of blanks", "anchors": ["flattentool/input.py:unflatten_main_with_parser", "flattentool/input.py:SpreadsheetInput.do_unflatten"]}
{"id": "C04", "title": "one object per identifier", "statement": "In the output of unflatten no two objects of the same array (for the root list: with the same root id) have equal ids: rows that share an id are merged into one object.", "quantifier": "every sequence of sheets and rows, every array at every depth of the output", "why_tests_cant": "a global uniqueness invariant over arbitrary row histories", "anchors": ["flattentool/input.py:TemporaryDict.append", "flattentool/input.py:merge", "flattentool/input.py:SpreadsheetInput.do_unflatten"]}
{"id": "C05", "title": "earlier values are never overwritten by later rows", "statement": "Once a row has put a value at some place of the result, processing any further rows keeps that value at that place; a later row with a different value for the place is reported by a warning.", "quantifier": "every state reachable by a history of rows and every continuation of it", "why_tests_cant": "quantifies over all histories", "anchors": ["flattentool/input.py:merge"]}
{"id": "C06", "title": "merging loses no cell silently", "statement": "When a row is merged into an existing object every cell of the row either is in the result (its location is recorded for the output value it contributed to) or a data warning naming its column/field is issued; nothing already present is lost.", "quantifier": "every pair of object and row", "why_tests_cant": "needs exact accounting of all cells in all shape combinations", "anchors": ["flattentool/input.py:merge", "flattentool/input.py:warnings_for_ignored_columns"]}
{"id": "C07", "title": "a row loses no cell silently", "statement": "Every non-blank cell of a row is either in the output (its location is listed for the value) or reported by a warning naming its column or its field and value, provided the headings agree with the types of the schema (if there is one) about what is an object, an array or a value, are field names and array positions ending in a field name (brackets allowed; the position may be left out where the schema says array: then it is -1), no two headings spell the same path, no heading goes inside the id, ids are single values, and no two items of one array of the row have the same id; a row on its own is reported on exactly: only columns that contradict accepted columns are dropped, and each of those is named.", "quantifier": "every row (any headings, any values, any schema types)", "why_tests_cant": "interactions between any number of columns of one row", "anchors": ["flattentool/input.py:unflatten_main_with_parser", "flattentool/input.py:TemporaryDict.append", "flattentool/input.py:list_as_dicts_to_temporary_dicts"]}
{"id": "C08", "title": "a heading is the path of its cell", "statement": "For a row whose headings (field names and array positions, ending in a field name, the position possibly left out where the schema says array: then it is -1, nothing inside the id, different ids for items of one array) do not contradict each other or the schema, the produced object has exactly the cell values (converted to the type of the schema, if any) at the paths spelled by the headings, and no other leaves, and the warnings about the row are those of the conversions.", "quantifier": "every row with non-contradicting headings", "why_tests_cant": "arbitrary many columns with shared prefixes in any order", "anchors": ["flattentool/input.py:unflatten_main_with_parser"]}
{"id": "C09", "title": "array indexes in headings only give an order", "statement": "For a row whose headings do not contradict each other or the schema: items of an array given by several indexed columns appear in increasing numeric order of the index, whatever the column order (if all or none of them have an id; otherwise those with an id come first); replacing the indexes by others with the same order changes nothing, and permuting the columns changes only the order of object keys.", "quantifier": "every set of indexes and every strictly increasing renumbering", "why_tests_cant": "infinitely many index sets", "anchors": ["flattentool/input.py:list_as_dicts_to_temporary_dicts", "flattentool/input.py:ListAsDict"]}
{"id": "C10", "title": "output order is order of first mention", "statement": "Root objects of the output are grouped by root id in order of first mention; inside a group objects with an id come in order of the first row mentioning the id, followed by the objects without id in row order.", "quantifier": "every sequence of rows", "why_tests_cant": "a statement about all interleavings of ids in rows", "anchors": ["flattentool/input.py:SpreadsheetInput.do_unflatten", "flattentool/input.py:TemporaryDict.to_list"]}
{"id": "C11", "title": "the cell source map describes exactly the output", "statement": "The cell entries of the cell source map are exactly the paths of the leaves of the output, each path once, and every location listed for a path is that of a cell whose (converted) value equals the output value at that path. The entries are sorted by path (array positions by number, fields by code points, a place before those inside it), followed by the rows in the order of their first cell; the heading map lists the fields in the same order.", "quantifier": "every input table", "why_tests_cant": "the whole output and the whole map must agree for every input", "anchors": ["flattentool/input.py:SpreadsheetInput.fancy_unflatten", "flattentool/input.py:extract_list_to_error_path", "flattentool/input.py:extract_dict_to_error_path"]}
{"id": "C12", "title": "source map generation never fails", "statement": "Whenever unflatten succeeds, asking for source maps succeeds too: none of the internal collision checks can fire.", "quantifier": "every input table", "why_tests_cant": "absence of assertion failures for all inputs", "anchors": ["flattentool/input.py:extract_dict_to_error_path", "flattentool/input.py:SpreadsheetInput.fancy_unflatten"]}
{"id": "C13", "title": "source map locations point at the right cell", "statement": "With horizontal sheets in which all headings differ, all header rows exist and no row below them is empty, a location (sheet, column letter, row, heading) in the cell source map gives the sheet, the column and the heading of the cell the value was read from; its row number is that of the cell minus the number of rows above the heading row and the extra header rows, so exactly the cell's row when there is no configuration. (Otherwise it can name another cell.)", "quantifier": "every sheet grid (headings and rows)", "why_tests_cant": "depends on duplicate and blank headings and on skipped rows, in any combination", "anchors": ["flattentool/input.py:SpreadsheetInput.do_unflatten", "flattentool/input.py:XLSXInput.get_sheet_lines", "flattentool/input.py:CSVInput.generate_rows"]}
{"id": "C14", "title": "heading source map is complete and sound", "statement": "The heading source map has, for every output leaf, the path without array positions, listing exactly the (sheet, heading) pairs of the cells that contributed to leaves with that path, without repetition.", "quantifier": "every input table", "why_tests_cant": "global agreement of two data structures for all inputs", "anchors": ["flattentool/input.py:SpreadsheetInput.fancy_unflatten"]}
{"id": "C15", "title": "type conversion never fails and never invents values", "statement": "For every type the schema parser can assign to a column of values, conversion of any cell value other than an infinite or NaN float yields either a value of that type denoting the cell (no warning) or, together with exactly one data warning, the text itself; it never raises.", "quantifier": "every cell value and every assignable type", "why_tests_cant": "infinitely many cell texts", "anchors": ["flattentool/input.py:convert_type"]}
{"id": "C16", "title": "decimal numbers are preserved exactly", "statement": "The text written for a decimal number reads back as the identical decimal (sign, digits and exponent).", "quantifier": "every finite decimal number", "why_tests_cant": "infinite domain with several notation regimes", "anchors": ["flattentool/input.py:convert_type", "flattentool/json_input.py:JSONParser.parse_json_dict"]}
{"id": "C17", "title": "every successfully converted value can be written as JSON", "statement": "A table that unflattens also serialises: leaves of the output are booleans, integers, decimals, texts, lists of these or geometries; the JSON writer accepts each of them (infinite and NaN decimals, which only number columns containing the words NaN/Infinity can give, excepted), and integral decimals are written as the integer they equal.", "quantifier": "every cell value and type", "why_tests_cant": "infinite domain", "anchors": ["flattentool/__init__.py:decimal_datetime_default", "flattentool/input.py:convert_type"]}
{"id": "C18", "title": "unflatten is total on data", "statement": "Without a schema unflatten never raises on table data, whatever the headings and values, as long as no heading goes inside the id field (id/...), lines are not longer than the heading row and there is no infinite or NaN float.", "quantifier": "every table", "why_tests_cant": "absence of crashes for all inputs", "anchors": ["flattentool/input.py:SpreadsheetInput.do_unflatten", "flattentool/input.py:TemporaryDict.append"]}
{"id": "C19", "title": "sheet configuration commands are clamped, independent and unambiguous", "statement": "Parsing textual configuration commands never fails; skipRows is always >= 0, headerRows >= 1; the value of an option is that of the last well-formed command for it, and unrelated or malformed commands have no effect.", "quantifier": "every list of configuration strings", "why_tests_cant": "unbounded lists of arbitrary strings", "anchors": ["flattentool/lib.py:parse_sheet_configuration", "flattentool/lib.py:isint"]}
{"id": "C20", "title": "configured rows are skipped, all others are read", "statement": "With skipRows s and headerRows h (and one configuration line if present) the heading row of a horizontal sheet is the s-th remaining row and the data are exactly the values under different headings in the rows after the h header rows, in order, for CSV, XLSX and ODS input; sheets showing the same cells under the same text headings, with a root id in each row with data, give the same JSON, exceptions and warnings in all three formats. (CSV keeps hash-comment and blank-heading columns, repeated headings, configuration gaps and vertical sheets differ between formats.)", "quantifier": "every grid, s and h", "why_tests_cant": "off-by-one behaviour over all parameter combinations in three readers", "anchors": ["flattentool/input.py:CSVInput.generate_rows", "flattentool/input.py:XLSXInput.get_sheet_lines", "flattentool/input.py:ODSInput.get_sheet_lines"]}
{"id": "C21", "title": "sheet selection", "statement": "The sheets read are exactly those available that are in the include list (if one is given) and not in the exclude list, in workbook (CSV: sorted name) order.", "quantifier": "every set of sheet names, include and exclude lists", "why_tests_cant": "all combinations of lists", "anchors": ["flattentool/input.py:CSVInput.read_sheets", "flattentool/input.py:XLSXInput.read_sheets", "flattentool/input.py:ODSInput.read_sheets"]}
{"id": "C22", "title": "every flattened value has a column", "statement": "After flattening (no array of objects being named by the empty key, which would be stored under the name of the main sheet), every key of every row of every sheet is among the sheet's header columns, so that the writers neither reject nor drop a value.", "quantifier": "every JSON document and every combination of options (schema sheets, titles, rollup, filter, preserve fields, XML)", "why_tests_cant": "an invariant over all documents and option combinations", "anchors": ["flattentool/json_input.py:sheet_key_field", "flattentool/json_input.py:sheet_key_title", "flattentool/json_input.py:JSONParser.parse_json_dict", "flattentool/output.py:CSVOutput.write_sheet"]}
{"id": "C23", "title": "headers have no duplicates and grow only at the end", "statement": "The header of a sheet never contains a column twice, and flattening more data only appends columns.", "quantifier": "every document, every prefix of the record list", "why_tests_cant": "an invariant over all histories", "anchors": ["flattentool/sheet.py:Sheet.add_field", "flattentool/json_input.py:sheet_key_field"]}
{"id": "C24", "title": "one row per object", "statement": "The main sheet has exactly one row per object of the root list (that passes the filter), in order, and each sub-sheet gets exactly one row per object of the arrays assigned to it, in the order in which these objects end in the document (document order, except that an item comes after the items of arrays inside it that share its sheet).", "quantifier": "every document", "why_tests_cant": "unbounded documents and nesting", "anchors": ["flattentool/json_input.py:JSONParser.parse", "flattentool/json_input.py:JSONParser.parse_json_dict"]}
{"id": "C25", "title": "flattening is lossless", "statement": "Every leaf of every record is found in the row of the innermost enclosing array item under the column spelled by its path, provided no key contains the path separator.", "quantifier": "every document and every leaf of it", "why_tests_cant": "unbounded documents and nesting", "anchors": ["flattentool/json_input.py:JSONParser.parse_json_dict"]}
{"id": "C26", "title": "sub-sheet rows carry the ids of their ancestors", "statement": "A row of a sub-sheet holds the id of every enclosing object that has one (and, if no inner object reuses the field, the root id of the record), and no id of any other object.", "quantifier": "every document and every array item at any depth", "why_tests_cant": "unbounded nesting, leak of sibling state", "anchors": ["flattentool/json_input.py:JSONParser.parse_json_dict"]}
{"id": "C27", "title": "filtering equals pre-filtering", "statement": "Flattening with a filter gives the same sheets as flattening the list of only the matching records.", "quantifier": "every record list, filter field and value", "why_tests_cant": "relational statement over all documents", "anchors": ["flattentool/json_input.py:JSONParser.parse_json_dict"]}
{"id": "C28", "title": "preserve-fields keeps exactly the requested fields", "statement": "With preserve-fields a field is kept if every path from the record down to it is requested or is the parent of a requested path, everything inside such an object is kept too unless a request mentions the object's path, and any other field next to a requested one is dropped (except top-level fields named like the last component of a request).", "quantifier": "every document and field list", "why_tests_cant": "relational statement over all documents and lists", "anchors": ["flattentool/json_input.py:JSONParser.parse_json_dict"]}
{"id": "C29", "title": "rollup only adds to the main sheet", "statement": "When flattening with roll-up succeeds, rolling up adds columns to main rows only: sub-sheet rows are unchanged and the other main cells are unchanged; a single item is copied, several items give the fixed warning text.", "quantifier": "every document and rollup set", "why_tests_cant": "relational statement over all documents", "anchors": ["flattentool/json_input.py:JSONParser.parse_json_dict"]}
{"id": "C30", "title": "stored rows are read back complete and in order", "statement": "The disk-backed sheet returns exactly the appended rows in the order appended, independently of other sheets and of when commits happen, as long as no second sheet of the same name is created.", "quantifier": "every interleaving of appends to any number of sheets", "why_tests_cant": "all interleavings", "anchors": ["flattentool/sheet.py:PersistentSheet", "flattentool/json_input.py:JSONParser.parse"]}
{"id": "C31", "title": "sub-sheet names", "statement": "The sheet name of an array depends only on its path with array positions removed; names contain no ':'; distinct arrays may share a sheet but then their values stay in distinct columns (no key being '0' or containing the separator).", "quantifier": "every path and truncation length", "why_tests_cant": "infinitely many paths; truncation collisions", "anchors": ["flattentool/schema.py:make_sub_sheet_name"]}
{"id": "C32", "title": "writers put every value under its header", "statement": "The output has the main sheet first and then the sub-sheets sorted by name; in each the first row holds the headings and the i-th cell of a row is the row's value for the i-th heading, or empty. XLSX and ODS: only forbidden control characters are removed from texts, with one warning for each text from which something was removed; CSV: nothing is removed. Tables made by flattening can always be written as CSV files if the files can be opened.", "quantifier": "every set of sheets, headers and rows", "why_tests_cant": "all sheets and all strings", "anchors": ["flattentool/output.py:SpreadsheetOutput.write_sheets", "flattentool/output.py:XLSXOutput.write_sheet", "flattentool/output.py:CSVOutput.write_sheet"]}
{"id": "C33", "title": "CSV text round trip", "statement": "Writing rows of texts as CSV and reading them back yields the same rows, if no text holds a carriage return or a NUL or more than 131072 characters; otherwise a carriage return comes back as a line feed and NULs are missing (and longer texts cannot be read). The CSV sheets read from a written directory are the written tables, cell by cell.", "quantifier": "every table of texts and both line terminators", "why_tests_cant": "quoting, separators and line ends in any combination", "anchors": ["flattentool/output.py:CSVOutput.write_sheet", "flattentool/input.py:CSVInput.get_sheet_lines", "flattentool/input.py:NullCharacterFilter"]}
{"id": "C34", "title": "XML children are sorted by schema, stably and without loss", "statement": "Sorting an XML element reorders its children (recursively) according to the schema order, keeps the relative order of equally ranked children, puts unknown tags last and loses nothing; the order is that in which the schemas (without type extension) declare the children. (Elements added by an extended type are not known.)", "quantifier": "every element tree and schema order", "why_tests_cant": "all trees and orders", "anchors": ["flattentool/sort_xml.py:sort_element"]}
{"id": "C35", "title": "XML output contains every value exactly once", "statement": "For data in which attributes and text() are single values, without namespace declarations, every value becomes the attribute or text of the element spelled by its path and children keep their order, if lxml accepts all names and texts; in any case nothing is lost without a warning or an exception. The records that unflatten makes from a spreadsheet are such data if in its headings \"@name\" is only the last part, is not a namespace declaration, and no attribute is named in two ways. (Lists of attribute values, headings that go on after \"@name\", rejected attributes, prefixes declared in the same element and default namespaces do go wrong.)", "quantifier": "every nested data structure", "why_tests_cant": "unbounded nesting", "anchors": ["flattentool/xml_output.py:dict_to_xml", "flattentool/xml_output.py:child_to_xml"]}
{"id": "C36", "title": "repeated XML tags are consistently lists", "statement": "After normalisation a tag path that is a list of elements (starting with a non-empty one) anywhere in the file is nowhere a single element; nothing else changes and normalising twice changes nothing more. (Lists starting with an empty element do not count.)", "quantifier": "every parsed XML document", "why_tests_cant": "unbounded documents", "anchors": ["flattentool/json_input.py:list_dict_consistency", "flattentool/json_input.py:lists_of_dicts_paths", "flattentool/json_input.py:dicts_to_list_of_dicts"]}
{"id": "C37", "title": "title headings resolve to fields", "statement": "With titles in headings instead of field names (convert_titles and a schema whose objects and arrays of objects have titles, the titles within one object being different): a heading is split at ':'; each part that reads as an integer stands for itself (an array position); a part equal to a title of the object reached so far, ignoring spaces and letter case, stands for that field and the rest is looked up in the objects of that field; from the first unknown part on the parts are used as they are, apart from surrounding spaces. Lines whose headings stand for different fields are read as the same cells under those fields' paths. (Titles that read as integers or contain ':' can never be used; of two headings for one field the earlier cell is silently lost; without a schema there is an AttributeError.)", "quantifier": "every schema (finite, references resolved), heading and sheet", "why_tests_cant": "all headings", "anchors": ["flattentool/schema.py:TitleLookup"]}
{"id": "C38", "title": "schema columns are complete", "statement": "Every property of a schema that is a value or an array of values gives a column spelled by its path (or titles): on the main sheet if not below an array of objects or if rolled up through each of them, and on the sheet of the innermost array of objects; nothing else gives a column; every array of objects has its sheet with the id columns of the objects around it; deprecated properties are left out if and only if asked for. A well-formed schema is always read, and (paths used, sheet names different, root id not 'id') the sheets have no heading twice. (Arrays of integers or booleans are refused; two arrays can share a sheet; with root id 'id' a heading is there twice.)", "quantifier": "every (non-recursive) schema", "why_tests_cant": "unbounded schemas", "anchors": ["flattentool/schema.py:SchemaParser.parse_schema_dict"]}
{"id": "C39", "title": "schema types drive conversion", "statement": "A heading with array positions finds the type the schema gives for its field (whatever the positions), every type recorded is that of a field of the schema, and is one the converter accepts ('geojson' only with WKT conversion). (Excepted: an object inside an array is recorded under a path that is never looked for.)", "quantifier": "every (non-recursive) schema and heading", "why_tests_cant": "unbounded schemas", "anchors": ["flattentool/schema.py:SchemaParser.parse_schema_dict", "flattentool/input.py:convert_type"]}
{"id": "C40", "title": "remote-only mode never opens local references", "statement": "With local refs disabled a reference is followed only if it starts with http:// or https:// (any case).", "quantifier": "every reference string", "why_tests_cant": "all strings", "anchors": ["flattentool/schema.py:is_ref_local", "flattentool/schema.py:jsonloader_local_refs_disabled"]}
{"id": "C41", "title": "base JSON and metatab are preserved", "statement": "A successful unflatten to JSON writes one document: an object with the keys of the base JSON (or of the first metatab record) in their order and then the root list path (in place if it is already a key); every value except that at the root list path is unchanged; at the root list path is the list of the records read from all sheets but the metatab, with the metatab's configuration over the default configuration. With root_is_list the document is the list of records. Of several metatab records only the first is kept; XML output with root_is_list always fails.", "quantifier": "every content of the files, every set of options, every base object, metatab and list of records", "why_tests_cant": "all objects", "anchors": ["flattentool/__init__.py:unflatten"]}
{"id": "C42", "title": "ODS cells keep their column", "statement": "In an ODS row without merged cells a cell is placed in the columns given by the sum of repeat counts of the cells before it, whatever empty or repeated cells surround it, with the whole number, float, date or text it shows; sheets and row elements are all read in order. (Cells after a merged cell are moved to the left, a row element standing for several rows is read once, and a number such as 1E+20 makes the file unreadable.)", "quantifier": "every row of cells with repeat counts", "why_tests_cant": "all rows", "anchors": ["flattentool/ODSReader.py:ODSReader.readSheet", "flattentool/ODSReader.py:GrowingList"]}
{"id": "C43", "title": "invalid option combinations are rejected before any output", "statement": "unflatten is refused with a FlattenToolError before any file is opened or written exactly when the input format is missing or unknown, or base JSON and metatab are both given; flatten exactly when half a filter is given or the line terminator is unknown; create-template exactly when the line terminator is unknown. With an unknown output format flatten and create-template write nothing and end in the FlattenToolError (after the input has been read).", "quantifier": "every content of the files and every combination of options", "why_tests_cant": "all combinations", "anchors": ["flattentool/__init__.py:flatten", "flattentool/__init__.py:unflatten", "flattentool/__init__.py:create_template"]}
{"id": "C44", "title": "sheets or rows may be split freely", "statement": "Unflattening the same rows gives the same JSON (or the same exception) however the rows are distributed over consecutive sheets, and the same warnings apart from the sheet names in them and those about repeated headings.", "quantifier": "every table and every way of cutting it into consecutive sheets", "why_tests_cant": "all splittings", "anchors": ["flattentool/input.py:SpreadsheetInput.do_unflatten"]}
{"id": "C45", "title": "flatten is total on JSON", "statement": "Flattening (without roll-up, XML and WKT) never raises on a list of JSON values in which every array holds only basic values, only arrays of basic values, or only objects and nulls.", "quantifier": "every JSON list", "why_tests_cant": "absence of crashes for all inputs", "anchors": ["flattentool/json_input.py:JSONParser.parse_json_dict"]}
{"id": "C46", "title": "row entries of the cell source map", "statement": "Besides the cells, the cell source map has an entry for exactly the objects of the output that directly hold a value, under the object's path; it lists exactly the (sheet, row) pairs of the cells recorded for those values, without repetition.", "quantifier": "every input table and option set", "why_tests_cant": "agreement of two data structures for all inputs", "anchors": ["flattentool/input.py:SpreadsheetInput.fancy_unflatten"]}
{"id": "C47", "title": "CSV files stay in the output directory, one per sheet", "statement": "Writing CSV changes only files in the output directory that are named after a sheet, and every sheet ends up in its own file, provided the sheet names are distinct and contain no '/'. (Keys of the JSON that contain '/' make the code write elsewhere, and an array named as the main sheet replaces the main sheet's file.)", "quantifier": "every set of tables and every previous state of the file system", "why_tests_cant": "all sheet names, all previous files", "anchors": ["flattentool/output.py:CSVOutput.open", "flattentool/output.py:CSVOutput.write_sheet"]}
{"id": "C48", "title": "texts written to an ODS file come back", "statement": "Writing tables of texts as ODS and reading the file gives the same sheets, headings and texts (without forbidden control characters), if no text or heading is one that Python's float() accepts and the names differ in their first 31 characters.", "quantifier": "every set of tables of texts", "why_tests_cant": "all texts", "anchors": ["flattentool/output.py:ODSOutput.write_sheet", "flattentool/output.py:ODSOutput._make_cell", "flattentool/ODSReader.py:ODSReader.readSheet"]}
{"id": "C49", "title": "output format \"all\" is the three formats", "statement": "When flatten or create-template with the output format \"all\" succeeds, the runs with the formats xlsx, csv and ods and the names NAME.xlsx, NAME and NAME.ods succeed, read the same files, and together write exactly the files of the \"all\" run (NAME is the output name or \"flattened\"/\"template\").", "quantifier": "every content of the files and every set of options", "why_tests_cant": "all inputs and options; an equality of traces", "anchors": ["flattentool/__init__.py:flatten", "flattentool/__init__.py:create_template", "flattentool/output.py:FORMATS_SUFFIX"]}
{"id": "C50", "title": "written source maps describe the written document", "statement": "The cell and heading source map files that unflatten writes are the maps of the run that gave the records (see C11, C14, C46); with a metatab of at most one record (and no field with an empty name), the entry for a place of the output is that of the main run, otherwise that of the metatab's record at the same place. With several metatab records the entries describe a record that is not in the output.", "quantifier": "every content of the files and every set of options", "why_tests_cant": "all spreadsheets with a metatab; the cutting of prefixes must be injective on all keys", "anchors": ["flattentool/__init__.py:unflatten", "flattentool/input.py:fancy_unflatten"]}
{"id": "C51", "title": "JSON to CSV files and back with the two commands", "statement": "flatten of a JSON document to CSV files (no titles, roll-up, filter, XML) runs, and unflatten of the directory it wrote runs and writes a JSON file with the same records: same keys, same texts and truth values, equal numbers, arrays of values the same, arrays of objects with the same items - in the same order if the file of the main sheet comes first in the directory, records with one root id are adjacent and names of nested arrays are not cut. It holds for records with different ids, whose nested objects are not empty, whose headings and texts survive CSV (no carriage return, no NUL, at most 131072 characters), whose sheets have different names, and whose cells are converted back under the schema of unflatten - which is so when the values have the types of the schema.", "quantifier": "every world (files, schemas), all options of both commands within the limits named, every document of the class, any nesting and size, any order in which the directory lists the files", "why_tests_cant": "all documents, options and schemas; the composition of the parser, two writers and readers and the merge of rows must be the identity", "anchors": ["flattentool/__init__.py:flatten", "flattentool/__init__.py:unflatten", "flattentool/json_input.py:JSONParser", "flattentool/output.py:CSVOutput", "flattentool/input.py:CSVInput"]}
{"id": "C52", "title": "which records flatten reads", "statement": "For JSON input, flatten reads exactly the items of what stands at the root list path (or of the document, with root_is_list), in order: those of an array; of an object, the value of its key \"item\"; nothing, without any message, if there is nothing there. The files of a CSV run are those of the flattening of these records. (The path has no dots and no \"item\" in it; the objects on the way have no repeated keys and no keys with dots: with those, other records are read too.)", "quantifier": "every JSON document, root list path and set of options", "why_tests_cant": "all documents and paths; ijson compares joined prefixes, which identifies some different paths", "anchors": ["flattentool/json_input.py:JSONParser.__init__", "flattentool/json_input.py:JSONParser.parse", "flattentool/__init__.py:flatten"]}
{"id": "C53", "title": "headings at odds with the schema", "statement": "With a schema, unflatten either succeeds or raises the schema error (FlattenToolValueError) naming a field which the heading of a non-blank cell treats as an array or object although the schema says otherwise; it fails in no other way. If it succeeds, every column with such a heading is reported as ignored. (For table data without infinite or NaN numbers, headings without empty parts, and ids that are single values for the schema and are not followed by further parts.)", "quantifier": "every schema, table, heading and value", "why_tests_cant": "all combinations of headings and types; another column may hide the contradiction", "anchors": ["flattentool/input.py:unflatten_main_with_parser", "flattentool/input.py:convert_type", "flattentool/exceptions.py"]}
{"id": "C54", "title": "flattening geometries as WKT", "statement": "With WKT conversion (convert_flags wkt), flattening a list of records gives exactly the tables, ids and warnings that flattening without it gives for the records in which every GeoJSON geometry is replaced by its WKT text; if shapely is not installed, the option changes nothing but the warnings. (For valid geometries with only the keys type and coordinates, as values of fields that are not ids, root ids or filter fields; no roll-ups; JSON input.)", "quantifier": "every list of records, nested to any depth with any number of geometries, every schema, preserve list, filter and truncation length, every WKT printer", "why_tests_cant": "The tests convert a handful of shapes at fixed places; that the rest of the output (columns, sub-sheets, copied ids, warnings) is unaffected by the conversion, wherever the geometries are, is a statement about all documents.", "anchors": ["flattentool/json_input.py: JSONParser.parse_json_dict (convert_flags wkt, skip_type_and_coordinates)"]}
{"id": "C55", "title": "documents that conform to a schema survive the round trip", "statement": "If every record conforms to the JSON schema given to unflatten (each declared field has a value its property allows; undeclared fields hold texts, objects, or arrays of objects), then flatten to CSV files followed by unflatten with that schema succeeds and writes the same records, up to the order of records and array items, and in the same order when the main sheet's file comes first, records of one root id are together and the names of arrays are not cut. No reference to how the schema is stored by the tool is needed. (Ids are not of type number, root ids neither number nor boolean; texts survive CSV; schema without alternatives for the records.)", "quantifier": "every JSON schema the parser can read, nested to any depth, every list of conforming documents, all file names and directory listings", "why_tests_cant": "The tests round-trip fixed documents with fixed schemas; that conformity to a schema suffices is a statement about all schemas and all documents.", "anchors": ["flattentool/__init__.py: flatten, unflatten", "flattentool/schema.py: SchemaParser.parse_schema_dict, flattened", "flattentool/input.py: convert_type, unflatten_main_with_parser", "flattentool/json_input.py: JSONParser.parse_json_dict", "flattentool/output.py: CSVOutput"]}
{"id": "C56", "title": "the flatten command does what its options say", "statement": "A successful flatten run flattens exactly the records under the root list path of the document, with the roll-ups of the schema if it has any, else the stripped lines of the roll-up file, else the paths given; with the filter and the preserve file; it writes the resulting tables in the format and under the name asked for and nothing else. It says that roll-ups given directly are ignored exactly if they are, and names the fields to preserve that are not in the schema. create_template writes exactly the sheets of the schema. The default configuration of unflatten is what its comma-separated items mean. (Roll-ups asked for by True without schema: a TypeError; the warning about preserved fields is given even if all are in the schema; the only record of an XML document under a nested path is lost.)", "quantifier": "every world of files, every option combination of flatten, create_template; every configuration text", "why_tests_cant": "all combinations of options and files", "anchors": ["flattentool/__init__.py:flatten", "flattentool/__init__.py:create_template", "flattentool/__init__.py:unflatten", "flattentool/json_input.py:JSONParser.__init__"]}
{"id": "C57", "title": "repeated headings: the last column counts, the others are reported", "statement": "If a heading occurs in several columns of a horizontal sheet, the value of a row under it is that of the last of these columns, and the values in the others make no difference; unflatten warns about exactly the headings in more than one column, one warning each, naming the sheet and all its columns but the last, sheet by sheet in the order of their last columns. (An ODS row that ends before the last column takes the value of an earlier one although that column is reported as ignored.)", "quantifier": "every grid of cells, every set of headings, CSV, XLSX and ODS", "why_tests_cant": "any number of columns in any arrangement and any values in them; exactness of a set of warnings", "anchors": ["flattentool/input.py:SpreadsheetInput.do_unflatten", "flattentool/input.py:CSVInput.generate_rows", "flattentool/input.py:XLSXInput.get_sheet_lines", "flattentool/input.py:ODSInput.get_sheet_lines"]}
{"id": "C58", "title": "flattening with titles, a schema and roll-up: every value is under the heading the options ask for", "statement": "Whatever mix of schema, titles, roll-up, filter and preserved fields flatten is run with (JSON without WKT): the main sheet has one row for each record that is an object and passes the filter, in their order, and the sheet of an array one row for each of its items that is kept, in document order; with titles the sheet of an array has the title the schema gives it, otherwise the shortened keys on the way to it. A row has under the title of a column on its sheet (with titles, if it has one there; otherwise under the column's path) the value of that field; the row of an item also has the ids of the objects around it; the main row also has the fields of a single item of an array that is to be rolled up, or a note if there are several. Nothing else is in a row, and a value is only missing if another one has the same heading. There are no sub-sheets except those of items and of the schema. (With titles, several items whose field the schema rolls up leave no note, and sub-sheets have an empty column for the root id.)", "quantifier": "every list of records, every schema result, every combination of options for JSON input without WKT", "why_tests_cant": "arbitrary nesting and all combinations of options; completeness and exactness of rows", "anchors": ["flattentool/json_input.py:JSONParser.parse_json_dict", "flattentool/json_input.py:sheet_key_title", "flattentool/json_input.py:sheet_key_field", "flattentool/schema.py:make_sub_sheet_name"]}
{"id": "C59", "title": "sheets read by columns", "statement": "With vertical orientation an XLSX sheet, below its configuration row, is read by columns exactly as the turned sheet (rows and columns swapped) is read by rows with the same configuration: the headings are the cells of the column after the skipped ones, the lines the columns after the header columns. An ODS sheet is read so too when no columns are skipped and there is one header column; its rows without cells are left out. A whole workbook without configuration rows gives exactly the JSON, warnings or exception of the turned workbook. A location in the cell source map gives the row of the cell as a number, counted from the first row after the configuration row, and the column as a number, up to the columns before the data. CSV files are read by rows in any case. (With skipRows or headerRows an ODS sheet is read wrongly: the second column is taken as the first line whatever is skipped, and rows that are too short to have a heading move the headings.)", "quantifier": "all sheets, configurations and reading options", "why_tests_cant": "all grids with rows of any length; every cell has to end up under its own heading", "anchors": ["flattentool/input.py:XLSXInput.get_sheet_headings", "flattentool/input.py:XLSXInput.get_sheet_lines", "flattentool/input.py:ODSInput.get_sheet_headings", "flattentool/input.py:ODSInput.get_sheet_lines", "flattentool/input.py:SpreadsheetInput.do_unflatten"]}
{"id": "C60", "title": "flattening with titles uses the titles of the schema", "statement": "When a file is flattened with --use-titles and a schema, the heading of a column of the main sheet is the title the schema gives that field: the titles of the fields on the way to it joined with ':', if all of them have one, and otherwise the path itself.  The same holds of the sheet of every array of objects and of the name of that sheet, provided titles are words (no '/' or ':' in them, not the number 0).  If the schema has no alternatives and gives no key twice, there is one title at most, so the value of a field with a title is in its record's (item's) row under that title, unless another value of that record (item) has the same heading.  The columns the schema's rollUp lists are exactly those remembered for roll-up.  (A record whose only item has a nested array or object makes flattening with roll-up fail even though that field is not to be rolled up: refuted.)  No heading is twice on a sheet that such a schema gives, unless the root id is also the title of the id of the records (refuted).", "quantifier": "all schemas, option values, lists of records, fields, arrays and nesting depths", "why_tests_cant": "the title tables are filled while the schema is walked; whether every column has the right title, and none gets another's, is a statement about all schemas and all orders of their fields", "anchors": ["flattentool/schema.py: SchemaParser.parse, parse_schema_dict", "flattentool/sheet.py: Sheet.titles", "flattentool/json_input.py: sheet_key_title, parse_json_dict"]}
{"id": "C61", "title": "the numbers in headings only keep the items of a row apart", "statement": "When a JSON-style spreadsheet is unflattened, the numbers in headings like \"bids/2/value\" make no difference as long as, within one row, all filled headings of an array use the same number: any other numbers, used consistently, give the same documents and the same warnings but for the headings named in them; and where the schema says that \"bids\" is an array the numbers can be left out altogether (\"bids/value\"). Leaving them out of some headings of a row only splits the item.", "quantifier": "all spreadsheets (any sheets, rows, values, depth of nesting), all pairs of headings that differ in their numbers only, all schemas", "why_tests_cant": "tests compare a few spellings of one array; the claim relates every spreadsheet to all its renumberings, at every depth and combination of arrays, values and conflicts", "anchors": ["flattentool/input.py: unflatten_main_with_parser, list_as_dicts_to_temporary_dicts, ListAsDict, TemporaryDict, merge"]}
{"id": "C62", "title": "Flattening with titles and unflattening with the same schema gives the data back", "statement": "Take a schema whose titles are readable: every object and array has one, no two fields of an object have the same apart from case and spaces, titles have no '/' or ':' and are not numbers, ids have a title, no two arrays share a sheet. Take documents all of whose values are fields of that schema with a title. Flattening them with --schema and --use-titles and unflattening the sheets with --convert-titles and the same schema gives the same documents: no value is lost, moved or split between array items, whatever the order of the sheets and of the rows; and if the main sheet comes first and sheets of outer arrays before those of inner ones, the order is kept too. There are no warnings except about headings.", "quantifier": "all schemas with readable titles, all lists of documents whose values the schema names, all options without roll-up, filter and preserved fields, all orders of sheets and rows, all ways of writing cells that survive conversion", "why_tests_cant": "The claim joins two programs and a schema parser over unboundedly nested data and schemas; titles are rewritten to paths without array positions, so it depends on every heading of a row agreeing on the item it belongs to. Tests cover a few schemas; one field outside the schema already breaks it (C62_extra_refuted).", "anchors": ["flattentool/json_input.py: JSONParser.parse_json_dict", "flattentool/sheet.py", "flattentool/schema.py: SchemaParser", "flattentool/input.py: SpreadsheetInput.convert_titles, unflatten_main_with_parser", "flattentool/input.py: convert_dict_titles"]}
{"id": "C63", "title": "A command line means what its options say", "statement": "However a line for create-template, flatten or unflatten is written - options in any order and any number of times, long names abbreviated to an unambiguous beginning, values after a space, after '=' or (one-letter options) right after the letter, -v before the command - the program runs that function with exactly the values given: the last value of an option given twice, every use of --rollup in order, the documented default for an option not used. It ends as that run ends: an exception ends it with status 1 (a full traceback only with -v), except that create-template prints an OSError and ends. The input's name can stand anywhere but after --rollup without a value or after the values of --xml-schema, which take it for one of theirs.", "quantifier": "all lines that name a command and say something understandable about its options, in every spelling and order, and all contents of the files", "why_tests_cant": "The order, repetition, abbreviation and spelling of some forty options combine without bound; tests run a few dozen fixed lines.", "anchors": ["flattentool/cli.py: create_parser, kwargs_from_parsed_args, main", "flattentool/__init__.py: create_template, flatten, unflatten (parameters and defaults)"]}
{"id": "C64", "title": "Every command line either does nothing or runs one function on what it names", "statement": "Whatever the words of the command line are, the program either shows help or a usage error and opens and writes nothing, or it runs one of the three functions once, with an input that is one of the words, a format that exists (and is given, for unflatten), and with no name, path or value that is not the end of one of the words or the documented default. The exit status is 0 exactly when nothing failed - except for create-template, which reports a missing schema with status 0.", "quantifier": "all lists of words, all contents of the files", "why_tests_cant": "It ranges over every possible command line, including nonsense; tests try a few.", "anchors": ["flattentool/cli.py: create_parser, kwargs_from_parsed_args, main, non_verbose_error_handler"]}
{"id": "C65", "title": "The JSON that unflatten writes says exactly the data, and base JSON is read as what it says", "statement": "The text unflatten writes is JSON (RFC 8259) and says exactly the data, whatever characters texts and keys contain, however deeply nested; it says only that, and json.load gives it back. Every JSON text is accepted as base JSON and read as what it says - every spelling of white space, escapes and numbers, the last value of a key given twice - and nothing else is accepted but the words NaN, Infinity and -Infinity. A NaN or an infinity that gets into the output makes it a text that is not JSON.", "quantifier": "all data (trees, texts, numbers), all texts, all ways Python may print floats", "why_tests_cant": "Texts and data are unbounded, nesting and escapes combine without limit, and that a text is not JSON under any reading is not something a run shows.", "anchors": ["flattentool/__init__.py: unflatten (json.load of base_json, json.dump(s) of the result), decimal_datetime_default, NumberStr"]}
{"id": "C66", "title": "From JSON text to JSON text nothing is lost", "statement": "If a JSON file is flattened to CSV files and those are unflattened again, the JSON text that is written says the same records as the text that was read: same texts, truth values and numbers (as far as doubles have the digits; whole numbers always), same keys, same arrays - in the same order when the main sheet's file comes first in the directory.", "quantifier": "all JSON texts (in every spelling) of documents that fit the schema and CSV, all options that keep the whole document, all directory listings", "why_tests_cant": "It relates every text to every other text that a run through two programs may produce; tests compare a few fixed files.", "anchors": ["flattentool/__init__.py: flatten, unflatten", "flattentool/json_input.py: JSONParser", "flattentool/output.py: CSVOutput", "flattentool/input.py: CSVInput, SpreadsheetInput.unflatten"]}
{"id": "C67", "title": "Flattening to a workbook and unflattening it gives the same records", "statement": "If `flatten` writes an XLSX workbook (its only output) and `unflatten` reads it, the JSON written has the same records: same keys, values equal (numbers equal as numbers), arrays of objects with the same items - in the same order when records with the same root id stand together. The cells need not be read as they were written: a value, its text, or (for numbers) an equal float will do. Numbers that a float only approximates (0.1) come back as the value of the float, everything else unchanged.", "quantifier": "all lists of records with ids, all schemas and options that keep the whole document, all ways in which openpyxl may give back the cells as long as every heading and every cell is read as a value that converts back, all titles", "why_tests_cant": "Which cells and sheets there are depends on the records; the tests compare a few workbooks, and flatten and unflatten separately.", "anchors": ["flattentool/__init__.py: flatten, unflatten", "flattentool/output.py: XLSXOutput", "flattentool/json_input.py: JSONParser", "flattentool/input.py: XLSXInput, SpreadsheetInput.unflatten"]}
{"id": "C68", "title": "Flattening to an ODS document and unflattening it gives the same records", "statement": "If `flatten` writes an ODS document and `unflatten` reads it, the JSON written has the same records (as for workbooks), provided sheet names differ in their first 31 characters, headings are not numbers, and every cell shows a value that converts back. Not provided for, and lost or changed: true (comes back as the text \"1.0\"), texts that are numbers (\"007\" comes back as \"7.0\"), one of two sheets with the same first 31 characters. Numbers come back as the value of the float that is read.", "quantifier": "all lists of records with ids, all schemas and options that keep the whole document, all float parsing and printing", "why_tests_cant": "The cells depend on the records, on Python's float() and on the schema; tests compare a few fixed documents.", "anchors": ["flattentool/__init__.py: flatten, unflatten", "flattentool/output.py: ODSOutput", "flattentool/ODSReader.py: ODSReader", "flattentool/input.py: ODSInput, SpreadsheetInput.unflatten"]}
{"id": "C69", "title": "flatten --use-titles to CSV files, then unflatten --convert-titles with the same schema, gives the same records", "statement": "If `flatten` is run with a schema and titles and writes CSV files, and `unflatten` with titles reads that directory with the same schema, the JSON written has the same records: same keys, same values, same items in every array (in the same order too when the main sheet's file is the first by name and the file of an array comes before the files of the arrays in its items). This holds when every value is a field of the schema with a title, titles are words that can be told apart, no file name, heading or text is one that CSV or the sheet's first row changes, and values have the types of the schema. Not provided for: an array titled \"Bids\" with an array \"Documents\" in its items: the file Bid_Documents.csv is read before Bids.csv and the bids come back in another order.", "quantifier": "all schemas with such titles, all lists of records with ids, all options of flatten and unflatten that keep the whole document, all orders in which the directory lists the files", "why_tests_cant": "Headings, sheet names and file order depend on the schema, on the titles and on the records; tests compare a few fixed documents and do not run both commands with titles.", "anchors": ["flattentool/__init__.py: flatten, unflatten", "flattentool/json_input.py: JSONParser", "flattentool/schema.py: SchemaParser, TitleLookup", "flattentool/output.py: CSVOutput", "flattentool/input.py: CSVInput, convert_dict_titles, SpreadsheetInput.unflatten"]}
{"id": "C70", "title": "Files are UTF-8, from the bytes of a JSON file to those of another", "statement": "The CSV and JSON files that are written are the UTF-8 (RFC 3629) of their texts, and CSV files are read as the text whose UTF-8 they are; bytes that are no UTF-8 are refused, a text is refused just if it has half a surrogate pair, a CSV file just if one of its fields is. So flatten of a JSON file (given as bytes, C66's conditions, headings of the schema without half pairs) writes files that all have bytes, and unflatten of a directory with just those bytes writes the bytes of a JSON text with the same data, whatever characters the records have. A byte order mark in a CSV file is not removed: it becomes part of the first heading.", "quantifier": "all texts and byte sequences; all JSON files, options, schemas and worlds as in C66", "why_tests_cant": "Tests use a few accented letters; that encoder and decoder are inverse for all texts, accept nothing else, and that no structure character or number can make a file unwritable holds for unboundedly many texts.", "anchors": ["flattentool/output.py:CSVOutput.write_sheet", "flattentool/input.py:CSVInput.read_sheets", "flattentool/input.py:CSVInput.get_sheet_lines", "flattentool/__init__.py:unflatten"]}
{"id": "C71", "title": "source map files lead from the output text to the input cells", "statement": "The cell and heading source map files that unflatten writes are JSON texts (RFC 8259) whose object has a member for every entry, in order, each key once. Without a metatab: for every value at a place in the output text the cell source map text has the member named by that place, a non-empty array of [sheet, column, row, heading], each a cell of the spreadsheet that was read as this value; for every object holding a value directly, a member with the rows [sheet, row] of such cells; no other members; every cell of a row is listed or named in a warning. The heading source map has for every field a non-empty array of [sheet, heading] of columns its values came from.", "quantifier": "every content of the files and every set of options without a metatab (headings that are texts, numbers, dates or truth values)", "why_tests_cant": "all spreadsheets, headings and texts: escaping and number syntax must hold for every code point and the map for every cell", "anchors": ["flattentool/__init__.py:unflatten", "flattentool/__init__.py:decimal_datetime_default", "flattentool/input.py:SpreadsheetInput.fancy_unflatten"]}
{"id": "C72", "title": "what is left out of a schema is reported", "statement": "Reading a schema (for headings, sheets or types) warns about each part of it that is not used, and about nothing else: an object without properties (by its path), a property that is no known value, object or array (by name and path of its object), each array whose rollUp lists fields its items do not have (those fields, each once; with roll-up), and with titles each column of the main sheet without a title, each column of an array without a title on the way, each array without a title for each of its columns. So no property is dropped silently: it is a value, an object or an array that is used, or it is named; with titles every column is on its sheet or named; and a schema without such parts is read without a warning.", "quantifier": "all schemas that are read (all depths, references, alternatives, deprecated properties) without empty property names, all options", "why_tests_cant": "The tests look at one warning for one schema each; whether a property disappears without one depends on all combinations of types, titles, nesting and roll-up in schemas of any depth.", "anchors": ["flattentool/schema.py: SchemaParser.parse, SchemaParser.parse_schema_dict, get_property_type_set"]}
{"id": "C73", "title": "XML that unflatten writes is read back by flatten", "statement": "If unflatten writes XML without a warning about it, flatten (--xml, same root list path) run on that XML takes the same number of records in the same order, each with the same content: at every depth the same attributes, the same texts without the white space around them, and under every tag the same elements in the same order; nothing is added. This holds whatever XML schemas sort the output, whatever comment is written and whatever else the base JSON contains. Not kept: the order of elements with different tags, white space around texts, whether a single element was in a list, and empty elements, which become null.", "quantifier": "all data to be written as XML (all depths, attributes, texts, lists), all root tags, all schemas for sorting, all comments; all spreadsheets, configurations and base JSON for the commands; names without prefix", "why_tests_cant": "Tests compare the XML for a few spreadsheets and flatten a few XML files; that every record written is read again, in order and complete, depends on any combination of nesting, repeated tags, attributes, sorting order and configuration.", "anchors": ["flattentool/xml_output.py:toxml", "flattentool/xml_output.py:dict_to_xml", "flattentool/sort_xml.py:XMLSchemaWalker.sort_element", "flattentool/json_input.py:list_dict_consistency", "flattentool/json_input.py:JSONParser.__init__", "flattentool/__init__.py:unflatten", "flattentool/__init__.py:flatten"]}
{"id": "C74", "title": "An unflatten run on readable input succeeds", "statement": "If all input of an unflatten run can be read (a known format, no XML, no metatab; the base JSON an object, the schema and the spreadsheet readable), the run writes its JSON: without a schema always, provided no heading goes on after an id and no number is infinite or NaN. With a schema it succeeds, or it raises the schema error (FlattenToolValueError) naming a field which the heading of a non-blank cell treats as an array or object against the schema, before anything is written, or the records hold an infinite number or NaN, which JSON cannot hold. There is no other way to fail: neither writing the records, nor the base JSON, nor the source maps can fail.", "quantifier": "every spreadsheet, schema, base JSON, configuration and set of options (formats csv, xlsx, ods; root list or object; with and without source maps, titles, vertical orientation)", "why_tests_cant": "Tests run unflatten on a few files; that no combination of headings, values, options and base JSON makes a readable run fail needs every table and every stage of the command.", "anchors": ["flattentool/__init__.py:unflatten", "flattentool/__init__.py:decimal_datetime_default", "flattentool/input.py:SpreadsheetInput.fancy_unflatten", "flattentool/input.py:unflatten_main_with_parser"]}
{"id": "C75", "title": "A flatten run on readable input and regular data succeeds", "statement": "If all input of a flatten run can be read (a known format and line terminator, both or none of the filter options, no XML; schema, roll-ups, fields to preserve and the JSON document), then the run succeeds or fails exactly as flattening the records does; if it fails nothing is written. Flattening never fails if no record and no item of an array is itself a geometry that is converted to WKT, every array in the records holds only values, only lists of values, or only objects and nulls, and - with roll-ups - an array of objects at the top of a record holds no nulls and, if it is a single object, has only values as fields that are not left out (titles with roll-ups need a schema). Then the files are written in the format asked for, provided the libraries take the tables: the files can be opened, openpyxl takes titles, headings and values, ODS cells are not lists or objects; for CSV no array of objects is named by the empty key.", "quantifier": "every JSON document, schema, set of roll-ups, file of fields to preserve, filter and set of options, for csv, xlsx and ods", "why_tests_cant": "absence of errors for all documents of any size and depth under all combinations of options", "anchors": ["flattentool/__init__.py:flatten", "flattentool/json_input.py:JSONParser", "flattentool/output.py"]}
{"id": "C76", "title": "A template is written for every well-formed schema", "statement": "With a known line terminator and output format and a schema that can be loaded: if everything in the schema is as it should be (properties are objects with the types they need, arrays have items that are objects or strings, no property with an empty name), create_template reads the schema and writes the template, provided the libraries take its tables, which consist of headings only: the CSV files can be opened, openpyxl takes titles and headings, the headings can be written to ODS. If the schema cannot be read, the command fails with that error and writes nothing.", "quantifier": "every schema, every set of options, for csv, xlsx and ods", "why_tests_cant": "absence of errors for all schemas of any size and depth under all combinations of options", "anchors": ["flattentool/__init__.py:create_template", "flattentool/schema.py:SchemaParser", "flattentool/output.py"]}
