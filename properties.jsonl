{"id": "C01", "title": "Column number -> letters -> number is the identity", "statement": "For every column number n from 1 to 65535, converting n to its letters succeeds, the letters are upper-case A..Z only, and converting those letters back yields n (in checked and in wrapping builds alike); hence two different columns never get the same letters. Column number 0 is refused.", "quantifier": "all u16 column numbers, both overflow modes", "why_tests_cant": "65535 inputs times two arithmetic modes; the multi-letter carries (Z->AA, ZZ->AAA) are where hand-picked tests miss off-by-one errors, and injectivity is a statement about pairs", "anchors": ["rs/src/utils/converters.rs: ConverterUtil::get_column_ref, ConverterUtil::get_column_index"]}
{"id": "C02", "title": "Column letters denote the bijective base-26 number, in either case", "statement": "For every string of ASCII letters (any mix of case, any length) whose bijective base-26 value is at most 65535, optionally followed by anything that does not begin with a letter, the column number returned is exactly that value, and converting the number back gives the upper-cased letters.", "quantifier": "all letter strings with value <= 65535, all suffixes, both overflow modes", "why_tests_cant": "unbounded set of strings; correctness is relative to an independent positional-number specification", "anchors": ["rs/src/utils/converters.rs: ConverterUtil::get_column_index"]}
{"id": "C03", "title": "Cell references parse back to the row and column they name", "statement": "For every row number below 2^32 and every column number 1..65535, the reference made of the column letters followed by the decimal row parses to exactly (row, column).", "quantifier": "all rows x all columns", "why_tests_cant": "2^48 combinations", "anchors": ["rs/src/utils/converters.rs: ConverterUtil::get_cell_index, extract_digits"]}
{"id": "C04", "title": "A column reference beyond 65535 is never silently turned into another column", "statement": "For every string of ASCII letters whose value exceeds 65535, a build with overflow checks stops with a panic instead of returning some column number. A build with wrapping arithmetic returns a wrong column for some of them.", "quantifier": "all letter strings with value > 65535", "why_tests_cant": "the set is infinite and whether a truncated power of 26 happens to fit depends on every digit", "anchors": ["rs/src/utils/converters.rs: ConverterUtil::get_column_index"]}
{"id": "C05", "title": "Text escaping is lossless and cannot inject markup", "statement": "For every string, the escaped form contains none of < > ' \" and no bare &, and un-escaping it gives the original string back.", "quantifier": "all strings", "why_tests_cant": "all inputs, including those that already look like entities (&amp;lt;)", "anchors": ["rs/src/files/xml/xml_deserialize.rs: generate_xml_value_close, generate_xml_element", "rs/src/files/xml/xml_serialize.rs: xml_element_parser"]}
{"id": "C06", "title": "Writing an in-memory XML document always succeeds and emits exactly its tree", "statement": "For every document tree held in memory, whatever its shape and depth, writing it never reports an unknown element and never hits the endless-loop guard, and the bytes are exactly the depth-first rendering of the tree: each element once, children in order, attributes in key order, text escaped, an element without text and children self-closed, an element with text written without its children.", "quantifier": "all finite trees represented in the arena (any number of other unreachable elements)", "why_tests_cant": "the writer is an iterative loop with an iteration budget of twice the number of elements; only a proof shows that the budget suffices for every shape", "anchors": ["rs/src/files/xml/xml_deserialize.rs: XmlDeSerializer::build_xml_tree, xml_tree_to_vec", "rs/src/files/xml/xml_tree.rs: XmlElement::pop_child_mut"]}
{"id": "C07", "title": "Writing then reading an XML document gives the same tree", "statement": "For every document tree with valid names whose root is not empty, reading the written bytes succeeds and yields a document with the same tags, same nesting and order, same namespace declarations, text equal up to leading and trailing white space (an empty text is read as no text), and attribute values in escaped form. When the root element has neither text nor children, reading what was written fails.", "quantifier": "all trees with valid tag and attribute names, every iteration order of the namespace map", "why_tests_cant": "quantifies over every tree and every string content; the parser keeps a mutable cursor that only an induction over nesting can follow", "anchors": ["rs/src/files/xml/xml_deserialize.rs: XmlDeSerializer", "rs/src/files/xml/xml_serialize.rs: XmlSerializer::vec_to_xml_doc_tree, xml_element_parser, get_attributes_string"]}
{"id": "C08", "title": "Which attribute values survive a save/open cycle", "statement": "An attribute value survives one save and reopen unchanged exactly when it contains none of the characters & < > ' \"; otherwise it comes back in escaped form, and every further cycle changes it again (its length strictly grows).", "quantifier": "all attribute values, any number of cycles", "why_tests_cant": "an exact characterisation over all strings and all numbers of cycles", "anchors": ["rs/src/files/xml/xml_serialize.rs: XmlSerializer::get_attributes_string", "rs/src/files/xml/xml_deserialize.rs: generate_xml_element"]}
{"id": "C09", "title": "Element identities stay sound under every sequence of tree edits", "statement": "Starting from an empty document, after every sequence of create-root, append, insert-before, insert-after, insert-at, set-attribute, set-value and remove-children-by-tag operations: every child entry of every element reachable from the root refers to an existing element with that tag and that parent, no element is listed twice, new elements get identifiers never used before, and the reachable elements form a finite tree.", "quantifier": "all finite histories of tree operations with arbitrary arguments", "why_tests_cant": "an invariant over unbounded operation histories", "anchors": ["rs/src/files/xml/xml_tree.rs: XmlDocument, XmlElement"]}
{"id": "C10", "title": "Re-ordering children is a stable sort", "statement": "Re-ordering the children of an element against a list of tag names keeps exactly the same children, puts every listed tag in list order, puts unlisted tags last, and never swaps two children with the same tag.", "quantifier": "all child lists, all order lists", "why_tests_cant": "a statement about permutations of arbitrary lists", "anchors": ["rs/src/files/xml/xml_tree.rs: XmlElement::order_child_mut", "rs/src/global/references/order_dictionary.rs"]}
{"id": "C11", "title": "Namespace declarations are kept by a read when prefixes are bound consistently", "statement": "When an XML part is read, a prefix declaration ends up bound to the first URI given for it anywhere in the part, and the default namespace to the last URI given anywhere in the part; so the declarations are preserved exactly when no two elements disagree. A part whose nested element redeclares the default namespace comes back with the root's default namespace replaced.", "quantifier": "all event sequences / all attribute lists in document order", "why_tests_cant": "depends on the whole document order of declarations", "anchors": ["rs/src/files/xml/xml_tree.rs: XmlElement::set_attribute_mut", "rs/src/files/xml/xml_deserialize.rs: generate_xml_element"]}
{"id": "C12", "title": "Any XML part that can be read can be written", "statement": "For every byte sequence, reading it terminates and either fails with an error or produces a document satisfying the tree invariant, so that a part which was opened can always be written again at save.", "quantifier": "all byte sequences", "why_tests_cant": "all inputs, including malformed ones", "anchors": ["rs/src/files/xml/xml_serialize.rs: XmlSerializer::vec_to_xml_doc_tree"]}
{"id": "C13", "title": "New relationship ids are always fresh", "statement": "For every list of existing relationships, the id chosen for a new relationship is of the form rId<k>, differs from every id in use, and the search for it terminates; after any history of adding and deleting relationships the ids are pairwise distinct whenever they were at the beginning.", "quantifier": "all relationship lists and all add/delete histories", "why_tests_cant": "the search starts from the count and skips ids in use; ids left by other producers can be arbitrary", "anchors": ["rs/src/global/global_2007/parts/relations.rs: RelationsPart::get_next_relationship_id, set_new_relationship_mut, delete_relationship_mut"]}
{"id": "C14", "title": "Looking a part up by relationship type is stable", "statement": "For every relationship list: if a relationship of the type exists, its target is returned (resolved against the owner's folder when relative) and nothing changes; otherwise exactly one relationship is added, and the path returned now is the path returned by every later lookup of the same type.", "quantifier": "all relationship lists, types, folders and names", "why_tests_cant": "quantifies over arbitrary existing relationships and later history", "anchors": ["rs/src/global/global_2007/parts/relations.rs: RelationsPart::get_relationship_target_by_type_mut, get_target_by_id, get_relative_path"]}
{"id": "C15", "title": "Deleting a relationship removes exactly the relationships to that part", "statement": "Deleting the relationship to a part removes every relationship whose target is the absolute path of that part and leaves all others untouched, in order. A relationship written with a relative target to the same part is not removed although lookups resolve it to that part.", "quantifier": "all relationship lists and paths", "why_tests_cant": "an exact characterisation over all lists", "anchors": ["rs/src/global/global_2007/parts/relations.rs: RelationsPart::delete_relationship_mut"]}
{"id": "C16", "title": "Shared string indices are stable and resolve to the string they were issued for", "statement": "For every history of string registrations, the index returned for a string resolves to that string then and forever after, registering the same string again returns the same index, different strings get different indices, and no existing entry moves.", "quantifier": "all finite histories of registrations on any initial table", "why_tests_cant": "history property: an index handed out early must survive everything later", "anchors": ["rs/src/spreadsheet/spreadsheet_2007/services/share_string.rs: ShareStringPart::get_string_id_mut"]}
{"id": "C17", "title": "The shared string table survives save and reopen", "statement": "Saving the table and loading it back yields, at every index, the same string with leading and trailing white space removed; in particular indices do not shift. A table part containing an item without children loads with all later indices shifted by one.", "quantifier": "all string tables", "why_tests_cant": "index alignment over arbitrary tables and contents", "anchors": ["rs/src/spreadsheet/spreadsheet_2007/services/share_string.rs: close_document, load_content_to_database"]}
{"id": "C18", "title": "Cell writes behave as a last-write-wins map", "statement": "For every history of row writes (any rows, any start columns, any cell lists), the sheet holds at each position the normalised form of the last value written there, positions never written are absent, and the properties of rows are unaffected; setting row properties never changes a cell.", "quantifier": "all finite histories of row writes and row property updates within the column range", "why_tests_cant": "refinement over arbitrary histories; overlapping writes are combinatorial", "anchors": ["rs/src/spreadsheet/spreadsheet_2007/parts/worksheet.rs: WorkSheet::set_row_value_index_mut, set_row_value_ref_mut, set_row_index_properties_mut"]}
{"id": "C19", "title": "Automatic cell typing", "statement": "A cell written with automatic type becomes a number exactly when its text is a Rust floating-point literal, a boolean exactly when it is true or false (stored as 1 or 0), and otherwise a shared string whose stored value is the decimal index of that text; a cell without value is stored as an empty number cell.", "quantifier": "all cell texts", "why_tests_cant": "classification of all strings (inf, nan, 1e5, +.5 ... included)", "anchors": ["rs/src/spreadsheet/spreadsheet_2007/parts/worksheet.rs: WorkSheet::set_row_value_index_mut, update_share_string", "rs/src/spreadsheet/spreadsheet_2007/models/worksheet.rs: CellDataType"]}
{"id": "C20", "title": "Sheet data survives save and reopen", "statement": "For every sheet content, writing the rows and cells into the sheet part and loading them back yields the same rows with the same properties and the same cells with the same position, style, type, value and formula, for all properties the writer emits; rows and cells are written in ascending order.", "quantifier": "all sheet contents (within the stated guard on texts)", "why_tests_cant": "quantifies over all sheets; composition of writer, XML layer, and loader", "anchors": ["rs/src/spreadsheet/spreadsheet_2007/parts/worksheet.rs: serialize_sheet_data, deserialize_sheet_data"]}
{"id": "C21", "title": "The written dimension is the exact bounding box", "statement": "After any history of row writes and row settings on a new or reopened sheet, the dimension written at save spans exactly the rows that exist and the columns that have cells, provided a cell lies in the first 16384 columns; when every row has a cell it is the smallest rectangle containing all cells. A sheet without rows gets A1. For a sheet with rows but no cells the written reference is inverted, and cells beyond column 16384 only give a box starting at column XFD.", "quantifier": "all histories of row writes", "why_tests_cant": "min/max tracking over arbitrary histories", "anchors": ["rs/src/spreadsheet/spreadsheet_2007/parts/worksheet.rs: Dimension, serialize_dimension, set_row_value_index_mut"]}
{"id": "C22", "title": "Column definitions stay disjoint and the addressed column gets its properties", "statement": "For every sheet that has column definitions which do not overlap, after any history of column settings the definitions still do not overlap, an addressed column has exactly the properties last given, and a column never addressed keeps its properties provided no column left of it inside the same definition was addressed. Addressing a column strictly inside a definition resets all columns right of it in that definition. On a sheet without column definitions the calls have no effect.", "quantifier": "all disjoint range lists, all columns, all histories", "why_tests_cant": "interval splitting over arbitrary configurations", "anchors": ["rs/src/spreadsheet/spreadsheet_2007/parts/worksheet.rs: set_column_index_properties_mut"]}
{"id": "C23", "title": "The sheet list follows add, rename and delete for every history", "statement": "For every history of adding, renaming and deleting sheets, listing the sheets gives exactly the sheets added and not deleted, in order, under their current names; adding under a name in use returns that sheet and changes nothing. Automatically named sheets can duplicate a name already in use.", "quantifier": "all histories of sheet operations", "why_tests_cant": "history property with name collisions", "anchors": ["rs/src/spreadsheet/spreadsheet_2007/parts/workbook.rs: add_sheet_mut, rename_sheet_name_mut, list_sheet_names", "rs/src/spreadsheet/spreadsheet_2007/parts/worksheet.rs: get_sheet_file_name, delete_sheet_mut"]}
{"id": "C24", "title": "Renaming is all-or-nothing and respects existing names", "statement": "Renaming fails, changing nothing, if the old name is not present or the new name is in use; otherwise only the name of the first sheet with the old name changes, and its position, identity and visibility do not.", "quantifier": "all sheet lists and names", "why_tests_cant": "all lists, including equal old and new name", "anchors": ["rs/src/spreadsheet/spreadsheet_2007/parts/workbook.rs: WorkbookPart::rename_sheet_name_mut"]}
{"id": "C25", "title": "Hiding a sheet hides exactly one sheet", "statement": "After hiding a sheet by name, the hidden sheets are exactly those carrying that name: every sheet hidden before under another name becomes visible again, and hiding an unknown name un-hides all.", "quantifier": "all sheet lists", "why_tests_cant": "the effect on the sheets not named is what tests of one sheet never look at", "anchors": ["rs/src/spreadsheet/spreadsheet_2007/parts/workbook.rs: WorkbookPart::hide_sheet_mut"]}
{"id": "C26", "title": "The workbook's sheet list survives save and reopen", "statement": "Writing the workbook part and loading it back yields the same sheets in the same order, with the same relationship ids, and the same hidden flags; sheet ids written are 1..n. The sheet-tab visibility flag is inverted by the cycle.", "quantifier": "all sheet lists and view settings", "why_tests_cant": "composition of writer, XML layer and loader over all lists", "anchors": ["rs/src/spreadsheet/spreadsheet_2007/parts/workbook.rs: close_document, load_sheet_names"]}
{"id": "C27", "title": "Parts that are not opened are preserved byte for byte", "statement": "Loading a package and saving it after any history of operations on other parts writes every part that was never opened with exactly the bytes it was loaded with.", "quantifier": "all packages, all histories not touching the part", "why_tests_cant": "frame property over arbitrary histories", "anchors": ["rs/src/files/office_document.rs: OfficeDocument::load_archive_into_database, save_database_into_archive, get_xml_tree_mut, close_xml_document"]}
{"id": "C28", "title": "A failing save never damages an existing file", "statement": "If saving fails before the output is complete in memory, the target file is untouched; there is however a window after removal of the old file in which a crash leaves no file or a truncated file, so the save is not atomic. A save that completes leaves exactly the new package.", "quantifier": "all crash points of the save sequence, all file systems states", "why_tests_cant": "crash points are not reachable by unit tests", "anchors": ["rs/src/files/office_document.rs: OfficeDocument::save_as"]}
{"id": "C29", "title": "Every saved part has a declared content type", "statement": "In every saved package, each part appears with an override giving its content type or its extension has a default entry, and the declared type is the one the part was loaded or created with.", "quantifier": "all packages", "why_tests_cant": "all archive contents", "anchors": ["rs/src/global/global_2007/parts/content_types.rs: ContentTypesPart::create_xml_file, get_extensions, get_override_content_type"]}
{"id": "C30", "title": "Style ids are valid and stay valid", "statement": "The id returned for a style always denotes an existing cell format whose font, fill, border and alignment are the requested ones, and it keeps denoting the same format after any later style requests; a request fails only if it asks for a custom number format without a code. The number format itself is not delivered: built-in formats are ignored, and a custom format is referred to by an id no entry carries (once the table is not empty).", "quantifier": "all style tables, all histories of style requests (tables below 65536 entries, hash collisions excluded)", "why_tests_cant": "history property over arbitrary settings", "anchors": ["rs/src/spreadsheet/spreadsheet_2007/services/style.rs: StylePart::get_style_id_mut"]}
{"id": "C31", "title": "Asking for the same style twice returns the same id", "statement": "For every style setting whose number format is not custom, on a table with at least one font, fill and border, a repeated request returns the same id and adds nothing. With a custom number format the first repetition returns a different id.", "quantifier": "all settings, all tables, all histories in between", "why_tests_cant": "idempotence over arbitrary intermediate histories", "anchors": ["rs/src/spreadsheet/spreadsheet_2007/services/style.rs: StylePart::get_style_id_mut"]}
{"id": "C32", "title": "Style tables survive save and reopen", "statement": "Writing the style tables and loading them back yields the same number formats, fonts, fills, borders and cell formats in the same order, so an id handed out before still denotes the requested font, fill, border and alignment; except that italic and single underline are cleared, texts come back with their XML special characters escaped, and a custom number format is not recognised when asked for again.", "quantifier": "all style tables", "why_tests_cant": "round trip over all tables", "anchors": ["rs/src/spreadsheet/spreadsheet_2007/services/style.rs: load_content, save_content_to_tree_mut"]}
{"id": "C33", "title": "A part is held by at most one handle, and closing returns it to the package", "statement": "While a part is open a second open of it fails without any effect; closing it puts exactly its current written form back into the package under the same path and type; opening removes it from the stored parts, and an open that fails to parse loses the part.", "quantifier": "all states, paths and histories", "why_tests_cant": "history property over open/close sequences", "anchors": ["rs/src/files/office_document.rs: get_xml_tree_mut, close_xml_document, get_xml_document_ref"]}
{"id": "C34", "title": "A saved workbook can be opened again", "statement": "Desired: for every workbook produced with the library, opening the saved package succeeds. The code violates it: whatever the history, a workbook created by the library is saved with a self-closed calculation chain part that its own reader rejects.", "quantifier": "all histories from a new workbook", "why_tests_cant": "end-to-end property over histories", "anchors": ["rs/src/spreadsheet/spreadsheet_2007/excel.rs: Excel::new, Excel::save_as", "rs/src/spreadsheet/spreadsheet_2007/services/calculation_chain.rs: close_document", "rs/src/files/xml/xml_serialize.rs: xml_element_parser"]}
{"id": "C35", "title": "Saving includes the data of sheets still held by the caller", "statement": "Desired: saving writes all cells set so far. The code satisfies it only for sheets whose handle was released before saving: the content written for a sheet still held does not depend on the cells set through the handle.", "quantifier": "all histories with live handles at save", "why_tests_cant": "depends on handle lifetimes, not on one call", "anchors": ["rs/src/spreadsheet/spreadsheet_2007/excel.rs: Excel::save_as", "rs/src/spreadsheet/spreadsheet_2007/parts/worksheet.rs: WorkSheet::close_document, initialize_worksheet"]}
{"id": "C36", "title": "Deleting a sheet removes it from the workbook", "statement": "After deleting a sheet through its handle no sheet of that name is listed and the others are unchanged, in order; the relationship to its part is gone when its target is absolute; the part itself is still in the package.", "quantifier": "all workbook states", "why_tests_cant": "all states, including duplicate names", "anchors": ["rs/src/spreadsheet/spreadsheet_2007/parts/worksheet.rs: WorkSheet::delete_sheet_mut"]}
{"id": "C37", "title": "Document properties: creation time is kept, modification time is set", "statement": "At every save the modification time becomes the save time, the creation time is set only when absent, and every other property is unchanged.", "quantifier": "all core property documents, all times", "why_tests_cant": "all documents and repeated saves", "anchors": ["rs/src/global/global_2007/parts/core_properties.rs: CorePropertiesPart::close_document"]}
{"id": "C38", "title": "Calls through the C interface report failure", "statement": "A C entry point returns 0 exactly if its arguments are usable and the library call it stands for succeeds; then and only then its result is stored, and a failure's message is passed on. Three entry points break this: renaming a sheet and saving a document or a presentation answer 0 also when they fail.", "quantifier": "all calls, arguments and outcomes", "why_tests_cant": "all error paths of all entry points, including failures of the file system", "anchors": ["rs_ffi/src/spreadsheet/excel.rs:excel_create, excel_add_sheet, excel_rename_sheet, excel_get_sheet, excel_hide_sheet, get_style_id_mut, excel_save_as", "rs_ffi/src/document/word.rs:word_create, word_save_as", "rs_ffi/src/presentation/power_point.rs:power_point_create, power_point_save_as", "rs_ffi/src/status_code.rs:StatusCode", "rs_ffi/src/utils.rs:chain_error"]}
{"id": "C39", "title": "A new sheet never takes over an existing part", "statement": "The part chosen for a new sheet is not the path of any part stored in the package, whatever sheets were added and deleted before, and the search terminates. It can coincide with a sheet part currently open.", "quantifier": "all package contents and sheet lists", "why_tests_cant": "depends on history of deletions", "anchors": ["rs/src/spreadsheet/spreadsheet_2007/parts/worksheet.rs: WorkSheet::get_sheet_file_name"]}
{"id": "C40", "title": "Sheet views across open and save", "statement": "A sheet opened with k views is written with k+1 views: the k loaded ones in reverse order, then a default one; so views grow by one each cycle.", "quantifier": "all view lists, any number of cycles", "why_tests_cant": "growth over cycles", "anchors": ["rs/src/spreadsheet/spreadsheet_2007/parts/worksheet.rs: deserialize_worksheet_views, serialize_sheet_views"]}
{"id": "C41", "title": "Relationships survive close, save and reopen", "statement": "A relationships part that holds at least one relationship, when closed (and, if wished, the package saved and opened from the file), is read back with the same relationships in the same order, each text escaped (identical when it has no XML special character). A part closed without relationships cannot be opened again in the same session.", "quantifier": "all relationship lists, packages", "why_tests_cant": "all contents", "anchors": ["rs/src/global/global_2007/parts/relations.rs: close_document, load_relations, save_relationship_to_doc, new"]}
{"id": "C42", "title": "The calculation chain survives close and reopen", "statement": "A non-empty calculation chain, closed and opened again, lists the same cells of the same sheets in the same order; the dependency level is not kept. Desired: any chain can be opened. Violated: an entry without a cell or a sheet id (the format lets it inherit the previous one) makes opening the workbook panic.", "quantifier": "all chains", "why_tests_cant": "all contents, including those of other producers", "anchors": ["rs/src/spreadsheet/spreadsheet_2007/services/calculation_chain.rs: close_document, load_content_to_database"]}
{"id": "C43", "title": "Window settings of the workbook", "statement": "Whatever sequence of calls sets the window visibility, the minimised flag, the tab bar and the two scroll bars, afterwards each setting has the value of the last call for it (its previous value if there was none), and all other window settings are untouched.", "quantifier": "all sequences of calls, all workbooks", "why_tests_cant": "histories of any length", "anchors": ["rs/src/spreadsheet/spreadsheet_2007/parts/workbook.rs:set_visibility_mut, minimize_workbook_mut, hide_sheet_tabs_mut, hide_vertical_scroll_mut, hide_horizontal_scroll_mut"]}
{"id": "C44", "title": "The active sheet is saved", "statement": "Desired: the sheet set as active is the active one after saving. Violated: setting the active sheet makes no difference at all to what is written, for any workbook and any package.", "quantifier": "all workbooks, packages and sheet names", "why_tests_cant": "independence of the complete output", "anchors": ["rs/src/spreadsheet/spreadsheet_2007/parts/workbook.rs: set_active_sheet_mut, close_document", "rs/src/global/global_2007/traits/xml_parts.rs: flush"]}
{"id": "C45", "title": "Boolean attributes", "statement": "An attribute is read as true exactly if it is the word true or the digit 1, up to white space around it; every flag the library writes is one of the texts the format allows for it and is read back as the same flag.", "quantifier": "all attribute texts", "why_tests_cant": "all texts, Unicode white space included", "anchors": ["rs/src/utils/converters.rs: ConverterUtil::normalize_bool_property_bool, normalize_bool_property_u8"]}
{"id": "C46", "title": "A style described through the C interface is the style the caller gets", "statement": "The style id returned by the C interface names the described style exactly if the description sets italic, underline and double underline as it sets bold, has the default text colour, no border but the left one, no fill pattern and no alignment; any other description silently gives another style. A number format number outside the library's list needs a format code, or the call fails.", "quantifier": "all descriptions, all style tables without hash collisions", "why_tests_cant": "20 independent fields, of which each combination would need a test", "anchors": ["rs_ffi/src/spreadsheet/excel.rs:get_style_id_mut", "fbs/spreadsheet_2007/excel_style.fbs:StyleSetting", "rs/src/spreadsheet/spreadsheet_2007/models/style.rs:NumberFormatValues::get_enum"]}
{"id": "C47", "title": "A document or presentation survives any number of saves and reopens", "statement": "A new document or presentation can be created; it can be saved, opened from the file that was written, and saved again any number of times, to any paths. Every call succeeds as long as the operating system reports no error. The creation time in the core properties is the time of the first save, the modification time that of the last save, the other properties and the order of the properties never change, and no other file is touched.", "quantifier": "all histories of saves and reopens, all paths, all clock readings, all splittings of the writes by the operating system", "why_tests_cant": "unbounded number of save and reopen cycles; the state after each cycle depends on everything written and read before", "anchors": ["rs/src/document/document_2007/word.rs:Word::new, save_as", "rs/src/presentation/presentation_2007/power_point.rs:PowerPoint::new, save_as", "rs/src/global/global_2007/parts/core_properties.rs:CorePropertiesPart", "rs/src/global/global_2007/parts/relations.rs:RelationsPart", "rs/src/files/office_document.rs:OfficeDocument"]}
{"id": "C48", "title": "Opening, working on and saving a file loses no part but one that could not be read", "statement": "Open a workbook file, make any calls, with failing ones among them and with any handles still held, and save. If the save succeeds, every part of the file opened (but the content type list, which is rebuilt) is in the file written; the only exception is a part that some call tried to read when opening a sheet, and that is not well-formed for the reader, in which case the part is lost although the save succeeds. A part that was never open keeps its bytes unless an opening failed; whatever failed, a part keeps its bytes if it was not needed for opening the file, holds no relationships and no call asks for the sheet stored in it. A document or presentation that is opened and saved loses nothing, and parts not needed for opening keep their bytes.", "quantifier": "all files, all sequences of calls, all sets of handles held, all clock readings and iteration orders", "why_tests_cant": "needs all call sequences and all files; which parts are dropped depends on the history of opens, closes, and failures", "anchors": ["rs/src/spreadsheet/spreadsheet_2007/excel.rs:Excel::new, save_as", "rs/src/document/document_2007/word.rs:Word::new, save_as", "rs/src/files/office_document.rs:OfficeDocument::get_xml_tree_mut, close_xml_document, save_as", "rs/src/spreadsheet/spreadsheet_2007/parts/worksheet.rs:WorkSheet::new", "rs/src/spreadsheet/spreadsheet_2007/parts/workbook.rs:WorkbookPart::close_document"]}
{"id": "C49", "title": "Every sheet a saved workbook lists leads to its own part", "statement": "Start a new workbook, make any calls in any order with any handles held, and save. If the save succeeds, the file lists the sheets of the workbook in order under their names; the relationship id of each names exactly one relationship, which is that of a worksheet and leads to a part in the file; and no two sheets lead to the same part. Excepted are sessions in which a call that asks for a new sheet failed, or one that asks for a listed sheet failed while the part of a sheet could not be read, or in which a sheet was deleted through a handle that still has an older name of it; a failed addition and such a deletion are shown to break the file. A call that fails because the sheet is already held is harmless. Without renames there is no such handle.", "quantifier": "all sequences of calls, all names, all handles held, all iteration orders and clock readings", "why_tests_cant": "needs all call sequences; numbers of parts and relationship ids are reused depending on everything added and deleted before", "anchors": ["rs/src/spreadsheet/spreadsheet_2007/excel.rs:Excel::new, add_sheet_mut, get_worksheet_mut, rename_sheet_name_mut, save_as", "rs/src/spreadsheet/spreadsheet_2007/parts/worksheet.rs:WorkSheet::new, get_sheet_file_name, delete_sheet_mut", "rs/src/spreadsheet/spreadsheet_2007/parts/workbook.rs:WorkbookPart::close_document", "rs/src/global/global_2007/parts/relations.rs:RelationsPart"]}
{"id": "C50", "title": "What is written is well-formed, whatever the texts", "statement": "Every part of a file saved with success from a new workbook, document or presentation is well-formed XML: balanced tags, valid tag and attribute names, no attribute or namespace given twice, all texts and attribute values escaped, whatever sheet names, cell texts, formulas and references the caller passed, and whatever calls failed on the way. After opening a file, every part has the bytes it had or is well-formed, provided those parts that can be read have a root element and declare namespaces without markup in their names; a namespace in single quotes with a double quote inside breaks the file (shown). Control characters that XML does not allow are not excluded: they are written as given (shown).", "quantifier": "all sequences of calls, all texts, names, formulas and references, all files opened, all iteration orders and clock readings", "why_tests_cant": "the texts are arbitrary and pass through every layer; tests try a few special characters in a few places", "anchors": ["rs/src/files/xml/xml_deserialize.rs:XmlDeSerializer::xml_tree_to_vec, build_xml_tree, generate_xml_element", "rs/src/files/xml/xml_tree.rs:XmlElement::new, set_attribute_mut, set_value_mut", "rs/src/spreadsheet/spreadsheet_2007/excel.rs:Excel::save_as", "rs/src/spreadsheet/spreadsheet_2007/parts/worksheet.rs:WorkSheet::set_row_value_ref_mut, set_row_value_index_mut, close_document", "rs/src/spreadsheet/spreadsheet_2007/parts/workbook.rs:WorkbookPart::close_document", "rs/src/document/document_2007/word.rs:Word::save_as"]}
{"id": "C51", "title": "Cells written through a handle reach the saved file", "statement": "In a workbook, new or opened from a file, and after any calls, add a sheet under an automatic name or a name not in use. Write cells, rows and columns through its handle in any order, with any other calls in between (writes to other sheets, failing calls); release the handle; make any further calls except for opening that sheet again; save. If the save succeeds, the part of the sheet in the file shows each cell as it was last written and the row settings as last given, each in exactly one place, and no other cell or row. A text cell carries a number, and the table of strings in the file has all texts in the order of these numbers.", "quantifier": "all workbooks, all sequences of calls before, between and after, all positions, cells and texts, all iteration orders and clock readings", "why_tests_cant": "needs all interleavings of calls on several handles sharing one table of strings; tests write one sheet and look at it", "anchors": ["rs/src/spreadsheet/spreadsheet_2007/excel.rs:Excel::add_sheet_mut, save_as", "rs/src/spreadsheet/spreadsheet_2007/parts/worksheet.rs:WorkSheet::new, set_row_value_index_mut, set_row_value_ref_mut, set_row_index_properties_mut, close_document", "rs/src/spreadsheet/spreadsheet_2007/services/share_string.rs:ShareStringPart", "rs/src/spreadsheet/spreadsheet_2007/parts/workbook.rs:WorkbookPart::close_document"]}
{"id": "C52", "title": "Editing some cells of a file leaves the others as they were", "statement": "Open a workbook file, get one of its sheets, write any cells and rows with any other calls in between, release it and save. The sheet in the saved file shows each cell written as last written, and each cell and row not written (value, formula, type, style, metadata, row height and the other row settings) as in the file opened, and nothing else; old texts keep their numbers in the table of strings and new texts come after them. Not among the cells the claim covers, because they are shown to change: formulas with settings of their own (shared formulas are lost), text in formatted runs stored in the cell (lost), dates stored as such (become numbers).", "quantifier": "all files whose sheet part can be read, all sequences of calls before, between and after, all cells and texts", "why_tests_cant": "quantifies over all files and all edits; a test edits one file and compares a few cells", "anchors": ["rs/src/spreadsheet/spreadsheet_2007/excel.rs:Excel::new, get_worksheet_mut, save_as", "rs/src/spreadsheet/spreadsheet_2007/parts/worksheet.rs:WorkSheet::new, initialize_worksheet, deserialize_sheet_data, close_document", "rs/src/spreadsheet/spreadsheet_2007/services/share_string.rs:ShareStringPart"]}
{"id": "C53", "title": "The workbook part of an opened file: the calls change the sheets and the view, everything else stays", "statement": "Open a file whose workbook part lists sheets and may have a workbook view. The workbook has exactly these sheets in this order, with their names, relationship ids and hidden states, and these view settings. After any calls, failing ones included, a save that succeeds writes a workbook part that lists the sheets as the calls left them (adding appends, renaming keeps the position, deleting removes), has the view settings with only those changed that a call set, keeps the name, attributes and namespaces of the root element, keeps every other element as it was, and has the elements in the order the schema wants. Desired but violated (shown): a very hidden sheet stays hidden, sheet numbers stay, an ampersand in a sheet name stays as it is, hidden tabs stay hidden, the window position stays, the date grouping setting does not overwrite the tab ratio.", "quantifier": "all files whose workbook part can be read, all sequences of calls, all iteration orders and clock readings", "why_tests_cant": "quantifies over all elements other programs may put into the workbook part and over all histories of calls", "anchors": ["rs/src/spreadsheet/spreadsheet_2007/excel.rs:Excel::new, add_sheet_mut, rename_sheet_name_mut, hide_sheet_mut, save_as", "rs/src/spreadsheet/spreadsheet_2007/parts/workbook.rs:WorkbookPart::load_sheet_names, close_document", "rs/src/spreadsheet/spreadsheet_2007/parts/worksheet.rs:WorkSheet::get_sheet_file_name, delete_sheet_mut"]}
{"id": "C54", "title": "The relationships of an opened workbook stay", "statement": "Open a file whose workbook lists relationships, make any calls, save. If the save succeeds, the saved list starts with those relationships of the file, in order and with id, type, target and mode unchanged, whose target is not that of a deleted sheet and not an empty table of strings or calculation chain; after them come only relationships to parts the library adds. Distinct ids stay distinct. A sheet of the file that was not deleted is opened, after any calls, from the part its relationship in the file leads to.", "quantifier": "all files, all sequences of calls, all relationship types and targets", "why_tests_cant": "the list is rebuilt from memory at every save; relationships of kinds the library does not know must survive any history", "anchors": ["rs/src/global/global_2007/parts/relations.rs:RelationsPart::load_relations, save_relationship_to_doc, set_new_relationship_mut, delete_relationship_mut, get_target_by_id", "rs/src/spreadsheet/spreadsheet_2007/parts/workbook.rs:WorkbookPart::new, close_document", "rs/src/spreadsheet/spreadsheet_2007/parts/worksheet.rs:WorkSheet::get_sheet_file_name, delete_sheet_mut"]}
{"id": "C55", "title": "An opened file's parts are found through its relationships", "statement": "The workbook part is the target of the first relationship of its type that the package lists, or the usual path when there is none; theme, table of strings, calculation chain and styles are found in the same way from the list of the workbook, relative targets counting from the folder of the workbook. Violated where the workbook part has another file name than workbook.xml: its relationships are looked for under that name all the same, so that its listed sheets cannot be opened (shown).", "quantifier": "all files", "why_tests_cant": "all combinations of present and missing relationships, absolute and relative targets, folders", "anchors": ["rs/src/spreadsheet/spreadsheet_2007/parts/workbook.rs:WorkbookPart::new, get_workbook_file_name", "rs/src/global/global_2007/parts/relations.rs:RelationsPart::get_relationship_target_by_type_mut", "rs/src/global/global_2007/parts/theme.rs:ThemePart::new", "rs/src/spreadsheet/spreadsheet_2007/services/share_string.rs:ShareStringPart::new", "rs/src/spreadsheet/spreadsheet_2007/services/style.rs:StylePart::new", "rs/src/spreadsheet/spreadsheet_2007/services/calculation_chain.rs:CalculationChainPart::new"]}
{"id": "C56", "title": "The theme of an opened file is written as it was read", "statement": "Open a file, make any calls, save. If the save succeeds, the theme part has the same elements, attributes, texts and namespaces in the same order as in the file opened.", "quantifier": "all files whose theme can be read, all sequences of calls", "why_tests_cant": "all themes; the part is parsed and rendered anew at every save", "anchors": ["rs/src/global/global_2007/parts/theme.rs:ThemePart", "rs/src/spreadsheet/spreadsheet_2007/excel.rs:Excel::save_as"]}
{"id": "C57", "title": "The formats of an opened file keep their numbers and their meaning", "statement": "Open a file whose styles part has number formats, fonts, fills, borders and formats of the kinds the library knows, make any calls, save. The workbook has all entries in the order of the file, without italic and single underline. If the save succeeds, the styles part of the saved file has every entry at the number it had, so that the cells of the file keep their formats, and after them those asked for by the calls; it keeps the name, attributes and namespaces of its root element and every other element (names of styles, differential formats, colours). A style asked for during the session is the one the saved file has under the number that was answered, provided no two entries have the same hash and the tables stay within 16 bits. Desired but violated (shown): italic and underline stay; a font that says it is not bold stays so; tints, gradients, other patterns, the direction of diagonals, protection, quote prefix, rotation and indents stay; a style that says not to apply its font keeps that; quotes in the code of a number format stay as they are; files with struck-through fonts, sizes such as 10.5, or borders between cells can be opened.", "quantifier": "all files whose styles part is of the described form, all sequences of calls and styles asked for, all hash functions without collisions on the entries", "why_tests_cant": "quantifies over all tables and all histories of requests; whether a cell keeps its format depends on the position of every entry", "anchors": ["rs/src/spreadsheet/spreadsheet_2007/services/style.rs:StylePart::new, load_content, deserialize_cell_style, deserialize_border_setting, get_style_id_mut, save_content_to_tree_mut, close_document", "rs/src/spreadsheet/spreadsheet_2007/excel.rs:Excel::get_style_id_mut, save_as"]}
{"id": "C58", "title": "The rest of a sheet of an opened file stays", "statement": "Open a file, ask for one of its sheets, write cells, rows and columns through the handle, release it, save. If the save succeeds, the part of the sheet in the saved file has the root element it had, with its attributes and namespaces; its cells and rows are those of the file with the writes applied (C52), and the dimension encloses them; the column definitions are those of the file with the settings of the calls applied; the views are those of the file, in reverse order, followed by one more; and every other element (merged cells, drawings, validations, conditional formats, page setup, links) is as it was. The elements come in the order the schema asks for, except protection and comments, which come last.", "quantifier": "all files with a sheet part of the described form, all calls before, during and after the use of the sheet", "why_tests_cant": "quantifies over all parts and all sequences of calls; what is lost depends on the combination of elements a file has", "anchors": ["rs/src/spreadsheet/spreadsheet_2007/parts/worksheet.rs:WorkSheet::new, initialize_worksheet, deserialize_cols, deserialize_worksheet_views, deserialize_sheet_data, serialize_dimension, serialize_cols, serialize_sheet_views, close_document, set_column_index_properties_mut", "rs/src/global/references/order_dictionary.rs", "rs/src/spreadsheet/spreadsheet_2007/excel.rs:Excel::get_worksheet_mut, save_as"]}
{"id": "C59", "title": "The calculation chain of an opened file", "statement": "Open a file with a calculation chain whose entries name a cell and the number of a sheet, make any calls, save. If the save succeeds, the chain of the saved file has the same entries in the same order, the root element with its attributes and namespaces and every other element. When the sheets of the file are numbered from one in their order and no sheet is deleted, each number stands in the saved file for the same sheet as before and for no other. Violated otherwise: opening and saving a file whose sheets were put in another order, or deleting a sheet, makes entries those of another sheet; a formula that is overwritten keeps its entry; the marks for levels and arrays are lost, extensions come to stand before the entries, and a file whose entries leave out a repeated number brings the program down (each shown).", "quantifier": "all files with a chain, all sequences of calls, failing ones included", "why_tests_cant": "quantifies over all chains and all histories of calls; whether an entry still means its cell depends on the numbers of all sheets", "anchors": ["rs/src/spreadsheet/spreadsheet_2007/services/calculation_chain.rs:CalculationChainPart::new, load_content_to_database, close_document", "rs/src/spreadsheet/spreadsheet_2007/parts/workbook.rs:WorkbookPart::load_sheet_names, close_document", "rs/src/spreadsheet/spreadsheet_2007/excel.rs:Excel::new, save_as"]}
{"id": "C60", "title": "The document properties and the relationships of an opened package", "statement": "Open a workbook, document or presentation, for a workbook make any calls, save. If the save succeeds: the document properties are those of the file, with the time of the save as the time of the last change and, where there was none, as the time of creation; a part with another root element is written as it was read. The package lists all relationships it listed, in order and with id, type, target and mode, and after them one for the properties and for a workbook one for the workbook part where the file has none of that type; distinct ids stay distinct. The properties are found through the first relationship of their type. Violated: properties that have no time of the last change, or other prefixes for the same namespaces, do not get the time (shown).", "quantifier": "all files whose parts can be read, all sequences of calls, all times", "why_tests_cant": "quantifies over all properties and relationships other programs write and all histories of calls", "anchors": ["rs/src/global/global_2007/parts/core_properties.rs:CorePropertiesPart::new, get_core_properties_file_name, close_document", "rs/src/global/global_2007/parts/relations.rs:RelationsPart::load_relations, save_relationship_to_doc, set_new_relationship_mut", "rs/src/spreadsheet/spreadsheet_2007/excel.rs:Excel::new, save_as", "rs/src/document/document_2007/word.rs", "rs/src/presentation/presentation_2007/power_point.rs"]}
{"id": "C61", "title": "Every sheet an opened workbook lists after the save leads to its own part", "statement": "Open a workbook whose sheets lead to parts of the file, each to its own, through targets that are absolute or relative to the workbook; make any calls in any order with any handles held; save. If the save succeeds and a sheet is left, the file lists the sheets of the workbook in order under their names; the relationship id of each names exactly one relationship, which is one of the opened file as it was or that of a worksheet; it leads to a part in the file, and no two sheets lead to the same part. Excepted are sessions in which a call that asks for a new sheet failed, one that asks for a listed sheet failed while the part of a listed sheet could not be read (shown to break the file), or a sheet was deleted through a handle that still has an older name of it. Violated: deleting a sheet whose target is relative leaves its relationship and part behind (shown).", "quantifier": "all files whose sheets lead to distinct parts, all sequences of calls, all names, all handles held, all iteration orders and clock readings", "why_tests_cant": "quantifies over all lists of sheets and relationships other programs write and all histories of calls; numbers of parts and relationship ids depend on everything added and deleted before", "anchors": ["rs/src/spreadsheet/spreadsheet_2007/excel.rs:Excel::new, add_sheet_mut, get_worksheet_mut, rename_sheet_name_mut, save_as", "rs/src/spreadsheet/spreadsheet_2007/parts/worksheet.rs:WorkSheet::new, get_sheet_file_name, delete_sheet_mut", "rs/src/spreadsheet/spreadsheet_2007/parts/workbook.rs:WorkbookPart::load_sheet_names, close_document", "rs/src/global/global_2007/parts/relations.rs:RelationsPart"]}
{"id": "C62", "title": "The table of strings of an opened file, and the texts of its cells", "statement": "Open a file whose table of strings has items that start with plain texts, make any calls, save. If the save succeeds, the table of the saved file has the same texts under the same numbers, new ones after them, the right numbers of items and of different texts, the root element with its namespaces and other attributes, and every other element. A cell of a sheet nobody asked for that shows a text without blanks at its ends shows the same text in the saved file, however many texts were added. Violated: text in formatted runs becomes empty, pronunciations are lost, an item without content moves the texts after it to other numbers, extensions come to stand before the items, blanks at the ends of texts are lost although the file says that they count (each shown).", "quantifier": "all tables of plain texts, all sequences of calls, failing ones included, all cells", "why_tests_cant": "quantifies over all tables other programs write and all histories of calls; whether a number still stands for its text depends on all texts added", "anchors": ["rs/src/spreadsheet/spreadsheet_2007/services/share_string.rs:ShareStringPart::new, load_content_to_database, get_string_id_mut, close_document", "rs/src/spreadsheet/spreadsheet_2007/excel.rs:Excel::new, save_as", "rs/src/files/xml/xml_deserialize.rs"]}
{"id": "C63", "title": "A saved file can be opened again, round after round", "statement": "Take a file that is in order (the parts of the workbook are there, each has content, their names need no escaping) and has a calculation chain. Open it, make any calls (without deleting a sheet whose relationship leads to one of these parts), save, open what was saved, make any calls, save, and so on. Every file whose save reported success can be opened again if the workbook had texts when it was saved; the library finds its parts where the first file had them, and sheets, window settings, texts, chain, styles and relationships are those of the workbook that was saved, up to the losses of each. Violated: a file without calculation chain, that is every file without formulas, can be opened and saved with success, but whatever is called, the saved file cannot be opened any more (shown for all such files).", "quantifier": "all files in order, all numbers of rounds, all sequences of calls in each, failing ones included", "why_tests_cant": "the file of each round is the input of the next one, written by the library itself; an induction over rounds and over the calls in each", "anchors": ["rs/src/spreadsheet/spreadsheet_2007/excel.rs:Excel::new, save_as", "rs/src/spreadsheet/spreadsheet_2007/parts/workbook.rs", "rs/src/spreadsheet/spreadsheet_2007/services/calculation_chain.rs:close_document", "rs/src/files/office_document.rs:new, save_as, close_xml_document", "rs/src/files/xml/xml_deserialize.rs"]}
{"id": "C64", "title": "Saving fails only if the operating system does", "statement": "A new workbook, document or presentation can always be made. Whatever calls are then made on the workbook, failing ones included, and whatever sheet handles are still held, if no call panicked then saving reports success exactly if the operating system lets the file be written: an old file at the path can be removed, the new one can be created, and no write fails. The same holds for a file that was opened, if its readable parts have a root element and decent namespace declarations and no relationship passes the list of content types off as a part of the workbook. Violated without these conditions: if a relationship does that, the file opens but no save ever succeeds (shown for all such files and calls); a file whose style part is empty opens and cannot be saved.", "quantifier": "all sequences of calls, all files, all fault patterns of the file system, all hash orders and clocks", "why_tests_cant": "a test saves after some sequence of calls; that no sequence of successful and failing calls leaves the open parts in a state that cannot be written needs an invariant", "anchors": ["rs/src/spreadsheet/spreadsheet_2007/excel.rs:Excel::new, save_as", "rs/src/files/office_document.rs:save_as, save_database_into_archive, close_xml_document", "rs/src/spreadsheet/spreadsheet_2007/parts/workbook.rs", "rs/src/global/global_2007/parts/relations.rs:close_document", "rs/src/document/document_2007/word.rs:save_as", "rs/src/presentation/presentation_2007/power_point.rs:save_as"]}
{"id": "C65", "title": "Which calls end the program", "statement": "In a release build, no sequence of calls on a new workbook panics, whatever their arguments (columns beyond the last one, column 0, references that overflow, released handles). On an opened workbook the calls panic exactly if one of them asks for a sheet whose part lies at the root of the package, while nobody holds it, unless that part is stored and cannot be read. In a debug build, with cell references that are letters and a row number, a panic needs one of three causes: a call counts beyond 65535 in columns or in number formats, it asks for a sheet whose part lies at the root of the package, or for one whose part has a cell beyond column 65535; and the first two always panic. Saving a new workbook never panics, nor does saving an opened one whose readable parts have a root and decent namespaces. Violated otherwise: a file whose workbook part lies at the root of the package makes opening panic, and one whose properties part is empty makes saving panic, in both builds.", "quantifier": "all sequences of calls with all arguments, all files, both build modes, all hash orders", "why_tests_cant": "a test tries some arguments; that no combination of calls and arguments reaches an unwrap, an index or an overflow needs a proof over all reachable states", "anchors": ["rs/src/spreadsheet/spreadsheet_2007/excel.rs", "rs/src/spreadsheet/spreadsheet_2007/parts/worksheet.rs:new, set_row_value_index_mut, set_row_value_ref_mut, get_sheet_file_name", "rs/src/utils/converters.rs:get_column_index", "rs/src/spreadsheet/spreadsheet_2007/parts/workbook.rs:new, get_workbook_file_name", "rs/src/global/global_2007/parts/core_properties.rs:close_document", "rs/src/files/xml/xml_tree.rs:get_first_element_id"]}
{"id": "C66", "title": "What every call of a session on a new workbook answers", "statement": "Whether each call of a session on a new workbook succeeds is decided by a small machine that knows only the names of the sheets, the numbers of their relationships and parts, which parts are stored or were ever given out, and the handles: asking for a listed sheet always fails (and drops the stored part it leads to); asking for another one succeeds exactly if the least number of a part that is not stored, counted from the number of sheets on, was never given out, and lists the sheet in any case; renaming succeeds exactly if the old name is listed and the new one is not; a custom number format needs a code; calls on a handle succeed, except that finishing or deleting a sheet fails exactly if a cell was put in column 0 of it. The same machine says which names are listed afterwards and which part every handle works on. As long as no sheet is deleted, adding a sheet that is not listed always succeeds. Violated: after a deletion it can fail, while the sheet is listed nevertheless and can never be had.", "quantifier": "all sequences of calls that do not panic, with arguments of the types taken and references of letters and digits; all hash orders, both build modes", "why_tests_cant": "the answers depend on the whole history of calls through the numbers of parts that are stored, open or used; tests follow a few histories", "anchors": ["rs/src/spreadsheet/spreadsheet_2007/excel.rs", "rs/src/spreadsheet/spreadsheet_2007/parts/worksheet.rs:new, get_sheet_file_name, flush, delete_sheet_mut, close_document", "rs/src/spreadsheet/spreadsheet_2007/parts/workbook.rs:add_sheet_mut, get_worksheet_mut, rename_sheet_name_mut", "rs/src/global/global_2007/parts/relations.rs:new"]}
{"id": "C67", "title": "The parts and relationships of a saved new workbook, exactly", "statement": "A workbook that was created, worked on by any calls and saved consists of nine fixed parts (content types, root relationships, document properties, workbook, its relationships, theme, shared strings, calculation chain, styles) and, for every sheet ever handed out, the sheet's part and its relationships part: eleven parts and two more for every call that asked for a sheet and got one. No part occurs twice. The relationships of the workbook are the theme, the shared strings exactly if some call put a text to be shared through a sheet held at that time, the styles, and one per sheet still linked, with these ids, types and targets in this order. Without deletions the sheets' parts are numbered from 1 to the number of sheets. Violated: parts that nothing leads to stay in the file (the part of every deleted sheet; the calculation chain in every file).", "quantifier": "all sequences of calls that do not panic on a new workbook, with arguments of the types taken; all clocks, fault patterns and file systems for which saving succeeds; all hash orders, both build modes", "why_tests_cant": "which parts exist at saving time depends on every part opened, taken out of the archive or dropped during the whole history; tests look at a few files", "anchors": ["rs/src/spreadsheet/spreadsheet_2007/excel.rs", "rs/src/spreadsheet/spreadsheet_2007/parts/worksheet.rs:new, get_sheet_file_name, flush, delete_sheet_mut, close_document", "rs/src/global/global_2007/parts/relations.rs:close_document, delete_relationship_mut", "rs/src/files/office_document.rs"]}
{"id": "C68", "title": "The same program makes the same workbook every time it is run", "statement": "Two runs of the same build on the same machine that create a workbook and make the same calls get the same answers call for call, whatever the order of hash tables and the time of day: one panics exactly if the other does, they list the same sheets and hold the same handles, and saving ends in the same way. The files written have the same part names; each part is the same bytes or a writing of the same tree with the same namespaces; the document properties may differ in the text of the two dates only, and the content types in the order of the entries only. The same holds for opened files if no tag of a part declares a namespace prefix twice, and for documents and presentations. Violated: the bytes of the file are not the same, and a tag that declares a prefix twice is read in one way or the other.", "quantifier": "all pairs of environments with equal build mode, compression, container format and number parsing; all call sequences; all clocks, fault patterns and file systems; all files whose parts both runs read alike", "why_tests_cant": "hash orders are drawn anew in every run: a test sees a few orders on a few workbooks, and a dependence on the order shows up only now and then", "anchors": ["rs/src/files/xml/xml_tree.rs:set_attribute_mut", "rs/src/files/xml/xml_deserialize.rs", "rs/src/files/office_document.rs:save_as, close_xml_document", "rs/src/global/global_2007/parts/core_properties.rs", "rs/src/spreadsheet/spreadsheet_2007/excel.rs"]}
{"id": "C69", "title": "A call that reports an error leaves the workbook as it was", "statement": "When a call that neither gets, nor stores, nor deletes a sheet reports an error (renaming a sheet, asking for a style, writing cells or setting a column by reference), nothing has changed: the rest of the session gives the same answers and the same file as if the call had not been made. Setting the active sheet, hiding, the window settings, writing cells by number, row and column settings by number and dropping a handle never report an error. When getting a sheet fails, no handle is given out, at most one part and its relationships part are touched, and the list of sheets is unchanged if the name was listed. Violated: a failed call for a new sheet can leave the sheet in the list, and a sheet that could not be stored or deleted takes its handle with it; what else such a call leaves behind is bounded.", "quantifier": "all sessions in any state, all calls and arguments, both build modes", "why_tests_cant": "a test sees the error but not the whole state after it; that every error path restores everything is a statement about all states and all arguments", "anchors": ["rs/src/spreadsheet/spreadsheet_2007/excel.rs", "rs/src/spreadsheet/spreadsheet_2007/parts/workbook.rs:rename_sheet_name_mut", "rs/src/spreadsheet/spreadsheet_2007/parts/worksheet.rs:set_row_value_ref_mut, delete_sheet_mut", "rs/src/spreadsheet/spreadsheet_2007/services/style.rs"]}
{"id": "C70", "title": "Calls that concern different things can be made in any order", "statement": "What a call concerns is one or more of: the list of sheets, the window, the styles, the texts, the content of one sheet, the stored parts of one sheet, all stored parts. Two neighbouring calls that concern nothing in common can change places, in new and opened workbooks and after any calls: the session is the same afterwards (so the saved file is), it panics either way or not at all, and both calls get the same answers, if neither waits for the handle the other gives out. So two programs that work on different sheets can be mixed in any way: the result is that of running one after the other, and each is answered as if the other did not exist. Violated for texts: filling two sheets with texts in another order numbers the texts otherwise.", "quantifier": "all sessions on new and opened workbooks, all pairs of calls with disjoint concerns, all interleavings of two programs of any length", "why_tests_cant": "the number of interleavings is exponential and each would have to be tried in every state; a hidden dependence through the shared package shows in few of them", "anchors": ["rs/src/spreadsheet/spreadsheet_2007/excel.rs", "rs/src/spreadsheet/spreadsheet_2007/parts/workbook.rs", "rs/src/spreadsheet/spreadsheet_2007/parts/worksheet.rs", "rs/src/files/office_document.rs"]}
{"id": "C71", "title": "Opening, working on and saving a file adds no parts but those asked for", "statement": "Open a workbook from a file, make any calls, save with success. No name is in the saved file twice, and each of its parts is the content types, a part of the file opened, one of the eight parts every workbook has, or the part or the relationships of a sheet that some call asked for. If no such call failed this is exact, with the sheets handed out. So without such calls nothing is added; a call that asks for a sheet adds two parts at most; and if everything needed is in the file already, the file saved has the same parts as the file opened. A document or presentation adds the content types, root relationships and core properties only. Violated: a sheet taken and released unchanged can add a part, since relationships it does not have are written.", "quantifier": "all files that open, all sequences of calls of any length, failing ones included, all faults of the clock and the file system that let the save succeed", "why_tests_cant": "a stray part is seen only by listing the names in the archive after a particular sequence of calls on a particular file; that there is none has to hold for all of them", "anchors": ["rs/src/files/office_document.rs", "rs/src/spreadsheet/spreadsheet_2007/parts/worksheet.rs", "rs/src/spreadsheet/spreadsheet_2007/parts/workbook.rs", "rs/src/global/global_2007/parts/relations.rs"]}
{"id": "C72", "title": "A sheet without relationships cannot be had twice", "statement": "A sheet is asked for the first time, and handed out, and the file opened has no relationships for it. Then, whatever else is called, the sheet being released or not, it is not handed out again in this session. Nor is it in a session on the file saved: asking for it by its name fails. (One would want the opposite. The relationships, though there are none, stay open for the rest of the session and are saved in a form that cannot be read; the failing call takes them away, which is why every other session can have the sheet.)", "quantifier": "all files that open, all calls before, between and after of any length, all files saved from there that open", "why_tests_cant": "one session looks all right: the failure shows in the next, on a file the library itself has written, and goes away in the one after", "anchors": ["rs/src/global/global_2007/parts/relations.rs", "rs/src/spreadsheet/spreadsheet_2007/parts/worksheet.rs", "rs/src/files/office_document.rs"]}
{"id": "C73", "title": "A sheet that is held when the workbook is saved loses its cells", "statement": "Make or open a workbook, make any calls, and save with success while a sheet that was handed out has not been released. Then its part in the saved file has no cells, no columns, no views and no dimension: neither those of the file opened nor those given by the calls. For a sheet of the file opened the saved part is exactly the one of the file without these elements. If the sheet had no others, the library cannot read the part again, and in the next session the call for this sheet fails. (One would want the cells to be there.)", "quantifier": "all workbooks, new or opened, all sequences of calls of any length, all handles held at the save, all saves that succeed", "why_tests_cant": "a test that writes and saves in one function sees the loss only if it reads the file again, and only for sheets it did not happen to release; that nothing done before the save prevents it is about all sequences of calls", "anchors": ["rs/src/spreadsheet/spreadsheet_2007/parts/worksheet.rs:initialize_worksheet", "rs/src/files/office_document.rs:save_as, close_xml_document", "rs/src/spreadsheet/spreadsheet_2007/excel.rs"]}
{"id": "C74", "title": "A C program does what the library calls it stands for do, and can keep no cells", "statement": "A program that uses a workbook through the C interface leaves the workbook, and with it the saved file, that the corresponding library calls leave; calls with unusable arguments do nothing; the process is aborted exactly if these calls panic. Each call returns 0 exactly if its arguments are usable and the library call succeeds there (renaming returns 0 also if it fails). It can have each sheet once, and every sheet it was given is saved without cells, columns and views, also those it had in the file opened: the interface has no call to release a sheet.", "quantifier": "all programs of C calls of any length with any arguments, null pointers and buffers that do not verify included, on all workbooks, new or opened", "why_tests_cant": "each entry point can be tested alone, but not that no sequence of them leaves the path of the library, nor that no sequence of them keeps the cells of a sheet", "anchors": ["rs_ffi/src/spreadsheet/excel.rs:excel_add_sheet, excel_rename_sheet, excel_get_sheet, excel_hide_sheet, get_style_id_mut, excel_save_as", "rs/src/spreadsheet/spreadsheet_2007/parts/worksheet.rs"]}
{"id": "C75", "title": "Asking for a sheet that cannot be loaded damages it", "statement": "If a call that asks for a sheet of the file opened fails (its columns, cells or views cannot be read), then whatever is called later, the file saved has the part of that sheet without the elements that were taken out before the failure: the dimension and the columns, and, unless the columns are what cannot be read, the cells. A sheet without columns and relationships therefore loses all its cells by the failing call. In the same session every later call that asks for the sheet fails as well. A sheet that is not asked for is saved as it was.", "quantifier": "all files opened, all earlier calls that do not ask for the sheet, all sheets with names that are not given twice, all later calls, all environments", "why_tests_cant": "tests look at the error the call returns, not at what a later save makes of a part nobody was handed, for every way a sheet can fail to load", "anchors": ["rs/src/spreadsheet/spreadsheet_2007/parts/worksheet.rs:initialize_worksheet", "rs/src/files/xml/xml_tree.rs:pop_elements_by_tag_mut", "rs/src/files/office_document.rs:get_xml_tree_mut"]}
{"id": "C76", "title": "One cell put into column 0 costs all cells of the sheet", "statement": "If a call puts cells into a sheet somebody holds and one of them falls on column 0 (the call names column 0, or its cells run over column 65535), then every file saved afterwards has the part of that sheet without cells, columns, views and dimension, those of the file opened included, whatever is called in between and whether the sheet is given back, stored, deleted or still held; of a sheet of the opened file the rest of the part is kept. In release builds the putting call succeeds, giving the sheet back succeeds, and only storing it reports an error, and takes the handle.", "quantifier": "all workbooks, new or opened, all earlier and later calls, all sheets held, all rows, columns and lists of cells, all environments", "why_tests_cant": "a test can show one such sheet; that no later call, not even overwriting the row, brings the cells back is about all continuations of the session", "anchors": ["rs/src/spreadsheet/spreadsheet_2007/parts/worksheet.rs:set_row_value_index_mut, close_document", "rs/src/utils/converters.rs"]}
{"id": "C77", "title": "What the library does not take apart stays in a sheet whatever is done with it", "statement": "Open a file, make any calls whatever, save: of every sheet of the file that has an element besides dimension, sheetViews, cols and sheetData, the part is in the saved file, can be read, and has the root attributes, the namespaces and all elements other than these four, in the same order for elements of one name; merged cells, page margins, drawings, validations and extensions are never lost. This includes sessions in which calls fail, the sheet is held at the save, has become unwritable or is deleted, and any number of files opened, worked on and saved one after the other. Elements whose attribute values have no special characters and whose text has no blanks around it are exactly the same; others are escaped again each time the part is written, at most once for each time a sheet was asked for.", "quantifier": "all files, all sheets of them with such an element, all lists of calls, all numbers of rounds, all environments", "why_tests_cant": "a test can try some sessions on some sheets; that no order of calls, failures included, drops an element the library does not know is about all of them", "anchors": ["rs/src/spreadsheet/spreadsheet_2007/parts/worksheet.rs:close_document, initialize_worksheet, delete_sheet_mut", "rs/src/files/office_document.rs:close_xml_document", "rs/src/files/xml/xml_deserialize.rs"]}
{"id": "C78", "title": "Parts nobody asks for go through any number of files byte for byte", "statement": "Open a file, make any calls whatever, save: every part of the file that is neither the content types, nor one of the eight parts a workbook is made of, nor the part of a sheet that a call asks for, nor the relationships of such a sheet, is in the saved file exactly once and with the same bytes. Pictures, charts and the relationships of charts, macros, and sheets nobody asks for are such parts; new sheets and calls that fail never get in the way. The same holds over any number of files opened, worked on and saved one after the other, and if the first file is in order (C63), it is enough that the part is none of the workbook's in the first file.", "quantifier": "all files, all such parts, all lists of calls, all numbers of rounds, all environments", "why_tests_cant": "a test can compare the parts of some files after some sessions; that no call, whatever its arguments and outcome, and no number of rounds changes a byte of them is about all sessions", "anchors": ["rs/src/files/office_document.rs:get_xml_document_ref, close_xml_document, save_as", "rs/src/spreadsheet/spreadsheet_2007/parts/worksheet.rs:get_sheet_file_name, new", "rs/src/spreadsheet/spreadsheet_2007/services"]}
{"id": "C79", "title": "The content types of parts nobody asks for stay declared in the saved file", "statement": "Open a file, make any calls whatever, save. A part as in C78, with a name and a type free of characters special in XML, whose content type the file declares by the part's name has the same type, by its name and once, in the saved file. A part whose type the file declares by its extension has the same one, and no other, declared for its extension in the saved file; if the extension is xml or rels, this takes that the declared type is the usual one. Both hold over any number of files. A type declared for an extension that no part has letter by letter (png, where the pictures are called PNG) is not in the saved file.", "quantifier": "all files, all such parts, all lists of calls, all numbers of rounds, all environments", "why_tests_cant": "what the saved file declares depends on all its parts, those of the file and those the library makes, and on the order of a hash map; a test sees one file and one order", "anchors": ["rs/src/files/office_document.rs:load_archive_into_database, close_xml_document, save_database_into_archive", "rs/src/global/global_2007/parts/content_types.rs:get_extensions, get_override_content_type, create_xml_file"]}
