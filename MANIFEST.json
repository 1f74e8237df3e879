{
 "claims": [
  {
   "property": "C01",
   "status": "proved",
   "theorems": [
    "C01_column_roundtrip",
    "C01_column_letters_injective",
    "C01_column_zero_refused"
   ],
   "note": "All u16 columns, both build modes."
  },
  {
   "property": "C02",
   "status": "proved",
   "theorems": [
    "C02_column_letters_value",
    "C02_no_letters_refused"
   ],
   "note": "Any letter case, any suffix not beginning with a letter."
  },
  {
   "property": "C03",
   "status": "proved",
   "theorems": [
    "C03_cell_reference",
    "C03_malformed_reference_accepted_refuted"
   ],
   "note": "The reverse (only well-formed references are accepted) is refuted by A1-B2."
  },
  {
   "property": "C04",
   "status": "proved",
   "theorems": [
    "C04_overflow_detected",
    "C04_wrapping_build_refuted"
   ],
   "note": "Checked builds panic for every reference beyond 65535; wrapping builds return a wrong column (witness)."
  },
  {
   "property": "C05",
   "status": "proved",
   "theorems": [
    "C05_escape_lossless",
    "C05_escape_safe"
   ],
   "note": ""
  },
  {
   "property": "C06",
   "status": "proved",
   "theorems": [
    "C06_write_renders"
   ],
   "note": "Renders is an independent relation on rose trees."
  },
  {
   "property": "C07",
   "status": "proved",
   "theorems": [
    "C07_write_read",
    "C07_empty_root_unreadable_refuted"
   ],
   "note": "reread describes exactly what changes (trimmed text, escaped attributes)."
  },
  {
   "property": "C08",
   "status": "proved",
   "theorems": [
    "C08_attribute_cycles"
   ],
   "note": "Any element not below text, any number of cycles."
  },
  {
   "property": "C09",
   "status": "proved",
   "theorems": [
    "C09_histories_sound",
    "C09_insert_position",
    "C09_remove_by_tag"
   ],
   "note": "pop_element_mut (removal by id, used only by loaders) is not part of the histories."
  },
  {
   "property": "C10",
   "status": "proved",
   "theorems": [
    "C10_order_child"
   ],
   "note": "Position of a repeated tag in the order list is its last occurrence."
  },
  {
   "property": "C11",
   "status": "proved",
   "theorems": [
    "C11_namespaces",
    "C11_nested_default_refuted"
   ],
   "note": "For inputs without BOM whose declaration keys are xmlns or xmlns:p."
  },
  {
   "property": "C12",
   "status": "proved",
   "theorems": [
    "C12_read_total"
   ],
   "note": "All byte strings (valid UTF-8 assumed by the reader model)."
  },
  {
   "property": "C13",
   "status": "proved",
   "theorems": [
    "C13_fresh_id",
    "C13_ids_distinct"
   ],
   "note": "the id is the first free number above the count; at most 2n+1"
  },
  {
   "property": "C14",
   "status": "proved",
   "theorems": [
    "C14_found",
    "C14_added",
    "C14_stable"
   ],
   "note": "folder of the owner from the path of the relationships part; stability over all histories that do not delete that path"
  },
  {
   "property": "C15",
   "status": "proved",
   "theorems": [
    "C15_delete_exact",
    "C15_relative_kept",
    "C15_no_link_left_refuted"
   ],
   "note": "the code leaves relative links in place: refutation of the stronger claim included"
  },
  {
   "property": "C27",
   "status": "proved",
   "theorems": [
    "C27_untouched_part"
   ],
   "note": "from file to file, over all histories of package operations"
  },
  {
   "property": "C28",
   "status": "proved",
   "theorems": [
    "C28_save_states",
    "C28_early_failure_harmless",
    "C28_window",
    "C28_atomic_refuted"
   ],
   "note": "every intermediate file-system state; the save is not atomic (refuted)"
  },
  {
   "property": "C33",
   "status": "proved",
   "theorems": [
    "C33_exclusive",
    "C33_open",
    "C33_create",
    "C33_close",
    "C33_close_reopen",
    "C33_one_place"
   ],
   "note": ""
  },
  {
   "property": "C29",
   "status": "proved",
   "theorems": [
    "C29_every_part_declared",
    "C29_reload",
    "C29_empty_default_refuted",
    "C29_special_name_refuted"
   ],
   "note": "the declared extension is the one recorded for the part; without the side conditions of C29_reload the declaration is lost (two witnesses)"
  },
  {
   "property": "C41",
   "status": "proved",
   "theorems": [
    "C41_reopen",
    "C41_save_reopen",
    "C41_fresh",
    "C41_empty_reopen_refuted"
   ],
   "note": ""
  },
  {
   "property": "C16",
   "status": "proved",
   "theorems": [
    "C16_references",
    "C16_no_duplicates"
   ],
   "note": "over all registration histories from any table"
  },
  {
   "property": "C17",
   "status": "proved",
   "theorems": [
    "C17_reopen",
    "C17_references_survive",
    "C17_fresh",
    "C17_empty_item_refuted",
    "C17_rich_text_refuted",
    "C17_empty_reopen_refuted"
   ],
   "note": "strings come back trimmed; tables of other producers lose items without children and formatted runs (refuted)"
  },
  {
   "property": "C37",
   "status": "proved",
   "theorems": [
    "C37_save",
    "C37_history",
    "C37_fresh"
   ],
   "note": "the two clock readings of a save are arguments; C37_history needs the part to have at least one child and a creation time without surrounding white space"
  },
  {
   "property": "C42",
   "status": "proved",
   "theorems": [
    "C42_reopen",
    "C42_fresh",
    "C42_missing_sheet_refuted"
   ],
   "note": ""
  },
  {
   "property": "C18",
   "status": "proved",
   "theorems": [
    "C18_last_write_wins",
    "C18_by_reference",
    "C18_column_zero_refuted"
   ],
   "note": "for writes within columns 1..65535; the write at column 0 is the refuted boundary"
  },
  {
   "property": "C19",
   "status": "proved",
   "theorems": [
    "C19_automatic_type",
    "C19_other_types",
    "C19_words_refuted"
   ],
   "note": "FloatText is an independent grammar of Rust's float literals"
  },
  {
   "property": "C20",
   "status": "proved",
   "theorems": [
    "C20_written",
    "C20_reopen",
    "C20_plain",
    "C20_new",
    "C20_kept",
    "C20_relationships",
    "C20_lossy_refuted"
   ],
   "note": "back_cell, back_props, back_col say exactly what changes; C20_plain says when nothing does"
  },
  {
   "property": "C21",
   "status": "proved",
   "theorems": [
    "C21_dimension",
    "C21_session",
    "C21_smallest",
    "C21_empty",
    "C21_rows_only_refuted",
    "C21_far_columns_refuted"
   ],
   "note": ""
  },
  {
   "property": "C22",
   "status": "proved",
   "theorems": [
    "C22_columns",
    "C22_right_part_refuted",
    "C22_no_definitions_refuted"
   ],
   "note": "over all histories of column settings"
  },
  {
   "property": "C39",
   "status": "proved",
   "theorems": [
    "C39_new_part",
    "C39_open_part_refuted"
   ],
   "note": ""
  },
  {
   "property": "C40",
   "status": "proved",
   "theorems": [
    "C40_views",
    "C40_growth"
   ],
   "note": "any number of save and reopen cycles"
  },
  {
   "property": "C30",
   "status": "proved",
   "theorems": [
    "C30_ids_denote",
    "C30_builtin_format_refuted",
    "C30_custom_format_refuted"
   ],
   "note": "hash collisions excluded by hypothesis (Collisionless), tables within 16 bits (Small); the number format part is refuted"
  },
  {
   "property": "C31",
   "status": "proved",
   "theorems": [
    "C31_same_id",
    "C31_custom_refuted",
    "C31_custom_settles",
    "C31_empty_tables_refuted"
   ],
   "note": "any requests in between"
  },
  {
   "property": "C32",
   "status": "proved",
   "theorems": [
    "C32_new_workbook",
    "C32_round_trip",
    "C32_italic_refuted",
    "C32_code_refuted",
    "C32_custom_refuted"
   ],
   "note": "back_styles says exactly what changes"
  },
  {
   "property": "C23",
   "status": "proved",
   "theorems": [
    "C23_history",
    "C23_name_in_use",
    "C23_added_listed",
    "C23_auto_name_refuted",
    "C23_stale_handle_refuted"
   ],
   "note": "all histories; automatic names can collide and a handle keeps its old name after a rename (refuted)"
  },
  {
   "property": "C24",
   "status": "proved",
   "theorems": [
    "C24_rename"
   ],
   "note": ""
  },
  {
   "property": "C25",
   "status": "proved",
   "theorems": [
    "C25_hide",
    "C25_only_one_refuted"
   ],
   "note": "hiding a second sheet shows the first again"
  },
  {
   "property": "C26",
   "status": "proved",
   "theorems": [
    "C26_written",
    "C26_round_trip",
    "C26_new_part",
    "C26_tabs_refuted"
   ],
   "note": "book_sheet_back and book_view_back say exactly what changes; the tab bar flag comes back inverted"
  },
  {
   "property": "C36",
   "status": "proved",
   "theorems": [
    "C36_delete_list",
    "C36_part_stays_refuted"
   ],
   "note": ""
  },
  {
   "property": "C43",
   "status": "proved",
   "theorems": [
    "C43_view_settings"
   ],
   "note": ""
  },
  {
   "property": "C44",
   "status": "proved",
   "theorems": [
    "C44_active",
    "C44_active_not_saved_refuted"
   ],
   "note": "the desired property is refuted for all workbooks"
  },
  {
   "property": "C45",
   "status": "proved",
   "theorems": [
    "C45_flag_read",
    "C45_flag_roundtrip",
    "C45_flag_text"
   ],
   "note": ""
  },
  {
   "property": "C34",
   "status": "proved",
   "theorems": [
    "C34_reopen_refuted"
   ],
   "note": "the desired property is refuted for every session that starts from a new workbook: the reader rejects the self-closed roots of the parts that stay empty"
  },
  {
   "property": "C35",
   "status": "proved",
   "theorems": [
    "C35_held_refuted",
    "C35_released"
   ],
   "note": "cells of sheets released before the save are written, cells of sheets still held never are"
  },
  {
   "property": "C38",
   "status": "proved",
   "theorems": [
    "C38_create",
    "C38_calls",
    "C38_save",
    "C38_message",
    "C38_rename_refuted",
    "C38_rename_message",
    "C38_save_refuted"
   ],
   "note": "holds for all entry points but three; for those the violation is proved"
  },
  {
   "property": "C46",
   "status": "proved",
   "theorems": [
    "C46_style",
    "C46_number"
   ],
   "note": "exact characterisation: which descriptions survive the interface; the model reads the left border as converted, which the source does not type-check"
  },
  {
   "property": "C47",
   "status": "proved",
   "theorems": [
    "C47_history"
   ],
   "note": "composition of reader, writer, package, relationships and core properties; operating system calls assumed to succeed (C28 covers failures)"
  },
  {
   "property": "C48",
   "status": "proved",
   "theorems": [
    "C48_session",
    "C48_bytes",
    "C48_document",
    "C48_unasked",
    "C48_failed_open_refuted"
   ],
   "note": "composition of package, workbook and sheets over whole sessions; the exception (a failing open) is part of the statement and shown to happen"
  },
  {
   "property": "C49",
   "status": "proved",
   "theorems": [
    "C49_links",
    "C49_no_rename",
    "C49_stale_delete_refuted",
    "C49_failed_add_refuted"
   ],
   "note": "for sessions on a new workbook; the exceptions are part of the statement; a failed addition and a deletion under an older name are shown to break the file"
  },
  {
   "property": "C50",
   "status": "proved",
   "theorems": [
    "C50_new",
    "C50_opened",
    "C50_document",
    "C50_namespace_refuted",
    "C50_control_refuted"
   ],
   "note": "well-formed up to characters that XML forbids; the exceptions are shown"
  },
  {
   "property": "C51",
   "status": "proved",
   "theorems": [
    "C51_new_sheet",
    "C51_texts"
   ],
   "note": "whole sessions with any number of handles; for texts in workbooks that were opened see C52_texts; a sheet still held at the save is C35"
  },
  {
   "property": "C52",
   "status": "proved",
   "theorems": [
    "C52_cells",
    "C52_texts",
    "C52_shared_formula_refuted",
    "C52_rich_text_refuted",
    "C52_date_refuted"
   ],
   "note": "for cells with a plain formula, value or text; the kinds of cells left out are shown to change"
  },
  {
   "property": "C53",
   "status": "proved",
   "theorems": [
    "C53_opened",
    "C53_saved",
    "C53_very_hidden_refuted",
    "C53_sheet_id_refuted",
    "C53_name_refuted",
    "C53_tabs_refuted",
    "C53_window_refuted",
    "C53_grouping_refuted"
   ],
   "note": "for workbook parts with at most one element for the sheets and one view; what changes on opening and saving is shown"
  },
  {
   "property": "C54",
   "status": "proved",
   "theorems": [
    "C54_relationships",
    "C54_sheet_part"
   ],
   "note": "when the list would become empty the part is kept or removed as C41 says; texts in attributes are compared as read, escapes included (finding 8)"
  },
  {
   "property": "C55",
   "status": "proved",
   "theorems": [
    "C55_found",
    "C55_name_refuted"
   ],
   "note": "exact characterisation; the desired independence from the file name is refuted"
  },
  {
   "property": "C56",
   "status": "proved",
   "theorems": [
    "C56_theme"
   ],
   "note": "as read: texts in attributes with their escapes (finding 8)"
  },
  {
   "property": "C57",
   "status": "proved",
   "theorems": [
    "C57_opened",
    "C57_saved",
    "C57_asked",
    "C57_italic_refuted",
    "C57_underline_refuted",
    "C57_not_bold_refuted",
    "C57_tint_refuted",
    "C57_gradient_refuted",
    "C57_pattern_refuted",
    "C57_diagonal_refuted",
    "C57_apply_refuted",
    "C57_protection_refuted",
    "C57_quote_refuted",
    "C57_rotation_refuted",
    "C57_code_refuted",
    "C57_strike_refuted",
    "C57_size_refuted",
    "C57_inner_border_refuted"
   ],
   "note": "for styles parts of the kinds of entries the library knows (StylesSay); what is lost, and what cannot be opened at all, is shown; texts in attributes as read, escapes included (finding 8)"
  },
  {
   "property": "C58",
   "status": "proved",
   "theorems": [
    "C58_kept",
    "C58_order",
    "C58_pane_refuted",
    "C58_selection_refuted",
    "C58_view_order_refuted",
    "C58_views_refuted",
    "C58_outline_refuted",
    "C58_collapsed_refuted",
    "C58_hidden_column_refuted",
    "C58_width_refuted",
    "C58_hidden_row_refuted",
    "C58_height_refuted",
    "C58_protection_refuted",
    "C58_comments_refuted",
    "C58_cell_refuted",
    "C58_row_refuted"
   ],
   "note": "for sheets with at most one element of each kind the library reads and cells that carry a reference; what changes when a sheet is only asked for is shown"
  },
  {
   "property": "C59",
   "status": "proved",
   "theorems": [
    "C59_entries",
    "C59_sheets",
    "C59_numbers_refuted",
    "C59_deleted_refuted",
    "C59_overwritten_refuted",
    "C59_level_refuted",
    "C59_array_refuted",
    "C59_order_refuted",
    "C59_number_left_out_refuted"
   ],
   "note": "for chains whose entries all name cell and sheet; a chain without entries is removed (C41); texts in attributes as read, escapes included (finding 8)"
  },
  {
   "property": "C60",
   "status": "proved",
   "theorems": [
    "C60_properties",
    "C60_other_root",
    "C60_relationships",
    "C60_suite",
    "C60_found",
    "C60_no_time_refuted",
    "C60_prefix_refuted"
   ],
   "note": "texts in attributes as read, escapes included (finding 8)"
  },
  {
   "property": "C61",
   "status": "proved",
   "theorems": [
    "C61_links",
    "C61_no_rename",
    "C61_deleted_refuted",
    "C61_unreadable_refuted"
   ],
   "note": "for sessions on an opened workbook; the file is assumed to list sheets with distinct parts; the exceptions are part of the statement"
  },
  {
   "property": "C62",
   "status": "proved",
   "theorems": [
    "C62_table",
    "C62_cell",
    "C62_runs_refuted",
    "C62_phonetic_refuted",
    "C62_shift_refuted",
    "C62_order_refuted",
    "C62_blanks_refuted"
   ],
   "note": "texts as the library reads them, that is without blanks at their ends; what items of other forms lose is shown"
  },
  {
   "property": "C63",
   "status": "proved",
   "theorems": [
    "C63_rounds",
    "C63_reopens",
    "C63_chainless_refuted"
   ],
   "note": "for files in order with a calculation chain; for all files without one the opposite is proved; the reading of the saved file is up to the losses shown in other claims (finding 8 for attributes)"
  },
  {
   "property": "C64",
   "status": "proved",
   "theorems": [
    "C64_made",
    "C64_new",
    "C64_opened",
    "C64_document",
    "C64_types_refuted",
    "C64_empty_refuted"
   ],
   "note": "an equivalence, for calls that do not panic; for opened files under two conditions, each shown to be needed; that two entries of one name are an error is what the model assumes of the zip writer"
  },
  {
   "property": "C65",
   "status": "proved",
   "theorems": [
    "C65_release_new",
    "C65_release_opened",
    "C65_debug",
    "C65_save_new",
    "C65_save_opened",
    "C65_open_refuted",
    "C65_save_refuted"
   ],
   "note": "equivalences for release builds; for debug builds the causes are exhaustive, and that a cell too far to the right is reached by the reader is shown by example only; when opening a file panics is not characterised, only shown to happen"
  },
  {
   "property": "C66",
   "status": "proved",
   "theorems": [
    "C66_answers",
    "C66_decided",
    "C66_listed",
    "C66_undeleted",
    "C66_unlisted_refuted"
   ],
   "note": "for calls that do not panic (C65 says which do) and references of letters and digits up to column 65535"
  },
  {
   "property": "C67",
   "status": "proved",
   "theorems": [
    "C67_parts",
    "C67_count",
    "C67_undeleted",
    "C67_chain_unreached",
    "C67_reached_refuted"
   ],
   "note": "for calls that do not panic (C65 says which do) and references of letters and digits up to column 65535"
  },
  {
   "property": "C68",
   "status": "proved",
   "theorems": [
    "C68_new",
    "C68_opened",
    "C68_document",
    "C68_read",
    "C68_bytes_refuted",
    "C68_read_refuted"
   ],
   "note": "within one run the model takes hash tables with equal keys to be walked through in the same order; for opened files under a condition that C68_read reduces to a check of the text and C68_read_refuted shows to be needed"
  },
  {
   "property": "C69",
   "status": "proved",
   "theorems": [
    "C69_unchanged",
    "C69_skipped",
    "C69_never",
    "C69_opening",
    "C69_storing",
    "C69_deleting",
    "C69_opening_refuted",
    "C69_storing_refuted"
   ],
   "note": "for all states, reachable or not; what the getting, storing and deleting of a sheet leaves behind when it fails is bounded, and that it is not nothing is shown"
  },
  {
   "property": "C70",
   "status": "proved",
   "theorems": [
    "C70_swapped",
    "C70_rearranged",
    "C70_mixed",
    "C70_alone",
    "C70_texts_refuted",
    "C70_waiting_refuted"
   ],
   "note": "the model runs one call after the other, so this is about the order of calls, not about threads; both conditions are shown to be needed"
  },
  {
   "property": "C71",
   "status": "proved",
   "theorems": [
    "C71_parts",
    "C71_exact",
    "C71_same",
    "C71_quiet",
    "C71_count",
    "C71_document",
    "C71_untouched_refuted"
   ],
   "note": "for sessions that do not panic and saves that succeed; new workbooks are C67"
  },
  {
   "property": "C72",
   "status": "proved",
   "theorems": [
    "C72_session",
    "C72_saved",
    "C72_refused"
   ],
   "note": "states a defect; for saved files that open again (C63 says which); in the next session no sheet may be listed whose part is the relationships part itself"
  },
  {
   "property": "C73",
   "status": "proved",
   "theorems": [
    "C73_held",
    "C73_exact",
    "C73_refused"
   ],
   "note": "states a defect; C73_exact and C73_refused are for the first time the sheet is asked for in the session; for saves that succeed and sessions that do not panic"
  },
  {
   "property": "C74",
   "status": "proved",
   "theorems": [
    "C74_same",
    "C74_codes",
    "C74_once",
    "C74_cells"
   ],
   "note": "the buffers are given as what the verifier makes of them, and the pointer of the workbook is valid; C74_cells states a defect"
  },
  {
   "property": "C75",
   "status": "proved",
   "theorems": [
    "C75_damaged",
    "C75_cells",
    "C75_never"
   ],
   "note": "states a defect; for the first call of the session that asks for the sheet, for saves that succeed and sessions that do not panic; that parts not asked for are saved as they were is C27"
  },
  {
   "property": "C76",
   "status": "proved",
   "theorems": [
    "C76_lost",
    "C76_exact",
    "C76_silent"
   ],
   "note": "states a defect; for saves that succeed and sessions that do not panic (in debug builds the putting call panics, C65); a deleted sheet leaves the part in the file, which nothing leads to"
  },
  {
   "property": "C77",
   "status": "proved",
   "theorems": [
    "C77_kept",
    "C77_plain",
    "C77_files"
   ],
   "note": "for saves that succeed, sessions that do not panic, and parts that are not opened with the file (of_open x0 q = None: no workbook part); a root with text of its own is outside; a sheet with nothing but the four elements is C73"
  },
  {
   "property": "C78",
   "status": "proved",
   "theorems": [
    "C78_bytes",
    "C78_unasked",
    "C78_files",
    "C78_rounds"
   ],
   "note": "for saves that succeed and sessions that do not panic; C78_unasked replaces the condition on calls by one on the names asked for; what the content types part declares is C29"
  },
  {
   "property": "C79",
   "status": "proved",
   "theorems": [
    "C79_by_name",
    "C79_by_extension",
    "C79_files",
    "C79_unused",
    "C79_own_refuted"
   ],
   "note": "for saves that succeed, names and types without XML-special characters; the extension must be the one the file declares letter by letter, and for xml and rels the type the library knows: C79_unused and C79_own_refuted show what happens otherwise"
  }
 ]
}