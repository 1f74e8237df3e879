# Formal model of openxml-office (Rust core) — design

Source of truth: `/repo` (read as text, never built). Prover: Coq 8.16.1, stdlib + std++ (`gmap`,
`merge_sort`). All Coq files live in `rocq/theories`, logical name `Verif`.

## 1. Conventions

* Rust `String`/`Vec<u8>` = Coq `string` (a sequence of bytes). `chars()` is modelled by a UTF-8 decoder
  where the code inspects characters.
* `Result` + panics = `res A := Ok a | Err msg | Panic msg`. A function that mutates through `&mut` and
  can fail half-way is a state function `S -> S * res A`: the state after an error is visible.
* `HashMap` = std++ `gmap`; where the code iterates over a `HashMap`, the iteration order is an explicit
  argument (any permutation of the entries). `BTreeMap` = `gmap` iterated through its sorted entries.
* `u16`/`u32`/`u8` = `N` with explicit range checks; arithmetic that can overflow takes the build mode
  (`Checked` = debug: panic, `Wrapping` = release).
* `Rc<RefCell<XmlDocument>>` owned by the open-document collection with `Weak` pointers in the parts = lookup
  of the part path in the collection (a `Weak` upgrades iff the collection still holds the document).
* Every definition of the model cites the file and lines it models. Simplifications are marked `SIMPL`.
* Files: `Model/*.v` hold definitions only, `Spec/*.v` the independent specifications, `Proofs/*.v` lemmas,
  `Props/*.v` only the final theorems, their non-vacuity examples and `Print Assumptions`.

## 2. What is modelled, and how each property is proved (plan)

| Prop | Model | Method |
|------|-------|--------|
| C01-C04 | `converters.rs` with u16/usize arithmetic and build mode | independent bijective base-26 spec; induction on digits; overflow arithmetic |
| C05, C08 | `quick_xml::escape` / `unescape` | induction on strings; length argument for growth |
| C06 | XML arena, `pop_child_mut`, writer loop with its counter | refinement of the loop to recursive rendering of a rose tree, counting iterations |
| C07, C11, C12 | byte-level reader model of quick-xml (`trim_text`), event loop with cursor | lexer inverts printer; induction on trees with cursor invariant |
| C09 | all arena operations | invariant by induction over operation lists |
| C10 | `order_child_mut` | stable sort specification (sorted, permutation, sub-sequences per key equal) |
| C13-C15 | `relations.rs` | pigeonhole for termination; list invariants |
| C16-C17 | `share_string.rs` | invariant over histories; round trip via C07 |
| C18-C22, C40 | `worksheet.rs` | refinement to a finite map (row, column) -> cell; round trip via C07 |
| C23-C26, C36, C39 | `workbook.rs`, `worksheet.rs` session operations | refinement to an abstract list of sheets; round trip via C07 |
| C27, C33 | `office_document.rs` | frame invariant by induction over operations; gzip as an arbitrary codec with `decompress (compress x) = x` |
| C28 | `save_as` as a sequence of file-system steps with a crash after any prefix | case analysis on every prefix, for all file systems |
| C29 | `content_types.rs` | quantification over all archives and all iteration orders |
| C30-C32 | `services/style.rs`, `models/style.rs` | append-only invariant, idempotence; hash as an arbitrary function, injectivity as explicit hypothesis |
| C34, C35 | `excel.rs` end to end | refutation by computation of the model, then for all histories |
| C37 | `core_properties.rs` | tree edit specification |
| C47 | `Word`, `PowerPoint` over their whole life | induction over the history of saves; each cycle composes C37, C13, C28, C29 |
| C48 | whole sessions on a file that was opened | invariant: the parts held by handles are open and distinct; what each call can close, delete or lose |
| C49 | whole sessions on a new workbook, up to the bytes of the saved file | invariant: the listed sheets and the worksheet relationships are in bijection, targets are distinct and present |
| C50 | all parts written, over whole sessions | invariant: open documents are trees with valid names and safe namespaces, archived bytes are the text of one or the original bytes |
| C51, C52 | cells and texts from the calls of a session to the bytes saved, for new sheets and for sheets of an opened file | invariant: the handle shows the history over what the sheet held; every other call leaves its parts, its data and the texts alone; what the reader makes of the part; what the writer makes of the data |
| C53-C56 | the workbook part, its relationships and the theme, from an opened file to the saved one | what the reader makes of the part; invariant: the documents behind these parts stay open and as they were until the save; the lists in memory follow the calls; what the writer makes of them |
| C57 | the styles part, from an opened file to the saved one | a relation between entries and elements in both directions (reader and writer); the tables only grow; ids answered stay valid (C30) |
| C58 | the part of a sheet other than its cells, from an opened file to the saved one | two invariants over the calls between asking for the sheet and releasing it (cells as in C52; columns, views and the open document here); order of elements against the schema's list, written down separately from the library's |
| C59 | the calculation chain, from an opened file to the saved one | the list in memory is never touched by a call; the numbers of the sheets follow the list of sheets (C53), which without deletions only grows at its end |
| C60 | document properties and relationships of the package, from an opened file to the saved one | the two documents stay open and as they were until the save; what the writer makes of them |
| C61 | whole sessions on an opened workbook, up to the bytes of the saved file | the invariant of C49 with targets that are absolute or relative and relationships of the file among them |
| C62 | table of strings from an opened file to the saved one, and the cells that refer to it | what the loader takes out of the document and the writer puts back; the table only grows; reading back what was written |
| C63 | any number of rounds of opening, calling, saving | an invariant on the open parts and on where the relationships lead, kept by opening, calls and saving; induction over rounds |
| C64 | every document edit made while closing succeeds | every open part has a root and names that can be written (the invariant of C50); the parts of the workbook and of held handles are open (C48); the name of the content types is never taken |
| C65 | no reachable call panics, but for the causes listed | every operation on documents and parts is shown not to panic (`PanicFacts`), a panicking step is traced to its cause, and a session ends at its first panicking call |
| C66 | whole sessions on a new workbook, answer by answer | a simulation between the package and a machine of names and numbers (`Spec/AnswerSpec.v`): which parts are stored, open, used; the machine is deterministic |
| C67 | the parts of a saved new workbook and the relationships of the workbook part | the machine of C66 says which numbers were given out; every part given out stays open or stored (stored ones can be read, so asking again never loses them), nothing else enters the package |
| C68 | two runs of the same program, with other hash orders and clocks | a simulation between two environments (`RepeatFacts`): open documents equal, stored parts equal or two writings of one tree, which both runs read alike; the stored dates are only looked at again by the save that writes them |
| C69 | calls that report an error, in any state | every call as an action on one component of the session (`SwapFacts.run_call`); the error paths by cases; frames for the parts |
| C70 | neighbouring calls, and mixtures of two programs | actions on different components commute; storing and deleting depend on and change only the two parts of the sheet (`Within`), which no other handle holds; induction over the mixture |
| C71 | the names in the saved file of an opened workbook | what each call adds to the package, from the frame of `ws_new` and from the parts of the handles; induction over the calls; opening adds the workbook's own parts only |
| C72 | the relationships part of a sheet that has none | invariant: it stays open and empty through all calls; it is written self-closed, which the reader refuses (C34); in the next session it is unreadable or the sheet is left open without a handle |
| C73 | sheets held at the save | invariant: what is open for a handle has had the elements taken out that the library keeps in the handle, and no call but the releasing one touches it; saving writes what is open |
| C74 | sequences of C calls | simulation: one C call is one library call or none (`CSpec.v`); what holds of all sessions (C73, the handles of C48) then holds of C programs |
| C75 | sheets that fail to load | the failing step leaves the part open with the elements taken out so far; no call touches an open part without a handle; saving writes what is open |
| C76 | cells in column 0 | invariant: the part stays open as it was when the handle was given out, and whoever holds it cannot store it; preserved by every call |
| C77 | the rest of a sheet | invariant on one part: stored or open, its tree has the elements of the first tree that no handle keeps, written and read some number of times; preserved by every call, failing ones included, then by the save, then over any number of files |
| C78 | parts nobody asks for | frame per call: what a call does to a part that is stored, not open and not asked for is nothing (the path a call opens is the one `asked_path` gives); then over the calls, the save, and by induction over files, with C63 for which parts the workbook opens |
| C79 | content types of parts nobody asks for | invariant on the extension and type each part is recorded with (from the file's declarations or one of the two the library knows), kept by every operation whatever its outcome; then loading (which declaration a part gets) and saving (which are written, read back) as functions of the tree of the content types part; induction over files |
| C38, C46 | `rs_ffi` entry points, decoded buffers | case analysis against a specification of faithful answers; styles via C30 |
| C41, C42 | `relations.rs`, `calculation_chain.rs` close and open | round trip via C07 |
| C43-C45 | window settings, active sheet, boolean attributes | histories; equality of what is written; string induction |

If a property is false of the code, the development proves the refutation (`…_refuted`) and the strongest
guarded version. "proved" in the manifest then means: the statement in `properties.jsonl`, which describes
what the code really does, is proved, including the violation.

## 3. Trusted base

* Coq's kernel (8.16.1). `vm_compute` is used in examples and in a few refutations by computation.
* `Print Assumptions` answers "Closed under the global context" for every theorem of `Props/*.v` (the files
  print it at their end). No axiom is used, neither of Coq's library nor of another one. (The seven names
  `Coq.ssr.ssrunder.*` a scan of the loaded libraries shows come with loading ssreflect through std++; no
  theorem depends on them.)
* The transcription of the Rust code into Gallina, function by function; every definition cites its lines.
* The behaviour of what is outside the repository. It enters as fields of the class `Env` (Model/Base.v) and
  the class `Hashes` (Model/Style.v), so each theorem holds for every implementation of these fields that
  satisfies the laws given with them:
  * build mode (`Checked` or `Wrapping` arithmetic), Unicode's alphabetic table beyond ASCII: no law;
  * the clock: a time stamp consists of digits and `-:TZ`;
  * iteration order of `HashMap`/`HashSet`: a permutation;
  * gzip: decompressing what was compressed gives the data back;
  * zip: reading a written archive gives the entries back, names in an archive are distinct;
  * `f32`: rendering a parsed number gives a text that parses to the same rendering, made of letters,
    digits, `+ - .`;
  * hashes of style entries: arbitrary functions (collisions are excluded only by explicit hypotheses).
  `Spec/DemoEnv.v` gives an instance, so the laws are consistent, and all examples are run in it.
* The models of quick-xml's reader, `escape` and `unescape` (Model/XmlRead.v, XmlWrite.v) are definitions
  written from the documented behaviour of the crate (version pinned in Cargo.lock), not oracles. Same for
  `str::parse`, `trim`, `to_string`, UTF-8 decoding.
* The file system is a map from names to contents; a save is the sequence of states it goes through, with
  injected faults for removal, creation and partial writes.

## 4. What is modelled

All of the crate `rs` and all entry points of `rs_ffi`:

| Source | Model |
|--------|-------|
| `utils/converters.rs` | Converters.v |
| `files/xml/xml_tree.rs` | XmlTree.v, XmlView.v |
| `files/xml/xml_serialize.rs`, `xml_deserialize.rs` | XmlWrite.v, XmlRead.v |
| `files/office_document.rs`, `utils/file_handling.rs` | Package.v |
| `global/.../content_types.rs`, `relations.rs`, `core_properties.rs`, `theme.rs`, `traits/xml_parts.rs` | ContentTypes.v, Relations.v, CoreProperties.v, Theme.v |
| `global/references/*` | Dictionary.v |
| `spreadsheet/.../share_string.rs`, `calculation_chain.rs`, `style.rs` (services and models) | ShareString.v, CalcChain.v, Style.v |
| `spreadsheet/.../parts/worksheet.rs`, `models/worksheet.rs` | Worksheet.v |
| `spreadsheet/.../parts/workbook.rs`, `services/common_service.rs` | Workbook.v |
| `excel.rs`, `word.rs`, `power_point.rs` | Excel.v |
| `rs_ffi/src` | Ffi.v |

Not modelled: the macro `log_elapsed!` (it times its argument and returns its value), the empty modules
(charts, references), tests, the language bindings (`cs`, `go`, `java`, `python`, `ts`, which contain no
logic beyond calling `rs_ffi`, or stubs), `rs_api` (a hello-world server), the generated flatbuffer code
(buffers are given decoded or as a decoding error), memory management of the C interface (leaks,
use after free, wrong pointer types).

Simplifications (marked SIMPL where they occur):

* An error is one message; anyhow's chain of contexts is not kept.
* Bytes given to the XML reader are valid UTF-8.
* Objects that code reaches through `Rc`/`Weak` are passed as state. A document handle is the path of
  the part; a sheet handle is the sheet's data with its path. Handles of a session are numbered.
* A save gets the readings of the clock as arguments.
* `Drop` runs where the value goes out of scope; a panic inside `Drop` is not continued.
* State left behind by a failing constructor that the caller cannot observe is not modelled (a failing
  `Workbook::new` is followed by dropping the whole package).
* Styles: the hash stored beside an entry is recomputed, the never-filled cache is left out, `u8` flags are
  booleans, the constant border id is left out, the 36 built-in number formats are one constructor.
* Worksheets: hyperlink properties and view selections, never read or set, are left out.
* C interface: line 278 of `rs_ffi/src/spreadsheet/excel.rs` assigns an optional flatbuffer table to a
  `BorderSetting`, which does not type-check as it stands; the model takes the obvious conversion.

## 5. What the theorems found

Each line is proved (theorem named) unless it says otherwise.

1. A workbook created by the library, saved, cannot be opened by the library: the calculation chain stays
   empty, its deletion at save does not take effect because the part is open, it is written as a self-closed
   root, and the reader refuses a self-closed root (`C34_reopen_refuted`, for every session; `C07_empty_root_unreadable_refuted`).
2. Cells of a sheet whose handle is alive at the save are not written (`C35_held_refuted`).
3. A released sheet without relationships cannot be obtained again in the same session (`C41_empty_reopen_refuted`),
   nor a shared string table that was closed empty (`C17_empty_reopen_refuted`). A part whose opening fails is lost (`C33_open`),
   and the next save succeeds without it (`C48_failed_open_refuted`).
4. Deleting a sheet leaves its part and its (relative) relationship in the package (`C36_part_stays_refuted`, `C15_relative_kept`).
5. A new sheet can be given the path of a sheet that is open (`C39_open_part_refuted`); the call then fails although the list has grown,
   and the file saved afterwards has two sheets that lead to one part (`C49_failed_add_refuted`).
6. Automatic names collide with names in use; a handle keeps its old name after a rename, so deleting through it deletes only the relationship
   (`C23_auto_name_refuted`, `C23_stale_handle_refuted`), and the file saved afterwards lists a sheet without a part (`C49_stale_delete_refuted`).
7. Hiding a sheet shows all others (`C25_only_one_refuted`); the active sheet is never saved (`C44_active_not_saved_refuted`);
   the tab bar flag is inverted by reopening (`C26_tabs_refuted`).
8. Attribute values with special characters are escaped once more at each cycle (`C08_attribute_cycles`), so custom number formats with quotes change
   (`C32_code_refuted`); overrides of parts with such names get lost (`C29_special_name_refuted`).
9. A nested default namespace replaces the root's (`C11_nested_default_refuted`).
10. Styles: built-in number formats are ignored, custom ones get a dangling id, a second request for one gives another id, italic and
    underline are cleared by reopening (`C30_*_refuted`, `C31_custom_refuted`, `C32_italic_refuted`, `C32_custom_refuted`).
11. Columns: settings on a new sheet have no effect; setting a column inside a definition resets the columns to its right
    (`C22_no_definitions_refuted`, `C22_right_part_refuted`); flags that are `Some(false)` are written as 1 (`C20_lossy_refuted`).
12. Each open and save adds a sheet view (`C40_growth`). Dimension of a sheet with rows but no cells is inverted (`C21_rows_only_refuted`),
    and starts at column XFD for sheets that only have cells beyond it (`C21_far_columns_refuted`).
13. A write at column 0 is accepted and makes closing the sheet fail (`C18_column_zero_refuted`); the words `NaN`, `inf` become numbers
    (`C19_words_refuted`); malformed references are accepted (`C03_malformed_reference_accepted_refuted`); wrapping builds turn far column
    letters into near ones (`C04_wrapping_build_refuted`).
14. Shared string items without children shift all later indices, formatted runs are lost (`C17_empty_item_refuted`, `C17_rich_text_refuted`).
15. A calculation chain entry without sheet or cell makes opening panic (`C42_missing_sheet_refuted`).
16. Saving is not atomic (`C28_window`, `C28_atomic_refuted`).
17. C interface: failing renames and failing saves of documents and presentations answer success (`C38_rename_refuted`, `C38_save_refuted`);
    bold means italic and underlined, colour, alignment and most borders are dropped (`C46_style`).
18. Seen while modelling, in the model but without a theorem of their own: an extension that has no default gets an empty default entry
    (`C29_empty_default_refuted`); an empty XML part, an override without type, a workbook or sheet target without a slash panic;
    a package with a part named `[Content_Types].xml` open cannot be saved.
19. Namespace names are written without escaping: one that was given in single quotes and has a double quote inside makes the part
    malformed (`C50_namespace_refuted`). Control characters in texts are written as they are, which no XML reader has to accept (`C50_control_refuted`).
20. Editing any cell of a sheet of an opened file loses the formulas of cells that share one (only the value last computed stays), texts in formatted
    runs stored in cells, and the type of date cells (`C52_shared_formula_refuted`, `C52_rich_text_refuted`, `C52_date_refuted`).
21. Opening and saving a file, nothing else: a very hidden sheet becomes visible, sheets get new numbers, an ampersand in a sheet name is escaped
    once more, hidden tabs become visible, the position of the window is lost, the date grouping setting overwrites the width of the tabs
    (`C53_very_hidden_refuted`, `C53_sheet_id_refuted`, `C53_name_refuted`, `C53_tabs_refuted`, `C53_window_refuted`, `C53_grouping_refuted`).
22. The relationships of the workbook are looked for in `_rels/workbook.xml.rels` whatever its part is called; with another name the sheets that
    are listed cannot be opened (`C55_name_refuted`).
23. Opening and saving a file, nothing else: italic and underlined fonts become plain, a font with `<b val="0"/>` becomes bold, tints, gradients,
    patterns other than `solid` and `gray125`, the direction of diagonals, cell protection, the quote prefix, rotation and indents are lost, a style
    that says not to apply its font loses that, quotes in number format codes are escaped once more (`C57_italic_refuted`, `C57_underline_refuted`,
    `C57_not_bold_refuted`, `C57_tint_refuted`, `C57_gradient_refuted`, `C57_pattern_refuted`, `C57_diagonal_refuted`, `C57_protection_refuted`,
    `C57_quote_refuted`, `C57_rotation_refuted`, `C57_apply_refuted`, `C57_code_refuted`).
24. A file with a struck-through font, a font size that is not whole, or a border with inner lines cannot be opened
    (`C57_strike_refuted`, `C57_size_refuted`, `C57_inner_border_refuted`).
25. Asking for a sheet of an opened file and releasing it, nothing else: frozen panes and selections are lost, views change places and one more
    is added, columns are no longer grouped, rows and columns hidden with `hidden="true"` show, widths and heights marked with `"true"` are lost,
    protection and comments (`legacyDrawing`) move behind elements the schema wants after them (`C58_pane_refuted`, `C58_selection_refuted`,
    `C58_view_order_refuted`, `C58_views_refuted`, `C58_outline_refuted`, `C58_collapsed_refuted`, `C58_hidden_column_refuted`, `C58_width_refuted`,
    `C58_hidden_row_refuted`, `C58_height_refuted`, `C58_protection_refuted`, `C58_comments_refuted`).
26. A sheet whose rows or cells leave out the reference, which the schema allows, cannot be had (`C58_cell_refuted`, `C58_row_refuted`).
27. The calculation chain names sheets by their numbers, and these are given anew at every save: after opening and saving a file whose sheets
    were put in another order, or after deleting a sheet, entries are those of another sheet (`C59_numbers_refuted`, `C59_deleted_refuted`). Writing
    a value over a formula leaves its entry (`C59_overwritten_refuted`). Marks for levels and arrays are lost, extensions move before the entries
    (`C59_level_refuted`, `C59_array_refuted`, `C59_order_refuted`), and a file whose entries leave out a repeated number brings the program down
    when it is opened (`C59_number_left_out_refuted`).
28. The time of the last change is set only in an element named `dcterms:modified` that is already there under `cp:coreProperties`; other prefixes
    for the same namespaces, or its absence, leave the properties without it (`C60_no_time_refuted`, `C60_prefix_refuted`).
29. Deleting a sheet whose target is relative to the workbook, as other programs write it, leaves its relationship and its part in the file (`C61_deleted_refuted`).
    Asking for a sheet whose part is not XML fails, and the file saved afterwards lists the sheet without its part (`C61_unreadable_refuted`).
30. Opening and saving a file empties every shared text in formatted runs, drops pronunciations and blanks at the ends of texts, and after an item without
    content gives all texts other numbers, so that cells show other texts (`C62_runs_refuted`, `C62_phonetic_refuted`, `C62_blanks_refuted`, `C62_shift_refuted`,
    `C62_order_refuted`).
31. A file without calculation chain (any workbook without formulas) can be opened and saved, the save reports success, and the saved file cannot be opened: the
    part of the empty chain is written as one self-closed element although its relationship is deleted, and the reader refuses such an element
    (`C63_chainless_refuted`, for all such files; for new workbooks this is C34).
32. Some files open and can never be saved: one in which a relationship passes `[Content_Types].xml` off as a part of the workbook (`C64_types_refuted`, if two
    entries of one name are an error of the zip writer, as the model has it), and one whose style part is empty (`C64_empty_refuted`).
33. A file can end the program. A sheet part that lies at the root of the package (`Target="/sheet1.xml"`) makes asking for that sheet panic, since the name of
    its relationships part is cut at the last slash and the result unwrapped (`C65_release_opened`, an equivalence). A workbook part at the root makes opening
    panic for the same reason (`C65_open_refuted`), and an empty `docProps/core.xml` makes saving panic (`C65_save_refuted`).
34. In debug builds column 0, columns beyond 65535 and references such as `ZZZZ3` end the program (`C65_debug`); in release builds they are taken and wrap around
    (`C65_release_new`).
35. Adding a sheet can fail after a deletion: with two sheets added and in use, deleting the first and adding a third one picks the number of the second. The
    call reports an error, the workbook lists the sheet all the same, and no call can get hold of it (`C66_unlisted_refuted`, `C66_listed`).
    Putting a cell in column 0 is accepted in release builds, and the sheet can then never be finished (`C66_example`).
36. No part ever leaves a workbook: the part of a deleted sheet and the part of its relationships stay in the saved file although no relationship leads to them,
    and every file has a calculation chain that nothing leads to (`C67_parts`, `C67_reached_refuted`, `C67_chain_unreached`).
37. Two runs of the same program do not write the same bytes: the entries of the zip file, the content types and the attributes of a tag come in the order of
    hash tables, and release builds put the time into every part (`C68_bytes_refuted`). What does stay the same is proved in `C68_new`.
38. The namespace a part gets can depend on the order of a hash table: attributes named `xmlns` and `xmlnsx` on one tag both count as the default namespace, and
    the last one visited wins (`C68_read_refuted`); `C68_read` says when this cannot happen.
39. A call for a new sheet that fails leaves the sheet in the list (`C69_opening_refuted`); a sheet that could not be stored, say because of a cell in column 0,
    takes its handle with it, so that nothing can be put right (`C69_storing_refuted`). All other calls that fail change nothing (`C69_unchanged`).
40. The numbers of shared texts depend on the order in which the sheets are filled (`C70_texts_refuted`); that order has no other effect (`C70_mixed`).
41. A sheet that is taken from a file and released unchanged can add a part to it: the relationships it does not have (`C71_untouched_refuted`).
42. A sheet without relationships can be had once: `relations.rs` leaves the part of the relationships open when there are none, so a second call for the sheet fails;
    saved, the part cannot be read, so in the next session the first call for the sheet fails too (`C72_refused`). That call takes the part away, and in the session
    after it the sheet can be had again (`C72_example`).
43. A sheet of a file that is got and still held at the save is saved without its cells, columns and views (`C73_held`): they are taken out of the part when it is
    loaded and put back when the handle is released. A handle does not borrow the workbook, so nothing makes a program release it before `save_as`. If
    the sheet had nothing else, it is refused in the next session (`C73_refused`), and that call takes its part out of the file (`C73_example`).
44. The C interface hands out sheets but has no call that releases one, so a C program destroys the cells of every sheet it gets (`C74_cells`).
45. A call that asks for a sheet and fails because the sheet cannot be loaded (a cell without a reference is enough, see `C58_cell_refuted`) leaves the part
    open and without the elements already taken out, so that the next save drops the cells of a sheet nobody was handed (`C75_damaged`, `C75_cells`).
46. One cell in column 0 makes every later save drop all cells of the sheet, also those the file had (`C76_lost`, `C76_exact`); no later call repairs that, and giving the sheet
    back reports nothing (`C76_silent`).
47. No session drops an element of an opened sheet that the library does not take apart (`C77_kept`, `C77_files`); deleting a sheet writes its part back, so a deleted sheet
    keeps all of this in the file too.
48. Pictures, charts, macros and sheets not asked for keep their bytes through any number of files (`C78_files`, `C78_rounds`), also if calls fail; `C48_bytes` had left
    open what happens after a call that failed.
49. The declared content types of such parts stay (`C79_by_name`, `C79_by_extension`), with two exceptions. Extensions are compared letter by letter: a picture `image1.PNG` under
    a declaration for `png` is recorded without type, and if no other part is called `.png` the declaration is not written (`C79_unused`); the standard compares extensions without regard to case.
    And where a file declares another type for `xml` than `application/xml`, adding a sheet leaves two declarations for `xml` in the saved file (`C79_own_refuted`).

## 6. Mutation testing

`seeded/LOG.jsonl` has one line per wrong program: which definition of the model was changed and how, which claim that breaks,
which theorems no longer prove, and which theorems were added or tightened when none failed.

How a line is obtained: in a scratch copy the edit is made, the build is repeated with every proof that no longer goes through
replaced by `Admitted` (in the scratch copy only), and `Print Assumptions` then tells which claim theorems of the files in `scope`
rest on such a proof. `broken_lemmas` are the proofs that stopped; `theorems_failed` are the claim theorems resting on them.
So `theorems_failed` is an upper bound: it says the theorem is no longer proved by its script, not that its statement became
false (`rel1` is a harmless edit and lists three). What the method does settle is the other direction: a theorem that is not listed
still proves under the edit, and where that happened for the claim the edit breaks, the claim was tightened.
