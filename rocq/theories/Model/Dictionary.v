(** [rs/src/global/references]: the dictionaries of part kinds and of child orders. *)
From Verif.Model Require Export Base.

(** element_dictionary.rs 3-12 (the alias is not used by the code). *)
Record content := mkContent {
  c_namespace : string;
  c_type : string;
  c_content_type : string;
  c_ext : string;
  c_ext_type : string;
  c_path : string;
  c_name : string;
}.
Definition office_rel : string := "http://schemas.openxmlformats.org/officeDocument/2006/relationships/".
Definition main_ns : string := "http://schemas.openxmlformats.org/spreadsheetml/2006/main".
Definition sml_type : string := "application/vnd.openxmlformats-officedocument.spreadsheetml.".
(** element_dictionary.rs 15-24 *)
Definition c_types : content :=
  mkContent "http://schemas.openxmlformats.org/package/2006/content-types" "" "" "xml"
    "application/xml" "." "".
(** element_dictionary.rs 35-44 *)
Definition c_rels : content :=
  mkContent "http://schemas.openxmlformats.org/package/2006/relationships" ""
    "application/vnd.openxmlformats-package.relationships+xml" "rels"
    "application/vnd.openxmlformats-package.relationships+xml" "." "".
(** element_dictionary.rs 45-54 *)
Definition c_core : content :=
  mkContent "http://schemas.openxmlformats.org/package/2006/metadata/core-properties"
    "http://schemas.openxmlformats.org/package/2006/relationships/metadata/core-properties"
    "application/vnd.openxmlformats-package.core-properties+xml" "xml" "application/xml"
    "docProps" "core".
(** element_dictionary.rs 56-65 *)
Definition c_theme : content :=
  mkContent "http://schemas.openxmlformats.org/drawingml/2006/main" (office_rel +:+ "theme")
    "application/vnd.openxmlformats-officedocument.theme+xml" "xml" "application/xml"
    "theme" "theme1".
(** element_dictionary.rs 69-78 *)
Definition c_style : content :=
  mkContent main_ns (office_rel +:+ "styles") (sml_type +:+ "styles+xml") "xml" "application/xml"
    "xl" "styles".
(** element_dictionary.rs 79-88 *)
Definition c_share_string : content :=
  mkContent main_ns (office_rel +:+ "sharedStrings") (sml_type +:+ "sharedStrings+xml") "xml"
    "application/xml" "xl" "sharedStrings".
(** element_dictionary.rs 89-98 *)
Definition c_calc_chain : content :=
  mkContent main_ns (office_rel +:+ "calcChain") (sml_type +:+ "calcChain+xml") "xml"
    "application/xml" "xl" "calcChain".
(** element_dictionary.rs 99-108 *)
Definition c_workbook : content :=
  mkContent main_ns (office_rel +:+ "officeDocument") (sml_type +:+ "sheet.main+xml") "xml"
    "application/xml" "xl" "workbook".
(** element_dictionary.rs 119-128 *)
Definition c_worksheet : content :=
  mkContent main_ns (office_rel +:+ "worksheet") (sml_type +:+ "worksheet+xml") "xml"
    "application/xml" "worksheets" "sheet".

(** order_dictionary.rs 4-11 *)
Definition workbook_order : list string :=
  ["fileVersion"; "fileSharing"; "workbookPr"; "mc:AlternateContent"; "xr:revisionPtr";
   "workbookProtection"; "bookViews"; "sheets"; "functionGroups"; "externalReferences";
   "definedNames"; "calcPr"; "oleSize"; "customWorkbookViews"; "pivotCaches"; "smartTagPr";
   "smartTagTypes"; "webPublishing"; "fileRecoveryPr"; "webPublishObjects"; "extLst"].
(** order_dictionary.rs 12-25 *)
Definition worksheet_order : list string :=
  ["sheetPr"; "dimension"; "sheetViews"; "sheetFormatPr"; "cols"; "sheetData"; "sheetCalcPr";
   "protectedRanges"; "scenarios"; "autoFilter"; "sortState"; "dataConsolidate";
   "customSheetViews"; "mergeCells"; "phoneticPr"; "conditionalFormatting"; "dataValidations";
   "hyperlinks"; "printOptions"; "pageMargins"; "pageSetup"; "headerFooter"; "rowBreaks";
   "colBreaks"; "customProperties"; "cellWatches"; "ignoredErrors"; "smartTags"; "drawing";
   "drawingHF"; "picture"; "oleObjects"; "controls"; "webPublishItems"; "tableParts"; "extLst"].
