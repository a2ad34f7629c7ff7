{
 "claims": [
  {
   "property": "C01",
   "status": "proved",
   "theorems": [
    "C01_cell_names",
    "C01_two_dots_rejected",
    "C01_case_and_space",
    "C01_normalize",
    "C01_normalize_idempotent",
    "C01_new_terms"
   ],
   "note": ""
  },
  {
   "property": "C02",
   "status": "proved",
   "theorems": [
    "C02_term_is",
    "C02_term_is_list",
    "C02_two_dots",
    "C02_names_dot_free",
    "C02_untidy_pattern_refuted"
   ],
   "note": "Patterns without white space around their parts (tidy_pattern); C02_untidy_pattern_refuted shows why."
  },
  {
   "property": "C03",
   "status": "proved",
   "theorems": [
    "C03_rows",
    "C03_alone",
    "C03_synonym_refuted"
   ],
   "note": "All documents, positions and environments; a comment put above a Section row on the first line of a file is covered where nothing is included or declared. In the remaining case (a synonym declared for Section) it is false: C03_synonym_refuted."
  },
  {
   "property": "C04",
   "status": "proved",
   "theorems": [
    "C04_cells"
   ],
   "note": "Documents of usual rows (SpecParse.usual). Include/Declare rows are outside this theorem."
  },
  {
   "property": "C05",
   "status": "proved",
   "theorems": [
    "C05_accepted",
    "C05_missing",
    "C05_parent",
    "C05_root",
    "C05_elided_refuted"
   ],
   "note": "Usual rows. C05_accepted/C05_missing: exactly the files whose rows name known parents are accepted. C05_elided_refuted: a row with an elided parent is not remembered as a parent."
  },
  {
   "property": "C06",
   "status": "partial",
   "theorems": [
    "C06_elided_partial",
    "C06_declared_refuted"
   ],
   "note": "False as stated: an elided row never gets declared meta data (C06_declared_refuted). Proved: same parent, name and value always, same meta data for undeclared names."
  },
  {
   "property": "C07",
   "status": "partial",
   "theorems": [
    "C07_own_partial",
    "C07_elided_refuted"
   ],
   "note": "False as stated: cells of a row with an elided name become children of the parent (C07_elided_refuted). Proved for all other rows."
  },
  {
   "property": "C08",
   "status": "partial",
   "theorems": [
    "C08_forest_partial",
    "C08_linked",
    "C08_cycle_refuted"
   ],
   "note": "False as stated: a row 'A.A' becomes its own parent (C08_cycle_refuted). Proved for files without such rows; C08_linked holds for all."
  },
  {
   "property": "C09",
   "status": "proved",
   "theorems": [
    "C09_sections"
   ],
   "note": "Usual rows."
  },
  {
   "property": "C10",
   "status": "proved",
   "theorems": [
    "C10_names"
   ],
   "note": "Parsing part, usual rows."
  },
  {
   "property": "C11",
   "status": "partial",
   "theorems": [
    "C11_document_partial",
    "C11_after_partial",
    "C11_refuted"
   ],
   "note": "Proved for all documents without Declare rows or rows named by a number, and for the rows after any first part of a document (Declare rows included) that left a state without synonyms. Refuted as stated: an empty cell on a Section row that has no cells of its own overrides the declared columns, and an empty cell on a Header row without columns overrides the section's columns."
  },
  {
   "property": "C12",
   "status": "partial",
   "theorems": [
    "C12_back_partial",
    "C12_refuted"
   ],
   "note": "The section is always back in force; columns and value name for a section other than Root without Header row. Refuted for headered sections (the Header's columns are forgotten) and for Root (the columns of the included file stay in force). Also: the parent for elided rows becomes Root, where an ordinary row would become the parent."
  },
  {
   "property": "C13",
   "status": "proved",
   "theorems": [
    "C13_self_row",
    "C13_self_load",
    "C13_local_row",
    "C13_nested_local",
    "C13_circle",
    "C13_settles",
    "C13_more"
   ],
   "note": "A bound on the nesting of files stands for Python's recursion limit; C13_settles and C13_more say the result does not depend on it."
  },
  {
   "property": "C14",
   "status": "proved",
   "theorems": [
    "C14_columns",
    "C14_no_term",
    "C14_root_heading_refuted"
   ],
   "note": "Usual rows. C14_root_heading_refuted: a heading naming the root section does not end the reach of the Header."
  },
  {
   "property": "C15",
   "status": "proved",
   "theorems": [
    "C15_rename",
    "C15_sign_refuted"
   ],
   "note": "Names with a sign or underscore that int() accepts are renamed as well: C15_sign_refuted."
  },
  {
   "property": "C16",
   "status": "proved",
   "theorems": [
    "C16_meta",
    "C16_elided_refuted"
   ],
   "note": "Any parser state and declaration set, terms with an explicit name; C16_elided_refuted: an elided name gets no declared meta data. For root-level terms the document's own declarations must not disagree."
  },
  {
   "property": "C17",
   "status": "proved",
   "theorems": [
    "C17_children",
    "C17_keys",
    "C17_ends"
   ],
   "note": ""
  },
  {
   "property": "C18",
   "status": "partial",
   "theorems": [
    "C18_refuted",
    "C18_record_partial"
   ],
   "note": "False of the code: C18_refuted shows that no parse records values for a ValueSetName without a dot. C18_record_partial says what the recording step does."
  },
  {
   "property": "C19",
   "status": "partial",
   "theorems": [
    "C19_kept_partial",
    "C19_refuted",
    "C19_rows_after_refuted"
   ],
   "note": "C19_kept_partial: reading a declaration document loses, moves and reorders nothing. C19_refuted: its rows do become terms that find returns, and with a column named Section its sections join the document. C19_rows_after_refuted: its columns and its last record stay in force for the rows after the Declare. The full property is false of the code."
  },
  {
   "property": "C20",
   "status": "proved",
   "theorems": [
    "C20_accepted",
    "C20_effect",
    "C20_found",
    "C20_others",
    "C20_other_parent_refuted"
   ],
   "note": "C20_effect gives the whole new state, C20_found and C20_others the searches. C20_other_parent_refuted: with another parent in the name the term enters the document list only."
  },
  {
   "property": "C21",
   "status": "proved",
   "theorems": [
    "C21_removed",
    "C21_value_refuted"
   ],
   "note": "For documents in good order. C21_value_refuted: a term whose value is called 'section' loses its value."
  },
  {
   "property": "C22",
   "status": "partial",
   "theorems": [
    "C22_agree_partial",
    "C22_order",
    "C22_start",
    "C22_refuted",
    "C22_declared_refuted",
    "C22_parsed",
    "C22_parsed_agree_partial",
    "C22_parsed_self_refuted"
   ],
   "note": "Any sequence of the operations of SpecEdit.edit keeps the lists in agreement, from an empty document or from one read from a file of usual rows. Missing, because false: new_section over an existing section (C22_refuted), capitalised names in get_or_new_section and del (C23_refuted, C24_refuted), names with outer white space, files with a row that names itself as its parent (C22_parsed_self_refuted), files with Declare rows (C22_declared_refuted)."
  },
  {
   "property": "C23",
   "status": "partial",
   "theorems": [
    "C23_existing_partial",
    "C23_new",
    "C23_refuted"
   ],
   "note": "Holds for names in lower case and for new names; C23_refuted: an existing section asked for with a capital in the name is always replaced by an empty one."
  },
  {
   "property": "C24",
   "status": "partial",
   "theorems": [
    "C24_deleted_partial",
    "C24_refuted"
   ],
   "note": "Holds for names in lower case; C24_refuted: with a capital in the name all terms always stay in the document list."
  },
  {
   "property": "C25",
   "status": "partial",
   "theorems": [
    "C25_absent_partial",
    "C25_same_partial",
    "C25_refuted"
   ],
   "note": "Holds when there is no term of the name or the first one already has the value; C25_refuted: in all other cases the first term keeps its old value."
  },
  {
   "property": "C26",
   "status": "proved",
   "theorems": [
    "C26_own",
    "C26_existing",
    "C26_new",
    "C26_removed",
    "C26_absent",
    "C26_untrimmed_refuted"
   ],
   "note": "C26_own, C26_existing, C26_new, C26_removed, C26_absent are the cases. C26_untrimmed_refuted: a new child with an untrimmed value ends in AssertionError."
  },
  {
   "property": "C27",
   "status": "proved",
   "theorems": [
    "C27_find",
    "C27_find_first",
    "C27_root_refuted"
   ],
   "note": "C27_root_refuted: a term called Root is never found."
  },
  {
   "property": "C28",
   "status": "partial",
   "theorems": [
    "C28_find_partial",
    "C28_names",
    "C28_refuted"
   ],
   "note": "Holds for a single name with its parent written out (C28_find_partial, C28_names). C28_refuted: not for a list, nor for the short name."
  },
  {
   "property": "C29",
   "status": "proved",
   "theorems": [
    "C29_sort_sections"
   ],
   "note": "Hypothesis: the section table has distinct keys, as every Python dict."
  },
  {
   "property": "C30",
   "status": "proved",
   "theorems": [
    "C30_sort_by_term",
    "C30_same_terms"
   ],
   "note": ""
  },
  {
   "property": "C31",
   "status": "proved",
   "theorems": [
    "C31_add_new",
    "C31_add_existing",
    "C31_added_name",
    "C31_remove",
    "C31_no_duplicates",
    "C31_sharp_s_refuted"
   ],
   "note": "Column names other than those with U+00DF; C31_sharp_s_refuted shows the exception."
  },
  {
   "property": "C32",
   "status": "proved",
   "theorems": [
    "C32_class_of_name",
    "C32_registered",
    "C32_derived",
    "C32_others_unaffected",
    "C32_unregister_undoes"
   ],
   "note": ""
  },
  {
   "property": "C33",
   "status": "proved",
   "theorems": [
    "C33_term",
    "C33_term_total",
    "C33_doc",
    "C33_doc_total",
    "C33_joining_refuted"
   ],
   "note": "as_dict of terms and documents satisfies the inductive specification dict_rep/doc_rep for all trees whose equally named siblings have one property type; it always succeeds unless texts are to be joined (joining a child that is not a text raises: C33_joining_refuted)"
  },
  {
   "property": "C34",
   "status": "partial",
   "theorems": [
    "C34_term_partial",
    "C34_doc_partial",
    "C34_refuted",
    "C34_value_refuted"
   ],
   "note": "proved for trees without scalar or joined children and without a child called like the value of its parent; false in those cases (C34_refuted, C34_value_refuted)"
  },
  {
   "property": "C35",
   "status": "proved",
   "theorems": [
    "C35_document",
    "C35_again",
    "C35_csv",
    "C35_empty_refuted",
    "C35_root_refuted",
    "C35_twice_refuted"
   ],
   "note": "For documents meeting the conditions in the statement (SpecRound.writable_doc). The _refuted theorems are witnesses that the conditions are needed: an empty child with a column, a name ending in root, and one of two equally named childless children are lost."
  },
  {
   "property": "C36",
   "status": "partial",
   "theorems": [
    "C36_complete_partial",
    "C36_sections",
    "C36_sound_partial",
    "C36_total",
    "C36_refuted"
   ],
   "note": "every term has a row, or is a leaf with its own row or a cell in the row of its parent, and every row has such a reason, when leaves under one term have different names, none that of the value; with equal names all but the last are lost (C36_refuted)"
  },
  {
   "property": "C37",
   "status": "partial",
   "theorems": [
    "C37_lines_partial",
    "C37_section_partial",
    "C37_plain_text",
    "C37_lines_refuted"
   ],
   "note": "False as stated: a pipe in a value is read back as a cell boundary (C37_lines_refuted). Proved when the value texts stand for their cells with pipes escaped and names can stand before a colon."
  },
  {
   "property": "C38",
   "status": "proved",
   "theorems": [
    "C38_line_cells",
    "C38_split_pipe",
    "C38_comment",
    "C38_text"
   ],
   "note": "Lines ended by LF or CR LF."
  },
  {
   "property": "C39",
   "status": "proved",
   "theorems": [
    "C39_roundtrip",
    "C39_as_csv"
   ],
   "note": "The csv module is modelled from CPython's _csv.c (excel dialect); as_csv and a csv reader."
  },
  {
   "property": "C40",
   "status": "partial",
   "theorems": [
    "C40_extension",
    "C40_content_partial",
    "C40_second_partial",
    "C40_refuted"
   ],
   "note": "The file holds the document as it was before cleanse (C40_content_partial), so the property fails for documents that are not cleansed yet (C40_refuted); a second write holds the current document (C40_second_partial). A wrong extension raises and changes nothing (C40_extension)."
  },
  {
   "property": "C41",
   "status": "partial",
   "theorems": [
    "C41_keep_partial",
    "C41_without_partial",
    "C41_text_partial",
    "C41_step_partial",
    "C41_parts_partial",
    "C41_refuted"
   ],
   "note": "The names returned are right, but the version given is stored in the document, so calls with +n accumulate (C41_refuted, for every document with a plain integer version). Unchanged for False and None when the version is up to date."
  },
  {
   "property": "C42",
   "status": "proved",
   "theorems": [
    "C42_parts",
    "C42_plain",
    "C42_none"
   ],
   "note": "a Build without value gives '.None' (C42_empty_build)"
  },
  {
   "property": "C43",
   "status": "proved",
   "theorems": [
    "C43_safe",
    "C43_no_double_dash",
    "C43_insensitive",
    "C43_idempotent",
    "C43_words"
   ],
   "note": "On Latin-1 text; unicode normalisation is a table generated from CPython."
  },
  {
   "property": "C44",
   "status": "proved",
   "theorems": [
    "C44_name",
    "C44_split",
    "C44_again",
    "C44_accent_refuted"
   ],
   "note": "C44_accent_refuted: a lone accent acts as white space in slugs, so it is excluded in C44_split."
  },
  {
   "property": "C45",
   "status": "proved",
   "theorems": [
    "C45_identifier"
   ],
   "note": "uuid4() is an argument of the model; documents in good order as the interface keeps them (C22)"
  },
  {
   "property": "C46",
   "status": "proved",
   "theorems": [
    "C46_in_order",
    "C46_leaves",
    "C46_reached",
    "C46_once",
    "C46_empty_key_refuted"
   ],
   "note": "Keys are non-empty strings; C46_empty_key_refuted shows the exception. Uniqueness needs dot-free keys."
  },
  {
   "property": "C47",
   "status": "proved",
   "theorems": [
    "C47_resources",
    "C47_name",
    "C47_total",
    "C47_schema",
    "C47_single_column_refuted",
    "C47_identifier_refuted"
   ],
   "note": "C47_resources: whenever the conversion returns, the resources are exactly those of the data files with a table (by name, else by the table property), in order, with the fields of that table; the other keys are those of the root and identity sections. C47_total: it returns when every table has at least two columns with properties and every data file a name and a url. C47_name, C47_schema: ConversionError without a name or schema section. Exceptions: C47_single_column_refuted (a table with one column gives an AttributeError), C47_identifier_refuted (the misspelt key 'indentifier')."
  },
  {
   "property": "C48",
   "status": "proved",
   "theorems": [
    "C48_emitted",
    "C48_total",
    "C48_scalar_item_refuted",
    "C48_stray",
    "C48_error"
   ],
   "note": "Keys without dots; list items are dicts (C48_scalar_item_refuted, C48_stray: otherwise TypeError; C48_error: no other error)."
  },
  {
   "property": "C49",
   "status": "proved",
   "theorems": [
    "C49_known",
    "C49_default",
    "C49_target",
    "C49_suffix_refuted"
   ],
   "note": "Path part of the URL; guard: a file name other than metadata.csv does not end in metadata.csv (C49_suffix_refuted)."
  },
  {
   "property": "C50",
   "status": "proved",
   "theorems": [
    "C50_clean",
    "C50_duplicate_refuted",
    "C50_below_refuted"
   ],
   "note": "C50_clean. Exceptions: C50_duplicate_refuted (a property given twice counts as unused when the last one is blank), C50_below_refuted (terms below a blank property go with it). Python iterates over a set when adding columns; the model takes them in order of first occurrence."
  },
  {
   "property": "C51",
   "status": "proved",
   "theorems": [
    "C51_all_terms",
    "C51_all_terms_declared"
   ],
   "note": "all documents in good order (doc_ok), which the operations keep up (C22_order)"
  },
  {
   "property": "C52",
   "status": "partial",
   "theorems": [
    "C52_lookup_partial",
    "C52_row_partial",
    "C52_refuted"
   ],
   "note": "C52_lookup_partial, C52_row_partial: which declarations a document has when opened with decl= or with Declare rows. C52_refuted: with decl= derived terms are not found and declared terms are not valid."
  },
  {
   "property": "C53",
   "status": "partial",
   "theorems": [
    "C53_listed_partial",
    "C53_refuted"
   ],
   "note": "The term is listed in the new section; C53_refuted: it always stays in every section it was in."
  },
  {
   "property": "C54",
   "status": "partial",
   "theorems": [
    "C54_absent_partial",
    "C54_refuted"
   ],
   "note": "Holds when there is nothing to delete; C54_refuted: otherwise it always raises AttributeError and removes nothing."
  },
  {
   "property": "C55",
   "status": "proved",
   "theorems": [
    "C55_read",
    "C55_write_value",
    "C55_write_old",
    "C55_write_new",
    "C55_write_other",
    "C55_shadow_refuted",
    "C55_value_refuted"
   ],
   "note": "Consequences users may not expect are proved too: an attribute stored in the object hides a child of that name made later (C55_shadow_refuted), and Value can be assigned but not read (C55_value_refuted)."
  },
  {
   "property": "C56",
   "status": "proved",
   "theorems": [
    "C56_set_terms",
    "C56_succeeds",
    "C56_two_refuted",
    "C56_set_refuted"
   ],
   "note": "Deviations from the docstring: a two-character text raises TypeError (C56_two_refuted); existing terms are not set, duplicates are added (C56_set_refuted)."
  },
  {
   "property": "C57",
   "status": "proved",
   "theorems": [
    "C57_props",
    "C57_arg_props",
    "C57_all_props",
    "C57_missing_refuted"
   ],
   "note": "Deviation from the docstring: no entry for a column without a cell (C57_missing_refuted)."
  },
  {
   "property": "C58",
   "status": "partial",
   "theorems": [
    "C58_common_partial",
    "C58_fails_refuted"
   ],
   "note": "Only value and the common properties give True; every other name raises AttributeError, as there is no attribute properties (C58_fails_refuted)."
  },
  {
   "property": "C59",
   "status": "proved",
   "theorems": [
    "C59_find",
    "C59_first",
    "C59_get"
   ],
   "note": "The terms found without properties are the subject of C27 and C28."
  },
  {
   "property": "C60",
   "status": "proved",
   "theorems": [
    "C60_get",
    "C60_missing",
    "C60_agree",
    "C60_several",
    "C60_once"
   ],
   "note": ""
  },
  {
   "property": "C61",
   "status": "proved",
   "theorems": [
    "C61_calm",
    "C61_quiet",
    "C61_cells",
    "C61_parent",
    "C61_meta",
    "C61_sections",
    "C61_names",
    "C61_header",
    "C61_accepted",
    "C61_missing"
   ],
   "note": "C61_calm and C61_quiet: any head leaves good order if its rows and the files it names are quiet (SpecCalm.v: no numeric names, a column named Section only in sections named by the theorem, synonym columns empty). C61_accepted and C61_missing: if none of the columns in force after the head is named Section. For other heads good order is decided by computation (calm_by)."
  },
  {
   "property": "C62",
   "status": "proved",
   "theorems": [
    "C62_made",
    "C62_in_the_way",
    "C62_again",
    "C62_ensure",
    "C62_ensure_in_the_way",
    "C62_ensure_refuted"
   ],
   "note": "ensure_dir leaves a file of that name and returns (C62_ensure_refuted)."
  },
  {
   "property": "C63",
   "status": "proved",
   "theorems": [
    "C63_up",
    "C63_not_a_directory"
   ],
   "note": ""
  },
  {
   "property": "C64",
   "status": "partial",
   "theorems": [
    "C64_copied_partial",
    "C64_merge_refuted",
    "C64_into_refuted",
    "C64_self"
   ],
   "note": "Proved when no directory of the source has a name that is in the target and no file the name of a directory there (C64_copied_partial). Merging always fails (C64_merge_refuted); a file whose name is a directory of the target goes into it (C64_into_refuted)."
  },
  {
   "property": "C65",
   "status": "proved",
   "theorems": [
    "C65_there",
    "C65_created",
    "C65_nothing_else",
    "C65_fragment_refuted"
   ],
   "note": "The name is checked as a path but written to as a URL: with '#fragment' an existing file is overwritten, given that the URL parser of rowgenerators drops the fragment (C65_fragment_refuted)."
  },
  {
   "property": "C66",
   "status": "proved",
   "theorems": [
    "C66_untouched",
    "C66_untouched_formats"
   ],
   "note": ""
  },
  {
   "property": "C67",
   "status": "proved",
   "theorems": [
    "C67_written",
    "C67_nothing_else"
   ],
   "note": ""
  },
  {
   "property": "C68",
   "status": "partial",
   "theorems": [
    "C68_fragment",
    "C68_file",
    "C68_printed",
    "C68_remote_refuted",
    "C68_unopened",
    "C68_find",
    "C68_find_refuted",
    "C68_declaration_refuted"
   ],
   "note": "Printing, failing to open and -f proved. A document that is not a local file ends in exit code 1 even without -W (C68_remote_refuted); -f without such a term ends in AttributeError (C68_find_refuted); -d prints nothing in the default format (C68_declaration_refuted)."
  },
  {
   "property": "C69",
   "status": "partial",
   "theorems": [
    "C69_found",
    "C69_missing_partial",
    "C69_missing_refuted"
   ],
   "note": "The message is proved when every table has a str value (C69_missing_partial); a table without a value makes it a TypeError (C69_missing_refuted)."
  },
  {
   "property": "C70",
   "status": "proved",
   "theorems": [
    "C70_order",
    "C70_edits_agree",
    "C70_plain"
   ],
   "note": "Whether the head leaves good order is decided by computation (ready_by)."
  },
  {
   "property": "C71",
   "status": "partial",
   "theorems": [
    "C71_document_partial",
    "C71_agree_partial",
    "C71_undeclared",
    "C71_declare",
    "C71_stray",
    "C71_listed",
    "C71_none",
    "C71_rows",
    "C71_list_refuted",
    "C71_dict_refuted",
    "C71_missing_refuted",
    "C71_nested_refuted"
   ],
   "note": "Proved for nodes that have a value and no node of their own qualified name below them. False of the code otherwise: a dict outside a list makes no term and its entries raise KeyError (C71_dict_refuted); the entries of a list item without the value of its term go to the term of the item before (C71_missing_refuted); below a node of the same qualified name later entries go to that node (C71_nested_refuted). A list of declarations, which MetatabDoc accepts, always ends in an error (C71_listed, C71_list_refuted)."
  },
  {
   "property": "C72",
   "status": "proved",
   "theorems": [
    "C72_declare",
    "C72_declare_nothing",
    "C72_include",
    "C72_include_nothing",
    "C72_declare_rows",
    "C72_include_rows",
    "C72_absolute_refuted",
    "C72_order_refuted"
   ],
   "note": "Two deviations from the docstrings: an Include of an absolute path is read from the directory of the file (C72_absolute_refuted), and the package of declarations comes before the directory of the file (C72_order_refuted)."
  },
  {
   "property": "C73",
   "status": "proved",
   "theorems": [
    "C73_text",
    "C73_row",
    "C73_old",
    "C73_document",
    "C73_once",
    "C73_columns_refuted",
    "C73_section_column_refuted"
   ],
   "note": "For every parse, not only usual rows. C73_columns_refuted shows that the exception for columns of sections is needed: a synonym of Section turns declared columns, which are not in the row, into terms. C73_section_column_refuted: the col of a section is the number of its row (col=row in SectionTerm.__init__), so sections are excepted where columns are compared. The file_name of a term is not modelled; the file type tells the file itself from others."
  },
  {
   "property": "C74",
   "status": "proved",
   "theorems": [
    "C74_table",
    "C74_declared",
    "C74_file",
    "C74_find",
    "C74_shown",
    "C74_parent_refuted",
    "C74_chain_refuted",
    "C74_section_refuted",
    "C74_include_refuted",
    "C74_class_refuted"
   ],
   "note": "C74_table and C74_declared: which names stand for which; C74_file: the two files; C74_find, C74_shown: searches, dictionary, rows and lines. Limits: names of parents are not replaced (C74_parent_refuted), synonyms of synonyms are replaced once (C74_chain_refuted), synonyms of Section and Include do not act as these (C74_section_refuted, C74_include_refuted), the class is that of the synonym (C74_class_refuted)."
  },
  {
   "property": "C75",
   "status": "proved",
   "theorems": [
    "C75_clean",
    "C75_section",
    "C75_child",
    "C75_no_child"
   ],
   "note": "C75_clean: the terms of the section, of whatever number, are out and all else is as before. C75_section, C75_child, C75_no_child."
  },
  {
   "property": "C76",
   "status": "proved",
   "theorems": [
    "C76_find",
    "C76_first",
    "C76_other",
    "C76_dots",
    "C76_getitem",
    "C76_get",
    "C76_get_value",
    "C76_first_value",
    "C76_set",
    "C76_value_refuted"
   ],
   "note": "C76_value_refuted: 'value' as an item names the value when it is set but not when it is read, if the value of the term is named otherwise; C76_set excludes this."
  },
  {
   "property": "C77",
   "status": "proved",
   "theorems": [
    "C77_outline",
    "C77_read",
    "C77_only",
    "C77_recorded",
    "C77_added",
    "C77_after"
   ],
   "note": "Rows after first rows that hang below terms of the first rows are not covered by C77_added and C77_after (hypothesis among_themselves)."
  },
  {
   "property": "C78",
   "status": "proved",
   "theorems": [
    "C78_dict",
    "C78_find",
    "C78_find_below",
    "C78_csv",
    "C78_term"
   ],
   "note": "Searches for terms of the top level that a declared term inherits from (C28) and searches with a section for terms below others (C27) are not restated in terms of rows."
  },
  {
   "property": "C79",
   "status": "partial",
   "theorems": [
    "C79_dir_absolute",
    "C79_dir_relative",
    "C79_one_way",
    "C79_one_root",
    "C79_dir_none",
    "C79_mtime_file",
    "C79_mtime_missing",
    "C79_mtime_other",
    "C79_mtime_new",
    "C79_mtime_refuted",
    "C79_path_refuted"
   ],
   "note": "Directory and time proved. Two parts are false of the code: a document made from a row generator has no time (AttributeError), and path is None for all documents."
  },
  {
   "property": "C80",
   "status": "proved",
   "theorems": [
    "C80_md5",
    "C80_md5_none",
    "C80_import",
    "C80_import_plain"
   ],
   "note": "MD5 itself is an argument of the model; hashing in parts is taken to be hashing at once."
  },
  {
   "property": "C81",
   "status": "proved",
   "theorems": [
    "C81_file",
    "C81_shows",
    "C81_no_row",
    "C81_unique",
    "C81_once",
    "C81_once_refuted"
   ],
   "note": "Terms of an included file of the same name can show the same text (C81_once_refuted), so the claim is for one file."
  },
  {
   "property": "C82",
   "status": "proved",
   "theorems": [
    "C82_outline",
    "C82_same",
    "C82_read"
   ],
   "note": "The outline of a spread file is that of the file; C82_top shows why rows \".Name\" at the top of a section are left out."
  },
  {
   "property": "C83",
   "status": "proved",
   "theorems": [
    "C83_lines",
    "C83_file"
   ],
   "note": "The condition on values is needed: as_lines does not escape pipes (C83_pipe, C37_lines_refuted). The condition on a column \"Header\" is only for the reading relation used (a line \"Header\" after \".\" is not modelled as usual)."
  },
  {
   "property": "C84",
   "status": "partial",
   "theorems": [
    "C84_same",
    "C84_report_partial",
    "C84_fine",
    "C84_other",
    "C84_apart",
    "C84_dict_partial",
    "C84_dict_refuted",
    "C84_term_refuted",
    "C84_names_refuted"
   ],
   "note": "The one error, its message with the cause at the first such row and one part per file (C84_report_partial), the converse (C84_fine, C84_apart), agreement with the parser of the other properties (C84_same) and the entry of errors_as_dict when a file could not be read (C84_dict_partial) are proved. False of the code: the term is None for a wrong row of the document itself and errors_as_dict then raises AttributeError (C84_dict_refuted); for a wrong row of an included file the term is the one last yielded, not that of the row (C84_term_refuted); included files are all called by the class of their row generator (C84_names_refuted)."
  },
  {
   "property": "C85",
   "status": "proved",
   "theorems": [
    "C85_same"
   ],
   "note": "An instrumented parser with the cache and the shared dicts is shown to do what the parser of the other properties does (simulation with an invariant: the cached dict is the current one; terms that share a dict have the same value set)."
  },
  {
   "property": "C86",
   "status": "partial",
   "theorems": [
    "C86_text",
    "C86_name_refuted",
    "C86_load_partial",
    "C86_path_refuted"
   ],
   "note": "The choice of the text is proved for all kinds of objects. Loading is proved for rows whose file names do not depend on the directory: the parser ignores the path of a row generator, so an Include of a neighbouring file fails (C86_path_refuted). A text that is the name of a file is read as that file, and a file opened as binary is a TypeError (C86_name_refuted)."
  },
  {
   "property": "C87",
   "status": "proved",
   "theorems": [
    "C87_read",
    "C87_command",
    "C87_wrong",
    "C87_bad",
    "C87_missing",
    "C87_usage",
    "C87_help"
   ],
   "note": "argparse is modelled as it is in Python 3.8 and 3.9, for the kinds of options that cli.py declares. A word after -C is its template, so 'metatab -C new.csv' creates metadata.csv (C87_create_ex). A letter with '=' follows argparse: -j=W is -jW, -j= raises IndexError (C87_equals_ex); these are outside the statement."
  },
  {
   "property": "C88",
   "status": "partial",
   "theorems": [
    "C88_stream",
    "C88_same_partial",
    "C88_command",
    "C88_bad_name",
    "C88_failed",
    "C88_columns_refuted"
   ],
   "note": "The listing is characterised for all files (C88_stream: it is the listing of a reader who starts with the columns the first reading ended with) and equals what the file says when every row with extra cells comes after a Section or Header row (C88_same_partial). False otherwise: _param_map is not reset at the start of an iteration, so cells before the first heading get the names of columns from the end of the file (C88_columns_refuted). Rows with Include or Declare are modelled in TermStream.v but not covered by the theorems. The rows are taken to be the same at both readings."
  },
  {
   "property": "C89",
   "status": "proved",
   "theorems": [
    "C89_files",
    "C89_read",
    "C89_one",
    "C89_added",
    "C89_recorded",
    "C89_again",
    "C89_reopen",
    "C89_accepted",
    "C89_apart"
   ],
   "note": "C89_files and C89_read: files from a new document on; C89_added, C89_recorded, C89_again: any document that a new parser finds calm (SpecHead.v), which C89_reopen gives after a first file with Declare and Include rows; C89_apart: rows below terms of earlier files are refused. The further files themselves have no Include or Declare rows."
  },
  {
   "property": "C90",
   "status": "proved",
   "theorems": [
    "C90_file",
    "C90_files",
    "C90_row",
    "C90_repeated_refuted"
   ],
   "note": "the declarations are the properties of the terms and the columns and terms of the sections; the values of value sets are C18's. Successful loads only: C17_stops_ex shows what stops one. Repeating a heading that has a column Section reuses the columns of the first (C90_repeated_refuted), so files that do are left out"
  },
  {
   "property": "C91",
   "status": "proved",
   "theorems": [
    "C91_opened",
    "C91_left_refuted"
   ],
   "note": "C91_left_refuted: a heading with a column Section in a declaration file stays as a section of the document (terms.py:373-375). The Header row that the declaration files leave in the root section stays there too, but does not name the cells of the rows of the document (C91_files_ex)."
  },
  {
   "property": "C92",
   "status": "proved",
   "theorems": [
    "C92_declaring",
    "C92_head",
    "C92_opened_refuted"
   ],
   "note": "C92_head gives the state before the rows after the Declare rows, so that what C61 proves of rows after others also covers rows that go below the last record of a declaration file, and the declarations of the document at the end. C92_opened_refuted: a Declare row is not the same as opening the file with the declaration file; the columns declared for a section do not count in the file that has the Declare row (doc.py:464-512 hands the declarations to the document after the last row). That the names of cells of the declaration file last until the first heading is part of the statement (C92_ex)."
  },
  {
   "property": "C93",
   "status": "proved",
   "theorems": [
    "C93_refused",
    "C93_accepted",
    "C93_settled",
    "C93_only_refuted"
   ],
   "note": "C93_only_refuted: outside the guard of C93_accepted a declaration file can also end in KeyError (a space after the dot of a listed name, parser.py:576) or AttributeError (a listed term declared again without a section, parser.py:597, 611)."
  }
 ]
}