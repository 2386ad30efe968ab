{
 "claims": [
  {
   "property": "C01",
   "status": "proved",
   "theorems": [
    "C01_add_text"
   ],
   "note": "for every text and every paragraph whose String returns"
  },
  {
   "property": "C02",
   "status": "proved",
   "theorems": [
    "C02_add_text_structure"
   ],
   "note": ""
  },
  {
   "property": "C03",
   "status": "proved",
   "theorems": [
    "C03_ids_unique"
   ],
   "note": "also for documents made by LoadBodyItems, and for any calls on any documents; bound: fewer than 2^63 relationships"
  },
  {
   "property": "C04",
   "status": "proved",
   "theorems": [
    "C04_link_keeps"
   ],
   "note": "also for documents made by LoadBodyItems"
  },
  {
   "property": "C05",
   "status": "proved",
   "theorems": [
    "C05_picture_keeps"
   ],
   "note": ""
  },
  {
   "property": "C06",
   "status": "proved",
   "theorems": [
    "C06_parsed_ids",
    "C06_parsed_link",
    "C06_overflow"
   ],
   "note": "for every history after Parse, not only AddLink"
  },
  {
   "property": "C07",
   "status": "partial",
   "theorems": [
    "C07_parsed_media_partial",
    "C07_parsed_picture_partial",
    "C07_exactly",
    "C07_refuted"
   ],
   "note": "false for the code: Parse sets the picture counter to 100000, so image100001.png of the package is overwritten (C07_refuted); true when no media is named like a picture with a number above 100000. C07_exactly: in general exactly the media files named like the pictures added are overwritten"
  },
  {
   "property": "C08",
   "status": "proved",
   "theorems": [
    "C08_rejected_picture",
    "C08_error_is_rejection"
   ],
   "note": "the size decoder is an arbitrary function"
  },
  {
   "property": "C09",
   "status": "proved",
   "theorems": [
    "C09_size",
    "C09_zero_width",
    "C09_float_test"
   ],
   "note": "Exact extent for every width and height below 2^40, in the frame and in the shape; the float64 comparison is computed with Coq's SpecFloat (binary64, round to nearest even)."
  },
  {
   "property": "C10",
   "status": "proved",
   "theorems": [
    "C10_any_schedule",
    "C10_can_finish"
   ],
   "note": "any number of goroutines calling IncreaseID, every interleaving of the lock, read, write and unlock steps; the mutex is assumed to exclude"
  },
  {
   "property": "C11",
   "status": "proved",
   "theorems": [
    "C11_drawing_ids"
   ],
   "note": ""
  },
  {
   "property": "C12",
   "status": "proved",
   "theorems": [
    "C12_table",
    "C12_counts",
    "C12_table_twips"
   ],
   "note": ""
  },
  {
   "property": "C13",
   "status": "proved",
   "theorems": [
    "C13_table_colors",
    "C13_twips_colors"
   ],
   "note": ""
  },
  {
   "property": "C14",
   "status": "proved",
   "theorems": [
    "C14_table_string"
   ],
   "note": ""
  },
  {
   "property": "C15",
   "status": "proved",
   "theorems": [
    "C15_keep",
    "C15_keep_twice"
   ],
   "note": "the case of equal names gives idempotence"
  },
  {
   "property": "C16",
   "status": "proved",
   "theorems": [
    "C16_drop_exact",
    "C16_drop_combined"
   ],
   "note": ""
  },
  {
   "property": "C17",
   "status": "proved",
   "theorems": [
    "C17_drop_all"
   ],
   "note": ""
  },
  {
   "property": "C18",
   "status": "proved",
   "theorems": [
    "C18_nil_picture",
    "C18_string_after"
   ],
   "note": ""
  },
  {
   "property": "C19",
   "status": "proved",
   "theorems": [
    "C19_split_partition"
   ],
   "note": "for every document of any world and every rule"
  },
  {
   "property": "C20",
   "status": "proved",
   "theorems": [
    "C20_split_same",
    "C20_append_same",
    "C20_same_text"
   ],
   "note": "links and pictures that do not resolve are left out of the copy or become empty; AppendFile: the destination is made by New and edited in any way, before and after"
  },
  {
   "property": "C21",
   "status": "partial",
   "theorems": [
    "C21_refuted",
    "C21_picture_panics",
    "C21_without_pictures_partial"
   ],
   "note": "the claim is false for the code: every picture added by the API makes String, AppendFile and SplitByParagraph panic; proved without picture calls"
  },
  {
   "property": "C22",
   "status": "partial",
   "theorems": [
    "C22_append_undisturbed",
    "C22_media_kept_partial",
    "C22_exactly",
    "C22_names",
    "C22_refuted"
   ],
   "note": "everything but the media lookup is proved for every pair of documents; media lookup is proved for destinations made by New and refuted for LoadBodyItems; C22_exactly and C22_names say for every destination which lookups change"
  },
  {
   "property": "C23",
   "status": "partial",
   "theorems": [
    "C23_refuted",
    "C23_harmless_partial",
    "C23_refused_partial",
    "C23_exactly",
    "C23_exactly_props",
    "C23_exactly_all",
    "C23_exactly_same",
    "C23_objects"
   ],
   "note": "the claim is false for the code: text before a tab, break or drawing is lost when a run is merged, and text moves across hyperlinks; proved for every rule on paragraphs without these two constellations, and for refusing rules on every paragraph; C23_exactly gives what MergeText makes of every paragraph under every rule, C23_objects that nothing but text is affected"
  },
  {
   "property": "C24",
   "status": "proved",
   "theorems": [
    "C24_same_prop",
    "C24_refused"
   ],
   "note": ""
  },
  {
   "property": "C25",
   "status": "proved",
   "theorems": [
    "C25_same_prop",
    "C25_nil",
    "C25_names",
    "C25_names_nil",
    "C25_unknown_name",
    "C25_rule",
    "C25_rule_names"
   ],
   "note": "the name XMLName is not treated: the field is never set"
  },
  {
   "property": "C26",
   "status": "proved",
   "theorems": [
    "C26_refer_target",
    "C26_refer_id",
    "C26_inverse"
   ],
   "note": ""
  },
  {
   "property": "C27",
   "status": "proved",
   "theorems": [
    "C27_media",
    "C27_media_kept"
   ],
   "note": "for documents made by New and LoadBodyItems and any history"
  },
  {
   "property": "C28",
   "status": "proved",
   "theorems": [
    "C28_range"
   ],
   "note": ""
  },
  {
   "property": "C29",
   "status": "proved",
   "theorems": [
    "C29_save_load",
    "C29_bytes"
   ],
   "note": "for every list of body items; the losses are exactly those of Reload.v. C29_bytes is the same for the bytes of the file, when every value consists of XML characters"
  },
  {
   "property": "C30",
   "status": "proved",
   "theorems": [
    "C30_relationships"
   ],
   "note": "written as XML bytes and read back; largest id becomes the counter"
  },
  {
   "property": "C31",
   "status": "partial",
   "theorems": [
    "C31_refuted",
    "C31_numbering_always_lost",
    "C31_numbering_alone"
   ],
   "note": "the claim is false for the code: refuted by a witness, and it is proved that numbering never survives"
  },
  {
   "property": "C32",
   "status": "partial",
   "theorems": [
    "C32_refuted",
    "C32_toggle_value_ignored"
   ],
   "note": "the claim is false for the code: refuted by a witness; it is proved that the value of w:b and w:i is ignored"
  },
  {
   "property": "C33",
   "status": "partial",
   "theorems": [
    "C33_parse_terminates",
    "C33_refuted",
    "C33_syntax_errors_partial",
    "C33_before_partial"
   ],
   "note": "termination is proved for every token stream. That syntax errors are reported is false for the code: refuted by an unclosed document with two bad numbers that loads without an error; proved when no integer attribute holds a value that GetInt rejects, and (C33_before_partial) for every error that comes before the first such attribute, whatever follows"
  },
  {
   "property": "C34",
   "status": "proved",
   "theorems": [
    "C34_unknown_elements_ignored"
   ],
   "note": "names unknown everywhere; the element may stand in any element other than text, tab stops and attribute-only elements; any content; success or failure of loading is also unchanged"
  },
  {
   "property": "C35",
   "status": "partial",
   "theorems": [
    "C35_refuted",
    "C35_last_piece_kept",
    "C35_undivided_text"
   ],
   "note": "the claim is false for the code: refuted by a witness; proved: exactly the last piece is kept, so undivided text is loaded completely"
  },
  {
   "property": "C36",
   "status": "proved",
   "theorems": [
    "C36_parts"
   ],
   "note": "stronger: with repeated media names the last one of each name is written"
  },
  {
   "property": "C37",
   "status": "proved",
   "theorems": [
    "C37_write_read"
   ],
   "note": "archive/zip is assumed to store names and contents; reload_item is the image of an item under writing and reading (C29)"
  },
  {
   "property": "C38",
   "status": "partial",
   "theorems": [
    "C38_arrived_partial",
    "C38_complete_partial",
    "C38_exactly",
    "C38_refuted"
   ],
   "note": "false for the code: the error of zip.Writer.Close is dropped and a 4096 byte buffer sits before the destination; the encoding of an archive into writes is a parameter. C38_exactly gives for every destination what arrives and which failures are reported"
  },
  {
   "property": "C39",
   "status": "partial",
   "theorems": [
    "C39_rewrite_partial",
    "C39_exactly",
    "C39_refuted"
   ],
   "note": "false for the code: a directory entry outside word/media cannot be opened again (C39_refuted); true for archives of ordinary files with distinct names. C39_exactly: which archives can be written again, as an equivalence"
  },
  {
   "property": "C40",
   "status": "proved",
   "theorems": [
    "C40_written_reads_back",
    "C40_any_bytes",
    "C40_document"
   ],
   "note": "for every tree with proper names; arbitrary bytes are covered by C40_any_bytes; every document the encoder produces is such a tree"
  },
  {
   "property": "C41",
   "status": "proved",
   "theorems": [
    "C41_get_int",
    "C41_get_int_itoa"
   ],
   "note": ""
  },
  {
   "property": "C42",
   "status": "proved",
   "theorems": [
    "C42_setter",
    "C42_last_wins",
    "C42_commute"
   ],
   "note": ""
  },
  {
   "property": "C43",
   "status": "proved",
   "theorems": [
    "C43_setter",
    "C43_last_wins"
   ],
   "note": ""
  },
  {
   "property": "C44",
   "status": "partial",
   "theorems": [
    "C44_own",
    "C44_format_before_copy",
    "C44_content",
    "C44_other_partial",
    "C44_refuted",
    "C44_split_refuted",
    "C44_styled_runs",
    "C44_copy_styles_source"
   ],
   "note": "Proved in full for calls that add, drop or copy content (C44_content). The half about formatting is false for the code, because AppendFile and SplitByParagraph copy pointers to properties (C44_refuted, C44_split_refuted). Proved instead: exactly which runs a styling call changes (C44_styled_runs), that styling a copied run always styles its source (C44_copy_styles_source), and that formatting objects reached in one way behaves as on values (C44_own, C44_format_before_copy, C44_other_partial)."
  },
  {
   "property": "C45",
   "status": "partial",
   "theorems": [
    "C45_elements_kept",
    "C45_document",
    "C45_array_kept_partial",
    "C45_overwritten",
    "C45_refuted",
    "C45_two_documents_refuted"
   ],
   "note": "the claim about the array behind the slice is false for the code when the slice has spare capacity; the elements of the slice itself are proved to stay, and what is overwritten is characterised exactly"
  },
  {
   "property": "C46",
   "status": "proved",
   "theorems": [
    "C46_append_one",
    "C46_inside"
   ],
   "note": ""
  },
  {
   "property": "C47",
   "status": "proved",
   "theorems": [
    "C47_inline_size",
    "C47_anchor_size"
   ],
   "note": ""
  },
  {
   "property": "C48",
   "status": "proved",
   "theorems": [
    "C48_para_string"
   ],
   "note": ""
  },
  {
   "property": "C49",
   "status": "partial",
   "theorems": [
    "C49_refuted",
    "C49_whole_body_partial",
    "C49_before_partial"
   ],
   "note": "the claim is false for the code: refuted by a witness for every library instance in which ParseFloat rejects \"false\"; proved when no integer attribute holds a value that GetInt rejects, and (C49_before_partial) for everything that stands before the first such attribute, whatever follows"
  },
  {
   "property": "C50",
   "status": "proved",
   "theorems": [
    "C50_exactly_the_spellings",
    "C50_loads_the_same",
    "C50_written_is_a_spelling"
   ],
   "note": "the grammar is SpecForm.v; it is exact for the model of encoding/xml (nesting of names apart): a text is read to its end exactly if the grammar derives it, and as what it derives"
  },
  {
   "property": "C51",
   "status": "proved",
   "theorems": [
    "C51_only_flags_change",
    "C51_digits_stay",
    "C51_settles",
    "C51_flags_do_change",
    "C51_tokens",
    "C51_package"
   ],
   "note": "for the body loaded from word/document.xml, and (C51_package) for whole packages of ordinary files; C51_flags_do_change shows that the exception in the statement is needed"
  },
  {
   "property": "C52",
   "status": "proved",
   "theorems": [
    "C52_other_parts",
    "C52_media",
    "C52_unedited"
   ],
   "note": "an ordinary file has a name of path elements without . and .. and backslashes, made of XML characters, of at most 65535 bytes; directory entries are excluded (see C39)"
  },
  {
   "property": "C53",
   "status": "partial",
   "theorems": [
    "C53_declared_partial",
    "C53_exactly",
    "C53_history",
    "C53_reload",
    "C53_frame_refuted",
    "C53_outer_refuted",
    "C53_group_refuted",
    "C53_empty_refuted"
   ],
   "note": "false for loaded documents: graphics, frame locks and pictures are saved with the declarations they had on themselves, which may be none; proved for everything made by calls and for loaded documents whose graphics, locks and pictures declare their own prefix, also after saving and loading again; C53_exactly says for a document of any origin when all prefixes are declared"
  },
  {
   "property": "C54",
   "status": "proved",
   "theorems": [
    "C54_nothing_new",
    "C54_package"
   ],
   "note": ""
  },
  {
   "property": "C55",
   "status": "proved",
   "theorems": [
    "C55_document",
    "C55_relationships",
    "C55_order",
    "C55_exactly",
    "C55_refuted"
   ],
   "note": "The order of the standard is not kept for the children of w:pPr, w:numPr, w:tblPr and w:tcPr (C55_refuted: for each of the four a document); C55_order gives the order in which they are always written, C55_exactly the documents that are in the order of the standard."
  },
  {
   "property": "C56",
   "status": "proved",
   "theorems": [
    "C56_same_to_loader",
    "C56_files",
    "C56_saved_document",
    "C56_laid_out",
    "C56_trimmed",
    "C56_trimmed_loads",
    "C56_solid_refuted",
    "C56_fragile_refuted",
    "C56_text_refuted",
    "C56_tabs_refuted",
    "C56_namespace_refuted",
    "C56_declaration_refuted"
   ],
   "note": "The relation between the two documents is in SpecSkip.v, with the names that mean something to the loader. The theorems named refuted show that the exceptions of the statement are needed: a comment, white space or an extension list in any of 29 attribute-only elements (w:spacing, wp:docPr, ...) makes loading fail, as does white space in mc:AlternateContent; a comment in the middle of a text loses its first half; namespaces are not looked at."
  },
  {
   "property": "C57",
   "status": "proved",
   "theorems": [
    "C57_new",
    "C57_edited",
    "C57_saved",
    "C57_no_theme",
    "C57_refuted",
    "C57_edited_refuted"
   ],
   "note": "The two refuted statements show that the conditions on the pictures are needed: a GIF picture gets no content type. Names of pictures are assumed to consist of XML characters. Media names are compared and targets are resolved as in SpecOpc.v; percent-encoding and the relationships of other parts are left out."
  },
  {
   "property": "C58",
   "status": "proved",
   "theorems": [
    "C58_distinct",
    "C58_registered",
    "C58_as_alone",
    "C58_can_finish",
    "C58_two_writers_lose"
   ],
   "note": "Memory is sequentially consistent. The effects of the calls on their own paragraphs are not modelled here; decoding the picture is done before."
  },
  {
   "property": "C59",
   "status": "proved",
   "theorems": [
    "C59_calls",
    "C59_strings"
   ],
   "note": "The exact domain is part of the statement. Addresses (which document, paragraph, run, ...) stand for the pointers that the caller holds; out-of-memory conditions are left out."
  },
  {
   "property": "C60",
   "status": "proved",
   "theorems": [
    "C60_reopen",
    "C60_texts",
    "C60_refuted"
   ],
   "note": "The exact domain is part of the statement; C60_refuted is the case of LoadBodyItems."
  },
  {
   "property": "C61",
   "status": "proved",
   "theorems": [
    "C61_cleaning",
    "C61_same_bytes",
    "C61_reopen"
   ],
   "note": ""
  },
  {
   "property": "C62",
   "status": "proved",
   "theorems": [
    "C62_text",
    "C62_package",
    "C62_unique"
   ],
   "note": ""
  },
  {
   "property": "C63",
   "status": "proved",
   "theorems": [
    "C63_file",
    "C63_parts"
   ],
   "note": ""
  },
  {
   "property": "C64",
   "status": "proved",
   "theorems": [
    "C64_calls",
    "C64_own",
    "C64_strings"
   ],
   "note": "generalises C59 to documents of any origin"
  },
  {
   "property": "C65",
   "status": "partial",
   "theorems": [
    "C65_refuted",
    "C65_stored",
    "C65_seen",
    "C65_seen_exactly",
    "C65_loaded",
    "C65_merge_unmarked",
    "C65_merge_refuted",
    "C65_merge_partial"
   ],
   "note": "false for the code: AddText sets no xml:space and MergeText drops it. Proved: exactly what is shown of added text, and that all of it is shown if and only if no piece between tabs and line ends has white space at its ends; loading and saving keeps the mark; MergeText changes nothing where no mark is needed and merging is harmless (C23)"
  },
  {
   "property": "C66",
   "status": "proved",
   "theorems": [
    "C66_calls",
    "C66_no_panic",
    "C66_relationships",
    "C66_main",
    "C66_media",
    "C66_unreadable",
    "C66_other",
    "C66_nothing_required"
   ],
   "note": "what decoding word/document.xml accepts is the subject of C33, C50, C56 and C62"
  },
  {
   "property": "C67",
   "status": "proved",
   "theorems": [
    "C67_file",
    "C67_exactly",
    "C67_history"
   ],
   "note": "drawings in hyperlinks are not dropped; the statement says so"
  },
  {
   "property": "C68",
   "status": "proved",
   "theorems": [
    "C68_rejoined",
    "C68_copy_of_copy"
   ],
   "note": "for calls that return; which calls panic is C64"
  },
  {
   "property": "C69",
   "status": "partial",
   "theorems": [
    "C69_used_partial",
    "C69_stays",
    "C69_refuted"
   ],
   "note": "false for the code once something is taken out of the document: C69_refuted shows a document without content whose file still has the pictures and the address; C69_stays proves that for every document and history. Proved in full for documents from which nothing is taken out"
  },
  {
   "property": "C70",
   "status": "proved",
   "theorems": [
    "C70_text",
    "C70_float",
    "C70_offset",
    "C70_offset_empty",
    "C70_offset_error"
   ],
   "note": "ParseFloat is an arbitrary function here; texts that are decimal integers in range are C41"
  },
  {
   "property": "C71",
   "status": "proved",
   "theorems": [
    "C71_shown"
   ],
   "note": "MD5 is an arbitrary function here"
  },
  {
   "property": "C72",
   "status": "proved",
   "theorems": [
    "C72_declaration",
    "C72_tokens",
    "C72_fuel"
   ],
   "note": "the reader is the model of encoding/xml; C72_fuel: its bound on the number of tokens is never met"
  },
  {
   "property": "C73",
   "status": "proved",
   "theorems": [
    "C73_relationships",
    "C73_document",
    "C73_package"
   ],
   "note": "the main part under the condition that no number makes GetInt fail with expected integer; without it the claim is false (C33_refuted)"
  },
  {
   "property": "C74",
   "status": "proved",
   "theorems": [
    "C74_loads",
    "C74_loads_same",
    "C74_package",
    "C74_decimals"
   ],
   "note": "with the conditions that C56_solid_refuted and C56_fragile_refuted show to be needed"
  },
  {
   "property": "C75",
   "status": "proved",
   "theorems": [
    "C75_text",
    "C75_files",
    "C75_distinct",
    "C75_untouched",
    "C75_stands",
    "C75_finishes",
    "C75_ends",
    "C75_again",
    "C75_undotted",
    "C75_directory"
   ],
   "note": "analysis mode; without -a see C78; regexp, os.Create and write errors are parameters"
  },
  {
   "property": "C76",
   "status": "proved",
   "theorems": [
    "C76_body",
    "C76_append",
    "C76_split",
    "C76_history"
   ],
   "note": "C76_body: the body of a main part is found in one way only; links and pictures change their ids when copied (C19, C20, C68)"
  },
  {
   "property": "C77",
   "status": "proved",
   "theorems": [
    "C77_keep",
    "C77_keep_para",
    "C77_keep_all",
    "C77_twice",
    "C77_swap",
    "C77_shape_canvas",
    "C77_three",
    "C77_mixed",
    "C77_para_twice",
    "C77_para_swap",
    "C77_para_shape_canvas",
    "C77_para_three",
    "C77_para_mixed"
   ],
   "note": "what the single calls keep and take out is C15, C16 and C67"
  },
  {
   "property": "C78",
   "status": "proved",
   "theorems": [
    "C78_prints",
    "C78_makes",
    "C78_finishes",
    "C78_undrawn"
   ],
   "note": "os.ReadFile, os.Create, image.DecodeConfig and md5 are oracles; that the formats of the three files are recognised as jpeg, webp and png is a hypothesis; the file is taken to be found as it was written; for the sizes the pictures have sides below 2^32"
  },
  {
   "property": "C79",
   "status": "proved",
   "theorems": [
    "C79_append",
    "C79_split",
    "C79_own",
    "C79_transparency_refuted"
   ],
   "note": "the domain (links with relationships, pictures with names and stored files, no transparency) is in the statement; C79_transparency_refuted shows that the condition on transparency is needed"
  },
  {
   "property": "C80",
   "status": "proved",
   "theorems": [
    "C80_usual",
    "C80_kept",
    "C80_prefixed",
    "C80_missing",
    "C80_refuted"
   ],
   "note": "the statement gives the namespace in all cases; C80_refuted is the case in which it is lost"
  },
  {
   "property": "C81",
   "status": "proved",
   "theorems": [
    "C81_projection",
    "C81_exchange",
    "C81_loaded_refuted"
   ],
   "note": "on the documents in memory (Alias.v); the domain (no LoadBodyItems, formatting before copying) is in the statement, C81_loaded_refuted and C44_refuted show that both conditions are needed"
  },
  {
   "property": "C82",
   "status": "proved",
   "theorems": [
    "C82_last_wins",
    "C82_any_order"
   ],
   "note": "on the documents in memory (Alias.v); formatting before copying as in C44"
  },
  {
   "property": "C83",
   "status": "proved",
   "theorems": [
    "C83_turns",
    "C83_links_refuted"
   ],
   "note": "on the documents in memory (Alias.v); the domain (no links, pictures and shapes in the stretch, formatting before copying) is in the statement, C83_links_refuted shows that links have to be left out"
  },
  {
   "property": "C84",
   "status": "proved",
   "theorems": [
    "C84_layout_first"
   ],
   "note": "on the documents in memory (Alias.v); formatting before copying as in C44"
  },
  {
   "property": "C85",
   "status": "proved",
   "theorems": [
    "C85_any_time",
    "C85_replaced",
    "C85_split_refuted"
   ],
   "note": "on the documents in memory (Alias.v); that SplitByParagraph has to be left out is in the statement, shown by C85_split_refuted"
  }
 ]
}