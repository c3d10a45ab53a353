{
 "claims": [
  {
   "property": "C01",
   "status": "proved",
   "theorems": [
    "C01_buffer_transparent",
    "C01_forward_use_transparent",
    "C01_two_way_use_transparent_refuted"
   ],
   "note": "utils.py Buffer; any program over the buffer interface; the refuted theorem is the last sentence of the statement"
  },
  {
   "property": "C02",
   "status": "proved",
   "theorems": [
    "C02_restore_is_exact_undo",
    "C02_later_reads_unaffected"
   ],
   "note": "utils.py get_state/set_state"
  },
  {
   "property": "C03",
   "status": "proved",
   "theorems": [
    "C03_object_terminates"
   ],
   "note": "parsers/base.py object(); progress and termination for every input"
  },
  {
   "property": "C04",
   "status": "proved",
   "theorems": [
    "C04_integer_literals",
    "C04_every_integer",
    "C04_numeric"
   ],
   "note": "parsers/base.py numeric (also reached through object())"
  },
  {
   "property": "C05",
   "status": "proved",
   "theorems": [
    "C05_real_literals",
    "C05_every_decimal",
    "C05_long_negative_refuted"
   ],
   "note": "rounding of long negative literals is part of the statement (refuted theorem)"
  },
  {
   "property": "C06",
   "status": "proved",
   "theorems": [
    "C06_names_any_spelling",
    "C06_names_round_trip",
    "C06_every_text"
   ],
   "note": "any spelling and the canonical printer"
  },
  {
   "property": "C07",
   "status": "proved",
   "theorems": [
    "C07_iso",
    "C07_iso_refuted",
    "C07_every_string",
    "C07_strings_any_spelling",
    "C07_library_escape_round_trip",
    "C07_octal_round_trip"
   ],
   "note": "balanced parentheses, escapes, octal, line continuations; every text decided (C07_every_string); deviations from ISO 32000-1 in C07_iso_refuted"
  },
  {
   "property": "C08",
   "status": "proved",
   "theorems": [
    "C08_hex_strings",
    "C08_hex_decodes",
    "C08_comment_first_refuted"
   ],
   "note": "the refuted theorem is the parenthesis of the statement"
  },
  {
   "property": "C09",
   "status": "proved",
   "theorems": [
    "C09_any_layout",
    "C09_print_parse"
   ],
   "note": "S_Syntax.Ser relational grammar (any layout) and the printer of S_Print"
  },
  {
   "property": "C10",
   "status": "proved",
   "theorems": [
    "C10_last_duplicate_wins"
   ],
   "note": "last occurrence wins"
  },
  {
   "property": "C11",
   "status": "proved",
   "theorems": [
    "C11_correct_length_verbatim"
   ],
   "note": "parsers/base.py _stream with a correct Length; any bytes"
  },
  {
   "property": "C12",
   "status": "proved",
   "theorems": [
    "C12_wrong_length_recovered",
    "C12_length_past_eof_refuted",
    "C12_trailing_eol_refuted"
   ],
   "note": "the two refuted theorems are the parenthesis of the statement"
  },
  {
   "property": "C13",
   "status": "proved",
   "theorems": [
    "C13_indirect_objects",
    "C13_every_value",
    "C13_every_stream",
    "C13_missing_endobj_at_eof_refuted"
   ],
   "note": "the refuted theorem is the proviso of the statement (TypeError at end of file)"
  },
  {
   "property": "C14",
   "status": "proved",
   "theorems": [
    "C14_integers_and_references"
   ],
   "note": "sequence of integers and references"
  },
  {
   "property": "C15",
   "status": "proved",
   "theorems": [
    "C15_object_exceptions",
    "C15_only_parser_exception_refuted"
   ],
   "note": "exception set; the refuted theorem is the last sentence of the statement"
  },
  {
   "property": "C16",
   "status": "proved",
   "theorems": [
    "C16_header_sound",
    "C16_header_found_iff",
    "C16_header_missing",
    "C16_short_file_refuted"
   ],
   "note": "the refuted theorem shows the proviso (at least 22 bytes) is needed"
  },
  {
   "property": "C17",
   "status": "proved",
   "theorems": [
    "C17_startxref_number",
    "C17_no_eof",
    "C17_no_startxref"
   ],
   "note": "parsers/document.py seek_eof, xref_offset"
  },
  {
   "property": "C18",
   "status": "proved",
   "theorems": [
    "C18_xref_table",
    "C18_every_table",
    "C18_freed_later_refuted"
   ],
   "note": "PDFParser.xref table part; every spelling with the three two-byte line ends"
  },
  {
   "property": "C19",
   "status": "proved",
   "theorems": [
    "C19_chain_collected",
    "C19_cycle_refuted",
    "C19_decreasing_terminates"
   ],
   "note": "PDFParser.pdf_trailer (tables and xref streams); cycle part for tables"
  },
  {
   "property": "C20",
   "status": "proved",
   "theorems": [
    "C20_xref_stream"
   ],
   "note": "XRef.from_stream"
  },
  {
   "property": "C21",
   "status": "proved",
   "theorems": [
    "C21_default_type_refuted",
    "C21_ranges_refuted",
    "C21_second_range_refuted"
   ],
   "note": "the refuted theorems are the two halves of the statement (the specification's reading fails)"
  },
  {
   "property": "C22",
   "status": "proved",
   "theorems": [
    "C22_object_stream_never_asked_refuted",
    "C22_stale_revision_refuted"
   ],
   "note": "the first theorem is the general statement, the second the stale-revision witness on a whole file"
  },
  {
   "property": "C23",
   "status": "proved",
   "theorems": [
    "C23_first_registration_wins",
    "C23_registrations_stay",
    "C23_only_that_id",
    "C23_forced"
   ],
   "note": "Registry.register over any history"
  },
  {
   "property": "C24",
   "status": "proved",
   "theorems": [
    "C24_object_stream_unpacked"
   ],
   "note": "ObjStmParser + register_object_stream"
  },
  {
   "property": "C25",
   "status": "proved",
   "theorems": [
    "C25_lookup_registers",
    "C25_lookup_stable",
    "C25_registered_value",
    "C25_scanned"
   ],
   "note": "RegistryPDFParser.locate_object; lookup sessions of any length; scan of the body for files of simple layout (S_Document.IndObj)"
  },
  {
   "property": "C26",
   "status": "proved",
   "theorems": [
    "C26_newest_revision"
   ],
   "note": "locate_object_by_xref over the sections collected by pdf_trailer"
  },
  {
   "property": "C27",
   "status": "proved",
   "theorems": [
    "C27_all_the_way",
    "C27_all_the_way_exists",
    "C27_build",
    "C27_no_array_cycle",
    "C27_array_cycle_refuted",
    "C27_not_lazy_refuted",
    "C27_stream_cycles",
    "C27_reference_chain_refuted"
   ],
   "note": "document.py build/obj_by_ref, obj_factory; the refuted theorems are the last sentence of the statement"
  },
  {
   "property": "C28",
   "status": "proved",
   "theorems": [
    "C28_reading"
   ],
   "note": "DictBasedObject"
  },
  {
   "property": "C29",
   "status": "proved",
   "theorems": [
    "C29_first_read_sticks",
    "C29_assignment_unread",
    "C29_del_refuted",
    "C29_pop_refuted"
   ],
   "note": "DictBasedObject; the refuted theorems are parts of the statement"
  },
  {
   "property": "C30",
   "status": "proved",
   "theorems": [
    "C30_all_pages",
    "C30_first_pages",
    "C30_missing_kid_refuted"
   ],
   "note": "PageTreeNode.pages as a generator; the refuted theorem is the last sentence"
  },
  {
   "property": "C31",
   "status": "proved",
   "theorems": [
    "C31_navigate",
    "C31_no_such_page",
    "C31_pages_exist",
    "C31_next_prev",
    "C31_prev_refuted",
    "C31_always_on_a_page",
    "C31_document_pages"
   ],
   "note": "The _refuted theorem is the defect named in the statement. Page enumeration is connected to C30 by C31_document_pages. Loading (resources, content) and drawing are parameters, so the theorems hold for any."
  },
  {
   "property": "C32",
   "status": "proved",
   "theorems": [
    "C32_canvases",
    "C32_pages",
    "C32_failing_page"
   ],
   "note": ""
  },
  {
   "property": "C33",
   "status": "proved",
   "theorems": [
    "C33_render_history_independent",
    "C33_render_fails_alike",
    "C33_renderings_agree",
    "C33_canvas_emptied",
    "C33_failed_load_refuted"
   ],
   "note": "The _refuted theorem is the defect named in the statement. Form canvases inside a canvas are values in the model: sharing of those between shallow copies is not modelled."
  },
  {
   "property": "C34",
   "status": "proved",
   "theorems": [
    "C34_q_Q_restores",
    "C34_q_keeps_state",
    "C34_q_Q_restores_in_forms"
   ],
   "note": "viewer interpreter, pages and forms"
  },
  {
   "property": "C35",
   "status": "proved",
   "theorems": [
    "C35_unmatched_Q",
    "C35_unmatched_Q_resets",
    "C35_harmless_refuted"
   ],
   "note": "the refuted theorem is the last sentence of the statement"
  },
  {
   "property": "C36",
   "status": "proved",
   "theorems": [
    "C36_Do_restores"
   ],
   "note": "forms run on the caller's stack"
  },
  {
   "property": "C37",
   "status": "proved",
   "theorems": [
    "C37_nearest_wins",
    "C37_procsets_union",
    "C37_succeeds",
    "C37_kind_named_self",
    "C37_parent_cycle_hangs",
    "C37_unreadable"
   ],
   "note": "C37_parent_cycle_hangs is the defect named in the statement."
  },
  {
   "property": "C38",
   "status": "proved",
   "theorems": [
    "C38_content_operators"
   ],
   "note": "content parser over any layout of S_Syntax"
  },
  {
   "property": "C39",
   "status": "proved",
   "theorems": [
    "C39_inline_image_verbatim",
    "C39_ordinary_data",
    "C39_bordered_EI_cut_refuted"
   ],
   "note": "the refuted theorem shows the proviso (no bordered EI) is needed"
  },
  {
   "property": "C40",
   "status": "proved",
   "theorems": [
    "C40_strings_in_order",
    "C40_strings_of_forms",
    "C40_font_in_effect",
    "C40_quotation_refuted"
   ],
   "note": "the refuted theorem is the last sentence of the statement; decoders are parameters here (see C54-C58)"
  },
  {
   "property": "C41",
   "status": "proved",
   "theorems": [
    "C41_text_content_parses_back",
    "C41_inline_images_refuted",
    "C41_strings_refuted",
    "C41_image_data",
    "C41_image_written"
   ],
   "note": "The _refuted theorems (inline images, strings in property lists) are the exceptions named in the statement."
  },
  {
   "property": "C42",
   "status": "proved",
   "theorems": [
    "C42_mode",
    "C42_never_fails"
   ],
   "note": "mode and bracket stack"
  },
  {
   "property": "C43",
   "status": "proved",
   "theorems": [
    "C43_asciihex_inverse",
    "C43_asciihex_total"
   ],
   "note": "filters/asciihex.py decode"
  },
  {
   "property": "C44",
   "status": "proved",
   "theorems": [
    "C44_ascii85_inverse",
    "C44_ascii85_total"
   ],
   "note": "filters/ascii85.py decode with CPython a85decode"
  },
  {
   "property": "C45",
   "status": "proved",
   "theorems": [
    "C45_runlength_inverse",
    "C45_runlength_truncated",
    "C45_runlength_total"
   ],
   "note": "filters/runlength.py decode"
  },
  {
   "property": "C46",
   "status": "proved",
   "theorems": [
    "C46_lzw_right_iff",
    "C46_lzw_inverse",
    "C46_lzw_eod_refuted",
    "C46_lzw_kwkwk_refuted",
    "C46_lzw_total",
    "C46_lzw_filter",
    "C46_lzw_undecodable",
    "C46_lzw_never_raises_refuted"
   ],
   "note": "Exact behaviour, both directions; the expected claim (conforming streams decode to their data) is refuted for every stream with EOD and for every stream with a self-referring code."
  },
  {
   "property": "C47",
   "status": "proved",
   "theorems": [
    "C47_predictor_none",
    "C47_predictor_strips_tags",
    "C47_right_iff",
    "C47_tiff",
    "C47_colors_refuted",
    "C47_predictors_refuted"
   ],
   "note": "Exact behaviour (C47_right_iff); the expected claim is refuted for every PNG filter type but None, for TIFF prediction and for Colors > 1."
  },
  {
   "property": "C48",
   "status": "proved",
   "theorems": [
    "C48_filter_chain",
    "C48_single_name",
    "C48_left_to_right",
    "C48_no_filter",
    "C48_unknown",
    "C48_aliases"
   ],
   "note": "apply_filter_multi over ASCIIHex/ASCII85/RunLength/Flate (zlib as parameter)"
  },
  {
   "property": "C49",
   "status": "proved",
   "theorems": [
    "C49_whole_rows",
    "C49_truncated",
    "C49_parameters_refuted"
   ],
   "note": "whole of filters/ccittfax.py; the refuted theorem is the last sentence of the statement"
  },
  {
   "property": "C50",
   "status": "proved",
   "theorems": [
    "C50_decodes",
    "C50_every_picture"
   ],
   "note": "T.6 and the T.4 tables are written independently in S_CCITT"
  },
  {
   "property": "C51",
   "status": "proved",
   "theorems": [
    "C51_construction",
    "C51_hex_destination",
    "C51_lookup",
    "C51_get",
    "C51_enumeration",
    "C51_as_list",
    "C51_as_list_chars_refuted"
   ],
   "note": "C51_as_list_chars_refuted is a defect outside the statement: mappings with single characters cannot be listed."
  },
  {
   "property": "C52",
   "status": "proved",
   "theorems": [
    "C52_membership",
    "C52_agree",
    "C52_ranges_any_case",
    "C52_lower_case_refuted"
   ],
   "note": "Statement includes the lower-case defect, proved for every single-character entry."
  },
  {
   "property": "C53",
   "status": "proved",
   "theorems": [
    "C53_bmp",
    "C53_surrogates_refuted",
    "C53_range_two_units_refuted",
    "C53_glyph_names",
    "C53_array_names_refuted"
   ],
   "note": "Statement includes the two defects, proved for all supplementary characters / all two-unit destinations."
  },
  {
   "property": "C54",
   "status": "proved",
   "theorems": [
    "C54_decode_string",
    "C54_tables",
    "C54_encodings",
    "C54_mapped",
    "C54_single_byte",
    "C54_long_codes_ignored",
    "C54_realignment_refuted",
    "C54_terminates"
   ],
   "note": "Complete characterisation (Greedy); realignment defect by witness."
  },
  {
   "property": "C55",
   "status": "proved",
   "theorems": [
    "C55_sections",
    "C55_lookup",
    "C55_char_destinations_refuted",
    "C55_terminates"
   ],
   "note": "parsers/cmap.py; limits of the reader are in S_CMapFile.Items; the refuted theorem is the defect named in the statement"
  },
  {
   "property": "C56",
   "status": "proved",
   "theorems": [
    "C56_bytewise",
    "C56_unlisted_byte",
    "C56_builtin"
   ],
   "note": ""
  },
  {
   "property": "C57",
   "status": "proved",
   "theorems": [
    "C57_winansi",
    "C57_standard",
    "C57_macroman",
    "C57_pdfdoc",
    "C57_strings"
   ],
   "note": ""
  },
  {
   "property": "C58",
   "status": "proved",
   "theorems": [
    "C58_differences",
    "C58_sections_exist",
    "C58_leading_name_fails",
    "C58_other_items_refuted"
   ],
   "note": "C58_other_items_refuted is the last sentence of the statement."
  },
  {
   "property": "C59",
   "status": "proved",
   "theorems": [
    "C59_cache_transparent"
   ],
   "note": ""
  },
  {
   "property": "C60",
   "status": "proved",
   "theorems": [
    "C60_stream",
    "C60_key_bits",
    "C60_located",
    "C60_metadata"
   ],
   "note": ""
  },
  {
   "property": "C61",
   "status": "proved",
   "theorems": [
    "C61_opens",
    "C61_exact",
    "C61_opens_v4",
    "C61_opens_v5",
    "C61_trailer",
    "C61_literal_id_refuted",
    "C61_direct_refuted",
    "C61_unsigned_refuted",
    "C61_crypt_filters_refuted"
   ],
   "note": "The _refuted theorems are the defects named in the statement. MD5, SHA-256 and the AES block cipher are universally quantified; RC4 and CBC are written out."
  },
  {
   "property": "C62",
   "status": "proved",
   "theorems": [
    "C62_string_object_refuted",
    "C62_located_refuted",
    "C62_nested_untouched",
    "C62_stream_dictionary"
   ],
   "note": "The statement is the actual (defective) behaviour; the _refuted theorems refute the intended one for every string and handler."
  },
  {
   "property": "C63",
   "status": "proved",
   "theorems": [
    "C63_aes128_padding_kept",
    "C63_aes256_padding_kept",
    "C63_padding_refuted"
   ],
   "note": "C63_padding_refuted: the result never equals the original data."
  },
  {
   "property": "C64",
   "status": "proved",
   "theorems": [
    "C64_exact_size",
    "C64_right_size_untouched"
   ],
   "note": ""
  },
  {
   "property": "C65",
   "status": "proved",
   "theorems": [
    "C65_samples",
    "C65_decode",
    "C65_sample_value",
    "C65_bits_per_component",
    "C65_rows_refuted"
   ],
   "note": "C65_rows_refuted is the defect named in the statement."
  },
  {
   "property": "C66",
   "status": "proved",
   "theorems": [
    "C66_entries",
    "C66_succeeds",
    "C66_idempotent",
    "C66_changes_in_place",
    "C66_failure",
    "C66_absent"
   ],
   "note": ""
  },
  {
   "property": "C67",
   "status": "proved",
   "theorems": [
    "C67_fields_kept",
    "C67_exactly",
    "C67_ascii",
    "C67_strict_refuted"
   ],
   "note": "C67_strict_refuted witnesses the laxity named in the statement. dateutil itself is a parameter."
  },
  {
   "property": "C68",
   "status": "proved",
   "theorems": [
    "C68_content_terminates"
   ],
   "note": "parsers/viewer content parser"
  },
  {
   "property": "C69",
   "status": "proved",
   "theorems": [
    "C69_object_block_size",
    "C69_content_block_size",
    "C69_cmap_block_size",
    "C69_object_stream_block_size",
    "C69_register_block_size"
   ],
   "note": "end position compared on success"
  },
  {
   "property": "C70",
   "status": "proved",
   "theorems": [
    "C70_named_encoding_is_winansi",
    "C70_macroman_refuted",
    "C70_dictionary_base"
   ],
   "note": "The statement includes the defect: named encodings unknown to Python decode as WinAnsi (C70_macroman_refuted is the witness)."
  },
  {
   "property": "C71",
   "status": "proved",
   "theorems": [
    "C71_uni_names",
    "C71_u_names",
    "C71_components",
    "C71_sloppy_names_refuted"
   ],
   "note": "C71_sloppy_names_refuted is the defect named in the statement."
  },
  {
   "property": "C72",
   "status": "proved",
   "theorems": [
    "C72_sets_parameter",
    "C72_succeeds",
    "C72_missing_operand",
    "C72_last_setting_in_effect",
    "C72_gs_dictionary",
    "C72_gs_font"
   ],
   "note": ""
  },
  {
   "property": "C73",
   "status": "proved",
   "theorems": [
    "C73_device_pictures",
    "C73_jpeg",
    "C73_masks",
    "C73_indexed",
    "C73_indexed_palettes",
    "C73_icc_modes",
    "C73_last_filter",
    "C73_no_filter_listed_refuted",
    "C73_gray_refuted",
    "C73_icc_refuted",
    "C73_bits_refuted",
    "C73_inline_jpeg_refuted",
    "C73_inline_keys"
   ],
   "note": "The _refuted theorems are the defects named in the statement. PIL itself is not modelled: the result is the call made to it."
  },
  {
   "property": "C74",
   "status": "proved",
   "theorems": [
    "C74_bits"
   ],
   "note": ""
  },
  {
   "property": "C75",
   "status": "proved",
   "theorems": [
    "C75_predefined_files",
    "C75_tounicode",
    "C75_tounicode_broken",
    "C75_predefined_names",
    "C75_encoding",
    "C75_by_name",
    "C75_nothing_known",
    "C75_text",
    "C75_two_byte_codes_refuted",
    "C75_types_refuted",
    "C75_standard_fonts",
    "C75_helvetica_oblique_refuted"
   ],
   "note": "The _refuted theorems are the defects named in the statement; the 14 predefined files are included byte for byte (D_CMaps) and parsed by the modelled parser inside Coq."
  },
  {
   "property": "C76",
   "status": "proved",
   "theorems": [
    "C76_listed_objects",
    "C76_any_objects",
    "C76_written_documents",
    "C76_written_once"
   ],
   "note": ""
  },
  {
   "property": "C77",
   "status": "proved",
   "theorems": [
    "C77_sessions_exactly",
    "C77_written_history",
    "C77_history_independence_refuted"
   ],
   "note": "locate_object over any history; the refuted theorem is the negation of history independence"
  },
  {
   "property": "C78",
   "status": "proved",
   "theorems": [
    "C78_viewer",
    "C78_written_file"
   ],
   "note": ""
  },
  {
   "property": "C79",
   "status": "proved",
   "theorems": [
    "C79_written",
    "C79_oldest_value",
    "C79_update_refuted",
    "C79_sessions_exactly",
    "C79_any_objects"
   ],
   "note": "the property includes the defect; C79_update_refuted is the negation of the claim that compressed objects are updated"
  },
  {
   "property": "C80",
   "status": "proved",
   "theorems": [
    "C80_lengths_found",
    "C80_written",
    "C80_other_next_hangs"
   ],
   "note": ""
  },
  {
   "property": "C81",
   "status": "proved",
   "theorems": [
    "C81_listed_objects",
    "C81_any_objects",
    "C81_written_documents",
    "C81_written_once",
    "C81_passwords"
   ],
   "note": ""
  },
  {
   "property": "C82",
   "status": "proved",
   "theorems": [
    "C82_unlisted_encrypt",
    "C82_written",
    "C82_other_spelling_refuted"
   ],
   "note": "the statement includes the defect; C82_other_spelling_refuted is the negation of the claim for every spelling of the header"
  },
  {
   "property": "C83",
   "status": "proved",
   "theorems": [
    "C83_inline_images",
    "C83_images",
    "C83_forms"
   ],
   "note": ""
  },
  {
   "property": "C84",
   "status": "proved",
   "theorems": [
    "C84_canvas_only_grows",
    "C84_earlier_output_kept",
    "C84_form_canvas_only_grows",
    "C84_navigate_refuted"
   ],
   "note": "the refuted theorem is the exception (defect) named in the statement"
  },
  {
   "property": "C85",
   "status": "proved",
   "theorems": [
    "C85_viewer",
    "C85_written_file",
    "C85_untyped_image_refuted"
   ],
   "note": "the refuted theorem is the exception (defect: Type is optional for XObjects) named in the statement"
  },
  {
   "property": "C86",
   "status": "proved",
   "theorems": [
    "C86_random_access"
   ],
   "note": ""
  },
  {
   "property": "C87",
   "status": "proved",
   "theorems": [
    "C87_modern_file",
    "C87_encrypted_file",
    "C87_sealed_file"
   ],
   "note": ""
  },
  {
   "property": "C88",
   "status": "proved",
   "theorems": [
    "C88_open_document",
    "C88_block_size",
    "C88_open_pdf",
    "C88_written",
    "C88_written_once",
    "C88_modern",
    "C88_deferred",
    "C88_encrypted",
    "C88_viewer",
    "C88_refuted"
   ],
   "note": "C88_refuted is the exception named in the statement"
  },
  {
   "property": "C89",
   "status": "proved",
   "theorems": [
    "C89_updated_file",
    "C89_updated_blocks"
   ],
   "note": ""
  },
  {
   "property": "C90",
   "status": "proved",
   "theorems": [
    "C90_xref_stream",
    "C90_object_stream",
    "C90_content",
    "C90_content_part",
    "C90_tounicode"
   ],
   "note": ""
  },
  {
   "property": "C91",
   "status": "proved",
   "theorems": [
    "C91_no_table",
    "C91_tables_then_stream",
    "C91_streams_then_table",
    "C91_table_update",
    "C91_stream_update"
   ],
   "note": ""
  },
  {
   "property": "C92",
   "status": "proved",
   "theorems": [
    "C92_free_rows",
    "C92_deleted_refuted",
    "C92_written_once",
    "C92_viewed"
   ],
   "note": "The statement says what happens, including that deletion has no effect (C92_deleted_refuted refutes the expectation that a deleted object is null)."
  },
  {
   "property": "C93",
   "status": "proved",
   "theorems": [
    "C93_open",
    "C93_lookups",
    "C93_each_is_raised"
   ],
   "note": ""
  },
  {
   "property": "C94",
   "status": "proved",
   "theorems": [
    "C94_split_contents",
    "C94_unseparated_refuted"
   ],
   "note": "The statement includes the defect: C94_unseparated_refuted is its witness."
  },
  {
   "property": "C95",
   "status": "proved",
   "theorems": [
    "C95_annotations"
   ],
   "note": ""
  },
  {
   "property": "C96",
   "status": "proved",
   "theorems": [
    "C96_sessions_exactly",
    "C96_any_objects",
    "C96_written"
   ],
   "note": ""
  },
  {
   "property": "C97",
   "status": "proved",
   "theorems": [
    "C97_sessions_exactly",
    "C97_any_objects",
    "C97_blocked_refuted",
    "C97_undecryptable",
    "C97_written_refuted",
    "C97_written",
    "C97_pages"
   ],
   "note": "the refuted theorems are the last sentence of the statement; the writer's documents have no object streams of their own (those are covered by C97_sessions_exactly and C97_any_objects)"
  },
  {
   "property": "C98",
   "status": "proved",
   "theorems": [
    "C98_modern",
    "C98_deferred",
    "C98_blocks",
    "C98_written",
    "C98_none",
    "C98_no_dictionary",
    "C98_encrypted",
    "C98_encrypted_strings_refuted"
   ],
   "note": "the statement describes what the code does, the defects included; C98_encrypted_strings_refuted: encrypted strings are not decrypted"
  },
  {
   "property": "C99",
   "status": "proved",
   "theorems": [
    "C99_any_bytes",
    "C99_each_is_raised",
    "C99_before_damage",
    "C99_drawn",
    "C99_up_to_damage"
   ],
   "note": ""
  },
  {
   "property": "C100",
   "status": "proved",
   "theorems": [
    "C100_viewer",
    "C100_written_file",
    "C100_updated_file",
    "C100_modern_file",
    "C100_encrypted_file"
   ],
   "note": ""
  },
  {
   "property": "C101",
   "status": "proved",
   "theorems": [
    "C101_visits",
    "C101_first_page_refuted",
    "C101_viewer",
    "C101_written_file",
    "C101_updated_file",
    "C101_modern_file",
    "C101_encrypted_file"
   ],
   "note": "C101_first_page_refuted is the exception the statement makes for the first page."
  },
  {
   "property": "C102",
   "status": "proved",
   "theorems": [
    "C102_pages",
    "C102_passwords",
    "C102_unfiltered",
    "C102_last_operator_refuted",
    "C102_updated"
   ],
   "note": "C102_last_operator_refuted is the last clause of the statement: content that ends in an operator loses it to the padding."
  },
  {
   "property": "C103",
   "status": "proved",
   "theorems": [
    "C103_own_turns",
    "C103_never_wrong",
    "C103_all_calls",
    "C103_documents",
    "C103_viewers",
    "C103_threads_refuted"
   ],
   "note": "C103_threads_refuted is the last sentence of the statement."
  },
  {
   "property": "C104",
   "status": "proved",
   "theorems": [
    "C104_dictionaries",
    "C104_streams",
    "C104_misspelled_refuted",
    "C104_indirect_type_refuted"
   ],
   "note": "the refuted theorems are the last sentence of the statement."
  },
  {
   "property": "C105",
   "status": "proved",
   "theorems": [
    "C105_depth",
    "C105_document_refuted"
   ],
   "note": "C105_document_refuted is the last sentence of the statement."
  },
  {
   "property": "C106",
   "status": "proved",
   "theorems": [
    "C106_contains",
    "C106_max",
    "C106_list",
    "C106_bytewise_refuted",
    "C106_bool"
   ],
   "note": "C106_bytewise_refuted is the last sentence of the statement."
  },
  {
   "property": "C107",
   "status": "proved",
   "theorems": [
    "C107_merge",
    "C107_algebra",
    "C107_table",
    "C107_freed_refuted"
   ],
   "note": "C107_freed_refuted is the last sentence of the statement."
  },
  {
   "property": "C108",
   "status": "proved",
   "theorems": [
    "C108_filtered",
    "C108_both",
    "C108_parameters_refuted",
    "C108_unknown",
    "C108_properties",
    "C108_intent",
    "C108_false_refuted"
   ],
   "note": "C108_parameters_refuted and C108_false_refuted are the defects of the statement's last sentence."
  },
  {
   "property": "C109",
   "status": "proved",
   "theorems": [
    "C109_equal",
    "C109_streams",
    "C109_result",
    "C109_equivalence",
    "C109_reference_refuted",
    "C109_reference_stream",
    "C109_kinds_refuted"
   ],
   "note": "C109_reference_refuted and C109_kinds_refuted are the defects of the statement's last sentence. Inline images, compared by identity, are not modelled."
  }
 ]
}