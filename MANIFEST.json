{
 "claims": [
  {
   "property": "C01",
   "status": "proved",
   "theorems": [
    "C01_hex_roundtrip",
    "C01_hex_whitespace_and_trailer",
    "C01_hex_whitespace_any"
   ],
   "note": "full"
  },
  {
   "property": "C02",
   "status": "proved",
   "theorems": [
    "C02_a85_roundtrip",
    "C02_a85_trailer"
   ],
   "note": "full"
  },
  {
   "property": "C03",
   "status": "proved",
   "theorems": [
    "C03_rl_roundtrip",
    "C03_rl_size"
   ],
   "note": "full; the bound is shown attained in C03_example"
  },
  {
   "property": "C04",
   "status": "partial",
   "theorems": [
    "C04_hex_exact",
    "C04_hex_illegal",
    "C04_a85_exact_partial",
    "C04_a85_overflow_refuted",
    "C04_rl_exact",
    "C04_rl_error_exact",
    "C04_no_panic"
   ],
   "note": "everything except: an ASCII85 group above 2^32-1 is accepted and wrapped (refuted by C04_a85_overflow_refuted)"
  },
  {
   "property": "C05",
   "status": "proved",
   "theorems": [
    "C05_slash_optional",
    "C05_dispatch",
    "C05_unknown_rejected",
    "C05_jpeg_passthrough"
   ],
   "note": "zlib is an oracle argument"
  },
  {
   "property": "C06",
   "status": "proved",
   "theorems": [
    "C06_registry"
   ],
   "note": "all call histories of the writer registry"
  },
  {
   "property": "C07",
   "status": "proved",
   "theorems": [
    "C07_xref_table",
    "C07_big_offset_entry"
   ],
   "note": "table mode, output under 10^10 bytes; beyond that an entry is not 20 bytes (proved)"
  },
  {
   "property": "C08",
   "status": "partial",
   "theorems": [
    "C08_open_read_back_partial",
    "C08_get_read_back_partial",
    "C08_document_read_back_partial",
    "C08_streams_readable",
    "C08_stream_word_refuted",
    "C08_endobj_word_refuted",
    "C08_leading_blank_refuted",
    "C08_object_600_refuted"
   ],
   "note": "Proved for documents written with the default options whose texts avoid the reader's keywords (up to 499 numbers through Open/GetObject, any number in byte-perfect mode). The full property is false: four refutations."
  },
  {
   "property": "C09",
   "status": "partial",
   "theorems": [
    "C09_map_order",
    "C09_dictionary_order",
    "C09_write_twice_partial",
    "C09_object_stream_order_refuted",
    "C09_write_twice_xref_stream_refuted"
   ],
   "note": "holds without object/xref streams; refuted with object streams (map order) and for a second Write with an xref stream"
  },
  {
   "property": "C10",
   "status": "proved",
   "theorems": [
    "C10_stream_roundtrip",
    "C10_data_roundtrip",
    "C10_indexed_stream_partial",
    "C10_long_index_refuted",
    "C10_default_type_refuted"
   ],
   "note": "writer and reader of the xref stream, any table; hypotheses on the compressed bytes are explicit; streams of other producers with /Index are read exactly (partial: /Index in the first 500 bytes, first width not 0: both refuted otherwise)"
  },
  {
   "property": "C11",
   "status": "partial",
   "theorems": [
    "C11_object_stream_refuted",
    "C11_late_refuted",
    "C11_last_refuted",
    "C11_short_refuted"
   ],
   "note": "The claim is false for every document: each object is read as many bytes late as the index is long (proved for all object lists), the last one never comes back. Conforming streams are read correctly (C21). Missing: the form of the stream's dictionary in the file is that of the specification, not the writer's key order."
  },
  {
   "property": "C12",
   "status": "partial",
   "theorems": [
    "C12_content_escape_partial",
    "C12_content_escape_any",
    "C12_content_invalid_refuted",
    "C12_field_escape_partial",
    "C12_field_escape_refuted",
    "C12_metadata_escape",
    "C12_unescape_partial",
    "C12_unescape_refuted"
   ],
   "note": "Literal strings decode to the text for metadata (all bytes), content streams (valid UTF-8) and form text (Latin-1); false for invalid UTF-8, for form text above U+00FF, and unescape does not invert escape when the text has a backslash."
  },
  {
   "property": "C13",
   "status": "proved",
   "theorems": [
    "C13_count",
    "C13_extract",
    "C13_numbers_start_at_one",
    "C13_increasing"
   ],
   "note": "all byte strings, all k"
  },
  {
   "property": "C14",
   "status": "partial",
   "theorems": [
    "C14_newest_direct_partial",
    "C14_newest_compressed_partial",
    "C14_freed_object_refuted",
    "C14_moved_object_refuted",
    "C14_conforming_chain_partial",
    "C14_cr_table_refuted",
    "C14_objects_listed"
   ],
   "note": "newest binding wins among direct entries and among compressed entries; refuted for freed objects and for objects moving out of an object stream; a conforming file with any chain of tables opens with exactly the objects the chain says (any generation); tables with SP CR line ends are not read (refuted)"
  },
  {
   "property": "C15",
   "status": "proved",
   "theorems": [
    "C15_prev_chain"
   ],
   "note": "all files"
  },
  {
   "property": "C16",
   "status": "proved",
   "theorems": [
    "C16_bytes",
    "C16_raw_objects",
    "C16_lookup_agrees",
    "C16_count",
    "C16_newest_revision",
    "C16_stream_data",
    "C16_revision_bounds",
    "C16_header"
   ],
   "note": "all files; stream data, dictionary and the bounds of every revision"
  },
  {
   "property": "C17",
   "status": "partial",
   "theorems": [
    "C17_raw_object",
    "C17_trailer",
    "C17_revision",
    "C17_open_partial",
    "C17_document_partial",
    "C17_xref_stream_exactly",
    "C17_direct_object_partial",
    "C17_object_stream_partial",
    "C17_open_refuted",
    "C17_direct_refuted",
    "C17_object_stream_refuted",
    "C17_object_stream_exactly"
   ],
   "note": "False as stated (three refutations); the theorems say exactly where a panic can come from.; panics of the object stream reader characterised exactly"
  },
  {
   "property": "C18",
   "status": "partial",
   "theorems": [
    "C18_find_written_partial",
    "C18_number_suffix_refuted",
    "C18_recovery"
   ],
   "note": "Holds for files made by the writer whose texts do not contain ' 0 obj'; false in general.; the fallback search finds the first header after white space, or none exists"
  },
  {
   "property": "C19",
   "status": "partial",
   "theorems": [
    "C19_last_startxref_partial",
    "C19_short_update_refuted",
    "C19_trailer_refuted",
    "C19_get_object_refuted",
    "C19_last_trailer"
   ],
   "note": "Open uses the last startxref unless another one stands in the 100 bytes before; ParsePDFTrailer and GetObject use the first.; /Root and /Info come from the last trailer"
  },
  {
   "property": "C20",
   "status": "partial",
   "theorems": [
    "C20_predictor_partial",
    "C20_average_paeth_refuted",
    "C20_any_filter_partial",
    "C20_paeth_refuted",
    "C20_average_refuted"
   ],
   "note": "None/Sub/Up recovered; with Average or Paeth rows the table is recovered exactly if those rows were not changed by their filter (proved for all tables), which is false below most rows."
  },
  {
   "property": "C21",
   "status": "proved",
   "theorems": [
    "C21_conforming_stream",
    "C21_number_suffix_refuted",
    "C21_stream_read",
    "C21_compressed_file_partial"
   ],
   "note": "needs that no earlier text matches the stream's header; without it refuted; also CR LF after the keyword, encrypted data, and whole files through GetObject"
  },
  {
   "property": "C22",
   "status": "partial",
   "theorems": [
    "C22_setup",
    "C22_passwords_unlock",
    "C22_written_file",
    "C22_reopens",
    "C22_object_streams_refuted"
   ],
   "note": "Both passwords open the file key, for all passwords, salts, keys (the owner up to a hash collision); written documents reopen. Refuted: with object streams the encryption dictionary is compressed and the file cannot be opened as encrypted."
  },
  {
   "property": "C23",
   "status": "partial",
   "theorems": [
    "C23_accepted_v5",
    "C23_unwrapped",
    "C23_accepted_old",
    "C23_wrong_password_refuted"
   ],
   "note": "Exact acceptance conditions for every password and dictionary. Refuted: a wrong password is accepted with a wrong key when the last byte of the unwrapped OE is at most 16; O is never verified."
  },
  {
   "property": "C24",
   "status": "partial",
   "theorems": [
    "C24_roundtrip",
    "C24_encrypts",
    "C24_no_panic",
    "C24_bad_length",
    "C24_padding_refuted",
    "C24_rc4_refuted",
    "C24_panic_refuted"
   ],
   "note": "Round trip for all data, keys and vectors. Refuted: padding bytes are not checked, RC4 versions are not encrypted by the writer, an overlong /Length panics."
  },
  {
   "property": "C25",
   "status": "partial",
   "theorems": [
    "C25_rc4_involution",
    "C25_rc4_objects",
    "C25_per_object",
    "C25_documents",
    "C25_user_password_partial",
    "C25_owner_password_partial",
    "C25_short_password_refuted",
    "C25_owner_password_refuted",
    "C25_long_key_refuted"
   ],
   "note": "RC4 inverts itself; per-object key data is injective; documents of a conforming producer open with empty or 32-byte user passwords (and owner passwords for revision 2). Refuted: short passwords (wrong padding), revision 3 owner passwords, keys over 128 bits panic."
  },
  {
   "property": "C26",
   "status": "partial",
   "theorems": [
    "C26_object_partial",
    "C26_fifteen_bytes_refuted",
    "C26_stream"
   ],
   "note": "Objects read back unless one byte short of a multiple of 16; streams read back decrypted with the right length. Refuted: every 15-byte object is lost."
  },
  {
   "property": "C27",
   "status": "partial",
   "theorems": [
    "C27_rotation_history",
    "C27_rotate_page",
    "C27_rotate_absent",
    "C27_rotate_all",
    "C27_other_angles_rejected",
    "C27_compact_refuted",
    "C27_wrap_refuted"
   ],
   "note": "All rotation histories over all pages, any current int64 value below 2^63-360, for pages whose /Rotate value is followed by a delimiter. Refuted: a value that touches the next key (the key is destroyed), 64-bit wrap-around."
  },
  {
   "property": "C28",
   "status": "proved",
   "theorems": [
    "C28_ranges_partition",
    "C28_split_by_count",
    "C28_split_ranges"
   ],
   "note": "All page counts and k; each output is ExtractPages of its range."
  },
  {
   "property": "C29",
   "status": "partial",
   "theorems": [
    "C29_delete_pages_partial",
    "C29_count_refuted",
    "C29_suffix_refuted",
    "C29_spaced_array_refuted",
    "C29_compact_count_refuted",
    "C29_repeat_refuted",
    "C29_ancestor_count_refuted"
   ],
   "note": "The remaining pages are right for every regular page tree and set of pages without digit-suffix collisions; the node count is always one too low (refuted), and several spellings corrupt the node (refuted)."
  },
  {
   "property": "C30",
   "status": "partial",
   "theorems": [
    "C30_merge_partial",
    "C30_backward_references",
    "C30_numbers_distinct",
    "C30_page_order_partial",
    "C30_forward_reference_refuted",
    "C30_order_refuted",
    "C30_content_rewritten_refuted"
   ],
   "note": "References to objects listed no later are remapped, for all documents and reference graphs; forward references are not (refuted), page order follows object iteration order (refuted), content bytes that look like references are rewritten (refuted)."
  },
  {
   "property": "C31",
   "status": "partial",
   "theorems": [
    "C31_extract_pages_partial",
    "C31_contents_lost_refuted",
    "C31_object_one_refuted"
   ],
   "note": "Listed pages in listed order, in a valid page tree; what they reference is not copied (refuted); object number 1 collides (refuted)."
  },
  {
   "property": "C32",
   "status": "partial",
   "theorems": [
    "C32_set_get_word_partial",
    "C32_set_get_name_partial",
    "C32_set_get_array_partial",
    "C32_set_get_absent_partial",
    "C32_other_keys_partial",
    "C32_reference_refuted",
    "C32_two_entries_refuted",
    "C32_next_key_refuted",
    "C32_longer_key_refuted"
   ],
   "note": "Set-then-get for words, names, one-level arrays and absent keys; frame for numeric replacement. References and touching keys refuted."
  },
  {
   "property": "C33",
   "status": "proved",
   "theorems": [
    "C33_longest_common_subsequence"
   ],
   "note": "any element types and match relation"
  },
  {
   "property": "C34",
   "status": "proved",
   "theorems": [
    "C34_text_diff_accounts",
    "C34_modified_pairs"
   ],
   "note": "all granularities, sensitivities and move detection; floats are IEEE binary64; modified pairs carry the two texts and are reported only when they differ"
  },
  {
   "property": "C35",
   "status": "partial",
   "theorems": [
    "C35_self_comparison_partial",
    "C35_duplicate_graphics_refuted",
    "C35_zero_tolerance_refuted",
    "C35_image_order_refuted"
   ],
   "note": "holds for finite coordinates, positive tolerance, distinct graphic/annotation keys and equal images per page; false otherwise (witnesses)"
  },
  {
   "property": "C36",
   "status": "proved",
   "theorems": [
    "C36_form_difference"
   ],
   "note": "values by their printed form"
  },
  {
   "property": "C37",
   "status": "partial",
   "theorems": [
    "C37_normalise_idempotent",
    "C37_change_ratio",
    "C37_ignore_options_refuted"
   ],
   "note": "normalised-equal texts are still reported as modified"
  },
  {
   "property": "C38",
   "status": "partial",
   "theorems": [
    "C38_sensitivity",
    "C38_threshold_ignored",
    "C38_threshold_refuted"
   ],
   "note": "MinChangeThreshold is never read by the code, so it hides nothing"
  },
  {
   "property": "C39",
   "status": "proved",
   "theorems": [
    "C39_collector",
    "C39_snapshot_until_clear",
    "C39_snapshot_refuted"
   ],
   "note": "also: a list handed out by Warnings is stable until Clear and overwritten after it"
  },
  {
   "property": "C40",
   "status": "partial",
   "theorems": [
    "C40_errors_is",
    "C40_classification_partial",
    "C40_classification_refuted",
    "C40_error_text"
   ],
   "note": "errors.Is works through any chain (errors.Join not modelled); IsNotFound and friends and GetErrorCode see only the outermost error"
  },
  {
   "property": "C41",
   "status": "partial",
   "theorems": [
    "C41_validate_field",
    "C41_validate_form_data_partial",
    "C41_order",
    "C41_validate_answer",
    "C41_validate_schema",
    "C41_deep_required_refuted",
    "C41_deep_supplied_refuted",
    "C41_absent_value_refuted",
    "C41_characters_refuted"
   ],
   "note": "Exact for single fields, schemas and forms of at most two levels; fields at the third level are neither required nor accepted (refuted); nil for an optional choice is rejected and MaxLen counts bytes (refuted)."
  },
  {
   "property": "C42",
   "status": "partial",
   "theorems": [
    "C42_full_name",
    "C42_find_partial",
    "C42_find_full_name_partial",
    "C42_values_partial",
    "C42_deep_refuted",
    "C42_shadowed_refuted"
   ],
   "note": "Full names for all trees; lookup and values for two levels; deeper fields are not found and partial names shadow full names (refuted)."
  },
  {
   "property": "C43",
   "status": "proved",
   "theorems": [
    "C43_flags"
   ],
   "note": ""
  },
  {
   "property": "C44",
   "status": "partial",
   "theorems": [
    "C44_update_value_partial",
    "C44_insert_value_partial",
    "C44_fill_value_partial",
    "C44_unreadable_refuted",
    "C44_dollar_refuted",
    "C44_wrong_object_refuted",
    "C44_unknown_name_refuted"
   ],
   "note": "The value is replaced and all other bytes stay, but the filled document cannot be read (duplicate header, stale cross-reference table); dollar signs are expanded; object 3 is confused with 13."
  },
  {
   "property": "C45",
   "status": "partial",
   "theorems": [
    "C45_rebuild_partial",
    "C45_index_lost_refuted"
   ],
   "note": "Contents and index are computed correctly, but the index is not written."
  },
  {
   "property": "C46",
   "status": "partial",
   "theorems": [
    "C46_outline_partial",
    "C46_parent_refuted",
    "C46_title_refuted",
    "C46_destination_refuted"
   ],
   "note": "Items, links, counts for every forest; refuted: top-level items lack /Parent, titles are wrapped twice in parentheses, page destinations are written as strings"
  },
  {
   "property": "C47",
   "status": "proved",
   "theorems": [
    "C47_content_tokens",
    "C47_nesting",
    "C47_raw_name_refuted",
    "C47_whole_lines"
   ],
   "note": "Sprintf of a float is any function giving a number text; a name with a space breaks the stream (refuted)."
  },
  {
   "property": "C48",
   "status": "partial",
   "theorems": [
    "C48_decode",
    "C48_means_unique",
    "C48_hex_bytes",
    "C48_hex_pairs",
    "C48_cid_refuted",
    "C48_literal_pairs_refuted",
    "C48_tab_refuted",
    "C48_cmap",
    "C48_own_fonts",
    "C48_own_fonts_refuted",
    "C48_array_refuted",
    "C48_utf16_refuted",
    "C48_differences",
    "C48_differences_refuted",
    "C48_uni_names",
    "C48_u_names",
    "C48_names_refuted",
    "C48_font_cmap_partial"
   ],
   "note": "Decode and DecodeHex follow the stated priority for every font and string; ToUnicode maps of single characters and ranges, Differences arrays and code-point glyph names are read exactly; the maps this library writes read back. False, and refuted: two-byte fonts with only small codes, two-byte codes in literal strings, arrays in bfrange, UTF-16 surrogates and ligatures, characters above 0xFFFF of the own fonts, names without blanks between them. A font whose ToUnicode stream holds such a map is decoded by it."
  },
  {
   "property": "C49",
   "status": "partial",
   "theorems": [
    "C49_manipulator_pages",
    "C49_cyclic_refuted",
    "C49_extractor_pages_partial",
    "C49_extractor_cyclic_refuted",
    "C49_kids_space_refuted"
   ],
   "note": "Manipulator: page list = leaves of the tree for every tree. Extractor (ExtractPages): one page per leaf, in order, numbered from 1, for every tree whose node objects have the array of kids right after the key. Refuted: cyclic trees exhaust every stack in both; white space before the kids array makes the extractor find no pages"
  },
  {
   "property": "C50",
   "status": "proved",
   "theorems": [
    "C50_subset",
    "C50_first_use",
    "C50_glyphs"
   ],
   "note": "All call histories, all fonts."
  },
  {
   "property": "C51",
   "status": "partial",
   "theorems": [
    "C51_format12",
    "C51_terminates",
    "C51_forever_refuted",
    "C51_format4",
    "C51_short_table_refuted",
    "C51_subtable",
    "C51_subtable_offset_refuted",
    "C51_tables",
    "C51_no_panic_partial",
    "C51_name_table_refuted",
    "C51_widths_partial",
    "C51_widths",
    "C51_widths_monospaced_refuted",
    "C51_widths_wrap_refuted",
    "C51_new_font"
   ],
   "note": "Character maps are exact for well-formed tables of both formats; reading ends iff no format 12 group ends at 0xFFFFFFFF. Refuted: termination, short tables and bad subtable offsets (panic), widths beyond the advances or from glyph 16384 on."
  },
  {
   "property": "C52",
   "status": "partial",
   "theorems": [
    "C52_frame_partial",
    "C52_sound",
    "C52_panic_partial",
    "C52_image_object",
    "C52_panic_refuted",
    "C52_frame_types_refuted",
    "C52_fill_byte_refuted"
   ],
   "note": "Exact for files whose segments precede a frame header C0-C3 without fill bytes; sound for every input; the panic case characterised"
  },
  {
   "property": "C53",
   "status": "partial",
   "theorems": [
    "C53_stream_length_partial",
    "C53_shared_dictionary_refuted"
   ],
   "note": "holds when each stream has its own map; refuted for shared maps"
  },
  {
   "property": "C54",
   "status": "partial",
   "theorems": [
    "C54_stream_text",
    "C54_nil_stream_refuted"
   ],
   "note": "holds for non-nil data; refuted for nil data"
  },
  {
   "property": "C55",
   "status": "partial",
   "theorems": [
    "C55_outlines_catalog_refuted",
    "C55_dictionary_partial",
    "C55_text_partial",
    "C55_pages_refuted",
    "C55_no_pages_refuted"
   ],
   "note": "Proved for dictionary catalogs and for text catalogs without /Type or /Pages; every other text catalog is refuted: three entries remain and /Pages becomes a string."
  },
  {
   "property": "C56",
   "status": "partial",
   "theorems": [
    "C56_info_round_trip_partial",
    "C56_set_metadata",
    "C56_parentheses_refuted",
    "C56_reference_refuted",
    "C56_default_date"
   ],
   "note": "Round trip for texts without parentheses, backslashes, leading slash or trailing ' R', dates in PDF form and word-like custom keys; false outside (refuted)."
  },
  {
   "property": "C57",
   "status": "partial",
   "theorems": [
    "C57_keyed_difference_partial",
    "C57_duplicate_refuted"
   ],
   "note": "exact for distinct keys; repeated shapes are miscounted"
  },
  {
   "property": "C58",
   "status": "proved",
   "theorems": [
    "C58_identical_iff_nothing_reported"
   ],
   "note": ""
  },
  {
   "property": "C59",
   "status": "proved",
   "theorems": [
    "C59_metadata_difference"
   ],
   "note": ""
  },
  {
   "property": "C60",
   "status": "proved",
   "theorems": [
    "C60_pages_reported"
   ],
   "note": ""
  },
  {
   "property": "C61",
   "status": "partial",
   "theorems": [
    "C61_insert_page",
    "C61_pages_read_back",
    "C61_nested_refuted",
    "C61_second_append_refuted"
   ],
   "note": "All flat page trees, all positions and histories; nested trees refuted."
  },
  {
   "property": "C62",
   "status": "partial",
   "theorems": [
    "C62_rebuild_objects",
    "C62_rebuild_root",
    "C62_wrapped_twice_refuted"
   ],
   "note": "The writer gets exactly the edited texts and the root; reading back wraps each object twice (refuted)."
  },
  {
   "property": "C63",
   "status": "partial",
   "theorems": [
    "C63_field_read_back_partial",
    "C63_form_read_back_partial",
    "C63_parenthesis_refuted",
    "C63_no_fields"
   ],
   "note": "For texts without characters that are escaped in PDF strings; a parenthesis in a name is read back wrong (refuted)."
  },
  {
   "property": "C64",
   "status": "partial",
   "theorems": [
    "C64_unreadable_refuted",
    "C64_field_unchanged_refuted"
   ],
   "note": "Refuted: the flattened document has stale offsets; FlattenField does nothing."
  },
  {
   "property": "C65",
   "status": "partial",
   "theorems": [
    "C65_schema_partial",
    "C65_schema_ids",
    "C65_kids_refuted",
    "C65_built_types",
    "C65_iso_buttons_refuted"
   ],
   "note": "Top-level fields only; kids are missing; button flags are off by one bit with respect to ISO 32000-1."
  },
  {
   "property": "C66",
   "status": "partial",
   "theorems": [
    "C66_document",
    "C66_no_pages_refuted",
    "C66_bytes_twice_refuted"
   ],
   "note": "Any history with at least one finalised page; refuted for no pages and for Bytes called twice"
  },
  {
   "property": "C67",
   "status": "partial",
   "theorems": [
    "C67_standard_fonts_partial",
    "C67_images_partial",
    "C67_same_font_twice_refuted",
    "C67_embedded_refuted",
    "C67_image_name_refuted"
   ],
   "note": "Standard fonts only, and images with distinct names; collisions refuted"
  },
  {
   "property": "C68",
   "status": "partial",
   "theorems": [
    "C68_text_partial",
    "C68_image_partial",
    "C68_error_refuted",
    "C68_no_color_refuted",
    "C68_image_name_refuted"
   ],
   "note": "Balanced on success; errors leave the state saved, a nil colour panics, images are drawn without a name"
  },
  {
   "property": "C69",
   "status": "partial",
   "theorems": [
    "C69_picture",
    "C69_transparent_color_refuted"
   ],
   "note": "Every pixel of every image as decoded; transparent colours are stored premultiplied (refuted)"
  },
  {
   "property": "C70",
   "status": "partial",
   "theorems": [
    "C70_objects",
    "C70_length_twice_refuted",
    "C70_system_info_refuted",
    "C70_widths_place_refuted"
   ],
   "note": "Objects, references and widths proved for every successful call. Refuted: two /Length entries, /CIDSystemInfo printed as a Go map, /Widths indexed by subset position."
  },
  {
   "property": "C71",
   "status": "partial",
   "theorems": [
    "C71_to_unicode",
    "C71_order_refuted",
    "C71_wide_refuted",
    "C71_name_partial",
    "C71_name_refuted"
   ],
   "note": "Every line names a mapped character; names of printable ASCII read back. Refuted: order dependence, glyphs above 255, characters above 0xFFFF, non-ASCII names."
  },
  {
   "property": "C72",
   "status": "partial",
   "theorems": [
    "C72_win_ansi_partial",
    "C72_mac_roman_partial",
    "C72_standard",
    "C72_bullets_refuted",
    "C72_currency_refuted",
    "C72_named_font_partial",
    "C72_inline_encoding_refuted",
    "C72_default_font_partial",
    "C72_symbol_refuted"
   ],
   "note": "StandardEncoding is exact; WinAnsi and MacRoman are exact except six unused codes (bullets) and code 219; MacExpertEncoding is not checked against the standard. A font that names one of them, itself or through an encoding object with replaced characters, is decoded so; an encoding dictionary written inside the font is ignored (refuted); a font without an encoding reads as standard Latin text, but so does Symbol (refuted)."
  },
  {
   "property": "C73",
   "status": "partial",
   "theorems": [
    "C73_extract_partial",
    "C73_texts",
    "C73_foreign_array_partial",
    "C73_parenthesis_refuted",
    "C73_bracket_refuted",
    "C73_one_line_refuted",
    "C73_second_block_refuted",
    "C73_matrix_refuted",
    "C73_restore_refuted",
    "C73_gray_refuted",
    "C73_next_line_refuted"
   ],
   "note": "proved for every history of ContentStream calls (no Raw) whose numbers print and parse as decimals, resource names are words and strings contain no backslash and no closing parenthesis (bracket in arrays); the state in force is the code's notion of it. Also proved: after any such history, a text array as other programs write it (balanced parentheses, strings in hex, numbers between) shows exactly its strings. The full statement is false: closing parentheses and brackets lose the text, operators sharing a line are lost, BT does not reset the position, cm replaces instead of multiplying, Q does not restore colours, gray levels are ignored, T*/TD/' are misplaced"
  },
  {
   "property": "C74",
   "status": "partial",
   "theorems": [
    "C74_read_back_partial",
    "C74_texts",
    "C74_contents_array_refuted",
    "C74_inherited_refuted",
    "C74_endstream_refuted"
   ],
   "note": "End to end for every history with at least one finalised page: numeric page sizes, standard fonts, images with plain names, at most 499 object numbers, stored texts without the reader's keywords, content calls in the scope of C73; zlib, number printing and parsing are arguments. Missing: embedded fonts, bookmarks, larger files. Refutations for documents of the forms the builder does not make"
  },
  {
   "property": "C75",
   "status": "partial",
   "theorems": [
    "C75_outline_partial",
    "C75_written_partial",
    "C75_written_shape",
    "C75_cycle_refuted",
    "C75_title_refuted",
    "C75_uri_refuted",
    "C75_damage_refuted"
   ],
   "note": "The outline is read for any tree of one-word values, and the tree SetBookmarks writes comes back in shape. Refuted: cycles kill the process, titles keep parentheses and lose all but their first word, URIs written by SetBookmarks read as /Type, an unreadable item hides its later siblings."
  },
  {
   "property": "C76",
   "status": "partial",
   "theorems": [
    "C76_annotations_partial",
    "C76_page_number_refuted",
    "C76_lost_refuted",
    "C76_values_refuted"
   ],
   "note": "Proved for arrays written right after /Annots and one-word values. Refuted: PageNumber is an object number; a space or an indirect array loses all; contents are cut at a space; '/URI ( x)' panics; nested URI actions are lost."
  },
  {
   "property": "C77",
   "status": "partial",
   "theorems": [
    "C77_content",
    "C77_pages_agree",
    "C77_same_name_refuted"
   ],
   "note": "Pages, annotations and first-of-each-name are proved for all documents and map orders; 'each font exactly once' is refuted when two pages use one name for two fonts."
  },
  {
   "property": "C78",
   "status": "partial",
   "theorems": [
    "C78_image_partial",
    "C78_jpeg_back",
    "C78_picture_back",
    "C78_length_refuted",
    "C78_all_images_refuted"
   ],
   "note": "Image objects with a direct /Length, and what AddJPEGImage and AddImage store. Refuted: indirect /Length, overflowing /Length panics, forms reported as images, '/Kids [' finds none."
  },
  {
   "property": "C79",
   "status": "partial",
   "theorems": [
    "C79_directory_files",
    "C79_summary",
    "C79_summary_refuted"
   ],
   "note": "Files, references and counts proved; HasForms is constantly false, unwritten images are counted, and ids differ between pages and directory."
  },
  {
   "property": "C80",
   "status": "partial",
   "theorems": [
    "C80_build_extract_partial",
    "C80_streams_extract_partial",
    "C80_signature_refuted",
    "C80_inflated_twice_refuted",
    "C80_length_refuted",
    "C80_long_array_refuted",
    "C80_undecodable"
   ],
   "note": "Proved for streams whose bytes in the file contain none of the reader's keywords and whose data the decompressors reject; refuted: signature and sourceSet are dropped by BuildPDFFromXFAStreams, inflatable data is inflated twice, a huge Length panics, arrays over 10000 bytes are not found."
  },
  {
   "property": "C81",
   "status": "partial",
   "theorems": [
    "C81_update_fields_partial",
    "C81_update_order_partial",
    "C81_update_section_partial",
    "C81_update_whole_partial",
    "C81_injection_refuted",
    "C81_section_refuted"
   ],
   "note": "Proved for flat fields with values free of the four tags; refuted: values are not escaped, injected tags set other fields and make the result depend on map order, a misplaced </data> panics, the field may lie outside the section."
  },
  {
   "property": "C82",
   "status": "partial",
   "theorems": [
    "C82_replace_partial",
    "C82_caller_refuted",
    "C82_longer_refuted",
    "C82_longer_example_refuted",
    "C82_object_refuted"
   ],
   "note": "Proved when the new data is no longer than the old or exceeds the array; refuted in general: longer data that fits overwrites what follows before it is copied, the caller's bytes are overwritten, object 5 is found in the header of object 15."
  },
  {
   "property": "C83",
   "status": "partial",
   "theorems": [
    "C83_rebuilt_partial",
    "C83_dictionary_partial",
    "C83_values_partial",
    "C83_array_refuted",
    "C83_name_value_refuted",
    "C83_filter_refuted",
    "C83_panic_refuted"
   ],
   "note": "Exact effect proved for every file of plain objects (no keyword inside, classic cross-reference table); refuted as preservation of meaning: names in stream dictionaries are lost (so filters are), arrays and reals become strings, two inputs panic."
  },
  {
   "property": "C84",
   "status": "partial",
   "theorems": [
    "C84_roundtrip_partial",
    "C84_bool",
    "C84_int",
    "C84_string",
    "C84_float_partial",
    "C84_zero_one_refuted",
    "C84_text_refuted",
    "C84_nested_refuted",
    "C84_standard_group_refuted",
    "C84_unnamed_refuted",
    "C84_reserved_refuted"
   ],
   "note": "Proved: field names and the reread value of every field, and the groups before the first one that holds a group; exactly which values survive. Refuted: 0/1 become booleans, numeric text becomes a number, blanks are trimmed, nested groups and all later groups are lost, groups named like a format element are dissolved, unnamed fields are dropped."
  },
  {
   "property": "C85",
   "status": "partial",
   "theorems": [
    "C85_kept_partial",
    "C85_lost_refuted"
   ],
   "note": "Proved for all schemas: what comes back (title, names, labels and descriptions up to outer blanks, kept types, flags, default text, layout properties, validation script and message, number of options). Refuted for all schemas: option values, patterns and limits, other properties, page number, select and unknown types, hidden together with read-only, all rules."
  },
  {
   "property": "C86",
   "status": "partial",
   "theorems": [
    "C86_names_partial",
    "C86_ids",
    "C86_nested_refuted",
    "C86_unique_refuted",
    "C86_script_refuted"
   ],
   "note": "Proved: one question per field in document order for templates whose subforms are not nested; every ID is an identifier, for any document. Refuted: nested subforms lose fields, IDs collide, scripts are never read."
  },
  {
   "property": "C87",
   "status": "partial",
   "theorems": [
    "C87_detect",
    "C87_acroform_first",
    "C87_none",
    "C87_same",
    "C87_password",
    "C87_no_password",
    "C87_fill",
    "C87_validate_refuted",
    "C87_password_refuted",
    "C87_groups_refuted"
   ],
   "note": "Agreement of Detect, Extract and the type-specific functions, and the use of the password, are proved for all files. Refuted: Validate of an XFA form never reports an error, its password is never used, values in groups are not returned."
  },
  {
   "property": "C88",
   "status": "partial",
   "theorems": [
    "C88_document_partial",
    "C88_fields_partial"
   ],
   "note": "For streams whose bytes do not contain the reader's keywords and for the fields of C63; encoding/xml is a parameter."
  },
  {
   "property": "C89",
   "status": "partial",
   "theorems": [
    "C89_fill_partial",
    "C89_fill_refuted",
    "C89_compressed_refuted"
   ],
   "note": "Fill gives the file with the stream replaced if the new data is not longer and stored uncompressed. Refuted: a longer value makes a file on which the interface panics; a compressed stream is written back uncompressed under its filter."
  },
  {
   "property": "C90",
   "status": "partial",
   "theorems": [
    "C90_accepted",
    "C90_uri_partial",
    "C90_script_partial",
    "C90_reset_partial",
    "C90_goto_partial",
    "C90_page_refuted",
    "C90_submit_refuted",
    "C90_second_action_refuted",
    "C90_event_script_partial",
    "C90_event_uri_partial",
    "C90_second_event_refuted"
   ],
   "note": "When an action is accepted; the exact entry written for a first action (the URI or script reads back, for Latin-1 texts), nothing else changed. Refuted: a second action gives a duplicate key, a second event's action destroys the dictionary, the page of GoTo is taken as an object number, the address of SubmitForm is dropped."
  },
  {
   "property": "C91",
   "status": "partial",
   "theorems": [
    "C91_added_partial",
    "C91_last_wins_partial",
    "C91_replaced_partial",
    "C91_ignored_refuted",
    "C91_text_partial",
    "C91_button_partial",
    "C91_checkbox"
   ],
   "note": "The appearance entry, last one wins, the drawing holds the text (Latin-1). Refuted: a field whose text has /AP elsewhere is silently left; the font of a text appearance is always object 0."
  },
  {
   "property": "C92",
   "status": "partial",
   "theorems": [
    "C92_catalog_partial",
    "C92_dropped_refuted",
    "C92_validation_refuted"
   ],
   "note": "BuildForm's catalog names the form; refuted: Bytes replaces that catalog, so every written document lacks the form; validation errors do not stop filling."
  },
  {
   "property": "C93",
   "status": "partial",
   "theorems": [
    "C93_verdict",
    "C93_pages",
    "C93_counts",
    "C93_page_count",
    "C93_form",
    "C93_metadata_partial",
    "C93_bookmarks_refuted"
   ],
   "note": "Verdict and count; a line for every page difference, its counts, the page counts and every form field; metadata only title, author, page count. Refuted: bookmark differences are counted but never named."
  },
  {
   "property": "C94",
   "status": "partial",
   "theorems": [
    "C94_history",
    "C94_two_collectors",
    "C94_list_kept_partial",
    "C94_list_overwritten_refuted",
    "C94_filters"
   ],
   "note": "Contents after every history, for every growth of the array; refuted: a list given out is overwritten after Clear."
  },
  {
   "property": "C95",
   "status": "partial",
   "theorems": [
    "C95_is",
    "C95_sentinel",
    "C95_codes_distinct",
    "C95_context",
    "C95_text",
    "C95_helpers_partial",
    "C95_wrapped_refuted"
   ],
   "note": "errors.Is characterised over all chains; refuted: the classifying helpers look at the outermost error only."
  },
  {
   "property": "C96",
   "status": "partial",
   "theorems": [
    "C96_roundtrip_partial",
    "C96_unnamed_refused",
    "C96_conveyed_printable",
    "C96_url_order_refuted",
    "C96_description_refuted",
    "C96_connection_refuted",
    "C96_blank_refuted"
   ],
   "note": "Proved for properties whose names mean nothing else to the reader, values as trimmed text; refuted: url/uri clash depends on map order, description property query moves, key connection, blank values."
  },
  {
   "property": "C97",
   "status": "partial",
   "theorems": [
    "C97_roundtrip_partial",
    "C97_read_back",
    "C97_written",
    "C97_holiday_refuted",
    "C97_precision_refuted"
   ],
   "note": "Exactly what comes back for every locale set; refuted for holidays holding the word holiday and negative precisions."
  },
  {
   "property": "C98",
   "status": "partial",
   "theorems": [
    "C98_no_panic",
    "C98_roundtrip_partial",
    "C98_values",
    "C98_string_refuted",
    "C98_negative_refuted",
    "C98_scalar_refuted",
    "C98_style_refuted"
   ],
   "note": "No panic for every token sequence; round trip of structures with positive numbers; refuted for strings that look like numbers, negative numbers, scalar font/size, key style."
  },
  {
   "property": "C99",
   "status": "partial",
   "theorems": [
    "C99_no_panic",
    "C99_read_back",
    "C99_roundtrip_partial",
    "C99_lost_refuted",
    "C99_section_refuted",
    "C99_flat_refuted"
   ],
   "note": "No panic; exactly what comes back; validate/common/output/script/trace/properties are lost."
  },
  {
   "property": "C100",
   "status": "partial",
   "theorems": [
    "C100_history",
    "C100_reads_all",
    "C100_negative_refuted",
    "C100_huge_refuted"
   ],
   "note": "Every history of calls with arguments below 2^62 and non-negative lengths answers like a position in the file; negative lengths, and lengths that overflow, panic (shown)."
  },
  {
   "property": "C101",
   "status": "partial",
   "theorems": [
    "C101_never_refuted",
    "C101_wrong_object_refuted",
    "C101_no_panic_partial",
    "C101_panic_refuted",
    "C101_hang_refuted"
   ],
   "note": "The claim is false: in every file beginning with %PDF- the right offset gives an error (unless a 0 or + precedes an occurrence of the header, and then another object can be returned); no panic for offsets up to 500 behind the end, panic behind that; a dictionary can be read for ever. The decryption functions are parameters."
  },
  {
   "property": "C102",
   "status": "partial",
   "theorems": [
    "C102_fields_partial",
    "C102_sound",
    "C102_count",
    "C102_prefix_refuted",
    "C102_nested_refuted",
    "C102_caption_refuted",
    "C102_collision_refuted"
   ],
   "note": "Proved for templates whose fields stand side by side and whose text contains <field; refuted: namespace prefixes (no fields at all), nested fields (one lost), captions (their text becomes the default), identifiers of different names (collide)."
  },
  {
   "property": "C103",
   "status": "partial",
   "theorems": [
    "C103_one_line_partial",
    "C103_no_panic",
    "C103_lines_refuted",
    "C103_states_refuted",
    "C103_compressed_refuted"
   ],
   "note": "Proved for uncompressed drawings of one line; refuted for drawings of several lines (the whole object comes back), for fields with an appearance per state (an error) and for compressed ones, which includes every appearance this library makes."
  },
  {
   "property": "C104",
   "status": "partial",
   "theorems": [
    "C104_form_partial",
    "C104_unencrypted_untouched",
    "C104_stream_partial",
    "C104_recovery_partial",
    "C104_loose_header_partial",
    "C104_caller_refuted",
    "C104_cut_refuted",
    "C104_panic_refuted"
   ],
   "note": "Proved: for an unencrypted document without a table, the form object and every stream it names are found exactly, and the caller's bytes are untouched; an object whose number is followed by a tab or a line end is found whole within a thousand bytes of the place given. Missing: streams whose data contains 'stream' or '<<', forms not written as this library writes them. Refuted: for an encrypted document the caller's bytes are overwritten with the decrypted form; data before the first << is lost; a table offset far behind the end panics."
  },
  {
   "property": "C105",
   "status": "partial",
   "theorems": [
    "C105_resources_partial",
    "C105_page_partial",
    "C105_pages_partial",
    "C105_standard_font",
    "C105_lost_refuted",
    "C105_size_refuted"
   ],
   "note": "Proved for resource dictionaries as the writer writes them (any names of word characters, any fonts and external objects whose dictionaries give one-word values). Missing: other layouts; refuted for names with a hyphen, inline font dictionaries, font dictionaries in an object of their own and values not followed by white space."
  },
  {
   "property": "C106",
   "status": "partial",
   "theorems": [
    "C106_rebuild_partial",
    "C106_stream_fields_partial",
    "C106_direct_field_partial",
    "C106_unknown_names",
    "C106_never_empty",
    "C106_skipped_refuted",
    "C106_two_fields_refuted"
   ],
   "note": "The text written is exact for any number of fields in one object stream and for one direct field; the rewritten stream lacks its index and the offsets are stale (C44/C45 refutations), filling two direct fields panics (refuted), and a field that cannot hold a value is skipped in silence (refuted)."
  },
  {
   "property": "C107",
   "status": "partial",
   "theorems": [
    "C107_dictionary_read",
    "C107_opens_partial",
    "C107_length_missing_refuted",
    "C107_unsigned_permissions_refuted",
    "C107_unsigned_refused_refuted"
   ],
   "note": "Fields read as written for all values; user password opens. False for missing /Length (revision 3) and unsigned permissions. Missing: passwords of 1-31 bytes (refuted in C25), owner password, crypt filter dictionaries."
  },
  {
   "property": "C108",
   "status": "partial",
   "theorems": [
    "C108_stored_strings",
    "C108_lengths_refuted",
    "C108_iso_check_refuted"
   ],
   "note": "U and O are exactly the stated strings; UE and OE have 48 bytes instead of 32 and U fails the check of ISO 32000-2."
  },
  {
   "property": "C109",
   "status": "partial",
   "theorems": [
    "C109_objects",
    "C109_revision_bytes",
    "C109_panic_refuted",
    "C109_revisions_follow",
    "C109_overlap_refuted",
    "C109_object_header_refuted",
    "C109_written_partial",
    "C109_header_version"
   ],
   "note": "Objects and revisions are parts of the file for every file; RevisionBytes panics exactly when a revision has no objects and its section lies after its end; overlap and junk before an object header are possible. Written documents: classic table only."
  },
  {
   "property": "C110",
   "status": "partial",
   "theorems": [
    "C110_sections",
    "C110_written_partial",
    "C110_outside_refuted"
   ],
   "note": "Bytes fit for every file; values for written documents; an offset outside the file panics."
  },
  {
   "property": "C111",
   "status": "partial",
   "theorems": [
    "C111_rotate",
    "C111_delete",
    "C111_insert",
    "C111_extract_split",
    "C111_merge",
    "C111_open",
    "C111_finite",
    "C111_circle_refuted"
   ],
   "note": "Exact condition for every operation, merging included. Refuted as an unconditional claim: circular trees crash every operation."
  },
  {
   "property": "C112",
   "status": "partial",
   "theorems": [
    "C112_bookmarks",
    "C112_bookmarks_circle_refuted",
    "C112_form_dictionary",
    "C112_form",
    "C112_form_circle_refuted",
    "C112_contents",
    "C112_xfa"
   ],
   "note": "Exact conditions for bookmarks, form fields (ParseAcroForm included), contents and the XFA reader. As an unconditional claim refuted: circles crash."
  },
  {
   "property": "C113",
   "status": "partial",
   "theorems": [
    "C113_tree_partial",
    "C113_form_partial",
    "C113_file_partial",
    "C113_reference_refuted",
    "C113_nested_refuted",
    "C113_choice_refuted",
    "C113_strings_refuted",
    "C113_inherited_refuted"
   ],
   "note": "All trees, layouts and entry orders; strings without escapes or parentheses, values in other notations count as missing. Refuted: references for flags, keys in nested dictionaries, values with spaces in arrays, export values, escapes and hexadecimal strings, inheritance."
  },
  {
   "property": "C114",
   "status": "proved",
   "theorems": [
    "C114_questions",
    "C114_rules"
   ],
   "note": "full"
  },
  {
   "property": "C115",
   "status": "partial",
   "theorems": [
    "C115_locale_read",
    "C115_connection_read",
    "C115_config_read_partial",
    "C115_locale_written",
    "C115_connection_written",
    "C115_config_written",
    "C115_says_one",
    "C115_validate_refuted"
   ],
   "note": "Proved for every token sequence and every value. Missing: the texts between tags (properties, holidays), see C96, C97, C99; negative numbers are not written. Refuted for the reader: attributes of validate, common and output are ignored."
  },
  {
   "property": "C116",
   "status": "partial",
   "theorems": [
    "C116_text_partial",
    "C116_image",
    "C116_simple_partial",
    "C116_opacity_refuted",
    "C116_default_refuted",
    "C116_center_refuted",
    "C116_size_refuted",
    "C116_nil_refuted"
   ],
   "note": "Position, rotation and size are proved for all numbers; exact arithmetic instead of float64. Refuted by the code: the opacity darkens the colour (opacity 0 is solid black); giving only Y does not centre horizontally; a size left out is 0, not 48; nil options are an error."
  },
  {
   "property": "C117",
   "status": "partial",
   "theorems": [
    "C117_comparison_partial",
    "C117_text_partial",
    "C117_text_verdict",
    "C117_images",
    "C117_forms",
    "C117_metadata",
    "C117_element_text_refuted",
    "C117_verdict_refuted"
   ],
   "note": "Proved: reports are mirrored for all documents whose pages do not repeat a shape; text verdicts, images, forms and metadata for all inputs. Text compared by elements is mirrored in number only (refuted exactly: ties of the longest common subsequence); with repeated shapes even the verdict depends on the order (refuted)."
  },
  {
   "property": "C118",
   "status": "partial",
   "theorems": [
    "C118_fields_partial",
    "C118_two_names_refuted",
    "C118_other_letters_refuted"
   ],
   "note": "Proved for all maps with ASCII names; a field given under two names gets one of the two values (proved), which one depends on the iteration order (refuted); letters outside ASCII whose lower case is ASCII are mistaken for a standard name (refuted)."
  },
  {
   "property": "C119",
   "status": "partial",
   "theorems": [
    "C119_bytes",
    "C119_lookup",
    "C119_list",
    "C119_place",
    "C119_read_partial",
    "C119_revisions_partial",
    "C119_compressed_refuted",
    "C119_moved_refuted",
    "C119_count_refuted",
    "C119_same_object_refuted"
   ],
   "note": "Bytes, lookups and lists for every file; both readings for headers at their place in unencrypted documents. Refuted: agreement with the standard mode (compressed and moved objects, number of revisions) and of the two readings for an offset one byte early."
  }
 ]
}