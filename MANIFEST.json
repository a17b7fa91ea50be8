{
 "claims": [
  {
   "property": "C01",
   "status": "proved",
   "theorems": [
    "C01_section_width",
    "C01_section_raise",
    "C01_spec_deterministic"
   ],
   "note": ""
  },
  {
   "property": "C02",
   "status": "proved",
   "theorems": [
    "C02_view_frame",
    "C02_view_never_spills",
    "C02_views_commute"
   ],
   "note": ""
  },
  {
   "property": "C03",
   "status": "proved",
   "theorems": [
    "C03_bits_set",
    "C03_bits_get_after_set",
    "C03_written_unique"
   ],
   "note": ""
  },
  {
   "property": "C04",
   "status": "proved",
   "theorems": [
    "C04_integer_exact",
    "C04_integer_refuses",
    "C04_integer_get_injective",
    "C04_default_width",
    "C04_boolean"
   ],
   "note": ""
  },
  {
   "property": "C05",
   "status": "proved",
   "theorems": [
    "C05_text_roundtrip",
    "C05_text_rejects_non_latin1",
    "C05_text_cut",
    "C05_text_trailing_nul_refuted"
   ],
   "note": "The no-trailing-NUL condition is shown necessary."
  },
  {
   "property": "C06",
   "status": "proved",
   "theorems": [
    "C06_flags_byte_roundtrip",
    "C06_flags_update",
    "C06_flags_contains",
    "C06_flags_wide",
    "C06_flags_width_refuted"
   ],
   "note": "Round trip, update and membership proved for one byte; the width claim for multi-byte data is false and refuted, its exact law proved."
  },
  {
   "property": "C07",
   "status": "proved",
   "theorems": [
    "C07_bcd_exact",
    "C07_bcd_refuses",
    "C07_bcd_rewrite"
   ],
   "note": ""
  },
  {
   "property": "C08",
   "status": "proved",
   "theorems": [
    "C08_nibble_fields",
    "C08_sign_field",
    "C08_nibble_get",
    "C08_wide_refuted"
   ],
   "note": "Values that fit; wider values are mangled (refuted)."
  },
  {
   "property": "C09",
   "status": "proved",
   "theorems": [
    "C09_header_first_53",
    "C09_header_restores",
    "C09_constructed_wf",
    "C09_loaded_wf",
    "C09_header_stream_refuted",
    "C09_constructed_fields",
    "C09_constructed_defaults"
   ],
   "note": "The stream-position claim is false and refuted."
  },
  {
   "property": "C10",
   "status": "proved",
   "theorems": [
    "C10_model_header_targets_model",
    "C10_targets_exact",
    "C10_targets_nonempty"
   ],
   "note": ""
  },
  {
   "property": "C11",
   "status": "proved",
   "theorems": [
    "C11_entry_roundtrip",
    "C11_entry_roundtrip_generic",
    "C11_entry_layout",
    "C11_ambiguous_loses_flash",
    "C11_roundtrip_refuted"
   ],
   "note": "Exact condition: the round trip holds iff the version and archive bytes do not spell the data length; a refuting witness for the unconditional claim is given."
  },
  {
   "property": "C12",
   "status": "proved",
   "theorems": [
    "C12_entry_bytes_roundtrip",
    "C12_complex_refuted"
   ],
   "note": "Needs the type byte and payload to agree for complex numbers and lists; refuted without."
  },
  {
   "property": "C13",
   "status": "proved",
   "theorems": [
    "C13_entry_len",
    "C13_next_entry_length",
    "C13_peek",
    "C13_peek_short_refuted"
   ],
   "note": "On fewer than four remaining bytes the peek moves the stream back (refuted)."
  },
  {
   "property": "C14",
   "status": "proved",
   "theorems": [
    "C14_var_bytes",
    "C14_var_roundtrip"
   ],
   "note": ""
  },
  {
   "property": "C15",
   "status": "proved",
   "theorems": [
    "C15_checksum_value",
    "C15_warning_iff",
    "C15_single_byte",
    "C15_single_byte_refuted"
   ],
   "note": "Single-byte detection needs the altered entry to stay self-describing; refuted without (complex numbers)."
  },
  {
   "property": "C16",
   "status": "proved",
   "theorems": [
    "C16_len_two_short",
    "C16_len_refuted"
   ],
   "note": "The claim is false; proved: always two short."
  },
  {
   "property": "C17",
   "status": "proved",
   "theorems": [
    "C17_add_entry_kept",
    "C17_empty_replaced",
    "C17_add_entry_refuted"
   ],
   "note": "True for entries with data; false and refuted for empty ones."
  },
  {
   "property": "C18",
   "status": "proved",
   "theorems": [
    "C18_loop_terminates",
    "C18_fuel_irrelevant",
    "C18_entry_count"
   ],
   "note": ""
  },
  {
   "property": "C19",
   "status": "proved",
   "theorems": [
    "C19_listed_model",
    "C19_no_listed_model",
    "C19_unlisted_newer_model_raises",
    "C19_no_model",
    "C19_extension_refuted"
   ],
   "note": "The never-fails part is refuted."
  },
  {
   "property": "C20",
   "status": "proved",
   "theorems": [
    "C20_check_two_targets",
    "C20_check_one_target_raises",
    "C20_model_check_refuted"
   ],
   "note": "The two-target case is proved; single-target headers raise (refuted)."
  },
  {
   "property": "C21",
   "status": "proved",
   "theorems": [
    "C21_flashless_refuted"
   ],
   "note": "The claim is false for every argument."
  },
  {
   "property": "C22",
   "status": "proved",
   "theorems": [
    "C22_archive",
    "C22_unarchive",
    "C22_only_archive_byte",
    "C22_raises_iff"
   ],
   "note": ""
  },
  {
   "property": "C23",
   "status": "proved",
   "theorems": [
    "C23_length_in_sync",
    "C23_image_refuted",
    "C23_graphed_equation_refuted"
   ],
   "note": "True for every sized class except TIImage and TIGraphedEquation, for which it is refuted."
  },
  {
   "property": "C24",
   "status": "proved",
   "theorems": [
    "C24_calc_data_refuted",
    "C24_data_uneditable"
   ],
   "note": "The claim is false for every entry and view."
  },
  {
   "property": "C25",
   "status": "proved",
   "theorems": [
    "C25_exact",
    "C25_zero",
    "C25_leading_zero_refuted"
   ],
   "note": "Literals without superfluous leading zeros; with them the claim is false (refuted)."
  },
  {
   "property": "C26",
   "status": "proved",
   "theorems": [
    "C26_truncates",
    "C26_unique"
   ],
   "note": ""
  },
  {
   "property": "C27",
   "status": "proved",
   "theorems": [
    "C27_string_roundtrip_iff",
    "C27_zero",
    "C27_string_roundtrip_refuted"
   ],
   "note": "The exact condition is proved; the unconditional claim is refuted."
  },
  {
   "property": "C28",
   "status": "proved",
   "theorems": [
    "C28_atomic_refuted",
    "C28_overflow_leaves_mantissa"
   ],
   "note": "False; what a refused load leaves behind is proved exactly."
  },
  {
   "property": "C29",
   "status": "proved",
   "theorems": [
    "C29_negation"
   ],
   "note": ""
  },
  {
   "property": "C30",
   "status": "proved",
   "theorems": [
    "C30_fraction_roundtrip",
    "C30_large_refuted"
   ],
   "note": "Proved within the 14-digit range; refuted beyond it."
  },
  {
   "property": "C31",
   "status": "proved",
   "theorems": [
    "C31_radical_value",
    "C31_radical_refused"
   ],
   "note": "Proved for components below 1000 and a nonzero leading term; the others are proved to be refused."
  },
  {
   "property": "C32",
   "status": "proved",
   "theorems": [
    "C32_out_of_range_refuted",
    "C32_right_refuses",
    "C32_left_refuses",
    "C32_left_mangles"
   ],
   "note": "Left-aligned fields accept 1000..9999 (refuted); right-aligned fields refuse them."
  },
  {
   "property": "C33",
   "status": "proved",
   "theorems": [
    "C33_assign_real",
    "C33_assign_imag",
    "C33_order"
   ],
   "note": ""
  },
  {
   "property": "C34",
   "status": "proved",
   "theorems": [
    "C34_operand_refuted",
    "C34_operand_value"
   ],
   "note": "The claim is false (the operand's kind tag is overwritten); proved: nothing else of the operand changes."
  },
  {
   "property": "C35",
   "status": "proved",
   "theorems": [
    "C35_sign_refuted",
    "C35_version",
    "C35_version_of",
    "C35_version_of_empty"
   ],
   "note": "False for negative or graphing parts (refuted); exact law given for all payloads."
  },
  {
   "property": "C36",
   "status": "proved",
   "theorems": [
    "C36_roundtrip",
    "C36_limit",
    "C36_flashless_refuted",
    "C36_operand_refuted"
   ],
   "note": "Round trip proved for every real or complex list with fewer than 65536 elements stored with flash bytes; C36_limit for longer ones. C36_flashless_refuted: list() fails on every non-empty flashless list. C36_operand_refuted: a real reused as part of a complex number breaks the list."
  },
  {
   "property": "C37",
   "status": "proved",
   "theorems": [
    "C37_roundtrip",
    "C37_uneven",
    "C37_limit",
    "C37_no_columns_refuted",
    "C37_warning_refuted",
    "C37_size_warning"
   ],
   "note": "Round trip proved with the exact warnings; ragged rows and over-wide matrices refused. Refuted: a matrix with no columns loses its rows; the width check uses the old height and warns spuriously."
  },
  {
   "property": "C38",
   "status": "proved",
   "theorems": [
    "C38_version_refuted"
   ],
   "note": "The claim is false: C38_version_refuted proves the version is 0 for every payload of every list or matrix."
  },
  {
   "property": "C39",
   "status": "proved",
   "theorems": [
    "C39_empty_refuted",
    "C39_save_load",
    "C39_generic_list_refuted",
    "C39_length_warning"
   ],
   "note": "The claim is false: C39_empty_refuted proves every empty list fails to load. C39_save_load proves every non-empty list saves and loads with its class and elements; C39_generic_list_refuted shows the one kind that TIList itself mis-reads."
  },
  {
   "property": "C40",
   "status": "proved",
   "theorems": [
    "C40_prefix",
    "C40_tokens"
   ],
   "note": "Also: each token is on the sheet or stands for bytes that are not, and decoding is silent iff all are on the sheet."
  },
  {
   "property": "C41",
   "status": "proved",
   "theorems": [
    "C41_decode_concat",
    "C41_prefix_needed_refuted"
   ],
   "note": "Prefix-freedom shown necessary (refuted without)."
  },
  {
   "property": "C42",
   "status": "proved",
   "theorems": [
    "C42_sound_complete",
    "C42_longest_first"
   ],
   "note": ""
  },
  {
   "property": "C43",
   "status": "proved",
   "theorems": [
    "C43_thetas",
    "C43_cut",
    "C43_data",
    "C43_terminates",
    "C43_escape",
    "C43_empty_name_refuted",
    "C43_literal_bytes_refuted"
   ],
   "note": "Soundness for every mode, termination, errors only ValueError, escaped bytes read back; refuted: an empty name loops for ever, a byte literal may encode to nothing."
  },
  {
   "property": "C44",
   "status": "proved",
   "theorems": [
    "C44_runs",
    "C44_stack",
    "C44_never_exhausted"
   ],
   "note": ""
  },
  {
   "property": "C45",
   "status": "proved",
   "theorems": [
    "C45_max",
    "C45_string"
   ],
   "note": "Exact: success and tokens characterised in both directions."
  },
  {
   "property": "C46",
   "status": "proved",
   "theorems": [
    "C46_program_bound",
    "C46_list_bound",
    "C46_limit_refuted",
    "C46_literal_refuted"
   ],
   "note": "The claim is false (refuted: nine and six); proved: at most nine and six without byte literals; with byte literals there is no bound (refuted)."
  },
  {
   "property": "C47",
   "status": "proved",
   "theorems": [
    "C47_decode_encode",
    "C47_literal_refuted"
   ],
   "note": "Refuted with byte literals."
  },
  {
   "property": "C48",
   "status": "proved",
   "theorems": [
    "C48_lines",
    "C48_join_iff",
    "C48_join_refuted"
   ],
   "note": "Line count and contents proved; joining gives the tokens back iff no store arrow or quote occurs (refuted otherwise)."
  },
  {
   "property": "C49",
   "status": "proved",
   "theorems": [
    "C49_thresholds",
    "C49_monotone",
    "C49_clock",
    "C49_recognised",
    "C49_versions_refuted",
    "C49_clock_alignment_refuted"
   ],
   "note": "Thresholds exact and monotone; +0x20 iff clock bytes occur anywhere in the raw data (token alignment refuted); recognised but for 0x07 and 0x27 (refuted)."
  },
  {
   "property": "C50",
   "status": "proved",
   "theorems": [
    "C50_version_follows",
    "C50_empty_refuted"
   ],
   "note": "Proved for nonempty data; refuted for empty data. TIGraphedEquation (different length view) excluded."
  },
  {
   "property": "C51",
   "status": "proved",
   "theorems": [
    "C51_assembly",
    "C51_protect",
    "C51_unprotect",
    "C51_inverse",
    "C51_asm_refuted",
    "C51_inverse_refuted"
   ],
   "note": "Proved for plain program objects and exact result; inverse for non-assembly data; on assembly-class objects both always raise (refuted)."
  },
  {
   "property": "C52",
   "status": "proved",
   "theorems": [
    "C52_group_roundtrip",
    "C52_ungroup",
    "C52_regroup",
    "C52_empty",
    "C52_archived_warning",
    "C52_name_warning",
    "C52_vat",
    "C52_load"
   ],
   "note": "all groupable kinds (reals, tokenized, programs, appvars, groups, pictures, GDBs, short-named settings); also the inverse direction; version functions of the members abstract but assumed not to raise"
  },
  {
   "property": "C53",
   "status": "proved",
   "theorems": [
    "C53_list_refuted",
    "C53_complex_refuted",
    "C53_graphed_refuted",
    "C53_flashless_refuted",
    "C53_matrix_refuted",
    "C53_two_matrices_refuted",
    "C53_settings_refuted"
   ],
   "note": "false: lists IndexError, complex ValueError, graphed equations and flashless entries AttributeError (all inputs); matrices and settings under their default names come back different (witnesses)"
  },
  {
   "property": "C54",
   "status": "proved",
   "theorems": [
    "C54_load_array",
    "C54_pixels",
    "C54_bytes",
    "C54_layout",
    "C54_ragged",
    "C54_size_refuted"
   ],
   "note": "every 63x96 array; 0/255 pixels come back exactly, others normalised; bytes to pixels to bytes; pixel layout; array dimensions are not checked (refuted part)"
  },
  {
   "property": "C55",
   "status": "proved",
   "theorems": [
    "C55_colours",
    "C55_nearest",
    "C55_first_nearest",
    "C55_bytes",
    "C55_bytes_unchanged",
    "C55_load_array",
    "C55_picture_bytes",
    "C55_odd_row_refuted"
   ],
   "note": "all colours (unbounded ints): nearest palette colour, first among equals; every byte; whole 165x266 pictures both ways; odd rows lose their last pixel silently (refuted part)"
  },
  {
   "property": "C56",
   "status": "proved",
   "theorems": [
    "C56_bytes",
    "C56_close",
    "C56_stable",
    "C56_load_array",
    "C56_image_bytes"
   ],
   "note": "all 65536 byte pairs, all in-range colours, whole 83x133 images; padding bytes cleared"
  },
  {
   "property": "C57",
   "status": "proved",
   "theorems": [
    "C57_length_refuted"
   ],
   "note": "false for every image: the length word is one short after load_array, and loading warns"
  },
  {
   "property": "C58",
   "status": "proved",
   "theorems": [
    "C58_image",
    "C58_image0_refuted",
    "C58_image10_refuted",
    "C58_other"
   ],
   "note": "Image1-Image9 proved; false for Image0 (rejected) and the tenth image (reads Image10); Pic names use the token Name converter, whose tokens are not in the pinned tree"
  },
  {
   "property": "C59",
   "status": "proved",
   "theorems": [
    "C59_get",
    "C59_get_out",
    "C59_set",
    "C59_independent",
    "C59_pair_refuted",
    "C59_fresh_refuted",
    "C59_plain",
    "C59_plain_refuted"
   ],
   "note": "all well-formed GDBs of the four modes; false for style/colour of the second equation of a pair, for newly made equations and for plain TIEquation objects (refuted parts)"
  },
  {
   "property": "C60",
   "status": "proved",
   "theorems": [
    "C60_mono",
    "C60_contents",
    "C60_generic_class",
    "C60_generic_refuted"
   ],
   "note": "payload, equations and parameters proved; the length words are stale so the result always warns; false for monochrome GDBs loaded generically (refuted part)"
  },
  {
   "property": "C61",
   "status": "proved",
   "theorems": [
    "C61_inside",
    "C61_disjoint",
    "C61_names",
    "C61_set",
    "C61_read_back",
    "C61_tiles"
   ],
   "note": "all fields of all GDB and settings classes"
  },
  {
   "property": "C62",
   "status": "proved",
   "theorems": [
    "C62_refuted",
    "C62_inert"
   ],
   "note": "false for every settings dictionary; proved refused and inert"
  },
  {
   "property": "C63",
   "status": "proved",
   "theorems": [
    "C63_load",
    "C63_round_trip_iff",
    "C63_restored",
    "C63_constructed_refuted",
    "C63_length",
    "C63_loads_iff"
   ],
   "note": "exact condition proved (eight-byte name, one device, right length byte and checksum); exact warnings and exact set of loadable inputs; false for every constructed header"
  },
  {
   "property": "C64",
   "status": "proved",
   "theorems": [
    "C64_new",
    "C64_empty_refuted",
    "C64_write",
    "C64_sum",
    "C64_parse",
    "C64_detects",
    "C64_strict_refuted"
   ],
   "note": "proved for payloads up to 255 bytes; also: any single payload byte changed is noticed; first character and text after the check byte are ignored; a block without data cannot be written"
  },
  {
   "property": "C65",
   "status": "proved",
   "theorems": [
    "C65_date",
    "C65_date_any",
    "C65_date_refuted",
    "C65_revision",
    "C65_revision_any",
    "C65_revision_refuses",
    "C65_revision_refuted",
    "C65_devices"
   ],
   "note": "proved in range, with the exact behaviour out of range; years above 9999 carry into the month, revision 5.01 reads back as 5.1"
  },
  {
   "property": "C66",
   "status": "proved",
   "theorems": [
    "C66_next_length",
    "C66_next_image",
    "C66_truncated_refuted"
   ],
   "note": "proved wherever a whole header follows; false when the stream ends inside the size word"
  },
  {
   "property": "C67",
   "status": "proved",
   "theorems": [
    "C67_first_implemented_loader",
    "C67_no_loader",
    "C67_cases",
    "C67_register_new",
    "C67_register_replace"
   ],
   "note": ""
  },
  {
   "property": "C68",
   "status": "proved",
   "theorems": [
    "C68_has_table",
    "C68_families_grow",
    "C68_82AEP_drops_apps_only"
   ],
   "note": ""
  },
  {
   "property": "C69",
   "status": "proved",
   "theorems": [
    "C69_negated_radical_unchanged",
    "C69_negation_refuted"
   ],
   "note": "False for radicals: negation leaves the value unchanged."
  },
  {
   "property": "C70",
   "status": "proved",
   "theorems": [
    "C70_pi_literal",
    "C70_bare_pi_refuted"
   ],
   "note": "True for every literal; the bare constant loads as zero (refuted)."
  },
  {
   "property": "C71",
   "status": "proved",
   "theorems": [
    "C71_limit_denominator_closest"
   ],
   "note": ""
  },
  {
   "property": "C72",
   "status": "proved",
   "theorems": [
    "C72_decimal_roundtrip"
   ],
   "note": ""
  },
  {
   "property": "C73",
   "status": "proved",
   "theorems": [
    "C73_accepted_iff",
    "C73_refused",
    "C73_valid_radicals_refuted"
   ],
   "note": "False; the exact set of accepted expressions is proved, and that a refusal is a ValueError leaving the number alone."
  },
  {
   "property": "C74",
   "status": "proved",
   "theorems": [
    "C74_pi_string_roundtrip_iff",
    "C74_pi_zero_refuted"
   ],
   "note": "Exact condition proved; zero does not read back (refuted)."
  },
  {
   "property": "C75",
   "status": "proved",
   "theorems": [
    "C75_text",
    "C75_minus_unit_refuted"
   ],
   "note": "Literals whose exponent carries no '+' or '-'; bare unit behind a minus is refuted."
  },
  {
   "property": "C76",
   "status": "proved",
   "theorems": [
    "C76_exponent_refuted",
    "C76_trailing_ignored",
    "C76_exponent"
   ],
   "note": "False; proved in general: a third summand never changes what is loaded, and digits behind a signed exponent mark load as the imaginary part."
  },
  {
   "property": "C77",
   "status": "proved",
   "theorems": [
    "C77_string_roundtrip_iff",
    "C77_string_roundtrip_refuted"
   ],
   "note": "Exact condition proved for all pairs of decimals; the text always loads; refuted for 3-i."
  },
  {
   "property": "C78",
   "status": "proved",
   "theorems": [
    "C78_enum",
    "C78_enum_refuses"
   ],
   "note": ""
  },
  {
   "property": "C79",
   "status": "proved",
   "theorems": [
    "C79_short_read",
    "C79_passes",
    "C79_never_index_error"
   ],
   "note": ""
  },
  {
   "property": "C80",
   "status": "proved",
   "theorems": [
    "C80_quotes",
    "C80_tokens_roundtrip",
    "C80_string_tokens"
   ],
   "note": ""
  },
  {
   "property": "C81",
   "status": "proved",
   "theorems": [
    "C81_name_roundtrip"
   ],
   "note": ""
  },
  {
   "property": "C82",
   "status": "proved",
   "theorems": [
    "C82_overwrites",
    "C82_refuted"
   ],
   "note": "false; proved exactly which two bytes change"
  },
  {
   "property": "C83",
   "status": "proved",
   "theorems": [
    "C83_names",
    "C83_fields",
    "C83_refuted"
   ],
   "note": "false for vnMin of sequence GDBs; every other key proved"
  },
  {
   "property": "C84",
   "status": "proved",
   "theorems": [
    "C84_stale",
    "C84_refuted"
   ],
   "note": "false for every assignment that changes the size"
  },
  {
   "property": "C85",
   "status": "proved",
   "theorems": [
    "C85_blocks",
    "C85_binary",
    "C85_terminated_refuted"
   ],
   "note": "proved; data with a terminated last line always raises"
  },
  {
   "property": "C86",
   "status": "proved",
   "theorems": [
    "C86_extension",
    "C86_fallback_refuted",
    "C86_table",
    "C86_default"
   ],
   "note": "false for every chronology; exact behaviour proved"
  },
  {
   "property": "C87",
   "status": "proved",
   "theorems": [
    "C87_select",
    "C87_open"
   ],
   "note": ""
  },
  {
   "property": "C88",
   "status": "proved",
   "theorems": [
    "C88_assign_refuted",
    "C88_error"
   ],
   "note": "false for every header and value"
  },
  {
   "property": "C89",
   "status": "proved",
   "theorems": [
    "C89_sticky_refuted",
    "C89_init_refuted",
    "C89_fresh"
   ],
   "note": "proved for fresh objects; false for reused objects and through the constructor"
  },
  {
   "property": "C90",
   "status": "proved",
   "theorems": [
    "C90_first_kind",
    "C90_none",
    "C90_fraction",
    "C90_radical",
    "C90_pi",
    "C90_imaginary_refuted",
    "C90_imaginary",
    "C90_zero_refuted"
   ],
   "note": "proved for the real part; false for the imaginary part and for a zero denominator (exact behaviour proved)"
  },
  {
   "property": "C91",
   "status": "proved",
   "theorems": [
    "C91_select",
    "C91_open",
    "C91_extension",
    "C91_mono_any_name",
    "C91_short_file",
    "C91_multiple_refuted",
    "C91_past_end_refuted"
   ],
   "note": "selection and extension test proved; the report of several entries is false, exact condition proved; past-the-end offsets refuted"
  },
  {
   "property": "C92",
   "status": "proved",
   "theorems": [
    "C92_entry",
    "C92_answers",
    "C92_var",
    "C92_header_refuted",
    "C92_header",
    "C92_header_copy",
    "C92_copy_refuted"
   ],
   "note": "equality proved for entries, headers, vars; copies exact for content-independent classes, proved for complex, refuted for uncoerced entries and for every assembly program"
  },
  {
   "property": "C93",
   "status": "proved",
   "theorems": [
    "C93_join",
    "C93_no_entries",
    "C93_unknown_magic",
    "C93_empty_refuted"
   ],
   "note": "proved, with the exact exceptions; false for entries without data"
  },
  {
   "property": "C94",
   "status": "proved",
   "theorems": [
    "C94_default",
    "C94_named",
    "C94_dotted",
    "C94_directory_refuted",
    "C94_reopens"
   ],
   "note": "proved with the exact test; false for directories with a dot"
  },
  {
   "property": "C95",
   "status": "proved",
   "theorems": [
    "C95_idlist_dead",
    "C95_idlist_refuted",
    "C95_roundtrip",
    "C95_unchecked",
    "C95_length",
    "C95_prefix_refuted"
   ],
   "note": "proved except for the two parts refuted: IDList is never written, the 5D prefix is not written back"
  },
  {
   "property": "C96",
   "status": "proved",
   "theorems": [
    "C96_braces",
    "C96_sequence",
    "C96_other",
    "C96_idempotent",
    "C96_string",
    "C96_capital"
   ],
   "note": "proved; str.capitalize is modelled for ASCII"
  },
  {
   "property": "C97",
   "status": "proved",
   "theorems": [
    "C97_positive",
    "C97_marked_refuted",
    "C97_supported",
    "C97_sign_refuted"
   ],
   "note": "exact condition proved; claim refuted for every number with the sign or graph bit"
  },
  {
   "property": "C98",
   "status": "proved",
   "theorems": [
    "C98_plain",
    "C98_succeeds_iff",
    "C98_negative_refuted",
    "C98_exact_refuted",
    "C98_supported"
   ],
   "note": "success characterised; refuted for every negative or exact part"
  },
  {
   "property": "C99",
   "status": "proved",
   "theorems": [
    "C99_real",
    "C99_complex_refuted",
    "C99_supported",
    "C99_exact_refuted"
   ],
   "note": "maximum proved for real lists and matrices; exact arithmetic never asked for (refuted)"
  },
  {
   "property": "C100",
   "status": "proved",
   "theorems": [
    "C100_supported_iff",
    "C100_default_model",
    "C100_save",
    "C100_save_refuted",
    "C100_save_complex_refuted",
    "C100_entries_refuted",
    "C100_equal_refuted"
   ],
   "note": "equivalence proved with the OS condition; three refutations"
  },
  {
   "property": "C101",
   "status": "proved",
   "theorems": [
    "C101_empty",
    "C101_text_refuted",
    "C101_min_os",
    "C101_reload_refuted"
   ],
   "note": "OS proved; text refuted for every non-empty equation under 256 bytes"
  },
  {
   "property": "C102",
   "status": "proved",
   "theorems": [
    "C102_depth",
    "C102_group",
    "C102_max",
    "C102_gdb",
    "C102_gdb_given",
    "C102_tokens",
    "C102_asm",
    "C102_fixed"
   ],
   "note": "proved; OS versions are abstract with a total preorder"
  },
  {
   "property": "C103",
   "status": "proved",
   "theorems": [
    "C103_reload_iff",
    "C103_reload_value",
    "C103_normal",
    "C103_stable",
    "C103_long_reload",
    "C103_zero_refuted",
    "C103_sum_refuted"
   ],
   "note": "equivalence proved; two refutations"
  },
  {
   "property": "C104",
   "status": "proved",
   "theorems": [
    "C104_fraction_reload",
    "C104_pi_reload",
    "C104_pi_integer_refuted"
   ],
   "note": "proved with the stated bounds; integer multiples of pi refuted in general; the hypothesis on Fraction(text) is met by the modelled Fraction (C144)"
  },
  {
   "property": "C105",
   "status": "proved",
   "theorems": [
    "C105_pieces",
    "C105_list",
    "C105_decimal",
    "C105_fraction",
    "C105_pi",
    "C105_pi_fraction",
    "C105_radical",
    "C105_exact",
    "C105_empty_refuted",
    "C105_kind_refuted"
   ],
   "note": "proved for each element kind under its condition; empty list and kind changes refuted; the hypotheses on Fraction(text) are met by the modelled Fraction (C144)"
  },
  {
   "property": "C106",
   "status": "proved",
   "theorems": [
    "C106_pieces",
    "C106_matrix",
    "C106_exact",
    "C106_empty_refuted"
   ],
   "note": "proved like C105; empty matrix refuted"
  },
  {
   "property": "C107",
   "status": "proved",
   "theorems": [
    "C107_smart",
    "C107_plain",
    "C107_string",
    "C107_unique"
   ],
   "note": "equivalence proved, and determinism of the cut"
  },
  {
   "property": "C108",
   "status": "proved",
   "theorems": [
    "C108_pieces_iff",
    "C108_reload",
    "C108_decimal_part",
    "C108_fraction_part",
    "C108_pi_part",
    "C108_pi_fraction_part",
    "C108_radical_part",
    "C108_fraction_iff",
    "C108_two_terms",
    "C108_unit_fraction_refuted",
    "C108_minus_one_refuted",
    "C108_whole_imaginary_refuted",
    "C108_split_radical_refuted"
   ],
   "note": "equivalence for the pieces and for pairs of fractions; failing cases refuted with witnesses; Fraction(text) specified by two assumptions, met by the modelled Fraction (C144)"
  },
  {
   "property": "C109",
   "status": "proved",
   "theorems": [
    "C109_equation",
    "C109_identity",
    "C109_shown_names",
    "C109_accepted_names",
    "C109_mode"
   ],
   "note": "result given exactly for every style and colour; the plain claim is false"
  },
  {
   "property": "C110",
   "status": "proved",
   "theorems": [
    "C110_reload",
    "C110_identity",
    "C110_loss_refuted"
   ],
   "note": "exact result and exact condition for equality; the plain claim is refuted. TIReal(value), its number and the token text are parameters; C142 puts the modelled numbers in their place; the hypothesis on the texts (no warnings) holds of the real text functions for empty equations only, C145 covers the others"
  },
  {
   "property": "C111",
   "status": "proved",
   "theorems": [
    "C111_uncoloured",
    "C111_mono"
   ],
   "note": "fails for every monochrome GDB; the hypothesis on the texts (no warnings) holds of the real text functions for empty equations only, C145 covers the others"
  },
  {
   "property": "C112",
   "status": "proved",
   "theorems": [
    "C112_sequence"
   ],
   "note": "fails for every named plot type; the others are covered by C110; the hypothesis on the texts (no warnings) holds of the real text functions for empty equations only, C145 covers the others"
  },
  {
   "property": "C113",
   "status": "proved",
   "theorems": [
    "C113_default",
    "C113_sequence",
    "C113_mono",
    "C113_general",
    "C113_general_param"
   ],
   "note": "true of three classes, false of the others. The readings of the numbers are a hypothesis, met by the modelled reader (C142)"
  },
  {
   "property": "C114",
   "status": "proved",
   "theorems": [
    "C114_formats",
    "C114_window",
    "C114_equations",
    "C114_equation_names",
    "C114_missing_mode"
   ],
   "note": "for window settings: attribute access other than the nine-byte views is a parameter"
  },
  {
   "property": "C115",
   "status": "proved",
   "theorems": [
    "C115_constructed",
    "C115_given",
    "C115_identity_refuted"
   ],
   "note": "exact condition proved, the plain claim is refuted"
  },
  {
   "property": "C116",
   "status": "proved",
   "theorems": [
    "C116_recognised",
    "C116_gdb"
   ],
   "note": "the exceptions 7 and 0x27 are reached (example)"
  },
  {
   "property": "C117",
   "status": "proved",
   "theorems": [
    "C117_version_warning"
   ],
   "note": ""
  },
  {
   "property": "C118",
   "status": "proved",
   "theorems": [
    "C118_equation",
    "C118_immutable",
    "C118_warnings"
   ],
   "note": ""
  },
  {
   "property": "C119",
   "status": "proved",
   "theorems": [
    "C119_number",
    "C119_bars",
    "C119_calls",
    "C119_loads_refuted"
   ],
   "note": "exact condition proved, the plain claim is refuted"
  },
  {
   "property": "C120",
   "status": "proved",
   "theorems": [
    "C120_list",
    "C120_barred",
    "C120_exact",
    "C120_loads_refuted"
   ],
   "note": "exact condition proved, the plain claim is refuted; the hypotheses on Fraction(text) are met by the modelled Fraction (C144)"
  },
  {
   "property": "C121",
   "status": "proved",
   "theorems": [
    "C121_matrix",
    "C121_barred",
    "C121_exact",
    "C121_loads_refuted"
   ],
   "note": "exact condition proved, the plain claim is refuted; the hypotheses on Fraction(text) are met by the modelled Fraction (C144)"
  },
  {
   "property": "C122",
   "status": "proved",
   "theorems": [
    "C122_pieces",
    "C122_decimal",
    "C122_loads_refuted"
   ],
   "note": "exact condition proved, the plain claim is refuted"
  },
  {
   "property": "C123",
   "status": "proved",
   "theorems": [
    "C123_mono",
    "C123_exact"
   ],
   "note": ""
  },
  {
   "property": "C124",
   "status": "proved",
   "theorems": [
    "C124_colour"
   ],
   "note": ""
  },
  {
   "property": "C125",
   "status": "proved",
   "theorems": [
    "C125_image",
    "C125_open_refuted"
   ],
   "note": "the claim is refuted for every image"
  },
  {
   "property": "C126",
   "status": "proved",
   "theorems": [
    "C126_count",
    "C126_size_refuted",
    "C126_format",
    "C126_unique",
    "C126_empty",
    "C126_pixels_refuted"
   ],
   "note": "two of the four parts are refuted, with witnesses"
  },
  {
   "property": "C127",
   "status": "proved",
   "theorems": [
    "C127_layout",
    "C127_length"
   ],
   "note": ""
  },
  {
   "property": "C128",
   "status": "proved",
   "theorems": [
    "C128_injective"
   ],
   "note": ""
  },
  {
   "property": "C129",
   "status": "proved",
   "theorems": [
    "C129_refused",
    "C129_failures",
    "C129_empty",
    "C129_unique"
   ],
   "note": ""
  },
  {
   "property": "C130",
   "status": "proved",
   "theorems": [
    "C130_dump",
    "C130_numbered",
    "C130_dump_refuted"
   ],
   "note": "the claim is refuted; the exact condition is proved"
  },
  {
   "property": "C131",
   "status": "proved",
   "theorems": [
    "C131_lines",
    "C131_text",
    "C131_injective"
   ],
   "note": ""
  },
  {
   "property": "C132",
   "status": "proved",
   "theorems": [
    "C132_dump",
    "C132_t",
    "C132_dump_refuted"
   ],
   "note": "the claim is refuted; the exact condition is proved, given what format() of Decimal does on these strings (a hypothesis, met by a concrete function)"
  },
  {
   "property": "C133",
   "status": "proved",
   "theorems": [
    "C133_text",
    "C133_numbered",
    "C133_newline",
    "C133_short_refuted"
   ],
   "note": "one exception is refuted by a witness"
  },
  {
   "property": "C134",
   "status": "proved",
   "theorems": [
    "C134_pieces",
    "C134_list",
    "C134_decimal_iff",
    "C134_element",
    "C134_minus_one_refuted"
   ],
   "note": "exact condition for lists of decimals; elements with exact real parts one at a time"
  },
  {
   "property": "C135",
   "status": "proved",
   "theorems": [
    "C135_exact",
    "C135_fraction",
    "C135_list_refuted"
   ],
   "note": "refuted for every list with such an element"
  },
  {
   "property": "C136",
   "status": "proved",
   "theorems": [
    "C136_cut",
    "C136_unique",
    "C136_zero",
    "C136_special",
    "C136_refused",
    "C136_int",
    "C136_int_zero",
    "C136_int_long"
   ],
   "note": ""
  },
  {
   "property": "C137",
   "status": "proved",
   "theorems": [
    "C137_nearest",
    "C137_back_iff",
    "C137_below",
    "C137_exact",
    "C137_whole",
    "C137_zero",
    "C137_back_refuted"
   ],
   "note": "exact condition proved, the plain claim is refuted"
  },
  {
   "property": "C138",
   "status": "proved",
   "theorems": [
    "C138_nearest",
    "C138_back",
    "C138_zero"
   ],
   "note": "Fraction(text) is a parameter with the hypothesis that it reads the text of the float, met by the modelled Fraction for every finite float (C144)"
  },
  {
   "property": "C139",
   "status": "proved",
   "theorems": [
    "C139_parts",
    "C139_refused",
    "C139_part_refused",
    "C139_cut",
    "C139_back_iff",
    "C139_back_refuted"
   ],
   "note": "exact condition proved, the plain claim is refuted"
  },
  {
   "property": "C140",
   "status": "proved",
   "theorems": [
    "C140_cut",
    "C140_zero",
    "C140_whole_iff",
    "C140_small",
    "C140_whole_refuted"
   ],
   "note": "exact condition proved, the plain claim is refuted"
  },
  {
   "property": "C141",
   "status": "proved",
   "theorems": [
    "C141_text",
    "C141_number",
    "C141_zero",
    "C141_whole",
    "C141_unique",
    "C141_number_refuted"
   ],
   "note": "exact condition proved, the plain claim is refuted. str(float) is modelled as the shortest text of the stored decimal; that no other stored decimal has the float is proved"
  },
  {
   "property": "C142",
   "status": "proved",
   "theorems": [
    "C142_numbers",
    "C142_reload",
    "C142_defaults",
    "C142_default",
    "C142_reload_refuted"
   ],
   "note": "true under the exact condition of C141, the plain claim is refuted. The text of equations is a parameter; the hypothesis on the texts (no warnings) holds of the real text functions for empty equations only, C145 covers the others"
  },
  {
   "property": "C143",
   "status": "proved",
   "theorems": [
    "C143_whole",
    "C143_xres",
    "C143_zero"
   ],
   "note": "the checks with int() and float() only; radicals and multiples of pi, which warn by their type, are not covered"
  },
  {
   "property": "C144",
   "status": "proved",
   "theorems": [
    "C144_reads",
    "C144_long_ratio",
    "C144_long",
    "C144_long_point",
    "C144_refuses",
    "C144_foreign",
    "C144_shown",
    "C144_float",
    "C144_back",
    "C144_fraction_reload",
    "C144_pi_reload"
   ],
   "note": "digits other than the ASCII ones are not modelled; texts longer than 4300 characters are covered by the refusals only"
  },
  {
   "property": "C145",
   "status": "proved",
   "theorems": [
    "C145_null",
    "C145_other",
    "C145_text",
    "C145_reload",
    "C145_uncoloured",
    "C145_unchanged",
    "C145_grows",
    "C145_refuted"
   ],
   "note": "_refuted: the default settings with Y1 = BA, two trips; json_name of the equation names, NFC in front of an escape and the name Y1 are hypotheses (the NFC one was checked for every code point with unicodedata)"
  },
  {
   "property": "C146",
   "status": "proved",
   "theorems": [
    "C146_sign",
    "C146_zero_refuted"
   ],
   "note": "the spec compares signed squares, integers only; the exception for 0/0 (InvalidOperation) is simplified to ZeroDivisionError"
  },
  {
   "property": "C147",
   "status": "proved",
   "theorems": [
    "C147_copy",
    "C147_filename",
    "C147_copy_refuted",
    "C147_class_refuted",
    "C147_empty"
   ],
   "note": "_refuted: a program for the TI-83 whose copy is saved under another name; a TIEntry whose copy is a TIProgram"
  },
  {
   "property": "C148",
   "status": "proved",
   "theorems": [
    "C148_entry",
    "C148_var",
    "C148_copy",
    "C148_mono_refuted"
   ],
   "note": "_refuted: a monochrome graph database whose copy is coloured and unequal"
  },
  {
   "property": "C149",
   "status": "proved",
   "theorems": [
    "C149_number",
    "C149_whole",
    "C149_dict",
    "C149_determined",
    "C149_table_refuted"
   ],
   "note": "_refuted: tables starting at 0 and at 0.5 have equal dictionaries"
  },
  {
   "property": "C150",
   "status": "proved",
   "theorems": [
    "C150_iff",
    "C150_apart",
    "C150_settled",
    "C150_entry",
    "C150_refuted",
    "C150_alias_refuted"
   ],
   "note": "_refuted: A and B become AB; _alias_refuted: a second name of a token makes the second trip change the bytes"
  },
  {
   "property": "C151",
   "status": "proved",
   "theorems": [
    "C151_strict",
    "C151_equal",
    "C151_trichotomy",
    "C151_no_le",
    "C151_refuted",
    "C151_width_refuted"
   ],
   "note": "_refuted: <= raises TypeError for all flags (C151_no_le); _width_refuted: 8 and 16 cleared flags"
  },
  {
   "property": "C152",
   "status": "proved",
   "theorems": [
    "C152_built",
    "C152_bytes",
    "C152_names",
    "C152_tries",
    "C152_agree",
    "C152_clash_refuted"
   ],
   "note": "_clash_refuted: x and y swapped between two languages"
  },
  {
   "property": "C153",
   "status": "proved",
   "theorems": [
    "C153_read",
    "C153_open",
    "C153_assign_refuted",
    "C153_save",
    "C153_save_fails",
    "C153_reopen"
   ],
   "note": "_assign_refuted holds for every header and text: the slot is an immutable bytes object"
  },
  {
   "property": "C154",
   "status": "proved",
   "theorems": [
    "C154_root",
    "C154_value",
    "C154_decimal"
   ],
   "note": ""
  },
  {
   "property": "C155",
   "status": "proved",
   "theorems": [
    "C155_same_iff",
    "C155_real",
    "C155_real_list",
    "C155_complex_list",
    "C155_matrix",
    "C155_tokens",
    "C155_text",
    "C155_asm_refuted",
    "C155_complex_list_refuted"
   ],
   "note": ""
  },
  {
   "property": "C156",
   "status": "proved",
   "theorems": [
    "C156_picture_iff",
    "C156_mono",
    "C156_colour",
    "C156_image",
    "C156_reclassed",
    "C156_gdb",
    "C156_gdb_mono_refuted",
    "C156_rows_refuted"
   ],
   "note": ""
  },
  {
   "property": "C157",
   "status": "proved",
   "theorems": [
    "C157_plain",
    "C157_complex_tag",
    "C157_complex",
    "C157_complex_text",
    "C157_setting",
    "C157_tag_refuted"
   ],
   "note": ""
  },
  {
   "property": "C158",
   "status": "proved",
   "theorems": [
    "C158_open",
    "C158_open_fails",
    "C158_copy",
    "C158_equal",
    "C158_name",
    "C158_empty_refuted"
   ],
   "note": ""
  },
  {
   "property": "C159",
   "status": "proved",
   "theorems": [
    "C159_group",
    "C159_exact",
    "C159_same_file"
   ],
   "note": ""
  },
  {
   "property": "C160",
   "status": "proved",
   "theorems": [
    "C160_set",
    "C160_get",
    "C160_reread",
    "C160_foreign_refuted",
    "C160_unknown"
   ],
   "note": ""
  },
  {
   "property": "C161",
   "status": "proved",
   "theorems": [
    "C161_full",
    "C161_cut",
    "C161_longer_refuted"
   ],
   "note": ""
  },
  {
   "property": "C162",
   "status": "proved",
   "theorems": [
    "C162_entry",
    "C162_file",
    "C162_type_refuted"
   ],
   "note": ""
  },
  {
   "property": "C163",
   "status": "proved",
   "theorems": [
    "C163_settled",
    "C163_twice_refuted",
    "C163_grown_refuted"
   ],
   "note": ""
  },
  {
   "property": "C164",
   "status": "proved",
   "theorems": [
    "C164_entry",
    "C164_file",
    "C164_never_refuted"
   ],
   "note": ""
  },
  {
   "property": "C165",
   "status": "proved",
   "theorems": [
    "C165_ungroup",
    "C165_errors",
    "C165_assign",
    "C165_never_refuted"
   ],
   "note": ""
  },
  {
   "property": "C166",
   "status": "proved",
   "theorems": [
    "C166_opens",
    "C166_silent",
    "C166_save",
    "C166_same_refuted"
   ],
   "note": ""
  },
  {
   "property": "C167",
   "status": "proved",
   "theorems": [
    "C167_save",
    "C167_again",
    "C167_errors",
    "C167_same_refuted",
    "C167_negative"
   ],
   "note": ""
  },
  {
   "property": "C168",
   "status": "proved",
   "theorems": [
    "C168_data",
    "C168_again",
    "C168_same",
    "C168_errors",
    "C168_same_refuted"
   ],
   "note": ""
  }
 ]
}