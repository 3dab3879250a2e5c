{
 "claims": [
  {
   "property": "C01",
   "status": "proved",
   "theorems": [
    "C01_round_trip",
    "C01_round_trip_decimal"
   ],
   "note": "Any table satisfying wf_rows, any float codec whose printed texts parse (FloatLaws); exact decimals as an instance."
  },
  {
   "property": "C02",
   "status": "proved",
   "theorems": [
    "C02_length"
   ],
   "note": "Blocks in unrolled order, each of the declared size, absent fields empty."
  },
  {
   "property": "C03",
   "status": "proved",
   "theorems": [
    "C03_rewrite_identical",
    "C03_rewrite_identical_decimal"
   ],
   "note": "The proviso on text in optional fields with a '-' fill is needed (example C03_fill_text_needed)."
  },
  {
   "property": "C04",
   "status": "proved",
   "theorems": [
    "C04_literal"
   ],
   "note": "Reserved areas are written blank, named fields exactly as read."
  },
  {
   "property": "C05",
   "status": "proved",
   "theorems": [
    "C05_truncated"
   ],
   "note": ""
  },
  {
   "property": "C06",
   "status": "proved",
   "theorems": [
    "C06_absent_get",
    "C06_absent_set",
    "C06_write",
    "C06_read"
   ],
   "note": ""
  },
  {
   "property": "C07",
   "status": "proved",
   "theorems": [
    "C07_none_written",
    "C07_none_read",
    "C07_number_kept"
   ],
   "note": ""
  },
  {
   "property": "C08",
   "status": "partial",
   "theorems": [
    "C08_assign",
    "C08_frame",
    "C08_sequence",
    "C08_data_refuted"
   ],
   "note": "Proved for all fields but sized data; a failing assignment of data can leave the data changed (refuted with a witness)."
  },
  {
   "property": "C09",
   "status": "proved",
   "theorems": [
    "C09_read_back",
    "C11_data",
    "C15_assign"
   ],
   "note": ""
  },
  {
   "property": "C10",
   "status": "partial",
   "theorems": [
    "C10_keys",
    "C10_reject_partial",
    "C10_reject_one_loop",
    "C10_leading_index_refuted"
   ],
   "note": "Enumeration proved; rejection only of the last index out of range, a leading index out of range is accepted (refuted with a witness)."
  },
  {
   "property": "C11",
   "status": "proved",
   "theorems": [
    "C11_data",
    "C11_fixed"
   ],
   "note": ""
  },
  {
   "property": "C12",
   "status": "proved",
   "theorems": [
    "C12_update",
    "C12_interleaved"
   ],
   "note": "C12_interleaved has the file position, several structures and bytes put between them, and updates at any time after the structure was written."
  },
  {
   "property": "C13",
   "status": "proved",
   "theorems": [
    "C13_raw_read",
    "C13_raw_assigned"
   ],
   "note": ""
  },
  {
   "property": "C14",
   "status": "partial",
   "theorems": [
    "C14_gets_sets_partial",
    "C14_after_get_partial",
    "C14_write_unread_partial",
    "C14_write_partial",
    "C14_write_first_partial",
    "C14_raw_partial",
    "C14_failure_partial",
    "C14_failure_refuted",
    "C14_raw_refuted",
    "C14_raw_twice_refuted",
    "C14_write_refuted",
    "C14_tre_set_refuted"
   ],
   "note": "Same as an immediate read for reads and assignments of non-TRE structures and after the first field read; what writing and raw bytes give before that is proved in full; refuted for raw bytes, writing, and assignment to a TRE before the first read, and for an unreadable file, whose error shows only once."
  },
  {
   "property": "C15",
   "status": "proved",
   "theorems": [
    "C15_pack",
    "C15_refuse",
    "C15_unpack",
    "C15_unpack_refuse",
    "C15_assign"
   ],
   "note": ""
  },
  {
   "property": "C16",
   "status": "proved",
   "theorems": [
    "C16_format",
    "C16_parse",
    "C16_accepts",
    "C16_accepts_float"
   ],
   "note": ""
  },
  {
   "property": "C17",
   "status": "proved",
   "theorems": [
    "C17_fixed_width",
    "C17_error",
    "C17_close"
   ],
   "note": "Over exact decimals; maximum_precision=True is C66."
  },
  {
   "property": "C18",
   "status": "partial",
   "theorems": [
    "C18_equal",
    "C18_same_bytes",
    "C18_independent",
    "C18_literal",
    "C18_pickle_refuted",
    "C18_delayed_refuted"
   ],
   "note": "Proved for deepcopy and for pickling of classes with their own description; pickling an object made from a description fails, and copying while a delayed read is pending copies the unread object (both refuted with witnesses)."
  },
  {
   "property": "C42",
   "status": "partial",
   "theorems": [
    "C42_scope",
    "C42_round_trip",
    "C42_rewrite",
    "C42_names_partial",
    "C42_names_refuted",
    "C42_sensrb_refuted"
   ],
   "note": "All 49 tables are well scoped and covered by C01-C05; names are unique in all but SENSRB and CSCSDB."
  },
  {
   "property": "C43",
   "status": "partial",
   "theorems": [
    "C43_rpc_partial",
    "C43_rpc_refuted"
   ],
   "note": "12 characters exactly below 9999999500; from there to 1e10 the format gives 13 and writing fails."
  },
  {
   "property": "C19",
   "status": "partial",
   "theorems": [
    "C19_write",
    "C19_read_back",
    "C19_read_back_unknown",
    "C19_refuse",
    "C19_unknown_refuted"
   ],
   "note": "Proved for classes whose bytes come from their fields and for TreUnknown; the catch-all class accepts a record that ends early (refuted). Tags are ASCII, at most six characters, not ending in white space."
  },
  {
   "property": "C20",
   "status": "proved",
   "theorems": [
    "C20_stream"
   ],
   "note": "For every registry; tags as in C19, and an unknown TRE is not one a registered class would take."
  },
  {
   "property": "C21",
   "status": "proved",
   "theorems": [
    "C21_framed",
    "C21_identical",
    "C21_ill_framed_refuted"
   ],
   "note": "Well framed means: plain tag, five digits, that many bytes. Outside of that the refutation shows bytes changing and neighbours lost."
  },
  {
   "property": "C29",
   "status": "proved",
   "theorems": [
    "C29_find",
    "C29_find_one"
   ],
   "note": ""
  },
  {
   "property": "C22",
   "status": "partial",
   "theorems": [
    "areas_shipped",
    "areas_complete",
    "C22_placement",
    "C22_outcome",
    "C22_frame",
    "C22_attribute",
    "C22_overflow_refuted"
   ],
   "note": "Proved whenever preparing returns normally, for the file, image and text headers. It does not always: if some TRE is larger than the first area and nothing goes into the first area, setting the overflow number raises (refuted with a witness)."
  },
  {
   "property": "C23",
   "status": "partial",
   "theorems": [
    "C23_read_back",
    "C23_graphic_refuted"
   ],
   "note": "Proved for the file, image and text headers, starting from a header whose areas are empty. Refuted for graphics: the overflow field is looked up under a name the subheader does not have."
  },
  {
   "property": "C24",
   "status": "partial",
   "theorems": [
    "C24_current_partial",
    "C24_removed_refuted",
    "C24_pointer_refuted"
   ],
   "note": "Proved for histories in which no area becomes empty. An area left empty by the current list keeps the bytes of the earlier write, and an area that is filled again shows its old overflow number (both refuted with witnesses)."
  },
  {
   "property": "C33",
   "status": "partial",
   "theorems": [
    "C33_round_trip",
    "C33_compare_partial",
    "C33_equivalence",
    "C33_unclassified",
    "C33_no_field",
    "C33_distinguish_refuted"
   ],
   "note": "Proved for all six headers and every marking (text without trailing white space, numbers). The comparison is an equivalence but ignores codewords and encryption (refuted)."
  },
  {
   "property": "C30",
   "status": "proved",
   "theorems": [
    "C30_handle",
    "C30_lower_not_consulted"
   ],
   "note": ""
  },
  {
   "property": "C31",
   "status": "proved",
   "theorems": [
    "C31_sets",
    "C31_copy"
   ],
   "note": "The set operators inherited from collections.abc are C65."
  },
  {
   "property": "C32",
   "status": "proved",
   "theorems": [
    "C32_registered",
    "C32_twice",
    "C32_event",
    "C32_str",
    "C32_tre_hook"
   ],
   "note": "A hook that changes the hook set during an event is not modelled."
  },
  {
   "property": "C35",
   "status": "partial",
   "theorems": [
    "C35_bands",
    "C35_dtype",
    "C35_unknown",
    "C35_reads",
    "C35_c16_refuted",
    "C35_large_refuted"
   ],
   "note": "setters and getters agree from every earlier state and after write and read; refuted for complex128 (128 bits do not fit the two digits of NBPP, so such a header cannot be written) and for images of 10000 rows or columns"
  },
  {
   "property": "C36",
   "status": "partial",
   "theorems": [
    "C36_each_once",
    "C36_write",
    "C36_size",
    "C36_read",
    "C36_taken",
    "C36_round_trip",
    "C36_partly",
    "C36_untouched",
    "C36_numpy",
    "C36_unsupplied_refuted",
    "C36_numpy_modes_refuted",
    "C36_interleave_refuted"
   ],
   "note": "proved for the three constructible modes (all, band, row by pixel) of on-demand images and for NitfImageWriteNumpy in one piece; refuted for NitfImageWriteNumpy in the other modes, and for reading pixel interleaved data of other writers"
  },
  {
   "property": "C25",
   "status": "partial",
   "theorems": [
    "C25_limits",
    "C25_header_describes_file",
    "C25_appended_refuted"
   ],
   "note": "Proved for every file whose segments know the file they are in (all files built with NitfFile and its lists). A segment appended to a file that was read does not, and its sizes do not reach the header (refuted with a witness)."
  },
  {
   "property": "C26",
   "status": "partial",
   "theorems": [
    "C26_round_trip",
    "C26_built",
    "C26_new_image"
   ],
   "note": "C26_built asks only for conditions on the file before writing: the reader has a handler for each segment, headers hold no literals, user subheaders fit what is registered, and TRE areas are empty, refilled or settled as in C23/C24 (C26_new_image: images made by the library qualify). Graphics with TREs are excluded, being refuted by C23_graphic_refuted; TRE order is kept only without overflow."
  },
  {
   "property": "C27",
   "status": "partial",
   "theorems": [
    "C27_leaves_segments",
    "C27_keeps",
    "C27_repeat",
    "C27_repeat_refuted"
   ],
   "note": "TREs, ordinary segments and all header fields apart from lengths, counts and TRE areas are left alone; any number of writes gives the same bytes for files whose empty TRE areas hold no forgotten overflow number (true of new headers and kept by writing); without that condition repeating is refuted."
  },
  {
   "property": "C28",
   "status": "proved",
   "theorems": [
    "C28_every_segment",
    "C28_in_order",
    "C28_once",
    "C28_by_iid1",
    "C28_single",
    "C28_by_idlvl"
   ],
   "note": ""
  },
  {
   "property": "C44",
   "status": "proved",
   "theorems": [
    "C44_positions",
    "C44_others_unharmed"
   ],
   "note": "C44_positions holds of every file that can be read, however it was made; C44_others_unharmed of files written by the library."
  },
  {
   "property": "C34",
   "status": "partial",
   "theorems": [
    "C34_degrees",
    "C34_geographic_partial",
    "C34_geographic_text",
    "C34_utm_partial",
    "C34_reads",
    "C34_rejects",
    "C34_geographic_refuted",
    "C34_utm_refuted",
    "C34_utm_length_refuted"
   ],
   "note": "decimal degrees fully (60 characters, within 0.0005); degrees/minutes/seconds: what is written is right for every hemisphere but the reader drops the sign of S and W (refuted), so the round trip holds for N/E and for magnitudes; UTM reads back easting and northing exchanged (refuted) and exceeds 60 characters for seven-digit northings (refuted). Arithmetic on exact rationals."
  },
  {
   "property": "C37",
   "status": "partial",
   "theorems": [
    "C37_map_partial",
    "C37_labels",
    "C37_reads",
    "C37_file_partial",
    "C37_big_endian_refuted",
    "C37_text_refuted",
    "C37_duplicates_refuted"
   ],
   "note": "every history of assignments of ASCII text, bytes and little-endian (or single byte) arrays to a new TRE behaves as a dictionary, in memory and after writing and reading; refuted for big-endian arrays, for text that is not ASCII (refused after a record was added) and for TREs read with a label twice."
  },
  {
   "property": "C38",
   "status": "partial",
   "theorems": [
    "C38_limits",
    "C38_additions_partial",
    "C38_new_partial",
    "C38_once",
    "C38_file",
    "C38_new_file_partial",
    "C38_all_refuted",
    "C38_blank_refuted"
   ],
   "note": "every history of additions to any subheader (new or read) with a numeric level count; refuted for the level count \"ALL\" (adding a level raises ValueError) and for identifiers with trailing white space (kept twice)."
  },
  {
   "property": "C45",
   "status": "proved",
   "theorems": [
    "C45_found",
    "C45_sound"
   ],
   "note": ""
  },
  {
   "property": "C39",
   "status": "partial",
   "theorems": [
    "C39_again",
    "C39_zeros",
    "C39_round_trip_partial",
    "C39_unchanged",
    "C39_length",
    "C39_data_h5",
    "C39_colon_refuted",
    "C39_line_end_refuted",
    "C39_data_refuted"
   ],
   "note": "all headers whose values hold neither \": \" nor CR LF (and whose last value does not end in CR or LF); refuted for \": \" (the file cannot be read) and CR LF (another attribute changes). Also: HDF 5 content is kept, other content that was read is written as zeros (refuted)."
  },
  {
   "property": "C41",
   "status": "proved",
   "theorems": [
    "C41_first",
    "C41_unique",
    "C41_nested",
    "C41_segments"
   ],
   "note": "the notification hook and the second run of the read hooks in the constructor are not modelled."
  },
  {
   "property": "C40",
   "status": "partial",
   "theorems": [
    "C40_log",
    "C40_no_false_alarm",
    "C40_itself",
    "C40_only_real",
    "C40_reported_partial",
    "C40_same_means_same",
    "C40_float",
    "C40_float_array",
    "C40_other_table",
    "C40_excluded",
    "C40_symmetric_partial",
    "C40_raises_refuted",
    "C40_symmetric_refuted",
    "C40_missed_refuted",
    "C40_nan_refuted"
   ],
   "note": "Proved: a structure equal to another on the compared fields is never reported (values equal to themselves), only real differences are reported, differences in fields of at most one dimension or with the same indices are reported, if everything is compared the answer \"same\" means same indices and values at any dimension, excluded fields do not matter, order does not matter for at most one dimension or the same counts. Refuted: with two dimensions the comparison can raise TypeError, depend on the order, or miss a difference when counts are not compared; NaN differs from itself."
  },
  {
   "property": "C46",
   "status": "partial",
   "theorems": [
    "C46_same_bytes",
    "C46_for_ever",
    "C46_overflow_refuted"
   ],
   "note": "all files without overflow segments whose values are rewritable (no literals, no text made of fill characters only in optional fields filled with something other than spaces, floats whose printed form is stable) and whose data the reader does not skip, total length other than 999999999999; refuted with an overflow segment: TREs are read in another order and the next write distributes them differently."
  },
  {
   "property": "C47",
   "status": "partial",
   "theorems": [
    "C47_same_means_partial",
    "C47_no_false_alarm",
    "C47_default",
    "C47_itself",
    "C47_shipped_tables",
    "C47_text_refuted",
    "C47_graphic_refuted",
    "C47_extra_refuted",
    "C47_pixels_refuted",
    "C47_unknown_refuted",
    "C47_order_refuted",
    "C47_number_size_refuted"
   ],
   "note": "\"the same\" means alike except for fields with two or more dimensions whose indices differ (missed, as in C40); refuted: texts that are not UTF-8, graphics, unknown TREs that are not UTF-8 and numbers of 5 to 7 bytes make the comparison raise, data after the fields of a DES is not compared, integer pixels are compared with a tolerance, and the order of the files matters. Only the verdict is modelled, not the log."
  },
  {
   "property": "C48",
   "status": "partial",
   "theorems": [
    "C48_to_list",
    "C48_values",
    "C48_items",
    "C48_struct_items",
    "C48_print",
    "C48_aligned",
    "C48_read_partial",
    "C48_shipped",
    "C48_delayed_partial",
    "C48_pending",
    "C48_delayed_refuted",
    "C48_twice_refuted",
    "C48_number_size_refuted"
   ],
   "note": "that nothing fails after a read is proved for tables without computed fields and without binary numbers whose size is not 1 to 4 or 8 (refuted for five bytes); refuted: a structure whose read is pending prints its defaults, and a name that stands twice is listed once."
  },
  {
   "property": "C49",
   "status": "partial",
   "theorems": [
    "C49_written",
    "C49_declared",
    "C49_parser",
    "C49_documents",
    "C49_read",
    "C49_accepts",
    "C49_plain_lost",
    "C49_round_trip",
    "C49_plain_refuted",
    "C49_stale_refuted"
   ],
   "note": "the XML library is modelled for plain ASCII documents (elements, attributes, text, declaration) only; refuted: documents without the namespace lose their values, and reading into a used object keeps old ones."
  },
  {
   "property": "C50",
   "status": "partial",
   "theorems": [
    "C50_same_partial",
    "C50_read_partial",
    "C50_merge",
    "C50_merges",
    "C50_kept",
    "C50_attributes",
    "C50_hole",
    "C50_shipped_tables",
    "C50_removed_refuted",
    "C50_graphic_refuted",
    "C50_overflow_refuted",
    "C50_names_refuted",
    "C50_unknown_refuted",
    "C50_text_refuted",
    "C50_extra_refuted"
   ],
   "note": "for files read, \"the same\" is proved for classes whose values come back exactly from their text (no floats, no optional text; the condition on single values is in C50_same_partial) and files without overflow segments, given that the merger can be made (C50_merges says when); the JSON text is not modelled. Refuted: removed segments and graphics are not in a delta, overflow segments are dropped, two segments with the same names or an unread image cannot be merged, unknown TREs cannot be loaded, texts that are not UTF-8 cannot be copied, data after the fields of a DES is lost."
  },
  {
   "property": "C51",
   "status": "proved",
   "theorems": [
    "C51_means",
    "C51_uses"
   ],
   "note": ""
  },
  {
   "property": "C52",
   "status": "partial",
   "theorems": [
    "C52_shows",
    "C52_one",
    "C52_new",
    "C52_binary",
    "C52_shipped",
    "C52_written_refuted"
   ],
   "note": "what a field shows is proved in full; that a new structure can be written is refuted for six classes (C52_shipped lists them: it is proved for the other 43, with the decimal floats), binary numbers that are not three bytes long cannot be read before they are set (C52_binary)."
  },
  {
   "property": "C53",
   "status": "partial",
   "theorems": [
    "C53_update",
    "C53_after_read",
    "C53_twice",
    "C53_text",
    "C53_file",
    "C53_keeps_refuted",
    "C53_prints_refuted",
    "C53_edited_refuted",
    "C53_drops_refuted"
   ],
   "note": "what printing does is proved for every outcome of writing; that it leaves the object as it is, succeeds for whatever was read or can be written, and keeps the data after the fields is refuted. Classes with an implementation object are not modelled (none is shipped)."
  },
  {
   "property": "C54",
   "status": "partial",
   "theorems": [
    "C54_limits",
    "C54_added_partial",
    "C54_no_id",
    "C54_stops",
    "C54_file",
    "C54_uuid",
    "C54_found",
    "C54_link",
    "C54_blank_refuted",
    "C38_once"
   ],
   "note": "everything is proved for identifiers that do not end in white space; one that does is kept twice when added twice (refuted)."
  },
  {
   "property": "C55",
   "status": "proved",
   "theorems": [
    "C55_bytes",
    "C55_fits",
    "C55_range",
    "C55_limit",
    "C25_limits",
    "C38_limits",
    "C54_limits"
   ],
   "note": "printing of floats is the parameter FloatOps; a literal stored in a computed field is written as it is, so C55_range is about fields that are not computed."
  },
  {
   "property": "C56",
   "status": "partial",
   "theorems": [
    "C56_again",
    "C56_memory",
    "C56_update",
    "C56_copy_partial",
    "C56_interleaved_refuted",
    "C56_cut_refuted"
   ],
   "note": "(1)-(3) proved for every subheader the reader takes and all three modes; (4) proved unless pixels are interleaved, where the copy is written in another order than its subheader says (refuted). Read into memory, interleaved data that is cut off is not refused (refuted)."
  },
  {
   "property": "C57",
   "status": "partial",
   "theorems": [
    "C57_shows",
    "C57_refuses",
    "C57_fresh",
    "C57_raw_refuted"
   ],
   "note": "Proved for indices that exist. The bytes kept for a field that the new record does not have stay those of an earlier one (refuted); so do values at a leading index that does not exist, which C10 shows is not checked."
  },
  {
   "property": "C58",
   "status": "partial",
   "theorems": [
    "C58_written",
    "C58_refused",
    "C58_shows",
    "C58_round",
    "C58_raw_refuted",
    "C58_failed_refuted",
    "C58_length_refuted"
   ],
   "note": "(1)-(4) proved, (3) for bytes the fields can be read from. Kept bytes are renewed only when a field is looked at, a failing read is reported once and then forgotten, and the length of a record is not compared with what is there (all refuted)."
  },
  {
   "property": "C59",
   "status": "partial",
   "theorems": [
    "C59_called",
    "C59_dict",
    "C59_cache",
    "C59_living",
    "C59_pop_refuted",
    "C59_stale_refuted",
    "C59_race_refuted",
    "C59_iter_refuted"
   ],
   "note": "Proved for histories in which living objects are used, nothing dies inside a call and no reference given by pop with a default is kept. pop with a default gives the weak reference, which kept alive takes away a later entry; a death inside get raises KeyError; the keys cannot be listed (all refuted)."
  },
  {
   "property": "C60",
   "status": "partial",
   "theorems": [
    "C60_written",
    "C60_updates",
    "C60_shows",
    "C60_round",
    "C60_assign_refuted",
    "C60_length_refuted"
   ],
   "note": "(1)-(4) proved, (3) also until a field is assigned. (5) is refuted: assignment is accepted, shown and not written. An object written with another length than its segment cannot be read (refuted). Partial effects of a failed read of the fields are not modelled."
  },
  {
   "property": "C61",
   "status": "partial",
   "theorems": [
    "C61_type",
    "C61_total",
    "C61_lookup",
    "C61_name_refuted"
   ],
   "note": "(1) and (2) proved, for ASCII digits and decimal values (float() rounds to the nearest double); a newline at the end is allowed. (3) is refuted: a file name of digits becomes a number."
  },
  {
   "property": "C62",
   "status": "partial",
   "theorems": [
    "C62_verdict",
    "C62_result",
    "C62_located_partial",
    "C62_told",
    "C62_reports",
    "C62_elements",
    "C62_status",
    "C62_screen",
    "C62_shown",
    "C62_log_file",
    "C62_unread",
    "C62_quiet",
    "C62_context_refuted",
    "C62_status_refuted",
    "C62_quiet_file_refuted"
   ],
   "note": "(1), (3), (5) proved; (2) proved except that user subheaders and DESs of five classes are named by the class alone and CSATTA by the name of another class (refuted); (4) for values that are not floating point numbers and arrays whose shapes agree. An exception and a difference give the same exit status."
  },
  {
   "property": "C63",
   "status": "partial",
   "theorems": [
    "C63_segment",
    "C63_hooked",
    "C63_text",
    "C63_raw",
    "C63_changes",
    "C63_unchanged",
    "C63_written",
    "C63_read_written",
    "C63_again",
    "C63_data",
    "C63_summary_says",
    "C63_prints",
    "C63_shipped_summaries",
    "C63_summary",
    "C63_utf8_refuted",
    "C63_appended_refuted",
    "C63_stale_refuted",
    "C63_twice_refuted"
   ],
   "note": "(1), (2), (4), (5) proved, (1) with one exception: the user subheader of a DES of fields is printed twice (refuted). (3) proved where the float formats keep what they wrote, optional text is not all fill, and hooks do not change what they are given. Files that were not read: a segment appended to a file that was read cannot be printed if it has TREs, and the summary has the numbers of the last write (both refuted). (4) and (5) for files without user defined implementation objects."
  },
  {
   "property": "C64",
   "status": "partial",
   "theorems": [
    "C64_shared",
    "C64_seen",
    "C64_separate",
    "C64_assigned_refuted",
    "C64_same_data_refuted",
    "C64_taken_refuted",
    "C64_merged_refuted"
   ],
   "note": "(1) and (2) for programs that do not assign the attribute data of a segment and do not merge a delta (both refuted). (3) if no data object is used for two segments or taken from a segment that was read (both refuted), and no subheader object is assigned to two headers."
  },
  {
   "property": "C65",
   "status": "proved",
   "theorems": [
    "C65_operators",
    "C65_compare",
    "C65_result"
   ],
   "note": "Both operands handler sets; operators with other kinds of collections are not modelled. The operators are those of python's collections.abc.Set."
  },
  {
   "property": "C66",
   "status": "partial",
   "theorems": [
    "C66_form",
    "C66_error",
    "C66_close",
    "C66_fits",
    "C66_precision_refuted"
   ],
   "note": "(1)-(4) proved over exact decimals, the bounds being exact powers of ten. (5) is refuted for numbers above 10^(w-5) that would fit with decimals, and for negative numbers, which are always written in exponent form."
  },
  {
   "property": "C67",
   "status": "partial",
   "theorems": [
    "C67_answer",
    "C67_others",
    "C67_apart",
    "C67_clash",
    "C67_shipped",
    "C67_lower_refuted"
   ],
   "note": "(1)-(5) proved; C67_shipped links to the tables File.v reads and writes with. (6) is refuted: a table claims every id, with the answer None for those it does not know, so nothing below it is asked."
  },
  {
   "property": "C68",
   "status": "partial",
   "theorems": [
    "C68_coord",
    "C68_near",
    "C68_refused",
    "C68_never",
    "C68_build_refuted",
    "C68_edition",
    "C68_sections",
    "C68_edition_refuted"
   ],
   "note": "(1), (2), (4) proved, with exact rationals for the coordinates. (3) is refuted for every history: no coordinate can be assigned, and a grid with a point can only be written if its coordinates take no room. (5) is refuted after a new object was put in."
  },
  {
   "property": "C69",
   "status": "partial",
   "theorems": [
    "C69_write",
    "C69_failed",
    "C69_anyway",
    "C69_update_failed",
    "C69_position_refuted"
   ],
   "note": "(1)-(4) proved. (5) is refuted: if the new value cannot be written the file stays at the field, and what is written next goes over the structure."
  },
  {
   "property": "C70",
   "status": "partial",
   "theorems": [
    "C70_truncated",
    "C70_unconvertible",
    "C70_agrees",
    "C70_anyway",
    "C70_once",
    "C70_unchanged_refuted",
    "C70_silent_refuted"
   ],
   "note": "(1)-(5) proved. (6) and (7) are refuted: a failed read leaves the fields read so far, and after a failed delayed read the second access silently shows defaults."
  },
  {
   "property": "C71",
   "status": "partial",
   "theorems": [
    "C71_cut",
    "C71_noticed_refuted"
   ],
   "note": "(1) and (2) proved. (3) is refuted: the length in the file header is never compared with the file, and text, raw and skipped data are not checked for length, so a shortened text is given silently."
  },
  {
   "property": "C72",
   "status": "partial",
   "theorems": [
    "C72_own",
    "C72_elsewhere",
    "C72_other",
    "C72_raises",
    "C72_frame",
    "C72_linked_refuted"
   ],
   "note": "(1)-(5) proved, (1) for files that can be written, (3) for kinds other than DES and other headers whose counts are set. (6) is refuted: if the other file was written before, its positions are used in the file being written, which can then not be read."
  },
  {
   "property": "C73",
   "status": "partial",
   "theorems": [
    "C73_copied",
    "C73_as_if",
    "C73_unchanged",
    "C73_changed",
    "C73_in_place",
    "C73_lost",
    "C73_in_place_refuted"
   ],
   "note": "(1)-(4) proved, (2)-(4) for writes that succeed. (5) is refuted: writing succeeds and all image data is lost."
  },
  {
   "property": "C74",
   "status": "partial",
   "theorems": [
    "C74_keeps",
    "C74_agrees",
    "C74_again",
    "C74_linked",
    "C74_failed_refuted"
   ],
   "note": "(1)-(3) proved; C74_agrees ties the model to the one of the other theorems about writing. (4) is refuted: the file has been emptied and the object has one more DES. What a failing call has put into the file is not modelled."
  }
 ]
}