{
 "claims": [
  {
   "property": "C01",
   "status": "proved",
   "theorems": [
    "C01_unsigned_fields"
   ],
   "note": ""
  },
  {
   "property": "C02",
   "status": "proved",
   "theorems": [
    "C02_signed_fields"
   ],
   "note": ""
  },
  {
   "property": "C03",
   "status": "proved",
   "theorems": [
    "C03_append_only"
   ],
   "note": ""
  },
  {
   "property": "C04",
   "status": "proved",
   "theorems": [
    "C04_reader_exact"
   ],
   "note": ""
  },
  {
   "property": "C05",
   "status": "proved",
   "theorems": [
    "C05_aligned_write",
    "C05_aligned_read",
    "C05_aligned_seek"
   ],
   "note": ""
  },
  {
   "property": "C06",
   "status": "proved",
   "theorems": [
    "C06_uvarint",
    "C06_any_length",
    "C06_unfinished"
   ],
   "note": "Stronger reading refuted (Findings.v): C06_uvarint_large_refuted"
  },
  {
   "property": "C07",
   "status": "proved",
   "theorems": [
    "C07_strings",
    "C07_pascal_strings"
   ],
   "note": "Stronger reading refuted (Findings.v): C07_pascal_bound_refuted"
  },
  {
   "property": "C08",
   "status": "proved",
   "theorems": [
    "C08_be32",
    "C08_be64"
   ],
   "note": ""
  },
  {
   "property": "C09",
   "status": "proved",
   "theorems": [
    "C09_payload_roundtrip"
   ],
   "note": ""
  },
  {
   "property": "C10",
   "status": "proved",
   "theorems": [
    "C10_announced_size"
   ],
   "note": ""
  },
  {
   "property": "C11",
   "status": "proved",
   "theorems": [
    "C09_payload_roundtrip",
    "C42_parse_any_payload"
   ],
   "note": "second and third conjunct of C09_payload_roundtrip (count = 8 x octets written, cursor before the children) Stronger reading refuted (Findings.v): C11_esds_overcount_refuted, C11_iods_overcount_refuted"
  },
  {
   "property": "C12",
   "status": "proved",
   "theorems": [
    "C12_roundtrip_domain_exact"
   ],
   "note": "exact domain (iff); memory_sized excludes only objects beyond 2^61 octets / 2^32-octet descriptors Stronger reading refuted (Findings.v): C12_hdlr_padding_refuted, C12_hdlr_pascal_refuted, C12_stsz_fixed_refuted, C12_ctts_truncated_refuted, C12_elst_truncated_refuted, C12_mvhd_time_refuted, C12_avcC_32_sps_refuted, C12_meta_flags_refuted, C12_audio_under_wave_refuted"
  },
  {
   "property": "C13",
   "status": "proved",
   "theorems": [
    "C13_full_box_flags",
    "C13_remove_flag"
   ],
   "note": "removeFlag toggles; stated as such Stronger reading refuted (Findings.v): C13_remove_flag_refuted"
  },
  {
   "property": "C14",
   "status": "proved",
   "theorems": [
    "C14_header_roundtrip",
    "C14_header_rewrite"
   ],
   "note": "Stronger reading refuted (Findings.v): C14_stale_header_refuted"
  },
  {
   "property": "C15",
   "status": "proved",
   "theorems": [
    "C15_malformed_headers"
   ],
   "note": ""
  },
  {
   "property": "C16",
   "status": "proved",
   "theorems": [
    "C16_layout"
   ],
   "note": ""
  },
  {
   "property": "C17",
   "status": "proved",
   "theorems": [
    "C17_write_region"
   ],
   "note": "Premise: times have dates (C51), because reading and writing print every box; true of every clock reading (C51_clock)."
  },
  {
   "property": "C18",
   "status": "proved",
   "theorems": [
    "C18_read_back"
   ],
   "note": "Premise: times have dates (C51), because reading and writing print every box; true of every clock reading (C51_clock)."
  },
  {
   "property": "C19",
   "status": "proved",
   "theorems": [
    "C19_reader_total"
   ],
   "note": "Premise: times have dates (C51), because reading and writing print every box; true of every clock reading (C51_clock). Stronger reading refuted (Findings.v): C19_iods_beyond_end_refuted"
  },
  {
   "property": "C20",
   "status": "proved",
   "theorems": [
    "C20_oversized",
    "C20_oversized_anywhere"
   ],
   "note": ""
  },
  {
   "property": "C21",
   "status": "proved",
   "theorems": [
    "C21_unknown_preserved"
   ],
   "note": ""
  },
  {
   "property": "C22",
   "status": "proved",
   "theorems": [
    "C22_box_type_of_string",
    "C22_match",
    "C22_registry"
   ],
   "note": ""
  },
  {
   "property": "C23",
   "status": "proved",
   "theorems": [
    "C23_stts_expands",
    "C69_chunks",
    "C27_durations"
   ],
   "note": ""
  },
  {
   "property": "C24",
   "status": "proved",
   "theorems": [
    "C24_stsc_expands",
    "C69_chunks"
   ],
   "note": "Stronger reading refuted (Findings.v): C24_terminate_after_finalize_refuted"
  },
  {
   "property": "C25",
   "status": "proved",
   "theorems": [
    "C25_chunk_offsets",
    "C69_chunks"
   ],
   "note": "Stronger reading refuted (Findings.v): C25_last_chunk_refuted"
  },
  {
   "property": "C26",
   "status": "proved",
   "theorems": [
    "C26_sync_samples"
   ],
   "note": ""
  },
  {
   "property": "C27",
   "status": "proved",
   "theorems": [
    "C27_durations"
   ],
   "note": "Stronger reading refuted (Findings.v): C27_last_duration_refuted"
  },
  {
   "property": "C28",
   "status": "proved",
   "theorems": [
    "C28_simple_samples"
   ],
   "note": "Premise: times have dates (C51), because reading and writing print every box; true of every clock reading (C51_clock). Stronger reading refuted (Findings.v): C28_interleaving_refuted"
  },
  {
   "property": "C29",
   "status": "proved",
   "theorems": [
    "C29_faststart_samples"
   ],
   "note": "Premise: times have dates (C51), because reading and writing print every box; true of every clock reading (C51_clock). Stronger reading refuted (Findings.v): C29_append_twice_refuted"
  },
  {
   "property": "C30",
   "status": "proved",
   "theorems": [
    "C30_layout_loop_ends"
   ],
   "note": ""
  },
  {
   "property": "C31",
   "status": "proved",
   "theorems": [
    "C31_simple_tiled",
    "C31_faststart_tiled"
   ],
   "note": "Premise: times have dates (C51), because reading and writing print every box; true of every clock reading (C51_clock)."
  },
  {
   "property": "C32",
   "status": "proved",
   "theorems": [
    "C32_mdat_header"
   ],
   "note": "Premise: times have dates (C51), because reading and writing print every box; true of every clock reading (C51_clock)."
  },
  {
   "property": "C33",
   "status": "proved",
   "theorems": [
    "C33_copy_verbatim"
   ],
   "note": ""
  },
  {
   "property": "C34",
   "status": "proved",
   "theorems": [
    "C34_next_track_id",
    "C34_track_ids"
   ],
   "note": "Premise: times have dates (C51), because reading and writing print every box; true of every clock reading (C51_clock)."
  },
  {
   "property": "C35",
   "status": "proved",
   "theorems": [
    "C35_annexb_split",
    "C35_samples_stored"
   ],
   "note": "Stronger reading refuted (Findings.v): C35_short_last_unit_refuted"
  },
  {
   "property": "C36",
   "status": "proved",
   "theorems": [
    "C36_scan_total"
   ],
   "note": ""
  },
  {
   "property": "C37",
   "status": "proved",
   "theorems": [
    "C37_language"
   ],
   "note": ""
  },
  {
   "property": "C38",
   "status": "proved",
   "theorems": [
    "C38_convert_format",
    "C38_convert_injective",
    "C38_format",
    "C38_format_far"
   ],
   "note": "Stronger reading refuted (Findings.v): C38_huge_time_refuted"
  },
  {
   "property": "C39",
   "status": "proved",
   "theorems": [
    "C39_descriptor_nesting"
   ],
   "note": "Stronger reading refuted (Findings.v): C39_deep_nesting_refuted"
  },
  {
   "property": "C40",
   "status": "proved",
   "theorems": [
    "C40_media_single",
    "C40_all_samples",
    "C31_simple_tiled",
    "C31_faststart_tiled"
   ],
   "note": ""
  },
  {
   "property": "C41",
   "status": "proved",
   "theorems": [
    "C41_trak_box",
    "C41_zero_refused"
   ],
   "note": ""
  },
  {
   "property": "C42",
   "status": "proved",
   "theorems": [
    "C42_parse_any_payload"
   ],
   "note": "Stronger reading refuted (Findings.v): C42_sgpd_uninitialised_refuted"
  },
  {
   "property": "C43",
   "status": "proved",
   "theorems": [
    "C43_to_string_injective",
    "C43_to_string_text"
   ],
   "note": ""
  },
  {
   "property": "C44",
   "status": "proved",
   "theorems": [
    "C44_reader_faithful"
   ],
   "note": ""
  },
  {
   "property": "C45",
   "status": "proved",
   "theorems": [
    "C45_codec_configuration"
   ],
   "note": "Premise: times have dates (C51), because reading and writing print every box; true of every clock reading (C51_clock)."
  },
  {
   "property": "C46",
   "status": "proved",
   "theorems": [
    "C46_track_headers"
   ],
   "note": "Premise: times have dates (C51), because reading and writing print every box; true of every clock reading (C51_clock)."
  },
  {
   "property": "C47",
   "status": "proved",
   "theorems": [
    "C47_simple_reads_back",
    "C47_faststart_reads_back"
   ],
   "note": "Premise: times have dates (C51), because reading and writing print every box; true of every clock reading (C51_clock)."
  },
  {
   "property": "C48",
   "status": "proved",
   "theorems": [
    "C48_exact_tiling"
   ],
   "note": ""
  },
  {
   "property": "C49",
   "status": "proved",
   "theorems": [
    "C49_payload_written_back",
    "C49_file_written_back"
   ],
   "note": "Stronger reading refuted (Findings.v): C49_meta_refuted, C49_stsz_refuted, C49_esds_refuted, C49_hdlr_refuted, C49_iods_refuted, C49_unterminated_refuted"
  },
  {
   "property": "C50",
   "status": "proved",
   "theorems": [
    "C50_media_information"
   ],
   "note": "Premise: times have dates (C51), because reading and writing print every box; true of every clock reading (C51_clock)."
  },
  {
   "property": "C51",
   "status": "proved",
   "theorems": [
    "C51_print",
    "C51_write",
    "C51_read",
    "C51_clock"
   ],
   "note": "Stronger reading refuted (Findings.v): C51_undated_file_refuted, C51_undated_movie_refuted"
  },
  {
   "property": "C52",
   "status": "proved",
   "theorems": [
    "C52_dump"
   ],
   "note": ""
  },
  {
   "property": "C53",
   "status": "proved",
   "theorems": [
    "C53_text_determines",
    "C53_line_determines"
   ],
   "note": "members left out by the text and the classes not covered are listed by `hidden` (PrintSpec.v) Stronger reading refuted (Findings.v): C53_rounded_refuted, C53_quotes_refuted, C53_data_type_refuted"
  },
  {
   "property": "C54",
   "status": "proved",
   "theorems": [
    "C54_ticks",
    "C54_defined",
    "C54_undefined",
    "C54_exact",
    "C54_monotone",
    "C54_simple_file",
    "C54_faststart_file",
    "C54_samples"
   ],
   "note": "IEEE 754 arithmetic of Flocq; uses the axioms of the standard library of real numbers (DESIGN.md) Stronger reading refuted (Findings.v): C54_ticks_lost_refuted, C54_negative_refuted"
  },
  {
   "property": "C55",
   "status": "proved",
   "theorems": [
    "C55_getters",
    "C55_printed"
   ],
   "note": "IEEE 754 arithmetic of Flocq; uses the axioms of the standard library of real numbers (DESIGN.md)"
  },
  {
   "property": "C56",
   "status": "proved",
   "theorems": [
    "C56_cut_files",
    "C56_simple_cut",
    "C56_faststart_cut"
   ],
   "note": ""
  },
  {
   "property": "C57",
   "status": "proved",
   "theorems": [
    "C57_undisturbed",
    "C57_simple",
    "C57_faststart",
    "C57_simple_recording",
    "C57_simple_unfinished",
    "C57_faststart_unfinished"
   ],
   "note": "Octets stored = octets the stream accepted, in order (Device.v); seeks and the removal of the intermediate file always succeed. Stronger reading refuted (Findings.v): C57_header_refuted"
  },
  {
   "property": "C58",
   "status": "proved",
   "theorems": [
    "C58_open_box"
   ],
   "note": ""
  },
  {
   "property": "C59",
   "status": "proved",
   "theorems": [
    "C59_simple",
    "C59_faststart",
    "C59_faststart_begun",
    "C59_faststart_noticed",
    "C59_simple_kept",
    "C59_room",
    "C59_faststart_kept"
   ],
   "note": "Octets stored = octets the stream accepted (Device.v). The media data written through ostreambuf_iterator are refused silently; what notices is the next write of a box. Stronger reading refuted (Findings.v): C59_faststart_refuted, C59_transient_refuted"
  },
  {
   "property": "C60",
   "status": "proved",
   "theorems": [
    "C60_reader_memory",
    "C60_read_leaves_nothing"
   ],
   "note": "Addresses are not reused in the model, so every access after deletion would be noticed (Memory.v). Stronger reading refuted (Findings.v): C60_header_leaked_refuted"
  },
  {
   "property": "C61",
   "status": "proved",
   "theorems": [
    "C61_faststart",
    "C61_simple"
   ],
   "note": "Over all predicates telling which seekp succeed."
  },
  {
   "property": "C62",
   "status": "proved",
   "theorems": [
    "C62_simple",
    "C62_faststart"
   ],
   "note": "For sessions whose data fit the file format (movie_fits); exceptions caught by the program."
  },
  {
   "property": "C63",
   "status": "proved",
   "theorems": [
    "C63_muxer",
    "C63_muxer_h264"
   ],
   "note": "Uses IEEE 754 arithmetic of Flocq for the durations, hence the axioms of the standard library of real numbers (DESIGN.md). Reading of CSV files and options not modelled. The extracted model writes the nine files of test/integration octet by octet (validation/)."
  },
  {
   "property": "C64",
   "status": "proved",
   "theorems": [
    "C64_destructor",
    "C64_nothing_left",
    "C64_pointers",
    "C64_intermediate_file",
    "C64_simple_session",
    "C64_faststart_session"
   ],
   "note": "The stream's refusals are counted in uses of the stream by box headers and payloads; the members that are not pointers are arbitrary after a refusal. Calls that are undefined behaviour (e.g. writeMoovBox of a FaststartWriter before appendTrakAndUdtaBoxInfo) excluded. Stronger reading refuted (Findings.v): C64_abandoned_refuted, C64_ftyp_leaked_refuted, C64_deleted_first_refuted"
  },
  {
   "property": "C65",
   "status": "proved",
   "theorems": [
    "C65_load",
    "C65_load_any",
    "C65_wrong_length",
    "C65_program"
   ],
   "note": "The cells are given (rapidcsv is not modelled). C65_program uses C63, hence the axioms of the standard library of real numbers. Stronger reading refuted (Findings.v): C65_garbage_refuted"
  },
  {
   "property": "C66",
   "status": "proved",
   "theorems": [
    "C66_simple",
    "C66_faststart"
   ],
   "note": "C66_needs_order shows what happens outside the stated orders."
  },
  {
   "property": "C67",
   "status": "proved",
   "theorems": [
    "C67_same_movie"
   ],
   "note": "Same hypotheses as C28-C31."
  },
  {
   "property": "C68",
   "status": "proved",
   "theorems": [
    "C68_tracks_independent"
   ],
   "note": "Same hypotheses as C28-C31 for both sessions."
  },
  {
   "property": "C69",
   "status": "proved",
   "theorems": [
    "C69_chunks",
    "C69_all_samples"
   ],
   "note": "Same hypotheses as C28-C31."
  },
  {
   "property": "C70",
   "status": "proved",
   "theorems": [
    "C70_payload",
    "C70_file"
   ],
   "note": "Storage asked for before the elements are read is C79. Stronger reading refuted (Findings.v): C70_trun_refuted"
  },
  {
   "property": "C71",
   "status": "proved",
   "theorems": [
    "C71_concatenation"
   ],
   "note": "Stronger reading refuted (Findings.v): C71_open_refuted"
  },
  {
   "property": "C72",
   "status": "proved",
   "theorems": [
    "C72_any_buffer",
    "C72_stored",
    "C72_conservation",
    "C72_determined",
    "C72_exact"
   ],
   "note": "Stronger reading refuted (Findings.v): C72_null_unit_refuted"
  },
  {
   "property": "C73",
   "status": "proved",
   "theorems": [
    "C73_simple",
    "C73_faststart",
    "C73_exact",
    "C73_any"
   ],
   "note": "Same hypotheses as C28-C31 except C73_any. A stream whose positions do not start at 0 of its contents or that refuses to seek is not covered (C61). Stronger reading refuted (Findings.v): C73_leftover_refuted"
  },
  {
   "property": "C74",
   "status": "proved",
   "theorems": [
    "C74_first",
    "C74_once",
    "C74_empty",
    "C74_later",
    "C74_goes_on"
   ],
   "note": "After an exception, or with a failed stream, C74_later holds for every position the standard library may leave the stream at (not before the place where the call began) and every m_boxes. For an open file stream the hypotheses of C14 are needed (no box reporting more than it read, no alst of unknown version)."
  },
  {
   "property": "C75",
   "status": "proved",
   "theorems": [
    "C75_any_file",
    "C75_boxes",
    "C75_reached",
    "C75_simple_file",
    "C75_faststart_file"
   ],
   "note": "The costs counted are calls of readBox and octets copied into std::stringstream, in a model with counters that is proved to be the reader without them (cost_erase). Members of boxes are C70; memory requested by vector::resize before elements are read (C79), and the capacity of stringstreams beyond their contents, are not counted. Findings.v: C75_stack_refuted, C75_memory_refuted. Stronger reading refuted (Findings.v): C75_stack_refuted, C75_memory_refuted"
  },
  {
   "property": "C76",
   "status": "proved",
   "theorems": [
    "C76_simple",
    "C76_faststart"
   ],
   "note": "Same hypotheses as C31. Which of stco and co64 is used is C25. Found by a mutant (version of stts, stss) that no earlier theorem noticed."
  },
  {
   "property": "C77",
   "status": "proved",
   "theorems": [
    "C77_read_error",
    "C77_good_file",
    "C77_readable",
    "C77_tool"
   ],
   "note": "ReadErrors.v repeats the reader with a set of octets that cannot be read (libstdc++: std::basic_filebuf::underflow throws std::ios_base::failure); a file that shrinks or grows while it is read is not modelled."
  },
  {
   "property": "C78",
   "status": "proved",
   "theorems": [
    "C78_saved",
    "C78_saved_read",
    "C78_saved_again",
    "C78_simple_resaved",
    "C78_faststart_resaved"
   ],
   "note": "The boxes saved must have headers that are absent or not of the \"until the end of the file\" kind (Findings C78_open_box_refuted).  SimpleReader keeps the boxes it has read private: the program that saves them is one that reads with the same public functions. Stronger reading refuted (Findings.v): C78_open_box_refuted"
  },
  {
   "property": "C79",
   "status": "proved",
   "theorems": [
    "C79_payload",
    "C79_file"
   ],
   "note": "Counts are numbers of elements given to std::vector::resize, not octets; strings and esds descriptors grow one element at a time and are not counted. What happens when storage is refused (std::bad_alloc) is not modelled. Stronger reading refuted (Findings.v): C79_small_box_refuted"
  },
  {
   "property": "C80",
   "status": "proved",
   "theorems": [
    "C80_simple",
    "C80_faststart"
   ],
   "note": "Moments are those of the media (edit lists are C41/C46). Same hypotheses as C47; the order of timestamps is a hypothesis about each track.  Stronger reading refuted (Findings.v): C80_backwards_refuted"
  },
  {
   "property": "C81",
   "status": "proved",
   "theorems": [
    "C81_simple",
    "C81_faststart"
   ],
   "note": "Hypotheses of C47 (values fit their fields)."
  },
  {
   "property": "C82",
   "status": "proved",
   "theorems": [
    "C82_samples_tile",
    "C82_every_octet"
   ],
   "note": "Hypotheses of C28."
  },
  {
   "property": "C83",
   "status": "proved",
   "theorems": [
    "C83_copies",
    "C83_ends",
    "C83_hangs",
    "C83_session",
    "C83_constructor"
   ],
   "note": "Reads that fail without end: C83_hangs, and C83_ends_refuted in Findings.v; what a failing constructor leaves: C83_constructor_refuted.  Stronger reading refuted (Findings.v): C83_ends_refuted, C83_constructor_refuted"
  },
  {
   "property": "C84",
   "status": "proved",
   "theorems": [
    "C84_text",
    "C84_exactly",
    "C84_line",
    "C84_dump",
    "C84_numbers"
   ],
   "note": "The table of names, order and notation is fields_of in TextSpec.v. Times between 1904 and 2106 and the later ones are stated as in C38; octets when they are octets."
  }
 ]
}