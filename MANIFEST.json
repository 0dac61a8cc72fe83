{
 "claims": [
  {
   "property": "C01",
   "status": "proved",
   "theorems": [
    "C01_strlen",
    "C01_unterminated_iso",
    "C01_unterminated_utf16",
    "C01_null"
   ],
   "note": ""
  },
  {
   "property": "C02",
   "status": "proved",
   "theorems": [
    "C02_widens",
    "C02_length",
    "C02_too_long",
    "C02_same"
   ],
   "note": ""
  },
  {
   "property": "C03",
   "status": "proved",
   "theorems": [
    "C03_round_trip",
    "C03_small",
    "C03_three_rounds"
   ],
   "note": ""
  },
  {
   "property": "C04",
   "status": "proved",
   "theorems": [
    "C04_round_trip",
    "C04_decode"
   ],
   "note": ""
  },
  {
   "property": "C05",
   "status": "proved",
   "theorems": [
    "C05_recognised",
    "C05_refused"
   ],
   "note": ""
  },
  {
   "property": "C06",
   "status": "proved",
   "theorems": [
    "C06_extended",
    "C06_extended_file"
   ],
   "note": ""
  },
  {
   "property": "C07",
   "status": "proved",
   "theorems": [
    "C07_file",
    "C07_no_header"
   ],
   "note": ""
  },
  {
   "property": "C08",
   "status": "proved",
   "theorems": [
    "C08_text"
   ],
   "note": ""
  },
  {
   "property": "C09",
   "status": "proved",
   "theorems": [
    "C09_comment"
   ],
   "note": ""
  },
  {
   "property": "C10",
   "status": "proved",
   "theorems": [
    "C10_picture"
   ],
   "note": ""
  },
  {
   "property": "C11",
   "status": "proved",
   "theorems": [
    "C11_unknown"
   ],
   "note": ""
  },
  {
   "property": "C12",
   "status": "proved",
   "theorems": [
    "C12_parse"
   ],
   "note": ""
  },
  {
   "property": "C13",
   "status": "proved",
   "theorems": [
    "C13_terminates",
    "C13_progress"
   ],
   "note": ""
  },
  {
   "property": "C14",
   "status": "proved",
   "theorems": [
    "C14_ignored",
    "C14_relabelled"
   ],
   "note": ""
  },
  {
   "property": "C15",
   "status": "proved",
   "theorems": [
    "C15_dropped"
   ],
   "note": ""
  },
  {
   "property": "C16",
   "status": "proved",
   "theorems": [
    "C16_text",
    "C16_text_too_small",
    "C16_picture_empty",
    "C16_comment",
    "C16_picture",
    "C16_truncated",
    "C16_truncated_known"
   ],
   "note": ""
  },
  {
   "property": "C17",
   "status": "proved",
   "theorems": [
    "C17_kind"
   ],
   "note": ""
  },
  {
   "property": "C18",
   "status": "proved",
   "theorems": [
    "C18_lookup",
    "C18_exact",
    "C18_named",
    "C18_null"
   ],
   "note": ""
  },
  {
   "property": "C19",
   "status": "proved",
   "theorems": [
    "C19_set_get",
    "C19_all_setters"
   ],
   "note": ""
  },
  {
   "property": "C20",
   "status": "proved",
   "theorems": [
    "C20_set",
    "C20_add"
   ],
   "note": ""
  },
  {
   "property": "C21",
   "status": "proved",
   "theorems": [
    "C21_delete"
   ],
   "note": ""
  },
  {
   "property": "C22",
   "status": "proved",
   "theorems": [
    "C22_absent"
   ],
   "note": ""
  },
  {
   "property": "C23",
   "status": "proved",
   "theorems": [
    "C23_indexed",
    "C23_out_of_range"
   ],
   "note": ""
  },
  {
   "property": "C24",
   "status": "proved",
   "theorems": [
    "C24_write_exits",
    "C24_added_frame_is_lost",
    "C24_otherwise_no_hole"
   ],
   "note": ""
  },
  {
   "property": "C25",
   "status": "proved",
   "theorems": [
    "C25_history"
   ],
   "note": ""
  },
  {
   "property": "C26",
   "status": "proved",
   "theorems": [
    "C26_room"
   ],
   "note": ""
  },
  {
   "property": "C27",
   "status": "proved",
   "theorems": [
    "C27_fits",
    "C27_overflows",
    "C27_iff"
   ],
   "note": ""
  },
  {
   "property": "C28",
   "status": "proved",
   "theorems": [
    "C28_short",
    "C28_history",
    "C28_empty"
   ],
   "note": ""
  },
  {
   "property": "C29",
   "status": "proved",
   "theorems": [
    "C29_round_trip"
   ],
   "note": ""
  },
  {
   "property": "C30",
   "status": "proved",
   "theorems": [
    "C30_size",
    "C30_round_trip",
    "C30_large_frame",
    "C30_large_tag",
    "C30_text",
    "C30_other",
    "C30_picture"
   ],
   "note": ""
  },
  {
   "property": "C31",
   "status": "proved",
   "theorems": [
    "C31_write",
    "C31_any_tag"
   ],
   "note": ""
  },
  {
   "property": "C32",
   "status": "proved",
   "theorems": [
    "C32_write_read"
   ],
   "note": ""
  },
  {
   "property": "C33",
   "status": "proved",
   "theorems": [
    "C33_delete",
    "C33_unchanged",
    "C33_write_delete",
    "C33_read_after",
    "C33_remove_tag"
   ],
   "note": ""
  },
  {
   "property": "C34",
   "status": "proved",
   "theorems": [
    "C34_prefix"
   ],
   "note": ""
  },
  {
   "property": "C35",
   "status": "proved",
   "theorems": [
    "C35_write",
    "C35_delete"
   ],
   "note": ""
  },
  {
   "property": "C36",
   "status": "proved",
   "theorems": [
    "C36_file",
    "C36_padding",
    "C36_overflow",
    "C36_new"
   ],
   "note": ""
  },
  {
   "property": "C37",
   "status": "proved",
   "theorems": [
    "C37_null_tag",
    "C37_missing_file"
   ],
   "note": ""
  },
  {
   "property": "C38",
   "status": "proved",
   "theorems": [
    "C38_start",
    "C38_minimal",
    "C38_checksum",
    "C38_zero",
    "C38_written"
   ],
   "note": ""
  },
  {
   "property": "C39",
   "status": "proved",
   "theorems": [
    "C39_load",
    "C39_no_tag",
    "C39_file",
    "C39_file_no_tag",
    "C39_getters",
    "C39_contents",
    "C39_contents_confused"
   ],
   "note": ""
  },
  {
   "property": "C40",
   "status": "proved",
   "theorems": [
    "C40_set",
    "C40_absent",
    "C40_new",
    "C40_history",
    "C40_history_absent",
    "C40_stale",
    "C40_cover_missing",
    "C40_cover_no_extension",
    "C40_set_tag",
    "C40_free",
    "C40_free_new"
   ],
   "note": ""
  },
  {
   "property": "C41",
   "status": "proved",
   "theorems": [
    "C41_call",
    "C41_history",
    "C41_free",
    "C41_free_twice",
    "C41_from_scratch"
   ],
   "note": ""
  },
  {
   "property": "C42",
   "status": "proved",
   "theorems": [
    "C42_size_ignored"
   ],
   "note": ""
  },
  {
   "property": "C43",
   "status": "proved",
   "theorems": [
    "C43_truncated_unknown"
   ],
   "note": ""
  },
  {
   "property": "C44",
   "status": "proved",
   "theorems": [
    "C44_cut_frames",
    "C44_cut_padding"
   ],
   "note": ""
  },
  {
   "property": "C45",
   "status": "proved",
   "theorems": [
    "C45_no_leak",
    "C45_leak"
   ],
   "note": ""
  },
  {
   "property": "C46",
   "status": "proved",
   "theorems": [
    "C46_unlink",
    "C46_free"
   ],
   "note": ""
  },
  {
   "property": "C47",
   "status": "proved",
   "theorems": [
    "C47_mask_overflows"
   ],
   "note": ""
  },
  {
   "property": "C48",
   "status": "proved",
   "theorems": [
    "C48_get",
    "C48_edit",
    "C48_untouched",
    "C48_history"
   ],
   "note": ""
  },
  {
   "property": "C49",
   "status": "proved",
   "theorems": [
    "C49_file",
    "C49_buffer",
    "C49_header_file",
    "C49_header_buffer",
    "C49_kinds_file",
    "C49_kinds_buffer"
   ],
   "note": ""
  },
  {
   "property": "C50",
   "status": "proved",
   "theorems": [
    "C50_write"
   ],
   "note": ""
  },
  {
   "property": "C51",
   "status": "proved",
   "theorems": [
    "C51_delete"
   ],
   "note": ""
  },
  {
   "property": "C52",
   "status": "proved",
   "theorems": [
    "C52_program",
    "C52_tidy",
    "C52_end"
   ],
   "note": ""
  },
  {
   "property": "C53",
   "status": "proved",
   "theorems": [
    "C53_frame",
    "C53_buffer",
    "C53_unique",
    "C53_file"
   ],
   "note": ""
  },
  {
   "property": "C54",
   "status": "proved",
   "theorems": [
    "C54_load_file",
    "C54_load_buffer",
    "C54_new",
    "C54_set",
    "C54_save",
    "C54_free",
    "C54_remove",
    "C54_program",
    "C54_freed"
   ],
   "note": ""
  },
  {
   "property": "C55",
   "status": "proved",
   "theorems": [
    "C55_get",
    "C55_set",
    "C55_text",
    "C55_comment",
    "C55_picture",
    "C55_text_freed",
    "C55_comment_freed",
    "C55_picture_freed"
   ],
   "note": ""
  },
  {
   "property": "C56",
   "status": "proved",
   "theorems": [
    "C56_session",
    "C56_sessions"
   ],
   "note": ""
  },
  {
   "property": "C57",
   "status": "proved",
   "theorems": [
    "C57_session"
   ],
   "note": ""
  },
  {
   "property": "C58",
   "status": "proved",
   "theorems": [
    "C58_set",
    "C58_misfiled",
    "C58_write",
    "C58_life",
    "C58_call",
    "C58_history",
    "C58_free",
    "C58_store"
   ],
   "note": ""
  },
  {
   "property": "C59",
   "status": "proved",
   "theorems": [
    "C59_seen",
    "C59_rewrite",
    "C59_twice",
    "C59_edit",
    "C59_edit_any",
    "C59_whole"
   ],
   "note": ""
  },
  {
   "property": "C60",
   "status": "proved",
   "theorems": [
    "C60_ideal",
    "C60_read",
    "C60_write",
    "C60_passed",
    "C60_write_refused",
    "C60_delete",
    "C60_delete_unseen",
    "C60_delete_refused"
   ],
   "note": ""
  },
  {
   "property": "C61",
   "status": "proved",
   "theorems": [
    "C61_whole",
    "C61_load",
    "C61_unread",
    "C61_getters",
    "C61_contents",
    "C61_session",
    "C61_free"
   ],
   "note": ""
  },
  {
   "property": "C62",
   "status": "proved",
   "theorems": [
    "C62_header",
    "C62_read",
    "C62_load",
    "C62_cover",
    "C62_write",
    "C62_delete",
    "C62_set_tag",
    "C62_session"
   ],
   "note": ""
  },
  {
   "property": "C63",
   "status": "proved",
   "theorems": [
    "C63_same",
    "C63_threads",
    "C63_calls"
   ],
   "note": ""
  },
  {
   "property": "C64",
   "status": "proved",
   "theorems": [
    "C64_read",
    "C64_header",
    "C64_write",
    "C64_big_endian",
    "C64_tag_size",
    "C64_frame_size",
    "C64_delete"
   ],
   "note": ""
  },
  {
   "property": "C65",
   "status": "proved",
   "theorems": [
    "C65_any",
    "C65_buffer",
    "C65_file",
    "C65_load",
    "C65_bound",
    "C65_small_file",
    "C65_written"
   ],
   "note": ""
  },
  {
   "property": "C66",
   "status": "proved",
   "theorems": [
    "C66_edit",
    "C66_text",
    "C66_by_index",
    "C66_list",
    "C66_header",
    "C66_read",
    "C66_buffer",
    "C66_write",
    "C66_write_missing",
    "C66_delete",
    "C66_new",
    "C66_v1_set",
    "C66_v1_parse",
    "C66_v1_load",
    "C66_v1_load_buffer",
    "C66_v1_write",
    "C66_v1_remove",
    "C66_v1_new"
   ],
   "note": ""
  },
  {
   "property": "C67",
   "status": "proved",
   "theorems": [
    "C67_read",
    "C67_read_short",
    "C67_no_tag",
    "C67_buffer",
    "C67_buffer_no_tag",
    "C67_header",
    "C67_header_buffer",
    "C67_write",
    "C67_delete",
    "C67_edit",
    "C67_new",
    "C67_unicode",
    "C67_bound",
    "C67_small_file",
    "C67_written"
   ],
   "note": ""
  },
  {
   "property": "C68",
   "status": "proved",
   "theorems": [
    "C68_same_call",
    "C68_same_get",
    "C68_same_all",
    "C68_same_free",
    "C68_race_iff",
    "C68_as_if_alone",
    "C68_memory",
    "C68_readers",
    "C68_table",
    "C68_no_conflict"
   ],
   "note": ""
  },
  {
   "property": "C69",
   "status": "proved",
   "theorems": [
    "C69_write_v3",
    "C69_write_v4",
    "C69_edit_v3",
    "C69_edit_v4",
    "C69_set_comment",
    "C69_utf16_description",
    "C69_utf16_comment"
   ],
   "note": ""
  },
  {
   "property": "C70",
   "status": "proved",
   "theorems": [
    "C70_seen",
    "C70_unchanged",
    "C70_large",
    "C70_utf8",
    "C70_utf16be",
    "C70_values",
    "C70_user",
    "C70_unterminated",
    "C70_unterminated_latin1"
   ],
   "note": ""
  },
  {
   "property": "C71",
   "status": "proved",
   "theorems": [
    "C71_same",
    "C71_one_saver",
    "C71_savers_race",
    "C71_save_edit"
   ],
   "note": ""
  },
  {
   "property": "C72",
   "status": "proved",
   "theorems": [
    "C72_text",
    "C72_comment",
    "C72_picture"
   ],
   "note": ""
  },
  {
   "property": "C73",
   "status": "proved",
   "theorems": [
    "C73_get",
    "C73_get_untagged",
    "C73_get_unread",
    "C73_get_empty",
    "C73_edit",
    "C73_edit_large",
    "C73_edit_untagged"
   ],
   "note": ""
  },
  {
   "property": "C74",
   "status": "proved",
   "theorems": [
    "C74_misses",
    "C74_exactly",
    "C74_untagged"
   ],
   "note": ""
  },
  {
   "property": "C75",
   "status": "proved",
   "theorems": [
    "C75_compat",
    "C75_untagged"
   ],
   "note": ""
  },
  {
   "property": "C76",
   "status": "proved",
   "theorems": [
    "C76_main"
   ],
   "note": ""
  },
  {
   "property": "C77",
   "status": "proved",
   "theorems": [
    "C77_text",
    "C77_comment",
    "C77_confused",
    "C77_order",
    "C77_file_texts",
    "C77_file_comment",
    "C77_file_comments",
    "C77_unicode"
   ],
   "note": ""
  },
  {
   "property": "C78",
   "status": "proved",
   "theorems": [
    "C78_never",
    "C78_file"
   ],
   "note": ""
  },
  {
   "property": "C79",
   "status": "proved",
   "theorems": [
    "C79_load",
    "C79_new_frames",
    "C79_compat",
    "C79_untagged",
    "C79_unread"
   ],
   "note": ""
  },
  {
   "property": "C80",
   "status": "proved",
   "theorems": [
    "C80_edit",
    "C80_new_frames",
    "C80_new_tag"
   ],
   "note": ""
  },
  {
   "property": "C81",
   "status": "proved",
   "theorems": [
    "C81_delete"
   ],
   "note": ""
  },
  {
   "property": "C82",
   "status": "proved",
   "theorems": [
    "C82_scheme",
    "C82_v24",
    "C82_v23_only",
    "C82_v23_next"
   ],
   "note": ""
  },
  {
   "property": "C83",
   "status": "proved",
   "theorems": [
    "C83_read",
    "C83_write",
    "C83_footer_kept",
    "C83_footer_left"
   ],
   "note": ""
  },
  {
   "property": "C84",
   "status": "proved",
   "theorems": [
    "C84_call",
    "C84_get",
    "C84_edit",
    "C84_copy",
    "C84_itself",
    "C84_delete"
   ],
   "note": ""
  },
  {
   "property": "C85",
   "status": "proved",
   "theorems": [
    "C85_edit",
    "C85_history",
    "C85_whole",
    "C85_no_hole",
    "C85_get",
    "C85_nothing_lost",
    "C85_closed",
    "C85_write_exits",
    "C85_write_hidden"
   ],
   "note": ""
  },
  {
   "property": "C86",
   "status": "proved",
   "theorems": [
    "C86_save",
    "C86_session",
    "C86_returns",
    "C86_no_tag",
    "C86_unreadable",
    "C86_file"
   ],
   "note": ""
  },
  {
   "property": "C87",
   "status": "proved",
   "theorems": [
    "C87_get",
    "C87_write",
    "C87_calls",
    "C87_last_wins",
    "C87_set_order",
    "C87_set_delete",
    "C87_set_delete_new",
    "C87_delete_order"
   ],
   "note": ""
  },
  {
   "property": "C88",
   "status": "proved",
   "theorems": [
    "C88_target",
    "C88_again",
    "C88_read",
    "C88_twice",
    "C88_history",
    "C88_long",
    "C88_unknown",
    "C88_extended"
   ],
   "note": ""
  },
  {
   "property": "C89",
   "status": "proved",
   "theorems": [
    "C89_life",
    "C89_bare"
   ],
   "note": ""
  },
  {
   "property": "C90",
   "status": "proved",
   "theorems": [
    "C90_alone",
    "C90_read",
    "C90_write",
    "C90_kept",
    "C90_delete",
    "C90_saves"
   ],
   "note": ""
  },
  {
   "property": "C91",
   "status": "proved",
   "theorems": [
    "C91_same",
    "C91_life",
    "C91_bare"
   ],
   "note": ""
  },
  {
   "property": "C92",
   "status": "proved",
   "theorems": [
    "C92_same",
    "C92_read",
    "C92_bound",
    "C92_worst",
    "C92_get",
    "C92_edit",
    "C92_write",
    "C92_delete",
    "C92_unicode"
   ],
   "note": ""
  },
  {
   "property": "C93",
   "status": "proved",
   "theorems": [
    "C93_read",
    "C93_session",
    "C93_delete",
    "C93_reveal",
    "C93_whole",
    "C93_ends"
   ],
   "note": ""
  },
  {
   "property": "C94",
   "status": "proved",
   "theorems": [
    "C94_faithful"
   ],
   "note": ""
  },
  {
   "property": "C95",
   "status": "proved",
   "theorems": [
    "C95_front",
    "C95_copy",
    "C95_copies",
    "C95_swap",
    "C95_swap_twice",
    "C95_none",
    "C95_saved"
   ],
   "note": ""
  },
  {
   "property": "C96",
   "status": "proved",
   "theorems": [
    "C96_write",
    "C96_small",
    "C96_unsafe",
    "C96_file",
    "C96_whole",
    "C96_read",
    "C96_delete",
    "C96_saves",
    "C96_session"
   ],
   "note": ""
  },
  {
   "property": "C97",
   "status": "proved",
   "theorems": [
    "C97_cases",
    "C97_between",
    "C97_lost",
    "C97_text",
    "C97_within",
    "C97_stack"
   ],
   "note": ""
  }
 ]
}