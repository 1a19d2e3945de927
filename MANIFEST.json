{
 "claims": [
  {
   "property": "C01",
   "status": "proved",
   "theorems": [
    "C01_encode_delimited"
   ],
   "note": ""
  },
  {
   "property": "C02",
   "status": "proved",
   "theorems": [
    "C02_escape_lossless",
    "C02_encode_reads_back"
   ],
   "note": ""
  },
  {
   "property": "C03",
   "status": "proved",
   "theorems": [
    "C03_wrong_checksum_rejected",
    "C03_single_byte_error_detected",
    "C03_encoded_corrupted",
    "C03_accepted_has_checksum"
   ],
   "note": ""
  },
  {
   "property": "C04",
   "status": "proved",
   "theorems": [
    "C04_accepts_exactly",
    "C04_payload_unique",
    "C04_decode_accepts_frames_only",
    "C04_strict"
   ],
   "note": ""
  },
  {
   "property": "C05",
   "status": "partial",
   "theorems": [
    "C05_no_crash_refuted"
   ],
   "note": "Refuted with a witness (7e 07 7e). Exactly the frames 7e x 7e crash: C65."
  },
  {
   "property": "C06",
   "status": "proved",
   "theorems": [
    "C06_no_crash"
   ],
   "note": ""
  },
  {
   "property": "C07",
   "status": "proved",
   "theorems": [
    "C07_round_trip",
    "C07_header_fields"
   ],
   "note": ""
  },
  {
   "property": "C08",
   "status": "proved",
   "theorems": [
    "C08_icc_survives"
   ],
   "note": ""
  },
  {
   "property": "C09",
   "status": "partial",
   "theorems": [
    "C09_oversize_refuted",
    "C09_oversize_partial"
   ],
   "note": "Refuted with a 65536-byte body: the length is cut to 16 bits before the check. Proved below 65536 bytes; exact behaviour C66."
  },
  {
   "property": "C10",
   "status": "proved",
   "theorems": [
    "C10_property_fields_independent"
   ],
   "note": ""
  },
  {
   "property": "C11",
   "status": "proved",
   "theorems": [
    "C11_set_bit",
    "C11_get_bit",
    "C11_get_after_set",
    "C11_negative"
   ],
   "note": ""
  },
  {
   "property": "C12",
   "status": "partial",
   "theorems": [
    "C12_round_trip_refuted",
    "C12_round_trip_partial"
   ],
   "note": "Refuted as stated: empty lists of six types are refused by their own decoder (witness). Proved for every other representable body; exact version C55."
  },
  {
   "property": "C13",
   "status": "proved",
   "theorems": [
    "C13_coordinates",
    "C13_precision"
   ],
   "note": ""
  },
  {
   "property": "C14",
   "status": "partial",
   "theorems": [
    "C14_reuse_refuted"
   ],
   "note": "Refuted with a witness: hemisphere flags stay set. Exact behaviour proved as C57."
  },
  {
   "property": "C15",
   "status": "partial",
   "theorems": [
    "C15_vertex_refuted"
   ],
   "note": "Refuted with a witness: one flag for all vertices. Exact behaviour proved as C58."
  },
  {
   "property": "C16",
   "status": "proved",
   "theorems": [
    "C16_extras",
    "C16_unknown_skipped"
   ],
   "note": ""
  },
  {
   "property": "C17",
   "status": "partial",
   "theorems": [
    "C17_forward_refuted"
   ],
   "note": "Refuted with a witness: decoded extra items are re-encoded with length 0. Exact behaviour proved as C59."
  },
  {
   "property": "C18",
   "status": "partial",
   "theorems": [
    "C18_century_refuted",
    "C18_exact",
    "C18_early_fails"
   ],
   "note": "Refuted for 2000-2009 (leading zero lost, parse error); proved exactly for 2010-2099."
  },
  {
   "property": "C19",
   "status": "proved",
   "theorems": [
    "C19_exact",
    "C19_only_zeros_lost",
    "C19_width"
   ],
   "note": ""
  },
  {
   "property": "C20",
   "status": "partial",
   "theorems": [
    "C20_can_time_refuted",
    "C20_can_time_partial"
   ],
   "note": "Refuted for the first hour and 24:00; proved for 01:00 up to 24:00 exclusive; exact behaviour C60."
  },
  {
   "property": "C21",
   "status": "proved",
   "theorems": [
    "C21_typed",
    "C21_short",
    "C21_private",
    "C21_private_numbers",
    "C21_get_private"
   ],
   "note": ""
  },
  {
   "property": "C22",
   "status": "partial",
   "theorems": [
    "C22_overlong_refuted",
    "C22_overlong_text_refuted"
   ],
   "note": "Refuted: the count wraps and a shorter list arrives; also for one-byte text lengths. Exact behaviour for lists C61."
  },
  {
   "property": "C23",
   "status": "partial",
   "theorems": [
    "C23_repeat_refuted",
    "C23_repeat_partial"
   ],
   "note": "Refuted for 0x0801; proved for the other 64 types; exact behaviour C62."
  },
  {
   "property": "C24",
   "status": "proved",
   "theorems": [
    "C24_chunks",
    "C24_message",
    "C24_too_long",
    "C24_never_plain",
    "C24_bad_cipher"
   ],
   "note": ""
  },
  {
   "property": "C25",
   "status": "partial",
   "theorems": [
    "C25_encrypts_refuted"
   ],
   "note": "Refuted with a witness: Send leaves the encryption flag clear, so the codec ignores the key. Exact behaviour C73."
  },
  {
   "property": "C26",
   "status": "proved",
   "theorems": [
    "C26_end_to_end",
    "C26_frames"
   ],
   "note": ""
  },
  {
   "property": "C27",
   "status": "proved",
   "theorems": [
    "C27_bounded",
    "C27_never_closed",
    "C27_only_open"
   ],
   "note": ""
  },
  {
   "property": "C28",
   "status": "partial",
   "theorems": [
    "C28_progress_partial",
    "C28_resync_partial",
    "C28_resync_refuted"
   ],
   "note": "Refuted: one stray delimiter shifts the reading of all later frames. Proved: bytes are always consumed, and an even number of stray delimiters does no harm. Exact behaviour C69 and C72."
  },
  {
   "property": "C29",
   "status": "proved",
   "theorems": [
    "C29_isolated",
    "C29_delivered"
   ],
   "note": ""
  },
  {
   "property": "C30",
   "status": "proved",
   "theorems": [
    "C30_serials",
    "C30_distinct",
    "C30_session",
    "C30_sent"
   ],
   "note": ""
  },
  {
   "property": "C31",
   "status": "proved",
   "theorems": [
    "C31_callback_once"
   ],
   "note": ""
  },
  {
   "property": "C32",
   "status": "partial",
   "theorems": [
    "C32_right_request_refuted",
    "C32_right_request_partial"
   ],
   "note": "Refuted with a history of 256 sends (serial numbers repeat after 255). Proved while fewer than 255 numbers have been drawn since the request."
  },
  {
   "property": "C33",
   "status": "partial",
   "theorems": [
    "C33_race_refuted",
    "C33_replaced_refuted",
    "C33_pending_partial"
   ],
   "note": "Refuted twice: answer before registration, and replacement by a request of the same type. Proved for registered requests that are not replaced; exact behaviour C75."
  },
  {
   "property": "C34",
   "status": "proved",
   "theorems": [
    "C34_one_per_id",
    "C34_replaces"
   ],
   "note": ""
  },
  {
   "property": "C35",
   "status": "proved",
   "theorems": [
    "C35_timer_exact"
   ],
   "note": ""
  },
  {
   "property": "C36",
   "status": "partial",
   "theorems": [
    "C36_removed_partial",
    "C36_refreshed_partial",
    "C36_apart_partial",
    "C36_overlap_refuted"
   ],
   "note": "Refuted for overlapping Updates of one key: the superseded element stays in the queue and fires. Proved for calls that do not overlap and for every interleaving in which Updates of one key do not overlap (the server has one goroutine per key); for arbitrary interleavings see C78."
  },
  {
   "property": "C37",
   "status": "partial",
   "theorems": [
    "C37_keepalive_refuted",
    "C37_keepalive_partial"
   ],
   "note": "Refuted: the timer is refreshed only for messages that reach a handler. Proved for those; exact behaviour C85."
  },
  {
   "property": "C38",
   "status": "proved",
   "theorems": [
    "C38_dispatch",
    "C38_order",
    "C38_only"
   ],
   "note": "Handlers are events of the model; their panics are recovered by the code and have no effect there. Packets of uploads on a merging server: C43, C87."
  },
  {
   "property": "C39",
   "status": "proved",
   "theorems": [
    "C39_unsupported"
   ],
   "note": ""
  },
  {
   "property": "C40",
   "status": "proved",
   "theorems": [
    "C40_full",
    "C40_answers"
   ],
   "note": "For Sum >= 1, or after any write for the terminal. Otherwise IsFull panics (C44, C81)."
  },
  {
   "property": "C41",
   "status": "partial",
   "theorems": [
    "C41_merge_partial",
    "C41_stale_tail_refuted",
    "C41_extra_parts_refuted"
   ],
   "note": "Refuted with two witnesses: the tail of an earlier longer merge stays, parts beyond Sum are included. Proved when exactly the parts 1..Sum were written and no earlier merge was longer; exact behaviour C82."
  },
  {
   "property": "C42",
   "status": "proved",
   "theorems": [
    "C42_no_interference",
    "C42_other_terminals"
   ],
   "note": ""
  },
  {
   "property": "C43",
   "status": "partial",
   "theorems": [
    "C43_lost_refuted",
    "C43_twice_refuted",
    "C43_upload_partial"
   ],
   "note": "Refuted twice: never handed over if the last packet is not last; handed over again when it is repeated. Proved exactly for packets arriving once each in any order with no leftovers; general rule C87."
  },
  {
   "property": "C44",
   "status": "partial",
   "theorems": [
    "C44_total_refuted"
   ],
   "note": "Refuted: both panic when nothing was written for the terminal (nil FileInfo). Exact condition C81."
  },
  {
   "property": "C45",
   "status": "partial",
   "theorems": [
    "C45_registry_refuted",
    "C45_broadcast_partial"
   ],
   "note": "Refuted: a session closed before AddCloseCallback stays registered forever. Broadcast proved; exact registry C84."
  },
  {
   "property": "C46",
   "status": "partial",
   "theorems": [
    "C46_forgotten_refuted",
    "C46_timer_refuted"
   ],
   "note": "Refuted twice: closed before AddCloseCallback; a message handled after the close callback. What holds is C86."
  },
  {
   "property": "C47",
   "status": "proved",
   "theorems": [
    "C47_keys",
    "C47_refused",
    "C47_error"
   ],
   "note": ""
  },
  {
   "property": "C48",
   "status": "partial",
   "theorems": [
    "C48_gzip_refuted"
   ],
   "note": "Refuted: a read error is treated as the end of data. Exact behaviour C63."
  },
  {
   "property": "C49",
   "status": "proved",
   "theorems": [
    "C49_id",
    "C49_unregistered"
   ],
   "note": ""
  },
  {
   "property": "C50",
   "status": "partial",
   "theorems": [
    "C50_count_refuted"
   ],
   "note": "Refuted (0x0303 and nine more types). Exact behaviour C64."
  },
  {
   "property": "C51",
   "status": "partial",
   "theorems": [
    "C51_addressed_refuted",
    "C51_addressed_partial"
   ],
   "note": "Refuted: answers to unreadable or kept-back first messages carry 0. Proved for messages passed on; exact rule C88."
  },
  {
   "property": "C52",
   "status": "partial",
   "theorems": [
    "C52_key_refuted",
    "C52_keepalive_partial"
   ],
   "note": "Refuted: Size() counts bytes, so 1017 to 1023 bits are accepted (C89). The keepalive part is proved."
  },
  {
   "property": "C53",
   "status": "proved",
   "theorems": [
    "C53_distinct"
   ],
   "note": ""
  },
  {
   "property": "C54",
   "status": "proved",
   "theorems": [
    "C54_in_range"
   ],
   "note": ""
  },
  {
   "property": "C55",
   "status": "proved",
   "theorems": [
    "C55_body_exact"
   ],
   "note": ""
  },
  {
   "property": "C56",
   "status": "proved",
   "theorems": [
    "C56_trailing"
   ],
   "note": ""
  },
  {
   "property": "C57",
   "status": "proved",
   "theorems": [
    "C57_reuse_exact"
   ],
   "note": ""
  },
  {
   "property": "C58",
   "status": "proved",
   "theorems": [
    "C58_polygon_exact",
    "C58_polygon_signs",
    "C58_rectangles_exact"
   ],
   "note": ""
  },
  {
   "property": "C59",
   "status": "proved",
   "theorems": [
    "C59_forward_exact"
   ],
   "note": ""
  },
  {
   "property": "C60",
   "status": "proved",
   "theorems": [
    "C60_can_time_exact"
   ],
   "note": ""
  },
  {
   "property": "C61",
   "status": "proved",
   "theorems": [
    "C61_overlong_exact"
   ],
   "note": ""
  },
  {
   "property": "C62",
   "status": "proved",
   "theorems": [
    "C62_repeat_exact",
    "C62_message_again"
   ],
   "note": ""
  },
  {
   "property": "C63",
   "status": "proved",
   "theorems": [
    "C63_gzip_exact",
    "C63_gzip_header"
   ],
   "note": ""
  },
  {
   "property": "C64",
   "status": "proved",
   "theorems": [
    "C64_count_covers",
    "C64_count_of_encoded"
   ],
   "note": ""
  },
  {
   "property": "C65",
   "status": "proved",
   "theorems": [
    "C65_crash_exact"
   ],
   "note": ""
  },
  {
   "property": "C66",
   "status": "proved",
   "theorems": [
    "C66_size_exact"
   ],
   "note": ""
  },
  {
   "property": "C67",
   "status": "proved",
   "theorems": [
    "C67_received_header"
   ],
   "note": ""
  },
  {
   "property": "C68",
   "status": "proved",
   "theorems": [
    "C68_into_used",
    "C68_stale_body"
   ],
   "note": ""
  },
  {
   "property": "C69",
   "status": "proved",
   "theorems": [
    "C69_even",
    "C69_odd",
    "C69_received_even",
    "C69_received_odd"
   ],
   "note": ""
  },
  {
   "property": "C70",
   "status": "proved",
   "theorems": [
    "C70_any_stream"
   ],
   "note": ""
  },
  {
   "property": "C71",
   "status": "proved",
   "theorems": [
    "C71_first_error"
   ],
   "note": ""
  },
  {
   "property": "C72",
   "status": "proved",
   "theorems": [
    "C72_again",
    "C72_unbounded"
   ],
   "note": ""
  },
  {
   "property": "C73",
   "status": "proved",
   "theorems": [
    "C73_never_encrypts"
   ],
   "note": ""
  },
  {
   "property": "C74",
   "status": "proved",
   "theorems": [
    "C74_lock_free"
   ],
   "note": ""
  },
  {
   "property": "C75",
   "status": "proved",
   "theorems": [
    "C75_answer_exact"
   ],
   "note": ""
  },
  {
   "property": "C76",
   "status": "proved",
   "theorems": [
    "C76_no_crash"
   ],
   "note": ""
  },
  {
   "property": "C77",
   "status": "proved",
   "theorems": [
    "C77_sent"
   ],
   "note": ""
  },
  {
   "property": "C78",
   "status": "proved",
   "theorems": [
    "C78_any_interleaving"
   ],
   "note": ""
  },
  {
   "property": "C79",
   "status": "proved",
   "theorems": [
    "C79_wraps"
   ],
   "note": ""
  },
  {
   "property": "C80",
   "status": "proved",
   "theorems": [
    "C80_push",
    "C80_remove",
    "C80_update",
    "C80_least"
   ],
   "note": ""
  },
  {
   "property": "C81",
   "status": "proved",
   "theorems": [
    "C81_panic_iff",
    "C81_history"
   ],
   "note": ""
  },
  {
   "property": "C82",
   "status": "proved",
   "theorems": [
    "C82_merge",
    "C82_unique",
    "C82_calls",
    "C82_calls_unique"
   ],
   "note": ""
  },
  {
   "property": "C83",
   "status": "proved",
   "theorems": [
    "C83_no_crash",
    "C83_exact"
   ],
   "note": ""
  },
  {
   "property": "C84",
   "status": "proved",
   "theorems": [
    "C84_registry"
   ],
   "note": ""
  },
  {
   "property": "C85",
   "status": "proved",
   "theorems": [
    "C85_tick",
    "C85_last_refresh"
   ],
   "note": ""
  },
  {
   "property": "C86",
   "status": "proved",
   "theorems": [
    "C86_once",
    "C86_runs",
    "C86_forgotten"
   ],
   "note": ""
  },
  {
   "property": "C87",
   "status": "proved",
   "theorems": [
    "C87_packet"
   ],
   "note": ""
  },
  {
   "property": "C88",
   "status": "proved",
   "theorems": [
    "C88_sent"
   ],
   "note": ""
  },
  {
   "property": "C89",
   "status": "proved",
   "theorems": [
    "C89_key"
   ],
   "note": ""
  },
  {
   "property": "C90",
   "status": "proved",
   "theorems": [
    "C90_received"
   ],
   "note": ""
  },
  {
   "property": "C91",
   "status": "proved",
   "theorems": [
    "C91_callback_once"
   ],
   "note": ""
  },
  {
   "property": "C92",
   "status": "proved",
   "theorems": [
    "C92_unprivileged"
   ],
   "note": ""
  },
  {
   "property": "C93",
   "status": "proved",
   "theorems": [
    "C93_encode_layout",
    "C93_decode_layout",
    "C93_bytes"
   ],
   "note": "The layout is the independent description SpecWire.layout. Bodies with no elements that their own decoder refuses are the exception of C55."
  },
  {
   "property": "C94",
   "status": "proved",
   "theorems": [
    "C94_encode_layout",
    "C94_decode_layout",
    "C94_bytes"
   ],
   "note": ""
  },
  {
   "property": "C95",
   "status": "proved",
   "theorems": [
    "C95_refinement",
    "C95_prefix",
    "C95_all",
    "C95_terminal"
   ],
   "note": "Host.v composes the codec, the session goroutines, the channels of link and the server; the behaviour assumed of link is in its header."
  },
  {
   "property": "C96",
   "status": "proved",
   "theorems": [
    "C96_cause",
    "C96_bytes",
    "C96_sure",
    "C96_three_bytes"
   ],
   "note": "C05 is the property that is violated; this is the exact extent for the process."
  },
  {
   "property": "C97",
   "status": "proved",
   "theorems": [
    "C97_prefix",
    "C97_outstanding",
    "C97_flushed",
    "C97_terminal"
   ],
   "note": ""
  },
  {
   "property": "C98",
   "status": "proved",
   "theorems": [
    "C98_nil_panics",
    "C98_relay_panics",
    "C98_typed_nil"
   ],
   "note": ""
  },
  {
   "property": "C99",
   "status": "proved",
   "theorems": [
    "C99_decode_exact",
    "C99_decode_refuses"
   ],
   "note": ""
  },
  {
   "property": "C100",
   "status": "proved",
   "theorems": [
    "C100_header_exact",
    "C100_message_exact"
   ],
   "note": ""
  },
  {
   "property": "C101",
   "status": "proved",
   "theorems": [
    "C101_body_again",
    "C101_frame_again"
   ],
   "note": ""
  },
  {
   "property": "C102",
   "status": "proved",
   "theorems": [
    "C102_alone",
    "C102_one_result",
    "C102_serial_schedule"
   ],
   "note": ""
  },
  {
   "property": "C103",
   "status": "proved",
   "theorems": [
    "C103_isolated",
    "C103_overlapped"
   ],
   "note": ""
  },
  {
   "property": "C104",
   "status": "partial",
   "theorems": [
    "C104_torn_refuted"
   ],
   "note": "Refuted: the file of a part exists before it is written, so the other connection can find the upload complete and hand over without it. C103 is what holds."
  },
  {
   "property": "C105",
   "status": "partial",
   "theorems": [
    "C105_assigned_refuted",
    "C105_broadcast_refuted"
   ],
   "note": "Refuted twice: the caller reuses a body that is still queued; a broadcast 0x0801 is used up by the first session. C106 is what holds."
  },
  {
   "property": "C106",
   "status": "proved",
   "theorems": [
    "C106_value",
    "C106_as_sent",
    "C106_fifo",
    "C106_once",
    "C106_room",
    "C106_refused",
    "C106_kind",
    "C106_type"
   ],
   "note": ""
  },
  {
   "property": "C107",
   "status": "partial",
   "theorems": [
    "C107_passed_refuted"
   ],
   "note": "Refuted: two goroutines pass each other between drawing the number and handing the message to link. C108 is what holds."
  },
  {
   "property": "C108",
   "status": "proved",
   "theorems": [
    "C108_order",
    "C108_serials"
   ],
   "note": ""
  },
  {
   "property": "C109",
   "status": "proved",
   "theorems": [
    "C109_travels",
    "C109_secret",
    "C109_others",
    "C109_own"
   ],
   "note": ""
  },
  {
   "property": "C110",
   "status": "partial",
   "theorems": [
    "C110_answer_refuted",
    "C110_value_refuted",
    "C110_send_refuted"
   ],
   "note": "Refuted three ways: a registration that replaces an answer type (type assertion), a registered type that is not a pointer (reflect IsNil), on receipt and on sending. C111 is what holds."
  },
  {
   "property": "C111",
   "status": "proved",
   "theorems": [
    "C111_safe",
    "C111_no_answer"
   ],
   "note": ""
  },
  {
   "property": "C112",
   "status": "proved",
   "theorems": [
    "C112_items",
    "C112_exact",
    "C112_safe"
   ],
   "note": ""
  },
  {
   "property": "C113",
   "status": "proved",
   "theorems": [
    "C113_total"
   ],
   "note": ""
  },
  {
   "property": "C114",
   "status": "proved",
   "theorems": [
    "C114_look",
    "C114_connect",
    "C114_callback",
    "C114_gone",
    "C114_remove",
    "C114_closed"
   ],
   "note": ""
  },
  {
   "property": "C115",
   "status": "proved",
   "theorems": [
    "C115_open",
    "C115_shut"
   ],
   "note": ""
  },
  {
   "property": "C116",
   "status": "proved",
   "theorems": [
    "C116_check",
    "C116_deadline"
   ],
   "note": ""
  },
  {
   "property": "C117",
   "status": "proved",
   "theorems": [
    "C117_order",
    "C117_timeout"
   ],
   "note": ""
  },
  {
   "property": "C118",
   "status": "partial",
   "theorems": [
    "C118_race_refuted"
   ],
   "note": "Refuted: the check hands over the key, the session is refreshed, then the timer goroutine closes it. C116 and C117 are what holds."
  },
  {
   "property": "C119",
   "status": "proved",
   "theorems": [
    "C119_order",
    "C119_handler",
    "C119_replied"
   ],
   "note": ""
  },
  {
   "property": "C120",
   "status": "proved",
   "theorems": [
    "C120_names",
    "C120_number",
    "C120_message"
   ],
   "note": ""
  },
  {
   "property": "C121",
   "status": "proved",
   "theorems": [
    "C121_waits",
    "C121_answer",
    "C121_nothing"
   ],
   "note": ""
  },
  {
   "property": "C122",
   "status": "proved",
   "theorems": [
    "C122_snapshot",
    "C122_each",
    "C122_count"
   ],
   "note": ""
  },
  {
   "property": "C123",
   "status": "partial",
   "theorems": [
    "C123_answer_refuted"
   ],
   "note": "Refuted: packets of an upload are answered before the session is told the terminal number, so the answer goes to terminal 0. C120 is what holds: an answer carries the number the session was told last."
  },
  {
   "property": "C124",
   "status": "proved",
   "theorems": [
    "C124_ends",
    "C124_rest",
    "C124_reached"
   ],
   "note": ""
  },
  {
   "property": "C125",
   "status": "proved",
   "theorems": [
    "C125_steps"
   ],
   "note": ""
  },
  {
   "property": "C126",
   "status": "proved",
   "theorems": [
    "C126_received",
    "C126_ended"
   ],
   "note": ""
  },
  {
   "property": "C127",
   "status": "proved",
   "theorems": [
    "C127_written",
    "C127_refused"
   ],
   "note": ""
  },
  {
   "property": "C128",
   "status": "proved",
   "theorems": [
    "C128_crash"
   ],
   "note": ""
  },
  {
   "property": "C129",
   "status": "proved",
   "theorems": [
    "C129_uploads"
   ],
   "note": ""
  },
  {
   "property": "C130",
   "status": "proved",
   "theorems": [
    "C130_ends",
    "C130_stops",
    "C130_rest",
    "C130_reached"
   ],
   "note": ""
  },
  {
   "property": "C131",
   "status": "proved",
   "theorems": [
    "C131_stored"
   ],
   "note": ""
  },
  {
   "property": "C132",
   "status": "partial",
   "theorems": [
    "C132_refuted",
    "C132_empty_refuted"
   ],
   "note": "Refuted twice: a write that fails halfway leaves a file that IsFull counts and Merge copies although the packet was answered with failure; a directory that cannot be listed at Merge yields an empty message without an error. C133 and C136 are what holds."
  },
  {
   "property": "C133",
   "status": "proved",
   "theorems": [
    "C133_uploads",
    "C133_independent",
    "C133_answers",
    "C133_plain"
   ],
   "note": ""
  },
  {
   "property": "C134",
   "status": "partial",
   "theorems": [
    "C134_refuted"
   ],
   "note": "Refuted: the callback of filepath.Walk uses its FileInfo without looking at the error, so a file lost under the walk is a nil dereference. C135 says that nothing else ends the process."
  },
  {
   "property": "C135",
   "status": "proved",
   "theorems": [
    "C135_only",
    "C135_dies"
   ],
   "note": ""
  },
  {
   "property": "C136",
   "status": "proved",
   "theorems": [
    "C136_content",
    "C136_answered"
   ],
   "note": ""
  },
  {
   "property": "C137",
   "status": "proved",
   "theorems": [
    "C137_flags",
    "C137_methods"
   ],
   "note": ""
  },
  {
   "property": "C138",
   "status": "partial",
   "theorems": [
    "C138_refuted",
    "C138_gap_refuted"
   ],
   "note": "Refuted in both directions: the hour the clock shows twice comes back an hour early, the hour it leaves out comes back as another reading. C139 is what holds."
  },
  {
   "property": "C139",
   "status": "proved",
   "theorems": [
    "C139_roundtrip",
    "C139_reads"
   ],
   "note": ""
  },
  {
   "property": "C140",
   "status": "proved",
   "theorems": [
    "C140_fixed"
   ],
   "note": ""
  },
  {
   "property": "C141",
   "status": "partial",
   "theorems": [
    "C141_refuted"
   ],
   "note": "Refuted: where the clock is put forward at midnight the date comes back as the day before. C142 is what holds."
  },
  {
   "property": "C142",
   "status": "proved",
   "theorems": [
    "C142_dates",
    "C142_all"
   ],
   "note": ""
  },
  {
   "property": "C143",
   "status": "proved",
   "theorems": [
    "C143_history"
   ],
   "note": ""
  },
  {
   "property": "C144",
   "status": "proved",
   "theorems": [
    "C144_conversation",
    "C144_said"
   ],
   "note": ""
  },
  {
   "property": "C145",
   "status": "proved",
   "theorems": [
    "C145_panics"
   ],
   "note": ""
  },
  {
   "property": "C146",
   "status": "partial",
   "theorems": [
    "C146_confirmed_refuted"
   ],
   "note": "Refuted: a general response 0x0001 that quotes the query takes the callback, which panics (and is recovered), and the 0x0104 that follows is dropped. C145 and C153 are what holds."
  },
  {
   "property": "C147",
   "status": "proved",
   "theorems": [
    "C147_upload"
   ],
   "note": ""
  },
  {
   "property": "C148",
   "status": "partial",
   "theorems": [
    "C148_any_file_refuted",
    "C148_short_partial",
    "C148_uneven_partial"
   ],
   "note": "Refuted: the program panics for every file whose last packet is shorter than 256 bytes. C147 is what holds."
  },
  {
   "property": "C149",
   "status": "proved",
   "theorems": [
    "C149_greeting"
   ],
   "note": ""
  },
  {
   "property": "C150",
   "status": "proved",
   "theorems": [
    "C150_answer"
   ],
   "note": ""
  },
  {
   "property": "C151",
   "status": "proved",
   "theorems": [
    "C151_dialogue"
   ],
   "note": ""
  },
  {
   "property": "C152",
   "status": "proved",
   "theorems": [
    "C152_answer_reaches"
   ],
   "note": ""
  },
  {
   "property": "C153",
   "status": "proved",
   "theorems": [
    "C153_query"
   ],
   "note": ""
  },
  {
   "property": "C154",
   "status": "proved",
   "theorems": [
    "C154_refines",
    "C154_more"
   ],
   "note": ""
  },
  {
   "property": "C155",
   "status": "partial",
   "theorems": [
    "C155_lost_refuted",
    "C155_body_refuted"
   ],
   "note": "Refuted: `*value |= 1<<offset` is a load and a store; a send loop that stores what it loaded earlier wipes out a bit another has set meanwhile. C156 says for which bodies this cannot happen, C157 what holds in every case."
  },
  {
   "property": "C156",
   "status": "proved",
   "theorems": [
    "C156_alone",
    "C156_exact",
    "C156_body"
   ],
   "note": "One load or store is one step and all goroutines see the steps in one order. 0x0801 is left out (its Encode reads its Packet dry, C105)."
  },
  {
   "property": "C157",
   "status": "proved",
   "theorems": [
    "C157_shows",
    "C157_repaired"
   ],
   "note": "As for C156."
  },
  {
   "property": "C158",
   "status": "partial",
   "theorems": [
    "C158_orphan_refuted",
    "C158_crash_refuted",
    "C158_late_refuted",
    "C158_dead_refuted"
   ],
   "note": "Refuted four times: two Runs at once leave a listener no Stop can reach; two Stops, or a Stop during a Run, dereference the nil field; a Stop during the listening of a Run does nothing; after a failing listener every Run is refused until Stop is called. C159 and C160 say what holds."
  },
  {
   "property": "C159",
   "status": "proved",
   "theorems": [
    "C159_safe",
    "C159_one",
    "C159_stop",
    "C159_again"
   ],
   "note": "Of link only the listener is modelled: Serve returns when it fails or is closed, Stop closes it."
  },
  {
   "property": "C160",
   "status": "proved",
   "theorems": [
    "C160_refused",
    "C160_panics",
    "C160_orphan",
    "C160_course"
   ],
   "note": "As for C159."
  },
  {
   "property": "C161",
   "status": "proved",
   "theorems": [
    "C161_files",
    "C161_reasons",
    "C161_own",
    "C161_plain"
   ],
   "note": "What is written to a file survives the end of the process, not necessarily that of the machine."
  },
  {
   "property": "C162",
   "status": "proved",
   "theorems": [
    "C162_durable"
   ],
   "note": ""
  },
  {
   "property": "C163",
   "status": "proved",
   "theorems": [
    "C163_merge",
    "C163_success"
   ],
   "note": ""
  },
  {
   "property": "C164",
   "status": "proved",
   "theorems": [
    "C164_again",
    "C164_recovers"
   ],
   "note": ""
  },
  {
   "property": "C165",
   "status": "partial",
   "theorems": [
    "C165_refuted"
   ],
   "note": "Refuted: WriteFile creates the file before it writes it, so that a process ending in between leaves an empty part, and IsFull looks at names only. C162-C164 say what holds."
  },
  {
   "property": "C166",
   "status": "partial",
   "theorems": [
    "C166_refuted",
    "C166_crash_refuted"
   ],
   "note": "Refuted: 0x7c and 0x7d differ in one bit, and 0x7c 0x01 has the same exclusive or as the 0x7d for which 0x7d 0x01 stands; the frame of a 124 byte message of a terminal whose number begins with 1 then counts as one of another terminal. A byte that arrives as a delimiter can crash the process. C167-C169 say what holds."
  },
  {
   "property": "C167",
   "status": "proved",
   "theorems": [
    "C167_refused",
    "C167_slipped"
   ],
   "note": ""
  },
  {
   "property": "C168",
   "status": "proved",
   "theorems": [
    "C168_no_body"
   ],
   "note": "Headers with reserved bits set (property >= 0x4000) are excluded; sessions never send them (C77)."
  },
  {
   "property": "C169",
   "status": "proved",
   "theorems": [
    "C169_stream"
   ],
   "note": ""
  },
  {
   "property": "C170",
   "status": "proved",
   "theorems": [
    "C170_error_exact",
    "C170_complete"
   ],
   "note": "With C65 (panics) and C100 (messages) this determines Message.Decode on every input; C170_complete says that nothing is left out and nothing overlaps."
  },
  {
   "property": "C171",
   "status": "proved",
   "theorems": [
    "C171_error_exact",
    "C171_panic_exact"
   ],
   "note": ""
  },
  {
   "property": "C172",
   "status": "proved",
   "theorems": [
    "C172_error_exact",
    "C172_panic_exact",
    "C172_frame"
   ],
   "note": "The frame theorem has the hypotheses that the header fields fit their widths and a typed nil pointer names a 16 bit number."
  },
  {
   "property": "C173",
   "status": "partial",
   "theorems": [
    "C173_isolated_refuted"
   ],
   "note": "Refuted for a merging server: terminal numbers are not authenticated, a packet sent under the number of another terminal completes its upload. C174 is what holds."
  },
  {
   "property": "C174",
   "status": "proved",
   "theorems": [
    "C174_alone",
    "C174_undisturbed"
   ],
   "note": "Over the process of Host.v (whole operations). The other way to disturb a connection is to end the process: C96 says with which bytes. Operations of the server as a whole (tick, Broadcast, AddHandler) stay in the reduced history; the count that Broadcast returns is not something a connection notices."
  },
  {
   "property": "C175",
   "status": "proved",
   "theorems": [
    "C175_never_fails",
    "C175_atomic",
    "C175_update"
   ],
   "note": "Over Locks.v, one step per Lock, Unlock and statement in between; it justifies the one step per critical section of the other models. One call into container/heap, one map access and one slice access is a statement."
  },
  {
   "property": "C176",
   "status": "proved",
   "theorems": [
    "C176_exclusive",
    "C176_one_mutex",
    "C176_progress",
    "C176_released",
    "C176_drained"
   ],
   "note": "The mutexes inside link are not included. A fair choice of who gets a free mutex is not assumed and starvation not excluded: can be completed, not must."
  },
  {
   "property": "C177",
   "status": "proved",
   "theorems": [
    "C177_guarded",
    "C177_no_race"
   ],
   "note": "Of the guarded data. Fields without a mutex: Server.server (C158), ProtocolCodec.publicKey (C178); iccID, next and seconds are atomic."
  },
  {
   "property": "C178",
   "status": "partial",
   "theorems": [
    "C178_guarded_refuted"
   ],
   "note": "Refuted for messages whose header asks for encryption, which ProtocolCodec.Send accepts but Session.Send never makes; C179 is what holds."
  },
  {
   "property": "C179",
   "status": "proved",
   "theorems": [
    "C179_one_key",
    "C179_session",
    "C179_no_load"
   ],
   "note": "Loads and stores of the pointer are single steps (Go memory model below that is not modelled); the write to the connection does not fail here."
  },
  {
   "property": "C180",
   "status": "proved",
   "theorems": [
    "C180_values",
    "C180_fresh",
    "C180_stable"
   ],
   "note": "Over Memory.v. The slices in the fields of a body are windows into the slice it was decoded from; which ones is left open, the holder may store anywhere in it and in its spare capacity. Growth of bytes.Buffer is left to an oracle."
  },
  {
   "property": "C181",
   "status": "proved",
   "theorems": [
    "C181_contract",
    "C181_plain",
    "C181_message",
    "C181_limit",
    "C181_exchange"
   ],
   "note": "Over Rsa.v and Sha1.v (RFC 8017, FIPS 180-4; the code of crypto/rsa is outside the repository). Discharges the hypothesis rsa_pair of C24, C94 and C109. The example reproduces a ciphertext made by OpenSSL."
  },
  {
   "property": "C182",
   "status": "proved",
   "theorems": [
    "C182_short",
    "C182_batch"
   ],
   "note": "The table of lengths is in SpecShort.v. For 0x0201 and 0x0500 it is the length with the position inside, 30. Added because an edit of a length check made by a program survived: only the error value changed."
  },
  {
   "property": "C183",
   "status": "proved",
   "theorems": [
    "C183_texts",
    "C183_codes",
    "C183_one_reading",
    "C183_size",
    "C183_written",
    "C183_read",
    "C183_heard",
    "C183_one_hearing"
   ],
   "note": "The algorithm is that of golang.org/x/text v0.3.2 (outside the repository); its tables are a parameter, of which table_ok is asked: codes in range, and the decoder undoes the encoder. The table of the demo is made up; characters above U+FFFF have the codes of the standard."
  },
  {
   "property": "C184",
   "status": "proved",
   "theorems": [
    "C184_number"
   ],
   "note": "The example shows a digit in the received number that was never sent."
  },
  {
   "property": "C185",
   "status": "proved",
   "theorems": [
    "C185_as_if_alone",
    "C185_cannot_tell",
    "C185_no_merging"
   ],
   "note": "Of histories in which the process lives: a panic caused by another connection ends it for all. Without the condition it is false: C173. A Broadcast to others stays in the history without them, where it finds nobody; what stays of the sends of others is a Broadcast each, which uses up their name in the model."
  },
  {
   "property": "C186",
   "status": "proved",
   "theorems": [
    "C186_compared",
    "C186_driver",
    "C186_not_compared",
    "C186_would_fail",
    "C186_would_pass",
    "C186_upload",
    "C186_upload_first"
   ],
   "note": "Checks the model against the values of the tests: the bodies the tests compare come out equal, and of the six tests that do not compare, four could not. reflect.DeepEqual tells nil from empty slices, the model does not. The upload of 0x0801 is compared as a reader: after Encode nothing is left in it. gzip is assumed to give back 768 zeros."
  },
  {
   "property": "C187",
   "status": "proved",
   "theorems": [
    "C187_no_panic",
    "C187_order",
    "C187_calls",
    "C187_sent",
    "C187_errors",
    "C187_closed",
    "C187_once",
    "C187_callbacks",
    "C187_apart"
   ],
   "note": "The source of link (go.mod:6) is not in /repo; Link.v follows its published session.go and could not be compared with it. That an accepted message is written is not claimed: a session that closes loses what waits (C187_case)."
  },
  {
   "property": "C188",
   "status": "proved",
   "theorems": [
    "C188_bounded",
    "C188_returned",
    "C188_open",
    "C188_closed"
   ],
   "note": "The source of link (go.mod:6) is not in /repo; Link.v follows its published session.go and could not be compared with it. "
  },
  {
   "property": "C189",
   "status": "proved",
   "theorems": [
    "C189_one_moment"
   ],
   "note": "The source of link (go.mod:6) is not in /repo; Link.v follows its published session.go and could not be compared with it. A Send that finds the queue full closes the session a few statements later; meanwhile other Sends may succeed. In the models of the server this is a history in which somebody closes the session."
  },
  {
   "property": "C190",
   "status": "proved",
   "theorems": [
    "C190_walk",
    "C190_one",
    "C190_full",
    "C190_stored"
   ],
   "note": "Files in directories below the terminal's are not modelled (filepath.Walk would visit them; the package makes none). Of two files that count as the same number, C190 says nothing about the order in which Merge takes them."
  },
  {
   "property": "C191",
   "status": "proved",
   "theorems": [
    "C191_digest",
    "C191_encrypt",
    "C191_decrypt"
   ],
   "note": "The code of crypto/sha1 and crypto/rsa is outside the repository; this ties the model's executable version of them to a second, relational account of the standards. That Go's packages implement the standards is trusted."
  },
  {
   "property": "C192",
   "status": "partial",
   "theorems": [
    "C192_refuted"
   ],
   "note": "Refuted: three bytes 255, 255, 0 received as 0x0704 reserve room for 65535 position reports before they are refused (t808_0x0704.go:56). C193 says what is reserved exactly."
  },
  {
   "property": "C193",
   "status": "proved",
   "theorems": [
    "C193_accepted",
    "C193_field",
    "C193_bound"
   ],
   "note": "Elements are counted, not their bytes in memory; what append and the reads reserve besides is not modelled."
  },
  {
   "property": "C194",
   "status": "partial",
   "theorems": [
    "C194_refuted"
   ],
   "note": "Refuted for every factor below 32768 (the size limit of the buffer bounds the factor): readFromBuffer searches from the start of the buffer after every read. C195 has the bound that holds."
  },
  {
   "property": "C195",
   "status": "proved",
   "theorems": [
    "C195_worst",
    "C195_bound",
    "C195_same"
   ],
   "note": "Comparisons with the delimiter are counted, not the work of Message.Decode, of the buffer or of logging."
  },
  {
   "property": "C196",
   "status": "partial",
   "theorems": [
    "C196_refuted"
   ],
   "note": "Refuted: nothing in the code removes part files or merged files. C197 has the exact count."
  },
  {
   "property": "C197",
   "status": "proved",
   "theorems": [
    "C197_files",
    "C197_bytes",
    "C197_kept"
   ],
   "note": ""
  },
  {
   "property": "C198",
   "status": "partial",
   "theorems": [
    "C198_refuted"
   ],
   "note": "Refuted for every limit up to 65535: Merge keeps all parts open at once (multipart.go:53-66). C199 has the number needed."
  },
  {
   "property": "C199",
   "status": "proved",
   "theorems": [
    "C199_closed",
    "C199_needed",
    "C199_never",
    "C199_faults"
   ],
   "note": "One packet at a time; descriptors of other connections are part of what the operating system decides by."
  },
  {
   "property": "C200",
   "status": "proved",
   "theorems": [
    "C200_sent",
    "C200_arrives",
    "C200_read",
    "C200_once"
   ],
   "note": ""
  },
  {
   "property": "C201",
   "status": "proved",
   "theorems": [
    "C201_read",
    "C201_frame"
   ],
   "note": ""
  },
  {
   "property": "C202",
   "status": "partial",
   "theorems": [
    "C202_refuted"
   ],
   "note": "Refuted: C202_refuted has n uploads of one packet each that take 2n(n+1) visits. C203 has the number."
  },
  {
   "property": "C203",
   "status": "proved",
   "theorems": [
    "C203_exact",
    "C203_full",
    "C203_merge",
    "C203_most",
    "C203_counter",
    "C203_handled"
   ],
   "note": "Only files made by this API are in the directories; packets one after the other, no faults of the file system."
  },
  {
   "property": "C204",
   "status": "proved",
   "theorems": [
    "C204_run",
    "C204_first",
    "C204_last",
    "C204_tie",
    "C204_any",
    "C204_any_remove",
    "C204_any_tick",
    "C204_counter"
   ],
   "note": "Counts calls of Less made by container/heap, whose up, down, Push and Remove are modelled as in Timer.v; looks at the front of the queue are not counted. C204_run is for calls that do not overlap, C204_any for any state."
  },
  {
   "property": "C205",
   "status": "partial",
   "theorems": [
    "C205_refuted"
   ],
   "note": "Refuted: C205_refuted has a message whose frame Receive gives up on. C206 says which frames these are."
  },
  {
   "property": "C206",
   "status": "proved",
   "theorems": [
    "C206_length",
    "C206_extent",
    "C206_plain",
    "C206_cut"
   ],
   "note": "C206_cut is for a receiver with an empty buffer."
  },
  {
   "property": "C207",
   "status": "partial",
   "theorems": [
    "C207_refuted"
   ],
   "note": "Refuted: C207_refuted has, for every key, a body that is sent in the clear and refused with the key. C208 has the limit."
  },
  {
   "property": "C208",
   "status": "proved",
   "theorems": [
    "C208_room",
    "C208_most"
   ],
   "note": "Keys are pairs that meet the encryption contract (C181 shows that RSA-OAEP does)."
  }
 ]
}