{
 "claims": [
  {
   "property": "C01",
   "status": "proved",
   "theorems": [
    "C01_text_of_message",
    "C01_message_round_trip",
    "C01_text_round_trip",
    "C01_odd_digit_dropped",
    "C01_non_hex_raises"
   ],
   "note": ""
  },
  {
   "property": "C02",
   "status": "proved",
   "theorems": [
    "C02_consume",
    "C02_store",
    "C02_value",
    "C02_halves"
   ],
   "note": ""
  },
  {
   "property": "C03",
   "status": "proved",
   "theorems": [
    "C03_build_and_read",
    "C03_notations_agree",
    "C03_equality"
   ],
   "note": ""
  },
  {
   "property": "C04",
   "status": "proved",
   "theorems": [
    "C04_objects",
    "C04_determined",
    "C04_sorted",
    "C04_constructor",
    "C04_tsaps",
    "C04_get_tsap"
   ],
   "note": ""
  },
  {
   "property": "C05",
   "status": "proved",
   "theorems": [
    "C05_capacity",
    "C05_full_add",
    "C05_full_add_raises",
    "C05_constructor_unlimited"
   ],
   "note": "An add on a full table never changes it; it raises except for an address that is listed and equals the individual address (then it returns without effect)."
  },
  {
   "property": "C06",
   "status": "proved",
   "theorems": [
    "C06_add_one",
    "C06_associate_no_duplicates",
    "C06_associate_adds"
   ],
   "note": ""
  },
  {
   "property": "C07",
   "status": "proved",
   "theorems": [
    "C07_routing",
    "C07_unknown_address_refuted"
   ],
   "note": "For addresses known to the address table; C07_unknown_address_refuted shows the restriction is needed."
  },
  {
   "property": "C08",
   "status": "proved",
   "theorems": [
    "C08_objects",
    "C08_sending_order"
   ],
   "note": ""
  },
  {
   "property": "C09",
   "status": "proved",
   "theorems": [
    "C09_shared_decode",
    "C09_shared_encode",
    "C09_unshared",
    "C09_shared"
   ],
   "note": "Exact equality of routes and sending addresses of everybody else; shared case with TypeError."
  },
  {
   "property": "C10",
   "status": "proved",
   "theorems": [
    "C10_single_harmless",
    "C10_several",
    "C10_misrouting_refuted",
    "C10_disassociate"
   ],
   "note": "Harmless half for all states; C10_misrouting_refuted is the concrete misdelivery at decode_msg level."
  },
  {
   "property": "C11",
   "status": "proved",
   "theorems": [
    "C11_names",
    "C11_answers",
    "C11_asaps",
    "C11_free_value",
    "C11_other_order_refuted"
   ],
   "note": "C11_other_order_refuted is the witness for other introduction orders."
  },
  {
   "property": "C12",
   "status": "proved",
   "theorems": [
    "C12_entries",
    "C12_last_writer",
    "C12_get_dpt",
    "C12_disassociate"
   ],
   "note": ""
  },
  {
   "property": "C13",
   "status": "proved",
   "theorems": [
    "C13_group_write_usb",
    "C13_group_write_ind"
   ],
   "note": ""
  },
  {
   "property": "C14",
   "status": "proved",
   "theorems": [
    "C14_group_read"
   ],
   "note": ""
  },
  {
   "property": "C15",
   "status": "proved",
   "theorems": [
    "C15_property_read",
    "C15_property_write"
   ],
   "note": ""
  },
  {
   "property": "C16",
   "status": "proved",
   "theorems": [
    "C16_same_frame",
    "C16_envelope"
   ],
   "note": ""
  },
  {
   "property": "C17",
   "status": "proved",
   "theorems": [
    "C17_connect",
    "C17_connectionstate",
    "C17_disconnect",
    "C17_search",
    "C17_lengths"
   ],
   "note": ""
  },
  {
   "property": "C18",
   "status": "proved",
   "theorems": [
    "C18_usb",
    "C18_netip"
   ],
   "note": ""
  },
  {
   "property": "C19",
   "status": "proved",
   "theorems": [
    "C19_no_type",
    "C19_never_associated",
    "C19_no_encoder",
    "C19_no_address_left"
   ],
   "note": ""
  },
  {
   "property": "C20",
   "status": "proved",
   "theorems": [
    "C20_preserved"
   ],
   "note": ""
  },
  {
   "property": "C21",
   "status": "proved",
   "theorems": [
    "C21_roundtrip",
    "C21_same_class"
   ],
   "note": ""
  },
  {
   "property": "C22",
   "status": "proved",
   "theorems": [
    "C22_write",
    "C22_read"
   ],
   "note": ""
  },
  {
   "property": "C23",
   "status": "proved",
   "theorems": [
    "C23_read",
    "C23_write"
   ],
   "note": ""
  },
  {
   "property": "C24",
   "status": "proved",
   "theorems": [
    "C24_receivers",
    "C24_unlisted",
    "C24_unassociated",
    "C24_undisplayable"
   ],
   "note": ""
  },
  {
   "property": "C25",
   "status": "proved",
   "theorems": [
    "C25_group",
    "C25_property"
   ],
   "note": ""
  },
  {
   "property": "C26",
   "status": "proved",
   "theorems": [
    "C26_usb",
    "C26_message_code",
    "C26_netip"
   ],
   "note": ""
  },
  {
   "property": "C27",
   "status": "proved",
   "theorems": [
    "C27_padding",
    "C27_body"
   ],
   "note": ""
  },
  {
   "property": "C28",
   "status": "proved",
   "theorems": [
    "C28_usb",
    "C28_netip",
    "C28_complete",
    "C28_no_key_error"
   ],
   "note": ""
  },
  {
   "property": "C29",
   "status": "proved",
   "theorems": [
    "C29_usb",
    "C29_none",
    "C29_netip"
   ],
   "note": ""
  },
  {
   "property": "C30",
   "status": "proved",
   "theorems": [
    "C30_decode",
    "C30_encode",
    "C30_history",
    "C30_fresh"
   ],
   "note": ""
  },
  {
   "property": "C31",
   "status": "proved",
   "theorems": [
    "C31_usb",
    "C31_netip"
   ],
   "note": ""
  },
  {
   "property": "C32",
   "status": "proved",
   "theorems": [
    "C32_accepted",
    "C32_irrelevant",
    "C32_own_destination_refuted"
   ],
   "note": ""
  },
  {
   "property": "C33",
   "status": "proved",
   "theorems": [
    "C33_features"
   ],
   "note": ""
  },
  {
   "property": "C34",
   "status": "proved",
   "theorems": [
    "C34_raw",
    "C34_last_octets"
   ],
   "note": ""
  },
  {
   "property": "C35",
   "status": "proved",
   "theorems": [
    "C35_counter",
    "C35_due",
    "C35_undue",
    "C35_others",
    "C35_receivers",
    "C35_exactly_once",
    "C35_window_refuted"
   ],
   "note": "For histories in which datagrams arrive only while the transport exists and connection_made/lost alternate (orderly). C35_exactly_once is the end-to-end statement; C35_window_refuted shows that its window of 256 is needed."
  },
  {
   "property": "C36",
   "status": "proved",
   "theorems": [
    "C36_decode",
    "C36_repeated",
    "C36_refused",
    "C36_wrap_refuted"
   ],
   "note": "C36_wrap_refuted: request 255 repeated after 256 requests is not acknowledged."
  },
  {
   "property": "C37",
   "status": "proved",
   "theorems": [
    "C37_due",
    "C37_repeated",
    "C37_encode"
   ],
   "note": ""
  },
  {
   "property": "C38",
   "status": "proved",
   "theorems": [
    "C38_counter",
    "C38_requests",
    "C38_acknowledgements",
    "C38_same"
   ],
   "note": "C38_same: equal counters when no matching acknowledgement lies between two requests."
  },
  {
   "property": "C39",
   "status": "proved",
   "theorems": [
    "C39_reconnect"
   ],
   "note": ""
  },
  {
   "property": "C40",
   "status": "proved",
   "theorems": [
    "C40_connected",
    "C40_refusal"
   ],
   "note": ""
  },
  {
   "property": "C41",
   "status": "proved",
   "theorems": [
    "C41_blocked",
    "C41_repetition"
   ],
   "note": "C41_blocked for any events in between; C41_repetition for the single repetition, including that the state is unchanged."
  },
  {
   "property": "C42",
   "status": "proved",
   "theorems": [
    "C42_octets",
    "C42_plain",
    "C42_wire"
   ],
   "note": ""
  },
  {
   "property": "C43",
   "status": "proved",
   "theorems": [
    "C43_layout",
    "C43_get",
    "C43_set",
    "C43_numbers",
    "C43_others",
    "C43_value"
   ],
   "note": ""
  },
  {
   "property": "C44",
   "status": "proved",
   "theorems": [
    "C44_names",
    "C44_apart",
    "C44_read",
    "C44_read_fails",
    "C44_unknown"
   ],
   "note": ""
  },
  {
   "property": "C45",
   "status": "proved",
   "theorems": [
    "C45_value",
    "C45_product"
   ],
   "note": "C45_value gives the single rounding and the 2^-52 bound, C45_product the exact form."
  },
  {
   "property": "C46",
   "status": "proved",
   "theorems": [
    "C46_reencode",
    "C46_same",
    "C46_rejected"
   ],
   "note": "C46_rejected: F800h cannot be encoded again; C46_same needs a mantissa of magnitude below 2048 because 8000h comes back as 8C00h."
  },
  {
   "property": "C47",
   "status": "proved",
   "theorems": [
    "C47_encode",
    "C47_fails",
    "C47_total",
    "C47_range",
    "C47_accuracy"
   ],
   "note": "Against exact rationals; round2 itself is proved to give the double nearest to the nearest whole number of cents."
  },
  {
   "property": "C48",
   "status": "proved",
   "theorems": [
    "C48_minus_2048",
    "C48_which",
    "C48_others"
   ],
   "note": "This is a defect of the code, proved to hold for exactly the stated numbers."
  },
  {
   "property": "C49",
   "status": "proved",
   "theorems": [
    "C49_roundtrip",
    "C49_decode",
    "C49_encode",
    "C49_idempotent"
   ],
   "note": ""
  },
  {
   "property": "C50",
   "status": "proved",
   "theorems": [
    "C50_rebuild",
    "C50_exact",
    "C50_floats16",
    "C50_floats32",
    "C50_described",
    "C50_unknown"
   ],
   "note": "The exceptions in the statement are needed: the excluded values have no description, or cannot be encoded again."
  },
  {
   "property": "C51",
   "status": "proved",
   "theorems": [
    "C51_integer",
    "C51_number",
    "C51_degrees",
    "C51_text",
    "C51_get",
    "C51_set"
   ],
   "note": ""
  },
  {
   "property": "C52",
   "status": "proved",
   "theorems": [
    "C52_before",
    "C52_order",
    "C52_stuck",
    "C52_progress"
   ],
   "note": "Safety (C52_before, C52_order, C52_stuck) and progress (C52_progress: n turns send n messages or all, unless encoding or display fails or the transport is lost)."
  },
  {
   "property": "C53",
   "status": "proved",
   "theorems": [
    "C53_reads",
    "C53_writes",
    "C53_lines"
   ],
   "note": "The failure itself is the last element of the list (the exception the reader task ends with)."
  },
  {
   "property": "C54",
   "status": "proved",
   "theorems": [
    "C54_request",
    "C54_response",
    "C54_short",
    "C54_address_refuted"
   ],
   "note": "C54_address_refuted: the reported individual address is not the one of the device block."
  },
  {
   "property": "C55",
   "status": "proved",
   "theorems": [
    "C55_inside",
    "C55_before",
    "C55_buffer",
    "C55_packets",
    "C55_changes",
    "C55_bus",
    "C55_line"
   ],
   "note": "For every C library scanner meeting the four clauses of c_scanner; the accesses are those the code makes itself (sscanf may look further, see DESIGN.md)."
  },
  {
   "property": "C56",
   "status": "proved",
   "theorems": [
    "C56_broadcast",
    "C56_once",
    "C56_silent",
    "C56_latecomer",
    "C56_text",
    "C56_client"
   ],
   "note": "C56_latecomer: a client that found all places taken never gets one; C56_text/C56_client connect the text with the python side."
  },
  {
   "property": "C57",
   "status": "proved",
   "theorems": [
    "C57_line",
    "C57_odd",
    "C57_two_lines",
    "C57_long",
    "C57_bad",
    "C57_client",
    "C57_lenient"
   ],
   "note": "C57_two_lines, C57_long, C57_odd, C57_bad, C57_lenient are the defects; C57_client is the end-to-end statement for the python USB client."
  },
  {
   "property": "C58",
   "status": "proved",
   "theorems": [
    "C58_slots",
    "C58_accept",
    "C58_leave",
    "C58_others",
    "C58_watched"
   ],
   "note": "For histories in which accept() returns descriptors above 0 that are not in use."
  },
  {
   "property": "C59",
   "status": "proved",
   "theorems": [
    "C59_kind",
    "C59_only",
    "C59_never",
    "C59_set"
   ],
   "note": ""
  },
  {
   "property": "C60",
   "status": "proved",
   "theorems": [
    "C60_accepted",
    "C60_refused",
    "C60_no_endpoint"
   ],
   "note": ""
  },
  {
   "property": "C61",
   "status": "proved",
   "theorems": [
    "C61_octets"
   ],
   "note": ""
  },
  {
   "property": "C62",
   "status": "proved",
   "theorems": [
    "C62_connect",
    "C62_disconnect",
    "C62_no_table"
   ],
   "note": ""
  },
  {
   "property": "C63",
   "status": "proved",
   "theorems": [
    "C63_multiply",
    "C63_divide",
    "C63_of_int",
    "C63_convert",
    "C63_unique",
    "C63_truncate"
   ],
   "note": "Correctness of the model's arithmetic against exact rationals (C63_unique: the specification determines the result)."
  },
  {
   "property": "C64",
   "status": "proved",
   "theorems": [
    "C64_in_order",
    "C64_rounds"
   ],
   "note": "The gateway and the network are specification (SpecSystem.v), the client is the model of the code. The link stays up."
  },
  {
   "property": "C65",
   "status": "proved",
   "theorems": [
    "C65_lost_ack",
    "C65_counted_refuted",
    "C65_ahead"
   ],
   "note": "C65_counted_refuted is the witness that the gateway may count a lost telegram as delivered."
  },
  {
   "property": "C66",
   "status": "proved",
   "theorems": [
    "C66_part",
    "C66_paced",
    "C66_round",
    "C66_unpaced",
    "C66_complete_refuted"
   ],
   "note": "For a connection that starts with counter 0. C66_complete_refuted is the witness for unpaced turns."
  },
  {
   "property": "C67",
   "status": "proved",
   "theorems": [
    "C67_deaf",
    "C67_swallowed"
   ],
   "note": ""
  },
  {
   "property": "C68",
   "status": "proved",
   "theorems": [
    "C68_inside",
    "C68_outside",
    "C68_exact",
    "C68_full",
    "C68_blank",
    "C68_leak"
   ],
   "note": ""
  },
  {
   "property": "C69",
   "status": "proved",
   "theorems": [
    "C69_alive",
    "C69_same",
    "C69_others",
    "C69_broken"
   ],
   "note": ""
  },
  {
   "property": "C70",
   "status": "proved",
   "theorems": [
    "C70_write",
    "C70_read",
    "C70_long",
    "C70_property"
   ],
   "note": ""
  },
  {
   "property": "C71",
   "status": "proved",
   "theorems": [
    "C71_refreshed",
    "C71_sending",
    "C71_add_shifts",
    "C71_remove_shifts",
    "C71_readdress",
    "C71_readdress_lost",
    "C71_direct_refuted"
   ],
   "note": "C71_direct_refuted is the misrouting witness; C71_add_shifts and C71_remove_shifts state it exactly for tables in order."
  },
  {
   "property": "C72",
   "status": "proved",
   "theorems": [
    "C72_accepted",
    "C72_refused",
    "C72_unambiguous",
    "C72_dotted",
    "C72_connect",
    "C72_search",
    "C72_leading_zero_refuted"
   ],
   "note": "For the inet_aton of the GNU C library."
  },
  {
   "property": "C73",
   "status": "proved",
   "theorems": [
    "C73_octets",
    "C73_decimal",
    "C73_decimal_unambiguous",
    "C73_group",
    "C73_address",
    "C73_address_rows",
    "C73_address_lines",
    "C73_address_table",
    "C73_association_lines",
    "C73_association_table",
    "C73_group_objects",
    "C73_names_refuted"
   ],
   "note": "C73_names_refuted is the witness for names with line ends. The class of an address object is a parameter given by its identity."
  },
  {
   "property": "C74",
   "status": "proved",
   "theorems": [
    "C74_fields",
    "C74_routing",
    "C74_sending",
    "C74_never_lost",
    "C74_sorted_refuted",
    "C74_collision_refuted",
    "C74_equal_objects_refuted"
   ],
   "note": "The refuted theorems are witnesses for the boundary: order of the table, colliding numbers, equal objects."
  },
  {
   "property": "C75",
   "status": "proved",
   "theorems": [
    "C75_associate",
    "C75_disassociate",
    "C75_copy",
    "C75_bound"
   ],
   "note": ""
  },
  {
   "property": "C76",
   "status": "proved",
   "theorems": [
    "C76_across",
    "C76_fields",
    "C76_type_refuted"
   ],
   "note": ""
  },
  {
   "property": "C77",
   "status": "proved",
   "theorems": [
    "C77_heard",
    "C77_prefix",
    "C77_complete"
   ],
   "note": ""
  },
  {
   "property": "C78",
   "status": "proved",
   "theorems": [
    "C78_failures",
    "C78_success",
    "C78_strangers"
   ],
   "note": ""
  },
  {
   "property": "C79",
   "status": "proved",
   "theorems": [
    "C79_due",
    "C79_stopped",
    "C79_delivered"
   ],
   "note": ""
  },
  {
   "property": "C80",
   "status": "proved",
   "theorems": [
    "C80_lines",
    "C80_alive",
    "C80_ended"
   ],
   "note": ""
  },
  {
   "property": "C81",
   "status": "proved",
   "theorems": [
    "C81_reading",
    "C81_usage",
    "C81_runs",
    "C81_letter",
    "C81_documented_refuted",
    "C81_irrelevant"
   ],
   "note": ""
  },
  {
   "property": "C82",
   "status": "proved",
   "theorems": [
    "C82_form",
    "C82_unambiguous",
    "C82_nothing_else",
    "C82_decoded",
    "C82_text",
    "C82_request_refuted"
   ],
   "note": ""
  },
  {
   "property": "C83",
   "status": "proved",
   "theorems": [
    "C83_failures",
    "C83_found",
    "C83_quiet",
    "C83_telegrams"
   ],
   "note": ""
  },
  {
   "property": "C84",
   "status": "proved",
   "theorems": [
    "C84_count",
    "C84_piece",
    "C84_cut",
    "C84_whole"
   ],
   "note": ""
  },
  {
   "property": "C85",
   "status": "proved",
   "theorems": [
    "C85_data",
    "C85_no_amplification",
    "C85_others",
    "C85_services",
    "C85_no_heartbeat",
    "C85_unheard",
    "C85_disconnect",
    "C85_closed"
   ],
   "note": ""
  },
  {
   "property": "C86",
   "status": "proved",
   "theorems": [
    "C86_rounds",
    "C86_next",
    "C86_served",
    "C86_descriptors",
    "C86_inside",
    "C86_inside_refuted"
   ],
   "note": ""
  },
  {
   "property": "C87",
   "status": "proved",
   "theorems": [
    "C87_paced",
    "C87_bus",
    "C87_stops",
    "C87_messages",
    "C87_rate",
    "C87_duration",
    "C87_slow_refuted"
   ],
   "note": ""
  },
  {
   "property": "C88",
   "status": "proved",
   "theorems": [
    "C88_tables",
    "C88_connects",
    "C88_tunnel",
    "C88_usb",
    "C88_discovery"
   ],
   "note": ""
  },
  {
   "property": "C89",
   "status": "proved",
   "theorems": [
    "C89_order",
    "C89_all",
    "C89_long",
    "C89_end",
    "C89_closed",
    "C89_daemon",
    "C89_bus"
   ],
   "note": ""
  },
  {
   "property": "C90",
   "status": "proved",
   "theorems": [
    "C90_heard",
    "C90_programs"
   ],
   "note": ""
  },
  {
   "property": "C91",
   "status": "proved",
   "theorems": [
    "C91_heard",
    "C91_complete",
    "C91_client",
    "C91_programs"
   ],
   "note": ""
  },
  {
   "property": "C92",
   "status": "proved",
   "theorems": [
    "C92_refines",
    "C92_form",
    "C92_read",
    "C92_kept",
    "C92_back"
   ],
   "note": ""
  },
  {
   "property": "C93",
   "status": "proved",
   "theorems": [
    "C93_sends",
    "C93_ends",
    "C93_looks",
    "C93_apart"
   ],
   "note": ""
  },
  {
   "property": "C94",
   "status": "proved",
   "theorems": [
    "C94_limit",
    "C94_lost",
    "C94_short"
   ],
   "note": ""
  },
  {
   "property": "C95",
   "status": "proved",
   "theorems": [
    "C95_apart",
    "C95_alike",
    "C95_asks",
    "C95_stray",
    "C95_all_refuted"
   ],
   "note": ""
  },
  {
   "property": "C96",
   "status": "proved",
   "theorems": [
    "C96_writes",
    "C96_ends",
    "C96_stuck"
   ],
   "note": ""
  },
  {
   "property": "C97",
   "status": "proved",
   "theorems": [
    "C97_accepted",
    "C97_unseen",
    "C97_disassociate_refuted",
    "C97_within_refuted",
    "C97_types_sent",
    "C97_types_received",
    "C97_types_refuted"
   ],
   "note": ""
  },
  {
   "property": "C98",
   "status": "proved",
   "theorems": [
    "C98_same",
    "C98_stream",
    "C98_bound",
    "C98_count",
    "C98_still",
    "C98_progress",
    "C98_nowait"
   ],
   "note": ""
  },
  {
   "property": "C99",
   "status": "proved",
   "theorems": [
    "C99_apart",
    "C99_telegram",
    "C99_missing_refuted",
    "C99_withdrawn_refuted"
   ],
   "note": ""
  },
  {
   "property": "C100",
   "status": "proved",
   "theorems": [
    "C100_outcome",
    "C100_exactly",
    "C100_order",
    "C100_unused_refuted"
   ],
   "note": ""
  },
  {
   "property": "C101",
   "status": "proved",
   "theorems": [
    "C101_result",
    "C101_exactly",
    "C101_run"
   ],
   "note": ""
  },
  {
   "property": "C102",
   "status": "proved",
   "theorems": [
    "C102_utf8",
    "C102_text",
    "C102_same",
    "C102_refused",
    "C102_ends",
    "C102_bytewise"
   ],
   "note": ""
  },
  {
   "property": "C103",
   "status": "proved",
   "theorems": [
    "C103_usb",
    "C103_ip",
    "C103_group_bits",
    "C103_group_bits_ip",
    "C103_property_bits"
   ],
   "note": ""
  },
  {
   "property": "C104",
   "status": "proved",
   "theorems": [
    "C104_media",
    "C104_request"
   ],
   "note": ""
  },
  {
   "property": "C105",
   "status": "proved",
   "theorems": [
    "C105_state",
    "C105_ldata",
    "C105_lines",
    "C105_decode",
    "C105_new"
   ],
   "note": ""
  },
  {
   "property": "C106",
   "status": "proved",
   "theorems": [
    "C106_encode",
    "C106_decode",
    "C106_history",
    "C106_usb",
    "C106_commute",
    "C106_first",
    "C106_interleave",
    "C106_commute_ip",
    "C106_text"
   ],
   "note": ""
  },
  {
   "property": "C107",
   "status": "proved",
   "theorems": [
    "C107_value",
    "C107_fails",
    "C107_reads",
    "C107_others",
    "C107_order",
    "C107_order_refuted"
   ],
   "note": ""
  },
  {
   "property": "C108",
   "status": "proved",
   "theorems": [
    "C108_unneeded",
    "C108_nobody",
    "C108_typeless",
    "C108_lookup",
    "C108_run"
   ],
   "note": ""
  },
  {
   "property": "C109",
   "status": "proved",
   "theorems": [
    "C109_chunk",
    "C109_total",
    "C109_unique",
    "C109_memory",
    "C109_digits",
    "C109_content",
    "C109_known"
   ],
   "note": ""
  },
  {
   "property": "C110",
   "status": "proved",
   "theorems": [
    "C110_described",
    "C110_dictionary",
    "C110_number",
    "C110_single"
   ],
   "note": ""
  },
  {
   "property": "C111",
   "status": "proved",
   "theorems": [
    "C111_only",
    "C111_injected",
    "C111_guessed",
    "C111_displaced",
    "C111_acks",
    "C111_channel"
   ],
   "note": ""
  },
  {
   "property": "C112",
   "status": "proved",
   "theorems": [
    "C112_machine",
    "C112_registers",
    "C112_future",
    "C112_apart"
   ],
   "note": ""
  },
  {
   "property": "C113",
   "status": "proved",
   "theorems": [
    "C113_book",
    "C113_refused",
    "C113_same"
   ],
   "note": ""
  },
  {
   "property": "C114",
   "status": "proved",
   "theorems": [
    "C114_arriving",
    "C114_one_lost",
    "C114_again"
   ],
   "note": ""
  },
  {
   "property": "C115",
   "status": "proved",
   "theorems": [
    "C115_never_again",
    "C115_buses",
    "C115_first_only"
   ],
   "note": ""
  },
  {
   "property": "C116",
   "status": "proved",
   "theorems": [
    "C116_blocks",
    "C116_connect",
    "C116_single",
    "C116_tunnel",
    "C116_ack"
   ],
   "note": ""
  },
  {
   "property": "C117",
   "status": "proved",
   "theorems": [
    "C117_in_order",
    "C117_in_order_refuted",
    "C117_part",
    "C117_paced",
    "C117_part_refuted"
   ],
   "note": "The gateway and the network are specification (SpecSystem.v, SpecReorder.v). C117_in_order_refuted and C117_part_refuted are the witnesses that the bounds are sharp."
  },
  {
   "property": "C118",
   "status": "proved",
   "theorems": [
    "C118_methods",
    "C118_two",
    "C118_four",
    "C118_store_two",
    "C118_store_four",
    "C118_again",
    "C118_wire"
   ],
   "note": ""
  },
  {
   "property": "C119",
   "status": "proved",
   "theorems": [
    "C119_read",
    "C119_write",
    "C119_property",
    "C119_heard",
    "C119_same"
   ],
   "note": ""
  },
  {
   "property": "C120",
   "status": "proved",
   "theorems": [
    "C120_apart",
    "C120_noted",
    "C120_next",
    "C120_usb"
   ],
   "note": ""
  },
  {
   "property": "C121",
   "status": "proved",
   "theorems": [
    "C121_talk"
   ],
   "note": ""
  }
 ]
}