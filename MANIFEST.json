{
 "claims": [
  {
   "property": "C01",
   "status": "proved",
   "theorems": [
    "C01_tag_from_str",
    "C01_tag_from_int",
    "C01_tag_from_bool"
   ],
   "note": ""
  },
  {
   "property": "C02",
   "status": "proved",
   "theorems": [
    "C02_decomposition",
    "C02_decomposition_unique",
    "C02_with_parameter_chain"
   ],
   "note": ""
  },
  {
   "property": "C03",
   "status": "partial",
   "theorems": [
    "C03_eq_equivalence",
    "C03_eq_hash",
    "C03_eq_hash_with_ints_iff",
    "C03_eq_transitive_with_ints_refuted"
   ],
   "note": "Equality/hash contract proved among tags and strings; with ints the full statement is refuted (C03_eq_transitive_with_ints_refuted) and characterised exactly."
  },
  {
   "property": "C04",
   "status": "proved",
   "theorems": [
    "C04_where_type"
   ],
   "note": ""
  },
  {
   "property": "C05",
   "status": "partial",
   "theorems": [
    "C05_who_lookup",
    "C05_who_name_refuted",
    "C05_names"
   ],
   "note": "Lookup proved; 'every member has a name' refuted for exactly five members."
  },
  {
   "property": "C06",
   "status": "proved",
   "theorems": [
    "C06_error_kinds",
    "C06_value_error_iff",
    "C06_ok_iff"
   ],
   "note": ""
  },
  {
   "property": "C07",
   "status": "proved",
   "theorems": [
    "C07_language",
    "C07_language_chars"
   ],
   "note": ""
  },
  {
   "property": "C08",
   "status": "proved",
   "theorems": [
    "C08_classification",
    "C08_kind_total_functional",
    "C08_frames_accepted",
    "C08_order_irrelevant"
   ],
   "note": ""
  },
  {
   "property": "C09",
   "status": "partial",
   "theorems": [
    "C09_print_parse",
    "C09_print_parse_iff",
    "C09_print_parse_refuted"
   ],
   "note": "Round trip proved for every wellformed message and the side conditions are shown exact; the unconditional statement is refuted."
  },
  {
   "property": "C10",
   "status": "proved",
   "theorems": [
    "C10_parse_print_iff"
   ],
   "note": ""
  },
  {
   "property": "C11",
   "status": "proved",
   "theorems": [
    "C11_injective",
    "C11_injective_same_class"
   ],
   "note": ""
  },
  {
   "property": "C12",
   "status": "partial",
   "theorems": [
    "C12_bytes",
    "C12_generic_bytes_refuted"
   ],
   "note": "Proved for every message built from validated tags; for a GenericMessage built from arbitrary strings the statement is refuted."
  },
  {
   "property": "C13",
   "status": "partial",
   "theorems": [
    "C13_eq_is_equality",
    "C13_eq_equivalence",
    "C13_eq_hash",
    "C13_hashable_refuted"
   ],
   "note": "Equality is an equivalence and agrees with hashing; 'every message is hashable' is refuted exactly for GenericMessage."
  },
  {
   "property": "C14",
   "status": "proved",
   "theorems": [
    "C14_ack_nack"
   ],
   "note": ""
  },
  {
   "property": "C15",
   "status": "partial",
   "theorems": [
    "C15_unknown_who_refuted",
    "C15_generic_only_without_who_partial"
   ],
   "note": "Full statement refuted: every frame with an unlisted WHO raises ValueError. The part that holds is C15_generic_only_without_who_partial."
  },
  {
   "property": "C16",
   "status": "partial",
   "theorems": [
    "C16_delivery",
    "C16_trailing_hash_refuted"
   ],
   "note": "Proved for every well-formed message whose frame ends in exactly '##'; refuted (exactly) for a last tag ending with '#'."
  },
  {
   "property": "C17",
   "status": "partial",
   "theorems": [
    "C17_segmentation_refuted",
    "C17_wrong_address_refuted",
    "C17_boundaries_partial"
   ],
   "note": "Refuted and characterised exactly (a cut is harmless iff it is at an end or just before '##'); segmentation at frame boundaries proved harmless."
  },
  {
   "property": "C18",
   "status": "proved",
   "theorems": [
    "C18_all_or_nothing",
    "C18_packet_iff",
    "C18_errors",
    "C18_error_iff"
   ],
   "note": ""
  },
  {
   "property": "C19",
   "status": "partial",
   "theorems": [
    "C19_isolation_refuted"
   ],
   "note": "Isolation refuted for every packet with a bad frame."
  },
  {
   "property": "C20",
   "status": "proved",
   "theorems": [
    "C20_fifo"
   ],
   "note": ""
  },
  {
   "property": "C21",
   "status": "proved",
   "theorems": [
    "C21_no_lost_wakeup",
    "C21_enough_wakeups",
    "C21_eventually_served"
   ],
   "note": ""
  },
  {
   "property": "C22",
   "status": "proved",
   "theorems": [
    "C22_no_write_while_paused",
    "C22_lock"
   ],
   "note": ""
  },
  {
   "property": "C23",
   "status": "proved",
   "theorems": [
    "C23_bytes",
    "C23_one_outcome",
    "C23_raises"
   ],
   "note": ""
  },
  {
   "property": "C24",
   "status": "partial",
   "theorems": [
    "C24_order_refuted",
    "C24_order_partial",
    "C24_order_unpaused"
   ],
   "note": "Refuted for all water marks and messages; the order is proved as long as no send starts while the transport is paused (C24_order_unpaused), in particular as long as the frames add up to at most the high-water mark. Order per task always holds (C23_one_outcome)."
  },
  {
   "property": "C25",
   "status": "proved",
   "theorems": [
    "C25_numeral",
    "C25_raises",
    "C25_spelled"
   ],
   "note": ""
  },
  {
   "property": "C26",
   "status": "proved",
   "theorems": [
    "C26_client",
    "C26_bare",
    "C26_zeros"
   ],
   "note": ""
  },
  {
   "property": "C27",
   "status": "proved",
   "theorems": [
    "C27_injective",
    "C27_confused_iff"
   ],
   "note": ""
  },
  {
   "property": "C28",
   "status": "partial",
   "theorems": [
    "C28_recover_refuted",
    "C28_clear_refuted"
   ],
   "note": "Secrecy refuted for every password and nonce: an explicit inverse recovers the password (modulo 2^32) from one observed exchange."
  },
  {
   "property": "C29",
   "status": "proved",
   "theorems": [
    "C29_zeros",
    "C29_hash"
   ],
   "note": ""
  },
  {
   "property": "C30",
   "status": "proved",
   "theorems": [
    "C30_round_trip",
    "C30_shape",
    "C30_raises",
    "C30_odd",
    "C30_not_digits",
    "C30_pairs",
    "C30_ambiguous",
    "C30_documented"
   ],
   "note": ""
  },
  {
   "property": "C31",
   "status": "proved",
   "theorems": [
    "C31_proved"
   ],
   "note": ""
  },
  {
   "property": "C32",
   "status": "partial",
   "theorems": [
    "C32_documented_refuted",
    "C32_pairs_refuted",
    "C32_any_gateway_refuted"
   ],
   "note": "The expected behaviour is refuted for every key, proof, password and hash; the only way to log in is shown to need a proof whose bytes are all below ten."
  },
  {
   "property": "C33",
   "status": "proved",
   "theorems": [
    "C33_success",
    "C33_outcomes"
   ],
   "note": ""
  },
  {
   "property": "C34",
   "status": "proved",
   "theorems": [
    "C34_order",
    "C34_password"
   ],
   "note": ""
  },
  {
   "property": "C35",
   "status": "proved",
   "theorems": [
    "C35_nack"
   ],
   "note": ""
  },
  {
   "property": "C36",
   "status": "proved",
   "theorems": [
    "C36_refused",
    "C36_writes",
    "C36_items",
    "C36_items_fixed"
   ],
   "note": ""
  },
  {
   "property": "C37",
   "status": "proved",
   "theorems": [
    "C37_after_close",
    "C37_before_start"
   ],
   "note": ""
  },
  {
   "property": "C38",
   "status": "partial",
   "theorems": [
    "C38_close_refuted",
    "C38_waits_for_ever_refuted",
    "C38_pending_partial",
    "C38_bad_packet",
    "C38_ended",
    "C38_pending_any"
   ],
   "note": "Refuted: close() never lets the loop return; without pending messages it waits for ever (also after a dropped connection). What happens with pending messages is proved exactly."
  },
  {
   "property": "C39",
   "status": "proved",
   "theorems": [
    "C39_same_item",
    "C39_items_grow"
   ],
   "note": ""
  },
  {
   "property": "C40",
   "status": "proved",
   "theorems": [
    "C40_errors",
    "C40_key_error_exactly",
    "C40_unchanged"
   ],
   "note": ""
  },
  {
   "property": "C41",
   "status": "partial",
   "theorems": [
    "C41_survives_partial",
    "C41_stray_event_refuted",
    "C41_survives_any",
    "C41_stray_any_refuted"
   ],
   "note": "Refuted for every energy event from an address that is not an energy address; proved for all other event sequences."
  },
  {
   "property": "C42",
   "status": "proved",
   "theorems": [
    "C42_calls",
    "C42_total",
    "C42_determined",
    "C42_meaning_determined",
    "C42_once_each"
   ],
   "note": ""
  },
  {
   "property": "C43",
   "status": "partial",
   "theorems": [
    "C43_silent_refuted",
    "C43_rest",
    "C43_rest_many",
    "C43_silent_many_refuted"
   ],
   "note": "The expected behaviour is refuted for every history on Python 3.13 and later; C42 is the positive statement for earlier versions. C43_rest and C43_rest_many show that everything but the calls is the same under every version; C38_pending_any, C41_survives_any, C79_camera_any_refuted, C97_unread_any, C98_backlog_any_refuted and C100_sharing_any are the consequences."
  },
  {
   "property": "C44",
   "status": "proved",
   "theorems": [
    "C44_command",
    "C44_writing",
    "C44_bad_tag",
    "C44_no_session"
   ],
   "note": ""
  },
  {
   "property": "C45",
   "status": "proved",
   "theorems": [
    "C45_status",
    "C45_dimension",
    "C45_single"
   ],
   "note": ""
  },
  {
   "property": "C46",
   "status": "partial",
   "theorems": [
    "C46_prompt_partial",
    "C46_late_refuted",
    "C46_wrong_success_refuted",
    "C46_leftover_refuted",
    "C46_swap_refuted"
   ],
   "note": "Correlation refuted for every command pair (late replies, leftovers of a rejected request, two tasks); proved for one task with prompt replies."
  },
  {
   "property": "C47",
   "status": "partial",
   "theorems": [
    "C47_frames",
    "C47_parameterised_refuted",
    "C47_brightness_refuted"
   ],
   "note": "Proved for every listed method (all item methods that write) and every script of answers. Refuted for the four energy methods with parameterised dimensions and for set_brightness_with_speed given text that contains '##'."
  },
  {
   "property": "C48",
   "status": "partial",
   "theorems": [
    "C48_light_partial",
    "C48_light_30_min_refuted",
    "C48_light_distinct",
    "C48_automation",
    "C48_camera",
    "C48_camera_video",
    "C48_camera_distinct",
    "C48_camera_free_refuted"
   ],
   "note": "All commands but two: turn_on_30_min sends the documented 30-second code, free_resources lacks the trailing empty tag; both shown as refutations."
  },
  {
   "property": "C49",
   "status": "partial",
   "theorems": [
    "C49_dimmer_parameters_refuted",
    "C49_no_parameters"
   ],
   "note": "Refuted for every argument; the parameterless calls are proved."
  },
  {
   "property": "C50",
   "status": "partial",
   "theorems": [
    "C50_temporization_in_range",
    "C50_temporization_out_of_range",
    "C50_temporization_hours_refuted",
    "C50_hsv",
    "C50_white",
    "C50_dial"
   ],
   "note": "Exact ranges proved; the hours are limited to 23 although documented up to 255."
  },
  {
   "property": "C51",
   "status": "partial",
   "theorems": [
    "C51_wrong_dimension_refuted",
    "C51_dimmed_off_refuted",
    "C51_events_partial"
   ],
   "note": "Refuted: temporisation, level and white temperature events never reach their own callbacks and dimmed lights are reported as off; the exact events and arguments are proved for all item classes."
  },
  {
   "property": "C52",
   "status": "partial",
   "theorems": [
    "C52_dimmer_levels",
    "C52_dimmer_range_partial",
    "C52_dimmer_range_refuted",
    "C52_dimmer_bad"
   ],
   "note": "Exact value proved, and the promised range holds exactly when no WHAT exceeds 10; refuted for the documented codes 11 to 31."
  },
  {
   "property": "C53",
   "status": "proved",
   "theorems": [
    "C53_date_round_trip",
    "C53_date_fields",
    "C53_weekday_unique",
    "C53_date_read",
    "C53_date_valid"
   ],
   "note": ""
  },
  {
   "property": "C54",
   "status": "partial",
   "theorems": [
    "C54_time_partial",
    "C54_offset_refuted",
    "C54_zone_refuted",
    "C54_time_read",
    "C54_time_valid",
    "C54_no_zone"
   ],
   "note": "Refuted: the offset survives exactly for UTC and UTC-2, and the zone field written is never the documented one. Time of day, documented answers and missing zones proved."
  },
  {
   "property": "C55",
   "status": "partial",
   "theorems": [
    "C55_datetime_refuted",
    "C55_datetime_read",
    "C55_datetime_valid"
   ],
   "note": "Refuted for every date-time; documented answers are read correctly."
  },
  {
   "property": "C56",
   "status": "proved",
   "theorems": [
    "C56_ip",
    "C56_netmask",
    "C56_netinfo"
   ],
   "note": ""
  },
  {
   "property": "C57",
   "status": "partial",
   "theorems": [
    "C57_text_spread_refuted",
    "C57_not_called_refuted",
    "C57_model_partial",
    "C57_one_value_partial"
   ],
   "note": "Refuted for all text values (spread one character per argument); proved for the five other events."
  },
  {
   "property": "C58",
   "status": "proved",
   "theorems": [
    "C58_construction",
    "C58_type",
    "C58_stop_go"
   ],
   "note": ""
  },
  {
   "property": "C59",
   "status": "partial",
   "theorems": [
    "C59_unreachable_refuted",
    "C59_exceptions",
    "C59_reachable_partial"
   ],
   "note": "Reachability refuted for all six parameterised dimensions; the other events characterised exactly."
  },
  {
   "property": "C60",
   "status": "partial",
   "theorems": [
    "C60_request_status",
    "C60_field_determined",
    "C60_general_answer",
    "C60_request_errors",
    "C60_event_decoder",
    "C60_event_documented_refuted",
    "C60_decoders_agree_refuted"
   ],
   "note": "The claim that the two decoders agree is refuted (two texts of 8192); what each decodes is proved exactly."
  },
  {
   "property": "C61",
   "status": "partial",
   "theorems": [
    "C61_search",
    "C61_exponential_refuted",
    "C61_no_polynomial_refuted"
   ],
   "note": "Polynomial time is refuted: at least 2^n tests for n digits and one stray character, and no polynomial bounds the cost; the matcher is proved to decide the same language as the pattern."
  },
  {
   "property": "C62",
   "status": "proved",
   "theorems": [
    "C62_parsed",
    "C62_tags_copy",
    "C62_tags_independent"
   ],
   "note": ""
  },
  {
   "property": "C63",
   "status": "proved",
   "theorems": [
    "C63_bad_frame_closes",
    "C63_open_iff"
   ],
   "note": ""
  },
  {
   "property": "C64",
   "status": "partial",
   "theorems": [
    "C64_stuck_forever_refuted",
    "C64_stuck_reachable_refuted"
   ],
   "note": "The expected behaviour is refuted: the stuck state is reachable and permanent."
  },
  {
   "property": "C65",
   "status": "partial",
   "theorems": [
    "C65_silent_loss_refuted",
    "C65_nothing_after_loss"
   ],
   "note": "The expected behaviour is refuted for every message."
  },
  {
   "property": "C66",
   "status": "partial",
   "theorems": [
    "C66_still_open_refuted"
   ],
   "note": "The expected behaviour is refuted for every failing start()."
  },
  {
   "property": "C67",
   "status": "partial",
   "theorems": [
    "C67_dimensions_partial",
    "C67_white_refuted",
    "C67_working_time_refuted"
   ],
   "note": "Proved for temporisation, level, HSV and reading the white temperature; refuted for writing the white temperature and reading the working time."
  },
  {
   "property": "C68",
   "status": "partial",
   "theorems": [
    "C68_brightness_refuted"
   ],
   "note": "Refuted: any natural number is sent."
  },
  {
   "property": "C69",
   "status": "proved",
   "theorems": [
    "C69_requests",
    "C69_short_reply"
   ],
   "note": ""
  },
  {
   "property": "C70",
   "status": "partial",
   "theorems": [
    "C70_light_status_partial",
    "C70_light_status_refuted"
   ],
   "note": "Exact view of each reply proved; completeness refuted for every WHAT other than 0 and 1."
  },
  {
   "property": "C71",
   "status": "proved",
   "theorems": [
    "C71_automation_status",
    "C71_automation_unknown"
   ],
   "note": ""
  },
  {
   "property": "C72",
   "status": "partial",
   "theorems": [
    "C72_mac_refuted",
    "C72_mac_count"
   ],
   "note": "Refuted for every address; the exact result is proved."
  },
  {
   "property": "C73",
   "status": "partial",
   "theorems": [
    "C73_model",
    "C73_documented_refuted"
   ],
   "note": "Exact result proved for every value; the documented table is refuted at type 13."
  },
  {
   "property": "C74",
   "status": "proved",
   "theorems": [
    "C74_versions",
    "C74_uptime"
   ],
   "note": ""
  },
  {
   "property": "C75",
   "status": "partial",
   "theorems": [
    "C75_documented_frames",
    "C75_daily_refuted",
    "C75_negative_refused",
    "C75_midnight_refuted"
   ],
   "note": "Proved for every command except the daily report, which is refuted (day and month exchanged, clock read twice)."
  },
  {
   "property": "C76",
   "status": "partial",
   "theorems": [
    "C76_actuator_info_refuted",
    "C76_characters"
   ],
   "note": "Refuted for every documented answer; the decoding of a six-digit value is proved."
  },
  {
   "property": "C77",
   "status": "proved",
   "theorems": [
    "C77_nearest_float",
    "C77_float_determined"
   ],
   "note": ""
  },
  {
   "property": "C78",
   "status": "proved",
   "theorems": [
    "C78_totalizer",
    "C78_instant_power",
    "C78_differential_level"
   ],
   "note": ""
  },
  {
   "property": "C79",
   "status": "partial",
   "theorems": [
    "C79_camera_silent_refuted",
    "C79_no_camera_item_refuted",
    "C79_class",
    "C79_camera_any_refuted"
   ],
   "note": "The expected behaviour is refuted for every history."
  },
  {
   "property": "C80",
   "status": "partial",
   "theorems": [
    "C80_refused_stops_refuted",
    "C80_prefix_partial"
   ],
   "note": "The expected behaviour is refuted; the calls made are characterised exactly."
  },
  {
   "property": "C81",
   "status": "proved",
   "theorems": [
    "C81_accepted",
    "C81_validation",
    "C81_lower"
   ],
   "note": ""
  },
  {
   "property": "C82",
   "status": "partial",
   "theorems": [
    "C82_constructor_refuted"
   ],
   "note": "The expected behaviour is refuted: the message follows the caller's list in every history."
  },
  {
   "property": "C83",
   "status": "partial",
   "theorems": [
    "C83_reported_partial",
    "C83_nothing_else",
    "C83_delayed_refuted",
    "C83_refused_refuted",
    "C83_independent",
    "C83_same_calls"
   ],
   "note": "Proved when every callback takes the arguments and all calls end; refuted while a call of the same event goes on and when a later callback refuses the arguments."
  },
  {
   "property": "C84",
   "status": "proved",
   "theorems": [
    "C84_clean",
    "C84_total",
    "C84_determined",
    "C84_errors"
   ],
   "note": ""
  },
  {
   "property": "C85",
   "status": "partial",
   "theorems": [
    "C85_leak_refuted",
    "C85_tidy_partial"
   ],
   "note": "Refuted for every second start(); proved for clients that are closed before each new start."
  },
  {
   "property": "C86",
   "status": "proved",
   "theorems": [
    "C86_commands_end",
    "C86_commands_exactly",
    "C86_start_ends"
   ],
   "note": ""
  },
  {
   "property": "C87",
   "status": "partial",
   "theorems": [
    "C87_requests_end",
    "C87_status_bound_refuted",
    "C87_dimension_bound_refuted"
   ],
   "note": "Refuted as stated: no bound holds for all requests (C87_status_bound_refuted, C87_dimension_bound_refuted). Proved instead: every request ends, within 5 s per message read plus 5 s."
  },
  {
   "property": "C88",
   "status": "proved",
   "theorems": [
    "C88_parsed_tags",
    "C88_attributes",
    "C88_hash_separates"
   ],
   "note": ""
  },
  {
   "property": "C89",
   "status": "partial",
   "theorems": [
    "C89_class_parse",
    "C89_class_parse_errors",
    "C89_ack_parse_refuted",
    "C89_extra_tags_refuted"
   ],
   "note": "Refuted as stated (C89_ack_parse_refuted, C89_extra_tags_refuted); the exact accepted lists and errors are proved."
  },
  {
   "property": "C90",
   "status": "partial",
   "theorems": [
    "C90_commands_partial",
    "C90_progress_partial",
    "C90_overtaking_refuted",
    "C90_request_refuted",
    "C90_requests_refuted",
    "C90_steps"
   ],
   "note": "Refuted as stated (C90_overtaking_refuted, C90_request_refuted, C90_requests_refuted); proved for orderly runs of commands (C90_commands_partial, C90_progress_partial)."
  },
  {
   "property": "C91",
   "status": "partial",
   "theorems": [
    "C91_spacing_refuted",
    "C91_sleeps"
   ],
   "note": "Refuted: any number of messages is written back to back with no sleep; proved instead: a call sleeps exactly when the transport is paused at the call."
  },
  {
   "property": "C92",
   "status": "partial",
   "theorems": [
    "C92_starvation_refuted",
    "C92_wake"
   ],
   "note": "Refuted: for every n a run exists in which the transport resumes n times, the waiting task wakes n times and is still waiting; proved instead: a sleep ending while the transport is not paused ends the call."
  },
  {
   "property": "C93",
   "status": "partial",
   "theorems": [
    "C93_same_loop",
    "C93_stolen_refuted",
    "C93_owner",
    "C93_send_partial",
    "C93_frames"
   ],
   "note": "Refuted: an item looked up earlier with the event client keeps it and every send raises InvalidSession; proved: the client of an item in every history (C93_owner), and that all items can send when only connected command clients are offered."
  },
  {
   "property": "C94",
   "status": "partial",
   "theorems": [
    "C94_dimmer_refuted",
    "C94_not_offered",
    "C94_item_partial",
    "C94_class_partial"
   ],
   "note": "Refuted: callbacks that only Dimmer can register always get a Light; proved: every callback gets the one item of the event's WHO and WHERE, of the class of its WHO, with the event's WHERE except for the gateway."
  },
  {
   "property": "C95",
   "status": "proved",
   "theorems": [
    "C95_login",
    "C95_exists"
   ],
   "note": ""
  },
  {
   "property": "C96",
   "status": "proved",
   "theorems": [
    "C96_replay",
    "C96_reflection",
    "C96_digest"
   ],
   "note": ""
  },
  {
   "property": "C97",
   "status": "proved",
   "theorems": [
    "C97_calls",
    "C97_nothing_lost",
    "C97_catches_up",
    "C97_total",
    "C97_entry",
    "C97_unread_any"
   ],
   "note": ""
  },
  {
   "property": "C98",
   "status": "partial",
   "theorems": [
    "C98_backlog_refuted",
    "C98_backlog_any_refuted"
   ],
   "note": "Refuted for every backlog and every continuation."
  },
  {
   "property": "C99",
   "status": "proved",
   "theorems": [
    "C99_task",
    "C99_all",
    "C99_alone",
    "C99_timeout",
    "C99_calls"
   ],
   "note": ""
  },
  {
   "property": "C100",
   "status": "proved",
   "theorems": [
    "C100_sharing",
    "C100_arrival",
    "C100_cancelled",
    "C100_catches_up",
    "C100_one_loop",
    "C100_sharing_any"
   ],
   "note": ""
  },
  {
   "property": "C101",
   "status": "partial",
   "theorems": [
    "C101_stolen_refuted"
   ],
   "note": "Refuted: C101_stolen_refuted shows the read that gets the event, for every event and every continuation; C100 states exactly who gets what."
  },
  {
   "property": "C102",
   "status": "proved",
   "theorems": [
    "C102_own_answers",
    "C102_one_sequence"
   ],
   "note": ""
  },
  {
   "property": "C103",
   "status": "partial",
   "theorems": [
    "C103_consumed_partial",
    "C103_unread_refuted",
    "C103_shifted_refuted",
    "C103_other_kind_refuted",
    "C103_commands_refuted"
   ],
   "note": "Refuted: C103_unread_refuted, C103_shifted_refuted, C103_other_kind_refuted, C103_commands_refuted characterise exactly what later calls get; C103_consumed_partial is what holds."
  },
  {
   "property": "C104",
   "status": "partial",
   "theorems": [
    "C104_story",
    "C104_possible",
    "C104_points",
    "C104_read_back",
    "C104_white_refuted"
   ],
   "note": "C104_story, C104_possible, C104_points and C104_read_back hold for every house and every sequence of calls; C104_white_refuted is the witness for the white temperature (written to dimension 13, read from 14)."
  },
  {
   "property": "C105",
   "status": "proved",
   "theorems": [
    "C105_events",
    "C105_heard"
   ],
   "note": ""
  },
  {
   "property": "C106",
   "status": "partial",
   "theorems": [
    "C106_same",
    "C106_text",
    "C106_packet",
    "C106_tag",
    "C106_nack",
    "C106_ack_refuted",
    "C106_address",
    "C106_stop_go_refuted",
    "C106_status",
    "C106_callbacks",
    "C106_callbacks_refuted"
   ],
   "note": "Proved for the parser, packets, tag constructors, class parsers, NACK.parse, energy addresses, request_status and the light/automation/camera callbacks. Refuted for ACK.parse (constant sentence), StopGo (sentence as tag) and the gateway and energy callbacks (sentence as message), with the exact text they carry."
  },
  {
   "property": "C107",
   "status": "proved",
   "theorems": [
    "C107_login",
    "C107_visit",
    "C107_possible",
    "C107_outside"
   ],
   "note": "The gateway is abstract (SpecVisit.v on top of SpecHouse.v); HMAC gateways are left out, C32 shows that the documented exchange never succeeds with them."
  },
  {
   "property": "C108",
   "status": "proved",
   "theorems": [
    "C108_story",
    "C108_possible",
    "C108_points",
    "C108_date_back",
    "C108_time_back"
   ],
   "note": "set_datetime (C55: what it writes cannot be read), the daily report (C75), the dimensions with parameters and the Stop&Go status are left out of these sessions."
  },
  {
   "property": "C109",
   "status": "partial",
   "theorems": [
    "C109_received",
    "C109_sent",
    "C109_same",
    "C109_sent_refuted",
    "C109_refused",
    "C109_quiet",
    "C109_end"
   ],
   "note": "Refuted in part: C109_sent_refuted (records of sends after the end of the connection), C109_refused (no WARNING for an unknown WHO). The texts that Python itself composes (UnicodeDecodeError, ValueError, repr of the protocol object) are parameters. The records of Client.loop are not in this model."
  },
  {
   "property": "C110",
   "status": "partial",
   "theorems": [
    "C110_same",
    "C110_info",
    "C110_debug_refuted",
    "C110_text_refuted"
   ],
   "note": "Refuted: C110_debug_refuted (DEBUG, OPEN algorithm) and C110_text_refuted (ValueError with the password). What INFO shows is proved not to depend on the password."
  },
  {
   "property": "C111",
   "status": "proved",
   "theorems": [
    "C111_time",
    "C111_date",
    "C111_datetime",
    "C111_uptime"
   ],
   "note": ""
  },
  {
   "property": "C112",
   "status": "partial",
   "theorems": [
    "C112_same",
    "C112_account",
    "C112_unique",
    "C112_silent_refuted",
    "C112_not_found_refuted",
    "C112_stray_refuted",
    "C112_new_refuted",
    "C112_records"
   ],
   "note": "The account of every event is characterised exactly; that the log is complete and says true things is refuted with witnesses for all histories."
  },
  {
   "property": "C113",
   "status": "proved",
   "theorems": [
    "C113_house",
    "C113_possible",
    "C113_light",
    "C113_automation",
    "C113_energy",
    "C113_gateway",
    "C113_camera",
    "C113_ip",
    "C113_day"
   ],
   "note": "Seven example programs: four against every house and lock of C107, three over every script of answers. The event examples are not covered here."
  },
  {
   "property": "C114",
   "status": "partial",
   "theorems": [
    "C114_lines",
    "C114_woken",
    "C114_one_line",
    "C114_house",
    "C114_light",
    "C114_automation",
    "C114_minute_refuted",
    "C114_silent_refuted"
   ],
   "note": "What is told is characterised exactly for all histories; that it is true of the house is refuted for lamps in any state but 0 and 1 and, from Python 3.13 on, altogether."
  },
  {
   "property": "C115",
   "status": "partial",
   "theorems": [
    "C115_keeps",
    "C115_bounded",
    "C115_count",
    "C115_items_refuted",
    "C115_unread_refuted"
   ],
   "note": "What is kept is characterised exactly for all histories; a bound independent of the gateway is refuted: items and unread messages grow with what it sends."
  },
  {
   "property": "C116",
   "status": "partial",
   "theorems": [
    "C116_login_refuted",
    "C116_answer_refuted",
    "C116_visit",
    "C116_possible",
    "C116_examples",
    "C116_watchers"
   ],
   "note": "The claim is refuted: no login over the documented frames succeeds. Proved in full: the outcome of every such login, and that nothing happens to the house afterwards."
  },
  {
   "property": "C117",
   "status": "partial",
   "theorems": [
    "C117_story",
    "C117_possible",
    "C117_known",
    "C117_retry",
    "C117_retry_refuted",
    "C117_frame_refuted"
   ],
   "note": "Proved in full for breaks between frames, as an exact description of what can happen; refuted for a break inside a frame and for repeating step commands (witnesses)."
  },
  {
   "property": "C118",
   "status": "partial",
   "theorems": [
    "C118_story",
    "C118_seen",
    "C118_overlap_refuted"
   ],
   "note": "Proved in full for calls that do not overlap; refuted for calls that do (witness). The client is the one of Conc.v: a transport that is not paused. Houses whose values do not end in '#'."
  },
  {
   "property": "C119",
   "status": "partial",
   "theorems": [
    "C119_sides",
    "C119_bytes",
    "C119_story",
    "C119_order_refuted"
   ],
   "note": "Proved in full for calls that do not overlap; refuted for calls that do (witness). The gateway of the model may obey a frame as soon as the transport took it, which includes obeying it when it has arrived. Houses whose values do not end in '#'."
  },
  {
   "property": "C120",
   "status": "partial",
   "theorems": [
    "C120_never_waits",
    "C120_start",
    "C120_buffer",
    "C120_unlocked_refuted"
   ],
   "note": "Proved in full for calls that do not overlap; refuted for calls that do (witness). Houses whose values do not end in '#'; no timeouts, cancellations or loss of the connection."
  },
  {
   "property": "C121",
   "status": "proved",
   "theorems": [
    "C121_story",
    "C121_order",
    "C121_seen"
   ],
   "note": "Each client locked and undisturbed (no timeouts, cancellations or loss of its connection); houses whose values do not end in '#'; packets cut between frames, as in C119."
  },
  {
   "property": "C122",
   "status": "partial",
   "theorems": [
    "C122_story",
    "C122_commands",
    "C122_verdict_refuted"
   ],
   "note": "The claim that timeouts do not disturb later calls is refuted (witness); the exact effect on house, stream and verdicts is proved for all schedules. Houses whose values do not end in '#'; no cancellations or loss of the connection; packets cut between frames."
  },
  {
   "property": "C123",
   "status": "partial",
   "theorems": [
    "C123_story",
    "C123_order",
    "C123_order_refuted"
   ],
   "note": "Verdicts, messages read and real-time order of the answered calls are proved for all schedules; that a timed-out call cannot take effect after later calls on a new connection is refuted (witness). Houses whose values do not end in '#'; no cancellations or loss of the connection; packets cut between frames; the gateway goes on serving frames of a connection that the client no longer uses."
  },
  {
   "property": "C124",
   "status": "partial",
   "theorems": [
    "C124_story",
    "C124_order",
    "C124_after_loss",
    "C124_verdict_refuted"
   ],
   "note": "Effects, verdicts, messages read and real-time order are proved for all schedules; that a call on a lost connection cannot be told that it was done is refuted after a timeout (witness), and proved on connections without an earlier timeout. Frames still buffered when the connection is lost may or may not reach the gateway in the model. Houses whose values do not end in '#'; packets cut between frames."
  },
  {
   "property": "C125",
   "status": "proved",
   "theorems": [
    "C125_events",
    "C125_mirror",
    "C125_past",
    "C125_heard"
   ],
   "note": "The house, the crowd of commanding connections and the listener as in C105 and C124; what a lamp's callback is told is whether its state is 1 (C51 for dimmers). Points that change without a command are not in the model of the house."
  },
  {
   "property": "C126",
   "status": "partial",
   "theorems": [
    "C126_digest",
    "C126_sane",
    "C126_padding",
    "C126_blocks",
    "C126_frame",
    "C126_login",
    "C126_any_gateway_refuted",
    "C126_replay"
   ],
   "note": "Refuted: that a gateway with the right password can log the client in (the proof is decoded to one byte per character of the received tag, C30). Proved: lengths, padding, the exact third frame, the exact condition on the proof, replay. SHA-1, SHA-256 and HMAC are defined in Sha.v and were compared with hashlib on random vectors."
  },
  {
   "property": "C127",
   "status": "partial",
   "theorems": [
    "C127_resync",
    "C127_last_word_refuted",
    "C127_asked_first_refuted"
   ],
   "note": "Refuted: that the last word is right, and that asking before listening is enough. Proved: with the events preferred to the answer, the state of every point that was asked for. Houses as in C125."
  },
  {
   "property": "C128",
   "status": "partial",
   "theorems": [
    "C128_fates",
    "C128_unique",
    "C128_unheard_refuted",
    "C128_answers_refuted",
    "C128_auxiliary_refuted"
   ],
   "note": "Refuted: that every documented event is told (exact list of what becomes of each family proved), and that the auxiliaries' answers are survived. Before Python 3.13 (see C43). Packets hold whole frames."
  },
  {
   "property": "C129",
   "status": "partial",
   "theorems": [
    "C129_vocabulary",
    "C129_documented_partial",
    "C129_unsayable_refuted",
    "C129_undocumented_refuted"
   ],
   "note": "Refuted: that every documented command can be sent (the sendable ones and the others are separated exactly, C129_documented_partial and C129_unsayable_refuted) and that all that is sent is documented (C129_undocumented_refuted). C129_vocabulary gives the exact set of frames. The generic methods of items/base.py, which take any WHAT or dimension, are left out."
  },
  {
   "property": "C130",
   "status": "partial",
   "theorems": [
    "C130_exchanges",
    "C130_told_elsewhere_refuted",
    "C130_on_lights_refuted"
   ],
   "note": "Refuted: that every documented request obtains its answer (C130_told_elsewhere_refuted, C130_on_lights_refuted, and the rows of actuators and model 13). C130_exchanges proves the whole table, failing rows included. Assumes the ACK that ends the gateway's answers, which who13.md leaves implicit."
  },
  {
   "property": "C131",
   "status": "partial",
   "theorems": [
    "C131_only",
    "C131_each",
    "C131_own_exception_refuted",
    "C131_docstrings_refuted"
   ],
   "note": "Refuted: OWNException does not catch all exceptions (C131_own_exception_refuted), the sections Raises of the docstrings are incomplete (C131_docstrings_refuted). C131_only and C131_each give the exact row of exceptions of every method."
  },
  {
   "property": "C132",
   "status": "partial",
   "theorems": [
    "C132_only",
    "C132_each",
    "C132_surrogate",
    "C132_docstring_refuted"
   ],
   "note": "Refuted: the docstring of start() (C132_docstring_refuted). C132_only, C132_each and C132_surrogate give the exact set of exceptions."
  },
  {
   "property": "C133",
   "status": "partial",
   "theorems": [
    "C133_reports",
    "C133_app_refuted",
    "C133_seen_refuted",
    "C133_class_refuted",
    "C133_again_refuted",
    "C133_each",
    "C133_packet"
   ],
   "note": "Refuted: the application's handler (C133_app_refuted), no report is lost (C133_seen_refuted), the class is named (C133_class_refuted), no errors without faults (C133_again_refuted), each with the exact condition. C133_reports gives what every report leads to; C133_packet ties it to the lines of C109."
  },
  {
   "property": "C134",
   "status": "proved",
   "theorems": [
    "C134_line",
    "C134_meters",
    "C134_date"
   ],
   "note": "C134_line holds for every server given as a relation between states, frames and answers (its hypothesis civil is shown for a toy server and, as house_civil, for the house of C108); C134_meters is the instance for clock and meters, C134_date the date that one task sets and another reads. Results of the methods are given by their programs on the messages read (galone): for a question without a reply the exchange ends well and the method raises ResponseError."
  },
  {
   "property": "C135",
   "status": "partial",
   "theorems": [
    "C135_no_loss",
    "C135_together",
    "C135_once",
    "C135_true",
    "C135_refused",
    "C135_seen",
    "C135_pending_refuted"
   ],
   "note": "All claims proved for any heap of the application and any collections, except that a destroyed callback is told of in the log, which is refuted: any group of calls that nothing else refers to may go without a line."
  },
  {
   "property": "C136",
   "status": "partial",
   "theorems": [
    "C136_alone",
    "C136_old",
    "C136_own",
    "C136_one",
    "C136_never_all",
    "C136_close",
    "C136_overlap_refuted",
    "C136_close_refuted",
    "C136_cancel_refuted"
   ],
   "note": "Proved for one start() at a time on any history, for what is written to earlier connections, and for close() with nothing unread. The wider claims are refuted with witnesses; the count of overlapping calls that return is proved for any number of them."
  },
  {
   "property": "C137",
   "status": "partial",
   "theorems": [
    "C137_before",
    "C137_start",
    "C137_command",
    "C137_greeting",
    "C137_refuted"
   ],
   "note": "The claim is refuted with a witness and, for every state with the greeting unread, for every command. Proved: refusal before the first connection, and that every call and start() that ends so had a conversation of its own."
  },
  {
   "property": "C138",
   "status": "partial",
   "theorems": [
    "C138_same",
    "C138_unlisted_refuted",
    "C138_listed",
    "C138_leftover",
    "C138_replaced",
    "C138_camera",
    "C138_late_refuted",
    "C138_foreign_refuted",
    "C138_python_refuted"
   ],
   "note": "The claim is refuted for WHOs that are not in ITEM_TYPES, for classes listed after an item was made, and for classes in the place of Gateway and EnergyManagement that do not derive from them. Proved: definitions disturb nothing, and a class listed in time gets every message."
  },
  {
   "property": "C139",
   "status": "proved",
   "theorems": [
    "C139_serial",
    "C139_order",
    "C139_isolated",
    "C139_meters",
    "C139_date"
   ],
   "note": "For every gateway that gives whole answers. Assumed: the calls of the client that is spoken of do not overlap (otherwise answers are mixed up, C104 and C134) and none of them is cut off."
  },
  {
   "property": "C140",
   "status": "partial",
   "theorems": [
    "C140_made",
    "C140_raises",
    "C140_sends",
    "C140_who_partial",
    "C140_who_refuted",
    "C140_gateway_refuted",
    "C140_names",
    "C140_names_refuted"
   ],
   "note": "C140_made characterises every construction and C140_raises the exceptions; C140_sends the addresses of the frames. item.who is the WHO of the frames only without who= and before Python 3.13 (C140_who_partial, C140_who_refuted), a Gateway ignores its WHERE (C140_gateway_refuted), repr and str tell class and WHERE (C140_names) but not the WHO (C140_names_refuted)."
  },
  {
   "property": "C141",
   "status": "partial",
   "theorems": [
    "C141_same",
    "C141_over",
    "C141_ends",
    "C141_errors_partial",
    "C141_late",
    "C141_lost_refuted",
    "C141_unbegun_refuted",
    "C141_settled"
   ],
   "note": "C141_errors_partial is the exact condition under which all errors are reported, C141_late what is reported otherwise; C141_lost_refuted and C141_unbegun_refuted refute the claim for every event. C141_over, C141_ends and C141_settled hold in full."
  },
  {
   "property": "C142",
   "status": "partial",
   "theorems": [
    "C142_once",
    "C142_current",
    "C142_items",
    "C142_catches_up",
    "C142_ends",
    "C142_deaf_refuted",
    "C142_unheard_refuted",
    "C142_abandoned_refuted"
   ],
   "note": "C142_once, C142_current, C142_items, C142_catches_up and C142_ends hold in full. C142_deaf_refuted and C142_unheard_refuted refute that starting again brings a waiting loop back; C142_abandoned_refuted refutes that all messages of an old connection are dispatched."
  },
  {
   "property": "C143",
   "status": "partial",
   "theorems": [
    "C143_order",
    "C143_bounded",
    "C143_rest",
    "C143_follows",
    "C143_follower_rests",
    "C143_restless",
    "C143_rest_refuted"
   ],
   "note": "C143_order, C143_bounded, C143_rest, C143_follows and C143_follower_rests hold in full. C143_restless and C143_rest_refuted refute that the application always comes to rest. Outside: cancellation of callback tasks and errors of the second client's connection; a call is one step of the house (C104_story)."
  },
  {
   "property": "C144",
   "status": "proved",
   "theorems": [
    "C144_order",
    "C144_rest",
    "C144_same"
   ],
   "note": "Outside: cancellation of callback tasks, timeouts and errors of the second client's connection; a call is one step of the house (C104_story). How the errors are reported is C83."
  },
  {
   "property": "C145",
   "status": "partial",
   "theorems": [
    "C145_each",
    "C145_rest",
    "C145_follows_refuted",
    "C145_follows_partial"
   ],
   "note": "C145_each and C145_rest hold in full. C145_follows_refuted refutes that the follower ends up as the lamp it follows; C145_follows_partial is the condition under which it does. Outside: cancellation, timeouts and errors of the connections; a call is one step of the house (C104_story, C121)."
  },
  {
   "property": "C146",
   "status": "partial",
   "theorems": [
    "C146_rest",
    "C146_failing",
    "C146_unlocked",
    "C146_follows",
    "C146_chain",
    "C146_failing_follows_refuted",
    "C146_failing_follows_partial"
   ],
   "note": "C146_rest, C146_follows and C146_chain (with the lock), C146_failing (callbacks that stop at an error) and C146_unlocked (without a lock) hold in full. C146_failing_follows_refuted refutes that a lamp follows whatever the other rules are when callbacks stop at an error; C146_failing_follows_partial is the condition under which it does. That rules which run in circles need not come to rest is C143_rest_refuted; that a follower may differ without the lock is C145_follows_refuted. Outside: as for C143."
  },
  {
   "property": "C147",
   "status": "proved",
   "theorems": [
    "C147_lock",
    "C147_failing",
    "C147_unlocked",
    "C147_surely",
    "C147_failing_surely",
    "C147_unlocked_surely"
   ],
   "note": "What a callback was told is what its task was started with, in the order in which the tasks were made. Outside: as for C143, C144 and C145."
  },
  {
   "property": "C148",
   "status": "partial",
   "theorems": [
    "C148_each",
    "C148_picture",
    "C148_rest",
    "C148_surely",
    "C148_rules",
    "C148_restless",
    "C148_rest_refuted"
   ],
   "note": "C148_each, C148_picture, C148_rest, C148_surely, C148_rules and C148_restless hold in full. C148_rest_refuted refutes that applications which come to rest alone do so together. Callbacks without a lock, as in C145; one application with a lock is C143. Outside: as for C145."
  }
 ]
}