{
 "claims": [
  {
   "property": "C01",
   "status": "proved",
   "theorems": [
    "xor_frame_round_trip",
    "xor_too_long_rejected"
   ],
   "note": ""
  },
  {
   "property": "C02",
   "status": "proved",
   "theorems": [
    "xor_frames_unambiguous",
    "xor_stream_parses_back"
   ],
   "note": ""
  },
  {
   "property": "C03",
   "status": "proved",
   "theorems": [
    "xor_reply_belongs_to_request",
    "xor_clean_exchange_succeeds"
   ],
   "note": "The device is assumed to send exactly one frame per request on the connection the request came from."
  },
  {
   "property": "C04",
   "status": "proved",
   "theorems": [
    "xor_failure_drops_connection",
    "xor_connect_failure_class",
    "xor_exchange_failure_class"
   ],
   "note": ""
  },
  {
   "property": "C05",
   "status": "proved",
   "theorems": [
    "iot_query_retries",
    "iot_query_attempt_bound",
    "iot_query_negative_count"
   ],
   "note": "The statement covers retry_count >= 0; a negative count raises at once without an exchange."
  },
  {
   "property": "C06",
   "status": "proved",
   "theorems": [
    "smart_query_retries",
    "smart_query_attempt_bound",
    "smart_query_negative_count"
   ],
   "note": "The statement covers retry_count >= 0; a negative count raises at once without an exchange."
  },
  {
   "property": "C07",
   "status": "partial",
   "theorems": [
    "smart_batches_bounded",
    "smart_batches_partition",
    "smart_every_method_answered",
    "smart_answers_exact",
    "smart_answers_exact_paged",
    "smart_answers_succeed",
    "smart_unbatched_answers_partial",
    "smart_batch_fallback",
    "smart_unbatched_drops_method_refuted",
    "smart_unbatched_no_result_refuted"
   ],
   "note": "Holds for every batch size other than 1, with the exact values for any device that answers truthfully. With batch size 1 (configured, or set for good after one refused batch) the code violates it: methods that must be sent alone get no entry, and a reply without result is an uncaught KeyError; both are proved as _refuted theorems."
  },
  {
   "property": "C08",
   "status": "partial",
   "theorems": [
    "smart_list_complete",
    "smart_page_requests_bounded",
    "smart_paging_terminates",
    "smart_paging_outcome",
    "smart_answers_exact_paged",
    "smart_requeried_list_truncated_refuted",
    "smart_page_drops_params_refuted"
   ],
   "note": "Holds for single-method queries and for methods answered inside a batch. The code violates it for a list method that has to be asked again alone: only its first page is returned. Later pages also drop the parameters of the original request."
  },
  {
   "property": "C09",
   "status": "proved",
   "theorems": [
    "smart_code_classification",
    "smart_code_not_raising",
    "smart_code_missing",
    "smart_code_tables"
   ],
   "note": ""
  },
  {
   "property": "C10",
   "status": "partial",
   "theorems": [
    "redact_keeps_rest",
    "redact_adds_nothing",
    "redact_masks",
    "redact_hides",
    "smart_redaction_hides",
    "iot_redaction_hides",
    "smart_setup_code_hidden",
    "redact_id_head_hidden",
    "redact_id_tail_refuted",
    "redact_children_refuted"
   ],
   "note": "redact_data itself is proved for every table and value, with non-interference for the keys that are masked by a constant. The real tables do not hide everything: identifiers keep everything from the tenth character on, and a legacy strip's socket entries keep the sensitive keys nested in them; both are proved as _refuted theorems. That the argument is not modified is built into the functional model."
  },
  {
   "property": "C11",
   "status": "proved",
   "theorems": [
    "mask_mac_formats",
    "mask_mac_hides_device",
    "mask_mac_depends"
   ],
   "note": ""
  },
  {
   "property": "C12",
   "status": "proved",
   "theorems": [
    "klap_handshake_accepts",
    "klap_handshake_complete",
    "klap_handshake_refuses",
    "klap_handshake_secret"
   ],
   "note": "Hash functions are parameters; klap_handshake_secret reduces acceptance of a server with another secret to a SHA-256 collision."
  },
  {
   "property": "C13",
   "status": "proved",
   "theorems": [
    "klap_messages_round_trip",
    "klap_iv_distinct",
    "klap_counter_start"
   ],
   "note": "AES is a parameter: any block cipher whose decryption inverts its encryption."
  },
  {
   "property": "C14",
   "status": "proved",
   "theorems": [
    "klap_request_needs_session",
    "klap_request_outcome",
    "klap_numbers_increase"
   ],
   "note": "Stated against session_after, which computes the live session from the posts and replies alone. Concurrent sends on one transport are not modelled (the protocol classes serialise them)."
  },
  {
   "property": "C15",
   "status": "partial",
   "theorems": [
    "aes_order_partial",
    "aes_send_outcome_partial",
    "aes_order_unusable_key_refuted"
   ],
   "note": "Proved for all histories in which every key the device offers in a successful handshake reply is usable (32 bytes after RSA decryption). Without that the property is false: aes_order_unusable_key_refuted gives a history in which a request is posted under an expired session's key, without token, handshake or login."
  },
  {
   "property": "C16",
   "status": "proved",
   "theorems": [
    "aes_round_trip",
    "aes_injective",
    "aes_padding",
    "aes_session_key"
   ],
   "note": "AES is a parameter: any block cipher whose decryption inverts its encryption."
  },
  {
   "property": "C17",
   "status": "partial",
   "theorems": [
    "cam_reset_like_fresh_partial",
    "cam_refused_like_fresh_partial",
    "cam_reset_stays_plain_refuted",
    "cam_reset_keeps_default_user_refuted"
   ],
   "note": "Proved for every history in which no device accepted a less secure login or the default user name. Otherwise the code violates the property: after an accepted less secure login all later requests are posted unencrypted, even after a reset and a completed encrypted handshake, and an accepted default user name replaces the configured one for good; both are _refuted theorems."
  },
  {
   "property": "C18",
   "status": "proved",
   "theorems": [
    "first_reply_decides",
    "reported_once"
   ],
   "note": "For every sequence of datagrams and send rounds. JSON parsing and DiscoveryResult.from_dict are oracles."
  },
  {
   "property": "C19",
   "status": "partial",
   "theorems": [
    "good_reply_discovered_partial",
    "legacy_reply_discovered_partial",
    "stray_datagram_refuted",
    "unreadable_first_refuted"
   ],
   "note": "Holds when the reply is the first datagram of its host. Refuted in general: a stray datagram of the host from any port, or an unreadable one, makes every later reply ignored."
  },
  {
   "property": "C20",
   "status": "partial",
   "theorems": [
    "single_outcome_partial",
    "single_timeout_refuted"
   ],
   "note": "The outcome as a function of the first datagram of the host. Refuted: a reply whose handling raises something else than a library error (such as a legacy camera) ends in TimeoutError."
  },
  {
   "property": "C21",
   "status": "partial",
   "theorems": [
    "config_round_trip_partial",
    "config_timeout_refuted",
    "config_credentials_controlled"
   ],
   "note": "Exact round trip for every configuration that has a timeout. Refuted without one: None is omitted and restored as five seconds. The credentials control is proved in full. The library conversion (mashumaro) is modelled for the JSON types it emits."
  },
  {
   "property": "C22",
   "status": "proved",
   "theorems": [
    "parameters_from_values",
    "parameters_from_other_values"
   ],
   "note": ""
  },
  {
   "property": "C23",
   "status": "proved",
   "theorems": [
    "protocol_selection",
    "strict_is_stricter",
    "cameras_apart",
    "uses_http_right",
    "uses_http_refuted"
   ],
   "note": "The whole selection table; also that the uses_http flag agrees with the transport, except for legacy-encrypted cameras without TLS."
  },
  {
   "property": "C24",
   "status": "proved",
   "theorems": [
    "connect_ok",
    "connect_err",
    "connect_error_kind",
    "connect_arguments",
    "class_needs_sys_info",
    "connect_camera_refuted"
   ],
   "note": "Every failure point of connect. connect_camera_refuted records that a legacy camera makes a plain KeyError escape."
  },
  {
   "property": "C25",
   "status": "partial",
   "theorems": [
    "http_outcome_partial",
    "total_timeout_refuted",
    "http_gap_partial",
    "http_gap_refuted"
   ],
   "note": "Holds: every failure other than the total timeout is reported as the library exception of its kind, replies are passed through, and the gap is kept between requests once an OS error was seen as long as requests end in a reply or an OS error. Refuted: a total timeout surfaces as plain KasaException instead of TimeoutError, and the gap is not kept after requests that ended in a timeout."
  },
  {
   "property": "C26",
   "status": "partial",
   "theorems": [
    "feature_set_partial",
    "feature_life_partial",
    "feature_declaration",
    "feature_nan_refuted",
    "feature_stale_range_refuted"
   ],
   "note": "Holds for every value other than NaN against the range the feature has read. Refuted: NaN passes the range check, and the range is read once per feature so it is stale after the device changes it."
  },
  {
   "property": "C27",
   "status": "proved",
   "theorems": [
    "module_asked",
    "module_first_asked",
    "module_request",
    "module_disabled_forever",
    "module_outcome",
    "critical_module_asked"
   ],
   "note": "Clock readings are positive; module hooks are abstract predicates on the replies, or the default one. The account of failures used in the statement is computed from what updates did (Smod_Spec), not from the model's state."
  },
  {
   "property": "C28",
   "status": "partial",
   "theorems": [
    "module_data_partial",
    "module_data_missing_refuted",
    "camera_module_data"
   ],
   "note": "Refuted: a missing reply to a method other than the module's first goes unnoticed (and may unwrap the data). Everything else holds, and camera modules satisfy the full property."
  },
  {
   "property": "C29",
   "status": "proved",
   "theorems": [
    "children_follow_list",
    "children_failure_keeps",
    "children_logged_once"
   ],
   "note": "An existing child that is still listed is kept without asking again whether it is supported. Child creation is an oracle."
  },
  {
   "property": "C30",
   "status": "partial",
   "theorems": [
    "on_since_stable_partial",
    "on_since_history",
    "on_since_clock_refuted",
    "on_since_socket_refuted"
   ],
   "note": "Holds: any number of readings that differ by at most 5 s report one instant, later starts are reported, off reports nothing. Refuted: setting the device clock forward is reported as a new start, setting it back leaves a wrong start, and a strip socket that is on without a counter raises KeyError."
  },
  {
   "property": "C31",
   "status": "proved",
   "theorems": [
    "requests_split",
    "requests_complete",
    "replies_merged",
    "unsupported_stays"
   ],
   "note": "Module queries, sizes and support flags are arbitrary. The replies are arbitrary well-formed mappings."
  },
  {
   "property": "C32",
   "status": "partial",
   "theorems": [
    "merge_spec",
    "merge_order",
    "merge_conflict_raises",
    "merge_conflict_refuted"
   ],
   "note": "Later values win only where both sides are of the same kind: a non-empty mapping merged over a plain value raises, and an empty one leaves the plain value (merge_conflict_refuted). Everything else holds for all nested mappings."
  },
  {
   "property": "C33",
   "status": "partial",
   "theorems": [
    "command_ok",
    "command_accepts",
    "command_raises_partial",
    "command_raises_refuted",
    "command_request"
   ],
   "note": "Holds for replies made of mappings; a reply with another type in place of a mapping escapes with TypeError (command_raises_refuted)."
  },
  {
   "property": "C34",
   "status": "partial",
   "theorems": [
    "socket_update_asks",
    "socket_own_data_partial",
    "socket_own_data_refuted",
    "sockets_share_data"
   ],
   "note": "A socket asks only for itself and for everything its modules want (socket_update_asks). Violated by the code: sockets share the strip's inner reply objects, so for every module the strip itself has a reply for all sockets report the last writer's data (sockets_share_data). Proved for the other modules, e.g. energy."
  },
  {
   "property": "C35",
   "status": "proved",
   "theorems": [
    "strip_switch",
    "strip_switch_any",
    "strip_on",
    "strip_start"
   ],
   "note": "Any strip, any outcome of each command; strip_start uses the sockets' cached starts."
  },
  {
   "property": "C36",
   "status": "partial",
   "theorems": [
    "strip_sums",
    "strip_total",
    "strip_empty_refuted",
    "strip_aggregates",
    "strip_voltage_partial",
    "strip_voltage_sum_refuted",
    "strip_power"
   ],
   "note": "Sums proved. Refuted: sockets that report volts (not millivolts) have them summed, not averaged; a strip without sockets divides by zero. Floats are rationals: rounding not modelled."
  },
  {
   "property": "C37",
   "status": "partial",
   "theorems": [
    "readings_consistent",
    "readings_absent_partial",
    "readings_absent_refuted",
    "readings_prefix_refuted"
   ],
   "note": "Consistency of units proved; an unreported quantity reads as absent in base units only (KeyError in milli units), and a field whose name merely begins alike is read as the quantity."
  },
  {
   "property": "C38",
   "status": "partial",
   "theorems": [
    "statistics_partial",
    "consumption_now",
    "usage_statistics",
    "statistics_refuted"
   ],
   "note": "Proved for lists in one unit; refuted for lists with mixed units (KeyError)."
  },
  {
   "property": "C39",
   "status": "partial",
   "theorems": [
    "iot_preset_listed",
    "iot_save_partial",
    "iot_save_own_slot",
    "iot_save_unknown",
    "iot_save_refuted",
    "smart_presets_listed",
    "smart_save_partial",
    "smart_save_brightness",
    "smart_save_refuted"
   ],
   "note": "The listed name and the slot agree when no effect is stored before the preset; refuted otherwise (the index counts presets only), and SMART saving drops colours for good once a preset without colours was seen."
  },
  {
   "property": "C40",
   "status": "partial",
   "theorems": [
    "dimmer_transition",
    "dimmer_brightness",
    "dimmer_on",
    "dimmer_on_zero_refuted",
    "button_names_refuted",
    "fade_names_refuted"
   ],
   "note": "Brightness and transition commands proved for all arguments. Refuted: button and fade settings are sent under the printed enum member instead of the documented name; switching on with a transition from a stored brightness of zero sends zero."
  },
  {
   "property": "C41",
   "status": "partial",
   "theorems": [
    "hsv_command",
    "temperature_command",
    "turn_command",
    "brightness_command",
    "state_unchecked_refuted"
   ],
   "note": "All single setters proved exactly. Refuted for setting a whole light state: only the brightness is checked."
  },
  {
   "property": "C42",
   "status": "proved",
   "theorems": [
    "bulb_state",
    "dimmer_off",
    "dimmer_on"
   ],
   "note": "All states of bulbs, light strips and dimmers. dimmer_on assumes the dimmer reports a brightness of at least 1 (see dimmer_on_zero_refuted under C40)."
  },
  {
   "property": "C43",
   "status": "partial",
   "theorems": [
    "state_call_partial",
    "state_call_refuted"
   ],
   "note": "device_on is right and the set fields are sent for every state; refuted: with brightness zero, light_on is sent as well, and transition always is."
  },
  {
   "property": "C44",
   "status": "partial",
   "theorems": [
    "zone_table",
    "zone_outside",
    "zone_index",
    "matching_zones",
    "clock_setting",
    "clock_round_trip",
    "zone_setting_refuted",
    "leap_day_refuted"
   ],
   "note": "The table is total and one to one, a zone of the table has its own index, other zones get the first that agrees with them on the days compared, and setting the clock sends the index to a device whose reported index differs. Refuted parts: a device that has not reported an index is never told one; only 365 days are compared; a zone that is no ZoneInfo and matches nothing raises UnboundLocalError (zone_index)."
  },
  {
   "property": "C45",
   "status": "partial",
   "theorems": [
    "motion_percent_partial",
    "motion_percent_range",
    "motion_trigger",
    "motion_ranges",
    "motion_percent_refuted"
   ],
   "note": "For calibrations from 0 every reading is in range except the highest of an odd range; the triggering rule holds for all. Refuted for odd maxima (4095), for ranges not starting at 0, and for empty ranges (ZeroDivisionError)."
  },
  {
   "property": "C46",
   "status": "partial",
   "theorems": [
    "mac_partial",
    "mac_missing",
    "mac_refuted"
   ],
   "note": "Always colon separated pairs denoting the same bytes for the three raw formats; refuted for upper case: a mac without separators is reported in lower case."
  },
  {
   "property": "C47",
   "status": "partial",
   "theorems": [
    "child_query_single",
    "child_query_by_name",
    "child_query_multi",
    "child_query_addressed",
    "child_query_hub_failure",
    "child_missing_method_refuted",
    "child_error_ignored_refuted",
    "child_empty_request_refuted"
   ],
   "note": "Addressing and unwrapping are proved for every hub that relays the child's own replies, in any order. The code violates the property for a reply that lacks a requested method (silently absent), for an overall error code that accompanies a list of replies (ignored) and for an empty request; each is a _refuted theorem."
  },
  {
   "property": "C48",
   "status": "proved",
   "theorems": [
    "transition_round_trip"
   ],
   "note": "For every reported state and any number of seconds, against a device that keeps what it is sent."
  },
  {
   "property": "C49",
   "status": "partial",
   "theorems": [
    "effect_names_partial",
    "effect_select_partial",
    "effect_unknown",
    "effect_plain_refuted",
    "effect_rename_refuted",
    "effect_same_name_refuted"
   ],
   "note": "Every name written empty, in base64 or in text that is not base64 is recovered, and selecting it writes and enables that effect. Refuted: plain names that happen to be base64 are misread or fail the update; changing the brightness sends the name back in plain; of equal names only the last is selectable."
  },
  {
   "property": "C50",
   "status": "partial",
   "theorems": [
    "thermostat_partial",
    "thermostat_refuted"
   ],
   "note": "Off under frost protection, Idle for no states, otherwise the first known state; refuted: a low battery alone gives Unknown instead of Idle."
  },
  {
   "property": "C51",
   "status": "proved",
   "theorems": [
    "energy_source",
    "energy_voltage",
    "energy_error",
    "energy_voltage_stays"
   ],
   "note": "Floats are rationals."
  },
  {
   "property": "C52",
   "status": "proved",
   "theorems": [
    "protection_setting",
    "protection_threshold_set",
    "protection_enable",
    "protection_round_trip"
   ],
   "note": ""
  },
  {
   "property": "C53",
   "status": "partial",
   "theorems": [
    "vacuum_status_partial",
    "vacuum_again_refuted",
    "vacuum_second_refuted"
   ],
   "note": "The error is the first listed one and the status follows, independently of the past; refuted: processing the same reply again forgets the error, and an error after a zero goes unnoticed."
  },
  {
   "property": "C54",
   "status": "partial",
   "theorems": [
    "clean_records_partial",
    "clean_records_refuted"
   ],
   "note": "A fresh reply is read exactly; refuted: processing it a second time raises."
  },
  {
   "property": "C55",
   "status": "partial",
   "theorems": [
    "consumables_partial",
    "consumable_reset",
    "consumables_refuted"
   ],
   "note": "Right after its own update a device shows its own values, whatever happened before; refuted: any other vacuum's update replaces them."
  },
  {
   "property": "C56",
   "status": "partial",
   "theorems": [
    "alarm_settings_partial",
    "alarm_play",
    "alarm_volume_refuted"
   ],
   "note": "Refuted: a volume given as a number is stored as that number instead of its name."
  },
  {
   "property": "C57",
   "status": "proved",
   "theorems": [
    "firmware_started",
    "firmware_returns",
    "firmware_definite"
   ],
   "note": ""
  },
  {
   "property": "C58",
   "status": "partial",
   "theorems": [
    "smart_type_rules",
    "smart_type_found",
    "smart_type_kept",
    "child_type_rules",
    "cam_type_rules",
    "type_names",
    "iot_class_rules",
    "class_needs_sys_info",
    "smart_unknown_refuted",
    "iot_unknown_refuted"
   ],
   "note": "Exactly one type by a fixed order of rules, for all families; missing system info or type is a library error. Refuted: unknown families and types become plugs instead of errors, and a legacy camera raises KeyError."
  },
  {
   "property": "C59",
   "status": "partial",
   "theorems": [
    "child_lookup",
    "child_by_alias",
    "child_alias_refuted",
    "plug_by_name",
    "plug_by_index",
    "cli_child_lookup"
   ],
   "note": "All lookups specified exactly. Refuted: with aliases that differ in capitals only, the exact alias may return the other child."
  },
  {
   "property": "C60",
   "status": "partial",
   "theorems": [
    "cam_child_single",
    "cam_child_addressed",
    "cam_child_ordered_partial",
    "cam_child_counts",
    "cam_child_text",
    "cam_child_order_refuted",
    "cam_child_missing_refuted"
   ],
   "note": "Replies are matched by position: proved exact when the hub answers one for one in order; any other order mislabels replies and missing replies leave methods without entry (_refuted)."
  },
  {
   "property": "C61",
   "status": "proved",
   "theorems": [
    "klap_credentials_hash_restores"
   ],
   "note": "For a non-empty digest, which holds for the real hash functions."
  },
  {
   "property": "C62",
   "status": "partial",
   "theorems": [
    "klap_send_failures_partial",
    "klap_counter_exhausted_refuted",
    "klap_value_error_refuted"
   ],
   "note": "Violated in exactly three cases, proved reachable: the message counter at 2^31-1 (struct.error, and again for every later send until the session expires), a TIMEOUT cookie that is no integer, and a decrypted answer that is not JSON."
  },
  {
   "property": "C63",
   "status": "partial",
   "theorems": [
    "cam_order_partial",
    "cam_live_outcome_partial",
    "cam_new_session_partial",
    "cam_reset_stays_plain_refuted"
   ],
   "note": "Proved for every history whose devices are of one kind: none grants a less secure login, or none grants an encrypted session. For mixed histories it is false (cam_reset_stays_plain_refuted). Hash functions and AES are parameters."
  },
  {
   "property": "C64",
   "status": "partial",
   "theorems": [
    "try_all_attempts",
    "try_all_ways",
    "try_all_fits",
    "try_all_login_refuted",
    "try_all_bulb_refuted"
   ],
   "note": "Everything except the login versions: both share a key, so only login version 2 is ever tried; legacy bulbs over KLAP are only tried as plugs."
  },
  {
   "property": "C65",
   "status": "partial",
   "theorems": [
    "class_and_protocol_partial",
    "class_and_protocol_refuted",
    "try_all_fits"
   ],
   "note": "Exact characterisation of the combinations for which the class fits the protocol; others (a camera without TLS, a plug with AES over TLS, a KLAP hub over TLS) are mismatched."
  },
  {
   "property": "C66",
   "status": "partial",
   "theorems": [
    "discovery_rounds",
    "discovery_all_rounds",
    "called_off_only_if_heard",
    "called_off_refuted"
   ],
   "note": "Refuted for the last clause: the search may be called off with nothing recorded for the target."
  },
  {
   "property": "C67",
   "status": "partial",
   "theorems": [
    "discovered_settings",
    "login_version_chosen",
    "new_reply_has_protocol",
    "discovered_without_protocol_refuted"
   ],
   "note": "Settings and protocol selection proved for every reply; refuted that there always is a protocol (a legacy reply naming a SMART type)."
  },
  {
   "property": "C68",
   "status": "proved",
   "theorems": [
    "http_sessions",
    "http_closed"
   ],
   "note": ""
  },
  {
   "property": "C69",
   "status": "partial",
   "theorems": [
    "start_partial",
    "failed_start_refuted"
   ],
   "note": "Refuted: after a failed first update later updates skip the negotiation, so the device never gets modules."
  },
  {
   "property": "C70",
   "status": "partial",
   "theorems": [
    "device_data_kept",
    "child_data_refuted"
   ],
   "note": "Holds for devices. Refuted for children: each request replaces all earlier replies, so asking for one module makes the data of the others unreadable."
  },
  {
   "property": "C71",
   "status": "partial",
   "theorems": [
    "camera_hub_children_partial",
    "camera_hub_unreachable_refuted"
   ],
   "note": "Refuted: an unreachable SMART child raises UnboundLocalError out of the hub's update."
  },
  {
   "property": "C72",
   "status": "partial",
   "theorems": [
    "smart_brightness",
    "smart_hsv",
    "smart_temperature_partial",
    "smart_unchecked_refuted"
   ],
   "note": "Setters proved exactly; refuted: the brightness given with a temperature, and all fields of a light state, are unchecked."
  },
  {
   "property": "C73",
   "status": "proved",
   "theorems": [
    "dimmer_timing",
    "dimmer_limits"
   ],
   "note": ""
  },
  {
   "property": "C74",
   "status": "proved",
   "theorems": [
    "target_temperature",
    "temperature_offset",
    "thermostat_switch"
   ],
   "note": ""
  },
  {
   "property": "C75",
   "status": "proved",
   "theorems": [
    "vacuum_start",
    "fan_speed_round_trip"
   ],
   "note": ""
  },
  {
   "property": "C76",
   "status": "proved",
   "theorems": [
    "strip_select",
    "strip_reads",
    "strip_off",
    "iot_strip_select"
   ],
   "note": ""
  },
  {
   "property": "C77",
   "status": "proved",
   "theorems": [
    "led_setting",
    "motion_range_choice",
    "motion_settings",
    "motion_ranges"
   ],
   "note": ""
  },
  {
   "property": "C78",
   "status": "partial",
   "theorems": [
    "iot_device_info",
    "smart_device_info",
    "cam_device_info",
    "smart_device_info_refuted"
   ],
   "note": "Holds for families with exactly one dot; any other family makes the info unavailable with ValueError."
  },
  {
   "property": "C79",
   "status": "proved",
   "theorems": [
    "cam_keys_renamed"
   ],
   "note": ""
  },
  {
   "property": "C80",
   "status": "partial",
   "theorems": [
    "cam_answers_exact",
    "cam_answers_complete",
    "cam_answers_succeed",
    "cam_single_raises",
    "cam_requeried_list_refuted",
    "cam_unbatched_refuted"
   ],
   "note": "Holds while the camera answers every method of a batch. The code violates it otherwise: a list method left out of a batch reply is asked again alone and then only its first page is returned (see C08); without batches (size 1) lists are cut to their first page and methods that must be asked for alone are left out."
  },
  {
   "property": "C81",
   "status": "partial",
   "theorems": [
    "cam_get",
    "cam_get_nothing",
    "cam_set_do",
    "cam_plain_raises",
    "cam_named_get",
    "cam_named_set_do",
    "cam_named_as_do",
    "cam_sections_dropped_refuted",
    "cam_empty_reply_refuted"
   ],
   "note": "Refuted: of several sections only the first is sent and returned; an empty reply raises RuntimeError, a reply holding only the code KeyError, and an empty section is an error or a result depending on the key order of the reply."
  },
  {
   "property": "C82",
   "status": "proved",
   "theorems": [
    "camera_switch_reads",
    "camera_switch_round_trip",
    "camera_switch_asks"
   ],
   "note": ""
  },
  {
   "property": "C83",
   "status": "proved",
   "theorems": [
    "camera_power",
    "camera_power_fixed"
   ],
   "note": ""
  },
  {
   "property": "C84",
   "status": "partial",
   "theorems": [
    "siren_settings_partial",
    "siren_plays_partial",
    "siren_round_trip",
    "siren_start_stop",
    "siren_empty_sound_refuted"
   ],
   "note": "Holds for every sound but the empty text, which is accepted although not offered: an empty configuration is sent."
  },
  {
   "property": "C85",
   "status": "partial",
   "theorems": [
    "stream_url_parts",
    "stream_url_given",
    "stream_url_none",
    "stream_url_hash_refuted"
   ],
   "note": "Every URL given is right, and there is one whenever complete credentials are found by the stated order. Refuted: empty configured credentials hide a usable hash, and a hash that decodes to a non-object raises AttributeError. quote_plus is modelled on UTF-8 bytes; base64 and JSON decoding are an oracle."
  },
  {
   "property": "C86",
   "status": "proved",
   "theorems": [
    "pairing_result",
    "pairing_steps",
    "unpairing"
   ],
   "note": "Detected entries are assumed to have an id and a model, as the hub reports them."
  },
  {
   "property": "C87",
   "status": "partial",
   "theorems": [
    "camera_moves",
    "camera_moves_distinct",
    "battery_charging_refuted"
   ],
   "note": "Moves are as stated. Refuted: the charging state is computed from the voltage and always true."
  },
  {
   "property": "C88",
   "status": "proved",
   "theorems": [
    "smart_modules",
    "cam_modules_exact"
   ],
   "note": "A colour temperature range is assumed to be absent or a pair of integers, as devices report it; a malformed one makes the first update raise TypeError."
  },
  {
   "property": "C89",
   "status": "partial",
   "theorems": [
    "features_first",
    "features_complete_partial",
    "features_clash",
    "smart_own_features",
    "features_complete_refuted"
   ],
   "note": "Holds when the first update that reaches the features succeeds; it does exactly when no module fails and no identifier is used twice. Refuted: if setting up the features fails half way, all later updates succeed and the rest never appears. Which identifiers a module defines is given, not modelled."
  },
  {
   "property": "C90",
   "status": "partial",
   "theorems": [
    "feature_lookup",
    "feature_lookups_partial",
    "feature_lookup_refuted"
   ],
   "note": "Right while the features do not change; refuted: a question asked before the features exist is answered with nothing for ever."
  },
  {
   "property": "C91",
   "status": "proved",
   "theorems": [
    "fan_speed",
    "fan_off",
    "fan_level_remembered",
    "fan_sleep"
   ],
   "note": "Quantified over replies, levels and prior device states; the device is any that merges the sent fields into what it reports."
  },
  {
   "property": "C92",
   "status": "proved",
   "theorems": [
    "mop_level",
    "mop_levels",
    "dustbin_mode",
    "dustbin_automatic",
    "speaker_volume_set",
    "vacuum_actions"
   ],
   "note": "Device: any that merges the sent fields into what it reports."
  },
  {
   "property": "C93",
   "status": "partial",
   "theorems": [
    "auto_off_switch",
    "auto_off_minutes",
    "auto_off_moment",
    "led_switch",
    "led_reads",
    "lock_switch",
    "frost_minimum_refuted"
   ],
   "note": "All round trips hold. The frost minimum temperature is refuted: it is looked up in the device info, where a thermostat does not report it, so reading it raises KeyError. How a device reports child protection after set_child_protection is not assumed; only the command is stated."
  },
  {
   "property": "C94",
   "status": "proved",
   "theorems": [
    "overheat_report",
    "overheat_readable",
    "battery_report",
    "warnings",
    "leak_report",
    "cloud_report",
    "cloud_failure"
   ],
   "note": "overheat_readable composes with module selection (C88)."
  },
  {
   "property": "C95",
   "status": "partial",
   "theorems": [
    "leak_time_partial",
    "leak_time_refuted"
   ],
   "note": "Holds for a device with its own clock. Refuted for a child of a hub: hub children never get the Time module, so reading the recorded time raises KeyError. The conversion to a datetime is not modelled."
  },
  {
   "property": "C96",
   "status": "partial",
   "theorems": [
    "smart_clock",
    "smart_clock_zone",
    "clock_set_instant",
    "clock_set_region",
    "clock_set_offset",
    "clock_set_naive",
    "clock_set_name_refuted",
    "clock_set_unnamed_refuted",
    "device_clock"
   ],
   "note": "The time zone database is a parameter, assumed only to be consistent. Refuted for fixed offsets named like a database zone (the device then uses that zone's rules) and for offsets without a name (the device stays in its region); the instant is right in all cases. Fractional timestamps and offsets reported by the device are not modelled."
  },
  {
   "property": "C97",
   "status": "partial",
   "theorems": [
    "cam_clock_known",
    "cam_clock_unknown",
    "cam_clock_no_offset",
    "cam_set_region",
    "cam_set_other",
    "cam_local_time_refuted"
   ],
   "note": "Refuted: the local time sent is that of the computer running the program, so it is wrong unless both have the same offset. The device is assumed to merge what it is sent; the source notes that real ones may ignore the clock."
  },
  {
   "property": "C98",
   "status": "partial",
   "theorems": [
    "ssl_order",
    "ssl_outcome",
    "ssl_errors_partial",
    "ssl_errors_refuted"
   ],
   "note": "Order and outcomes are proved for all histories, given that the HTTP client raises only its own exceptions (C25). Refuted: an error code the library does not know, or a reply without one, makes the send fail with ValueError instead of a library exception. Login parameters are not modelled."
  },
  {
   "property": "C99",
   "status": "proved",
   "theorems": [
    "linkie_request",
    "linkie_reply",
    "linkie_failure"
   ],
   "note": "base64 reading and JSON parsing are parameters; reading is assumed to undo writing."
  },
  {
   "property": "C100",
   "status": "partial",
   "theorems": [
    "smart_preset_read",
    "smart_preset_applied_partial",
    "smart_preset_unknown",
    "smart_unset_refuted",
    "smart_colour_refuted",
    "iot_preset_named",
    "iot_preset_read",
    "iot_preset_applied_partial",
    "iot_preset_unknown",
    "iot_unset_refuted",
    "iot_preset_dark_refuted"
   ],
   "note": "What is sent, and that the preset (or the first one equal to it) is then reported, for every list a device may report. Refuted: choosing \"Not set\" sends full brightness, which selects the usual first preset; a SMART preset that stores a colour is never current on a light without colours; a legacy preset stored with brightness 0 turns the bulb off. No effect is active; for SMART lights the lists of lights without colours contain no colours."
  },
  {
   "property": "C101",
   "status": "proved",
   "theorems": [
    "concurrent_exclusive",
    "concurrent_own_answer",
    "concurrent_answers_genuine",
    "concurrent_uninterrupted",
    "concurrent_lock_released",
    "concurrent_waiter_served",
    "concurrent_cancel",
    "concurrent_result_final"
   ],
   "note": "IotProtocol over XorTransport at await granularity; asyncio.Lock is modelled as granting itself to any waiter when free (a superset of its FIFO behaviour). The device is assumed to send one frame per request, in order."
  },
  {
   "property": "C102",
   "status": "partial",
   "theorems": [
    "one_connection_open",
    "disconnect_partial",
    "disconnect_in_flight_refuted"
   ],
   "note": "Holds when no query is under way. disconnect() does not take the query lock: a query under way notices that its connection is gone, retries over a new one and leaves it open."
  },
  {
   "property": "C103",
   "status": "proved",
   "theorems": [
    "queries_serial",
    "queries_serial_midway",
    "queries_serial_order"
   ],
   "note": "The body of a query is an arbitrary coroutine over an arbitrary shared state, so the sequential models of the retry loops and transports apply unchanged. asyncio.Lock is modelled as granting itself to any waiter when free. Children go through their parent's query (smartprotocol.py:501, smartcamprotocol.py:243)."
  },
  {
   "property": "C104",
   "status": "partial",
   "theorems": [
    "smart_name_kept_partial",
    "smart_empty_name_refuted",
    "iot_name_kept",
    "smart_ssid_shown",
    "smart_scan_partial",
    "smart_scan_refuted",
    "credentials_sent",
    "iot_scan_partial",
    "iot_scan_no_list",
    "iot_scan_refuted"
   ],
   "note": "Holds for non-empty UTF-8 names. Refuted: the empty name is shown as no name; one network in range whose name is not UTF-8 makes the whole scan fail with UnicodeDecodeError; a legacy entry with an unknown field makes it fail with TypeError."
  },
  {
   "property": "C105",
   "status": "partial",
   "theorems": [
    "smart_join_partial",
    "smart_join_refuted",
    "iot_join"
   ],
   "note": "Refuted: on a device that has not been updated, or does not report its time, joining raises KeyError."
  },
  {
   "property": "C106",
   "status": "partial",
   "theorems": [
    "iot_location_shown",
    "smart_location_partial",
    "smart_location_refuted",
    "guarded",
    "rssi_shown",
    "hw_info_shown"
   ],
   "note": "Refuted: a SMART device without a location is shown at latitude 0, longitude 0. A SMART signal strength of 0 is shown as none."
  },
  {
   "property": "C107",
   "status": "partial",
   "theorems": [
    "klap_transparent",
    "klap_at_most_once",
    "klap_recovers_partial",
    "klap_counter_exhausted_refuted"
   ],
   "note": "The device is a specification (KlapPeer_Spec): any application, any session policy that keeps sessions for the life time it grants. Assumed of the cryptographic library: digest and block sizes and that decryption inverts encryption; of a handshake: that the accepted credentials' proofs differ. Does not hold in one case: an old session whose 32-bit numbers are used up does not recover before it expires (klap_counter_exhausted_refuted)."
  },
  {
   "property": "C108",
   "status": "proved",
   "theorems": [
    "aes_transparent",
    "aes_at_most_once",
    "aes_recovers"
   ],
   "note": "The device is a specification (AesPeer_Spec): any application, any session keys and tokens, sessions kept for the life time granted. Assumed of the cryptographic library: block size and that decryption inverts encryption, and that the client opens the key the device wrapped for it."
  },
  {
   "property": "C109",
   "status": "proved",
   "theorems": [
    "cam_transparent",
    "cam_at_most_once",
    "cam_recovers"
   ],
   "note": "The camera is a specification (CamPeer_Spec): any application, nonces, tokens and start numbers, requests refused unless number and tag are right. Assumed of the cryptographic library: block size, 32-byte SHA-256, decryption inverts encryption; for the first and last statement also that in each handshake the digests of the two password hashes differ. Such a camera never offers the unencrypted login."
  },
  {
   "property": "C110",
   "status": "proved",
   "theorems": [
    "whole_klap_smart",
    "whole_klap_iot",
    "whole_aes_smart",
    "whole_cam_camera",
    "whole_klap_smart_once",
    "whole_klap_iot_once",
    "whole_aes_smart_once",
    "whole_cam_camera_once"
   ],
   "note": "The peers are the specified devices of C107-C109; the text of a request is an arbitrary function of its number (the clock) and content."
  },
  {
   "property": "C111",
   "status": "proved",
   "theorems": [
    "ssl_transparent",
    "ssl_at_most_once",
    "ssl_recovers"
   ],
   "note": "The device is a specification (SslPeer_Spec): any application, tokens and clocks, requests refused without a known live token, a login taken whatever token the URL still carries."
  },
  {
   "property": "C112",
   "status": "proved",
   "theorems": [
    "xor_transparent",
    "xor_at_most_once",
    "xor_recovers"
   ],
   "note": "The device is a specification (XorPeer_Spec) that reads the bytes the client writes. Assumed: its answers are shorter than 2^32 bytes."
  },
  {
   "property": "C113",
   "status": "proved",
   "theorems": [
    "linkie_transparent",
    "linkie_at_most_once",
    "linkie_recovers"
   ],
   "note": "The camera is a specification (LinkiePeer_Spec) that reads the form the client posts. Assumed of the base64 library: reading what it writes."
  },
  {
   "property": "C114",
   "status": "proved",
   "theorems": [
    "whole_ssl_smart",
    "whole_xor_iot",
    "whole_linkie_iot",
    "whole_ssl_smart_once",
    "whole_xor_iot_once",
    "whole_linkie_iot_once"
   ],
   "note": "The peers are the specified devices of C111-C113. For the TCP transport and the legacy camera the client may be in any reachable state."
  },
  {
   "property": "C115",
   "status": "proved",
   "theorems": [
    "child_as_called",
    "cam_child_as_called",
    "cam_child_by_name",
    "hub_program",
    "cam_hub_program",
    "whole_klap_hub",
    "whole_aes_hub",
    "whole_cam_hub",
    "model_hub_relays"
   ],
   "note": ""
  },
  {
   "property": "C116",
   "status": "partial",
   "theorems": [
    "child_retry_refuted",
    "child_pages_refuted"
   ],
   "note": "The code does not do so: an error of the child that is retried for a device is raised at once (after one message), and only the first page of a list is returned. Failures of the hub itself are retried (C06, through which every child query goes)."
  },
  {
   "property": "C117",
   "status": "partial",
   "theorems": [
    "stored_hash_logs_in_partial",
    "stored_hash_streams",
    "cam_empty_password_refuted",
    "blank_and_hash_refuted"
   ],
   "note": "Proved for configurations with one source of credentials and, for cameras, with user name and password both given or both empty. The code loses a camera account with an empty password, and confuses blank credentials with a hash given beside them. Assumed: JSON reads what it writes; digests are not empty."
  },
  {
   "property": "C118",
   "status": "proved",
   "theorems": [
    "login_holds_account",
    "credentials_win",
    "bad_hash_refused",
    "linkie_factory_account"
   ],
   "note": "The digests are functions left open. The AES transports' encryption of the request is C108."
  },
  {
   "property": "C119",
   "status": "proved",
   "theorems": [
    "probe_read",
    "probe_made",
    "legacy_probe_read",
    "answer_understood",
    "undecryptable_is_caught",
    "undecryptable_is_found"
   ],
   "note": "RSA, the block cipher and JSON are functions left open with their laws; the CRC is computed and checked against its standard value and the library's fixed probe. undecryptable_is_found assumes that the log message can be written; when that fails the device is lost (see C25)."
  },
  {
   "property": "C120",
   "status": "proved",
   "theorems": [
    "handshake_key_kept",
    "declared_length"
   ],
   "note": "RSA and the DER encodings are functions left open with their laws. The declared length is right for keys of 162 bytes, which the library's own 1024-bit keys have."
  },
  {
   "property": "C121",
   "status": "partial",
   "theorems": [
    "bulb_reads_back",
    "smart_reads_back_partial",
    "effect_brightness_refuted",
    "dimmer_reads_back",
    "dimmer_stale_refuted",
    "plug_reads_back"
   ],
   "note": "Against lights specified to take the fields of a request and keep the rest. A SMART light's brightness reads from the active effect, which set_state does not change; a dimmer switched on with a transition gets the brightness of the last update. A brightness given with a colour or temperature is not zero."
  },
  {
   "property": "C122",
   "status": "partial",
   "theorems": [
    "bulb_restored",
    "smart_restored_partial",
    "dimmer_restored",
    "effect_brightness_refuted"
   ],
   "note": "Missing: SMART lights with an active effect, where the brightness read is the effect's (see effect_brightness_refuted)."
  },
  {
   "property": "C123",
   "status": "partial",
   "theorems": [
    "contradictory_options_refused",
    "command_runs",
    "command_only_as_asked",
    "only_asked_traffic",
    "normal_end_releases",
    "normal_end_no_failure",
    "failed_update_refuted",
    "hash_unused_refuted",
    "alias_ignores_port_refuted",
    "alias_with_type_refuted",
    "half_account_refuted",
    "unknown_name_refuted"
   ],
   "note": "Does not hold in full: a failing first update leaves the device connected, a credentials hash is ignored when the device is discovered, port and timeout are ignored with --alias, --alias with --type connects to no host, `discover` drops half an account, and an unknown name is no error without a command. The callbacks of a broadcast discovery and the output are not modelled; of the discover command only its default, detail."
  },
  {
   "property": "C124",
   "status": "proved",
   "theorems": [
    "printed_options_reconnect"
   ],
   "note": "The printed options do not include the login version; it is the default one for every candidate that can be found."
  },
  {
   "property": "C125",
   "status": "partial",
   "theorems": [
    "found_has_name",
    "named_device_found_partial",
    "failed_discovery_refuted",
    "no_second_chance_refuted",
    "one_attempt_short_refuted"
   ],
   "note": "Does not hold in full: a failing discovery makes the caller wait for ever, a device whose first update fails is not asked again, and one attempt fewer than asked for is made. Answers are handled one after another; names are compared in ASCII."
  },
  {
   "property": "C126",
   "status": "partial",
   "theorems": [
    "preset_modified_partial",
    "modified_preset_saved",
    "preset_refused",
    "preset_temperature_refuted",
    "preset_negative_refuted"
   ],
   "note": "Holds for an index in range without --temperature, down to the index sent by legacy bulbs and SMART lights. Violations: --temperature always ends in AttributeError (LightState has no attribute temperature); a negative index is not refused and pairs the values of one preset with the name of another."
  },
  {
   "property": "C127",
   "status": "partial",
   "theorems": [
    "behavior_read",
    "behavior_written_partial",
    "behavior_shown",
    "behavior_written_refuted",
    "preset_zero_refuted"
   ],
   "note": "Reading is right, and each behaviour is written right, but TurnOnBehaviors is written as soft/hard where the bulb reports soft_on/hard_on, so no request carries a behaviour under the names it is reported under; that the bulb takes the names it reports is an assumption about the device. --preset 0 without --type is not refused."
  },
  {
   "property": "C128",
   "status": "partial",
   "theorems": [
    "rules_read",
    "rule_deleted",
    "rule_unknown",
    "rules_hidden_refuted",
    "schedule_list_refuted"
   ],
   "note": "Violations: one unreadable rule empties the list, and `schedule list` always ends in an error because the else of the for loop always runs."
  },
  {
   "property": "C129",
   "status": "partial",
   "theorems": [
    "feature_set_as_asked",
    "feature_set_done",
    "feature_unknown",
    "unpair_checked",
    "light_command_sends",
    "light_command_obeyed",
    "light_command_refused",
    "light_shown_partial",
    "temperature_shown_refuted"
   ],
   "note": "Violation: the temperature command returns the valid range instead of the present temperature."
  },
  {
   "property": "C130",
   "status": "partial",
   "theorems": [
    "daily_statistics_partial",
    "monthly_statistics",
    "read_later",
    "today_partial",
    "update_works",
    "usage_minutes_partial",
    "daily_race_refuted",
    "today_refuted"
   ],
   "note": "Holds while the clock does not pass a month between the two readings of the clock, or between update and reading. Violations: over New Year the days of a month eleven months ago are asked for; after a month's end today's consumption is that of the same day number of the month of the last update."
  },
  {
   "property": "C131",
   "status": "partial",
   "theorems": [
    "strip_days_partial",
    "strip_months_partial",
    "strip_today_sum",
    "strip_erased",
    "strip_straddle_refuted"
   ],
   "note": "Holds when the period is given. Violation: without a period each socket reads the clock anew, so the sums can mix two months."
  },
  {
   "property": "C132",
   "status": "partial",
   "theorems": [
    "energy_asks_partial",
    "energy_refused",
    "energy_erase_asked",
    "energy_both_refuted"
   ],
   "note": "Violation: --year beside --month, and either beside --erase, is not refused; one of them is ignored."
  },
  {
   "property": "C133",
   "status": "partial",
   "theorems": [
    "sync_instant_partial",
    "sync_elsewhere_refuted",
    "sync_refused",
    "set_as_given",
    "set_refused",
    "declined_sets_nothing",
    "exact_match_asked_refuted",
    "set_reads_back"
   ],
   "note": "Violations: without --timezone a device in a zone with another offset is set wrong by the difference, silently; for legacy devices the question is asked although there is an exact match."
  },
  {
   "property": "C134",
   "status": "partial",
   "theorems": [
    "discovery_end_final",
    "discovery_error_has_cause",
    "discovery_not_cancelled_by_itself",
    "discovery_waits_for_callbacks_partial",
    "discovery_waits_for_callbacks_refuted",
    "discovery_cancelled_partial",
    "discovery_cancelled_refuted",
    "discovery_closes_devices_partial",
    "discovery_closes_devices_refuted",
    "discovery_single_closes_devices_refuted",
    "discovery_lost_refuted",
    "discovery_ends"
   ],
   "note": "Proved for all interleavings: the end, the closed socket, the stable findings, that an exception has a cause, that callbacks started before the sending ended are waited for, that a cancellation is not swallowed while the target has not answered, and that devices are closed after a library error or cancellation if nothing disturbs the closing. False of the code, with witnesses: a callback started while others are waited for is left running; a cancellation at about the time the target answers is lost; devices stay open after other errors of a callback, after discover_single, or if another device answers during the closing; a lost socket shows as a cancellation."
  },
  {
   "property": "C135",
   "status": "partial",
   "theorems": [
    "family_children",
    "family_children_kept",
    "family_children_asked",
    "family_no_list",
    "family_children_harmless",
    "family_succeeds_partial",
    "family_list_fresh",
    "family_components_refuted"
   ],
   "note": "Holds whenever both lists are answered. Refuted: an error reply to the question for the components makes update raise a TypeError, also for the next half minute in which the lists are not asked for again. Making a child is a parameter (SMART hubs and strips; the camera hub's choice of children is C29)."
  },
  {
   "property": "C136",
   "status": "partial",
   "theorems": [
    "overlap_setter_seen_partial",
    "overlap_fallback_refuted",
    "overlap_always_asked",
    "overlap_one_by_one",
    "overlap_sequential",
    "overlap_first_refuted",
    "hub_child_logs_refuted"
   ],
   "note": "Proved for every interleaving of updates and marked setters in which no query fails, and for modules without an interval in every history. The code violates the rest: when the common query of an update fails and methods are asked one by one, a setter in between is forgotten until the interval of its module has passed; an update called while the first is still waiting fails; and a hub's child shows its event log up to a day late. overlap_sequential ties the interleaved model to the sequential one of C27."
  },
  {
   "property": "C137",
   "status": "partial",
   "theorems": [
    "json_document",
    "json_output",
    "json_same_document",
    "plain_output",
    "json_failure_refuted",
    "json_direct_refuted",
    "abort_status_refuted"
   ],
   "note": "Proved for every command that keeps to echo. The code violates the rest: with --json a failure prints nothing, so the reason is lost; the commands for logs, schedules and vacuums print plain text in front of the document or instead of it; and a run cancelled at a prompt ends with status 0. The text form of JSON and standard error are not modelled."
  },
  {
   "property": "C138",
   "status": "partial",
   "theorems": [
    "legacy_update_current_partial",
    "bulb_requests",
    "legacy_bulb_current",
    "legacy_one_request",
    "plug_one_request",
    "legacy_first_update",
    "legacy_update_returns",
    "legacy_failed_module_refuted",
    "legacy_failed_update_silent"
   ],
   "note": "The full property holds of every module that has not answered with an error: first-come-first-served lock and round robin make an update that has read old answers return before any update begun after the change. It is stated for updates whose number of requests varies by at most one, which is proved of bulbs (one or two) and plugs (one). A module that once answered with an error is left out of all later updates, so the object shows it as it was for ever: refuted there."
  },
  {
   "property": "C139",
   "status": "partial",
   "theorems": [
    "new_legacy_asks",
    "full_discovery_shows",
    "full_discovery_exists",
    "updated_shows",
    "short_discovery_shows",
    "fresh_switch",
    "smart_fresh_partial",
    "discovered_strip_refuted",
    "discovered_time_refuted",
    "discovered_camera_refuted",
    "smart_fresh_refuted",
    "fresh_camera_refuted"
   ],
   "note": "Holds of legacy objects that were only created, of those found by the short answer, and of the system information properties of those found by the full answer. The code violates the rest: a discovered strip is shown off and its switch commands send nothing, the time of a discovered device fails with a TypeError, the nested answer of a legacy camera is not looked into, and SMART objects and cameras show made-up values (off, the text None, the computer's clock, on) and cameras drop the switch command."
  },
  {
   "property": "C140",
   "status": "partial",
   "theorems": [
    "requests_to_configured",
    "wanted_port_unique",
    "host_shown",
    "set_host_after_reset",
    "set_host_refuted",
    "set_host_stale_refuted",
    "ipv6_host_refuted"
   ],
   "note": "Holds of every history without a change of the host, for hosts that are names or IPv4 addresses. The code violates the rest: four transports build their URL once, so a new host is shown but never used; the two others use it only after a reset; and an IPv6 address is put into URLs without brackets, so no request reaches it. How yarl reads a URL is the reader in Where_Spec.v."
  },
  {
   "property": "C141",
   "status": "partial",
   "theorems": [
    "choice_text",
    "foreign_enum_text",
    "unreadable_text",
    "number_text",
    "listing_complete",
    "text_fails_partial",
    "foreign_choice_refuted"
   ],
   "note": "Holds of marked choices (with choices that have no star in them), numbers, unreadable values and the listing. The code violates two parts: a text that is not among the choices, as the name of a custom light effect, is neither shown nor reported, so any two such values look the same; and the text fails if the unit or the limits cannot be read (the listing catches that). How Python prints single values and rounds is a parameter."
  },
  {
   "property": "C142",
   "status": "partial",
   "theorems": [
    "series_partial",
    "series_own",
    "whole_puts_back",
    "auto_off_row_refuted",
    "mop_row_refuted",
    "other_rows_refuted",
    "led_others_refuted"
   ],
   "note": "The code violates it: most setters send back the rest of their record as the last update showed it, so two settings in a row undo each other (auto-off stays off after being switched on when its delay is set next; the mop's level takes back the fan speed), and changes by others are taken back. Proved for every history in which no call sends back a record that changed since an update showed it, and for all settings that are sent alone in every history; whole_puts_back says exactly what the others do. The device keeps what it is sent field by field; refusals by the device are not modelled."
  },
  {
   "property": "C143",
   "status": "partial",
   "theorems": [
    "status_follows",
    "download_only_found",
    "firmware_honest_partial",
    "firmware_installed_refuted",
    "firmware_odd_date_refuted"
   ],
   "note": "The status follows the last check in every history, downloads are started exactly when an update is offered, and what is offered is true of the device as long as nothing is installed or released after a check the device answers truthfully. The code violates the rest: after an installation the kept answer is not dropped, so the device that runs the newest version is still offered an update and is told to download again; and an answer with a release date that cannot be read is thrown away as a whole. date.fromisoformat and int() of texts are parameters."
  },
  {
   "property": "C144",
   "status": "partial",
   "theorems": [
    "has_feature_partial",
    "feature_found",
    "has_feature_refuses",
    "by_object_same",
    "old_names_same",
    "fan_speed_mark_refuted",
    "asked_early_refuted"
   ],
   "note": "Holds of every marked attribute but one, in every history in which the question was not already asked before the features were made. The code violates the rest: the answer is cached, so a light asked after a first update that broke off says for ever that it has no colours; and the mark of the vacuum's set_fan_speed_preset is the class instead of an instance, so asking about it is an error although the feature is there."
  },
  {
   "property": "C145",
   "status": "partial",
   "theorems": [
    "old_name_same",
    "old_shape_same",
    "old_questions",
    "old_type_names",
    "old_name_missing",
    "other_names_untouched",
    "old_energy_names_partial",
    "package_names",
    "old_save_preset_refuted",
    "old_light_state_refuted",
    "old_hasattr_refuted",
    "old_statistics_refuted"
   ],
   "note": "Holds except: SMART lights have no save_preset under the old name although their module has one; the listed _deprecated_set_light_state stands for a name no light defines and is missing everywhere; hasattr raises for an old name whose module is there without the ability; a single legacy meter refuses kwh for get_daystat and get_monthstat, because its base class defines these names."
  },
  {
   "property": "C146",
   "status": "partial",
   "theorems": [
    "session_is_history",
    "program_over_klap",
    "program_over_aes",
    "program_over_https",
    "program_over_camera",
    "update_shows_device",
    "first_update_shows_device",
    "module_presents_device",
    "update_over_klap_shows_device",
    "first_update_over_klap_shows_device",
    "update_over_aes_shows_device",
    "first_update_over_aes_shows_device",
    "update_over_https_shows_device",
    "first_update_over_https_shows_device",
    "error_code_kept_refuted"
   ],
   "note": "Holds except that the code of an error is lost when a method is asked for alone: the object then has the general code -100001 instead of the device's. The parameters of a method are taken to be the same for all modules that ask for it; children are not part of this claim (C29, C58)."
  },
  {
   "property": "C147",
   "status": "proved",
   "theorems": [
    "legacy_program_over_tcp",
    "legacy_program_over_klap",
    "legacy_program_over_linkie",
    "legacy_update_shows_device",
    "legacy_first_update_shows_device",
    "legacy_first_update_over_tcp_shows_device",
    "legacy_update_over_tcp_shows_device",
    "legacy_command_over_tcp"
   ],
   "note": "The object's update and commands are programs over IotProtocol.query; every program is carried from the transports (C110, C112, C114) to a direct call of the device. `refreshed` in WholeIot_Spec says what an update leaves; `tells` limits the device's obligation to questions about the modules in use, so it is compatible with answers below 2^32 bytes. Post-update hooks and features are in other claims. Modules failing once and never being asked again is part of the statement here and a refuted expectation in C138."
  },
  {
   "property": "C148",
   "status": "proved",
   "theorems": [
    "family_program_is_update",
    "hub_program_over_klap",
    "hub_program_over_aes",
    "hub_update_shows",
    "hub_first_update_shows",
    "hub_update_over_klap_shows",
    "hub_first_update_over_klap_shows",
    "hub_update_over_aes_shows",
    "hub_first_update_over_aes_shows"
   ],
   "note": "The hub must relay child requests and answer truthfully, and a child's answers may not depend on when it is asked. What a child answers to a paged list is its first page only (C116). The update stops at the first child that fails, as in C135. Example: hub_first_update_over_klap_ex, all conditions at once."
  },
  {
   "property": "C149",
   "status": "partial",
   "theorems": [
    "power_told",
    "power_obeyed",
    "power_accepted",
    "power_child",
    "power_no_child",
    "toggle_twice",
    "toggle_mixed_refuted",
    "camera_off_refuted",
    "transition_ignored_refuted",
    "dimmer_zero_refuted",
    "silent_toggle_refuted"
   ],
   "note": "Proved for devices that can be as wanted and, for dimmers with a transition, report a brightness from 1 to 100. Refuted: off for a camera without privacy mask succeeds and does nothing; --transition is ignored except by bulbs and dimmers; a dimmer reporting brightness 0 is turned off by on with a transition; a SMART device that does not report device_on (the strip P300) is always toggled on; toggling a strip with mixed sockets twice does not restore it. Children of SMART strips are SMART devices of their own here; how their messages are wrapped is C47 and C115."
  },
  {
   "property": "C150",
   "status": "partial",
   "theorems": [
    "module_service",
    "module_command",
    "module_commands",
    "rules_deleted",
    "cloud_commands_refuted",
    "cloud_commands_send_nothing"
   ],
   "note": "Holds for all modules but the cloud module: its connect, disconnect, set_server and get_available_firmwares only build and return the request, the right one, and send nothing. The device is specified in Service_Spec.takes."
  },
  {
   "property": "C151",
   "status": "partial",
   "theorems": [
    "setting_takes_partial",
    "setting_refuses",
    "setting_shows",
    "setting_restore_partial",
    "setting_restore_refuted",
    "alarm_level_refuted",
    "fraction_refuted"
   ],
   "note": "Holds for whole numbers and names in every setting but the level of a SMART alarm, and for fractions where they make sense. Refuted: the fade and gentle times of a dimmer are shown as durations and the motion range as an enum member, which the same features refuse; the level of a SMART alarm is sent as a number instead of the name; a fractional siren volume makes the setting unreadable, a fractional motion threshold is cut, a fractional dimmer time fails with a TypeError. Lights have their own claims (C39-C43, C72, C76, C100, C121, C122)."
  },
  {
   "property": "C152",
   "status": "partial",
   "theorems": [
    "tool_rename_partial",
    "api_rename_device_partial",
    "api_rename_child_refuted",
    "rename_failed",
    "reboot_addressed",
    "reset_addressed_partial",
    "reset_camera_child_refuted",
    "raw_passes",
    "raw_fails",
    "raw_child",
    "tool_confirms"
   ],
   "note": "Which child an option selects is C59. Empty names of SMART objects are shown as no name (C104). Violations proved: after renaming a child through the API and updating the child, the old name is shown (the child's information comes only with the parent's update; the tool updates the parent instead); a child of a camera hub can never be reset to factory settings, the library refuses the request itself."
  },
  {
   "property": "C153",
   "status": "partial",
   "theorems": [
    "listing_shows",
    "listing_line_there",
    "detail_shows",
    "detail_counts",
    "discover_error_has_cause",
    "listing_not_stopped",
    "discover_can_end",
    "detail_stopped_refuted",
    "raw_redacts",
    "raw_keeps"
   ],
   "note": "list, the blocks and the numbers hold in full (the numbers when nothing answers after the sending). The code violates the rest: detail is stopped by the first device whose update fails otherwise than by refusing the login, and devices that could be read are then not shown. Of identifiers, --redact hides the first nine characters and of addresses the last half. The padding of columns and the text of the parts of the state are not modelled."
  },
  {
   "property": "C154",
   "status": "partial",
   "theorems": [
    "cam_update_shows_camera",
    "cam_first_update_shows_camera",
    "cam_module_presents",
    "cam_update_over_network",
    "cam_first_update_over_network",
    "cam_update_library_error_refuted"
   ],
   "note": "The object's update composed with the camera protocol, the encrypted camera transport and a model of a camera. Refuted: that a failing update always fails with an error of the library (a component list answered with an error code gives a TypeError)."
  },
  {
   "property": "C155",
   "status": "partial",
   "theorems": [
    "written_publishable",
    "files_publishable",
    "files_with_children_publishable_partial",
    "same_model_child_refuted",
    "legacy_file_publishable"
   ],
   "note": "Everything written by the rules of the three tables is publishable, and so are all files, except for children of the same model as the device (the sockets of a strip): what they answer is written unredacted into the device's file (refuted with a strip). A text in which SCRUBBED occurs is taken as already scrubbed."
  },
  {
   "property": "C156",
   "status": "partial",
   "theorems": [
    "child_ids_shown",
    "child_names_differ",
    "child_files_shown",
    "file_keeps_answers",
    "silent_child_no_file",
    "legacy_file_keeps_answers",
    "legacy_fallback_refuted",
    "all_answers_written_partial",
    "batch_size_does_not_matter",
    "camera_answers_written",
    "legacy_file_has_all",
    "camera_child_answers_refuted",
    "dev_id_children_refuted",
    "silent_child_refuted"
   ],
   "note": "Holds for questions with different names. Refuted: of the questions by get to a child camera only the last is kept; a hub whose list has dev_id gives KeyError; a listed child that answers nothing gives KeyError and no file at all; the fallback for legacy devices that answer one question at a time always fails."
  },
  {
   "property": "C157",
   "status": "partial",
   "theorems": [
    "camhub_update_shows",
    "camhub_first_update_shows",
    "camhub_update_over_network",
    "camhub_first_update_over_network",
    "camhub_offline_child_refuted"
   ],
   "note": "The update of the hub and its children composed with the camera protocol, the wrapper for children, the encrypted transport and a model of a camera hub. The code violates the last sentence: when a newly listed child that is no camera answers its first question with an error, the error is logged and an unbound variable is used next, so the whole update fails with an UnboundLocalError and no child is shown (camhub_offline_child_refuted)."
  },
  {
   "property": "C158",
   "status": "partial",
   "theorems": [
    "decoder_decodes_partial",
    "decoder_recovers_nothing_refuted",
    "decoder_negative_refuted",
    "decoder_other_credentials_partial"
   ],
   "note": "Proved for captures in which every query of the client, those of handshakes too, has a number that is not negative. Refuted as it stands: the tool asks every request for its number, handshakes have none, so it ends with an exception at the first handshake of every capture and recovers nothing; a negative number, which half of all sessions start with, ends it as well."
  },
  {
   "property": "C159",
   "status": "partial",
   "theorems": [
    "legacy_decoder_shows_partial",
    "legacy_decoder_datagrams_refuted",
    "legacy_decoder_stopped_refuted"
   ],
   "note": "Proved for messages in one segment whose errors have a message. Refuted: datagrams are never shown (a packet is compared with a number); an error without err_msg ends the tool before its statistics. Messages that are split into segments are not covered."
  },
  {
   "property": "C160",
   "status": "partial",
   "theorems": [
    "readings_show_partial",
    "info_readings_show",
    "readings_refused",
    "night_mode_shown_refuted",
    "frost_minimum_shown_refuted",
    "readings_after_update_partial"
   ],
   "note": "Holds for all readings but two, which the code gets wrong: the night mode of the LED is looked up one level too high, so reading it always fails, and the minimum temperature of the frost protection is looked up in the device information because it is never asked for. Divisions by 1000 are exact, time spans are numbers of minutes."
  },
  {
   "property": "C161",
   "status": "partial",
   "theorems": [
    "camera_readings_show_partial",
    "camera_basic_readings_show_partial",
    "camera_readings_refused",
    "hub_camera_signal_refuted",
    "camera_charging_refuted",
    "camera_readings_after_update_partial"
   ],
   "note": "Holds for all readings except two, where the code is refuted: the signal of a camera that is a child of a hub is never shown although the camera reports it (hub_camera_signal_refuted), and whether the battery is charging is read from the voltage (camera_charging_refuted). A volume that is a fraction is excluded (int of a float is not modelled)."
  },
  {
   "property": "C162",
   "status": "partial",
   "theorems": [
    "legacy_readings_show",
    "legacy_readings_after_update",
    "legacy_readings_before_update",
    "legacy_refused_reading_refuted",
    "pir_state_is_shown"
   ],
   "note": "The code violates the last sentence: a command the device refused (an error in place of the reply) makes the reading fail with KeyError (cloud: the error of the dataclass parser), and the code of the device is lost (legacy_refused_reading_refuted). All else is proved without hypotheses on the replies. int() of a text or a fraction is not modelled (counts as not reported)."
  },
  {
   "property": "C163",
   "status": "partial",
   "theorems": [
    "features_distinct_partial",
    "features_named_twice_refuted",
    "features_show_partial",
    "own_features_show_partial",
    "camera_features_distinct",
    "camera_features_show"
   ],
   "note": "Cameras hold in full. For SMART devices the code violates 'whatever combination': three pairs of components give one id twice (button_and_led with child_protection; battery_detect with clean and a reported percentage; temp_control with device_on), and the first update then fails with an error of the library (features_named_twice_refuted); for all other combinations the whole set is proved. Features whose value is a clock, a list of choices, an action or a light state are in the set, what they show is not stated here."
  },
  {
   "property": "C164",
   "status": "partial",
   "theorems": [
    "legacy_features_distinct_partial",
    "legacy_features_show",
    "legacy_own_features_show",
    "meter_features_show",
    "legacy_unsupported_meter_refuted"
   ],
   "note": "Proved: for a device that told what its kind tells, the features are exactly those called for, with distinct ids, and the readings, the relay, the signal and the quantities of the meter are what the device last replied. Refuted: a device that refuses its meter service is not offered without the meter; the hook of the meter runs although it is refused and the update fails with KeyError. The hooks of Time, Light and LightPreset are taken to succeed; values of on_since, light features and energy statistics are in other claims."
  },
  {
   "property": "C165",
   "status": "partial",
   "theorems": [
    "smart_called_partial",
    "smart_called_before",
    "smart_called_after_failure_refuted",
    "smart_called_first_refused_refuted",
    "child_called_partial",
    "child_called_refuted",
    "legacy_called"
   ],
   "note": "Proved for legacy devices and all histories, and for SMART devices before the first and after every successful update. Refuted: an update that a SMART device refuses or does not answer leaves an error code in the place of its information, and model and repr raise TypeError until an update succeeds, for ever if it was the first; a child that has not answered itself is of the model \"None\". The modules and children are taken to be made without an error, cameras are not in this claim."
  },
  {
   "property": "C166",
   "status": "partial",
   "theorems": [
    "camera_called_partial",
    "camera_called_before",
    "camera_called_after_failure_refuted",
    "camera_on_hub_called_partial",
    "camera_on_hub_called_refuted"
   ],
   "note": "Holds after an update that succeeded, and before the first answer. Refuted: after a later update that failed, the model and the text of the object raise TypeError until the next success; a camera on a hub that has not been asked yet is called 'None' although the hub told its model."
  },
  {
   "property": "C167",
   "status": "partial",
   "theorems": [
    "camera_says_why_partial",
    "camera_other_password",
    "camera_refuses_proof",
    "camera_blocked_unnamed_refuted",
    "camera_empty_reply_refuted"
   ],
   "note": "Refuted in two cases: with no user name configured a blocked camera is reported as missing credentials, and an empty reply to the greeting ends in an UnboundLocalError instead of an exception of the library. Replies that ask for the less secure login are left to C17 and C63."
  },
  {
   "property": "C168",
   "status": "partial",
   "theorems": [
    "on_since_moment_partial",
    "on_since_keeps",
    "on_since_other_zone",
    "on_since_off",
    "on_since_forward_refuted",
    "auto_off_moment_partial",
    "summer_time_refuted",
    "winter_time_refuted"
   ],
   "note": "The moments are right exactly when the zone's clocks are not changed in between and the moment does not lie in an hour shown twice (an equivalence); always for fixed offsets. Otherwise the code violates the property: adding to a date with a zone moves the wall clock, so the moment is off by the change, and a device that is on when clocks go forward reports a new moment. The time zone database is a parameter, assumed only to be consistent; fractions of seconds in the time on are not modelled."
  }
 ]
}