{
 "claims": [
  {
   "property": "C01",
   "status": "proved",
   "theorems": [
    "C01_from_int",
    "C01_to_int"
   ],
   "note": ""
  },
  {
   "property": "C02",
   "status": "proved",
   "theorems": [
    "C02_from_string",
    "C02_hex_round_trip",
    "C02_hex_from_string",
    "C02_message_round_trip",
    "C02_hexstring",
    "C02_hex_any"
   ],
   "note": ""
  },
  {
   "property": "C03",
   "status": "proved",
   "theorems": [
    "C03_to_bytes_layout"
   ],
   "note": ""
  },
  {
   "property": "C04",
   "status": "proved",
   "theorems": [
    "C04_decode_encode",
    "C04_decode_encode_in_range"
   ],
   "note": ""
  },
  {
   "property": "C05",
   "status": "proved",
   "theorems": [
    "C05_parser_accepts_frames"
   ],
   "note": ""
  },
  {
   "property": "C06",
   "status": "proved",
   "theorems": [
    "C06_copy_received"
   ],
   "note": ""
  },
  {
   "property": "C07",
   "status": "partial",
   "theorems": [
    "C07_malformed_refuted",
    "C07_malformed_partial",
    "C07_truncated_never_accepted"
   ],
   "note": "The full statement is false of the code: C07_malformed_refuted is a frame cut after the header that raises IndexError. C07_malformed_partial proves the exact boundary: every non-frame raises IndexError if index_cut, ParserError otherwise, and C07_truncated_never_accepted that no cut frame is accepted. Missing: ParserError for the index_cut inputs (needs a code change)."
  },
  {
   "property": "C08",
   "status": "partial",
   "theorems": [
    "C08_reparse_refuted",
    "C08_reparse_partial"
   ],
   "note": "The full statement is false of the code: C08_reparse_refuted shows stale property lists after re-parsing into a used Message. C08_reparse_partial proves it for header fields, for the lists the ESV carries and for message objects without properties. Missing: lists the ESV does not carry."
  },
  {
   "property": "C09",
   "status": "proved",
   "theorems": [
    "C09_message_equality",
    "C09_message_equivalence",
    "C09_unencodable"
   ],
   "note": ""
  },
  {
   "property": "C10",
   "status": "proved",
   "theorems": [
    "C10_esv_classification"
   ],
   "note": ""
  },
  {
   "property": "C11",
   "status": "proved",
   "theorems": [
    "C11_set_code_tuple",
    "C11_int_vs_tuple",
    "C11_is_code"
   ],
   "note": ""
  },
  {
   "property": "C12",
   "status": "partial",
   "theorems": [
    "C12_setters_refuted",
    "C12_setters_partial"
   ],
   "note": "The full statement is false of the code (C12_setters_refuted): the setters OR the new bits into the code. C12_setters_partial gives the exact result for every code and byte (Z.lor old new, the other components unchanged), and that the assignment is right exactly when the old bits are included in the new ones. Missing: replacement of nonzero components (needs a code change)."
  },
  {
   "property": "C13",
   "status": "partial",
   "theorems": [
    "C13_object_argument_refuted",
    "C13_set_code_partial"
   ],
   "note": "The full statement is false of the code (C13_object_argument_refuted): set_code(Object) returns False, so get_object(Object) is None. C13_set_code_partial proves every other argument kind. Missing: the Object kind."
  },
  {
   "property": "C14",
   "status": "proved",
   "theorems": [
    "C14_results",
    "C14_copy",
    "C14_table_is_map"
   ],
   "note": ""
  },
  {
   "property": "C15",
   "status": "partial",
   "theorems": [
    "C15_exact",
    "C15_maps_refuted",
    "C15_maps_partial"
   ],
   "note": "False of the code for maps of 16 or more codes (C15_maps_refuted). C15_maps_partial proves it for every sequence of add_property with valid codes (0x80-0xFF) when the described set has at most 15 codes, for every set enumeration order. Missing: larger maps (see C16). C15_exact gives the bytes of every map of up to 15 codes."
  },
  {
   "property": "C16",
   "status": "partial",
   "theorems": [
    "C16_exact",
    "C16_large_maps_refuted",
    "C16_large_maps_partial"
   ],
   "note": "False of the code (C16_large_maps_refuted). C16_large_maps_partial proves exactly when a large map reads back right: 16 codes, all below 0xC0. Missing: everything else (needs a code change). C16_exact gives every bit of every larger map, and the list that reading it back yields."
  },
  {
   "property": "C17",
   "status": "partial",
   "theorems": [
    "C17_exact",
    "C17_format1",
    "C17_not_a_map",
    "C17_format2_refuted",
    "C17_format2_partial"
   ],
   "note": "False of the code for format 2 (C17_format2_refuted). Format 1 and the rejection of data without the shape of a map are proved; C17_format2_partial gives the exact decoding of every standard format-2 map (codes below 0xC0, then zeros) and correctness when all codes are below 0xC0. C17_exact is the decoding of every other format-2 map of the right length. Missing: the specification's meaning of codes from 0xC0 and of a wrong count, which the code does not have."
  },
  {
   "property": "C18",
   "status": "proved",
   "theorems": [
    "C18_correlation"
   ],
   "note": ""
  },
  {
   "property": "C19",
   "status": "proved",
   "theorems": [
    "C19_mirrors"
   ],
   "note": ""
  },
  {
   "property": "C20",
   "status": "proved",
   "theorems": [
    "C20_builtin_read",
    "C20_any_handler",
    "C20_quiet_handler"
   ],
   "note": ""
  },
  {
   "property": "C21",
   "status": "proved",
   "theorems": [
    "C21_builtin_write",
    "C21_any_handler"
   ],
   "note": ""
  },
  {
   "property": "C22",
   "status": "partial",
   "theorems": [
    "C22_write_read_refuted",
    "C22_write_read_partial"
   ],
   "note": "False of the code (C22_write_read_refuted): an unknown property in the read part raises AttributeError. C22_write_read_partial gives the exact outcome for every write-read request under the built-in handlers. Missing: an error response for unknown read properties (needs a code change)."
  },
  {
   "property": "C23",
   "status": "partial",
   "theorems": [
    "C23_codes_refuted",
    "C23_codes_partial",
    "C23_codes_any_handler_partial"
   ],
   "note": "False of the code (C23_codes_refuted): a refused 0x61 is answered 0x50 instead of 0x51. C23_codes_partial proves all other codes for the built-in handlers, C23_codes_any_handler_partial for every user handler. Missing: 0x51."
  },
  {
   "property": "C24",
   "status": "partial",
   "theorems": [
    "C24_notification_request_refuted",
    "C24_notification_request_partial"
   ],
   "note": "False of the code (C24_notification_request_refuted): a notification request with properties always gets 0x53. C24_notification_request_partial gives the exact outcome for every request and handler. Missing: serving the request."
  },
  {
   "property": "C25",
   "status": "partial",
   "theorems": [
    "C25_acknowledge_refuted",
    "C25_acknowledge_partial"
   ],
   "note": "False of the code (C25_acknowledge_refuted): 0x74 with properties is never acknowledged. C25_acknowledge_partial gives the exact outcome. Missing: the acknowledgement."
  },
  {
   "property": "C26",
   "status": "proved",
   "theorems": [
    "C26_no_answer"
   ],
   "note": ""
  },
  {
   "property": "C27",
   "status": "proved",
   "theorems": [
    "C27_write_prohibited",
    "C27_attributes_kept",
    "C27_read_prohibited"
   ],
   "note": ""
  },
  {
   "property": "C28",
   "status": "proved",
   "theorems": [
    "C28_no_change",
    "C28_refuses",
    "C28_built"
   ],
   "note": "Proved for every object with the read-only handler and, in C28_built, for the object NodeProfileReadOnly() builds: no message sequence changes anything; 0x60/0x61 get 0x50; 0x6E with writes gets 0x5E whenever it is answered (an unknown read property raises, see C22)."
  },
  {
   "property": "C29",
   "status": "proved",
   "theorems": [
    "C29_object_table",
    "C29_results"
   ],
   "note": ""
  },
  {
   "property": "C30",
   "status": "proved",
   "theorems": [
    "C30_addressed",
    "C30_isolation"
   ],
   "note": ""
  },
  {
   "property": "C31",
   "status": "proved",
   "theorems": [
    "C31_destinations",
    "C31_answered"
   ],
   "note": ""
  },
  {
   "property": "C32",
   "status": "partial",
   "theorems": [
    "C32_exact",
    "C32_tid_partial",
    "C32_tid_refuted"
   ],
   "note": "False of the code for TID 0 (C32_tid_refuted). C32_tid_partial proves it for every other request datagram. Missing: TID 0. C32_exact: a request with TID 0 is answered with the next TID of the node, never with 0."
  },
  {
   "property": "C33",
   "status": "partial",
   "theorems": [
    "C33_self_ignored_refuted",
    "C33_option_no_effect_refuted"
   ],
   "note": "False of the code: C33_self_ignored_refuted is a node that answers itself while the option is enabled, C33_option_no_effect_refuted proves that the option changes nothing for any node and message. Nothing of the claim holds, so there is no partial theorem."
  },
  {
   "property": "C34",
   "status": "proved",
   "theorems": [
    "C34_options",
    "C34_initial"
   ],
   "note": ""
  },
  {
   "property": "C35",
   "status": "partial",
   "theorems": [
    "C35_instance_list_partial",
    "C35_instance_list_refuted",
    "C35_profile_replaced_refuted"
   ],
   "note": "False of the code in two ways: with 256 devices the one-byte count wraps (C35_instance_list_refuted), and adding an object with the profile's own code detaches the profile (C35_profile_replaced_refuted). C35_instance_list_partial proves it for every sequence of add_object calls without code 0x0EF001, D5/D6 for up to 255 devices, D3 always. Missing: more than 255 devices."
  },
  {
   "property": "C36",
   "status": "partial",
   "theorems": [
    "C36_class_list_partial",
    "C36_class_list_refuted",
    "C36_class_count_refuted",
    "C36_exact"
   ],
   "note": "False of the code (C36_class_list_refuted: the D7 count is always the number of all objects; C36_class_count_refuted: D4 too). C36_class_list_partial proves the listed classes for every sequence, and D4 when no two objects share a class. Missing: the counts. C36_exact gives D4, D5, D6 and D7 exactly for every life of a node (any number of objects)."
  },
  {
   "property": "C37",
   "status": "partial",
   "theorems": [
    "C37_discoverable_partial",
    "C37_discoverable_refuted"
   ],
   "note": "C37_discoverable_partial proves it for every node with up to 84 devices, after any history of received messages; C37_discoverable_refuted shows that with 85 or more nothing is answered. Missing: 85 or more."
  },
  {
   "property": "C38",
   "status": "proved",
   "theorems": [
    "C38_tids",
    "C38_nonzero_unconsumed",
    "C38_initial"
   ],
   "note": ""
  },
  {
   "property": "C39",
   "status": "partial",
   "theorems": [
    "C39_duplicate_refuted",
    "C39_range_refuted",
    "C39_range_partial",
    "C39_serial_partial",
    "C39_sequential"
   ],
   "note": "False of the code: two threads get the same TID (C39_duplicate_refuted, from every counter value), and TIDs exceed any bound (C39_range_refuted). C39_serial_partial proves the claim for calls that do not overlap, C39_range_partial the lower bound always and the upper bound until the first wrap-around; C39_sequential ties the small steps to the sequential model. Missing: overlapping calls (needs a code change)."
  },
  {
   "property": "C40",
   "status": "partial",
   "theorems": [
    "C40_outcome_partial",
    "C40_delivery_partial",
    "C40_malformed_refuted",
    "C40_raising_observer_refuted"
   ],
   "note": "False of the code: a datagram that does not begin with a frame ends the receiving thread and everything later is lost (C40_malformed_refuted, for every such datagram); so does an observer that raises (C40_raising_observer_refuted). C40_outcome_partial gives what user observers hear of every sequence of datagrams, exactly, for a LocalNode with the built-in handlers and observers that do not raise; C40_delivery_partial is the positive case. Missing: delivery after a malformed datagram (needs a code change)."
  },
  {
   "property": "C41",
   "status": "partial",
   "theorems": [
    "C41_intact_partial",
    "C41_intact_refuted"
   ],
   "note": "False for frames of more than 1024 bytes, each of which is lost and ends the thread (C41_intact_refuted, for all of them). C41_intact_partial proves it for every encodable message of up to 1024 bytes. Missing: longer frames."
  },
  {
   "property": "C42",
   "status": "partial",
   "theorems": [
    "C42_object",
    "C42_servers",
    "C42_observers_partial",
    "C42_none_refuted"
   ],
   "note": "C42_observers_partial proves registration and notification for every sequence of observers (that do not raise). False of the code: add_observer(None) is accepted (C42_none_refuted). Missing: refusal of None."
  },
  {
   "property": "C43",
   "status": "partial",
   "theorems": [
    "C43_exact",
    "C43_observer_partial",
    "C43_observer_refuted"
   ],
   "note": "False for observers added before a start: every start drops them (C43_observer_refuted, for every state and start). C43_observer_partial proves that observers added after a start are registered once at every server; with C40_delivery_partial they then get every message. Missing: observers added before a start. C43_exact: after any sequence of registrations, starts (also failing ones) and stops exactly the observers added after the last start are registered."
  },
  {
   "property": "C44",
   "status": "partial",
   "theorems": [
    "C44_start",
    "C44_stop",
    "C44_failed_start_partial",
    "C44_failed_start_refuted",
    "C44_raised",
    "C44_starts"
   ],
   "note": "start, stop and idempotence are proved for every operating system behaviour (C44_start, C44_stop). A start that returns False leaves no server (C44_failed_start_partial); one that raises does (C44_failed_start_refuted). Missing: cleanup when bind raises. C44_raised says exactly what a start that raises leaves, C44_starts when start returns True."
  },
  {
   "property": "C45",
   "status": "partial",
   "theorems": [
    "C45_instance_list",
    "C45_parse_partial",
    "C45_parse_refuted"
   ],
   "note": "False of the code for a first property D5/D6 without data, which raises IndexError (C45_parse_refuted, for every such message). C45_parse_partial proves the claim for every other message; C45_instance_list says what well-formed lists are. Missing: empty data."
  },
  {
   "property": "C46",
   "status": "proved",
   "theorems": [
    "C46_table"
   ],
   "note": ""
  },
  {
   "property": "C47",
   "status": "proved",
   "theorems": [
    "C47_round_trip"
   ],
   "note": ""
  },
  {
   "property": "C48",
   "status": "partial",
   "theorems": [
    "C48_recorded_partial",
    "C48_devices_refuted"
   ],
   "note": "False of the code: the object is looked up by the DEOJ, so only the node profile is ever recorded and no message changes a device (C48_devices_refuted, for every message). C48_recorded_partial proves exactly what is recorded for messages to the node profile from known nodes. Missing: recording on the sending object."
  },
  {
   "property": "C49",
   "status": "partial",
   "theorems": [
    "C49_calls_partial",
    "C49_updated_refuted",
    "C49_added_refuted"
   ],
   "note": "False of the code: node_updated is never called (C49_updated_refuted) and every announcement calls node_add twice or more (C49_added_refuted). C49_calls_partial gives the exact sequence of calls for every message after every history, including property_updated and object_updated as claimed for the node profile. Missing: node_add/node_updated as claimed."
  },
  {
   "property": "C50",
   "status": "partial",
   "theorems": [
    "C50_race_refuted",
    "C50_orderly_partial",
    "C50_survives_partial",
    "C50_device_refuted",
    "C50_unknown_refuted",
    "C50_empty_refuted",
    "C50_exact"
   ],
   "note": "False of the code. C50_survives_partial characterises exactly, for every message and state, when which exception is raised by the sequential part; C50_device_refuted, C50_unknown_refuted and C50_empty_refuted are the three ways. The hand-over to post_message raises when a new call begins between lines 298 and 299 (C50_race_refuted), and never if calls begin while no message is being handled (C50_orderly_partial). Missing: no exception in those cases. C50_exact drops the condition that requests name known properties: exactly one more case raises."
  },
  {
   "property": "C51",
   "status": "partial",
   "theorems": [
    "C51_orderly_partial",
    "C51_any_partial",
    "C51_late_refuted",
    "C51_early_refuted",
    "C51_before_refuted"
   ],
   "note": "False of the code in three ways (C51_late_refuted, C51_early_refuted, C51_before_refuted: schedules with one poster and one receiver). C51_orderly_partial proves it for every schedule in which calls begin while no message is being handled and are not interrupted before the TID is assigned; C51_any_partial what holds of every schedule (a response that arrived, with the TID of some request). Missing: the other schedules."
  },
  {
   "property": "C52",
   "status": "partial",
   "theorems": [
    "C52_sender_refuted",
    "C52_sender_partial"
   ],
   "note": "False of the code: any response with the TID is returned, whoever sent it and whatever its SEOJ (C52_sender_refuted, for every such message). C52_sender_partial: true if only the destination uses the TID during the call. Missing: a check of the sender."
  },
  {
   "property": "C53",
   "status": "partial",
   "theorems": [
    "C53_mixed_refuted",
    "C53_orderly_partial"
   ],
   "note": "False of the code (C53_mixed_refuted: two calls return the same response). C53_orderly_partial proves it for every schedule in which calls begin while all other threads are idle. Missing: overlapping calls."
  },
  {
   "property": "C54",
   "status": "partial",
   "theorems": [
    "C54_lost_refuted",
    "C54_prompt_partial"
   ],
   "note": "False of the code: the response is handed over before the caller sleeps and the caller then waits for the timeout in every continuation (C54_lost_refuted). C54_prompt_partial proves that a caller that slept before the response came does not stay asleep. Missing: responses between sending and sleeping."
  },
  {
   "property": "C55",
   "status": "partial",
   "theorems": [
    "C55_exchange",
    "C55_write_then_read_partial",
    "C55_write_then_read_refuted",
    "C55_write_read"
   ],
   "note": "C55_exchange: for every device object (any handler) and every request it answers other than by a notification, post_message returns exactly that answer. C55_write_then_read_partial and C55_write_read are the claim for any list of distinct properties. False of the code for write-then-read when the first property is D5/D6 written with empty data: the controller's receiving thread raises (C55_write_then_read_refuted). Missing: that case."
  },
  {
   "property": "C56",
   "status": "partial",
   "theorems": [
    "C56_standard_properties",
    "C56_no_data",
    "C56_maps_refuted",
    "C56_maps_partial"
   ],
   "note": "C56_standard_properties proves the property part in full for every code and set enumeration order. The map part is false of the code for more than 15 codes (C56_maps_refuted: mono functional lighting); C56_maps_partial gives the exact boundary (up to 15 codes right; 16 codes right iff all below 0xC0; more wrong). Missing: larger maps (needs a code change, see C16)."
  },
  {
   "property": "C57",
   "status": "partial",
   "theorems": [
    "C57_rules_refuted",
    "C57_rules_partial",
    "C57_exact"
   ],
   "note": "False of the code for the conditional rules required_c/required_o (C57_rules_refuted: illuminance sensor E0). C57_rules_partial proves it for every class, property and unconditional rule (mandatory, required, optional); C57_exact gives the attributes of every property under every rule. Missing: conditional rules, which the code treats as not enabled."
  },
  {
   "property": "C58",
   "status": "proved",
   "theorems": [
    "C58_manufacturer"
   ],
   "note": ""
  },
  {
   "property": "C59",
   "status": "partial",
   "theorems": [
    "C59_exact",
    "C59_source_partial",
    "C59_source_refuted"
   ],
   "note": "Proved for LocalNode and for requests to the node profile (C59_source_partial); false for devices hosted by a Controller (C59_source_refuted). Missing: those. C59_exact: every answer of a controller has SEOJ 0x0EF001."
  },
  {
   "property": "C60",
   "status": "partial",
   "theorems": [
    "C60_ignored",
    "C60_all_interfaces",
    "C60_requested_partial",
    "C60_requested_refuted"
   ],
   "note": "False of the code: LocalNode.start ignores its argument (C60_requested_refuted). C60_all_interfaces proves the no-list case, C60_requested_partial that Manager.start honours a list. Missing: LocalNode.start with a list. C60_ignored: start never depends on its argument."
  },
  {
   "property": "C61",
   "status": "partial",
   "theorems": [
    "C61_get_node_partial",
    "C61_get_node_refuted",
    "C61_tables",
    "C61_exact"
   ],
   "note": "False of the code when the resolver raises (C61_get_node_refuted: also for plain IP strings of other nodes). C61_get_node_partial proves tuples always, and strings when resolution succeeds; C61_tables that tables are keyed by IP. Missing: failing resolution. C61_exact gives the result for every string, table and resolver."
  },
  {
   "property": "C62",
   "status": "partial",
   "theorems": [
    "C62_survives_partial",
    "C62_survives_refuted",
    "C62_exact",
    "C62_raised"
   ],
   "note": "C62_survives_partial proves it for every sequence of well-formed messages except write-read requests naming an unknown property, which raise (C62_survives_refuted). Missing: those. C62_exact gives the outcome of every message of every history, C62_raised what is left when one raises (the writes are done, nothing is sent)."
  },
  {
   "property": "C63",
   "status": "proved",
   "theorems": [
    "C63_access_predicates",
    "C63_set_attribute"
   ],
   "note": ""
  },
  {
   "property": "C64",
   "status": "proved",
   "theorems": [
    "C64_add_property"
   ],
   "note": ""
  },
  {
   "property": "C65",
   "status": "partial",
   "theorems": [
    "C65_send_partial",
    "C65_post_partial",
    "C65_malformed",
    "C65_property",
    "C65_write_read_refuted",
    "C65_port_partial"
   ],
   "note": "False of the code for write-read requests, sent without properties (C65_write_read_refuted, for every list). C65_send_partial and C65_post_partial prove all other service codes; refusal of malformed lists and Property's methods are proved in full. Missing: ESV 0x6E."
  },
  {
   "property": "C66",
   "status": "proved",
   "theorems": [
    "C66_lock",
    "C66_no_deadlock",
    "C66_bounded"
   ],
   "note": ""
  },
  {
   "property": "C67",
   "status": "partial",
   "theorems": [
    "C67_unknown_refuted",
    "C67_session_partial"
   ],
   "note": "C67_session_partial: for every sequence of calls. Left out by session_ok, because the code kills a receiving thread there: reads answered with an empty D5/D6 as first property (C55) and write-reads of unknown properties (C22): C67_unknown_refuted proves for every such call that it and all later calls return None and that its writes are done. Also assumed: every datagram arrives and fits 1024 bytes, listeners do not raise."
  },
  {
   "property": "C68",
   "status": "proved",
   "theorems": [
    "C68_reactions_unanswered",
    "C68_no_storm"
   ],
   "note": ""
  },
  {
   "property": "C69",
   "status": "proved",
   "theorems": [
    "C69_lawful"
   ],
   "note": ""
  },
  {
   "property": "C70",
   "status": "partial",
   "theorems": [
    "C70_announced_refuted",
    "C70_controller_searches_partial"
   ],
   "note": "False of the code: LocalNode.start never sends anything (C70_announced_refuted, for every node and operating system). C70_controller_searches_partial: a Controller whose start returns True has sent one search with the next TID on each of its interfaces. Missing: the announcement (needs a code change)."
  },
  {
   "property": "C71",
   "status": "proved",
   "theorems": [
    "C71_string",
    "C71_unambiguous"
   ],
   "note": "For every object and string. str.encode is modelled (TextM) and compared with the grammar of RFC 3629."
  },
  {
   "property": "C72",
   "status": "partial",
   "theorems": [
    "C72_read",
    "C72_write",
    "C72_exact",
    "C72_first_byte",
    "C72_status_partial",
    "C72_stuck_refuted",
    "C72_empty_refuted",
    "C72_new",
    "C72_switched"
   ],
   "note": "False of the code: the length check looks at the old data, so a write of [0x30, y] is stored and every later write is refused (C72_stuck_refuted, for every light); an empty write raises IndexError (C72_empty_refuted). C72_exact gives the exact status after every sequence of messages, C72_first_byte that the first byte is always on or off, C72_status_partial the claim if all writes of the status have one byte. C72_new and C72_switched: start and stop set the status. Missing: writes of other lengths (needs a code change)."
  },
  {
   "property": "C73",
   "status": "partial",
   "theorems": [
    "C73_decimal",
    "C73_message_partial",
    "C73_numbers_refuted",
    "C73_write_read_refuted"
   ],
   "note": "False of the code for integers in another base and for 00: they are converted to decimal text and read as hexadecimal (C73_numbers_refuted: the tuple (80,0x30) sends 0x48), and for ESV 6E, sent without properties (C73_write_read_refuted, for all arguments). C73_message_partial proves it for quoted fields and decimal digits without leading zero. argparse and ast.literal_eval are not modelled. Missing: the other spellings. C73_decimal says what every integer of up to three decimal digits sends."
  },
  {
   "property": "C74",
   "status": "proved",
   "theorems": [
    "C74_reads"
   ],
   "note": "For every list, with the database tables of C56."
  },
  {
   "property": "C75",
   "status": "proved",
   "theorems": [
    "C75_self"
   ],
   "note": "Left out: the addition of a second object with the code of the profile (C35_profile_replaced_refuted) and the removal or recoding of objects by the user."
  },
  {
   "property": "C76",
   "status": "partial",
   "theorems": [
    "C76_get_partial",
    "C76_nodes_partial",
    "C76_table",
    "C76_known",
    "C76_changed_refuted",
    "C76_sequential"
   ],
   "note": "False of the code: when a node with a new IP address is stored during the call, get_node and nodes raise RuntimeError (C76_changed_refuted, for every table and every known address asked for). C76_get_partial and C76_nodes_partial prove for every schedule that this is the only way they fail (besides the resolver, C61) and that the results are as claimed otherwise; C76_table proves the claims about storing in full. Missing: new addresses during a call (needs a code change)."
  },
  {
   "property": "C77",
   "status": "partial",
   "theorems": [
    "C77_listeners",
    "C77_added_partial",
    "C77_unchanged",
    "C77_removed_partial",
    "C77_skipped_refuted",
    "C77_endless_refuted",
    "C77_exact",
    "C77_exact_ex"
   ],
   "note": "False of the code: a listener that removes itself makes the loop skip the next one (C77_skipped_refuted, for every list), and listeners that add listeners keep the loop going (C77_endless_refuted). C77_added_partial proves the claim if callbacks only add and the loop ends, C77_unchanged if they change nothing, C77_removed_partial that removals never lead to a call twice or out of order. Missing: removal in callbacks (needs a code change)."
  },
  {
   "property": "C78",
   "status": "partial",
   "theorems": [
    "C78_sequential",
    "C78_object",
    "C78_answer",
    "C78_ends",
    "C78_single_partial",
    "C78_torn_refuted",
    "C78_mixed_refuted"
   ],
   "note": "C78_answer, C78_object and C78_ends prove all but the last part for every schedule. The last part is false of the code: a read of two properties returns one old and one new value (C78_torn_refuted), two writes leave a mixture (C78_mixed_refuted), for every object with two such properties. C78_single_partial proves it for requests of one property, with the order of real time. C78_sequential ties the small steps to the sequential model. Missing: requests with several properties (needs a lock)."
  },
  {
   "property": "C79",
   "status": "partial",
   "theorems": [
    "C79_found_partial",
    "C79_sent",
    "C79_large_refuted"
   ],
   "note": "C79_found_partial proves it for nodes with up to 84 devices, for every schedule. For nodes with 85 devices or more it is false of the code: the instance list does not fit a property, the node sends no answer and is never found (C79_large_refuted). C79_sent: the search goes out once on each interface."
  },
  {
   "property": "C80",
   "status": "proved",
   "theorems": [
    "C80_values",
    "C80_shared_boundary",
    "C80_database_boundary"
   ],
   "note": "C80_values: for every program that adds no property that already belongs to an object and does not write to the objects of the database, the heap model (HeapM) and the value models (ObjM, DbM) give the same answers and the same objects, and the database is unchanged. Outside this condition the code behaves otherwise: C80_shared_boundary (one property in two objects), C80_database_boundary (a write to an object of Database changes all objects created later)."
  },
  {
   "property": "C81",
   "status": "partial",
   "theorems": [
    "C81_shown_partial",
    "C81_empty_list_refuted"
   ],
   "note": "C81_shown_partial: for every node, contents and order of arrival. Left out by call_ok: a readable D5 or D6 that is empty; there the receiving thread of the controller stops and no later property is shown either (C81_empty_list_refuted). Also assumed: every datagram arrives and fits 1024 bytes, listeners do not raise, nobody writes to the device meanwhile."
  },
  {
   "property": "C82",
   "status": "partial",
   "theorems": [
    "C82_as_store_partial",
    "C82_one_order",
    "C82_real_time",
    "C82_wraparound_refuted"
   ],
   "note": "C82_as_store_partial: the network returns what a reference (one store, numbered calls) returns, for every run; C82_one_order and C82_real_time: the calls of the reference have one order that respects time. Left out by run_ok: calls that kill a receiving thread (C22, C55) or do not fit a datagram, and more than 65535 calls of one controller: there the claim is false, for every device and controller the 65536th call can return the answer of the first (C82_wraparound_refuted). The device treats one datagram at a time (several threads: C78). Datagrams are not repeated (see C95)."
  },
  {
   "property": "C83",
   "status": "partial",
   "theorems": [
    "C83_values_refuted",
    "C83_map_refuted"
   ],
   "note": "False of the code: set_code(0x0EF002) at the end of the constructor adds the standard properties again, with empty data; for every draw all own properties (0x80, 0x82, 0x83, 0xBF, 0xD3-0xD7) read as empty (C83_values_refuted), and the Set map names eight codes although no write is accepted (C83_map_refuted)."
  },
  {
   "property": "C84",
   "status": "partial",
   "theorems": [
    "C84_same",
    "C84_built_partial",
    "C84_write_refuted"
   ],
   "note": "False of the code: every writable property added to it is written (C84_write_refuted). C84_built_partial proves the claim for the object as constructed, without properties. C84_same: the object is equal to SuperObject(0x0EF002), so all that C19-C24 say of objects holds of it."
  },
  {
   "property": "C85",
   "status": "partial",
   "theorems": [
    "C85_told_partial",
    "C85_once_refuted",
    "C85_in_turn",
    "C85_raises"
   ],
   "note": "False of the code: after a start each observer is told once per server (C85_once_refuted). C85_told_partial gives exactly who is told, in order, for every node whose callbacks do not raise. Nothing in the library calls Manager.notify."
  },
  {
   "property": "C86",
   "status": "partial",
   "theorems": [
    "C86_stopped_partial",
    "C86_ends_partial",
    "C86_last",
    "C86_callback_refuted",
    "C86_deadlock_refuted",
    "C86_two_refuted"
   ],
   "note": "Proved for one thread of the user that calls stop() while the callbacks do not (C86_stopped_partial, C86_ends_partial: after n*(2n+13)+2 rounds for n servers); C86_last holds always. Otherwise false of the code: a callback that calls stop() gets RuntimeError from Thread.join and leaves the later servers running and the list of servers in place (C86_callback_refuted), callbacks of two servers that call it wait for each other forever (C86_deadlock_refuted), and of two user threads one gets AttributeError (C86_two_refuted). That shutdown wakes a blocked recvfrom is assumed."
  },
  {
   "property": "C87",
   "status": "partial",
   "theorems": [
    "C87_silent_partial",
    "C87_values_partial",
    "C87_late_partial",
    "C87_sent",
    "C87_raise_refuted"
   ],
   "note": "False of the code: a send that has tested self.sock raises AttributeError or OSError when the socket is closed before it is used (C87_raise_refuted). C87_values_partial: no exception as long as nobody stops the node; C87_silent_partial: nothing is sent after stop() has returned. sendto itself is assumed to take every datagram while the socket is open.  C87_late_partial: a send that begins after stop() has returned ends without an exception, with the value it has when no server is there (announce_message says True). C87_sent: with one sending thread, a send has sent exactly one datagram if it returned True and none otherwise (also when it raised), an announcement at most one through each unicast server, in order."
  },
  {
   "property": "C88",
   "status": "proved",
   "theorems": [
    "C88_switch",
    "C88_started"
   ],
   "note": ""
  },
  {
   "property": "C89",
   "status": "proved",
   "theorems": [
    "C89_object",
    "C89_thread",
    "C89_unknown",
    "C89_ends",
    "C89_alone"
   ],
   "note": "For objects with the built-in handlers (user handlers: C22, one at a time). C89_ends: every request is finished after as many steps as it has properties, plus three."
  },
  {
   "property": "C90",
   "status": "partial",
   "theorems": [
    "C90_values",
    "C90_answers",
    "C90_returns",
    "C90_ends",
    "C90_served",
    "C90_lookup",
    "C90_alone",
    "C90_torn_refuted"
   ],
   "note": "All but the last part is proved for every interleaving (C90_values, C90_answers, C90_returns, C90_ends, C90_served, C90_lookup); C90_alone ties the small steps to the sequential model. The last part is false of the code: for every node and every new device there is an interleaving in which one answer gives the new count (D3) and the old list (D5) (C90_torn_refuted). Assumed: the application does not write D3-D7 itself and adds no second node profile."
  },
  {
   "property": "C91",
   "status": "partial",
   "theorems": [
    "C91_kept",
    "C91_values",
    "C91_results",
    "C91_ends",
    "C91_repair",
    "C91_lost_refuted",
    "C91_changed_refuted"
   ],
   "note": "C91_kept, C91_values, C91_ends and C91_repair prove that objects are found, that every value describes some moment, that the calls end and that a further call made alone corrects the profile; C91_results: a call returns True or raises RuntimeError, nothing else. The rest is false of the code: for every node and every two new devices, both calls return True and the profile lacks one device for good (C91_lost_refuted), or one call raises RuntimeError because the table changed size during its loop (C91_changed_refuted)."
  },
  {
   "property": "C92",
   "status": "proved",
   "theorems": [
    "C92_data",
    "C92_answer",
    "C92_unknown",
    "C92_results",
    "C92_ends"
   ],
   "note": "For objects with the built-in handlers. The reads of one answer are made at different moments (C92_ex: the first before, the second after two stores of the application); see C78 and C90 for what this means for the peer."
  },
  {
   "property": "C93",
   "status": "partial",
   "theorems": [
    "C93_frame",
    "C93_returns",
    "C93_received",
    "C93_dropped_refuted"
   ],
   "note": "C93_frame, C93_received: the frame and what is decoded from it, for every sequence of additions; C93_returns: the results of the calls. The last part is false of the code: a property added by a method that does not suit the request (add_property on a WriteReadRequest, add_set_property or add_get_property on the others) gives True and is not sent (C93_dropped_refuted)."
  },
  {
   "property": "C94",
   "status": "partial",
   "theorems": [
    "C94_found",
    "C94_object",
    "C94_code",
    "C94_answer",
    "C94_added",
    "C94_list",
    "C94_settled_partial",
    "C94_own_partial",
    "C94_renamed_refuted",
    "C94_twice_refuted"
   ],
   "note": "C94_found, C94_object, C94_code, C94_answer and C94_added prove all but the last part; C94_list: the profile describes the codes the objects had at the node's last addition. The last part is proved for programs that change no code after an addition (C94_settled_partial, C94_own_partial) and false otherwise: the profile lists a code under which nothing is found (C94_renamed_refuted), or counts one object twice (C94_twice_refuted). Assumed: the program does not add the profile of one node to another and does not write to the profiles."
  },
  {
   "property": "C95",
   "status": "partial",
   "theorems": [
    "C95_as_store_partial",
    "C95_order",
    "C95_reads_partial",
    "C95_again",
    "C95_undone_refuted"
   ],
   "note": "C95_as_store_partial: the network returns what a reference returns in which a copy is treated again (left out by run_ok2 as in C82: calls that kill a receiving thread or do not fit a datagram, more than 65535 calls of one controller); C95_order: each call returns once, with the store's answer at a moment its request was treated; C95_again: when a repeated write changes nothing. The last part is false: the copy of an accepted write undoes another accepted write (C95_undone_refuted, for every network); it is proved when no writing request is treated twice (C95_reads_partial)."
  },
  {
   "property": "C96",
   "status": "partial",
   "theorems": [
    "C96_orderly_partial",
    "C96_lock",
    "C96_no_deadlock",
    "C96_deaf_refuted",
    "C96_stolen_refuted",
    "C96_dropped_refuted"
   ],
   "note": "C96_no_deadlock, C96_lock: for every schedule. C96_orderly_partial: every call, in a callback or not, returns what it should if it begins while the other threads neither call nor handle a message. Otherwise false: if one thread receives all messages, no call in a callback ever gets a response (C96_deaf_refuted, for every schedule); a call in a callback makes the call whose response is being handled return the callback's response (C96_stolen_refuted, for every response) or None (C96_dropped_refuted). An exception of the call in a callback is taken to leave the callback."
  },
  {
   "property": "C97",
   "status": "partial",
   "theorems": [
    "C97_as_stores_partial",
    "C97_one_order",
    "C97_real_time",
    "C97_own_device_partial",
    "C97_same_call_partial",
    "C97_wraparound_refuted"
   ],
   "note": "Network and reference agree for every number of devices, controllers and calls (C97_as_stores_partial), and every returned message is of the device and object of its own call (C97_same_call_partial), if each controller makes at most 65535 calls and none of its calls kills a receiving thread (C48, C50) or exceeds a datagram (mrun_ok), and the controllers have found the devices. C97_one_order, C97_real_time: properties of the reference. Beyond that the claim is false: the 65536th call, made to one device, returns what another device said about the first (C97_wraparound_refuted). Repeated datagrams are C95."
  },
  {
   "property": "C98",
   "status": "partial",
   "theorems": [
    "C98_answer",
    "C98_fresh",
    "C98_written",
    "C98_isolated",
    "C98_announce_old_refuted",
    "C98_reuse",
    "C98_conservative"
   ],
   "note": "C98_answer, C98_fresh, C98_written, C98_isolated, C98_conservative hold for all programs. The last part of the statement is false: the data is stored after the handler has returned, so a handler that announces the property announces the data before the write, for every state and every data (C98_announce_old_refuted). Callbacks that add objects, change observers, stop the node or call post_message are in C77, C86, C94 and C96."
  },
  {
   "property": "C99",
   "status": "partial",
   "theorems": [
    "C99_fifo",
    "C99_raises",
    "C99_returns",
    "C99_started",
    "C99_served",
    "C99_kept",
    "C99_stopped",
    "C99_silent",
    "C99_false",
    "C99_ready",
    "C99_early_refuted",
    "C99_raise_refuted",
    "C99_twice_refuted",
    "C99_half_refuted",
    "C99_leak_refuted",
    "C99_ex"
   ],
   "note": "C99_fifo, C99_raises, C99_returns for any number of calling threads; C99_started, C99_served, C99_kept, C99_stopped, C99_silent, C99_false, C99_ready for one calling thread. The last sentence of the statement is false: servers run before the node observes them, so a message that arrives during start is lost (C99_early_refuted); when bind raises, the servers created before keep running unobserved (C99_raise_refuted); two starts at once leave every server twice (C99_twice_refuted); start and stop at once can leave only a multicast server and no address (C99_half_refuted), or servers that no later stop or start closes (C99_leak_refuted). Server.stop is two steps here (C86 has its lines one by one)."
  },
  {
   "property": "C100",
   "status": "partial",
   "theorems": [
    "C100_own_partial",
    "C100_object_partial",
    "C100_again_refuted",
    "C100_inf_refuted",
    "C100_ex"
   ],
   "note": "True if every call has a new message object and calls are not interleaved with the handling of earlier messages as in C51 (C100_own_partial). A message object that is posted again keeps the TID of its first sending, so a late answer to the first request is returned for the second (C100_again_refuted); the answer then still belongs to a request sent from the same object (C100_object_partial). Announcements are outside the assumption on the network: one whose TID, counted by its sender, equals that of the request is returned as the answer (C100_inf_refuted)."
  },
  {
   "property": "C101",
   "status": "partial",
   "theorems": [
    "C101_library",
    "C101_values_partial",
    "C101_kept_partial",
    "C101_edit",
    "C101_set_refuted",
    "C101_get_refuted",
    "C101_response_refuted",
    "C101_added_refuted",
    "C101_ex"
   ],
   "note": "The last sentence is proved (C101_library), also for applications that change only arrays nothing else refers to (C101_values_partial, C101_kept_partial); C101_edit says exactly what a change in place changes. The first sentence is false: set_property_data keeps the caller's array (C101_set_refuted), get_property_data gives out a bytearray that a write request stored (C101_get_refuted), the response returned by post_message shares its arrays with the controller's record (C101_response_refuted), and a message refers to the Property objects added to it (C101_added_refuted)."
  },
  {
   "property": "C102",
   "status": "partial",
   "theorems": [
    "C102_exact",
    "C102_read",
    "C102_register_partial",
    "C102_stuck",
    "C102_new_refuted",
    "C102_long_refuted",
    "C102_empty_refuted",
    "C102_unknown_refuted"
   ],
   "note": "C102_exact gives the answers and the content for every history, C102_read the reads; with a status of one byte, writes of one byte, and write-read requests that read existing properties the claim holds (C102_register_partial). It is false otherwise: the device as documented has no byte of status and refuses every write (C102_new_refuted), a write of two bytes is stored and ends all further writes (C102_long_refuted), a write without data raises (C102_empty_refuted), and a write-read request asks the handler about None (C102_unknown_refuted)."
  },
  {
   "property": "C103",
   "status": "partial",
   "theorems": [
    "C103_edited",
    "C103_raises",
    "C103_as_received",
    "C103_node",
    "C103_started",
    "C103_heard",
    "C103_goes_on",
    "C103_records",
    "C103_listen_refuted"
   ],
   "note": "True of the observers of the node: a started node tells itself first, and for every sequence of datagrams the node is the same and sends the same as without them (C103_node, C103_started; sending must not depend on what observers were told). True of what a controller records (C103_records). False of the observers of an object: the object treats the message that they leave (C103_listen_refuted); exactly that, as if it had been received (C103_edited, C103_as_received)."
  },
  {
   "property": "C104",
   "status": "partial",
   "theorems": [
    "C104_same",
    "C104_asked",
    "C104_once_partial",
    "C104_silent",
    "C104_shown",
    "C104_unknown_refuted"
   ],
   "note": "C104_asked: the exact questions for every handler that keeps the codes of the properties and every history, also if the handler raises (then a beginning of the questions); C104_shown: a question shows the property as it is; C104_silent: other messages; C104_same: the model is the one of the other claims. The claim holds for write-read requests that read existing properties (C104_once_partial); otherwise the handler is asked about None (C104_unknown_refuted)."
  },
  {
   "property": "C105",
   "status": "partial",
   "theorems": [
    "C105_record",
    "C105_remembers_partial",
    "C105_forgets_refuted",
    "C105_devices_refuted"
   ],
   "note": "C105_record: exactly what is known of every address after every history. The claim holds for the node profile from the last instance list of the address on (C105_remembers_partial). An instance list replaces the node by a new one and so drops all values received before (C105_forgets_refuted); values of devices are never recorded, in no history (C105_devices_refuted)."
  },
  {
   "property": "C106",
   "status": "partial",
   "theorems": [
    "C106_safe",
    "C106_kept_refuted",
    "C106_freed_partial",
    "C106_own_refuted",
    "C106_failed"
   ],
   "note": "C106_safe: what can be reached is not finalised. A started node is reachable from its own threads, so it is never finalised and goes on working until it is stopped or its threads end, whatever the program drops (C106_kept_refuted). An unreachable node can be collected and all its servers are closed (C106_freed_partial), unless the finaliser runs in a thread of that node: then the servers after it work forever (C106_own_refuted). C106_failed: a failed start. Reachability as seen by CPython's collector, and running threads being roots, are part of the model."
  },
  {
   "property": "C107",
   "status": "partial",
   "theorems": [
    "C107_assign",
    "C107_found",
    "C107_codes",
    "C107_sound",
    "C107_read",
    "C107_write",
    "C107_maps",
    "C107_copy",
    "C107_settled_partial",
    "C107_again",
    "C107_rights_refuted",
    "C107_lost_refuted",
    "C107_maps_refuted",
    "C107_copy_refuted"
   ],
   "note": "Exact for every program: C107_assign (what an assignment changes), C107_found (the property last added when it had that code), C107_codes, C107_read and C107_write (answers and stored data; decided by the property found under the present code of the one asked for), C107_maps (maps of up to 15 codes, each map a property of its own), C107_copy. The claim holds if no code is assigned after an addition (C107_settled_partial); a property added again is served under both codes (C107_again). Otherwise it is false of the code: a read-only property that is given the code of a writable one can be written (C107_rights_refuted), a property with a new code is refused under both codes (C107_lost_refuted), the Get map then names a code under which nothing is found (C107_maps_refuted), and a copy has the property under the new code only (C107_copy_refuted)."
  },
  {
   "property": "C108",
   "status": "partial",
   "theorems": [
    "C108_proper",
    "C108_copy",
    "C108_refused",
    "C108_apart",
    "C108_object",
    "C108_object_refused",
    "C108_standard",
    "C108_standard_refused",
    "C108_hear_refused",
    "C108_stopped",
    "C108_decided",
    "C108_attached",
    "C108_tame_partial",
    "C108_running_refuted",
    "C108_controller_refuted",
    "C108_found_refuted",
    "C108_template_refuted"
   ],
   "note": "Exact: a copy succeeds if and only if nothing that can be reached from the property is a server, a condition or an observer or handler that cannot be copied (C108_copy, C108_refused; for objects C108_object, C108_object_refused, for constructors C108_standard, C108_standard_refused, for found nodes C108_hear_refused); it is then an isomorphic copy of all that is reached, apart from the original (C108_copy, C108_apart). All programs keep the invariants these need (C108_proper); after any program the answer of each copying command is decided by what is reached (C108_decided), and C108_attached says what the other commands attach. Programs without started nodes and controllers have no failing copy (C108_tame_partial), and a stopped node's objects can be copied as before it was started (C108_stopped). The claim is false of the code otherwise: properties of objects of a started node (C108_running_refuted), of a controller (C108_controller_refuted) and of a found node (C108_found_refuted) cannot be copied, and a database object that was added to a started node makes its class unusable (C108_template_refuted)."
  },
  {
   "property": "C109",
   "status": "partial",
   "theorems": [
    "C109_message",
    "C109_messages",
    "C109_datagrams",
    "C109_delivery",
    "C109_started",
    "C109_self_refuted",
    "C109_invalid_refuted"
   ],
   "note": "Exact: of each message the node processes, its observers are told that belong to the addressed object (of a controller only if the message is a request), in order, once, and fewer only if an observer raises (C109_message); over all sequences of messages (C109_messages) and of datagrams (C109_datagrams; C109_delivery where nothing raises), for the servers of a started node (C109_started). The claim is false of the code where it excludes messages: they are told of the node's own messages also with IGNORE_SELF_MESSAGE (C109_self_refuted) and of messages that are no requests or name unknown properties (C109_invalid_refuted)."
  },
  {
   "property": "C110",
   "status": "partial",
   "theorems": [
    "C110_last_said",
    "C110_failed",
    "C110_half_refuted",
    "C110_same_blocks_partial"
   ],
   "note": "Exact for every message and sequence: each field has what the last string says that says anything about it (C110_last_said), and what a failed parse changes (C110_failed). The claim is false of the code: a string that fails changes a message, which can then be encoded (C110_half_refuted); lists of the other kind of frame stay (C08_reparse_refuted). It holds for new messages if all strings are frames with the same blocks or have no Format 1 header (C110_same_blocks_partial)."
  },
  {
   "property": "C111",
   "status": "partial",
   "theorems": [
    "C111_readable",
    "C111_sent",
    "C111_received",
    "C111_run",
    "C111_printed",
    "C111_level",
    "C111_malformed_refuted",
    "C111_tail_refuted",
    "C111_raised_refuted"
   ],
   "note": "Exact for every received datagram and every sending (C111_received, C111_sent), for every run (C111_run), and for what is printed (C111_printed, C111_level); a line determines what it is about (C111_readable; names without blanks and colons). False of the code: what is no frame is not logged, because parse_bytes raises and never returns False (C111_malformed_refuted); bytes after the frame are left out (C111_tail_refuted); a sendto that raises is not logged (C111_raised_refuted)."
  },
  {
   "property": "C112",
   "status": "partial",
   "theorems": [
    "C112_post",
    "C112_post_none",
    "C112_post_readable",
    "C112_both_refuted",
    "C112_list",
    "C112_list_readable",
    "C112_found",
    "C112_block",
    "C112_shown_partial",
    "C112_manufacturer"
   ],
   "note": "Exact for every received answer (C112_post, C112_post_none), for the found nodes after any received messages (C112_found, C112_list) and for the lines with -v (C112_block, C112_manufacturer); lines without -v determine what they are about (C112_post_readable, C112_list_readable; addresses without blanks and colons). C112_shown_partial says that the data is the device's, under the conditions of C81. False of the code: the answer to a write-and-read request is printed without its properties (C112_both_refuted)."
  },
  {
   "property": "C113",
   "status": "partial",
   "theorems": [
    "C113_sent",
    "C113_group_partial",
    "C113_goes_on_refuted"
   ],
   "note": "C113_sent is exact for every operating system that sends what it is given. C113_group_partial holds for any number of devices, any contents and any schedule; left out are requests and answers beyond 1024 bytes, read answers without any property (C15) and write-and-read requests of unknown properties. For the last the claim is false of the code: the device raises and its server ends without an answer (C113_goes_on_refuted, as C62)."
  },
  {
   "property": "C114",
   "status": "partial",
   "theorems": [
    "C114_again",
    "C114_left_refuted",
    "C114_field"
   ],
   "note": "C114_again is exact for the entries after any number of searches whose answers are heard before the next one; C114_field is exact without that condition, for nodes that change, move or are replaced at any time: an entry shows what the answer heard last from its address said (nodes with more than 84 devices do not answer, C79). Two parts of the claim are false of the code: no entry is ever removed (C114_left_refuted, for every node that answered once and has left), and an old answer that arrives late brings back an old list (C114_field_ex)."
  },
  {
   "property": "C115",
   "status": "proved",
   "theorems": [
    "C115_use",
    "C115_unheard_boundary"
   ],
   "note": "Composition of C79/C114 and C97, with the invariant of C113 for what the searches leave; calls are restricted as in C97 (mrun_ok). C115_unheard_boundary, outside the condition of the claim: a controller that has heard no answer of a node and reads from it by its address gets nothing, and the answer ends the server it arrives at."
  },
  {
   "property": "C116",
   "status": "partial",
   "theorems": [
    "C116_accept",
    "C116_history",
    "C116_parts_partial",
    "C116_port_refuted",
    "C116_items_boundary",
    "C116_nodes"
   ],
   "note": "Partial because the code contradicts the claim about the port: C116_port_refuted, a node with address ('10.0.0.5', 80) has port 3610. C116_accept, C116_history and C116_parts_partial give everything else for all values, with 3610 in place of the second item. C116_nodes: NodeM's set_address, node_ip and node_port are the same methods on addresses of a string and a number. C116_items_boundary: the items of the tuple are not checked."
  },
  {
   "property": "C117",
   "status": "proved",
   "theorems": [
    "C117_read",
    "C117_write",
    "C117_write_read",
    "C117_silent",
    "C117_answered",
    "C117_determined",
    "C117_unknown_boundary"
   ],
   "note": "Exact outcome for every user handler, including exceptions (C20, C21 and C23 leave the case of an exception open). C117_write_read also covers unknown properties to read: the handler is asked about None (C117_unknown_boundary, outside the condition of the claim). The error service for 0x61 is 0x50 (finding of C23)."
  },
  {
   "property": "C118",
   "status": "proved",
   "theorems": [
    "C118_standard",
    "C118_profile",
    "C118_each",
    "C118_filled",
    "C118_history",
    "C118_object_name",
    "C118_copy",
    "C118_found",
    "C118_tools",
    "C118_same",
    "C118_tables",
    "C118_plain",
    "C118_profile_history",
    "C118_results"
   ],
   "note": "The names, types and sizes are a second transcription of the tables (NameData, produced by a script); C118_tables proves that both transcriptions list the same properties in the same order, C118_same that the steps with descriptions are those of the model of the other claims. C118_results: also the results of add_property and set_code are those of the model without names, for plain objects, standard objects and profiles after any use."
  },
  {
   "property": "C119",
   "status": "partial",
   "theorems": [
    "C119_shows",
    "C119_same",
    "C119_broken_refuted",
    "C119_line",
    "C119_served",
    "C119_alone",
    "C119_closed",
    "C119_equal_partial",
    "C119_race_refuted",
    "C119_stop_refuted"
   ],
   "note": "C119_shows: for messages one after the other, with a lamp that works; C119_same: status and answers are those of the light of C72 and C88. C119_alone: also with several servers, whenever no two of them switch the light at the same time; C119_equal_partial: or if all ask for the same. The claim is false of the code otherwise: two writes at the same time are both answered and leave the lamp lit with status off or the reverse (C119_race_refuted, from every status); a request served between off() and the end of stop() leaves the lamp on (C119_stop_refuted); a driver that fails raises after the status was changed (C119_broken_refuted). C119_line: lamp and output go together also when the driver fails."
  },
  {
   "property": "C120",
   "status": "partial",
   "theorems": [
    "C120_same",
    "C120_sent",
    "C120_refused_partial",
    "C120_items_refuted",
    "C120_nowhere_refuted",
    "C120_get_partial",
    "C120_get_refuted",
    "C120_local_boundary"
   ],
   "note": "C120_same: a destination that names a host and a port is sent to exactly as the address tuple in the model of C30-C33 and C97, and a post waits exactly as there. C120_sent: whatever the destination, every datagram goes to the host and port it names, or to what is taken for an address (byte strings as host, a node without an address). C120_refused_partial: values that are no string, no pair and no node are refused silently. The claim is false of the code for the rest: a pair whose host is no string raises AttributeError, one whose port is no integer TypeError, a port out of range OverflowError (C120_items_refuted); a node without an address is sent to the host '' and port 0, which the operating system takes for this machine (C120_nowhere_refuted); get_node of an empty tuple raises IndexError as soon as one node is known (C120_get_refuted). C120_local_boundary: send_message of a plain LocalNode refuses strings and nodes."
  },
  {
   "property": "C121",
   "status": "partial",
   "theorems": [
    "C121_goes",
    "C121_property",
    "C121_same",
    "C121_found",
    "C121_table",
    "C121_found_run",
    "C121_quiet",
    "C121_malformed",
    "C121_early_refuted",
    "C121_never_refuted",
    "C121_detached_refuted",
    "C121_moved_refuted"
   ],
   "note": "C121_goes, C121_property: exact for every history: the request goes to the node the object was last added to, from the controller that found it, at the last address it was given. C121_found: so for all objects and properties of an announced node, once the announcement was handled; C121_same: the datagram is that of C65. The claim is false of the code otherwise: while the listeners are told of a node its attribute controller is still None, so a listener that uses the node raises AttributeError, which leaves the callback before the node is recorded (C121_early_refuted); with such a listener no node is ever found (C121_never_refuted). Objects and properties that belong to no found node raise AttributeError instead of being refused (C121_detached_refuted). An object that is added to another node stays in the table of the first, but requests through it go to the other (C121_moved_refuted)."
  },
  {
   "property": "C122",
   "status": "proved",
   "theorems": [
    "C122_list",
    "C122_found",
    "C122_list_readable",
    "C122_print",
    "C122_print_readable",
    "C122_post",
    "C122_send",
    "C122_none"
   ],
   "note": "C122_post, C122_send: a controller and a device of the library that are online, on a network that delivers (as C67); the device's objects have the built-in handlers. The request of the documentation is a write without response (0x60), so that the documented handling of the response prints nothing in the good case."
  },
  {
   "property": "C123",
   "status": "partial",
   "theorems": [
    "C123_exact",
    "C123_switch_partial",
    "C123_new_refuted",
    "C123_empty_refuted",
    "C123_long_refuted"
   ],
   "note": "C123_exact says exactly what is printed and stored for every sequence of writes and every content of the status, C123_switch_partial is the claim for a status of one byte and writes of one byte to it. C123_new_refuted: the device as constructed by the documented program has an empty status, and every write is refused for ever. C123_empty_refuted: a write without data raises in the thread of the server; nothing is printed for it nor for any later post, and all of them are lost. C123_long_refuted: a value of two bytes that begins with 0x30 is stored, after which every write is refused."
  },
  {
   "property": "C124",
   "status": "partial",
   "theorems": [
    "C124_sent",
    "C124_known_partial",
    "C124_devices",
    "C124_objects_refuted",
    "C124_ends_refuted"
   ],
   "note": "C124_sent: the datagrams. C124_known_partial: controllers that have found the device, announcements to the node profile 0EF001 that do not begin with an instance list: the controller goes on listening and records the values, once it has heard the datagram at least once; but on the node profile of the device, whatever object they come from. C124_devices: nodes without a controller. C124_objects_refuted: no object of a device other than the node profile ever changes in the table of a controller. C124_ends_refuted: an announcement to any other object than 0EF001 ends the thread of every server of every controller that hears it (AttributeError), and an announcement from a device that a controller has not found ends its server too."
  },
  {
   "property": "C125",
   "status": "proved",
   "theorems": [
    "C125_found",
    "C125_lasting",
    "C125_traffic",
    "C125_reach"
   ],
   "note": "C125_found: what each controller has found after any run. C125_lasting: all nodes after any run. C125_traffic: all datagrams of any run. C125_reach: three events that make a controller find a node, after any run. Larger nodes are the finding of C79 (C79_large_refuted)."
  },
  {
   "property": "C126",
   "status": "partial",
   "theorems": [
    "C126_ready",
    "C126_session_partial",
    "C126_source_refuted"
   ],
   "note": "C126_ready: a controller of a network as in C125 that has heard its own answer is ready for a session with itself. C126_session_partial: whole sessions: TIDs, service codes, values and the tables afterwards are those of the store, except that every answer says that it comes from the node profile 0EF001. Calls are those of C67 (left out: a read answered with D5 or D6 without data first, and a write-read of an unknown property). C126_source_refuted: the answer of the lamp says 0EF001 (finding C59), so the controller records the operation status of its lamp as that of its node profile."
  },
  {
   "property": "C127",
   "status": "partial",
   "theorems": [
    "C127_ready",
    "C127_kept",
    "C127_sessions_partial",
    "C127_network_partial",
    "C127_seen",
    "C127_source_refuted"
   ],
   "note": "C127_ready: on a network as in C125 every site keeps working, and a controller that has received the answer of a node can call it. C127_sessions_partial: any sequence of calls of any controllers to any nodes, themselves included: TIDs, addresses, service codes, values and all tables afterwards are those of the stores, except that the answer of a node that is itself a controller says that it comes from the node profile 0EF001. Requests and answers can be lost or arrive several times, each time before the call returns. A call completes before the next begins (overlapping calls to one device: C82 and C95). Calls are those of C67 (left out: a read answered with D5 or D6 without data first, and a write-read of an unknown property). C127_source_refuted: the lamp of another controller answers as 0EF001 (finding C59), and the calling controller records its status as that of the node profile. C127_kept: searches and their answers change no object of any site. C127_network_partial: the whole story from a network as in C125 at its start, with any searches and deliveries, to the calls. C127_seen: in words of objects and messages only: after any calls, a value that one controller writes to a readable and writable property is what any controller reads from it, until it is written again."
  }
 ]
}