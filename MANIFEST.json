{
 "claims": [
  {
   "property": "C01",
   "status": "proved",
   "theorems": [
    "C01_parse_safe",
    "C01_parsepacket_safe"
   ],
   "note": "Every API-reachable message, every buffer; parse and parsepacket return Ok (no undefined behaviour)."
  },
  {
   "property": "C02",
   "status": "proved",
   "theorems": [
    "C02_parse_iff_frame",
    "C02_frame_unique"
   ],
   "note": "Accepted iff the buffer starts with a frame of Spec_Frame.v; all getters return the frame's fields; the frame is unique."
  },
  {
   "property": "C03",
   "status": "partial",
   "theorems": [
    "C03_encode_parse_partial",
    "C03_encode_parse_refuted"
   ],
   "note": "Proved when every property fits the one-byte PDC; refuted for longer data (length byte wraps)."
  },
  {
   "property": "C04",
   "status": "proved",
   "theorems": [
    "C04_parse_encode"
   ],
   "note": "Re-encoding gives exactly the accepted prefix."
  },
  {
   "property": "C05",
   "status": "proved",
   "theorems": [
    "C05_size_exact"
   ],
   "note": "Includes data longer than 255 bytes; Ok means no out-of-bounds store and no uninitialised byte."
  },
  {
   "property": "C06",
   "status": "partial",
   "theorems": [
    "C06_tid_roundtrip",
    "C06_tid_reduced",
    "C06_wire_order_partial",
    "C06_wire_order_refuted",
    "C06_wire_order_little",
    "C06_only_tid"
   ],
   "note": "Round trip and reduction proved for both host byte orders; wire order proved on big-endian, refuted on little-endian (bytes are reversed)."
  },
  {
   "property": "C07",
   "status": "partial",
   "theorems": [
    "C07_tid_range",
    "C07_tid_sequence",
    "C07_tid_distinct",
    "C07_one_thread",
    "C07_two_threads_refuted",
    "C07_two_threads_range_refuted"
   ],
   "note": "Range and exact numbering proved for every history on one thread (numbering: histories in which each message drawn a number is sent). Two concurrent threads: refuted, with an explicit interleaving of loads and stores."
  },
  {
   "property": "C08",
   "status": "proved",
   "theorems": [
    "C08_message_objectcode",
    "C08_object_setcode",
    "C08_object_parts"
   ],
   "note": "Message and object codes, read back modulo 2^24; changing one part leaves the others."
  },
  {
   "property": "C09",
   "status": "partial",
   "theorems": [
    "C09_integer_roundtrip_partial",
    "C09_getinteger_defined_iff",
    "C09_getinteger_refuted",
    "C09_negative_refuted"
   ],
   "note": "Proved for sizes 1..4 and non-negative ints; exact definedness condition; refuted for 4-byte values with the top bit set, longer data and negative ints."
  },
  {
   "property": "C10",
   "status": "partial",
   "theorems": [
    "C10_never_both",
    "C10_requests",
    "C10_tables",
    "C10_tables_domain",
    "C10_responses_partial",
    "C10_responses_refuted",
    "C10_request_kinds",
    "C10_response_kinds_partial"
   ],
   "note": "Tables and classification proved; refuted: 0x51 is not classified as a response."
  },
  {
   "property": "C11",
   "status": "partial",
   "theorems": [
    "C11_copy_partial",
    "C11_copy_bytes_partial",
    "C11_copy_refuted"
   ],
   "note": "Proved for messages without Set/Get lists; refuted for write-read messages (lists are dropped)."
  },
  {
   "property": "C12",
   "status": "proved",
   "theorems": [
    "C12_equals_iff_bytes",
    "C12_equivalence"
   ],
   "note": ""
  },
  {
   "property": "C13",
   "status": "partial",
   "theorems": [
    "C13_add_partial",
    "C13_add_new",
    "C13_add_refuted"
   ],
   "note": "Proved up to 255 properties; every longer sequence is undefined behaviour."
  },
  {
   "property": "C14",
   "status": "proved",
   "theorems": [
    "C14_setproperty",
    "C14_setproperty_step"
   ],
   "note": "Any sequence of calls with at most 255 distinct codes; one-step frame condition on any message."
  },
  {
   "property": "C15",
   "status": "partial",
   "theorems": [
    "C15_finite_map",
    "C15_other_codes_unchanged",
    "C15_getters_partial",
    "C15_size_refuted",
    "C15_no_undefined_behaviour"
   ],
   "note": "Any history of eight operations from any API-reachable object; frame condition; getters; no UB away from the map codes and clearproperties. Refuted: the size of data longer than 255 bytes is read back modulo 256."
  },
  {
   "property": "C16",
   "status": "partial",
   "theorems": [
    "C16_reads_partial",
    "C16_other_properties",
    "C16_reads_refuted"
   ],
   "note": "Proved for properties the object has; other properties never change; refuted: reading a missing code creates it."
  },
  {
   "property": "C17",
   "status": "proved",
   "theorems": [
    "C17_attribute_predicates",
    "C17_required_implies_allowed"
   ],
   "note": "All attribute values, by bits; Required implies allowed."
  },
  {
   "property": "C18",
   "status": "partial",
   "theorems": [
    "C18_roundtrip_partial",
    "C18_bitmap_exactly",
    "C18_roundtrip_refuted"
   ],
   "note": "Round trip proved for lists of at most 15 codes and for bitmaps of codes below 0xC0; exact bitmap content proved; refuted for codes 0xC0..0xFF in the bitmap format."
  },
  {
   "property": "C19",
   "status": "partial",
   "theorems": [
    "C19_decode_safe",
    "C19_success_partial",
    "C19_success_refuted"
   ],
   "note": "Decoding is memory-safe for every data and buffer; success means the listed codes, refuted for bitmaps listing 0xC0..0xFF."
  },
  {
   "property": "C20",
   "status": "partial",
   "theorems": [
    "C20_set_and_announce_maps_partial",
    "C20_first_get_map_partial",
    "C20_get_map_count",
    "C20_defined_iff",
    "C20_maps_refuted"
   ],
   "note": "Set and Announce maps after every setproperty, Get map on the first update; exact definedness condition; refuted: later Get maps are wrong, NULL copy after clearproperties, map codes not listed."
  },
  {
   "property": "C21",
   "status": "proved",
   "theorems": [
    "C21_codes_unique",
    "C21_duplicate_refused",
    "C21_added"
   ],
   "note": "Every API-reachable node; exact effect of an addition, including what does not change."
  },
  {
   "property": "C22",
   "status": "proved",
   "theorems": [
    "C22_described",
    "C22_addition_describes"
   ],
   "note": "Every sequence of additions to a new node, and any successful addition on any reachable node. D4 counts the node profile's class too; counts are stored modulo 2^24 (D3) and 2^16 (D4)."
  },
  {
   "property": "C23",
   "status": "partial",
   "theorems": [
    "C23_announce_partial",
    "C23_instance_list_partial",
    "C23_refuted"
   ],
   "note": "Proved while the instance list fits 255 bytes (84 device objects); refuted for 85 device objects."
  },
  {
   "property": "C24",
   "status": "partial",
   "theorems": [
    "C24_at_most_one",
    "C24_answer_partial",
    "C24_answered"
   ],
   "note": "For every API-reachable node and every well-formed request: at most one answer, to the sender or to everybody; its TID, swapped EOJs, property codes and ESV proved for values that fit a frame (see C32). A request whose sender address is known is answered except where the service says otherwise."
  },
  {
   "property": "C25",
   "status": "proved",
   "theorems": [
    "C25_ignored"
   ],
   "note": "Every datagram that is not a well-formed request to an existing object changes nothing and is answered with nothing."
  },
  {
   "property": "C26",
   "status": "partial",
   "theorems": [
    "C26_stored",
    "C26_answer_partial",
    "C26_many_error",
    "C26_many_refuted"
   ],
   "note": "Storing proved for any number of properties. The success answer is proved for at most one property; with two or more accepted properties the node answers with the error ESV (C26_many_error, C26_many_refuted), because the counter of accepted properties is a bool."
  },
  {
   "property": "C27",
   "status": "partial",
   "theorems": [
    "C27_no_change",
    "C27_value_partial",
    "C27_many_error",
    "C27_many_refuted"
   ],
   "note": "Reads change nothing (proved in full). The values in the success answer are proved for at most one property; with two or more the ESV is the error one (C27_many_refuted)."
  },
  {
   "property": "C28",
   "status": "partial",
   "theorems": [
    "C28_unmodified",
    "C28_missing",
    "C28_error_partial",
    "C28_setc_refuted"
   ],
   "note": "Nothing refused is modified and missing properties are not created (proved in full). The error ESV is proved for each service except SetC, which is answered with 0x50 instead of 0x51 (C28_setc_refuted)."
  },
  {
   "property": "C29",
   "status": "partial",
   "theorems": [
    "C29_write_refuted",
    "C29_read_refuted"
   ],
   "note": "Refuted: the access attributes of a property are not consulted on requests; a read-only property is written and a write-only property is read by a request."
  },
  {
   "property": "C30",
   "status": "partial",
   "theorems": [
    "C30_setget_partial",
    "C30_many_refuted",
    "C30_handler_refuted"
   ],
   "note": "Stores before reads and the values of the answer proved for all lists; the success ESV only for at most one property in each list (C30_many_refuted). A handler registered for SetGet is never consulted (C30_handler_refuted)."
  },
  {
   "property": "C31",
   "status": "proved",
   "theorems": [
    "C31_frame"
   ],
   "note": "Full frame condition: everything of the node other than the written properties of the addressed object, the TID and the announcements."
  },
  {
   "property": "C32",
   "status": "partial",
   "theorems": [
    "C32_well_formed_partial",
    "C32_refuted"
   ],
   "note": "Proved when each value of the addressed object has at most 255 bytes; refuted for longer ones, whose answer does not decode to the value."
  },
  {
   "property": "C33",
   "status": "partial",
   "theorems": [
    "C33_announced_partial",
    "C33_others_silent",
    "C33_source_refuted",
    "C33_unowned_refuted",
    "C33_empty_refuted",
    "C33_written_partial"
   ],
   "note": "One notification with the new data and the next TID proved for owned properties and 1..255 bytes, set by the application or written by a request; refuted: the source is the node profile, properties created by setpropertyattribute are never announced, empty data is not announced."
  },
  {
   "property": "C34",
   "status": "partial",
   "theorems": [
    "C34_learned",
    "C34_kept",
    "C34_told",
    "C34_added_once",
    "C34_with_others_refuted"
   ],
   "note": "Proved for every history, search response and sender: one node per sender, its objects are exactly the known and listed ones, other nodes and known objects kept, exact listener calls, Added at most once per address over every history without uecho_controller_start (which forgets the nodes). Refuted for responses that hold the instance list together with another property: nothing is registered."
  },
  {
   "property": "C35",
   "status": "proved",
   "theorems": [
    "C35_other_frames",
    "C35_no_report",
    "C35_unknown_sender",
    "C35_malformed"
   ],
   "note": "Proved for every history and frame, including malformed datagrams."
  },
  {
   "property": "C36",
   "status": "partial",
   "theorems": [
    "C36_copies_partial",
    "C36_told",
    "C36_error_answer_refuted",
    "C36_notification_response_refuted",
    "C36_infc_refuted",
    "C36_maps_refuted",
    "C36_instance_list_refuted"
   ],
   "note": "C36_copies_partial: every frame that reports values and is not itself an instance list; the copies of the property maps 9D..9F are covered only if every reported property was known. Refuted: an error answer (0x52) and a notification response (0x7A) empty the copy, a notification that asks for a response (0x74) is not recorded, reporting an unknown property rewrites the copies of the maps, an instance list is not recorded as reported."
  },
  {
   "property": "C37",
   "status": "partial",
   "theorems": [
    "C37_true_partial",
    "C37_safe_partial",
    "C37_returns_partial",
    "C37_in_time_partial",
    "C37_one_at_a_time",
    "C37_signalled",
    "C37_true_refuted",
    "C37_delivered_refuted",
    "C37_stale_refuted",
    "C37_freed_refuted",
    "C37_unsent_refuted",
    "C37_setget_refuted"
   ],
   "note": "Interleaving model of all calling and receiving threads, every load, store, lock, wait and signal a step. Proved for every schedule in which no call switches the two pointers while a receiver is between check and signal (and without spurious wakeups for the return value): true only with a copy of an answer handled after the send; nothing undefined; every call can return; a response handled in time is returned. Proved for every schedule: mutual exclusion, and a signalled call returns true. Refuted: spurious wakeup, lost wakeup, response of an earlier call, reads of freed messages, SetGet lists dropped."
  },
  {
   "property": "C38",
   "status": "partial",
   "theorems": [
    "C38_enable",
    "C38_disable_partial",
    "C38_disable_refuted",
    "C38_only",
    "C38_history_partial",
    "C38_disableudp"
   ],
   "note": "Enabling, and that nothing else changes options, proved. Disabling toggles: proved when the option is enabled, refuted otherwise. C38_disableudp: switching the UDP server off."
  },
  {
   "property": "C39",
   "status": "partial",
   "theorems": [
    "C39_sequences",
    "C39_add",
    "C39_insert",
    "C39_remove",
    "C39_clear",
    "C39_other_lists",
    "C39_null",
    "C39_added_twice_refuted",
    "C39_loose_iteration_refuted"
   ],
   "note": "Proved on an explicit memory of cells for every history in which an added element is in no list: all operations go through, use only live cells and show the sequences of the specification (size up to INT_MAX elements). Refuted without the condition (an element added to a second list), and for loops going on from an element that was removed (they never end)."
  },
  {
   "property": "C40",
   "status": "partial",
   "theorems": [
    "C40_delivered_partial",
    "C40_safe_partial",
    "C40_oversize",
    "C40_error",
    "C40_delivered_refuted",
    "C40_dead_refuted",
    "C40_late_refuted",
    "C40_shared_refuted"
   ],
   "note": "For every history of registrations, starts and stops and every stream of arrivals: each server left running delivers every frame of at most 512 bytes exactly once to each observer registered before the start, in order, with the sender's address, and malformed datagrams to none (handlers that do not change the message, no socket error). The thread does nothing undefined, whatever arrives, apart from logging, which C58 refutes for datagrams above 110 bytes. Refuted: frames above 512 bytes are never delivered; a socket error ends the thread while the server counts as running; observers registered while running are not served; observers share one message."
  },
  {
   "property": "C41",
   "status": "partial",
   "theorems": [
    "C41_announce",
    "C41_true_partial",
    "C41_each_once_partial",
    "C41_true_refuted",
    "C41_again_refuted",
    "C41_false_refuted"
   ],
   "note": "For every running server and every pattern of send failures: each interface makes exactly one attempt, then at most one more by a new socket and only after a failure; true means at least one datagram, carrying the announced frame, was taken. Refuted: a node that is not running returns true and sends nothing; a failing interface makes the frame go out twice; false although a datagram went out."
  },
  {
   "property": "C42",
   "status": "partial",
   "theorems": [
    "C42_search",
    "C42_discovered",
    "C42_searchobject_partial",
    "C42_searchobject_refuted"
   ],
   "note": "The search frame, that every parser recognises it, and discovery of every device with at most 84 objects proved for all states and byte orders. searchobject: the exact frame is proved; it addresses 0x0000XX because the parameter is one byte (partial, refuted for 0x013001)."
  },
  {
   "property": "C43",
   "status": "proved",
   "theorems": [
    "C43_request",
    "C43_read",
    "C43_posted",
    "C43_many",
    "C43_refused"
   ],
   "note": "Proved through encoder, device and parser, for hosts of any byte orders, with the waiting post's message. Assumes that the handlers the device's application registered accept the request (otherwise it is an error answer, C24 to C30). C43_many and C43_refused: what the waiting call gets for several properties and for a refused read."
  },
  {
   "property": "C44",
   "status": "partial",
   "theorems": [
    "C44_registered",
    "C44_kinds",
    "C44_consulted_partial",
    "C44_decided",
    "C44_setget_refuted",
    "C44_null_refuted"
   ],
   "note": "Registration and its effect on every other registration proved over all histories; the exact sequence of handler calls of every request and their effect on each written property proved, except that SetGet consults the handlers for 0x61/0x62 instead of 0x6E (C44_setget_refuted). Registering NULL and then receiving a request for it calls a null pointer (C44_null_refuted)."
  },
  {
   "property": "C45",
   "status": "partial",
   "theorems": [
    "C45_standard_properties_partial",
    "C45_node_profile_properties",
    "C45_class_rules_refuted"
   ],
   "note": "Exact effect of setcode on every non-map code from any prior property set; refuted: super class rules override class rules, required_c/required_o give no access."
  },
  {
   "property": "C46",
   "status": "partial",
   "theorems": [
    "C46_value_partial",
    "C46_own_refuted",
    "C46_own_append_refuted",
    "C46_nomem_refuted",
    "C46_append_nomem",
    "C46_trim",
    "C46_trimwhite_partial",
    "C46_trimwhite_refuted",
    "C46_tokens_partial",
    "C46_fields_exist",
    "C46_nextall",
    "C46_empty_refuted",
    "C46_no_token_refuted",
    "C46_pointer_partial"
   ],
   "note": "String object: every history of calls with the caller's arguments and enough memory; refuted when an argument points into the string's own value (use after free) and after a failed allocation. uecho_strtrim proved; uecho_strtrimwhite only for trailing blanks, refuted otherwise. Tokenizer proved for non-empty texts (tokens stay readable); empty text and no-token cases refuted. C46_pointer_partial: a string that takes over a block of the caller."
  },
  {
   "property": "C47",
   "status": "partial",
   "theorems": [
    "C47_new",
    "C47_calls_partial",
    "C47_standard_object",
    "C47_any_datagram",
    "C47_clear_refuted"
   ],
   "note": "Any datagram in any reachable state without NULL handlers, node creation, and every call that leaves the property maps to the library proved; clearproperties followed by a write-only property dereferences NULL (C47_clear_refuted), as does a NULL handler (C44_null_refuted). Starts at the parsing of the datagram: the log call before it is treated by C58, where datagrams above 110 bytes overflow a buffer."
  },
  {
   "property": "C48",
   "status": "partial",
   "theorems": [
    "C48_startup_ignored",
    "C48_startup_refuted",
    "C48_instance_list_partial"
   ],
   "note": "Refuted: no controller that does not know the node learns anything from the startup announcement (C48_startup_ignored, for every node and controller); proved for announcements of property 0xD6 instead."
  },
  {
   "property": "C49",
   "status": "partial",
   "theorems": [
    "C49_read_back",
    "C49_setter",
    "C49_other_properties",
    "C49_new",
    "C49_device_history",
    "C49_new_maps_refuted",
    "C49_profile_manufacturer_partial",
    "C49_profile_manufacturer_refuted"
   ],
   "note": "Proved for every sequence of setter calls interleaved with any other property changes, both signednesses of char, and every argument (manufacturer codes modulo 2^24); uecho_device_new gives exactly the super class properties with their rules and defaults. Refuted: the property maps of a new device are empty until a code is set, and uecho_profile_getmanufacturercode returns a truth value."
  },
  {
   "property": "C50",
   "status": "partial",
   "theorems": [
    "C50_any_datagram_partial",
    "C50_any_state",
    "C50_calls_partial",
    "C50_new",
    "C50_failed_post_refuted"
   ],
   "note": "Proved for every datagram after every history of safe calls and datagrams, and for every state whose objects have a readable Get map, no NULL handler and whose posted messages are alive; refuted when the messages of a failed post are freed (the controller keeps pointing at them). Starts at the parsing of the datagram: the log call before it is treated by C58."
  },
  {
   "property": "C51",
   "status": "proved",
   "theorems": [
    "C51_write"
   ],
   "note": "Proved for SetI and SetC requests with one property (several properties: see C26_many_refuted), under the assumption that the registered handlers accept."
  },
  {
   "property": "C52",
   "status": "partial",
   "theorems": [
    "C52_wait_partial",
    "C52_bounds",
    "C52_milliseconds_refuted",
    "C52_short"
   ],
   "note": "Proved: for whole seconds t the deadline is more than t-1 and at most t seconds ahead; in general it is never later than asked and less than two seconds earlier. Refuted: the value is in clock ticks, not milliseconds, so values below CLOCKS_PER_SEC do not wait at all."
  },
  {
   "property": "C53",
   "status": "partial",
   "theorems": [
    "C53_bound",
    "C53_address",
    "C53_own",
    "C53_start_iff",
    "C53_all_or_nothing",
    "C53_stop",
    "C53_no_lost_thread",
    "C53_isrunning_partial",
    "C53_isrunning_refuted",
    "C53_one_interface_refuted"
   ],
   "note": "Exact condition for a start to succeed and exact state after every history; no server is freed with its thread attached. Partial only for isrunning, which is wrong when UDP is switched on after the start (refuted). One interface that cannot be bound keeps all others down. C53_bound, C53_address, C53_own: the addresses of a node in every phase."
  },
  {
   "property": "C54",
   "status": "proved",
   "theorems": [
    "C54_response",
    "C54_sendmessage"
   ],
   "note": "Proved for every set of servers and every send oracle."
  },
  {
   "property": "C55",
   "status": "partial",
   "theorems": [
    "C55_safe_partial",
    "C55_returns_partial",
    "C55_at_most_one",
    "C55_socket_refuted",
    "C55_datagram_refuted",
    "C55_slow_handler_refuted",
    "C55_delete_refuted"
   ],
   "note": "Interleaving model of one receiving and one stopping thread, every access to shared memory a step. Proved for all schedules in which the socket is released only while the receiver waits, a closed socket gives no datagram and the receiver has ended before its thread object is released: nothing undefined, no handler after the stop has returned, and the stop can return. Proved for all schedules: after the stop flag at most one more handler call begins. Refuted: released socket used, slow handler outlives the stop, deleting a running node releases its objects first."
  },
  {
   "property": "C56",
   "status": "partial",
   "theorems": [
    "C56_compare",
    "C56_compare_null",
    "C56_strstr",
    "C56_strchr",
    "C56_strncat_partial",
    "C56_strncat_refuted",
    "C56_numbers",
    "C56_sizet_refuted"
   ],
   "note": "Comparison, search and int/long printing proved for all texts and numbers; strncat and size_t printing above LONG_MAX refuted."
  },
  {
   "property": "C57",
   "status": "partial",
   "theorems": [
    "C57_replace_partial",
    "C57_replaced_exists",
    "C57_empty_result_refuted",
    "C57_order_refuted",
    "C57_empty_pattern_refuted"
   ],
   "note": "Proved for non-empty patterns none of which begins with another; an empty result is not stored, list order is not kept after a replacement, an empty pattern never returns (all refuted)."
  },
  {
   "property": "C58",
   "status": "partial",
   "theorems": [
    "C58_line_partial",
    "C58_safe_iff",
    "C58_strict_partial",
    "C58_datagram_refuted",
    "C58_server_partial",
    "C58_unnamed_refuted",
    "C58_nolocal_refuted",
    "C58_send_partial",
    "C58_send_refuted",
    "C58_announce_refuted",
    "C58_output",
    "C58_sends_partial"
   ],
   "note": "Proved for packets whose heading and digits fit 255 characters (109 bytes between IPv4 addresses): line printed exactly, deliveries unchanged, silent below the debug level; the safe packets are characterised exactly (C58_safe_iff). Refuted: any received datagram or sent frame of 111 bytes or more writes past the 256-byte stack buffer at any log level, unless the C library refuses sizes above INT_MAX (C58_strict_partial); a node with 32 devices does it by announcing itself; a sender without a name is read uninitialised, a missing local address is NULL. C58_output: the lines of every severity; C58_sends_partial: the lines of several frames, in order."
  },
  {
   "property": "C59",
   "status": "partial",
   "theorems": [
    "C59_kinds",
    "C59_object",
    "C59_class",
    "C59_counts",
    "C59_address",
    "C59_any_node_partial",
    "C59_any_node_refuted"
   ],
   "note": "Proved for nodes and for node addresses. Over all nodes of a controller only the object of the first node with the code is found (partial); refuted for a second device with the same object code. C59_kinds: device, profile and code of an object."
  },
  {
   "property": "C60",
   "status": "partial",
   "theorems": [
    "C60_object_partial",
    "C60_property_partial",
    "C60_short_refuted",
    "C60_known_refuted",
    "C60_day_refuted"
   ],
   "note": "Proved for waits below 85899360 ms rounded down to a multiple of 20 ms; lookups are taken as atomic. Refuted: a wait under 20 ms does not wait, an object known at the call is returned only after a twentieth of the wait, a wait of 24 hours ends after 15 ms."
  },
  {
   "property": "C61",
   "status": "partial",
   "theorems": [
    "C61_send",
    "C61_as_controller",
    "C61_announce_partial",
    "C61_announce_refuted"
   ],
   "note": "Sending proved, and shown equal to sending through the controller, so C43, C48 and C51 apply. Announcing: everything but the source; refuted: the source is the node profile."
  },
  {
   "property": "C62",
   "status": "proved",
   "theorems": [
    "C62_profile",
    "C62_status"
   ],
   "note": "The class count is two bytes: a node with all 65536 classes is excluded. Lists hold the first 255 entries, as in C22."
  },
  {
   "property": "C63",
   "status": "proved",
   "theorems": [
    "C63_bycode",
    "C63_equals",
    "C63_copy",
    "C63_append"
   ],
   "note": "Proved."
  },
  {
   "property": "C64",
   "status": "proved",
   "theorems": [
    "C64_interfaces",
    "C64_failure",
    "C64_served",
    "C64_offline",
    "C64_notation"
   ],
   "note": "The getifaddrs variant is modelled; getnameinfo is assumed to give IPv4 addresses in dotted decimal notation, and an IPv4 mask to go with an IPv4 address. The lists for multicast and UDP servers are taken at one instant."
  },
  {
   "property": "C65",
   "status": "partial",
   "theorems": [
    "C65_local_partial",
    "C65_ipv6_refuted",
    "C65_destination_refuted"
   ],
   "note": "Proved if all entries are IPv4 entries. Refuted: an IPv6 entry is taken for an interface in every subnet and 0.0.0.0 is reported; no delivered message has a destination address, since the source address is set twice."
  },
  {
   "property": "C66",
   "status": "partial",
   "theorems": [
    "C66_used",
    "C66_isipv6",
    "C66_ipv4",
    "C66_colon_first_refuted",
    "C66_scope_partial",
    "C66_scope_refuted"
   ],
   "note": "Safety, IPv4 texts and scopes of up to eight digits proved. Refuted: a text beginning with a colon is not recognised; longer scopes are cut off; interface names as scope are taken for 0. Which texts with a colon are well-formed IPv6 addresses is not examined by the code. C66_used: the addresses used."
  },
  {
   "property": "C67",
   "status": "partial",
   "theorems": [
    "C67_descriptors_partial",
    "C67_infos_partial",
    "C67_open",
    "C67_options_partial",
    "C67_post",
    "C67_alone",
    "C67_leak_refuted",
    "C67_zero_refuted",
    "C67_loop_refuted",
    "C67_users_refuted"
   ],
   "note": "Descriptors, options, opening and sending proved for every history in which the system does not give the descriptor 0. Refuted: an open that fails after looking up the address loses the address record; descriptor 0 is never closed; the multicast loop is never set; the counter of socket users is never taken back and overflows."
  },
  {
   "property": "C68",
   "status": "partial",
   "theorems": [
    "C68_write",
    "C68_write_refuted",
    "C68_readline_partial",
    "C68_readline_refuted",
    "C68_skip"
   ],
   "note": "Writing, skipping and reading with buffers of two bytes or more proved. Refuted: 0 is reported though bytes were sent; a buffer of one byte is read before its start, one of no bytes is written; a last line with no line feed is lost (part of C68_readline_partial)."
  },
  {
   "property": "C69",
   "status": "partial",
   "theorems": [
    "C69_object_name_partial",
    "C69_property_names",
    "C69_names_kept",
    "C69_set_name",
    "C69_unknown_refuted",
    "C69_stale_refuted",
    "C69_by_parts_refuted",
    "C69_agree"
   ],
   "note": "Names of standard classes and of all properties, and that names are kept, proved for every history; the name model is proved to have the same properties as the object model. Refuted: an object of an unknown class is called after the super class; an object whose class changes keeps properties and names of the old class, also when its code is set in parts."
  },
  {
   "property": "C70",
   "status": "partial",
   "theorems": [
    "C70_manufacturers",
    "C70_add",
    "C70_add_refuted",
    "C70_enums"
   ],
   "note": "Proved, except that a manufacturer added under a taken code is never found (C70_add_refuted)."
  },
  {
   "property": "C71",
   "status": "partial",
   "theorems": [
    "C71_sequential",
    "C71_threads_partial",
    "C71_incomplete_refuted",
    "C71_bare_refuted",
    "C71_double_refuted",
    "C71_freed_refuted"
   ],
   "note": "Proved for calls one after the other and for any number of threads after a first call. Refuted for first calls at the same time: incomplete database, two databases, double free at exit; a freed database is still returned."
  },
  {
   "property": "C72",
   "status": "partial",
   "theorems": [
    "C72_histories_partial",
    "C72_equals_self_refuted",
    "C72_set_self_refuted",
    "C72_many_properties_refuted",
    "C72_delete_twice_refuted",
    "C72_parse_own_bytes_refuted",
    "C72_own_address_refuted",
    "C72_own_data_refuted",
    "C72_shared_property_refuted",
    "C72_bytes_kept_refuted",
    "C72_packet_self_refuted",
    "C72_no_memory_refuted"
   ],
   "note": "Proved for all histories in which a message is used between creation and deletion only, set and equals get two different messages, a list has at most 255 properties and allocation succeeds. Refuted beyond: equals and set of a message with itself, parsing its own bytes, setting its own address or data, a property in two messages, bytes kept over a second serialisation, copying a packet to itself, the 256th property, no memory."
  },
  {
   "property": "C73",
   "status": "partial",
   "theorems": [
    "C73_receiving_partial",
    "C73_leak_refuted",
    "C73_handler_deletes_refuted"
   ],
   "note": "Proved for all arrivals and all handlers that keep to the rules of C72 and delete only what they make, if allocation succeeds. Refuted without memory (a packet is lost) and for a handler that deletes the message it is given."
  },
  {
   "property": "C74",
   "status": "partial",
   "theorems": [
    "C74_one_after_the_other_partial",
    "C74_apart_partial",
    "C74_two_writers_refuted",
    "C74_reader_writer_refuted",
    "C74_overflow_refuted",
    "C74_torn_refuted",
    "C74_leak_refuted"
   ],
   "note": "False as stated: two requests for one property at the same time free its data twice, read freed data, write past a block, give a torn value or lose memory (refuted, five schedules). Proved: for every schedule in which no thread is inside a write of a property while another one is inside a read or write of it, and for every schedule if no property that one thread writes is touched by another. Missing: schedules with conflicting accesses, of which the property is false."
  },
  {
   "property": "C75",
   "status": "partial",
   "theorems": [
    "C75_histories_partial",
    "C75_added_twice_refuted",
    "C75_two_owners_refuted",
    "C75_property_kept_refuted",
    "C75_own_data_refuted",
    "C75_deleted_twice_refuted",
    "C75_shared_twice_refuted",
    "C75_clear_then_add_refuted",
    "C75_no_memory_refuted"
   ],
   "note": "Proved for every program that keeps to stated rules, with memory that does not run out. Refuted outside the rules: adding a property twice or to two objects, using a property after another with its code was added, giving a property its own data, deleting or sharing an object twice, adding a property after all were cleared (the size of the cached get map stays while its codes are freed), and no memory. Missing: programs that keep pointers to properties between calls in ways that are safe, and objects attached to nodes."
  },
  {
   "property": "C76",
   "status": "partial",
   "theorems": [
    "C76_programs",
    "C76_database",
    "C76_box",
    "C76_server_partial",
    "C76_server_no_memory_refuted",
    "C76_observer_no_server_refuted",
    "C76_observer_leak_refuted",
    "C76_half_made_refuted",
    "C76_two_lists_refuted"
   ],
   "note": "Proved for every pattern of failing requests for the records, their lists, the database and single blocks; for the server only when memory does not run out. Refuted for the server: without memory for its set of observers it is returned all the same, and deleting it or adding an observer goes through NULL; without memory for the list in the set a new observer is lost. Also refuted: a manufacturer made without its name loses every later name silently, and one class in two lists is used after it is freed. Elements may also be changed and deleted while they are in a list. Missing: running threads (C55) and servers that are started."
  },
  {
   "property": "C77",
   "status": "partial",
   "theorems": [
    "C77_strcpy",
    "C77_strcat",
    "C77_copy_null",
    "C77_strncpy",
    "C77_strncpy_partial",
    "C77_strncpy_refuted",
    "C77_strncmp",
    "C77_strcasecmp",
    "C77_compare_null",
    "C77_compare_null_refuted",
    "C77_number2str",
    "C77_size_ignored_refuted"
   ],
   "note": "Copying, appending and both comparisons proved for all texts, with the exact condition on the room. Refuted: a limited copy leaves the text without an end when the count is not above its length; the size of the buffer a number is printed into is ignored; comparing without regard to case says that NULL is before a text and the text before NULL. Missing: printing of float and double."
  },
  {
   "property": "C78",
   "status": "partial",
   "theorems": [
    "C78_threads_partial",
    "C78_stops",
    "C78_start_twice_refuted",
    "C78_restart_refuted",
    "C78_returned_refuted",
    "C78_stop_race_refuted",
    "C78_delete_refuted",
    "C78_no_action_refuted",
    "C78_list_start_refuted"
   ],
   "note": "Proved for schedules within stated rules (idle before start, an action that does not return by itself, a stop whose sleep is long enough and in which pthread_kill comes before the end of the action). C78_stops holds without these rules. Refuted without them: starting twice runs two actions; a restart of a busy thread leaves two running for ever; an action that returns by itself leaves a thread said to run and whose stop uses an ended thread's identity, as does a stop that the action obeys at once; deleting a busy thread frees what it reads; a thread without action is said to run; starting a list answers true although nothing started. Missing: callers in several threads, memory reordering."
  },
  {
   "property": "C79",
   "status": "partial",
   "theorems": [
    "C79_careful_partial",
    "C79_deleted_refuted",
    "C79_histories_partial",
    "C79_long_code_refuted",
    "C79_no_memory_refuted",
    "C79_refused_but_taken_refuted",
    "C79_two_nodes_refuted"
   ],
   "note": "Proved when every allocation succeeds, for programs that keep to the rules and are defined on values; C79_careful_partial says which programs are: every call goes to a node that is alive, property codes are bytes, no NULL is registered as a handler, a new node gets its random bytes, and no call gives a property a value of more than 2^40 bytes (appended bytes count with those already there). Refuted: a failing allocation while a node is made goes through NULL; a code of more than three bytes leaks the object; uecho_node_addobject says false for an object it took when the node has no profile; an object in two nodes is released twice; a call on a deleted node reads what was released. Missing: behaviour when allocations fail, calls from other threads, option and controller fields."
  },
  {
   "property": "C80",
   "status": "partial",
   "theorems": [
    "C80_careful_partial",
    "C80_histories_partial",
    "C80_failed_post_refuted",
    "C80_late_answer_refuted",
    "C80_deleted_while_waiting_refuted",
    "C80_local_node_refuted",
    "C80_no_memory_refuted"
   ],
   "note": "Proved when every allocation succeeds, for one controller at a time and programs that keep to the rules and are defined on values; C80_careful_partial says which programs are: every call goes to something alive, the controller is not deleted and no second request is posted while one waits, no datagram arrives after a request that failed, messages that are sent fit the address space, no call gives a property a value of more than 2^40 bytes, and (enough, not needed) no class of the database has a Get property map that cannot be read. Refuted: after a failed uecho_controller_postmessage the controller keeps both messages, so deleting them makes the next datagram use freed memory, and a late answer changes the caller's message; deleting a message while its request waits, or the local node, ends in freed memory; a failing allocation goes through NULL. Missing: behaviour when allocations fail, several controllers at once, calls from other threads (C37, C52 are about those), and the rule that an object of a found node was updated fewer than 2^40 times."
  },
  {
   "property": "C81",
   "status": "partial",
   "theorems": [
    "C81_not_made_up_partial",
    "C81_from_the_start_partial",
    "C81_steady_partial",
    "C81_profile_refuted",
    "C81_emptied_refuted",
    "C81_newest_refuted"
   ],
   "note": "Proved for all objects except the node profile and all properties except the three property maps, up to a value without data, when the values of the device have at most 255 bytes. The history may be looked at from any moment on: then a value is one the controller held at that moment or one the device has held since, so values do not move while the device's value stays and no older frame arrives (C81_steady_partial). Refuted: announcements of any object are filed under the node profile of the device, so the controller holds values the profile never had; an answer that refuses a read empties a known value; nothing orders values in time, a late or repeated answer brings an old one back."
  },
  {
   "property": "C82",
   "status": "proved",
   "theorems": [
    "C82_dies_out",
    "C82_no_storm",
    "C82_no_new_requests",
    "C82_quiet",
    "C82_goes_through"
   ],
   "note": "Request handlers decide, they do not send messages of their own; every party stays in memory (values below 2^40 bytes)."
  },
  {
   "property": "C83",
   "status": "partial",
   "theorems": [
    "C83_step",
    "C83_origin",
    "C83_untouched",
    "C83_from_the_start",
    "C83_end_to_end_partial"
   ],
   "note": "Proved for the device itself (C83_step, C83_origin, C83_untouched, C83_from_the_start). C83_end_to_end_partial combines it with C81 and has the exceptions of C81: not the node profile, and the controller may hold no data."
  },
  {
   "property": "C84",
   "status": "partial",
   "theorems": [
    "C84_says_partial",
    "C84_destination_refuted",
    "C84_answer_partial",
    "C84_infc_refuted",
    "C84_recognised_partial",
    "C84_objects_set_partial",
    "C84_objects_set_refuted",
    "C84_address",
    "C84_header",
    "C84_self",
    "C84_class"
   ],
   "note": "C84_says_partial: everything but the address a datagram was sent to (C84_destination_refuted) and 0x51, which counts as no response (C10). C84_answer_partial: every service but INFC (0x74), which is not answered when it cannot be served (C84_infc_refuted). C84_recognised_partial: for data of at most 255 bytes. C84_objects_set_partial: codes of three bytes; larger ones are never found again (C84_objects_set_refuted). C84_address, C84_header, C84_self and C84_class (addresses, header bytes, messages of an object to itself, class codes) are proved."
  },
  {
   "property": "C85",
   "status": "partial",
   "theorems": [
    "C85_status",
    "C85_read",
    "C85_acknowledged",
    "C85_legal_refuted",
    "C85_announced_refuted",
    "C85_manufacturer_refuted"
   ],
   "note": "C85_status, C85_read and C85_acknowledged hold without conditions on the history. Refuted besides: values the standard does not define are accepted and acknowledged (C85_legal_refuted), switching is not announced although the standard's row requires it (C85_announced_refuted), the manufacturer code given with -m does not reach the lamp (C85_manufacturer_refuted)."
  },
  {
   "property": "C86",
   "status": "partial",
   "theorems": [
    "C86_message_partial",
    "C86_sent_partial",
    "C86_printed",
    "C86_again",
    "C86_get",
    "C86_object_refuted",
    "C86_setget_refuted",
    "C86_many_refuted",
    "C86_text_refuted"
   ],
   "note": "C86_message_partial and C86_sent_partial leave out SetGet (its properties are lost, C86_setget_refuted), objects the node does not have (the request goes to object 0x000000, C86_object_refuted), more than 255 different properties (a write outside the message, C86_many_refuted) and texts that are not hexadecimal (sent with uninitialised values, C86_text_refuted). C86_sent_partial also says that of the local node only the transaction id changes. C86_printed, C86_again and C86_get are proved."
  },
  {
   "property": "C87",
   "status": "partial",
   "theorems": [
    "C87_search",
    "C87_unambiguous",
    "C87_dump",
    "C87_dump_unambiguous",
    "C87_keys",
    "C87_tid_refuted",
    "C87_setget_refuted",
    "C87_end_refuted"
   ],
   "note": "Proved for uechosearch without -v and for uechodump, including that no datagram leads to undefined behaviour. Refuted: the transaction id is shown in host byte order (C87_tid_refuted), SetGet frames are shown without their properties (C87_setget_refuted), uechodump ends neither at the end of its input nor with Q (C87_end_refuted)."
  },
  {
   "property": "C88",
   "status": "proved",
   "theorems": [
    "C88_bounded",
    "C88_watching",
    "C88_device",
    "C88_serving"
   ],
   "note": "Standard database. C88_serving takes the setting-up calls of C47 (safe_nop), C88_watching the calls listed in Spec_CtrlBound.v; C88_bounded and C88_device take any calls."
  },
  {
   "property": "C89",
   "status": "partial",
   "theorems": [
    "C89_asks",
    "C89_defined",
    "C89_tids",
    "C89_devices",
    "C89_manufacturer_refuted",
    "C89_send_refuted",
    "C89_source_refuted"
   ],
   "note": "Proved while requests can be sent and nothing unknown is announced during the listing (quiet in Spec_Verbose.v): what is asked and printed (C89_asks), that each step is defined (C89_defined), that the requests carry consecutive transaction ids when nothing is asked of the program itself (C89_tids), which devices and objects these are (C89_devices). Refuted: a long manufacturer code is undefined behaviour (C89_manufacturer_refuted), so is a frame after a request that could not be sent (C89_send_refuted), and the value printed may come from another device and property (C89_source_refuted)."
  },
  {
   "property": "C90",
   "status": "partial",
   "theorems": [
    "C90_asks",
    "C90_none",
    "C90_tids",
    "C90_negative_refuted"
   ],
   "note": "Proved under the conditions of C89 (C90_asks, C90_tids; C90_none without devices). Refuted: a negative number of rounds is not refused, it is a very large one (C90_negative_refuted)."
  },
  {
   "property": "C91",
   "status": "proved",
   "theorems": [
    "C91_closed",
    "C91_bench_closed",
    "C91_told",
    "C91_true",
    "C91_bench"
   ],
   "note": "C91_told (devices that change), C91_true (that stay), C91_bench (rounds), C91_closed and C91_bench_closed (the conditions on the traffic derived: only these devices answer). The handlers of the devices agree to each read; values have at most 255 bytes, which is what the wire format can carry."
  },
  {
   "property": "C92",
   "status": "proved",
   "theorems": [
    "C92_found",
    "C92_verbose",
    "C92_bench"
   ],
   "note": "C92_found (the list), C92_verbose (the list with values), C92_bench (rounds). The handlers of the devices agree to the read of the instance list. For the values: of the objects of a device just the node profile has data for 0xD6, because the controller takes a lone property 0xD6 of any object for an instance list."
  },
  {
   "property": "C93",
   "status": "proved",
   "theorems": [
    "C93_many",
    "C93_refused",
    "C93_tool_refused",
    "C93_tool_unread",
    "C93_posted",
    "C93_tool",
    "C93_tool_oneway",
    "C93_read_back"
   ],
   "note": "C93_posted (API), C93_tool (uechopost, with a response), C93_tool_oneway (without), C93_read_back, C93_refused, C93_tool_refused and C93_tool_unread (refusals as uechopost shows them), C93_many (several properties: stored, answered with 0x50). The handlers of the device agree except in the theorems about refusals. Sending without waiting through the API is C51."
  }
 ]
}