claim("C01", "proved", "C01_round_trip",
      "Every construction history through the public setters whose content is within the wire limits.")
claim("C02", "proved", "C02_wire_layout", "Byte layout and reported size for every construction history.")
claim("C03", "proved", "C03_decoder_total C03_decoder_exact",
      "Every index and slice expression of the decoder is an explicit Panic outcome; exact content for every accepted input.")
claim("C04", "proved", "C04_reencode", "With arbitrary trailing bytes.")
claim("C05", "partial", "C05_truncation_partial C05_truncation_refuted C05_arrives",
      "False in the code: every cut of a valid frame behind the 12 byte header is accepted (refuted for all of them). Proved: cuts inside the header are rejected.")
claim("C06", "partial", "C06_stream_exact C06_stream_partial C06_stream_sound C06_stream_no_panic C06_stream_refuted C06_bytes_reader_partial C06_bytes_reader_refuted",
      "False in the code: a read that returns fewer bytes than asked for is an error, so a frame split at an unlucky place is lost. Proved: exact condition on the segment ends (decoded if none is inside a requested piece, refused otherwise), soundness for every segmentation, no panic.")
claim("C07", "proved", "C07_integer_codec", "All widths, values below 2^64.")
claim("C08", "proved", "C08_service_codes", "All 256 service codes against an independent table.")
claim("C09", "proved", "C09_success_response", "Every decoded request.")
claim("C10", "partial", "C10_error_response_partial C10_error_response_refuted",
      "Proved: TID, swapped objects, error code. False in the code: property echo; every request with properties gets a response with twice as many blank properties.")
claim("C12", "proved", "C12_property_count C12_property_count_wrap", "All construction histories, with the wrap beyond 255.")
claim("C13", "proved", "C13_equality C13_copy C13_nil", "")
claim("C14", "proved", "C14_service_availability", "Against an independent table, every service code and property.")
claim("C15", "proved", "C15_set_get C15_absent C15_getter_errors", "Data, byte and integer setters; frame condition on all other properties.")
claim("C16", "partial", "C16_property_map_partial C16_property_map_refuted C16_decoder_total",
      "False in the code: with 16 or more codes those from 0xC0 on are lost. Proved: exact characterisation of both formats; decoder total on all byte strings.")
claim("C17", "partial", "C17_maps_describe_object_partial C17_maps_describe_object_refuted",
      "False for the same reason as C16 (home air conditioner). Proved for every history: no panic, maps up to date; exact up to 15 codes, otherwise count and the codes below 0xC0.")
claim("C18", "proved", "C18_enumeration C18_additions C18_one_entry_per_code", "Every iteration order of the hash map.")
claim("C19", "proved", "C19_code_accessors", "Every sequence of setters.")
claim("C20", "proved", "C20_state_round_trip", "Every sequence of setters on every created device, profile and node profile.")
claim("C21", "proved", "C21_device_creation", "Every object code; attributes of every property code; no other property.")
claim("C22", "partial", "C22_mandatory_partial C22_mandatory_refuted",
      "False in the code for the conditional rules required_c and required_o, which become prohibited (47 entries). Proved: all unconditional rules of all classes.")
claim("C23", "partial", "C23_recoding_partial C23_recoding_refuted",
      "False in the code: properties of earlier classes stay. Proved: exact content after every sequence of assignments.")
claim("C50", "proved", "C50_find_property_wait", "Every history of the property map between the polls.")
claim("C11", "proved", "C11_fresh_tids C11_any_start C11_distinct",
      "Every history of node calls (adding objects, setting data, sending, posting, starting, stopping); TID in the message and on the wire. Calls from several goroutines: C45.")
claim("C24", "proved", "C24_node_profile",
      "Every history in which the application does not itself overwrite the five list properties of the node profile. Codes of attached objects are not changed.")
claim("C25", "proved", "C25_lookup C25_lookup_device C25_lookup_stable", "")
claim("C26", "proved", "C26_manufacturer C26_created", "Codes modulo 2^24 (the property has three bytes).")
claim("C27", "proved", "C27_announced C27_not_announced C27_unattached", "Exact message and wire bytes.")
claim("C28", "partial", "C28_startup_partial C28_startup_refuted C28_startup_refuted_witness",
      "Proved up to 84 devices. False in the code from 85 devices on, for every such history: the length byte of the instance list wraps.")
claim("C29", "proved", "C29_read C29_read_unchanged C29_read_library C29_no_change",
      "Every node content, request and callback behaviour. C29_read_library: with callbacks that use library calls the answer is always complete.")
claim("C30", "proved", "C30_invalid", "Missing object, missing property, not readable, not writable, wrong size.")
claim("C31", "proved", "C31_failing C31_succeeding", "Every pattern of callback results.")
claim("C32", "proved", "C32_calls C32_no_calls", "Exact list of calls.")
claim("C33", "partial", "C33_no_answer_partial C33_answers_refuted C33_exchange_refuted C33_exchange_starts_refuted C33_exact C33_answered",
      "False in the code: answers and errors for an object the node does not have are answered with service code 0, and code 0 is answered by every node, for ever. Proved for messages to existing objects. C33_exact: an exchange ends exactly when its first message is not answered, or asks for something and its sender has the object it names as the source; then with the answer.")
claim("C34", "proved", "C34_write C34_write_read", "If and only if, for SetI, SetC and SetGet.")
claim("C35", "partial", "C35_undisclosed_partial C35_disclosed_refuted C35_write_response_refuted",
      "False in the code: INF_REQ, INFC and the answer to SetC carry the data of any named property. Proved for Get and SetGet.")
claim("C36", "partial", "C36_own_ignored_partial C36_others_handled C36_second_address_refuted",
      "Proved for the address that Address and Port return. False in the code for a node bound to several addresses.")
claim("C37", "partial", "C37_discovered_partial C37_startup_partial C37_unknown_class_refuted",
      "Proved for every instance list whose devices are of standard classes, also end to end from the history of the announcing node over the wire to the table of the controller (up to 84 devices). False in the code for every list with an unlisted class: the whole node is dropped.")
claim("C38", "proved", "C38_step C38_set C38_grows C38_lookup", "Every sequence of received messages and clearings.")
claim("C39", "proved", "C39_no_panic C39_receive C39_short_refused C39_other_refused", "Any message whose property data are bytes.")
claim("C40", "partial", "C40_refresh_refuted C40_stale C40_unchanged_partial C40_cleared",
      "False in the code: nothing a known sender announces changes the table. Proved: the view is that of the first announcement; after Clear the next one counts.")
claim("C41", "partial", "C41_search_partial C41_search_all C41_not_running C41_search_refuted",
      "False in the code for every code but 0x0EF001: AnnounceMessage overwrites the destination. Proved: service, source, property and wire bytes of every search.")
claim("C42", "proved", "C42_one_waiting C42_one_wait C42_outcome C42_final C42_request_sent C42_bounded C42_enabled C42_can_finish",
      "Every schedule of any number of calls, received messages and senders. A timeout returns a non-nil message object together with the error.")
claim("C43", "partial", "C43_matched_partial C43_early_refuted C43_late_refuted C43_tcp_refuted C43_refuted C43_returned C43_once C43_foreign",
      "Proved for messages that arrive while the call is waiting. False in the code in three ways: an early message with the stale TID of the message object, a message checked against an earlier call, any message over TCP. For every schedule (C43_returned): what is returned without TCP had, when examined, the identifier of the message of a call then in progress, and goes to one call only.")
claim("C44", "partial", "C44_calm_partial C44_duplicate_refuted C44_left_over_refuted C44_timeout_refuted C44_stuck_refuted C44_refuted C44_cause C44_no_call C44_any_refuted C44_cleared_refuted",
      "False in the code: a duplicate or late response panics (send on closed channel, nil dereference) or blocks its goroutine for ever. Proved for schedules in which no call ends while a message is being examined; in every schedule a message does harm only if a call ended while this very message was being examined (C44_cause), never without calls, and then any message whatever can (C44_any_refuted).")
claim("C45", "partial", "C45_posts_partial C45_posts_serial_partial C45_next_tid C45_senders_refuted C45_call_refuted C45_refuted",
      "False in the code: NextTID takes no lock. Proved when only PostMessage calls (UDP) draw identifiers, which the node lock orders.")
claim("C46", "partial", "C46_delivered_exact C46_well_formed_partial C46_malformed_refuted C46_refuted C46_once C46_order_refuted",
      "False in the code: the first malformed datagram (or one with an unusable address) ends the receive loop for good. Proved: exactly the datagrams before it are delivered, each once; handlers run concurrently, so their order is not kept.")
claim("C47", "partial", "C47_up_to_buffer_partial C47_long_refuted C47_refuted C47_arrives",
      "Proved up to MaxPacketSize (1024 bytes). False in the code for longer messages: data are cut or the message is refused.")
claim("C48", "partial", "C48_no_panic C48_running C48_not_running_at_first C48_stop C48_stop_clean_partial C48_multicast_complete C48_unicast_last_partial C48_all_granted C48_missing_interface C48_success_refuted C48_failed_start_leaves C48_failure_refuted C48_stop_refuted C48_port_refuted C48_deaf_refuted",
      "Every history of starts, stops, configuration changes and malformed datagrams with arbitrary answers of the system. Proved: no panic, the running part exactly, stop closes all sockets held by servers, the multicast half, the last usable interface. False in the code: only the result of the last interface counts, a failed start leaves servers bound, a socket leaks when its TCP bind fails.")
claim("C49", "partial", "C49_taken_over_partial C49_bind_retry_refuted C49_equal_exact C49_refuted",
      "False in the code: SetConfig drops the bind retry settings. Proved for the other values.")
claim("C51", "partial", "C51_classification C51_dotted_partial C51_shape_refuted C51_loopback_exact C51_loopback_refuted C51_interface_addresses C51_no_ipv6 C51_available_exact C51_usable",
      "Every string and flag set. Proved: exact characterisation, never both, usable interfaces only. False in the code: text without a colon that is no address counts as IPv4, and only two loopback addresses are recognised.")
claim("C54", "partial", "C54_first_server C54_single_partial C54_refuted",
      "False in the code with several interfaces: pointers into different listings are compared, so the first server answers always. Proved for one usable interface.")
claim("C55", "partial", "C55_first_only C55_error_exact_partial C55_refuted",
      "False in the code: AnnounceMessage returns after the first server that sends. Proved: exact set of sends, error exactly when nothing is sent.")
claim("C52", "partial", "C52_restored C52_lossless_partial C52_scan_details C52_scan_summary C52_refuted C52_all_columns_refuted C52_panic_exact",
      "Every table. Proved: exactly what restoring the hidden columns gives when their cells are filled; the scan with details is restored completely. False in the code: repeated rows vanish, blank cells are ambiguous, and filling all columns is wrong.")
claim("C53", "partial", "C53_bytes C53_number C53_value_partial C53_no_panic C53_odd_refuted C53_refuted",
      "Every string. Proved: accepted exactly for an even number of digits, with the exact value (bytes) and the value below 2^63 (numbers). False in the code: odd digit counts are refused, no digits count as 0, large numbers become negative.")
claim("C56", "partial", "C56_get_exact C56_get_partial C56_set_exact C56_set_partial C56_malformed C56_unknown_node C56_refuted C56_long_data_refuted",
      "Every argument and node history. Proved for codes of at most 3 and 1 bytes and data up to 255 bytes. False in the code: longer codes are cut silently and empty arguments are code 0.")
claim("C57", "proved", "C57_determined C57_json C57_several_refuted",
      "Every received message, as the get command prints one. Beyond the claim: several messages with different property counts make OutputJSON panic.")
claim("C58", "partial", "C58_determined_partial C58_message C58_fields_exact C58_refuted",
      "Proved for cells without comma and line break, in particular for every response. False in the code otherwise: cells are not quoted.")
claim("C59", "partial", "C59_listed C59_details C59_default_partial C59_other_address C59_twice_refuted",
      "Every controller state and every answer. Proved: the rows are exactly the objects (properties) the nodes hold; in the default format each once. False in the code for JSON and CSV: the node profile of every discovered node is listed twice.")
claim("C60", "partial", "C60_request_partial C60_large_refuted",
      "Every pair of library-made nodes, request and application, for responses up to 1024 bytes. False in the code above: the datagram is cut to 1024 bytes and what remains is taken as the response.")
claim("C61", "proved", "C61_refused",
      "Every client, server state and refused request; requests up to the 1024 bytes a server reads.")
claim("C62", "partial", "C62_search_partial C62_unchanged_refuted",
      "Proved for every controller and node history with up to 84 devices of known classes. False in the code otherwise, for every such node: with a device of an unlisted class it is never found, and a node found before keeps its old devices.")
claim("C63", "partial", "C63_request_partial C63_fragmented_refuted",
      "Every pair of library-made nodes, request and application, any sizes, exactly when no segment ends inside a piece the decoder asks for. False in the code otherwise, for every such segmentation: the message is dropped.")
claim("C64", "partial", "C64_first_partial C64_second_refuted",
      "Proved: the first request is handled, whatever follows. False in the code for every second request.")
claim("C65", "partial", "C65_other_message_refuted C63_request_partial",
      "False in the code: every message that arrives is returned, with any transaction number, object and service. It has the number of the request when the peer is a node of this library that accepts the request.")
claim("C66", "partial", "C66_once_partial C66_repeated_refuted",
      "Every network. Proved: at most once without TCP; with TCP at most once per server in the exchange and twice per server after it. False in the code: n servers and a silent peer give n + 1 transmissions under two transaction numbers.")
claim("C67", "partial", "C67_fallback_partial C67_no_fallback_refuted",
      "Proved when no connection can be made. False in the code: when the peer accepts the second connection nothing goes out by UDP.")
claim("C68", "proved", "C68_closed",
      "Every network behaviour, number of servers, node and message.")
claim("C69", "partial", "C69_wait_partial C69_context_refuted",
      "Proved: bounded by the request timeout, response returned exactly when it arrives before. False in the code: the context is never looked at.")
claim("C70", "proved", "C70_accepted C70_refused C70_named", "")
claim("C71", "proved", "C71_details C71_rule_determined C71_readback", "Every environment. The text of addresses, names and errors is a parameter.")
claim("C72", "partial", "C72_always C72_effect C72_switch C72_unknown_value C72_unconfirmed_refuted",
      "Everything but the last sentence is proved. False in the code: when a later property of the request is refused, an earlier one has switched the light and there is no answer.")
claim("C73", "partial", "C73_version_refuted C73_version_reads",
      "False in the code, for every device and version: the getter refuses the four bytes the setter writes.")
claim("C74", "partial", "C74_request C74_content C74_documented_refuted C74_light_refuted C74_light",
      "Proved for the form the program reads (code, data). False in the code for the documented form: the length byte is taken for data, for all properties; a light refuses the documented command.")
claim("C75", "proved", "C75_lookup C75_shown", "")
claim("C76", "partial", "C76_alone C76_verdict C76_values_partial C76_single_partial C76_serial_refuted C76_refuted",
      "Proved for every schedule: acceptance, values held during the handling, and one-by-one behaviour of Get and SetI requests for a single property. False in the code: with two properties a response mixes old and new values and two writes leave a mixture; SetC is answered with another request's value. Atomic: one application callback, one property of a response, one check.")
claim("C77", "partial", "C77_entries C77_told C77_distinct_partial C77_keeps_partial C77_alone C77_set_refuted C77_lost_refuted C77_clear_refuted",
      "Proved for every schedule: no panic, entries, told, no duplicates among different nodes, nodes in the table at rest stay. False in the code: a node announcing twice is entered twice, one of two nodes announcing together is lost, cleared nodes come back. Reads and writes of a slice header or cell are atomic steps.")
claim("C78", "partial", "C78_other_partial C78_read_refuted C78_refuted",
      "Proved: a message whose first property is not 0xD5 or 0xD6 never changes the table. False in the code: the source object is not looked at, so reading such a property of a device (11 standard classes have one) enters the node with whatever devices the data seem to name, and the node's own instance list is ignored afterwards. Stated from the request over the wire to the table, for every such device and data.")
claim("C79", "proved", "C79_sound C79_found C79_announced C79_settles C79_search C79_loss_refuted",
      "Network with one address per node, UDP only, messages handled one at a time, nobody waiting for a response; devices of standard classes without 0xD5 or 0xD6 properties of their own (C78), at most 84 per node (C28). C79_loss_refuted shows that the condition on losses is needed: nothing is sent again.")
claim("C80", "partial", "C80_sound C80_complete C80_once C80_order C80_last_partial C80_order_refuted",
      "Same network as C79. Proved: told changes were made, all are told if nothing is lost, exactly once if nothing is repeated, and in the order made, so that the last value is current, if the network keeps the order. False when the network exchanges two datagrams: the value told last is then an old one.")
claim("C81", "partial", "C81_writes C81_memory C81_read_partial C81_confirmed_partial C81_unstored_refuted",
      "Messages handled one at a time (C76 is about several). The contents of the memory are proved without restriction; the read and the confirmation over UDP for values that fit into 1024 bytes (C60_large_refuted). The library itself stores nothing: without a storing application an accepted SetC is confirmed with the old values (C81_unstored_refuted).")
claim("C82", "proved", "C82_scan C82_shown C82_keeps",
      "Network of C79 whose nodes are seen at their own address and a controller that does not hear itself. The requests of the scan go one after the other over UDP with nothing lost (C63-C69 have the other cases). Rows of the node profile appear twice (C37).")
claim("C83", "partial", "C83_values C83_object C83_message C83_slice C83_data_refuted C83_codes_refuted C83_shared_refuted C83_database_refuted",
      "First two sentences proved for every careful program, with the stronger C83_values: memory and value model agree. Last sentence false in the code: writing into the slice of Data changes the property silently, the slice of Codes changes with the object, a property added to two objects is one property, an object of the database can be changed for all later devices.")
claim("C84", "proved", "C84_received", "")
claim("C85", "partial", "C85_no_panic C85_objects C85_start C85_restart C85_stop C85_stop_reports C85_silent C85_tids C85_running C85_start_error_refuted C85_restart_refuted C85_controller",
      "All but the last sentence proved, for calls one after the other and histories that leave the lists of the node profile alone. Last sentence false in the code: when no server can send the announcement, Start returns an error and leaves the node running with open sockets; Restart gives up when Stop reports an error, although Stop has stopped the node.")
claim("C86", "proved", "C86_log C86_memory C86_origin",
      "For nodes whose handlers store what the library offers them (the library itself stores nothing, C64) and values of at most 255 bytes. The controller is member 0 and its own objects are not covered: it never executes a write.")
claim("C87", "proved", "C87_response",
      "Responses over 1024 bytes are cut by the receiver (C65) and left out; so is the answer of a node profile to a search, which no request of SendRequest need precede.")
claim("C88", "proved", "C88_prefix C88_last C88_overtaken_refuted",
      "The last sentence is the refutation: messages carry nothing that tells a node which of two requests is newer, and the receive loop starts a goroutine for each datagram, so that requests can be reordered even when the network keeps their order.")
claim("C89", "proved", "C89_property C89_message C89_class C89_config C89_device C89_device_error C89_node C89_controller C89_own_manufacturer_refuted",
      "The refutation is of the opposite of the last part: a device does not keep its own manufacturer code in a node; without WithLocalNodeManufacturerCode it becomes the experimental one. The devices given to a node are devices made by NewDevice.")
claim("C90", "partial", "C90_names C90_device C90_made C90_class_names C90_every_name_partial C90_every_name_refuted C90_shadowed_refuted",
      "All of it except that every name of the table is shown, which is false: when a class lists a code twice (0x93 of the super class, 0xB0 of 03CE, 0xE5 and 0xE6 of 026B, 0xC6, 0xCD and 0xCE of 027C) only the last name is shown, so that no object has Location information; C90_every_name_partial is the claim for the last entry of each code. SetClassCode, SetClassGroupCode and SetInstanceCode change the code but leave the class name and the properties of the old class.")
claim("C91", "partial", "C91_search C91_bench C91_always C91_code_told C91_code_refuted",
      "All of it, except that the code of an object is not shown as six digits but as the ASCII codes of its digits, 303239303031 for 029001 (C91_code_refuted, for every object): ObjectCode has a String method, which package fmt calls for the verb %06X. The code can be told from it (C91_code_told). The members' handlers keep their nodes and do not fail; every node answers from the address it is recorded with, and the controller does not hear itself, as in C82. A read whose answer is neither a value nor a refusal is not described.")
claim("C92", "partial", "C92_text4 C92_text6 C92_nil C92_round_trip C92_injective C92_ip_injective C92_accepted C92_tcp_partial C92_tcp_refuted C92_zone C92_refuses_refuted C92_other C92_embedded",
      "All of it except the last two sentences, which are false. A TCP peer with a zone, as every link-local IPv6 peer has, gives a message with a nil source (C92_zone, for every address and zone), because net.ParseIP does not accept zones; C92_tcp_partial is the claim for peers without a zone. A host that is no address, such as localhost, is accepted and gives nil.")
claim("C93", "partial", "C93_socket C93_addresses C93_taken_exact C93_own_ignored_partial C93_others_partial C93_neighbour_ignored C93_never_found C93_own_refuted C93_others_refuted",
      "C93_taken_exact: what counts as own is exactly what comes from a reported address and port 3610, because the multicast servers always report the standard port. With automatic port binding and another port the controller therefore finds itself through its second address, and never finds the node of the program that has the standard port of the computer (C93_never_found, for every sequence of messages).")
claim("C94", "partial", "C94_said_by_holder C94_write C94_silent C94_announcer C94_object_changes C94_node_changes C94_two_nodes_refuted C94_replaced_refuted C94_renamed_refuted",
      "Proved for all careful programs (C94_said_by_holder, C94_write, C94_silent) and, for the links, all programs. False otherwise: a device added to a second node is announced by the second only, though the first still lists it; SetCode on a device replaces its properties, and a property taken before is still announced in the name of the device, which answers with another value; a property renamed after adding is announced under a code the device does not answer to.")
claim("C95", "partial", "C95_safe C95_running C95_finding C95_crash C95_attached_refuted",
      "Proved for all programs in which properties are added and codes set before an object is handed over. Without this condition it is false for every pair of such calls (C95_crash), for example a property added to an attached device beside a request (C95_attached_refuted).")
claim("C96", "partial", "C96_exchange C96_refused C96_oneway C96_found C96_determined C96_words C96_again_refuted C96_low_refuted",
      "Proved for devices (not the node profile) and messages up to 1024 bytes, over UDP without loss. That printed words can be given again holds for the properties with codes of two digits (C96_words). It is false for the object and the service of every request (C96_again_refuted): their types have a String method, so that package fmt prints the ASCII codes of their digits, 303239303031 3632 for 029001 62; and for property codes below 0x10, which are printed with a blank (C96_low_refuted).")
claim("C97", "proved", "C97_layout C97_characters C97_escape_refuted C97_read_back C97_exact C97_determined C97_get C97_get_determined C97_scan C97_scan_details C97_scan_determined C97_found C97_names C97_addresses C97_marks_refuted",
      "C97_layout holds for all cells without the byte 255 (C97_escape_refuted), without tabs, line breaks and form feeds, with widths counted in runes, which for a text in UTF-8 are its characters (C97_characters, in PropsJson). The name of manufacturer 0000B0 ends with a blank in the database (C97_names). That the conditions are needed: a line break in a cell makes two rows, and a blank at the end of a cell is lost (C97_marks_refuted). What the get command's table leaves out (source and packet type) is not shown at all. The printed cells of a scan are the names, addresses and error texts of the environment; the hypotheses say which characters they have, C97_found that they hold for every controller history.")
claim("C98", "proved", "C98_read_back C98_one_line C98_cell C98_determined C98_get C98_get_determined C98_scan C98_scan_determined C98_names C98_conditions_refuted",
      "The reader of JSON and UTF-8 in PropsJson are written for the specification. That the conditions are needed: bytes that are no UTF-8 are replaced, so two such cells are printed alike, and of two columns with one name only the last is shown (C98_conditions_refuted). Rows shorter than the header make the code panic (C52_panic_exact).")
claim("C99", "partial", "C99_multicast C99_udp C99_tcp C99_packets C99_controller C99_post_udp C99_copy C99_post_tcp C99_post_refuted",
      "Holds for every message told to a listener, for responses by UDP and for copies. False for the response of PostMessage over TCP: tcp_socket.go reads it without setting a packet type, so it is neither unicast nor TCP for its caller (C99_post_tcp for all of them, C99_post_refuted with a witness).")
claim("C100", "proved", "C100_built C100_received C100_read_back C100_messages C100_nil C100_equals C100_nodes C100_ip_nodes",
      "The node is seen through Address() and Port() of the interface Node. C100_nodes holds for all host texts without brackets, which the texts of IP addresses, with or without a zone, are.")
claim("C101", "partial", "C101_once C101_after_stop C101_connection C101_source C101_ends C101_idle C101_still_served C101_no_panic C101_loop C101_idle_refuted C101_silent_refuted",
      "The last sentence is false: Stop neither waits for goroutines nor closes accepted connections, which have no read deadline. C101_silent_refuted: for any two readable datagrams the handler is called for both after Stop, and its answers leave from an unbound socket. C101_idle_refuted: for every n a stopped server whose goroutines have ended otherwise keeps n connections open. C101_still_served: a request over one of them is still handled and answered. All other parts are proved for all runs.")
claim("C102", "partial", "C102_bound C102_udp C102_answered C102_queue C102_attained C102_limit_refuted C102_timeout_refuted",
      "The bounds are proved and attained for every number of servers (C102_attained). The last sentence is false: the dial has no deadline, so no limit holds (C102_limit_refuted), and with instant dials a silent peer makes the call take the request timeout and three connection timeouts for each server (C102_timeout_refuted), 35 s with the defaults and two interfaces.")
claim("C103", "proved", "C103_objects C103_lookup C103_contents C103_special C103_manufacturers",
      "Every permutation of the entries of the two maps. The tables are generated from the source text.")
claim("C104", "partial", "C104_line C104_frame C104_frame_unique C104_unbound C104_unreadable C104_announced C104_kind_refuted C104_bytes_refuted",
      "The last sentence is false: announcements are logged as UU (C104_announced, for every bound socket) and so are unreadable datagrams of the multicast servers (C104_kind_refuted); a received message is logged re-encoded, without the bytes after the frame (C104_bytes_refuted). The rest is proved.")
claim("C105", "partial", "C105_version C105_id C105_manufacturer C105_version_refuted C105_id_refuted C105_unique_refuted",
      "The last sentence is false: SetVersion stores one byte and drops the minor version, SetID stores sixteen bytes without the leading 0xFE, and the thirteen further bytes are always zero, so that all nodes of a manufacturer share one number. The rest is proved. Both are methods of the type behind the interface NodeProfile and are called nowhere in the repository.")
claim("C106", "proved", "C106_attributes C106_consistent C106_equals C106_copy C106_count C106_values C106_codes C106_node_profile C106_retry",
      "All properties and all data; is_byte says that data are bytes.")
claim("C107", "proved", "C107_objects C107_nodes C107_announcements C107_total C107_careful C107_isolated",
      "The pointer model Owner.v is related to the value models Object.v and Node.v, so that the theorems on nodes and objects as values hold on pointers for programs that share nothing; C94 has what happens to the others. In C107_total the node profile keeps its code. Handlers and names are left out, Start and Stop succeed.")
claim("C108", "partial", "C108_v4 C108_v6_never C108_interfaces_refuted C108_v6_only C108_servers C108_same_group C108_group C108_multicast_servers",
      "The parts about IPv4, the groups and the multicast servers are proved. False for IPv6: GetInterfaceAddresses leaves IPv6 addresses out, so no interface is ever an IPv6 interface (C108_v6_never), no server ever has an IPv6 address (C108_servers), nothing is ever sent to or heard in the IPv6 group (C108_group), and a computer with IPv6 addresses only cannot start a node (C108_v6_only).")
claim("C109", "partial", "C109_agree C109_values C109_properties C109_property_told C109_maps C109_version C109_objects C109_object_told C109_digits_refuted C109_device C109_message C109_stream C109_stream_refuted C109_packages_refuted C109_transport C109_timeout C109_stopped",
      "Proved for values, properties, property maps, datagrams, timeouts and stopped nodes. False in four places. The packages echonet, protocol and transport each have a variable for invalid with the same text, so that errors.Is with echonet.ErrInvalid fails for echonet.NewObjectCodeFromBytes and for all errors of received messages and of the transport (C109_packages_refuted, C109_transport). A device of an unknown class gives an error that is none of the variables (C109_device). The text for a missing object has the ASCII codes of the digits of its code (C109_digits_refuted, for every code), from which the code can be told (C109_object_told). For a stream that ends within a property the text has the number of the property in place of the bytes read (C109_stream, C109_stream_refuted).")
claim("C110", "proved", "C110_purge C110_noninterference C110_integrity C110_absent C110_sender C110_storing C110_idle",
      "For every application that keeps its objects apart; storing applications do (C110_storing), and nodes without callbacks (C110_idle). Messages handled one at a time (C76 is about several).")
claim("C111", "proved", "C111_ends C111_same C111_asks C111_fails C111_found C111_late",
      "Time is a number, the network and the scheduler are arbitrary (sleeps of at least 200 ms). Announcements with classes the library does not know are excluded from the found nodes (C37 is partial for the same reason).")
claim("C112", "partial", "C112_order C112_get C112_set C112_scan C112_refused_get C112_refused_set C112_refused_scan C112_refused_error C112_asks_get C112_asks_set C112_asks_scan C112_more_ignored C112_no_panic C112_printed_get C112_printed_scan C112_text_scan C112_printed_status C112_stopped_partial C112_unstopped_get C112_unstopped_set C112_unstopped_scan C112_status_get C112_status_refuted C112_stopped_refuted",
      "All but the last sentence is proved. False in the code: a command that fails after its start returns without stopping the controller, and a get whose response is a refusal (ESV 0x52) succeeds; further arguments of get and set are silently ignored.")
claim("C113", "partial", "C113_get C113_refused C113_nobody C113_shared_refuted",
      "All but the last sentence is proved, for a node that is alone at its IP address and requests over UDP that are answered before the timeout. False in the code: of two nodes at one IP address with different ports only the first found can be asked (LookupNode compares the IP address only), although the scan lists both.")
