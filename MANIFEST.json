{
 "claims": [
  {
   "property": "C01",
   "status": "proved",
   "theorems": [
    "C01_round_trip"
   ],
   "note": "Holds as stated."
  },
  {
   "property": "C02",
   "status": "partial",
   "theorems": [
    "C02_round_trip_5E_refuted",
    "C02_decode_5E_partial"
   ],
   "note": "False of the code: the encoder writes one property list for 0x5E, the decoder expects two and panics on every such encoding (refuted, for all messages). Partial: well-formed two-list 0x5E frames are decoded completely."
  },
  {
   "property": "C03",
   "status": "partial",
   "theorems": [
    "C03_no_panic_refuted",
    "C03_panic_iff_partial",
    "C03_single_list_never_panics_partial"
   ],
   "note": "False of the code: a frame of a two-list service (0x6E, 0x7E, 0x5E) that ends right after its first list makes the decoder panic. Partial: exact characterisation of the panicking inputs; single-list services never panic."
  },
  {
   "property": "C04",
   "status": "proved",
   "theorems": [
    "C04_accepts_iff_wellformed",
    "C04_decoded_content"
   ],
   "note": "Holds as stated."
  },
  {
   "property": "C05",
   "status": "proved",
   "theorems": [
    "C05_truncation_rejected"
   ],
   "note": "Holds as stated."
  },
  {
   "property": "C06",
   "status": "partial",
   "theorems": [
    "C06_clone_refuted",
    "C06_clone_partial"
   ],
   "note": "False for ESV 0x5E (clone panics). Partial: holds for all other services within the wire limits, except that lists unused by the service are dropped."
  },
  {
   "property": "C07",
   "status": "partial",
   "theorems": [
    "C07_equals_iff",
    "C07_equivalence",
    "C07_equal_bytes_refuted",
    "C07_equal_bytes_partial"
   ],
   "note": "equals is an equivalence, but it ignores the set and get lists, so equal messages may have different bytes (refuted). Partial: holds for single-list services."
  },
  {
   "property": "C08",
   "status": "proved",
   "theorems": [
    "C08_set_tid",
    "C08_set_seoj",
    "C08_set_deoj"
   ],
   "note": "Holds as stated."
  },
  {
   "property": "C09",
   "status": "partial",
   "theorems": [
    "C09_reparse_refuted",
    "C09_reparse_partial",
    "C09_reparse_empty_partial"
   ],
   "note": "False: parse appends to the existing lists (refuted). Partial: exact result; a message with empty lists behaves like a fresh one."
  },
  {
   "property": "C10",
   "status": "proved",
   "theorems": [
    "C10_esv_decode",
    "C10_esv_classes"
   ],
   "note": "Holds as stated."
  },
  {
   "property": "C11",
   "status": "proved",
   "theorems": [
    "C11_int_codec",
    "C11_int_codec_back"
   ],
   "note": "Holds as stated."
  },
  {
   "property": "C12",
   "status": "proved",
   "theorems": [
    "C12_injective"
   ],
   "note": "Holds as stated."
  },
  {
   "property": "C13",
   "status": "partial",
   "theorems": [
    "C13_oversize_refuted",
    "C13_in_limits_partial"
   ],
   "note": "False for more than 255 properties or data octets (refuted, the counters are truncated). Partial: within the limits."
  },
  {
   "property": "C14",
   "status": "partial",
   "theorems": [
    "C14_failed_parse",
    "C14_from_bytes_refuted",
    "C14_from_bytes_partial"
   ],
   "note": "False: from_bytes returns a message in every case and a rejected input cannot be told from a valid frame (refuted). Partial: what the result is for accepted inputs."
  },
  {
   "property": "C15",
   "status": "proved",
   "theorems": [
    "C15_object_code",
    "C15_part_setters"
   ],
   "note": "Holds as stated."
  },
  {
   "property": "C16",
   "status": "proved",
   "theorems": [
    "C16_set_property_data",
    "C16_equals_property_data"
   ],
   "note": "Holds as stated."
  },
  {
   "property": "C17",
   "status": "proved",
   "theorems": [
    "C17_add_property",
    "C17_add_sequence"
   ],
   "note": "Holds as stated."
  },
  {
   "property": "C18",
   "status": "proved",
   "theorems": [
    "C18_short_map"
   ],
   "note": "Holds as stated."
  },
  {
   "property": "C19",
   "status": "partial",
   "theorems": [
    "C19_bitmap_refuted",
    "C19_bitmap_partial"
   ],
   "note": "False: the bitmap loses every code from 0xC0 upwards (mask 0x0F). Partial: exactly the codes below 0xC0 are listed, for all objects with codes 0x80..0xFF."
  },
  {
   "property": "C20",
   "status": "partial",
   "theorems": [
    "C20_maps_current_partial",
    "C20_maps_current_refuted"
   ],
   "note": "Freshness holds for all addition sequences; refuted for the bitmap form, which lists only codes below 0xC0 because of the defect shown in C19 (C20_maps_current_refuted)."
  },
  {
   "property": "C21",
   "status": "partial",
   "theorems": [
    "C21_clone_maps_refuted",
    "C21_clone_partial",
    "C21_clone_returns"
   ],
   "note": "Code, property set, attributes and non-map data are preserved for all hash orders; the map properties hold the same set but possibly in another order (refuted as byte equality, partial as sets)."
  },
  {
   "property": "C22",
   "status": "proved",
   "theorems": [
    "C22_predicates"
   ],
   "note": "Holds as stated."
  },
  {
   "property": "C23",
   "status": "partial",
   "theorems": [
    "C23_int_data",
    "C23_no_panic_refuted",
    "C23_panic_iff_partial",
    "C23_value_partial"
   ],
   "note": "The write/read half holds. Reading panics in a debug build for more than four octets (refuted); partial: exactly then."
  },
  {
   "property": "C24",
   "status": "partial",
   "theorems": [
    "C24_standard_version_refuted",
    "C24_accessors_partial",
    "C24_missing"
   ],
   "note": "All accessors but standard_version hold; standard_version always returns octet 0 (refuted for every non-zero version)."
  },
  {
   "property": "C25",
   "status": "proved",
   "theorems": [
    "C25_oid_format",
    "C25_oid_unique"
   ],
   "note": "Holds as stated."
  },
  {
   "property": "C26",
   "status": "partial",
   "theorems": [
    "C26_find_enum",
    "C26_description_refuted",
    "C26_description_partial"
   ],
   "note": "find_enum holds; PropertyEnum::description returns the name (refuted)."
  },
  {
   "property": "C27",
   "status": "proved",
   "theorems": [
    "C27_table",
    "C27_lookup",
    "C27_instance_ignored"
   ],
   "note": "Holds as stated."
  },
  {
   "property": "C28",
   "status": "proved",
   "theorems": [
    "C28_device_properties",
    "C28_as_listed"
   ],
   "note": "Holds as stated."
  },
  {
   "property": "C29",
   "status": "partial",
   "theorems": [
    "C29_rules_refuted",
    "C29_rules_partial",
    "C29_exceptions_partial"
   ],
   "note": "False: conditionally required accesses become prohibited and super class rows shadow class rows (refuted). Partial: exact list of the excepted (class, property) pairs, every other row of every class is applied, every exception is real."
  },
  {
   "property": "C30",
   "status": "proved",
   "theorems": [
    "C30_defaults"
   ],
   "note": "Holds as stated."
  },
  {
   "property": "C31",
   "status": "proved",
   "theorems": [
    "C31_manufacturers"
   ],
   "note": "Holds as stated."
  },
  {
   "property": "C32",
   "status": "proved",
   "theorems": [
    "C32_instance_lists"
   ],
   "note": "Holds for up to 255 devices, for every history of node operations in which the application and the handlers do not overwrite the list properties and no second node profile is added."
  },
  {
   "property": "C33",
   "status": "partial",
   "theorems": [
    "C33_encodable_partial",
    "C33_too_long_refuted"
   ],
   "note": "False from 85 devices on: the list is longer than 255 octets (all nodes), the receiver of the startup announcement decodes an empty list; from 256 devices on the count octet is wrong. Partial: up to 84 devices."
  },
  {
   "property": "C34",
   "status": "partial",
   "theorems": [
    "C34_every_class_partial",
    "C34_repeated_refuted"
   ],
   "note": "False: a class is listed once per object, and the node profile is listed (refuted with two lamps). Partial: exact content for all nodes with up to 254 devices; every class is present."
  },
  {
   "property": "C35",
   "status": "proved",
   "theorems": [
    "C35_startup"
   ],
   "note": "Holds for up to 84 devices (above that see C33), for all interface sets and OS outcomes."
  },
  {
   "property": "C36",
   "status": "proved",
   "theorems": [
    "C36_no_reply"
   ],
   "note": "Holds: objects and handler state unchanged and no transmission. The only panic is the one of C02/C76: a 0x5E message with the TID of the last request (it is cloned and the clone fails), before anything was changed."
  },
  {
   "property": "C37",
   "status": "partial",
   "theorems": [
    "C37_correlation_partial",
    "C37_tid_zero_refuted"
   ],
   "note": "Objects always swapped; TID equal for every TID but 0. Refuted for TID 0: the node takes 0 for 'no TID' and answers with a fresh one."
  },
  {
   "property": "C38",
   "status": "proved",
   "theorems": [
    "C38_rejected_unchanged",
    "C38_rejected_unchanged_untransmitted"
   ],
   "note": "Holds, for what is transmitted and for responses that cannot be transmitted."
  },
  {
   "property": "C39",
   "status": "partial",
   "theorems": [
    "C39_error_contents_partial",
    "C39_write_read_refuted"
   ],
   "note": "Proved for all request services but 0x6E (whole frame characterised). Refuted for 0x6E: the error response lists the write properties twice and none of the read properties."
  },
  {
   "property": "C40",
   "status": "partial",
   "theorems": [
    "C40_write_visible",
    "C40_read_back_partial",
    "C40_read_back_refuted"
   ],
   "note": "The object holds the last data of every written property, for every handler. Reading it back over the network is proved for handlers that leave the object alone and codes other than the property maps; refuted in general: a handler can change the data when asked about the read."
  },
  {
   "property": "C41",
   "status": "proved",
   "theorems": [
    "C41_read_current"
   ],
   "note": "Holds in every reachable state; the data are those of the object after the handlers were asked."
  },
  {
   "property": "C42",
   "status": "partial",
   "theorems": [
    "C42_whole_request",
    "C42_disclosure",
    "C42_only_writable_change_partial",
    "C42_only_writable_change_refuted"
   ],
   "note": "Rejection of the whole request and non-disclosure hold for all handlers. 'Only writable properties change' is proved for handlers that leave the object alone, except for the property maps 0x9D-0x9F; refuted for these: every accepted request rewrites their data in another order."
  },
  {
   "property": "C43",
   "status": "partial",
   "theorems": [
    "C43_authority_partial",
    "C43_unanimous_rejection_partial",
    "C43_write_read_refuted"
   ],
   "note": "Proved for all request services but 0x6E. Refuted for 0x6E: the handlers are asked about an empty list and the write is carried out although all of them reject."
  },
  {
   "property": "C44",
   "status": "proved",
   "theorems": [
    "C44_only_valid_calls",
    "C44_object_shape"
   ],
   "note": "Holds: replacing a handler's behaviour outside valid calls never changes any result. The object given is the node's copy, as changed by the preceding handler calls for this request."
  },
  {
   "property": "C45",
   "status": "partial",
   "theorems": [
    "C45_default_device_partial",
    "C45_default_device_refuted"
   ],
   "note": "Proved for all request services but 0x6E; refuted for 0x6E, which is carried out."
  },
  {
   "property": "C46",
   "status": "partial",
   "theorems": [
    "C46_some_handler_accepts_all_partial",
    "C46_each_property_accepted_refuted"
   ],
   "note": "Refuted as stated: acceptance is per request, not per property; a request whose properties are accepted by different handlers is rejected. Proved: the request is accepted iff some handler accepts all properties; all handlers are asked about every property once, in order."
  },
  {
   "property": "C47",
   "status": "partial",
   "theorems": [
    "C47_isolation_partial",
    "C47_other_property_refuted"
   ],
   "note": "For all handlers: only the addressed object changes, and only data in it. That only properties named in the message change is refuted: a handler's changes to the copy are taken over; it holds for handlers that leave the object alone (C42_only_writable_change_partial)."
  },
  {
   "property": "C48",
   "status": "proved",
   "theorems": [
    "C48_write_no_response"
   ],
   "note": "Holds; 'exactly one' when a unicast socket is bound and the OS accepts the datagram."
  },
  {
   "property": "C49",
   "status": "partial",
   "theorems": [
    "C49_destination_partial",
    "C49_response_7A_refuted"
   ],
   "note": "Proved for all requests but 0x74. Refuted for 0x74: the response 0x7A goes to the multicast group instead of the requester."
  },
  {
   "property": "C50",
   "status": "partial",
   "theorems": [
    "C50_count",
    "C50_one_response_partial",
    "C50_restart_refuted"
   ],
   "note": "The number of responses equals the number of registrations of the node on the server (C50_count). Exactly one when the node is registered once and started only when stopped; two after a second start (refuted). Requires that the system accepts the datagrams and that nobody else holds the node."
  },
  {
   "property": "C51",
   "status": "proved",
   "theorems": [
    "C51_write_read"
   ],
   "note": "Holds in every reachable state."
  },
  {
   "property": "C52",
   "status": "partial",
   "theorems": [
    "C52_distinct_partial",
    "C52_reachable_distinct_partial",
    "C52_zero_refuted"
   ],
   "note": "False: the identifier 0 is chosen after 65535 (refuted). Partial: any 65536 successive ones are pairwise distinct."
  },
  {
   "property": "C53",
   "status": "proved",
   "theorems": [
    "C53_at_most_once"
   ],
   "note": "Holds for all histories."
  },
  {
   "property": "C54",
   "status": "partial",
   "theorems": [
    "C54_same_tid_partial",
    "C54_other_tid_refuted"
   ],
   "note": "False: after another request by the same node a message with the newer TID is delivered to the older receiver (refuted). Partial: without other requests in between."
  },
  {
   "property": "C55",
   "status": "partial",
   "theorems": [
    "C55_preset_tid_refuted",
    "C55_preset_tid_partial"
   ],
   "note": "False: the receiver of a post with a preset TID gets nothing, unless the preset TID happens to be the last one chosen (refuted). Partial: that case."
  },
  {
   "property": "C56",
   "status": "partial",
   "theorems": [
    "C56_not_a_request_partial",
    "C56_any_sender_refuted"
   ],
   "note": "False: sender, SEOJ and service of the delivered message are not checked (refuted). Partial: exact condition."
  },
  {
   "property": "C57",
   "status": "partial",
   "theorems": [
    "C57_in_turn_partial",
    "C57_first_receiver_dead_refuted"
   ],
   "note": "False for all pairs of posts: the receiver of the first post is never served after the second one. Proved (C57_in_turn_partial): of any number of posts each of which is made after the answer to the one before, every answer is delivered to its own receiver."
  },
  {
   "property": "C58",
   "status": "partial",
   "theorems": [
    "C58_delivered_partial",
    "C58_other_traffic_refuted"
   ],
   "note": "False: any request, announcement or search in between loses the response (refuted). Partial: it is delivered if the node chose no other TID in between."
  },
  {
   "property": "C59",
   "status": "partial",
   "theorems": [
    "C59_one_per_socket_partial",
    "C59_same_ip_refuted"
   ],
   "note": "False for IP addresses: node profile messages from one IP address and two source ports give two entries (refuted for every history). Partial: in every execution of a process no two entries have the same IP address and port."
  },
  {
   "property": "C60",
   "status": "proved",
   "theorems": [
    "C60_latest_list"
   ],
   "note": "Proved for every history of received messages and every node profile message (0x72 or 0x73 to 0x0EF001/0x0EF002) with one instance list property; the entry is keyed by address and port."
  },
  {
   "property": "C61",
   "status": "partial",
   "theorems": [
    "C61_forgets_refuted",
    "C61_others_kept_partial"
   ],
   "note": "False: every 0x72/0x73 to the node profile without an instance list, including the response to any read request of the controller and the startup announcement, reduces the entry of its sender to the node profile (refuted for every history). Partial: other messages and messages from other addresses remove nothing."
  },
  {
   "property": "C62",
   "status": "partial",
   "theorems": [
    "C62_stop_refuted",
    "C62_frozen_partial"
   ],
   "note": "False: stop leaves the list unchanged (refuted for every state of a process). Proved (C62_frozen_partial): from stop until the next start nothing changes the list, so that an empty one stays empty."
  },
  {
   "property": "C63",
   "status": "partial",
   "theorems": [
    "C63_excess_refuted",
    "C63_short_partial"
   ],
   "note": "False: a list with more codes than counted is accepted with all its codes (refuted for every history). Partial: a list with fewer codes than counted adds no object."
  },
  {
   "property": "C64",
   "status": "proved",
   "theorems": [
    "C64_discovery",
    "C64_standard_profile"
   ],
   "note": "Proved for every controller node, every device node of at most 84 objects after every history that leaves the node profile lists alone, every history of the controller. Assumes that handlers do not panic and do not change the object, and that datagrams sent are received."
  },
  {
   "property": "C65",
   "status": "partial",
   "theorems": [
    "C65_stop",
    "C65_node_stop",
    "C65_start_partial",
    "C65_start_complete_partial",
    "C65_missing_interface_refuted"
   ],
   "note": "False: an interface whose bind or join fails is skipped and start still returns true (refuted with two interfaces). Partial: after a successful start there are servers of both kinds, each bound, receiving and belonging to a usable address; all usable addresses are served when no bind or join fails; after stop nothing is left (proved for all managers and nodes whose stop returns; stop panics after a receive thread panicked, see C76)."
  },
  {
   "property": "C66",
   "status": "partial",
   "theorems": [
    "C66_transport_partial",
    "C66_node_partial",
    "C66_running_refuted"
   ],
   "note": "False: when the announcement cannot be sent, Node::start returns false with all servers running (refuted). Partial: Manager::start returning false leaves nothing; Node::start of a stopped node returning false leaves nothing unless an announcement was refused or there was none to make."
  },
  {
   "property": "C67",
   "status": "proved",
   "theorems": [
    "C67_retries"
   ],
   "note": "Holds: at most three attempts in total; success exactly when one of them succeeds."
  },
  {
   "property": "C68",
   "status": "proved",
   "theorems": [
    "C68_send",
    "C68_send_possible"
   ],
   "note": "Holds; it is offered at most once per interface. A TID is chosen first when the message has none."
  },
  {
   "property": "C69",
   "status": "partial",
   "theorems": [
    "C69_notify_partial",
    "C69_no_interface_refuted",
    "C69_skipped_refuted"
   ],
   "note": "False: without interfaces notify returns true (for all such nodes), and after a refusal the remaining interfaces are skipped (refuted). Partial: success means once per interface; failure means on fewer interfaces."
  },
  {
   "property": "C70",
   "status": "partial",
   "theorems": [
    "C70_in_order_partial",
    "C70_others_ignored",
    "C70_ends_on_request",
    "C70_nothing_after_stop",
    "C70_deaf_refuted"
   ],
   "note": "Proved for datagrams that are not cut right after the first list of a two-list frame and are not SetGet_SNA frames, over all histories of such datagrams and calls. A datagram cut there kills the receive thread and everything after it is lost (refuted)."
  },
  {
   "property": "C71",
   "status": "partial",
   "theorems": [
    "C71_once_partial",
    "C71_twice_refuted",
    "C71_late_refuted"
   ],
   "note": "Proved if start is called and observers are added only while the node is stopped. Otherwise false: a second start registers all observers again, and observers added while running are not called (refuted)."
  },
  {
   "property": "C72",
   "status": "partial",
   "theorems": [
    "C72_fits_partial",
    "C72_large_refuted"
   ],
   "note": "True for encodings of at most 1024 bytes; larger frames reach no observer (refuted)."
  },
  {
   "property": "C73",
   "status": "proved",
   "theorems": [
    "C73_no_deadlock",
    "C73_calls_return",
    "C73_completes",
    "C73_receive_thread",
    "C73_tiers_no_deadlock",
    "C73_tiers_calls_return",
    "C73_one_tier",
    "C73_tiers_each_call"
   ],
   "note": "Holds as stated, in the lock model, for applications which take their own mutexes in a fixed order and hold none which a handler or observer needs while they call the API, and whose handlers and observers do not call the API. The tiers theorems allow more: nodes are put in tiers, and handlers, observers and sections behind their mutexes call the API for nodes of higher tiers. Panics (poisoned mutexes) are not part of the lock model."
  },
  {
   "property": "C74",
   "status": "partial",
   "theorems": [
    "C74_for_ever",
    "C74_monolight_refuted",
    "C74_other_device_partial"
   ],
   "note": "Refuted: in the bundled example the main thread holds the mutex of the handler and waits in stop for the node, while the receive thread holds the node and waits for the mutex of the handler; neither ever goes on (C74_for_ever). Proved (C74_other_device_partial): calling methods of a device while holding the mutex of a handler of other devices, in any fixed order of the devices, never deadlocks and every call returns."
  },
  {
   "property": "C75",
   "status": "partial",
   "theorems": [
    "C75_dropped_refuted",
    "C75_answered_partial"
   ],
   "note": "False: if try_lock fails, the request is dropped silently (refuted). Answered if nobody else holds the node (partial)."
  },
  {
   "property": "C76",
   "status": "partial",
   "theorems": [
    "C76_calls_return_partial",
    "C76_runs_partial",
    "C76_stop_refuted",
    "C76_sna_refuted"
   ],
   "note": "Proved for all histories without datagrams cut after the first of two lists and without SetGet_SNA datagrams, and with handlers that return. False otherwise: stop panics after the former, and every call panics after a SetGet_SNA datagram with the TID used last (refuted)."
  },
  {
   "property": "C77",
   "status": "partial",
   "theorems": [
    "C77_never_wrong",
    "C77_remote_map_partial",
    "C77_device_state",
    "C77_tid_zero_refuted"
   ],
   "note": "C77_remote_map_partial: for any sequence of write (0x61) and read (0x62) requests posted through a controller, through encoding, transport buffer, decoding, dispatch, handlers, object and back, the answers equal those of a map, as long as the controller's transaction IDs do not wrap. C77_never_wrong and C77_device_state hold for any number of requests: an answer is right or missing, and the device holds the map. C77_tid_zero_refuted: the request that gets TID 0 after the wrap is executed but its answer is never delivered. Property maps (0x9D-0x9F) and frames above 1024 octets are excluded."
  },
  {
   "property": "C78",
   "status": "proved",
   "theorems": [
    "C78_stopped",
    "C78_cleared",
    "C78_tiers_stopped"
   ],
   "note": "Holds as stated: an empty list of servers (from the clearing of the list in stop to the next start) means that all receive threads of the node have ended."
  },
  {
   "property": "C79",
   "status": "partial",
   "theorems": [
    "C79_handler_refuted",
    "C79_other_device_partial"
   ],
   "note": "Refuted: the handler is called by the receive thread while it holds the node, and every method of the device waits for the node. Proved (C79_other_device_partial): a handler which calls methods of other devices, in any fixed order of the devices, never deadlocks and its calls return."
  },
  {
   "property": "C80",
   "status": "partial",
   "theorems": [
    "C80_observer_refuted",
    "C80_other_controller_partial"
   ],
   "note": "Refuted: stop holds the controller and the node while it joins the receive thread, and the observer called by that thread waits for the controller. Proved (C80_other_controller_partial): an observer which uses other controllers, in any fixed order of the controllers, never deadlocks; its calls return, and so does a stop of its own controller."
  },
  {
   "property": "C81",
   "status": "proved",
   "theorems": [
    "C81_contents",
    "C81_store"
   ],
   "note": "C81_contents and C81_store hold for every node and every sequence of calls (manufacturer codes are 32-bit integers)."
  },
  {
   "property": "C82",
   "status": "partial",
   "theorems": [
    "C82_read",
    "C82_write",
    "C82_set_then_read_partial",
    "C82_map_refuted"
   ],
   "note": "C82_read and C82_write hold for accepted requests. C82_set_then_read_partial: data set through the API is returned by the next accepted read, for handlers which do not alter the object and for all properties but the maps. C82_map_refuted: data set on a property map is recomputed before it is read from the network."
  },
  {
   "property": "C83",
   "status": "partial",
   "theorems": [
    "C83_new_device_partial",
    "C83_typed_partial",
    "C83_large_code_refuted"
   ],
   "note": "C83_new_device_partial and C83_typed_partial for codes below 2^24 not in use on the node. C83_large_code_refuted: a device with a larger code can be made, but none of its properties is ever found."
  },
  {
   "property": "C84",
   "status": "partial",
   "theorems": [
    "C84_isolation_partial",
    "C84_same_code_refuted"
   ],
   "note": "C84_isolation_partial: for devices with different codes, and for all properties but 0x80 and 0x88 when the history starts or stops the node. C84_same_code_refuted: a second device with the same code reads and writes the data of the first one."
  },
  {
   "property": "C85",
   "status": "proved",
   "theorems": [
    "C85_started",
    "C85_stopped",
    "C85_while_running"
   ],
   "note": "Holds as stated, for every property of every device; C85_while_running covers any history which does not address the device and does not start or stop the node."
  },
  {
   "property": "C86",
   "status": "partial",
   "theorems": [
    "C86_data_kept_partial",
    "C86_fault_forgotten_refuted"
   ],
   "note": "C86_data_kept_partial for all properties but operating status (0x80) and fault status (0x88). C86_fault_forgotten_refuted: a fault status set before the start is lost."
  },
  {
   "property": "C87",
   "status": "partial",
   "theorems": [
    "C87_drop_stops_all_refuted",
    "C87_data_kept_partial"
   ],
   "note": "Refuted: stopping or dropping one device stops the transport of the whole node, all its devices report off, and the dropped object stays in the instance list. C87_data_kept_partial: the other data are kept."
  },
  {
   "property": "C88",
   "status": "partial",
   "theorems": [
    "C88_follows_partial",
    "C88_switch_partial",
    "C88_write_read_refuted",
    "C88_start_refuted",
    "C88_rejected_refuted",
    "C88_refused_refuted"
   ],
   "note": "C88_follows_partial: over any history in which requests to the lamp carry at most one property, are not write-read requests and the application neither writes the status nor starts or stops the node, lamp and status agree. C88_switch_partial: writes without response of 0x30 and 0x31 are carried out. Refuted in general: write-read requests bypass the handler, start sets the status but not the lamp, a rejected request switches the lamp, confirmed writes and reads are refused."
  },
  {
   "property": "C89",
   "status": "proved",
   "theorems": [
    "C89_codec",
    "C89_object",
    "C89_database",
    "C89_node",
    "C89_device",
    "C89_process",
    "C89_same"
   ],
   "note": "Holds as stated. C89_codec, C89_object, C89_database, C89_node, C89_device and C89_process cover every modelled function in which an overflow can happen; C89_same: histories of safe calls and datagrams are equal and do not panic. Handlers are the same function in both builds. C89_differ shows what a release build computes where the debug build panics."
  },
  {
   "property": "C90",
   "status": "partial",
   "theorems": [
    "C90_frames_partial",
    "C90_refused_refuted",
    "C90_long_data_refuted",
    "C90_many_devices_refuted"
   ],
   "note": "C90_frames_partial proves it for at most 84 devices, property data of at most 255 octets and messages within the limits of the format, except responses with service 0x5E. Refuted outside: every refusal of a 0x6E request is no frame (C90_refused_refuted, for all nodes), data of 256 octets (C90_long_data_refuted), 85 devices (C90_many_devices_refuted)."
  },
  {
   "property": "C91",
   "status": "partial",
   "theorems": [
    "C91_answer_partial",
    "C91_read_map_partial",
    "C91_write_map_partial",
    "C91_bitmap_refuted"
   ],
   "note": "Proved for the short form and for codes below 0xC0 of the bitmap form, for objects with codes of 0x80 and above and handlers that leave the object alone (C91_answer_partial, C91_read_map_partial, C91_write_map_partial). Refuted for the bitmap form: code 0xC0 can be read but is not listed (C91_bitmap_refuted)."
  },
  {
   "property": "C92",
   "status": "proved",
   "theorems": [
    "C92_bound",
    "C92_rest",
    "C92_only_requests"
   ],
   "note": "One datagram reaches at most R receive threads, for any R; observers of applications are assumed not to send (model of ModelHost)."
  },
  {
   "property": "C93",
   "status": "partial",
   "theorems": [
    "C93_sends_partial",
    "C93_write_read_refuted",
    "C93_nothing",
    "C93_response_required_refuted",
    "C93_usage",
    "C93_verbose"
   ],
   "note": "Proved for the services 0x60 to 0x63. Refuted for 0x6E (the tool fills the one-list properties, so both lists are sent empty) and 0x74 (nothing is sent)."
  },
  {
   "property": "C94",
   "status": "partial",
   "theorems": [
    "C94_survives_partial",
    "C94_survives_refuted"
   ],
   "note": "Proved for non-empty arguments, in release builds or with object codes of at most four octets. Refuted: an empty argument in place of the service panics in every build, a long object code in debug builds."
  },
  {
   "property": "C95",
   "status": "partial",
   "theorems": [
    "C95_asks",
    "C95_tells",
    "C95_survives_partial",
    "C95_args",
    "C95_survives_refuted"
   ],
   "note": "Proved, survival for release builds or answers of at most four octets. Refuted: a debug build panics when a node answers five octets for the manufacturer code."
  },
  {
   "property": "C96",
   "status": "partial",
   "theorems": [
    "C96_asks",
    "C96_args_partial",
    "C96_count",
    "C96_args_refuted"
   ],
   "note": "Rounds proved without exception; command lines without -n proved. Refuted: -n at the end or before a text that is not a number panics."
  },
  {
   "property": "C97",
   "status": "proved",
   "theorems": [
    "C97_send",
    "C97_post",
    "C97_search",
    "C97_search_from"
   ],
   "note": "Holds as stated."
  },
  {
   "property": "C98",
   "status": "partial",
   "theorems": [
    "C98_all_found_partial",
    "C98_many_devices_refuted"
   ],
   "note": "Proved for nodes of at most 84 devices (C98_all_found_partial); C98_many_devices_refuted is an execution with 85 devices on one node where, all else being as assumed, the entry of that node shows none of them (the instance list no longer fits one property, see C33). Also assumed: that nobody else holds the lock of a node or controller when a datagram arrives (else it is dropped, see C75), that no send fails, that applications do not overwrite the instance list, and that a process is seen under one address (with several, it has several entries, see C59)."
  },
  {
   "property": "C99",
   "status": "proved",
   "theorems": [
    "C99_text",
    "C99_read_back",
    "C99_same_text",
    "C99_service"
   ],
   "note": "Proved. Writing to the formatter is assumed to succeed."
  },
  {
   "property": "C100",
   "status": "partial",
   "theorems": [
    "C100_node_never",
    "C100_node_drop",
    "C100_registered_never",
    "C100_registered_drop",
    "C100_device_partial",
    "C100_value_partial",
    "C100_others",
    "C100_drop_returns",
    "C100_node_refuted",
    "C100_registered_refuted"
   ],
   "note": "Refuted for a Node handle (C100_node_refuted; for every node, C100_node_never and C100_node_drop) and for registered values (C100_registered_refuted; for all, C100_registered_never and C100_registered_drop). Proved: dropping a Device or Controller, or the last pointer to a value that owns one, stops its node (C100_device_partial, C100_value_partial), stops nothing else (C100_others) and returns (C100_drop_returns). Locks, and failures of stop, are outside this model."
  },
  {
   "property": "C101",
   "status": "proved",
   "theorems": [
    "C101_exact",
    "C101_stopped",
    "C101_start"
   ],
   "note": "Histories with arguments of the right types; includes histories with panicked threads."
  },
  {
   "property": "C102",
   "status": "partial",
   "theorems": [
    "C102_maps",
    "C102_octets",
    "C102_device_objects",
    "C102_objects",
    "C102_seeds_refuted",
    "C102_seeds_partial",
    "C102_run"
   ],
   "note": "Refuted as equality (C102_seeds_refuted). C102_seeds_partial and C102_run prove that two runs stay alike: equal except for the order of codes in short property maps. User handlers are required to be order-blind, property codes to be at least 0x80."
  },
  {
   "property": "C103",
   "status": "proved",
   "theorems": [
    "C103_fields",
    "C103_lists",
    "C103_properties"
   ],
   "note": "Holds as stated."
  },
  {
   "property": "C104",
   "status": "proved",
   "theorems": [
    "C104_property"
   ],
   "note": "Holds as stated."
  },
  {
   "property": "C105",
   "status": "partial",
   "theorems": [
    "C105_from_string",
    "C105_types_refuted",
    "C105_types_partial"
   ],
   "note": "C105_types_refuted: 0xDA of the instantaneous water heater has the empty type. C105_types_partial: every property whose type is not empty has one of the twelve."
  },
  {
   "property": "C106",
   "status": "proved",
   "theorems": [
    "C106_in_turn"
   ],
   "note": "C106_in_turn, for every reachable state of the thread model; no node runs at the beginning. start and stop take effect on the node at one instant; their receive threads begin, get observers and end between that instant and the return."
  },
  {
   "property": "C107",
   "status": "proved",
   "theorems": [
    "C107_completes",
    "C107_no_deadlock"
   ],
   "note": "C107_completes and C107_no_deadlock, in the thread model with start, stop and panics, for handlers which take no mutexes."
  },
  {
   "property": "C108",
   "status": "proved",
   "theorems": [
    "C108_sequence",
    "C108_reachable"
   ],
   "note": "C108_sequence and C108_reachable, in the thread model."
  },
  {
   "property": "C109",
   "status": "proved",
   "theorems": [
    "C109_tids"
   ],
   "note": "Up to 65536 calls, as the counter starts again after that many; a request with TID 0 takes a TID for its answer (C109_case_between), so none of these may arrive."
  },
  {
   "property": "C110",
   "status": "proved",
   "theorems": [
    "C110_servers",
    "C110_not_told",
    "C110_own_threads",
    "C110_no_leak",
    "C110_stopped"
   ],
   "note": "In the thread model; no node runs at the beginning."
  },
  {
   "property": "C111",
   "status": "proved",
   "theorems": [
    "C111_objects",
    "C111_stable",
    "C111_new",
    "C111_remotes",
    "C111_remote_clone",
    "C111_remote_new",
    "C111_properties"
   ],
   "note": "The derived Hash of SocketAddr is modelled as variant, address and port."
  },
  {
   "property": "C112",
   "status": "proved",
   "theorems": [
    "C112_finite",
    "C112_endless",
    "C112_fair",
    "C112_receivers",
    "C112_told"
   ],
   "note": "C112_finite (well-founded) and C112_endless: no livelock, without fairness. C112_fair, C112_receivers and C112_told: under strong fairness, with negative definitions of often and some_time, so no classical axiom is used. In the thread model; Rust's Mutex itself gives no fairness."
  },
  {
   "property": "C113",
   "status": "partial",
   "theorems": [
    "C113_received",
    "C113_once",
    "C113_channels",
    "C113_own_tid_partial",
    "C113_own_tid_refuted",
    "C113_after_post_refuted"
   ],
   "note": "C113_received, C113_once and C113_channels hold always; C113_own_tid_partial needs undisturbed TIDs, C113_own_tid_refuted shows why; C113_after_post_refuted: an earlier message may be taken for the answer. In the thread model; waiting may time out at any moment."
  },
  {
   "property": "C114",
   "status": "proved",
   "theorems": [
    "C114_found",
    "C114_kept",
    "C114_latest_refuted"
   ],
   "note": "Holds as stated. C114_found and C114_kept hold always; C114_latest_refuted: an older instance list may replace a newer one. In the thread model, with a controller that starts without entries."
  },
  {
   "property": "C115",
   "status": "partial",
   "theorems": [
    "C115_order",
    "C115_search",
    "C115_bench",
    "C115_post",
    "C115_search_asks",
    "C115_search_tid",
    "C115_bench_tid",
    "C115_post_tid",
    "C115_sender_refuted"
   ],
   "note": "C115_order is program order of every thread. C115_search, C115_bench and C115_post describe finished runs, C115_search_asks unfinished ones. The TID theorems need requests that get the number of the node (requests_numbered) and the tool alone. C115_sender_refuted: an answer of another node with the right TID is taken for the answer of the node asked, so the last sentence of the statement is false of the code."
  },
  {
   "property": "C116",
   "status": "proved",
   "theorems": [
    "C116_device",
    "C116_fresh",
    "C116_answers",
    "C116_origin"
   ],
   "note": "C116_device is the refinement to the machine of SpecShared.v (no mutexes, no objects), C116_fresh, C116_answers and C116_origin are consequences of it. C116_answers is about answers whose TID and addressee no message received before the return of the write had. Writes to the property maps (0x9D to 0x9F) and handlers that change objects are left out."
  },
  {
   "property": "C117",
   "status": "proved",
   "theorems": [
    "C117_fresh",
    "C117_receiver",
    "C117_origin"
   ],
   "note": "C117_fresh: reads over the network; C117_receiver: the same for what the receiver of a post gives out; C117_origin: where values come from. C117_case is an execution of two processes which fulfills the premises (C117_case_premises); C117_case_late shows that the premise about TIDs is needed: an answer sent before the write may arrive after it. Premises exclude requests about property maps and values longer than 255 octets."
  },
  {
   "property": "C118",
   "status": "proved",
   "theorems": [
    "C118_local",
    "C118_remote",
    "C118_posted"
   ],
   "note": "C118_local: reads in the process of the device; C118_remote: reads of any process; C118_posted: through the receivers of posts. C118_case is an execution which fulfills the premises (C118_case_premises). C118_case_repeated shows why other writes are excluded, repeated requests among them: the network repeats an answered write request after the device's own thread has written something else, and the device carries it out again."
  },
  {
   "property": "C119",
   "status": "proved",
   "theorems": [
    "C119_added",
    "C119_battery_refuted"
   ],
   "note": "Holds as stated. C119_added is for all executions of all processes. It assumes that the devices of the other process have no property 0xD6 of their own; C119_battery_refuted shows that without this premise the claim is false: is_node_profile_message checks the service and the destination but not the source object of a message."
  },
  {
   "property": "C120",
   "status": "proved",
   "theorems": [
    "C120_complete",
    "C120_announced_refuted"
   ],
   "note": "Holds as stated. C120_complete is for all executions. C120_announced_refuted: without the premise that the entry has a device the claim is false, since the announcement of a start makes an entry with the node profile alone."
  },
  {
   "property": "C121",
   "status": "proved",
   "theorems": [
    "C121_fresh",
    "C121_controller",
    "C121_told_refuted"
   ],
   "note": "Holds as stated. C121_fresh and C121_controller are for all executions. C121_told_refuted: without the premise about questions the claim is false: add_object on a running node sends nothing, so that a controller which has its answer never hears of the new device."
  },
  {
   "property": "C122",
   "status": "proved",
   "theorems": [
    "C122_whole",
    "C122_pair",
    "C122_calls_refuted"
   ],
   "note": "C122_whole is the general statement, C122_pair the one for two properties; both are about Get_Res (0x72). The predicate keeps is stated on calls and messages (SpecWhole.v), not on the model. C122_calls_refuted is the last sentence of the statement."
  },
  {
   "property": "C123",
   "status": "partial",
   "theorems": [
    "C123_first_row",
    "C123_required_refuted",
    "C123_required_partial",
    "C123_exceptions_partial"
   ],
   "note": "False: the super class is added first and add_property keeps the first property with a code, so a lamp says that its operating status need not be writable although the row of its class requires it (C123_required_refuted). C123_first_row: the words that count are those of the first row, for all devices. C123_required_partial: true for every row of every class except 46 (class, property) triples, and C123_exceptions_partial: each of these triples is a real exception."
  },
  {
   "property": "C124",
   "status": "proved",
   "theorems": [
    "C124_text4",
    "C124_text6",
    "C124_unicast",
    "C124_as_modelled",
    "C124_multicast_refuted",
    "C124_group_refuted",
    "C124_ignored",
    "C124_never",
    "C124_filters",
    "C124_all_refuted"
   ],
   "note": "C124_ignored and C124_never are the claim about the host; C124_text4, C124_text6 the texts (SocketAddr::from_str and Display of the standard library are modelled, except what the parser does behind an opening bracket, which is arbitrary); C124_as_modelled shows that ModelTransport.v, which leaves the texts out, says the same for IPv4; C124_multicast_refuted, C124_group_refuted and C124_all_refuted are the faults named in the statement."
  },
  {
   "property": "C125",
   "status": "proved",
   "theorems": [
    "C125_manufactures",
    "C125_objects",
    "C125_added_partial",
    "C125_instance_refuted",
    "C125_listed_refuted",
    "C125_calls"
   ],
   "note": "C125_manufactures and C125_objects; C125_added_partial is the case in which an added object is found, C125_instance_refuted and C125_listed_refuted the cases named in the statement in which it is not."
  },
  {
   "property": "C126",
   "status": "proved",
   "theorems": [
    "C126_init",
    "C126_printed",
    "C126_level_refuted"
   ],
   "note": "C126_init, C126_printed; C126_level_refuted shows that the method set_level of Logger changes nothing, as the statement says: the logger in use is a static that cannot be reached by it. The log crate and Once are modelled as documented. Calls are taken one after another."
  },
  {
   "property": "C127",
   "status": "proved",
   "theorems": [
    "C127_cause",
    "C127_never",
    "C127_change_refuted"
   ],
   "note": "PropertiesAnnounce.v. The refuted part is named in the statement: C127_change_refuted."
  },
  {
   "property": "C128",
   "status": "proved",
   "theorems": [
    "C128_taken",
    "C128_without_reuse",
    "C128_shared",
    "C128_node",
    "C128_portable_refuted"
   ],
   "note": "PropertiesPorts.v. The rule is that of UDP sockets on Linux; a system which lets the wildcard address and a particular address coexist is not of this kind. Dual-stack IPv6 sockets are left out. The refuted part is named in the statement: C128_without_reuse and C128_node for all states, C128_portable_refuted as a case."
  },
  {
   "property": "C129",
   "status": "proved",
   "theorems": [
    "C129_node",
    "C129_data",
    "C129_controller",
    "C129_one_machine_refuted"
   ],
   "note": "C129_node, C129_data and C129_controller hold from any state of a process. C129_one_machine_refuted: for every list of different addresses a controller gets exactly that many entries, so that a bound per machine is false, as the statement says. C129_data assumes that handlers of the application do not lengthen data (short_handler)."
  },
  {
   "property": "C130",
   "status": "proved",
   "theorems": [
    "C130_count",
    "C130_size",
    "C130_read",
    "C130_repeated"
   ],
   "note": "Proved. C130_large_case: a request of 512 octets is answered with 64262 octets."
  },
  {
   "property": "C131",
   "status": "proved",
   "theorems": [
    "C131_distinct",
    "C131_writable_refuted",
    "C131_no_std_same",
    "C131_no_std_add",
    "C131_no_std_refuted",
    "C131_kept",
    "C131_taken_refuted"
   ],
   "note": "C131_distinct, C131_kept (any property that the library does not maintain), C131_no_std_same (a build without std behaves like one whose Uuid::new_v4 returns fixed octets, so theorems about all UUIDs cover it). Refuted for the code: C131_writable_refuted (0x83 of every object is writable by the rules; the table has two rows for it in the super class and the first, which is writable, wins over the second, which is not, and over that of the node profile), C131_taken_refuted (a request gives a lamp the number of another one), C131_no_std_refuted (one number for all)."
  },
  {
   "property": "C132",
   "status": "partial",
   "theorems": [
    "C132_overview_partial",
    "C132_overview_unchecked_refuted",
    "C132_inside_partial",
    "C132_inside_reads_refuted",
    "C132_example_refuted"
   ],
   "note": "C132_overview_partial: the part that holds for the handler of device_overview.md. C132_overview_unchecked_refuted: writes with response and write-read requests are carried out for every check. C132_inside_partial: writes of one property with the handler of device_inside.md. C132_inside_reads_refuted: every read and request for a notification is refused. C132_example_refuted: the example of Controller asks every object once per property that must be readable, names no property and shows no data of devices of this library."
  },
  {
   "property": "C133",
   "status": "proved",
   "theorems": [
    "C133_bind",
    "C133_start",
    "C133_start_failed",
    "C133_stop",
    "C133_stop_within_timeout_refuted",
    "C133_timeout_refuted"
   ],
   "note": "ModelTime.v repeats the functions of start and stop with the time they take; C133_bind and C133_start also show that without the clock they are those of ModelTransport.v. C133_stop_within_timeout_refuted and C133_timeout_refuted are the two negative sentences. Only sleeps, receives, the work between receives and join take time; that the work ends (it needs the node, which stop may hold) is the subject of C73."
  },
  {
   "property": "C134",
   "status": "proved",
   "theorems": [
    "C134_decided",
    "C134_last_writer",
    "C134_stable",
    "C134_duplicate",
    "C134_reorder",
    "C134_refused",
    "C134_answer",
    "C134_stale_refuted"
   ],
   "note": "C134_decided and C134_stable: which requests are carried out can be computed from the node before; C134_refused: the others are refused. C134_last_writer, C134_duplicate, C134_reorder, C134_answer; C134_stale_refuted is the last sentence (the node keeps no record of the transaction ids that it has answered). The property maps are left out because the order of their codes is that of a hash map."
  },
  {
   "property": "C135",
   "status": "proved",
   "theorems": [
    "C135_entries",
    "C135_duplicate",
    "C135_reorder",
    "C135_stale_refuted",
    "C135_order_refuted"
   ],
   "note": "C135_entries is the complete description, in terms of the relation latest; C135_duplicate and C135_reorder follow from it. C135_stale_refuted and C135_order_refuted are the negative sentences, for all such messages. Which messages reach the controller at all is the subject of C70 and C75."
  },
  {
   "property": "C136",
   "status": "proved",
   "theorems": [
    "C136_answer",
    "C136_sent"
   ],
   "note": "C136_answer compares what message_received does for the two senders, C136_sent what the node hands to the operating system. Requests with transaction id 0 are left out of C136_sent, because the node then puts an id of its own into the answer."
  },
  {
   "property": "C137",
   "status": "proved",
   "theorems": [
    "C137_apart",
    "C137_same"
   ],
   "note": "C137_apart leaves the other steps out and replaces the other objects; C137_same compares two histories with the same steps for x. The condition on the handlers (user_apart) is about the application, not the library; C137_shared shows that it is needed. Starting and stopping, which write the operating status of every object, are not among the steps (see C84, C85)."
  },
  {
   "property": "C138",
   "status": "proved",
   "theorems": [
    "C138_own_messages",
    "C138_no_forgery",
    "C138_lost"
   ],
   "note": "C138_own_messages compares two controllers, C138_no_forgery two moments of one, C138_lost two networks. An address is IP address and port, as in C59. Sender addresses are those the operating system reports; forged ones are not told apart."
  },
  {
   "property": "C139",
   "status": "partial",
   "theorems": [
    "C139_source",
    "C139_send",
    "C139_post",
    "C139_group",
    "C139_group_reached",
    "C139_asked_partial",
    "C139_asked_refuted"
   ],
   "note": "C139_source: every datagram of every history leaves from port 3610 of an interface address or, to the group, from the wildcard address. C139_send and C139_post: the sockets are tried in the order of the interfaces. C139_group, C139_group_reached: the calls for the group do not differ. C139_asked_partial: an answer leaves from the address asked if there is no other or it is the first one and sends succeed. Missing: the other addresses, for which it is false (C139_asked_refuted: a request to 10.0.0.1 is answered from 192.168.0.10). The model takes the local address of a socket to be the one it was bound to; which address the system writes for the wildcard is not modelled."
  },
  {
   "property": "C140",
   "status": "partial",
   "theorems": [
    "C140_false_partial",
    "C140_start_partial",
    "C140_answer_refuted",
    "C140_group_refuted",
    "C140_start_refuted"
   ],
   "note": "C140_false_partial, C140_start_partial; the full claim is refuted by C140_answer_refuted, C140_group_refuted and C140_start_refuted."
  },
  {
   "property": "C141",
   "status": "partial",
   "theorems": [
    "C141_others_partial",
    "C141_itself_refuted"
   ],
   "note": "C141_others_partial; the full claim is refuted by C141_itself_refuted, for every network as in C98."
  },
  {
   "property": "C142",
   "status": "partial",
   "theorems": [
    "C142_added",
    "C142_order_partial",
    "C142_more",
    "C142_lists",
    "C142_lists_refuted",
    "C142_same_code_refuted"
   ],
   "note": "C142_added (nothing is lost), C142_order_partial (any two orders, every history; needs distinct codes and leaves out the node profile), C142_more (other devices are not affected), C142_lists (what the node profile tells); refuted: C142_lists_refuted (the order shows in 0xD6), C142_same_code_refuted (the first of two devices with one code answers). C142_order_partial rests on C137_same."
  },
  {
   "property": "C143",
   "status": "partial",
   "theorems": [
    "C143_nobody_refuted",
    "C143_taken_for_list_refuted",
    "C143_standard_partial",
    "C143_battery_refuted"
   ],
   "note": "C143_nobody_refuted (every node where 0xD6 of x cannot be read: silent or refusing, nothing listed), C143_standard_partial (all standard classes but those in with_d6 are such), C143_taken_for_list_refuted (any answer with 0xD6 is taken for the list, whichever object sent it), C143_battery_refuted (a concrete node). What holds for the node profile is C64 and C98."
  },
  {
   "property": "C144",
   "status": "partial",
   "theorems": [
    "C144_rules_partial",
    "C144_data_refuted",
    "C144_own_refuted",
    "C144_extra_refuted"
   ],
   "note": "C144_rules_partial (the same properties and rules), C144_data_refuted (the data shown are always those of a new device), C144_own_refuted (nothing outside the standard is shown), C144_extra_refuted (a concrete lamp with a property of its maker). The identification number 0x83 is fresh at every controller (C131), the property maps are those of C18 to C20."
  },
  {
   "property": "C145",
   "status": "partial",
   "theorems": [
    "C145_agree_partial",
    "C145_announced_refuted",
    "C145_search_refuted"
   ],
   "note": "C145_agree_partial (equal last words, equal lists), C145_announced_refuted (after a start every controller knows the node without its devices), C145_search_refuted (two concrete controllers, one of which searches)."
  },
  {
   "property": "C146",
   "status": "partial",
   "theorems": [
    "C146_nobody_refuted",
    "C146_zero_refuted"
   ],
   "note": "C146_nobody_refuted (silence at every node without an instance 0), C146_zero_refuted (the others of the class are left alone), with two lamps as a case. Premise of the first: the service is not 0x5E, which makes any message in flight with the last TID a panic (C76)."
  },
  {
   "property": "C147",
   "status": "partial",
   "theorems": [
    "C147_answers_partial",
    "C147_refused_refuted",
    "C147_nothing_written_partial"
   ],
   "note": "Refuted: the node checks the notified properties against its own object, as if they were to be read; an object without the property (every notification of a device property to a node profile or controller object, say) answers 0x53, the refusal of a notification request, and no handler is told. Where it does confirm, the confirmation goes to the multicast group and not to the sender. Proved exactly: every answer is one of the two, and nothing is written but what handlers write (property maps aside)."
  },
  {
   "property": "C148",
   "status": "partial",
   "theorems": [
    "C148_any_refuted",
    "C148_not_larger_partial",
    "C148_new_refuted"
   ],
   "note": "Refuted: of the size only the upper bound is checked and of the values nothing; whatever write is carried out, every write of the same codes with data that are not longer is carried out as well, empty data and values outside the enumeration included. Of a new device all properties but six (and the maps) are empty. Proved: new devices have no data longer than listed, and no sequence of received messages makes data longer than the size of the property (property maps aside)."
  },
  {
   "property": "C149",
   "status": "partial",
   "theorems": [
    "C149_whole_refuted",
    "C149_no_data_refuted",
    "C149_alone_partial"
   ],
   "note": "Refuted: one property that is missing, not permitted or too small makes the node do nothing and send the properties back as they came; a read request is answered without any data, whatever else could be read. Proved exactly for 0x60 to 0x63. Asked for one by one, the properties that can be read are answered with their data (C149_alone_partial)."
  },
  {
   "property": "C150",
   "status": "partial",
   "theorems": [
    "C150_never_wrong_partial",
    "C150_one_is_enough_partial",
    "C150_all_serve_partial"
   ],
   "note": "Partial: no other traffic among the processes meanwhile (other messages sent, posted or announced; nodes started and stopped), no devices added, at most 84 devices per process (C98_many_devices_refuted)."
  },
  {
   "property": "C151",
   "status": "partial",
   "theorems": [
    "C151_answered_refuted",
    "C151_changes_nothing_partial"
   ],
   "note": "Refuted in one point: such a request to an object of the node is answered as carried out, with an empty list, even where every handler would have refused (a write without response, 0x60, aside). Proved: no handler is asked, and no data change (property maps aside)."
  }
 ]
}