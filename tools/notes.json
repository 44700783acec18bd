{
 "C02": "False of the code: the encoder writes one property list for 0x5E, the decoder expects two and panics on every such encoding (refuted, for all messages). Partial: well-formed two-list 0x5E frames are decoded completely.",
 "C03": "False of the code: a frame of a two-list service (0x6E, 0x7E, 0x5E) that ends right after its first list makes the decoder panic. Partial: exact characterisation of the panicking inputs; single-list services never panic.",
 "C06": "False for ESV 0x5E (clone panics). Partial: holds for all other services within the wire limits, except that lists unused by the service are dropped.",
 "C07": "equals is an equivalence, but it ignores the set and get lists, so equal messages may have different bytes (refuted). Partial: holds for single-list services.",
 "C09": "False: parse appends to the existing lists (refuted). Partial: exact result; a message with empty lists behaves like a fresh one.",
 "C13": "False for more than 255 properties or data octets (refuted, the counters are truncated). Partial: within the limits.",
 "C14": "False: from_bytes returns a message in every case and a rejected input cannot be told from a valid frame (refuted). Partial: what the result is for accepted inputs.",
 "C19": "False: the bitmap loses every code from 0xC0 upwards (mask 0x0F). Partial: exactly the codes below 0xC0 are listed, for all objects with codes 0x80..0xFF.",
 "C20": "Freshness holds for all addition sequences; refuted for the bitmap form, which lists only codes below 0xC0 because of the defect shown in C19 (C20_maps_current_refuted).",
 "C21": "Code, property set, attributes and non-map data are preserved for all hash orders; the map properties hold the same set but possibly in another order (refuted as byte equality, partial as sets).",
 "C23": "The write/read half holds. Reading panics in a debug build for more than four octets (refuted); partial: exactly then.",
 "C24": "All accessors but standard_version hold; standard_version always returns octet 0 (refuted for every non-zero version).",
 "C26": "find_enum holds; PropertyEnum::description returns the name (refuted).",
 "C29": "False: conditionally required accesses become prohibited and super class rows shadow class rows (refuted). Partial: exact list of the excepted (class, property) pairs, every other row of every class is applied, every exception is real.",
 "C32": "Holds for up to 255 devices, for every history of node operations in which the application and the handlers do not overwrite the list properties and no second node profile is added.",
 "C33": "False from 85 devices on: the list is longer than 255 octets (all nodes), the receiver of the startup announcement decodes an empty list; from 256 devices on the count octet is wrong. Partial: up to 84 devices.",
 "C34": "False: a class is listed once per object, and the node profile is listed (refuted with two lamps). Partial: exact content for all nodes with up to 254 devices; every class is present.",
 "C35": "Holds for up to 84 devices (above that see C33), for all interface sets and OS outcomes.",
 "C36": "Holds: objects and handler state unchanged and no transmission. The only panic is the one of C02/C76: a 0x5E message with the TID of the last request (it is cloned and the clone fails), before anything was changed.",
 "C37": "Objects always swapped; TID equal for every TID but 0. Refuted for TID 0: the node takes 0 for 'no TID' and answers with a fresh one.",
 "C38": "Holds, for what is transmitted and for responses that cannot be transmitted.",
 "C39": "Proved for all request services but 0x6E (whole frame characterised). Refuted for 0x6E: the error response lists the write properties twice and none of the read properties.",
 "C40": "The object holds the last data of every written property, for every handler. Reading it back over the network is proved for handlers that leave the object alone and codes other than the property maps; refuted in general: a handler can change the data when asked about the read.",
 "C41": "Holds in every reachable state; the data are those of the object after the handlers were asked.",
 "C42": "Rejection of the whole request and non-disclosure hold for all handlers. 'Only writable properties change' is proved for handlers that leave the object alone, except for the property maps 0x9D-0x9F; refuted for these: every accepted request rewrites their data in another order.",
 "C43": "Proved for all request services but 0x6E. Refuted for 0x6E: the handlers are asked about an empty list and the write is carried out although all of them reject.",
 "C44": "Holds: replacing a handler's behaviour outside valid calls never changes any result. The object given is the node's copy, as changed by the preceding handler calls for this request.",
 "C45": "Proved for all request services but 0x6E; refuted for 0x6E, which is carried out.",
 "C46": "Refuted as stated: acceptance is per request, not per property; a request whose properties are accepted by different handlers is rejected. Proved: the request is accepted iff some handler accepts all properties; all handlers are asked about every property once, in order.",
 "C47": "For all handlers: only the addressed object changes, and only data in it. That only properties named in the message change is refuted: a handler's changes to the copy are taken over; it holds for handlers that leave the object alone (C42_only_writable_change_partial).",
 "C48": "Holds; 'exactly one' when a unicast socket is bound and the OS accepts the datagram.",
 "C49": "Proved for all requests but 0x74. Refuted for 0x74: the response 0x7A goes to the multicast group instead of the requester.",
 "C51": "Holds in every reachable state.",
 "C52": "False: the identifier 0 is chosen after 65535 (refuted). Partial: any 65536 successive ones are pairwise distinct.",
 "C53": "Holds for all histories.",
 "C54": "False: after another request by the same node a message with the newer TID is delivered to the older receiver (refuted). Partial: without other requests in between.",
 "C55": "False: the receiver of a post with a preset TID gets nothing, unless the preset TID happens to be the last one chosen (refuted). Partial: that case.",
 "C56": "False: sender, SEOJ and service of the delivered message are not checked (refuted). Partial: exact condition.",
 "C57": "False for all pairs of posts: the receiver of the first post is never served after the second one. Proved (C57_in_turn_partial): of any number of posts each of which is made after the answer to the one before, every answer is delivered to its own receiver.",
 "C58": "False: any request, announcement or search in between loses the response (refuted). Partial: it is delivered if the node chose no other TID in between.",
 "C59": "False for IP addresses: node profile messages from one IP address and two source ports give two entries (refuted for every history). Partial: in every execution of a process no two entries have the same IP address and port.",
 "C60": "Proved for every history of received messages and every node profile message (0x72 or 0x73 to 0x0EF001/0x0EF002) with one instance list property; the entry is keyed by address and port.",
 "C61": "False: every 0x72/0x73 to the node profile without an instance list, including the response to any read request of the controller and the startup announcement, reduces the entry of its sender to the node profile (refuted for every history). Partial: other messages and messages from other addresses remove nothing.",
 "C62": "False: stop leaves the list unchanged (refuted for every state of a process). Proved (C62_frozen_partial): from stop until the next start nothing changes the list, so that an empty one stays empty.",
 "C63": "False: a list with more codes than counted is accepted with all its codes (refuted for every history). Partial: a list with fewer codes than counted adds no object.",
 "C64": "Proved for every controller node, every device node of at most 84 objects after every history that leaves the node profile lists alone, every history of the controller. Assumes that handlers do not panic and do not change the object, and that datagrams sent are received.",
 "C65": "False: an interface whose bind or join fails is skipped and start still returns true (refuted with two interfaces). Partial: after a successful start there are servers of both kinds, each bound, receiving and belonging to a usable address; all usable addresses are served when no bind or join fails; after stop nothing is left (proved for all managers and nodes whose stop returns; stop panics after a receive thread panicked, see C76).",
 "C66": "False: when the announcement cannot be sent, Node::start returns false with all servers running (refuted). Partial: Manager::start returning false leaves nothing; Node::start of a stopped node returning false leaves nothing unless an announcement was refused or there was none to make.",
 "C67": "Holds: at most three attempts in total; success exactly when one of them succeeds.",
 "C68": "Holds; it is offered at most once per interface. A TID is chosen first when the message has none.",
 "C69": "False: without interfaces notify returns true (for all such nodes), and after a refusal the remaining interfaces are skipped (refuted). Partial: success means once per interface; failure means on fewer interfaces.",
 "C50": "The number of responses equals the number of registrations of the node on the server (C50_count). Exactly one when the node is registered once and started only when stopped; two after a second start (refuted). Requires that the system accepts the datagrams and that nobody else holds the node.",
 "C70": "Proved for datagrams that are not cut right after the first list of a two-list frame and are not SetGet_SNA frames, over all histories of such datagrams and calls. A datagram cut there kills the receive thread and everything after it is lost (refuted).",
 "C71": "Proved if start is called and observers are added only while the node is stopped. Otherwise false: a second start registers all observers again, and observers added while running are not called (refuted).",
 "C72": "True for encodings of at most 1024 bytes; larger frames reach no observer (refuted).",
 "C75": "False: if try_lock fails, the request is dropped silently (refuted). Answered if nobody else holds the node (partial).",
 "C76": "Proved for all histories without datagrams cut after the first of two lists and without SetGet_SNA datagrams, and with handlers that return. False otherwise: stop panics after the former, and every call panics after a SetGet_SNA datagram with the TID used last (refuted).",
 "C73": "Holds as stated, in the lock model, for applications which take their own mutexes in a fixed order and hold none which a handler or observer needs while they call the API, and whose handlers and observers do not call the API. The tiers theorems allow more: nodes are put in tiers, and handlers, observers and sections behind their mutexes call the API for nodes of higher tiers. Panics (poisoned mutexes) are not part of the lock model.",
 "C74": "Refuted: in the bundled example the main thread holds the mutex of the handler and waits in stop for the node, while the receive thread holds the node and waits for the mutex of the handler; neither ever goes on (C74_for_ever). Proved (C74_other_device_partial): calling methods of a device while holding the mutex of a handler of other devices, in any fixed order of the devices, never deadlocks and every call returns.",
 "C78": "Holds as stated: an empty list of servers (from the clearing of the list in stop to the next start) means that all receive threads of the node have ended.",
 "C79": "Refuted: the handler is called by the receive thread while it holds the node, and every method of the device waits for the node. Proved (C79_other_device_partial): a handler which calls methods of other devices, in any fixed order of the devices, never deadlocks and its calls return.",
 "C80": "Refuted: stop holds the controller and the node while it joins the receive thread, and the observer called by that thread waits for the controller. Proved (C80_other_controller_partial): an observer which uses other controllers, in any fixed order of the controllers, never deadlocks; its calls return, and so does a stop of its own controller.",
 "C77": "C77_remote_map_partial: for any sequence of write (0x61) and read (0x62) requests posted through a controller, through encoding, transport buffer, decoding, dispatch, handlers, object and back, the answers equal those of a map, as long as the controller's transaction IDs do not wrap. C77_never_wrong and C77_device_state hold for any number of requests: an answer is right or missing, and the device holds the map. C77_tid_zero_refuted: the request that gets TID 0 after the wrap is executed but its answer is never delivered. Property maps (0x9D-0x9F) and frames above 1024 octets are excluded.",
 "C81": "C81_contents and C81_store hold for every node and every sequence of calls (manufacturer codes are 32-bit integers).",
 "C82": "C82_read and C82_write hold for accepted requests. C82_set_then_read_partial: data set through the API is returned by the next accepted read, for handlers which do not alter the object and for all properties but the maps. C82_map_refuted: data set on a property map is recomputed before it is read from the network.",
 "C83": "C83_new_device_partial and C83_typed_partial for codes below 2^24 not in use on the node. C83_large_code_refuted: a device with a larger code can be made, but none of its properties is ever found.",
 "C84": "C84_isolation_partial: for devices with different codes, and for all properties but 0x80 and 0x88 when the history starts or stops the node. C84_same_code_refuted: a second device with the same code reads and writes the data of the first one.",
 "C85": "Holds as stated, for every property of every device; C85_while_running covers any history which does not address the device and does not start or stop the node.",
 "C86": "C86_data_kept_partial for all properties but operating status (0x80) and fault status (0x88). C86_fault_forgotten_refuted: a fault status set before the start is lost.",
 "C87": "Refuted: stopping or dropping one device stops the transport of the whole node, all its devices report off, and the dropped object stays in the instance list. C87_data_kept_partial: the other data are kept.",
 "C88": "C88_follows_partial: over any history in which requests to the lamp carry at most one property, are not write-read requests and the application neither writes the status nor starts or stops the node, lamp and status agree. C88_switch_partial: writes without response of 0x30 and 0x31 are carried out. Refuted in general: write-read requests bypass the handler, start sets the status but not the lamp, a rejected request switches the lamp, confirmed writes and reads are refused.",
 "C89": "Holds as stated. C89_codec, C89_object, C89_database, C89_node, C89_device and C89_process cover every modelled function in which an overflow can happen; C89_same: histories of safe calls and datagrams are equal and do not panic. Handlers are the same function in both builds. C89_differ shows what a release build computes where the debug build panics.",
 "C90": "C90_frames_partial proves it for at most 84 devices, property data of at most 255 octets and messages within the limits of the format, except responses with service 0x5E. Refuted outside: every refusal of a 0x6E request is no frame (C90_refused_refuted, for all nodes), data of 256 octets (C90_long_data_refuted), 85 devices (C90_many_devices_refuted).",
 "C91": "Proved for the short form and for codes below 0xC0 of the bitmap form, for objects with codes of 0x80 and above and handlers that leave the object alone (C91_answer_partial, C91_read_map_partial, C91_write_map_partial). Refuted for the bitmap form: code 0xC0 can be read but is not listed (C91_bitmap_refuted).",
 "C92": "One datagram reaches at most R receive threads, for any R; observers of applications are assumed not to send (model of ModelHost).",
 "C93": "Proved for the services 0x60 to 0x63. Refuted for 0x6E (the tool fills the one-list properties, so both lists are sent empty) and 0x74 (nothing is sent).",
 "C94": "Proved for non-empty arguments, in release builds or with object codes of at most four octets. Refuted: an empty argument in place of the service panics in every build, a long object code in debug builds.",
 "C95": "Proved, survival for release builds or answers of at most four octets. Refuted: a debug build panics when a node answers five octets for the manufacturer code.",
 "C96": "Rounds proved without exception; command lines without -n proved. Refuted: -n at the end or before a text that is not a number panics.",
 "C98": "Proved for nodes of at most 84 devices (C98_all_found_partial); C98_many_devices_refuted is an execution with 85 devices on one node where, all else being as assumed, the entry of that node shows none of them (the instance list no longer fits one property, see C33). Also assumed: that nobody else holds the lock of a node or controller when a datagram arrives (else it is dropped, see C75), that no send fails, that applications do not overwrite the instance list, and that a process is seen under one address (with several, it has several entries, see C59).",
 "C99": "Proved. Writing to the formatter is assumed to succeed.",
 "C100": "Refuted for a Node handle (C100_node_refuted; for every node, C100_node_never and C100_node_drop) and for registered values (C100_registered_refuted; for all, C100_registered_never and C100_registered_drop). Proved: dropping a Device or Controller, or the last pointer to a value that owns one, stops its node (C100_device_partial, C100_value_partial), stops nothing else (C100_others) and returns (C100_drop_returns). Locks, and failures of stop, are outside this model.",
 "C101": "Histories with arguments of the right types; includes histories with panicked threads.",
 "C102": "Refuted as equality (C102_seeds_refuted). C102_seeds_partial and C102_run prove that two runs stay alike: equal except for the order of codes in short property maps. User handlers are required to be order-blind, property codes to be at least 0x80.",
 "C105": "C105_types_refuted: 0xDA of the instantaneous water heater has the empty type. C105_types_partial: every property whose type is not empty has one of the twelve.",
 "C106": "C106_in_turn, for every reachable state of the thread model; no node runs at the beginning. start and stop take effect on the node at one instant; their receive threads begin, get observers and end between that instant and the return.",
 "C107": "C107_completes and C107_no_deadlock, in the thread model with start, stop and panics, for handlers which take no mutexes.",
 "C108": "C108_sequence and C108_reachable, in the thread model.",
 "C109": "Up to 65536 calls, as the counter starts again after that many; a request with TID 0 takes a TID for its answer (C109_case_between), so none of these may arrive.",
 "C110": "In the thread model; no node runs at the beginning.",
 "C111": "The derived Hash of SocketAddr is modelled as variant, address and port.",
 "C112": "C112_finite (well-founded) and C112_endless: no livelock, without fairness. C112_fair, C112_receivers and C112_told: under strong fairness, with negative definitions of often and some_time, so no classical axiom is used. In the thread model; Rust's Mutex itself gives no fairness.",
 "C113": "C113_received, C113_once and C113_channels hold always; C113_own_tid_partial needs undisturbed TIDs, C113_own_tid_refuted shows why; C113_after_post_refuted: an earlier message may be taken for the answer. In the thread model; waiting may time out at any moment.",
 "C114": "Holds as stated. C114_found and C114_kept hold always; C114_latest_refuted: an older instance list may replace a newer one. In the thread model, with a controller that starts without entries.",
 "C115": "C115_order is program order of every thread. C115_search, C115_bench and C115_post describe finished runs, C115_search_asks unfinished ones. The TID theorems need requests that get the number of the node (requests_numbered) and the tool alone. C115_sender_refuted: an answer of another node with the right TID is taken for the answer of the node asked, so the last sentence of the statement is false of the code.",
 "C116": "C116_device is the refinement to the machine of SpecShared.v (no mutexes, no objects), C116_fresh, C116_answers and C116_origin are consequences of it. C116_answers is about answers whose TID and addressee no message received before the return of the write had. Writes to the property maps (0x9D to 0x9F) and handlers that change objects are left out.",
 "C117": "C117_fresh: reads over the network; C117_receiver: the same for what the receiver of a post gives out; C117_origin: where values come from. C117_case is an execution of two processes which fulfills the premises (C117_case_premises); C117_case_late shows that the premise about TIDs is needed: an answer sent before the write may arrive after it. Premises exclude requests about property maps and values longer than 255 octets.",
 "C118": "C118_local: reads in the process of the device; C118_remote: reads of any process; C118_posted: through the receivers of posts. C118_case is an execution which fulfills the premises (C118_case_premises). C118_case_repeated shows why other writes are excluded, repeated requests among them: the network repeats an answered write request after the device's own thread has written something else, and the device carries it out again.",
 "C119": "Holds as stated. C119_added is for all executions of all processes. It assumes that the devices of the other process have no property 0xD6 of their own; C119_battery_refuted shows that without this premise the claim is false: is_node_profile_message checks the service and the destination but not the source object of a message.",
 "C120": "Holds as stated. C120_complete is for all executions. C120_announced_refuted: without the premise that the entry has a device the claim is false, since the announcement of a start makes an entry with the node profile alone.",
 "C121": "Holds as stated. C121_fresh and C121_controller are for all executions. C121_told_refuted: without the premise about questions the claim is false: add_object on a running node sends nothing, so that a controller which has its answer never hears of the new device.",
 "C122": "C122_whole is the general statement, C122_pair the one for two properties; both are about Get_Res (0x72). The predicate keeps is stated on calls and messages (SpecWhole.v), not on the model. C122_calls_refuted is the last sentence of the statement.",
 "C123": "False: the super class is added first and add_property keeps the first property with a code, so a lamp says that its operating status need not be writable although the row of its class requires it (C123_required_refuted). C123_first_row: the words that count are those of the first row, for all devices. C123_required_partial: true for every row of every class except 46 (class, property) triples, and C123_exceptions_partial: each of these triples is a real exception.",
 "C124": "C124_ignored and C124_never are the claim about the host; C124_text4, C124_text6 the texts (SocketAddr::from_str and Display of the standard library are modelled, except what the parser does behind an opening bracket, which is arbitrary); C124_as_modelled shows that ModelTransport.v, which leaves the texts out, says the same for IPv4; C124_multicast_refuted, C124_group_refuted and C124_all_refuted are the faults named in the statement.",
 "C125": "C125_manufactures and C125_objects; C125_added_partial is the case in which an added object is found, C125_instance_refuted and C125_listed_refuted the cases named in the statement in which it is not.",
 "C126": "C126_init, C126_printed; C126_level_refuted shows that the method set_level of Logger changes nothing, as the statement says: the logger in use is a static that cannot be reached by it. The log crate and Once are modelled as documented. Calls are taken one after another.",
 "C127": "PropertiesAnnounce.v. The refuted part is named in the statement: C127_change_refuted.",
 "C128": "PropertiesPorts.v. The rule is that of UDP sockets on Linux; a system which lets the wildcard address and a particular address coexist is not of this kind. Dual-stack IPv6 sockets are left out. The refuted part is named in the statement: C128_without_reuse and C128_node for all states, C128_portable_refuted as a case.",
 "C129": "C129_node, C129_data and C129_controller hold from any state of a process. C129_one_machine_refuted: for every list of different addresses a controller gets exactly that many entries, so that a bound per machine is false, as the statement says. C129_data assumes that handlers of the application do not lengthen data (short_handler).",
 "C130": "Proved. C130_large_case: a request of 512 octets is answered with 64262 octets.",
 "C131": "C131_distinct, C131_kept (any property that the library does not maintain), C131_no_std_same (a build without std behaves like one whose Uuid::new_v4 returns fixed octets, so theorems about all UUIDs cover it). Refuted for the code: C131_writable_refuted (0x83 of every object is writable by the rules; the table has two rows for it in the super class and the first, which is writable, wins over the second, which is not, and over that of the node profile), C131_taken_refuted (a request gives a lamp the number of another one), C131_no_std_refuted (one number for all).",
 "C132": "C132_overview_partial: the part that holds for the handler of device_overview.md. C132_overview_unchecked_refuted: writes with response and write-read requests are carried out for every check. C132_inside_partial: writes of one property with the handler of device_inside.md. C132_inside_reads_refuted: every read and request for a notification is refused. C132_example_refuted: the example of Controller asks every object once per property that must be readable, names no property and shows no data of devices of this library.",
 "C133": "ModelTime.v repeats the functions of start and stop with the time they take; C133_bind and C133_start also show that without the clock they are those of ModelTransport.v. C133_stop_within_timeout_refuted and C133_timeout_refuted are the two negative sentences. Only sleeps, receives, the work between receives and join take time; that the work ends (it needs the node, which stop may hold) is the subject of C73.",
 "C134": "C134_decided and C134_stable: which requests are carried out can be computed from the node before; C134_refused: the others are refused. C134_last_writer, C134_duplicate, C134_reorder, C134_answer; C134_stale_refuted is the last sentence (the node keeps no record of the transaction ids that it has answered). The property maps are left out because the order of their codes is that of a hash map.",
 "C135": "C135_entries is the complete description, in terms of the relation latest; C135_duplicate and C135_reorder follow from it. C135_stale_refuted and C135_order_refuted are the negative sentences, for all such messages. Which messages reach the controller at all is the subject of C70 and C75.",
 "C136": "C136_answer compares what message_received does for the two senders, C136_sent what the node hands to the operating system. Requests with transaction id 0 are left out of C136_sent, because the node then puts an id of its own into the answer.",
 "C137": "C137_apart leaves the other steps out and replaces the other objects; C137_same compares two histories with the same steps for x. The condition on the handlers (user_apart) is about the application, not the library; C137_shared shows that it is needed. Starting and stopping, which write the operating status of every object, are not among the steps (see C84, C85).",
 "C138": "C138_own_messages compares two controllers, C138_no_forgery two moments of one, C138_lost two networks. An address is IP address and port, as in C59. Sender addresses are those the operating system reports; forged ones are not told apart.",
 "C139": "C139_source: every datagram of every history leaves from port 3610 of an interface address or, to the group, from the wildcard address. C139_send and C139_post: the sockets are tried in the order of the interfaces. C139_group, C139_group_reached: the calls for the group do not differ. C139_asked_partial: an answer leaves from the address asked if there is no other or it is the first one and sends succeed. Missing: the other addresses, for which it is false (C139_asked_refuted: a request to 10.0.0.1 is answered from 192.168.0.10). The model takes the local address of a socket to be the one it was bound to; which address the system writes for the wildcard is not modelled.",
 "C140": "C140_false_partial, C140_start_partial; the full claim is refuted by C140_answer_refuted, C140_group_refuted and C140_start_refuted.",
 "C141": "C141_others_partial; the full claim is refuted by C141_itself_refuted, for every network as in C98.",
 "C142": "C142_added (nothing is lost), C142_order_partial (any two orders, every history; needs distinct codes and leaves out the node profile), C142_more (other devices are not affected), C142_lists (what the node profile tells); refuted: C142_lists_refuted (the order shows in 0xD6), C142_same_code_refuted (the first of two devices with one code answers). C142_order_partial rests on C137_same.",
 "C143": "C143_nobody_refuted (every node where 0xD6 of x cannot be read: silent or refusing, nothing listed), C143_standard_partial (all standard classes but those in with_d6 are such), C143_taken_for_list_refuted (any answer with 0xD6 is taken for the list, whichever object sent it), C143_battery_refuted (a concrete node). What holds for the node profile is C64 and C98.",
 "C144": "C144_rules_partial (the same properties and rules), C144_data_refuted (the data shown are always those of a new device), C144_own_refuted (nothing outside the standard is shown), C144_extra_refuted (a concrete lamp with a property of its maker). The identification number 0x83 is fresh at every controller (C131), the property maps are those of C18 to C20.",
 "C145": "C145_agree_partial (equal last words, equal lists), C145_announced_refuted (after a start every controller knows the node without its devices), C145_search_refuted (two concrete controllers, one of which searches).",
 "C146": "C146_nobody_refuted (silence at every node without an instance 0), C146_zero_refuted (the others of the class are left alone), with two lamps as a case. Premise of the first: the service is not 0x5E, which makes any message in flight with the last TID a panic (C76).",
 "C147": "Refuted: the node checks the notified properties against its own object, as if they were to be read; an object without the property (every notification of a device property to a node profile or controller object, say) answers 0x53, the refusal of a notification request, and no handler is told. Where it does confirm, the confirmation goes to the multicast group and not to the sender. Proved exactly: every answer is one of the two, and nothing is written but what handlers write (property maps aside).",
 "C148": "Refuted: of the size only the upper bound is checked and of the values nothing; whatever write is carried out, every write of the same codes with data that are not longer is carried out as well, empty data and values outside the enumeration included. Of a new device all properties but six (and the maps) are empty. Proved: new devices have no data longer than listed, and no sequence of received messages makes data longer than the size of the property (property maps aside).",
 "C149": "Refuted: one property that is missing, not permitted or too small makes the node do nothing and send the properties back as they came; a read request is answered without any data, whatever else could be read. Proved exactly for 0x60 to 0x63. Asked for one by one, the properties that can be read are answered with their data (C149_alone_partial).",
 "C150": "Partial: no other traffic among the processes meanwhile (other messages sent, posted or announced; nodes started and stopped), no devices added, at most 84 devices per process (C98_many_devices_refuted).",
 "C151": "Refuted in one point: such a request to an object of the node is answered as carried out, with an empty list, even where every handler would have refused (a write without response, 0x60, aside). Proved: no handler is asked, and no data change (property maps aside)."
}