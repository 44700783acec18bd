#!/usr/bin/env python3
"""Writes /verif/properties.jsonl.  Edit the list here, then run."""
import json
P=[]
def C(title,statement,quantifier,why,*anchors):
    P.append(dict(id="C%02d"%(len(P)+1),title=title,statement=statement,quantifier=quantifier,why_tests_cant=why,anchors=list(anchors)))
M="src/protocol/message.rs: "; 
# ---- wire codec
C("Message round trip",
  "Take any protocol Message built through the public setters, with ESV other than 0x5E, at most 255 properties per list and at most 255 data bytes per property. Parsing the bytes() of that message into a fresh Message succeeds and yields the same TID, SEOJ, DEOJ, ESV and the same property lists (codes, data, order).",
  "all TIDs, object codes, service codes other than 0x5E, all property lists of any length up to the wire limit with arbitrary data",
  "the message space is unbounded in practice (255 properties of 255 bytes); tests try two or three frames",
  M+"Message::bytes, Message::parse, Message::from_bytes","src/protocol/property.rs: Property")
C("Round trip of WriteReadRequestError (0x5E)",
  "Parsing the bytes() of a message with ESV 0x5E into a fresh Message succeeds and yields the same content.",
  "all messages with ESV 0x5E within wire limits",
  "needs the relation between encoder and decoder for every property list, not one frame",
  M+"Message::bytes, Message::parse","src/protocol/esv.rs: ESV::WriteReadRequestError")
C("Decoding arbitrary bytes never panics",
  "Message::parse, given any byte sequence whatsoever, returns true or false; it never panics.",
  "all byte strings of every length",
  "the input space is every datagram an attacker can send; fuzzing samples it",
  M+"Message::parse, Message::parse_format1_data, parse_property_bytes","src/protocol/property.rs: Property::parse")
C("Decoder accepts exactly the well-formed frames",
  "Message::parse on a fresh Message returns true if and only if the input begins with a well-formed ECHONET Lite format-1 frame (trailing bytes are ignored). The decoded fields are then exactly those of that frame, and for ESVs other than 0x5E re-encoding gives back exactly the frame's bytes.",
  "all byte strings",
  "an iff over all inputs; tests cannot show that no malformed frame is accepted",
  M+"Message::parse, Message::bytes")
C("Truncated frames are rejected",
  "No proper prefix of the encoding of a message (ESV other than 0x5E) is accepted by Message::parse.",
  "all messages within wire limits and all truncation points",
  "product of all messages and all cut points",
  M+"Message::parse")
C("Cloning a message preserves it",
  "clone() of a message within wire limits returns a message with the same TID, objects, ESV and property lists.",
  "all messages within wire limits",
  "Clone is implemented by encoding and re-parsing, so it inherits every codec corner case",
  M+"impl Clone for Message")
C("Message equality means equal content",
  "Message::equals is an equivalence relation, and two messages that compare equal have the same encoded bytes.",
  "all pairs and triples of messages",
  "relational property over pairs and triples",
  M+"Message::equals","src/protocol/property.rs: Property::equals")
C("TID and object code setters and getters agree",
  "After set_tid/set_seoj/set_deoj the matching getter returns the value reduced to the width of the field (16 or 24 bits), and no other field changes.",
  "all u32 values, all messages",
  "2^32 values times every prior message state",
  M+"set_tid, tid, set_seoj, seoj, set_deoj, deoj")
C("Parsing replaces the previous content",
  "Parsing a frame into a Message object which has been used before gives the same result as parsing it into a fresh Message.",
  "all previous contents and all frames",
  "depends on arbitrary history of the object",
  M+"Message::parse, parse_format1_data")
C("ESV codes and their classification",
  "Decoding an ESV octet yields the service with that code when one exists and Unknown otherwise. Every known service is exactly one of request or response; error responses are the 0x5X codes; Unknown is neither.",
  "all 256 octets",
  "exhaustive classification with mutual exclusion",
  "src/protocol/esv.rs: ESV::from_u8, is_request, is_response, is_error_response, is_notification_response, is_unicast_response")
C("Big-endian integer codec",
  "Bytes::from_u32 followed by Bytes::to_u32 gives the value reduced modulo 256^n where n (1 to 4) is the buffer length, and to_u32 followed by from_u32 on a buffer of n (1 to 4) bytes gives the buffer back.",
  "all u32 values and all buffers of 1 to 4 bytes",
  "2^32 values",
  "src/util/bytes.rs: Bytes::from_u32, Bytes::to_u32")
C("Encoding is injective",
  "Two messages within wire limits whose visible content differs (TID, objects, ESV, or the property lists which their ESV uses) have different encodings, and no encoding is a proper prefix of another one, except where ESV is 0x5E.",
  "all pairs of messages",
  "relational property over all pairs",
  M+"Message::bytes")
C("Every message encodes to a well-formed frame",
  "bytes() of any message that can be built through the public API is a well-formed frame which the decoder accepts and which carries all the properties that were added.",
  "all messages, with no limit on the number of properties or on the data length",
  "requires reasoning about lengths beyond the one-octet counters",
  M+"add_property, bytes, opc","src/protocol/property.rs: set_data, size")
C("Failed decoding is visible to the caller",
  "Message::from_bytes tells the caller when the bytes are not a well-formed frame.",
  "all byte strings",
  "quantifies over all malformed inputs",
  M+"Message::from_bytes")
# ---- objects and properties
C("Object code round trip",
  "Object::set_code followed by code() returns the low 24 bits of the value; class group, class and instance codes are its three octets.",
  "all u32 codes, all objects",
  "2^32 values over all object states",
  "src/object.rs: Object::set_code, code, class_group_code, class_code, instance_code")
C("Property data store",
  "After set_property_data(code, data) on a property that exists, property_data(code) returns exactly data, and every other property and all metadata are unchanged. If the property does not exist nothing changes and the call reports false.",
  "all objects, property codes and data",
  "frame conditions over every other property and any hash order",
  "src/object.rs: set_property_data, property_data, find_property")
C("Adding a property keeps existing ones",
  "Object::add_property never alters the attributes or data of a property already present (other than the three property map properties); a new code becomes present; the set of codes only grows.",
  "all objects and properties, any sequence of additions",
  "history and hash-order dependent",
  "src/object.rs: add_property")
C("Property maps, short form",
  "For an object with fewer than 16 readable (writable, announceable) properties, decoding property 0x9F (0x9E, 0x9D) with the ECHONET Lite short form gives exactly the set of readable (writable, announceable) property codes.",
  "all objects whose map properties exist, any insertion order and any hash iteration order",
  "all property sets and all hash iteration orders",
  "src/object.rs: update_property_maps")
C("Property maps, bitmap form",
  "For an object with 16 or more readable (writable, announceable) properties, decoding property 0x9F (0x9E, 0x9D) with the ECHONET Lite 17-octet bitmap form gives exactly the set of those property codes.",
  "all objects, all property sets with codes 0x80 to 0xFF",
  "2^128 property sets",
  "src/object.rs: update_property_maps")
C("Property maps are always up to date",
  "After any sequence of add_property calls, property maps present in the object describe the current property set, not an earlier one.",
  "all finite sequences of additions",
  "invariant over histories",
  "src/object.rs: add_property, update_property_maps")
C("Cloning an object preserves it",
  "clone() of an Object that was built by adding properties has the same code, the same property codes, and for each code the same attributes and data.",
  "all objects reachable through the API, all hash seeds",
  "clone re-inserts in another hash order and recomputes the maps",
  "src/object.rs: impl Clone for Object","src/property.rs: impl Clone for Property")
C("Access predicates follow the access rules",
  "A property is readable, writable or announceable exactly when its rule is required or optional (not prohibited); 'required' and 'only' variants agree with the rules.",
  "all combinations of the three rules",
  "full case coverage including mixed rules",
  "src/property.rs: is_readable, is_writable, is_announceable, is_read_required, is_write_required, is_announce_required")
C("Integer property values",
  "Setting a property as an integer of width 1 to 4 octets and reading it as an integer returns the value modulo 256^width; reading a property as an integer never panics.",
  "all values, widths, and all property data",
  "2^32 values and all data lengths",
  "src/property.rs: set_int_data, data_as_int","src/object.rs: set_property_int, property_int")
C("Super class accessors return what was set",
  "operating status, installation location, fault status, standard version and manufacturer code getters return the value passed to the matching setter, for objects that own the property.",
  "all objects and all values",
  "all values over all object states",
  "src/super_object.rs: set_operating_status, operating_status, set_installation_location, set_standard_version, standard_version, set_manufacturer_code, manufacturer_code")
C("Identification number format",
  "A generated identification number has 17 octets, begins with 0xFE followed by the manufacturer code, ends with 13 octets of the UUID, and two different 13-octet UUID tails give two different numbers.",
  "all UUIDs and manufacturer codes",
  "2^128 UUIDs",
  "src/util/oid.rs: OID::new","src/super_object.rs: set_id")
C("Enumerated values",
  "find_enum(code) returns the last enumerated value added with that code and nothing else; its name and description are those it was created with.",
  "all sequences of add_enum",
  "history dependent",
  "src/property.rs: PropertyEnum, add_enum, find_enum")
# ---- standard database
C("Standard object lookup",
  "Looking up a class in the standard database ignores the instance code, is independent of hash order, yields the entry of that very class when the class is listed and nothing otherwise. Every property code of every listed class is in 0x80..0xFF and no class is listed twice.",
  "all 2^32 object codes",
  "2^32 lookups over the whole 57-class table",
  "src/database.rs: StandardDatabase::find_object","src/database_mra_objects.rs")
C("A device owns the properties of its class",
  "A new Device of a listed class owns exactly the super class properties and the properties of its class; a Device of an unlisted class owns exactly the super class properties. Each of these properties has the name, type, capacity and enumerated values listed for it, those of the super class where both list it.",
  "all object codes and all hash orders",
  "2^32 codes, 57 classes, 982 table rows, any hash order",
  "src/device.rs: Device::new_with_node","src/object.rs: add_standard_properties","src/database_mra_objects.rs")
C("A device applies the access rules of its class",
  "In a new Device every property that the class table lists as settable, gettable or announceable (required, optional or conditionally required) is writable, readable or announceable, and every one listed as not applicable is not.",
  "all listed classes and all their properties",
  "982 table rows against super class shadowing and the attribute parser",
  "src/database_mra_objects.rs: property_string_to_attribute, add_standard_property","src/object.rs: add_property")
C("Mandatory properties have their default data",
  "A new Device has operating status, installation location, fault status, standard version, manufacturer code and identification number set to the documented defaults.",
  "all object codes, all hash orders, all UUIDs",
  "hash-order independence over every class",
  "src/object.rs: add_standard_properties","src/super_object.rs")
C("Manufacturer lookup",
  "find_manufacture(code) returns the manufacturer listed with that code and nothing for unlisted codes; codes are unique.",
  "all 2^32 codes",
  "2^32 codes",
  "src/database.rs: find_manufacture","src/database_manufacturers.rs")
# ---- node profile
C("Instance lists describe the node",
  "After any sequence of add_object calls, the node profile's instance count and instance lists (0xD3, 0xD5, 0xD6) describe exactly the objects added, in order, excluding the node profile.",
  "all finite sequences of at most 84 device objects",
  "invariant over histories",
  "src/node_profile.rs: NodeProfile::update","src/node.rs: add_object, update_node_profile")
C("Instance lists of large nodes",
  "The instance list property of a node with any number of objects can be encoded and decoded, and its count octet equals the number of objects listed.",
  "nodes with any number of objects",
  "needs unbounded object counts",
  "src/node_profile.rs: NodeProfile::update","src/protocol/message.rs: bytes")
C("Class lists describe the node",
  "The node profile's class count (0xD4) and class list (0xD7) hold every class of the node's objects exactly once.",
  "all finite sequences of add_object",
  "invariant over histories",
  "src/node_profile.rs: NodeProfile::update")
C("Startup announcement",
  "A successful Node::start multicasts exactly one announcement per interface, from the node profile to the node profile, with the instance list notification property 0xD5 holding the current instance list.",
  "all nodes, all interface sets, all OS outcomes",
  "all object sets and all OS failure patterns",
  "src/node.rs: start, annouce, create_annouce")
# ---- request processing
C("No reply to what is not addressed to the node",
  "A message whose destination object does not exist on the node, or whose service is not a request, leaves all objects unchanged and causes no transmission.",
  "all nodes, all received messages",
  "all node states times all messages",
  "src/node.rs: message_received")
C("Responses correlate with the request",
  "Every response carries the request's TID, its source object is the request's destination object and its destination object is the request's source object.",
  "all nodes and request messages",
  "all node states times all messages",
  "src/message.rs: ResponseMessage::from, ResponseErrorMessage::from","src/node.rs: message_received, send_post_reopnse")
C("A rejected request changes nothing",
  "When a request is answered with an error response, no property data of any object has changed.",
  "all nodes, handlers and requests",
  "all node states, handler behaviours and messages",
  "src/node.rs: message_received")
C("Error responses list what was requested",
  "An error response has the 0x5X service that belongs to the request service and contains all property codes of the request, in order.",
  "all requests",
  "all messages",
  "src/message.rs: ResponseErrorMessage::from")
C("An accepted write is visible",
  "After an accepted write request every property of the request holds the data of its last occurrence in the request, and a later read through the API or the network returns it.",
  "all nodes, all handlers that accept, all write requests",
  "all property lists including duplicates",
  "src/node.rs: message_received","src/object.rs: set_property_data")
C("A read returns the current data",
  "The response to an accepted read request lists the requested property codes in order, each with the data the object holds at that time.",
  "all nodes, all read requests",
  "all states times all property lists",
  "src/node.rs: message_received")
C("Access rules are enforced",
  "No request makes a node disclose a property which is not readable, or change a property which is not writable; a single such property makes the node reject the whole request.",
  "all nodes, handlers and request messages",
  "security property over all messages",
  "src/node.rs: message_received","src/object.rs: message_received")
C("Request handlers have authority",
  "If the registered request handlers reject a property of a request, the request is answered with an error response and nothing changes. This includes write-read requests.",
  "all handlers and requests",
  "arbitrary handler functions",
  "src/request_handler.rs: RequestManager","src/node.rs: message_received")
C("Handlers only see valid requests",
  "A request handler is only ever called with an object that the node owns and with properties which the object has and whose rule permits the service.",
  "all nodes, handlers and messages",
  "arbitrary handler functions over all messages",
  "src/node.rs: message_received","src/request_handler.rs")
C("A device without a user handler",
  "A device on which no request handler has been set answers every request that carries at least one property with an error response.",
  "all devices, all requests",
  "all states times all messages",
  "src/node.rs: impl RequestHandler for Node","src/device.rs: new_with_node, set_request_handler")
C("Several handlers",
  "With several registered handlers a property is accepted when at least one of them accepts it; each handler is asked at most once per property and in registration order.",
  "all handler lists",
  "arbitrary handler lists and stateful handlers",
  "src/request_handler.rs: RequestManager::property_request_received")
C("Requests are isolated",
  "Processing a message changes at most the data of properties named in the message, and only in the object addressed; attributes, property sets, object codes and every other object stay the same, whatever the handler does with the object it is given.",
  "all nodes, handlers and messages",
  "frame property over arbitrary handler behaviour",
  "src/node.rs: message_received")
C("Write request without response",
  "A write request that needs no response (0x60) causes no transmission when accepted and exactly one error response 0x50 when rejected.",
  "all nodes, handlers and 0x60 messages",
  "all states times all messages",
  "src/node.rs: message_received")
C("Responses go to the requester",
  "Responses are sent by unicast to the address of the requester; notifications go to the multicast group.",
  "all nodes and requests",
  "all states times all messages",
  "src/node.rs: message_received, send_post_reopnse","src/protocol/esv.rs: is_unicast_response")
C("One response per request",
  "A datagram holding a request that needs a response, handled by a running node, causes exactly one response transmission.",
  "all nodes, histories of start/stop and requests",
  "depends on the history of observer registrations",
  "src/node.rs: start, message_received","src/transport/notify_manager.rs")
C("Write-read requests",
  "An accepted write-read request applies the writes first and its response returns the data held after the writes.",
  "all nodes and write-read requests",
  "all property list pairs including overlapping ones",
  "src/node.rs: message_received")
# ---- transactions
C("Transaction identifiers",
  "Successive TIDs chosen by a node are pairwise distinct over any 65535 successive ones, always in 1..65535.",
  "all starting points and all runs",
  "long histories",
  "src/node.rs: next_tid")
C("At most one delivery per post",
  "A receiver returned by post_message is given at most one message over its whole life.",
  "all histories of posts, sends and received messages",
  "all interleavings",
  "src/node.rs: post_message, is_last_message_response, message_received")
C("The delivered response belongs to the posted request",
  "A message delivered through the receiver of post_message has the TID of the posted message.",
  "all histories",
  "all interleavings of posts, sends, searches and received messages",
  "src/node.rs: post_message, next_tid, is_last_message_response")
C("A TID chosen by the application works",
  "If the application sets a TID in the posted message, the response with that TID is delivered.",
  "all TIDs, all histories",
  "history dependent",
  "src/node.rs: update_message_trandaction_id, post_message")
C("Only a response from the peer is delivered",
  "A message delivered through a receiver is a response and was sent by the node to which the request was posted.",
  "all histories and all senders",
  "adversarial senders",
  "src/node.rs: is_last_message_response, message_received")
C("Outstanding posts",
  "Posting a second request does not prevent the first one's response from being delivered.",
  "all pairs of posts",
  "interleavings",
  "src/node.rs: post_message")
C("Other traffic does not lose a response",
  "Between a post and its response the node may send, announce, search and answer requests; the response is still delivered.",
  "all interleavings of other operations",
  "interleavings of unbounded length",
  "src/node.rs: next_tid, send_message, notify, is_last_message_response")
# ---- controller
C("One remote node per address",
  "A controller never lists two remote nodes with the same IP address.",
  "all histories of received messages",
  "invariant over histories",
  "src/controller_node.rs: replace_remote_node, Observer")
C("The latest instance list wins",
  "After a node profile message with an instance list was received from an address, the controller's entry for that address lists exactly the objects of that instance list plus the node profile, and entries of other addresses are unchanged.",
  "all histories and messages",
  "all prior states",
  "src/controller_node.rs","src/message.rs: NodeProfileMessage","src/remote_node.rs")
C("Discovered knowledge is not lost",
  "A message that carries no instance list never removes objects from the controller's entry of a remote node.",
  "all histories and messages",
  "all prior states times all messages",
  "src/controller_node.rs","src/message.rs: is_node_profile_message")
C("Stopping a controller clears its node list",
  "After Controller::stop the list of remote nodes is empty, as documented.",
  "all controllers",
  "all histories",
  "src/controller.rs: stop","src/controller_node.rs: stop")
C("Malformed instance lists are rejected",
  "An instance list whose count octet differs from the number of object codes that follow is not accepted.",
  "all instance list data",
  "all byte strings",
  "src/message.rs: NodeProfileMessage::parse")
C("Discovery end to end",
  "A search request by a controller reaching a running device node makes that node answer with its instance list; when the answer reaches the controller, its entry for the node lists exactly the node's objects.",
  "all device nodes with at most 84 objects and all controllers",
  "composition of two nodes, codec, node profile and controller over all object sets",
  "src/controller_node.rs: search_object","src/message.rs: SearchMessage","src/node_profile.rs","src/node.rs")
# ---- transport
C("Transport start and stop",
  "Manager::start returning true means every non-ignored interface has a bound, receiving unicast and multicast server; after Manager::stop no server is left.",
  "all interface lists and all OS outcomes",
  "all failure patterns of bind and join",
  "src/transport/manager.rs","src/transport/unicast_manager.rs","src/transport/multicast_manager.rs")
C("A failed start leaves nothing running",
  "Node::start returning false leaves no server running.",
  "all OS failure patterns",
  "all failure patterns",
  "src/node.rs: start","src/transport/manager.rs: start")
C("Bind retries",
  "Binding a socket is attempted at most three times; it succeeds exactly when one of the attempts succeeds, and is given up only after the third failure.",
  "all OS outcome sequences",
  "all outcome sequences",
  "src/transport/udp_socket.rs: bind","src/transport/unicast_server.rs: bind")
C("Unicast send",
  "send_message transmits exactly the encoded message, to the given address at most once, and returns true exactly when the OS accepted the whole datagram.",
  "all messages, interfaces and OS outcomes",
  "all failure patterns",
  "src/transport/unicast_manager.rs: send","src/transport/unicast_server.rs: send")
C("Multicast notify",
  "notify transmits the message once per running interface and returns true only when it was transmitted on at least one interface.",
  "all interface sets and OS outcomes",
  "all failure patterns",
  "src/transport/multicast_manager.rs: notify")
C("Receive loop",
  "Every datagram that decodes is given to every registered observer exactly once and in arrival order, with the sender's address; others are ignored without effect; the loop ends after stop.",
  "all datagram sequences",
  "unbounded sequences",
  "src/transport/unicast_server.rs: start","src/transport/multicast_server.rs: start","src/transport/notify_manager.rs")
C("Observers are registered once",
  "Whatever sequence of start and stop calls was made, an observer is called once per received message.",
  "all sequences of start, stop and add_observer",
  "history dependent",
  "src/node.rs: start","src/transport/notify_manager.rs: add_observer","src/transport/manager.rs: add_observer")
C("Large datagrams",
  "A frame within wire limits sent by one node is received unchanged by another one, whatever its size.",
  "all messages within wire limits",
  "all sizes around the buffer limit",
  "src/transport/default.rs: MAX_PACKET_SIZE","src/transport/unicast_server.rs: start")
# ---- concurrency
C("No deadlock between API and receive thread",
  "An application thread calling any device API and the receive thread dispatching a request never block each other forever, as long as the application does not hold a lock which its handler needs.",
  "all interleavings of lock operations of any number of threads",
  "schedules",
  "src/device.rs","src/node.rs","src/transport/unicast_server.rs")
C("The documented usage does not deadlock",
  "Calling Device methods while holding the mutex that guards the request handler (as in the bundled example) does not deadlock.",
  "all interleavings",
  "schedules",
  "examples/monolight/monolight.rs","src/node.rs: message_received")
C("No request is dropped because of local activity",
  "A request received while the application uses the node is still answered.",
  "all schedules",
  "schedules",
  "src/node.rs: impl Observer for Node","src/device_node.rs","src/controller_node.rs: impl Observer")
C("A received datagram never disables the node",
  "Whatever datagrams were received, later API calls on the node return normally.",
  "all datagram sequences",
  "adversarial histories",
  "src/node.rs","src/transport/unicast_server.rs: stop","src/protocol/message.rs")
C("A remote device behaves as a map",
  "Through any sequence of write and read requests exchanged between a controller and an accepting device over a loss-free network, each read returns the data last written to that property (or its initial data), like reads and writes of a finite map.",
  "all sequences of requests on readable and writable properties",
  "refinement over unbounded histories through codec, node and object",
  "src/controller.rs","src/device.rs","src/node.rs","src/protocol/message.rs")
C("Nothing runs after stop",
  "When stop has returned, all receive threads of the node have ended, so that neither an observer nor a request handler is called until the next start, whatever other threads and datagrams did meanwhile.",
  "all interleavings of any number of threads, all datagram arrivals",
  "schedules; a thread which survives only in rare interleavings",
  "src/transport/unicast_server.rs: stop","src/transport/unicast_manager.rs: stop","src/node.rs: stop")
C("A request handler may use its device",
  "A request handler which calls a method of the device it is registered with (for example to set a related property) returns, and the device keeps working.",
  "all interleavings",
  "needs a handler which uses the API while a request is dispatched",
  "src/request_handler.rs: property_request_received","src/node.rs: impl Observer for Node","src/device_node.rs: set_property")
C("An observer may use its controller",
  "An observer which sends or posts a message through the controller it is registered with does not block it, in particular not while another thread stops the controller.",
  "all interleavings",
  "schedules",
  "src/transport/notify_manager.rs: notify","src/controller_node.rs: post_message, stop","src/transport/unicast_server.rs: stop")
# ---- devices
C("The device API is a map",
  "Through any sequence of set_property, property and the typed setters on the devices of a node, property returns the data last set for that device and property, setters report whether the property exists, the typed setters write the octets that the ECHONET Lite appendix prescribes, and nothing else changes; no call panics.",
  "all sequences of calls on any number of devices sharing a node",
  "unbounded sequences; interference between devices and properties",
  "src/device.rs: set_property, property, set_manufacturer_code","src/device_node.rs: set_property, property")
C("Application and network see the same data",
  "Data set through the device API is what a later accepted network read returns, and data written by an accepted network write is what the device API returns.",
  "all devices, properties, data and reachable node states",
  "crosses API, handlers and dispatch",
  "src/device_node.rs: set_property, property","src/node.rs: message_received")
C("New devices",
  "Device::new succeeds for every code, the new device has the documented default data, and each typed setter succeeds on it and is read back, without effect on other devices or properties.",
  "all object codes, all reachable nodes",
  "all 2^32 codes; large ones misbehave",
  "src/device.rs: new_with_node, init","src/object.rs: set_code","src/node.rs: find_object")
C("Devices of one node are independent",
  "Nothing that is done with or sent to one device of a shared node changes the data of another one.",
  "all histories of calls and messages",
  "unbounded histories",
  "src/device.rs","src/node.rs: add_object, find_object, message_received")
C("The operating status follows start and stop",
  "After start every device reports operating status on and no fault, after stop operating status off; while running the status changes only when somebody writes it.",
  "all nodes, all histories between start and stop",
  "unbounded histories",
  "src/node.rs: start, stop","src/device.rs: start, stop")
C("Application data survives start and stop",
  "What the application set on a device is still there after the device was started or stopped.",
  "all properties, all histories",
  "needs data set before start and read after it",
  "src/node.rs: start, stop")
C("Stopping or dropping one device leaves the others running",
  "When one device of a shared node is stopped or dropped, the other devices keep receiving and answering requests, and the dropped device is no longer announced.",
  "all shared nodes",
  "needs several devices on one node and their destruction",
  "src/device.rs: stop, Drop","src/device_node.rs: stop","src/node.rs: stop")
C("The example lamp follows the network",
  "The bundled example lamp switches on and off exactly when its operating status property is written, so that the lamp and the reported status always agree.",
  "all histories of received messages and API calls",
  "adversarial histories",
  "examples/monolight/monolight.rs: property_request_received","src/device.rs: documentation of Device","src/request_handler.rs")
C("Debug and release builds agree",
  "Whatever a debug build (with overflow checks) computes without panic, a release build (without them) computes as well: same results, same state, same datagrams. With properties at codes 0x80 to 0xFF and datagrams that do not trigger the known panics, a whole process behaves identically in both builds.",
  "all inputs of the arithmetic functions, all histories of nodes, devices and processes",
  "tests run in one build; the builds differ only where an operation overflows",
  "src/util/bytes.rs: from_u32, to_u32","src/object.rs: update_property_maps","src/message.rs","src/node.rs","src/controller_node.rs")
C("Everything a node sends is a frame",
  "Every datagram a node sends, over any history of API calls and received messages, is a well-formed ECHONET Lite frame.",
  "all histories of nodes, all request handlers",
  "needs all histories and all request handlers; every sent datagram has to be checked against the grammar",
  "src/node.rs: send_message, notify_message, announce","src/protocol/message.rs: bytes","src/node_profile.rs","src/message.rs")
C("Property maps tell what a controller may do",
  "The property maps a node answers over the network tell the truth: a read of a property is accepted exactly when its code is listed in the answered read map (0x9F), and a write that fits exactly when it is listed in the answered write map (0x9E), when the application's handlers accept.",
  "all reachable nodes, objects, requests and hash seeds",
  "relates two different exchanges over all reachable states and all property sets",
  "src/object.rs: update_property_maps, clone","src/property.rs","src/node.rs: message_received, is_valid_request_message","src/util/bytes.rs")
C("The network comes to rest",
  "Without calls of applications, any number of processes on a network exchange only a bounded number of further datagrams, whatever was on its way: only requests cause datagrams, and what they cause are never requests. There are no message storms.",
  "all numbers of processes, all their histories (also with broken receive threads), all datagrams on the way, all orders of delivery, losses and multicast receptions",
  "quantifies over all networks, histories and schedules; termination cannot be tested",
  "src/node.rs: message_received (Observer)","src/controller_node.rs: message_received","src/transport/unicast_server.rs: start","src/transport/multicast_server.rs: start","src/transport/notify_manager.rs: notify")
C("uechopost sends what the command line says",
  "Called with an address, an object code, a service and pairs of property code and data in hexadecimal digits, uechopost sends exactly one datagram to the first node with that address, and it is the frame with this object, service and properties. With any command line it sends nothing to other addresses.",
  "all command lines of this form, all node states and lists of found nodes",
  "quantifies over all command lines and lists of nodes",
  "bin/uechopost/uechopost.rs: main","src/controller.rs: send_message, post_message","src/protocol/message.rs: add_property, bytes")
C("uechopost survives any command line",
  "Whatever the arguments are, uechopost runs or prints its usage; it does not panic.",
  "all lists of arguments",
  "quantifies over all argument texts",
  "bin/uechopost/uechopost.rs: main","src/util/bytes.rs: to_u32")
C("uechosearch asks for everything once and shows the answers",
  "For every node found, uechosearch reads the manufacturer code and then exactly once every property of every object that is mandatory to read (with -a every property), and prints with each the data of the answer in hexadecimal digits, or the manufacturer's name. It does not panic whatever the nodes answer.",
  "all lists of nodes, objects and answers",
  "quantifies over all answers of other nodes",
  "bin/uechosearch/uechosearch.rs: main","src/controller.rs: post_message","src/util/bytes.rs: to_u32")
C("uechobench asks for everything in every round",
  "In each of its rounds uechobench reads every property of every object that is mandatory to read (with -a every property) exactly once, whatever the answers, and then ends. Every command line is run or answered with the usage.",
  "all numbers of rounds, nodes, objects, answers and command lines",
  "quantifies over all answers and rounds",
  "bin/uechobench/uechobench.rs: main")
C("What a controller asks for is what reaches the wire",
  "A message sent or posted by a controller to a remote node goes once, to port 3610 of the node's address, as the frame with the message's object, service and properties, with the controller's node profile as source and the message's TID or else the next one; posting opens a new channel for the response. Searching for an object asks the multicast group, on every interface, for the instance list of that object.",
  "all messages an application can build (within the frame limits, other than 0x5E), all nodes, states and operating system answers",
  "quantifies over all messages and states",
  "src/controller_node.rs: search_object, send_message, post_message","src/controller.rs: send_message, post_message, search_object","src/node.rs: send_message, post_message, notify_message","src/message.rs: SearchMessage")
C("On a network that delivers, a search finds every node",
  "Take any number of processes with running nodes and distinct addresses on a network that loses no datagram (it may reorder and duplicate). After Controller::search of one of them returned true, and once no datagram is under way any more, nodes() of that controller has for every process exactly one entry under the address of that process, and the entry lists the devices of the process, in the order in which they were added, followed by the node profile. Entries for other addresses are as before the search. The network can come to such a rest.",
  "for all numbers of processes, all histories of each process, all devices, all orders of delivery and duplications",
  "The tests search on one host with one node and wait a second; they cannot run all interleavings of deliveries between any number of processes.",
  "src/controller.rs: search, nodes","src/controller_node.rs: search_object, message_received","src/node.rs: message_received","src/message.rs: NodeProfileMessage")
C("The text of a message is its encoding",
  "format!(\"{}\", msg) is the hexadecimal spelling of msg.bytes(), in upper case and with two digits per octet, for every message. For messages within the limits of the format and services other than 0x5E the message can be read back from its text, and two messages with the same text have the same content. The text of a service (ESV) is its two-digit code, and different services have different texts.",
  "for all messages built with the API, all services",
  "No test prints a message; injectivity is a statement about all pairs of messages.",
  "src/protocol/message.rs: Display for Message","src/protocol/esv.rs: Display for ESV")
C("Letting go of a node, device or controller",
  "When the application drops a Device or Controller that it owns directly, or the last pointer to one of its values that owns one, the node of that device or controller is stopped, no other node is, and the drop returns. The wider claim, that a node is stopped and released once nothing in the application refers to it, is false: Node::new registers a pointer to the node with the node itself, so Drop for Node never runs and a running Node whose last handle is dropped keeps running; and a value registered as request handler or observer is kept by the node for ever, so in the pattern of the documentation (a struct that owns its Device and is registered as its handler) dropping the struct stops nothing.",
  "all sequences of creating nodes, devices, controllers and application values, moving, cloning, registering, starting, stopping and dropping them",
  "a test ends with its process; a node that keeps running after its handle is gone is not seen, and the ways of sharing pointers are unbounded",
  "src/node.rs:43-58","src/node.rs:495-499","src/device_node.rs:36-47","src/controller_node.rs:41-52","src/device.rs:292-296","src/controller.rs:145-149","src/device.rs:109-116")
C("has_interface names the addresses that are served",
  "After any calls and datagrams, Node::has_interface(a) is true exactly if the node has a socket bound to port 3610 of a, or one that joined the multicast group on a; every such address is a usable IPv4 address of an interface. Before start and after stop it is false for every address. If the operating system grants every bind and join, it is true after start for exactly the usable addresses.",
  "all histories of calls and datagrams, all addresses, all answers of the operating system",
  "the tests call it once, on the addresses of the machine that runs them",
  "src/node.rs:167-169","src/transport/manager.rs:54-59","src/transport/unicast_manager.rs:65-75","src/transport/multicast_manager.rs:65-75")
C("The hash seeds of a process do not show",
  "Two processes that get the same calls, the same datagrams and the same answers of the operating system, and differ in the seeds of their hash maps only, send the same octets, end in the same state and panic at the same time. (False: the order of the codes in a property map of fewer than 16 codes is the iteration order of a hash map. What holds: nothing but this order differs.)",
  "all hash orders and seeds, all histories of a node (objects and handlers added, messages received and sent, start, stop), all objects built through the API",
  "a test run has one seed per map, and most assertions do not look at the order; that nothing else leaks is a statement about pairs of runs",
  "src/object.rs:36","src/object.rs:202-237","src/object.rs:347-360","src/node.rs:276-446")
C("A message holds what was put into it",
  "After any sequence of calls of the setters and add methods of a new Message, every getter returns the value of the last call for its field (reduced to the width of the field), opc, opc_set and opc_get are the numbers of properties added to the three lists, property(n), property_set(n) and property_get(n) return the n-th property added to their list, and panic beyond the end. Likewise code, data and size of a protocol::Property.",
  "all sequences of calls with all arguments",
  "tests call the builders in one order and read back a few fields; a setter that touches another field shows only in other orders",
  "src/protocol/message.rs:79-209","src/protocol/property.rs:27-61")
C("A property holds what was put into it",
  "After any sequence of calls of the setters of a new Property, code, name, type, capacity and the three rules are those of the last call for them; the data are those of the last set_data or set_byte_data followed by everything added with add_data since; data_as_byte is their first octet or 0; equals_data holds for exactly these data; find_enum returns the last enumerated value added with a code.",
  "all sequences of calls (set_int_data excepted, see C23), all arguments",
  "combinations of setters are not tested",
  "src/property.rs:160-234","src/property.rs:304-382")
C("Standard properties have a type",
  "PropertyType::from_string gives a type to the twelve type names and Unknown to everything else, and every property of a new device has a type that is not Unknown. (The second half is false: many standard properties have the empty type.)",
  "all strings; all class codes and properties of the database",
  "the database has thousands of rows, no test looks at the types",
  "src/property.rs:126-144","src/database_mra_objects.rs:20-56")
C("Calls and messages take effect one after another",
  "When several threads call the methods of nodes, devices and controllers at the same time, while receive threads pass messages to them and start and stop begin and end receive threads, every call and every reaction to a message takes effect at one instant between its beginning and its end: there is an execution of the calls and messages one by one, with the same calls and answers in the same order, which leaves every node and controller with the same data. A message is passed over, and send_message of a controller refused, only when another thread is in a call or has a message at hand, or after a panic.",
  "for all nodes, controllers, programs of the application threads, datagrams, interleavings of statements, panics included",
  "Interleavings of statements are not under the control of a test, and there are too many of them.",
  "src/node.rs:119-165","src/node.rs:214-228","src/node.rs:276-471","src/device.rs:220-234","src/device_node.rs:68-99","src/controller.rs:88-127","src/controller_node.rs:64-148","src/transport/notify_manager.rs:48-54")
C("Every call can return, panics included",
  "In every state that threads which call nodes, devices and controllers can reach, also after panics have poisoned mutexes, the threads can go on until each of them has returned from all its calls, start and stop included, or has panicked, and every receive thread has ended, or waits for a message and was not told to end; no further messages from the network are needed for that. In particular no state is a deadlock.",
  "for all nodes, controllers, programs of the application threads, datagrams, interleavings of statements",
  "A deadlock needs a particular interleaving, and poisoned mutexes a panic in the right place.",
  "src/device.rs:220-234","src/controller.rs:88-127","src/node.rs:449-471","src/controller_node.rs:129-148","src/transport/notify_manager.rs:48-54")
C("A node used by several threads is a node",
  "Whenever no thread holds the mutex of a node, and none has panicked with it, the node is in a state which a sequence of calls and messages, one by one, leads to. So everything that holds for a node used by one thread holds for it.",
  "for all nodes, programs of the application threads with arguments of the right types, datagrams, interleavings",
  "Tests use one thread per node; a data race or a lock given back too early shows only in rare interleavings.",
  "src/node.rs:45-165","src/node.rs:449-471","src/device_node.rs:49-99")
C("Messages sent at the same time have different TIDs",
  "Among up to 65536 calls, messages without a TID which several threads send, post or announce through one node at the same time get different TIDs, whatever messages with a TID arrive meanwhile.",
  "for all programs of the application threads, interleavings",
  "Two threads would have to be between the increment of the counter and the use of its value.",
  "src/node.rs:119-135","src/node.rs:214-228")
C("Receive threads belong to the servers of their node",
  "However threads start, stop and use nodes at the same time: whenever no thread is inside a node (and no panic has poisoned it), exactly one receive thread belongs to each of its unicast and multicast servers, it has the observers registered with that server, and it was not told to end. No thread belongs to two servers. Every receive thread whose server is gone (after stop, or after a start that failed half way) has ended; when all nodes are stopped, no receive thread is left.",
  "all numbers of threads and nodes, all sequences of calls (start and stop of the same node included), all interleavings of their statements, all arriving datagrams, all panics of handlers and decoder",
  "A leaked or doubled thread depends on the interleaving of start and stop and shows only as a second answer or a busy port much later; tests see few interleavings.",
  "src/transport/unicast_server.rs:100-165","src/transport/multicast_server.rs:134-200","src/transport/unicast_manager.rs:60-104","src/transport/multicast_manager.rs:60-104","src/node.rs:175-212")
C("Equality and hash of objects, remote nodes and properties agree and depend on the identity only",
  "Two Objects are == exactly when class group, class and instance code agree, and exactly then they feed the same data to a Hasher; adding or writing properties, naming and cloning an object change neither. Two RemoteNodes are == exactly when IP address and port agree, again exactly when their hashes do, whatever objects they hold; a clone of a remote node is equal to it and its objects are equal to the originals in order. The hash of a Property or PropertyEnum is that of its code. A new Object has code 0 and no properties; a new RemoteNode has the unspecified address, port 0 and no objects.",
  "all objects, remote nodes, properties, hash seeds",
  "The laws relate every pair of values and every mutation; Hash must agree with Eq for HashMap keys to be found again.",
  "src/object.rs:362-377","src/remote_node.rs:104-116","src/property.rs:102-106","src/property.rs:405-409")
C("Every call returns in every fair execution",
  "A thread of the application which calls nodes, devices and controllers gets on only finitely often, in every execution, however long the other threads run and whatever arrives: there is no loop in a call which other threads could keep busy for ever (stop joins each receive thread once, registration visits each server once). What can go on for ever are only the receive threads. So if the scheduler is fair (a thread which could get on again and again does so), every call of every thread returns or panics, start and stop included, although messages never cease to arrive; every receive thread comes back to its loop again and again; and one which was told to end ends.",
  "for all nodes, controllers, programs of the application threads, datagrams, interleavings of statements, executions that never end",
  "A livelock or starvation shows only in an execution that never ends; a test can only time out.",
  "src/node.rs:175-212","src/transport/manager.rs:40-96","src/transport/unicast_server.rs:102-161","src/transport/multicast_server.rs:136-196")
C("The receiver of a post gives out one response, to the right post",
  "However many threads post messages, wait on the receivers (recv, recv_timeout) and use the node otherwise: every post_message returns a receiver of its own; a receiver gives out at most one message, however often and from however many threads one waits; that message has arrived at a socket before and is not a request. The message has the TID of the message that was posted, as long as from the first post on only posts of messages without a TID choose TIDs of the node (no send, notify, announce, search or start at the same time or later) and no request without a TID arrives. Without this it can have another TID: the answer to a message another thread sends after the post is given to the receiver of the post. It need not have arrived after the post was called either: a message with the right TID which has arrived but which its receive thread has not yet passed on is taken for the answer.",
  "all numbers of threads and nodes, all sequences of calls, all interleavings of their statements, all arriving datagrams, all panics of handlers and decoder",
  "Who gets an answer depends on the order in which the post, other sends and the receive thread get hold of the node; tests post from one thread and wait at once.",
  "src/node.rs:124-131","src/node.rs:226-250","src/controller_node.rs:102-106","src/controller.rs:124-127")
C("The nodes a controller returns have told about themselves",
  "However many threads use a controller while messages arrive: every node that Controller::nodes returns has the address of the sender of a response or notification for the node profile which arrived before the call returned; its objects are those which the instance lists of that message name, in that order, followed by the node profile, each with the standard properties of its class; no two nodes in the answer have the same address and port; and a node that was once returned is returned by every later call. The objects need not be those of the latest such message: when two messages of a node arrive at two sockets, the older may be handled after the newer and replaces it.",
  "all numbers of threads, nodes and controllers that have not found anything yet, all sequences of calls, all interleavings of their statements, all arriving datagrams, all panics",
  "Which message is handled when depends on the receive threads; a test sees one order.",
  "src/controller.rs:93-101","src/controller_node.rs:59-74","src/controller_node.rs:128-147")
C("The command-line tools, with the threads of the library around them, do what they are for",
  "Take any execution in which a thread runs the main function of uechosearch, uechobench or uechopost next to the receive threads of its controller and any other threads. The calls of every thread are those of its program, in program order. uechosearch, when it has ended, has started the controller, searched, asked for the nodes once, asked every node for its manufacturer code and then every object of it for every property (only the mandatory ones without -a), each exactly once and in this order, waited for each answer before the next question, printed what the receivers gave, and stopped the controller twice (stop and Drop); the only other way to end is a panic of main, which needs overflow checks and an answer of more than four octets, after a prefix of these questions and with one stop. At any time before, its requests are a prefix of the questions. uechobench asks the same object questions in the given number of rounds and never panics. uechopost sends to the first node with the given address, without waiting for 0x60 and 0x63, posting and waiting for 0x61, 0x62 and 0x6E, and sends nothing in all other cases. When the tool is the only thread that uses the controller, every answer it takes has the TID of the request it answers. The answer need not come from the node that was asked: refuted.",
  "for all executions of the thread model, all arguments, all networks and outcomes of system calls, all schedules, all arriving datagrams, both build profiles",
  "the tools have no tests; what they print depends on which messages arrive while they wait and on the interleaving with the receive threads",
  "bin/uechosearch/uechosearch.rs:33-127","bin/uechobench/uechobench.rs:33-114","bin/uechopost/uechopost.rs:35-203","src/controller.rs:112-149")
C("A device shared by threads and the network reads what was last written",
  "In every execution of any number of application threads and receive threads, a device on a node behaves as one table of property values to which each call (set_property, property, add_device_object, start, stop) and each reaction to a request is applied at one instant. So: (1) if a set_property of a thread has returned true, and nothing else that writes this property was under way or has begun since, every property() call that begins later, in any thread, returns exactly the value written; (2) every answer 0x72 to a read request received after that return carries exactly that value on the wire; (3) a value returned by property() was in the device at the beginning, or was passed to a set_property, start, stop or object addition that had begun, or was in a write request that had arrived, before the read returned; (4) set_property returns true exactly when the property exists, and write requests are applied as a whole, in order, or not at all.",
  "all executions of all thread programs, all interleavings of statements and datagrams, all devices other than the node profile, all property codes except the three property maps, handlers that leave the objects alone",
  "Tests run one interleaving; freshness after concurrent writes, reads and requests is about all of them",
  "src/device.rs:216-232","src/device_node.rs:64-100","src/node.rs:276-330","src/node.rs:446-500","src/object.rs:288-377")
C("A remote read sees what the device last wrote",
  "Several processes, each with its own threads and nodes, are connected by a network that may lose, repeat, delay and reorder datagrams but not forge the address of a process; other hosts may send anything. If in process B a set_property(c, x) of a device has returned true, and process A has until then sent nothing with the TID k or with the TID 0, then every answer 0x72 of that device with the TID k which A ever receives from B carries exactly x for c, unless something that writes the same property was under way or has begun since. The receiver of a post in A, read by whatever thread, gives out such an answer with the same value. Whatever value A receives in such an answer was in the device at the beginning, or was passed to a call that had begun in B, or was in a write request that had arrived at B.",
  "all executions of all numbers of processes, all thread programs, all interleavings, losses, duplications and reorderings, all devices other than the node profile, all property codes except the three property maps, values of at most 255 octets, handlers that leave the objects alone",
  "Tests run two processes on one host with one schedule; late and repeated answers over the network are about all schedules",
  "src/device_node.rs:64-100","src/node.rs:119-135","src/node.rs:276-330","src/node.rs:446-500","src/controller_node.rs:94-110","src/transport/unicast_server.rs:108-147")
C("A remote write is seen by every later read",
  "Several processes with their own threads and nodes are connected by a network as in C117. Process A has so far sent nothing with the TID k or 0; everything that writes property c of a device in process B is over; from then on only requests of A with TID k (or 0) write c, and those which are to be answered all write x. Once A has received the answer 0x71 or 0x7E of that device with TID k from B, every property(c) call in B which begins later, in whatever thread, returns x; and every answer 0x72 of the device to a request that any process makes later (with a TID it has not used before) carries x for c. The same holds when both answers are taken from the receivers of posts.",
  "all executions of all numbers of processes, all thread programs, all interleavings, losses, duplications and reorderings, all devices other than the node profile, all property codes except the three property maps, handlers that leave the objects alone",
  "Tests write and read back in one thread with one schedule; that an acknowledged write is in the device before the acknowledgement leaves, and stays visible to all threads and processes, is about all schedules",
  "src/node.rs:276-330","src/node.rs:446-500","src/node.rs:119-135","src/device_node.rs:64-100","src/transport/unicast_server.rs:108-147")
C("A controller lists only devices that were added",
  "Take any number of processes on one network, each with any number of threads that call any public functions in any interleaving; the network may lose, duplicate, reorder, and delay datagrams, and strangers may send any. If Controller::nodes() of one process returns a remote node with an address of another process, then every object of this remote node is the node profile 0x0EF001 or has the code of a device which the application of that other process has added to one node with DeviceNode::add_object or Node::add_object. Premises about that other process: it leaves the properties 0xD3..0xD7 of the node profile to the library, sends no 0x72/0x73 messages by hand, its devices have no property 0xD6 of their own, data of at most 255 octets, and at most 84 devices per node. Without the premise about property 0xD6 the claim is false: a controller that reads the energy (0xD6) of a storage battery takes the answer for an instance list.",
  "all numbers of processes, threads and calls, all interleavings, all behaviours of the network, all hash orders, both profiles, all device codes and handlers within the premises",
  "needs every interleaving of the search, the announcements and the answers of two processes over a network that duplicates and delays; a test runs one schedule on a quiet network. The refutation needs a device with a property 0xD6 of its own, which no test has.",
  "src/controller.rs:94-102","src/controller_node.rs:129-148","src/remote_node.rs:76-89","src/message.rs:184-196","src/node.rs:68-72","src/database_mra_objects.rs:11741-11745")
C("A controller that lists one device lists all that were there before the start",
  "Processes, threads and network as in C119. If Controller::nodes() of one process returns a remote node with an address of another process, and this remote node has a device besides the node profile, then the devices belong to one node of that other process, and the remote node has every device for which the add_object call on that node had returned before start was first called on it: no interleaving, delay or loss makes a controller see a part of them. Premises about the other process as in C119. Without a device in the entry the claim is false: the announcement that a node sends when it starts carries the list as 0xD5, and the controller makes an entry without devices of it.",
  "all numbers of processes, threads and calls, all interleavings, all behaviours of the network, all hash orders, both profiles, all device codes and handlers within the premises",
  "a partly filled list would need a particular interleaving of add_object, start and a request; tests run add_object and start in one thread and look at one answer.",
  "src/controller.rs:94-102","src/controller_node.rs:129-148","src/remote_node.rs:76-89","src/node.rs:68-72","src/node.rs:151-166","src/node.rs:176-199","src/node_profile.rs:76-142")
C("Instance lists are fresh",
  "Processes of the library are connected by a network that loses, repeats, delays and reorders datagrams. When a Get_Res or INF from process B arrives anywhere, and at an earlier moment B had got no Get or INF_REQ with its TID (and none with TID 0), then an instance list (0xD6) in it is well formed, contains every device of a node of B for which add_object (or the creation of a device) had returned at that moment, and no device that was not added. Hence a controller whose nodes() lists a device at an address of B lists all devices that had been added to the node before the first question arrived at B. Premises: the applications of B leave the node profile to the node, no device has a property 0xD6 of its own, at most 84 devices per node. Without the premise about questions the claim is false: a node to which a device is added while it runs tells nobody, and the list of a controller stays as it was.",
  "all numbers of processes and threads, all programs of calls fulfilling the premises, all interleavings, all network behaviour, all hash orders, both overflow profiles",
  "A test adds devices, waits and searches once; whether a list can be stale depends on the interleaving of add_object (which extends the list of objects and then rewrites the node profile) with the receive threads, and on which question an answer that arrives late belongs to.",
  "src/node.rs:68-72","src/node.rs:251-263","src/node.rs:449-499","src/node_profile.rs:76-142","src/controller_node.rs:129-148","src/message.rs:155-196")
C("A message that writes several properties is seen whole",
  "Processes of the library are connected by a network that loses, repeats, delays and reorders datagrams. Let Q be anything one can say about the values of the properties of a device in process B which is true at the start and of every such device added, and which every set_property, start and stop of the application and every arriving write request leave true when their whole effect is applied at once (a request about a property which the device lacks has no effect). Then the values in every Get_Res of the device which arrives anywhere are values for which Q holds: no answer shows a request half carried out, or values from before and after a request side by side. In particular, if every event that writes one of two properties leaves them in a relation R, the two values in any answer are related by R. The same is false for two calls of property() by the application of the device itself: a request may be carried out between them, and there is no call that reads two properties.",
  "all predicates Q, all numbers of processes and threads, all programs of calls, all interleavings, all network behaviour, all devices other than the node profile, all properties except the three property maps, handlers that leave the objects alone",
  "A torn read needs a read request to be handled between the two writes of another request; two receive threads and the application share the device, and a test does not choose the interleaving",
  "src/node.rs:276-446","src/node.rs:449-471","src/object.rs:293-347","src/device_node.rs:64-100")
C("A device says which accesses the standard requires",
  "For a new Device of a listed class and every row of that class in the standard's property table, is_read_required(), is_write_required() and is_announce_required() of the device's property are true exactly when the row has the word required for get, set and announcement.",
  "all object codes, all rows of all classes, all hash orders, both overflow profiles",
  "The tests look at a handful of devices; the super class is added first and its rows win over those of the class, which shows only for classes that are stricter than the super class",
  "src/database_mra_objects.rs:20-55","src/property.rs:236-258","src/object.rs:116-121","src/object.rs:202-243","src/device.rs:186-200")
C("IPv6 addresses of the host are left alone",
  "Starting the transport gives the same result, the same servers and the same calls into the operating system whatever IPv6 addresses the host has, and after any calls and datagrams has_interface is false of every IPv6 address. Every IPv4 address survives being written as \"address:port\" and parsed back, which binding and joining the group rely on; the same text of an IPv6 address never parses. So a unicast server refuses an IPv6 address without asking the operating system. A multicast server asked for an IPv6 address does not report failure: once the socket is bound it panics, after which every use of it panics and it cannot be stopped. The constant for the IPv6 group is no multicast address, and get_all_interfaces gives the IPv4 addresses only.",
  "for all interface lists, all IPv4 and IPv6 addresses, all answers of the operating system to bind and join, all histories of a node, whatever the parser makes of texts with brackets",
  "Tests run on the addresses of one machine; the repository's tests bind only to what get_all_interfaces returns, so the IPv6 branches are never entered, and no test covers all 2^32 and 2^128 addresses.",
  "src/transport/unicast_server.rs:79-91","src/transport/multicast_server.rs:81-125","src/transport/udp_socket.rs:154-173","src/transport/interface_unix.rs:29-92","src/transport/default.rs:17-20")
C("A database extended by an application",
  "Let an application make a StandardDatabase::new() and add manufacturers and objects to it with add_manufacture and add_object, in any order. find_manufacture of a code of the standard's list gives the entry of the list; of any other code, the first one added with that code, or None. find_object gives what it gave without the additions for every class of the standard; for any other code, the first object added whose code is that class with instance code 0, or None. So an object added with instance code 0, a code of its own and a class that is not listed is found; an object with another instance code is never found, and the entry of a listed class cannot be replaced, although add_object returns true.",
  "for all sequences of additions, all codes, all hash orders, both build profiles",
  "Tests look up a few entries of the unmodified table; the statement is about every code after every sequence of additions.",
  "src/database.rs:44-99","src/manufacture.rs:19-47")
C("The log is switched on once",
  "Whatever the calls of a process: Logger::init panics exactly when the application had given a logger of its own to the log crate before the first Logger::init, and then it panics every time; otherwise it may be called any number of times. A record is printed by the library's logger exactly when init has been called with success and the record's level is within log::max_level(), which init sets to Trace once and only the first time. Logger::set_level has no effect on what is printed.",
  "for all sequences of calls of Logger::init, log::set_logger, log::set_max_level, Logger::set_level and of records of every level",
  "A process has one logger; a test binary can try one sequence of calls only.",
  "src/log/logger.rs:20-73")
C("A node announces only on start, on demand, or when asked for a notification; changes of state are not announced",
  "In every state a node can reach through its interface, a datagram with the notification service 0x73 leaves it only for one of these reasons. start() and annouce() send the instance list of the node profile (source object 0x0EF001, the one property 0xD5) to the multicast group. annouce_property() sends to the group. notify(), send_message() and post_message() send a message the application made with service 0x73. A received request of service 0x63 is answered to the group. Adding an object or a handler, DeviceNode::set_property, stop(), and every received message of another service send none. The stronger claim that a property whose rule says that changes must be announced is announced when it changes is refuted: a running lamp switched by the application with set_property sends nothing, and switched by a controller sends the response only.",
  "all reachable states of a node, all its operations, all behaviours of the handlers, the operating system and hash order, both overflow profiles",
  "the required announcement on change is missing code; tests look at the datagrams that are sent, not at those that never are.",
  "src/node.rs:119-165","src/node.rs:175-212","src/node.rs:276-472","src/device_node.rs:68-90","src/object.rs:142-150")
C("Nodes of one machine share the port; a build without SO_REUSEADDR does not start",
  "Take an operating system that grants a bind to an IPv4 address unless an open socket overlaps it (same port, and the same or the wildcard address) and not both sockets have SO_REUSEADDR. In the default build, which sets SO_REUSEADDR, a stopped transport starts whatever sockets with SO_REUSEADDR are bound to port 3610 on the machine, so that any number of nodes start: provided the joins succeed, every usable address gets a unicast and a multicast server, start returns true exactly if there is a usable address, and the port stays shared. One socket of any program on any IPv4 address with port 3610 and without SO_REUSEADDR keeps every transport from starting. That the library also works in builds without the feature \"unix\" is refuted: there the sockets are bound without SO_REUSEADDR, and for every set of addresses and every state of the machine start returns false and leaves nothing running, because the multicast socket of the node, bound to the wildcard address, keeps its unicast socket away; the node announces nothing.",
  "all sets of open sockets, all interfaces, all answers of the system that follow the rule, all nodes",
  "the tests run in the default build on one machine; whether a bind is granted depends on other programs and on a build feature no test is run with.",
  "src/transport/udp_socket.rs:38-64","src/transport/udp_socket.rs:84-119","src/transport/interface.rs:20-25","src/transport/multicast_server.rs:81-125","src/transport/unicast_server.rs:79-91","src/transport/manager.rs:71-84")
C("Received datagrams do not make a node grow; a controller grows with the ports that speak to it",
  "Whatever datagrams a process receives, and from whatever state: its node keeps as many objects, properties, request handlers, observers, servers and registrations as it had, and if the data of all properties have at most 255 octets they stay within 255 octets (unless a handler of the application makes them longer). A controller gets at most one entry for each address and port that has sent something, and no entry has more than 337 objects. There is no bound for one machine: datagrams of 12 octets from any number of different ports make as many entries, which are never removed.",
  "all processes in all states, all sequences of datagrams of any content on any server, all senders, any lock contention, both build profiles",
  "No test sends more than a few frames or looks at the size of the controller's list; a leak shows only after long traffic and with hostile senders.",
  "src/controller_node.rs:59-74","src/controller_node.rs:129-148","src/remote_node.rs:37-44","src/remote_node.rs:76-88","src/node.rs:391-445","src/transport/unicast_server.rs:102-150")
C("What a node sends for one datagram is bounded",
  "For one received message a node sends at most one datagram, which goes out once, or at most once through every multicast server when it is a notification (0x73, 0x7A). When the data of its properties have at most 255 octets, a refusal is at most twice as long as the request and any other answer has at most 13 octets and 257 for each property the request names. The answer to a read request that is not refused has exactly 12 octets and, for each property as often as the request names it, its data and 2 octets; a property named k times is sent k times.",
  "all messages a receive thread can make of a datagram, all nodes and worlds, all handlers that keep data within 255 octets, both build profiles",
  "Tests send one well-behaved request; amplification by requests that name one property many times is not looked at.",
  "src/node.rs:276-446","src/node.rs:449-471","src/object.rs:293-345","src/protocol/message.rs:341-366")
C("Identification numbers: distinct when new, kept until written, writable by anybody, all equal without std",
  "Two new objects whose UUIDs differ in the octets used show different identification numbers (property 0x83) of 17 octets with maker code 0xFFFFFF. A number, like all data that the library does not write on its own, stays for as long as neither the application nor a request writes it, through starts, stops, added devices and any other messages, if the request handlers do not change objects themselves. The access rules of every object, the node profile included, let requests write the number, so a device whose handler accepts the request takes over the number of another one. In a build without the feature std all objects of all nodes have one and the same number; apart from this they are as in other builds.",
  "for all databases, UUIDs, hash orders, object codes, runs of a node (calls and messages) and both overflow profiles",
  "A test sees a few UUIDs and a few calls, and one build only; that the number stays concerns every run, and that the number can be overwritten depends on which of two rows of a generated table of 36000 lines comes first.",
  "src/util/oid.rs:26-47","src/object.rs:202-237","src/super_object.rs:102-107","src/database_mra_objects.rs:132-151","src/node.rs:276-446","Cargo.toml:17-23")
C("Devices and controllers written as the documentation shows",
  "A device whose handler is written as in doc/device_overview.md or doc/device_inside.md lets the library answer reads and requests for notifications, and lets a write through exactly if the check in the handler accepts it. The example in the documentation of Controller shows the data of every property which must be readable of every object found. Holds for the overview handler with reads, requests for notifications and writes without response. Does not hold otherwise: the overview handler does not look at writes with response (0x61), and is not asked about write-read requests (0x6E), so that both are carried out whatever its check says; with the handler of device_inside.md every read is refused, since a read carries no data and the handler judges the data; the example of Controller never puts a property into its requests, and devices of this library answer such a request with no property, so that no data are shown.",
  "all nodes in all reachable states with the handlers of the documentation, all checks in the place of the dots, all requests permitted by the rules of the object, all sets of nodes found and all answers",
  "The examples of the documentation are not compiled or run (the one of Controller is marked no_run, those in doc/ are not code of the crate); a test would have to try every service against every handler.",
  "doc/device_overview.md:46-67","doc/device_inside.md:34-66","src/controller.rs:28-68","src/node.rs:350-446","src/request_handler.rs:109-132")
C("How long starting and stopping takes",
  "UdpSocket::bind sleeps 100 ms after every attempt that failed, also after the last, so 300 ms when it fails. A start of the transport that succeeds takes 100 ms for every failed attempt, at most 600 ms for every address of the host; one that fails returns too, after waiting for the receive threads it had started. Where the read timeout is set and kept, stop returns, at most 500 ms and the work on one datagram later for every server (two for every address). It does not return within one timeout, since the servers are told to stop one after the other: with one address it may take nearly a second. The result of set_read_timeout is ignored: where it fails, start succeeds and on a silent network stop never returns.",
  "every host (any number of addresses, any results of bind and join), every behaviour of the network over time (any times between datagrams, any times of work), every time of the stop",
  "A test runs on one machine, where binds succeed and the timeout can be set; the time until stop returns depends on when each receive thread last began to wait.",
  "src/transport/udp_socket.rs:30-31","src/transport/udp_socket.rs:84-119","src/transport/unicast_server.rs:102-161","src/transport/multicast_server.rs:136-196","src/transport/unicast_manager.rs:77-104","src/transport/manager.rs:71-90")
C("Repeated and reordered datagrams",
  "UDP may deliver a datagram twice or out of order. For a node whose request handlers decide from the addressed object, the service, the property and their own state and change nothing: whether a received request is carried out does not depend on the requests before it, and after any sequence of received messages a property holds the data written last by a request that was carried out (or what it held before). So a second copy of a datagram changes no data unless a request carried out in between wrote one of its properties, and neighbouring messages that write no common property may arrive in either order. A repeated request gets the same answer if no request carried out in between wrote a property which it reads. It is not true that a copy never undoes newer data: a copy that arrives after a newer write of the same property restores the old data, although its transaction id differs from that of the newer write.",
  "for every reachable node with handlers of that kind, every sequence of received messages, every property except the property maps",
  "Needs every interleaving and repetition of datagrams; the tests of the repository send every message once and in order.",
  "src/node.rs:276-447","src/node.rs:449-471","src/object.rs:293-345")
C("Repeated and reordered answers at a controller",
  "After any sequence of received messages a controller has one entry for every address and port that sent it an answer to a read or a notification for its node profile. The entry shows the objects which the last such message of that sender listed (and a node profile), and the entries are in the order in which those last messages arrived. So a second copy of a message changes the order of the entries at most if nothing of the same sender came in between, and neighbouring messages of different senders may arrive in either order, again up to the order of the entries. It is not true that a late copy is harmless: after a newer list of the same sender it brings back the old objects; nor that a copy leaves the order of nodes() alone, so an index into nodes() may name another node afterwards.",
  "for every sequence of received messages, all senders, all answers of the operating system and all UUIDs",
  "Needs all sequences with repetitions and exchanges of datagrams; the tests look at one search on an undisturbed network.",
  "src/controller_node.rs:59-74","src/controller_node.rs:129-148","src/remote_node.rs:37-44","src/remote_node.rs:76-88")
C("The sender of a request plays no part in what a node does with it",
  "Take a message that a node receives, and the same message with any other transaction id, from any other object (SEOJ) at any other address. In every state of the node, with every list of handlers, message_received does the same with both: it panics for both or for neither, leaves the same node and the same handler state, and gives the same answer, except that each answer carries the transaction id of its request and goes to the object that sent it. For requests with transaction ids other than 0, the datagrams that the node sends are also the same: as many of them, from the same sockets, with the same outcome, with the same octets except those of the transaction id (octets 2 and 3) and of DEOJ (octets 7 to 9), to port 3610 of the address of the one sender or of the other, or to the multicast group in both cases. So there is no access control: whoever reaches the node with a datagram can read and write what anyone else can.",
  "for all nodes in any state, handlers with any state, seeds, worlds, messages as received, and all transaction ids, source objects and source addresses put in their place",
  "Tests send requests from one controller at one address; no test can try every sender. A rule that favours some class of sender, or some range of transaction ids, would be seen only by a test that happens to use it.",
  "src/node.rs:276-447","src/node.rs:449-471","src/request_handler.rs:109-132","src/object.rs:293-345","src/message.rs:47-138")
C("What is done to one object of a node does not show at another",
  "Take any history of messages received by a node and of property writes and reads by the application, and one object code x. The answers to the messages for x, and the results of the application's calls for x, are those of the history in which every message and call for other objects has been left out, and of every other node which has the same object x and the same handlers, whatever the other objects hold. This supposes that the application's handlers do not carry anything from the other objects over to x themselves, and that the history does not panic.",
  "all object codes, nodes, handlers, handler states, histories, hash seeds and build profiles",
  "A test compares a few answers with and without a few other requests; it cannot vary the data of all other objects and all interleavings.",
  "src/node.rs:276-446","src/request_handler.rs:109-132","src/device_node.rs:67-99")
C("What a controller knows of a node comes from that node alone",
  "Two controllers that hear the same lists of objects from the node at an address, in the same order, know the same objects of it, whatever messages of other addresses the one or the other hears, loses, hears twice or in another order. Messages of other addresses therefore never add, change or remove what is known of a node, and losses do no harm to what is known of a node once its last list arrives.",
  "all sequences of received messages, addresses, hash seeds, UUIDs and build profiles",
  "The claim compares all pairs of message sequences that agree on one address; a test runs a few of them.",
  "src/controller_node.rs:59-74","src/controller_node.rs:129-148","src/remote_node.rs:37-44","src/remote_node.rs:76-88")
C("A node answers from the address that was asked",
  "Every datagram a node sends leaves from port 3610: those of its multicast sockets go to 224.0.23.0:3610 and leave from the wildcard address, all others leave from an address of a usable interface. The answer to a request that came to one of the addresses of the host leaves from that address. In fact send_message, post_message and the answers of the observer offer a unicast datagram to the unicast sockets in the order of the interfaces, whatever its destination and wherever the request came in, and stop at the first socket that takes it; so the answer leaves from the address that was asked only if the host has no other address, or if it is the first one and the system takes every datagram. On a host with two addresses a request to the second is answered from the first. A notification is offered to the group once per multicast socket by calls that do not differ, because no socket is given an outgoing interface.",
  "all node profiles, all histories of calls and datagrams (also with a controller), all operating systems (interfaces, answers to bind, join and send), all requests, all receive threads",
  "Test machines have one usable address, or do not look at the source address of an answer; a difference shows only on hosts with several addresses, and depends on the order in which the interfaces are listed.",
  "src/transport/unicast_manager.rs:49-56","src/transport/unicast_server.rs:51-73","src/transport/multicast_manager.rs:49-56","src/transport/multicast_server.rs:51-75","src/node.rs:119-135","src/node.rs:449-471")
C("A call that returns false has done nothing",
  "Full claim: when a call that reports success by a truth value returns false - Device::set_property and the typed setters, Node::send_message, notify, annouce, annouce_property, start, Controller::send_message and search_object - everything is as it was before the call. True for the setters: neither the node nor the network is touched. For the others no waiting caller is served and no channel is created; send_message has sent nothing; nothing of the node changes but the transaction number, which advances by one if the message came without one; what goes to the group may have been sent on some, never on all interfaces. start of a stopped node leaves it as it was with nothing offered to the network, unless the announcement was refused or there is nothing to announce; handlers and the waiting caller are always kept. The full claim is false: after a refused send_message the answer to an outstanding post_message is no longer delivered, because the transaction number it is compared with has moved; search_object returns false though the request was transmitted on the first interface; a start whose announcement is refused returns false with the servers running and the operating status of the devices set.",
  "all nodes, calls, arguments, operating-system behaviours and build profiles",
  "A test needs a system that refuses single calls of send or bind at chosen moments; the suite runs against the real loopback, where nothing is refused.",
  "src/device_node.rs:68-86","src/device.rs:220-290","src/node.rs:119-227","src/controller.rs:104-127","src/transport/manager.rs:46-100")
C("A controller lists the other nodes, not itself",
  "Full claim: Controller::nodes() returns the nodes of other processes, not the controller's own node. True for a process that hears no datagram from its own addresses: whatever the calls and the datagrams, the list then has no entry for such an address. False on a system as it is by default, where a datagram for the group also comes back to the process that sent it (the code does not switch IP_MULTICAST_LOOP off, and the check for local messages in Node is commented out): then after every search() on a network that delivers, the list has an entry for the address of the controller itself, with the devices of its own node; the announcement of start() alone is enough for such an entry.",
  "all networks of processes, machines and orders of delivery; all histories of calls and datagrams",
  "The tests start a controller and look for the device they have started; an additional entry goes unnoticed, and whether it appears depends on the multicast settings of the machine.",
  "src/controller_node.rs","src/node.rs:265-275","src/node.rs:450-472","src/transport/udp_socket.rs:39-90")
C("The order in which devices are added plays no part",
  "Node::add_object with any devices whose codes differ from each other, from the node profile's and from those the node has: it does not panic, every device is then at the node as it was added, and the node's other objects except the node profile are unchanged. If the same devices, with codes that differ from each other, are added to the same node in two different orders, any history of received messages and of application reads and writes has the same answers and results at every device. Adding devices does not affect the devices with other codes. The node profile counts the same number of instances and lists the same devices. It is not true that the order never shows: the instance list is in the order of adding, and of two devices with one code, which add_object accepts, the first one added answers.",
  "all nodes, all lists of devices and their permutations, all histories of messages and calls that do not panic, all handlers that do not carry anything from other objects to the device themselves",
  "Tests add one or two devices in one order; the claim is about every list, every order and every later history.",
  "src/node.rs:68-94","src/node.rs:251-263","src/node_profile.rs:76-143")
C("search_object finds the nodes that have the object",
  "Full claim: Controller::search_object(x) makes the controller list the nodes that have an object x (the documentation: searches only the specified object nodes). This is false for every object but the node profile. The request reads property 0xD6 of the object x itself. A node without an object x does not answer; a node whose object x has no readable property 0xD6 refuses with 0x52, and a refusal changes no controller's list: such a node is never found. That is so for standard devices of every class but nine. For those nine (for example a storage battery, where 0xD6 is the discharged electric energy) an accepted read is answered with the value, which the controller takes for the instance list of the node: it then lists objects the node does not have and forgets those it had listed.",
  "all object codes below 2^24, all controllers and nodes in any state, all handlers, all senders' addresses, all earlier histories of the controller, all standard classes",
  "The tests call search only, never search_object with another object; which classes have a property 0xD6 is a fact about the whole standard database.",
  "src/controller.rs:103-107","src/controller_node.rs:84-90","src/controller_node.rs:129-148","src/message.rs:22-42","src/message.rs:184-196","src/database_mra_objects.rs:5591","src/database_mra_objects.rs:19036")
C("What a controller shows of a remote object is what the device has",
  "Full claim: the objects of a RemoteNode that Controller::nodes returns show the device: the same properties, with the same access rules, and the device's data. The first half holds for every node whose devices were made with Device::new: whatever was called on the node and whatever it received, and whatever the controller received before, an object shown has exactly the properties of the node's object with the same code, with the same names, types, and read, write and announcement rules. The claim is false beyond this: properties which the application of the device has added outside the standard's list for the class are never shown, though they can be read; and the data shown are those of a new device (status off, no fault, unknown place, no measured value), whatever the device has and whatever it has answered or announced.",
  "all sequences of received messages at the controller, all nodes with any devices of Device::new after any sequence of calls and messages, all property codes, all hash orders and seeds of the two databases",
  "The tests count properties of found objects but do not compare them with the device; that the data never change is a statement about all messages.",
  "src/controller_node.rs:129-148","src/controller.rs:93-101","src/remote_node.rs:91-102","src/device.rs:188-200","src/object.rs:202-237")
C("Two controllers on one network know the same nodes",
  "Full claim: controllers that run on one network at the same time know the same nodes with the same objects. It holds if every sender's last answer or notification for the node profile carried the same properties at both: then their lists are equal up to order, whatever was received before, in whatever order the senders came, and whatever else arrived. It is false otherwise, also without loss: what all controllers receive of a node is the announcement of its start, after which every controller knows the node without any of its devices, whatever it knew before; the instance list comes only as the answer to a search, and goes to the controller that searched and not to the others.",
  "all pairs of sequences of received messages, all hash seeds of the two databases, all nodes with at most 84 devices after any calls and messages, all earlier histories of a controller",
  "The tests run one controller at a time; the comparison of two histories is not a single test run.",
  "src/controller_node.rs:64-74","src/controller_node.rs:129-148","src/node.rs:151-166","src/node.rs:175-200","src/node.rs:449-472")
C("A request to instance 0 of a class is a request to every object of the class",
  "Full claim (ECHONET Lite: a DEOJ whose instance number is 0 stands for all instances of the class): a node carries out a request to instance 0 with every object of the class, and answers for each. False: a node whose objects have instance numbers of 1 and above does nothing with such a request and sends nothing, whatever service, properties and sender it has and however many objects of the class there are. If an object with the instance number 0 was added, it alone is asked, as any other object is; the other objects of its class stay as they are.",
  "all nodes in any state, all handlers, all received messages whose DEOJ has instance number 0",
  "The tests address existing instances only.",
  "src/node.rs:78-94","src/node.rs:276-300","src/node.rs:449-472")
C("A notification that asks for a confirmation is confirmed to its sender",
  "A node that receives a notification with service 0x74 for one of its objects answers the sender with service 0x7A, the TID of the notification, the objects exchanged and the codes of the notified properties; the notification writes nothing.",
  "all nodes, handlers, objects and received notifications 0x74",
  "all node states times all notifications; the tests of the project send no 0x74",
  "src/node.rs:307-374,449-471","src/object.rs:293-305","src/message.rs:71-73,125-127","src/protocol/esv.rs:93-107")
C("A property holds only data that the standard allows for it",
  "The data of every property of a device whose size is listed have that size, and are one of the enumerated values where values are listed: when the device is new, and after whatever requests the network sends.",
  "all classes of devices, nodes, handlers that leave the objects alone, and sequences of received messages",
  "982 table rows, all messages, sequences of any length",
  "src/node.rs:346-355,412-441","src/property.rs","src/object.rs:202-237")
C("Of a request that cannot be carried out as a whole, what can be done is done",
  "A request of which some properties can be read or written and others not is processed in part, as ECHONET Lite has it: the answer, with the service of a failure, carries the data of the properties that can be read, and leaves out the data of those that were written.",
  "all nodes, objects, handlers and received read, notification and write requests",
  "all node states times all combinations of properties in a request",
  "src/node.rs:303-374","src/message.rs:43-98")
C("On a network that loses, repeats and reorders datagrams, searches leave no wrong entry",
  "Processes with running nodes of at most 84 devices each, any of which at any times searches all nodes, looks at the nodes that it knows, sets the data of its properties (not those of its node profile that say what it has) and adds handlers (that leave these alone): whatever datagrams the network loses, repeats or delivers late, whichever attempts to send fail, whenever other threads use nodes and controllers, and whatever datagrams arrive from strangers (other IP addresses; datagrams that panic or are answered to the group aside), at any time a controller has for each process either exactly one entry, with the devices of that process in order and its node profile, or what it had for that address before the searches; entries for other addresses, those of the strangers aside, are as before. One answer of a process that reaches one socket of the controller's process while nobody else uses its node and controller is enough for the right entry, and the entry stays right from then on. Meanwhile every process keeps its objects, its sockets and its locks.",
  "every number of processes, devices, machines, sockets; every sequence of searches, other such calls, deliveries, losses and repetitions",
  "the order, loss and repetition of datagrams among any number of processes is not enumerable by tests",
  "src/controller.rs: search, nodes","src/controller_node.rs: search_object, message_received","src/node.rs: message_received","src/message.rs: NodeProfileMessage")
C("A request about no property asks for nothing and is not answered",
  "A received request of one list (0x60 to 0x63, 0x74) that names no property has no effect on the node: it changes no data, no handler is asked, and no answer is sent.",
  "all nodes, objects, handlers and received requests without properties",
  "all node states, handlers and services",
  "src/node.rs:276-446","src/request_handler.rs:109-132","src/object.rs: message_received")
with open('/verif/properties.jsonl','w') as f:
    for p in P: f.write(json.dumps(p)+"\n")
print(len(P))
