{"id": "C01", "title": "Integer/bytes conversion is exact big-endian arithmetic", "statement": "Bytes.from_int(v, n) returns exactly n bytes holding v mod 256^n in big-endian order (also for negative v), raises ValueError exactly when n is negative, and Bytes.to_int is its inverse: to_int(from_int(v, n)) == v mod 256^n and from_int(to_int(b), len(b)) == b.", "quantifier": "every Python int v, every int size n, every byte string b of any length", "why_tests_cant": "The existing tests sample one to four byte sizes at a stride; the law is over unbounded integers and lengths.", "anchors": ["uecho/util/bytes.py: Bytes.from_int, Bytes.to_int"]}
{"id": "C02", "title": "Hex text round trip", "statement": "For every message that can be encoded, Message.parse_hexstring(msg.to_string()) decodes to the same message as parse_bytes(msg.to_bytes()); Bytes.from_string inverts bytes.hex().upper(), ignores ASCII whitespace between bytes, raises ValueError on everything else, and Hex.from_string(h) is the big-endian value of the bytes.", "quantifier": "every byte string, every hex text, every encodable message", "why_tests_cant": "Infinitely many texts; case and whitespace handling only sampled by tests.", "anchors": ["uecho/util/bytes.py: Bytes.from_string", "uecho/util/hex.py: Hex.from_string", "uecho/protocol/message.py: Message.parse_hexstring, Message.to_string"]}
{"id": "C03", "title": "Encoder follows the ECHONET Lite Format 1 layout, or raises ValueError", "statement": "Message.to_bytes() raises ValueError exactly when ESV, a property code, a property data length or a property count does not fit one byte; otherwise it returns EHD1 EHD2 TID(2) SEOJ(3) DEOJ(3) ESV OPC (EPC PDC EDT)*, with two property blocks (Set then Get) exactly for ESV 0x6E, 0x7E and 0x5E, TID and object codes reduced modulo their field width.", "quantifier": "every message: any ints, any number of properties, any data length", "why_tests_cant": "The set of messages is unbounded; tests encode two.", "anchors": ["uecho/protocol/message.py: Message.to_bytes, __append_property_bytes, __is_read_write_message"]}
{"id": "C04", "title": "Decode after encode gives back the message", "statement": "Parsing the bytes produced by to_bytes() into a new Message succeeds and yields the same TID, SEOJ, DEOJ, ESV, and the same property lists (those that the ESV carries) whenever TID and object codes are in range; out-of-range TID/EOJ come back reduced mod 2^16 / 2^24.", "quantifier": "every encodable message", "why_tests_cant": "Round trip must hold for every message, including 255 properties and 255-byte data.", "anchors": ["uecho/protocol/message.py: Message.parse_bytes, Message.to_bytes"]}
{"id": "C05", "title": "Parser accepts exactly the Format 1 frames", "statement": "Message().parse_bytes(b) returns True if and only if b begins with a complete Format 1 frame (any bytes after it are ignored), and then the message fields are the ones that frame denotes; the decoding is unique.", "quantifier": "every byte string of every length", "why_tests_cant": "Needs both soundness and completeness over all byte strings.", "anchors": ["uecho/protocol/message.py: Message.parse_bytes, __parse_property_bytes"]}
{"id": "C06", "title": "Copying or re-encoding a received message never fails and never alters it", "statement": "If parse_bytes accepted b, then to_bytes() succeeds and returns a prefix of b, and uecho.Message(msg) succeeds, compares equal to msg and keeps from_addr and to_addr.", "quantifier": "every byte string the parser accepts", "why_tests_cant": "Every received message goes through this path (Controller, LocalNode); a single failing frame would kill the receiver.", "anchors": ["uecho/message.py: Message.__init__", "uecho/protocol/message.py: Message.to_bytes, Message.__eq__"]}
{"id": "C07", "title": "Malformed frames are reported as ParserError", "statement": "parse_bytes signals every byte string that is not a Format 1 frame by raising Message.ParserError.", "quantifier": "every byte string", "why_tests_cant": "Truncation can happen at any byte of any frame; tests parse no malformed frame at all.", "anchors": ["uecho/protocol/message.py: Message.parse_bytes, Message.ParserError, FORMAT1_HEADER_SIZE"]}
{"id": "C08", "title": "Parsing result depends only on the bytes", "statement": "After a successful parse_bytes(b) the message's properties, set_properties, get_properties, OPC counts and all_properties are determined by b, whatever the message object held before.", "quantifier": "every previous content of the message object, every accepted byte string", "why_tests_cant": "History dependence shows only for particular sequences of parses on one object.", "anchors": ["uecho/protocol/message.py: Message.parse_bytes, Message.all_properties, OPC"]}
{"id": "C09", "title": "Message equality is wire equality", "statement": "Message == Message is an equivalence relation on encodable messages, holds exactly when the two messages have the same TID/EOJ (mod field width), ESV and carried properties, and does not depend on addresses or on property lists the ESV does not carry.", "quantifier": "every pair and triple of encodable messages", "why_tests_cant": "Relation laws range over all pairs/triples.", "anchors": ["uecho/protocol/message.py: Message.__eq__"]}
{"id": "C10", "title": "ESV classification is consistent", "statement": "For every service code: is_request and is_response are complementary; the request codes are exactly 60,61,62,63,6E,74; read, write and notification request types are requests; response-required codes are exactly the requests other than 0x60; messages classified as write/read responses are responses; exactly 6E, 7E, 5E select the two-list frame.", "quantifier": "every integer service code", "why_tests_cant": "The predicates are defined on all integers, tests check none.", "anchors": ["uecho/protocol/esv.py: ESV"]}
{"id": "C11", "title": "Object code composition and matching", "statement": "set_code((g,c,i)) with byte components yields a code whose group, class and instance are g, c, i; set_code of an int below 2^24 and the tuple of its parts give the same code; is_code of an int, a 1-, 2- or 3-tuple holds exactly when the code, its group, group+class, or all three components match; set_code((g,c)) gives instance 0.", "quantifier": "every code and every tuple", "why_tests_cant": "2^24 codes times arbitrary tuples.", "anchors": ["uecho/object.py: Object.set_code, Object.is_code, Object.is_group, Object.is_class, group_code, class_code, instance_code"]}
{"id": "C12", "title": "Assigning a code component replaces that component", "statement": "After obj.group_code = g (likewise class_code, instance_code) with g a byte, obj.group_code == g and the other two components are unchanged.", "quantifier": "every object code and every byte", "why_tests_cant": "Depends on the previous value of the code; tests never reassign.", "anchors": ["uecho/object.py: group_code.setter, class_code.setter, instance_code.setter"]}
{"id": "C13", "title": "set_code and Database.get_object accept every documented kind of code", "statement": "set_code returns True, and sets the code, for each documented argument kind (int, 2-tuple, 3-tuple, another Object), returns False and leaves the code unchanged otherwise; Database.get_object / Controller.get_standard_object return the same result for an Object as for its integer code.", "quantifier": "every code argument", "why_tests_cant": "All argument kinds crossed with all codes.", "anchors": ["uecho/object.py: Object.set_code", "uecho/std/database.py: Database.get_object", "uecho/controller.py: Controller.get_standard_object"]}
{"id": "C14", "title": "An object's property table behaves like a map", "statement": "After any sequence of add_property and set_property_data/set_property_integer calls, get_property_data(code) returns the last data stored for that code, has_property tells whether it was ever added, set_property_data on an unknown code returns False and changes nothing, and properties lists each code once in first-insertion order.", "quantifier": "every operation sequence", "why_tests_cant": "Refinement over all histories.", "anchors": ["uecho/object.py: Object.add_property, get_property, get_property_data, has_property, set_property_data, set_property_integer, properties"]}
{"id": "C15", "title": "Property maps describe the object's properties", "statement": "After any sequence of add_property on a device or profile object that holds the three map properties, reading maps 9D, 9E and 9F with property_map_codes yields exactly the codes whose announcement is required, whose write is enabled and whose read is enabled.", "quantifier": "every history of added properties", "why_tests_cant": "The maps are recomputed on each addition; must hold for every property set and every hash-set iteration order.", "anchors": ["uecho/super_object.py: SuperObject.add_property, _update_property_map_properties, __set_property_map_property", "uecho/property.py: Property.property_map_codes"]}
{"id": "C16", "title": "Property maps with 16 or more codes lose nothing", "statement": "When a map has 16 or more codes the description-format-2 property map written by the object, read by property_map_codes, gives back the same set of codes.", "quantifier": "every set of 16 to 128 property codes in 0x80..0xFF", "why_tests_cant": "The number of code sets is astronomically large; the repository's own test has a FIXME here.", "anchors": ["uecho/super_object.py: __set_property_map_property", "uecho/property.py: Property.property_map_codes"]}
{"id": "C17", "title": "property_map_codes decodes every standard property map", "statement": "For every property map encoded as the ECHONET Lite specification prescribes (format 1: count then codes; format 2: count then 16-byte bitmap with bit j of byte i standing for code 0x80 + 0x10*j + i) property_map_codes returns exactly the codes of the map; for data that is not a map it returns None or False, never raises.", "quantifier": "every code set and every byte string", "why_tests_cant": "All subsets of 128 codes.", "anchors": ["uecho/property.py: Property.property_map_codes"]}
{"id": "C18", "title": "A response is correlated with its request", "statement": "Whenever an object answers a request, the response carries the request's TID, its DEOJ is the request's SEOJ and its SEOJ the request's DEOJ.", "quantifier": "every object, handler behaviour and request", "why_tests_cant": "Holds for all requests and all user handlers, including handlers that change data.", "anchors": ["uecho/object.py: Object.message_received"]}
{"id": "C19", "title": "A response mirrors the request's properties", "statement": "The response carries, for every property of the request and in the same order, one property with the same code, in the matching list (properties, set_properties, get_properties); duplicates included.", "quantifier": "every object, handler behaviour and request", "why_tests_cant": "Arbitrary property lists and user handlers.", "anchors": ["uecho/object.py: Object.message_received"]}
{"id": "C20", "title": "Read requests return current data of permitted properties and nothing else", "statement": "Answering a read request, each response property holds the property's current data if the object has it and the handler allows the read, and is empty otherwise; no property data of the object changes unless the handler changes it.", "quantifier": "every object, request and handler", "why_tests_cant": "All property lists, all permission decisions.", "anchors": ["uecho/object.py: Object.message_received"]}
{"id": "C21", "title": "Write requests store exactly the permitted data", "statement": "Answering a write request, after processing, every property the request does not name and every refused property keeps its data, each permitted property holds the last permitted data given for it in the request; a permitted entry is answered with empty data, a refused one with the refused data.", "quantifier": "every object, request (including repeated codes) and permission predicate", "why_tests_cant": "Frame condition over all properties and all requests.", "anchors": ["uecho/object.py: Object.message_received"]}
{"id": "C22", "title": "Write-and-read requests apply writes before reads and answer both lists", "statement": "Answering a write-read request (0x6E), all writes are applied first and the read part returns the data after the writes; unknown or refused properties produce the error response 0x5E rather than an exception.", "quantifier": "every object, request and handler", "why_tests_cant": "All combinations of Set and Get lists.", "anchors": ["uecho/object.py: Object.message_received", "uecho/super_object.py: SuperObject.property_read_requested"]}
{"id": "C23", "title": "Response service codes follow the specification", "statement": "With every property accepted: 0x60 has no response, 0x61 gets 0x71, 0x62 gets 0x72, 0x6E gets 0x7E. With some property refused or unknown: 0x60 gets 0x50, 0x61 gets 0x51, 0x62 gets 0x52, 0x6E gets 0x5E.", "quantifier": "every object, request and handler", "why_tests_cant": "Accept/refuse patterns over arbitrary property lists.", "anchors": ["uecho/object.py: Object.message_received", "uecho/protocol/esv.py: ESV"]}
{"id": "C24", "title": "Notification requests are served", "statement": "A notification request (0x63) whose properties all exist and are readable is answered by a notification (0x73) carrying the current data.", "quantifier": "every object and request", "why_tests_cant": "Needs all property lists.", "anchors": ["uecho/object.py: Object.message_received", "uecho/protocol/esv.py: ESV.is_read_request"]}
{"id": "C25", "title": "Notifications requiring a response are acknowledged", "statement": "A notification that requires a response (0x74) addressed to an object is acknowledged with 0x7A.", "quantifier": "every object and notification", "why_tests_cant": "Needs all property lists.", "anchors": ["uecho/object.py: Object.message_received"]}
{"id": "C26", "title": "Messages that are not requests never cause an answer or a change", "statement": "For every message whose service code is not a request code, and for every object without a request handler, message_received returns no response and changes no property; object observers are still told.", "quantifier": "every message and object", "why_tests_cant": "All service codes and contents.", "anchors": ["uecho/object.py: Object.message_received"]}
{"id": "C27", "title": "Access rights of the default handler hold over every history", "statement": "For an object using the built-in request handler, no sequence of received messages ever changes the data of a property whose write attribute is prohibited, and no response ever contains data of a property whose read attribute is prohibited.", "quantifier": "every sequence of received messages", "why_tests_cant": "Invariant over unbounded histories.", "anchors": ["uecho/super_object.py: property_read_requested, property_write_requested", "uecho/object.py: message_received"]}
{"id": "C28", "title": "The read-only node profile refuses every write", "statement": "An object of the transmission-only node profile never changes a property because of received messages and answers every non-empty write request with an error.", "quantifier": "every sequence of received messages", "why_tests_cant": "Histories.", "anchors": ["uecho/node_profile.py: NodeProfileReadOnly"]}
{"id": "C29", "title": "Node object table", "statement": "After any sequence of add_object calls, get_object(code) returns the last object added under that code and None if there is none, int and tuple forms of a code give the same answer, has_object agrees, and objects lists each code once.", "quantifier": "every sequence of add_object calls, every code argument", "why_tests_cant": "Refinement over histories.", "anchors": ["uecho/node.py: Node.add_object, Node.get_object, Node.has_object, Node.objects"]}
{"id": "C30", "title": "A node delivers a request to the addressed object only", "statement": "On a received message only the object whose code is the message's DEOJ is consulted or changed; if there is none the node sends nothing and changes nothing.", "quantifier": "every node, every message", "why_tests_cant": "All nodes and messages.", "anchors": ["uecho/local_node.py: LocalNode.message_received"]}
{"id": "C31", "title": "Answers go to the requester, notifications to the multicast group", "statement": "A response produced for a request is sent, once, by unicast to the address the request came from, except a notification which is multicast on every unicast server; no other datagram is sent.", "quantifier": "every node, every message, every set of servers", "why_tests_cant": "All nodes and outcomes of the transport.", "anchors": ["uecho/local_node.py: LocalNode.message_received", "uecho/frame/manager.py: Manager.send_message, announce_message", "uecho/frame/unicast_server.py"]}
{"id": "C32", "title": "The datagram of a response carries the TID of the request", "statement": "The response datagram sent by a node has the TID bytes of the request datagram.", "quantifier": "every request datagram, including TID 0", "why_tests_cant": "One TID in 65536 misbehaves.", "anchors": ["uecho/frame/manager.py: Manager.send_message, __next_TID", "uecho/local_node.py: LocalNode.message_received"]}
{"id": "C33", "title": "Self messages are ignored when IGNORE_SELF_MESSAGE is enabled", "statement": "While IGNORE_SELF_MESSAGE is enabled (the default), a message whose source address is the node's own address is ignored: no object is consulted, nothing is sent, no node is found.", "quantifier": "every node and message", "why_tests_cant": "All messages; tests switch the option off.", "anchors": ["uecho/local_node.py: LocalNode._is_self_message, message_received", "uecho/controller.py: Controller.message_received"]}
{"id": "C34", "title": "Node options behave as a bit set", "statement": "set_enabled(opt, True) makes is_enabled(opt) True for nonzero opt, set_enabled(opt, False) makes it False, and neither changes is_enabled of an option with disjoint bits; IGNORE_SELF_MESSAGE is enabled initially.", "quantifier": "every sequence of calls and all integer option masks", "why_tests_cant": "Histories and unbounded masks.", "anchors": ["uecho/local_node.py: LocalNode.set_enabled, is_enabled", "uecho/option.py"]}
{"id": "C35", "title": "The node profile's instance list follows the node's objects", "statement": "After any sequence of add_object calls on a LocalNode, properties D5 and D6 of its node profile hold the number of non-profile objects followed by their codes in the order of node.objects, and D3 holds that number.", "quantifier": "every sequence of add_object calls", "why_tests_cant": "Histories of arbitrary length.", "anchors": ["uecho/local_node.py: LocalNode.add_object", "uecho/node_profile.py: _update_map_properties, __update_instance_properties"]}
{"id": "C36", "title": "The node profile's class list follows the node's objects", "statement": "After any sequence of add_object calls, property D7 holds the number of distinct classes listed followed by each distinct (group, class) of the non-profile objects once, and D4 the number of classes of the node including the profile class.", "quantifier": "every sequence of add_object calls", "why_tests_cant": "Histories with repeated classes.", "anchors": ["uecho/node_profile.py: __update_class_properties"]}
{"id": "C37", "title": "A node stays discoverable whatever the number of its objects", "statement": "For a LocalNode with any number of objects, a read of the self-node instance list (the search request) is answered by a response that lists the objects.", "quantifier": "every number of objects", "why_tests_cant": "The limit lies at 84/85 objects.", "anchors": ["uecho/node_profile.py: __update_instance_properties", "uecho/protocol/message.py: Message.to_bytes", "uecho/object.py: message_received"]}
{"id": "C38", "title": "Transaction identifiers", "statement": "Messages sent with TID 0 get a TID in 1..65535; any 65535 consecutively assigned TIDs are pairwise distinct; a message with a nonzero TID keeps it, and no identifier is consumed by it.", "quantifier": "every sequence of announce/send calls", "why_tests_cant": "Wrap-around after 65535 messages.", "anchors": ["uecho/frame/manager.py: Manager.__next_TID, announce_message, send_message"]}
{"id": "C39", "title": "Transaction identifiers stay valid and distinct under concurrent senders", "statement": "Under every interleaving of threads sending through one node, assigned TIDs are in 1..65535 and distinct for 65535 consecutive sends.", "quantifier": "every schedule of any number of sender threads", "why_tests_cant": "A schedule property: the race window is a few bytecodes.", "anchors": ["uecho/frame/manager.py: Manager.__next_TID"]}
{"id": "C40", "title": "A receiver keeps working whatever datagrams arrive", "statement": "Every well-formed datagram that arrives is delivered, in arrival order and once, to each observer, no matter what malformed datagrams arrive in between.", "quantifier": "every sequence of datagrams", "why_tests_cant": "Datagram sequences are unbounded and adversarial.", "anchors": ["uecho/frame/server.py: Server.run"]}
{"id": "C41", "title": "Every frame a node can send is received intact", "statement": "Any message that to_bytes() can encode is decoded by a receiving server to an equal message.", "quantifier": "every encodable message", "why_tests_cant": "Needs frames beyond 1024 bytes.", "anchors": ["uecho/frame/server.py: Server.run (recvfrom(1024))"]}
{"id": "C42", "title": "Observer registration and notification", "statement": "After any sequence of add_observer calls each distinct observer is registered exactly once, in first-registration order, and notify calls each registered observer exactly once in that order; add_observer(None) is refused.", "quantifier": "every sequence of registrations", "why_tests_cant": "Histories.", "anchors": ["uecho/protocol/subject.py: Subject.add_observer, Subject.notify"]}
{"id": "C43", "title": "A node observer registered once keeps receiving messages", "statement": "After LocalNode.add_observer(o), o receives every message the node receives, whether it was added before or after start() and also after a restart.", "quantifier": "every order of add_observer, start, stop", "why_tests_cant": "Order of lifecycle calls.", "anchors": ["uecho/local_node.py: LocalNode.add_observer, start", "uecho/frame/manager.py: Manager.add_observer, start, stop"]}
{"id": "C44", "title": "Start/stop lifecycle", "statement": "After a successful start() there is one unicast and one multicast server per interface address, all running, and the node observes each of them exactly once; stop() always succeeds, leaves no server and is idempotent; a failed start leaves no server running.", "quantifier": "every sequence of start/stop and every outcome of binding sockets", "why_tests_cant": "Histories and failure points.", "anchors": ["uecho/frame/manager.py: Manager.start, Manager.stop", "uecho/local_node.py: LocalNode.start, stop"]}
{"id": "C45", "title": "RemoteNode.parse_message builds exactly the announced objects", "statement": "parse_message returns True exactly for a message whose first property is D5 or D6 with data holding a count n and at least n three-byte codes; then the node's objects are the node profile 0x0EF001 followed by the announced codes (each once); otherwise it returns False and adds nothing.", "quantifier": "every message", "why_tests_cant": "All messages, including truncated lists.", "anchors": ["uecho/remote_node.py: RemoteNode.parse_message, RemoteNode.__init__"]}
{"id": "C46", "title": "Controller node table", "statement": "After any sequence of received messages the controller's nodes are keyed by source IP, one node per IP, in first-discovery order, each with the objects of the last instance list received from that IP; get_node(addr) returns that node.", "quantifier": "every sequence of received messages; listeners that raise no exception", "why_tests_cant": "Histories from many nodes.", "anchors": ["uecho/controller.py: Controller.nodes, get_node, _add_found_node, message_received"]}
{"id": "C47", "title": "Discovery round trip", "statement": "For every LocalNode with up to 84 objects with distinct 24-bit codes besides the node profile, at any time after its start, the answer to a controller's search makes the controller find a node with exactly these objects.", "quantifier": "every set of objects", "why_tests_cant": "All object sets.", "anchors": ["uecho/messages.py: SearchMessage", "uecho/controller.py: search, message_received", "uecho/local_node.py: message_received"]}
{"id": "C48", "title": "Property values received are recorded on the object that sent them", "statement": "When a controller receives a read response or notification, the data of each property it carries is recorded on the object of the sending node whose code is the message's SEOJ, and on no other object.", "quantifier": "every known node and every message", "why_tests_cant": "All messages.", "anchors": ["uecho/controller.py: Controller._update_properties"]}
{"id": "C49", "title": "Listener notifications", "statement": "Listeners get node_add exactly when a node with a new IP is found and node_updated exactly when a known node is seen again or changed; property_updated is called for exactly the properties whose data changed, in message order, followed by object_updated if there was any.", "quantifier": "every history of received messages and listeners that raise no exception", "why_tests_cant": "Histories.", "anchors": ["uecho/controller.py: __notify_node_added, __notify_node_updated, _add_found_node, _update_properties"]}
{"id": "C50", "title": "A controller survives every well-formed message", "statement": "Controller.message_received raises no exception for any message the parser accepts, whoever sent it.", "quantifier": "every accepted message and every controller state", "why_tests_cant": "All messages from unknown nodes, all DEOJ values.", "anchors": ["uecho/controller.py: message_received, _update_properties", "uecho/message.py: is_node_profile_message", "uecho/remote_node.py: parse_message"]}
{"id": "C51", "title": "post_message returns only a response to this request", "statement": "If post_message returns a message, that message arrived after the call began, is not a request, and has the TID of the posted request as sent; with no such message it returns None after the timeout. One poster, any number of receiver threads, any schedule.", "quantifier": "every schedule of one posting thread and any number of receiver threads", "why_tests_cant": "Schedules.", "anchors": ["uecho/controller.py: Controller.post_message, message_received, __PostMessage"]}
{"id": "C52", "title": "post_message returns a response of the addressed node", "statement": "A message returned by post_message(msg, dest) was sent by dest and its SEOJ is the DEOJ of the request.", "quantifier": "every controller state and received message", "why_tests_cant": "Needs adversarial or coincidental senders.", "anchors": ["uecho/controller.py: message_received", "uecho/protocol/message.py: is_response_message"]}
{"id": "C53", "title": "Concurrent post_message calls do not mix up responses", "statement": "When several threads call post_message on one controller, each call returns only a response to its own request.", "quantifier": "every schedule of two or more posting threads", "why_tests_cant": "Schedules.", "anchors": ["uecho/controller.py: post_message, __last_post_msg"]}
{"id": "C54", "title": "post_message returns as soon as the response has arrived", "statement": "A post_message call whose response has already been received does not wait for the timeout.", "quantifier": "every schedule", "why_tests_cant": "Lost wake-up: needs the response between send and wait.", "anchors": ["uecho/controller.py: post_message (Condition.wait), message_received (Condition.notify)"]}
{"id": "C55", "title": "End-to-end write then read", "statement": "For a controller that has discovered a device node using the built-in handler, posting a write request (response required) for a writable property and then a read request for it returns the written data, with response codes 0x71 and 0x72; a write-read request does both at once.", "quantifier": "every writable and readable property, all data of at most 255 bytes, every controller and node state", "why_tests_cant": "All data, codes and states, through encoder, parser, handler and matcher.", "anchors": ["uecho/controller.py: post_message", "uecho/local_node.py: message_received", "uecho/object.py: message_received"]}
{"id": "C56", "title": "Standard objects carry the standard properties", "statement": "For every object code, StandardObject/Device(code) has exactly the super-class properties plus those of its class in the database, class definitions overriding, with the database access attributes, has its own code, and keeps the maps 9D/9E/9F.", "quantifier": "every 24-bit object code", "why_tests_cant": "16.7 million codes.", "anchors": ["uecho/std/object.py: StandardObject.set_code", "uecho/std/database.py: Database.get_object", "uecho/super_object.py: _set_object_properties", "uecho/std/objects_mra.py", "uecho/std/objects_scsl.py"]}
{"id": "C57", "title": "Access rules of the standard database are honoured", "statement": "Every access rule marked required (unconditionally or conditionally) or optional in the standard object tables makes the corresponding access enabled on the created property.", "quantifier": "every row of the standard tables and every rule text", "why_tests_cant": "The rule texts come from external data with more variants than the converter knows.", "anchors": ["uecho/std/reader.py: Property.__to_attribute", "uecho/std/objects_mra.py"]}
{"id": "C58", "title": "Manufacturer lookup", "statement": "get_manufacturer of an int and of the big-endian bytes of that int give the same answer, which is the last table entry with that code or None.", "quantifier": "every int and every byte string", "why_tests_cant": "All integers.", "anchors": ["uecho/std/database.py: Database.get_manufacturer", "uecho/std/manufacturers.py"]}
{"id": "C59", "title": "A device hosted by a controller answers with its own object code", "statement": "The response datagram of a node, whether LocalNode or Controller, has as SEOJ the object the request addressed.", "quantifier": "every request to an object of a controller", "why_tests_cant": "All requests.", "anchors": ["uecho/controller.py: Controller.send_message, announce_message", "uecho/local_node.py: message_received"]}
{"id": "C60", "title": "Requested interfaces are the ones used", "statement": "LocalNode.start(ifaddrs) with a non-empty list listens on exactly these interface addresses; with no list, on all non-loopback IPv4 addresses.", "quantifier": "every list of addresses", "why_tests_cant": "All lists.", "anchors": ["uecho/local_node.py: LocalNode.start", "uecho/frame/manager.py: Manager.start", "uecho/frame/interface.py: Interface.get_all_ipaddrs"]}
{"id": "C61", "title": "get_node finds a node by IP, address tuple or host name", "statement": "get_node(ip) and get_node((ip, port)) return the found node with that IP, get_node(host) the node whose IP the host resolves to, and None if there is none.", "quantifier": "every node table and address", "why_tests_cant": "All tables and resolver outcomes.", "anchors": ["uecho/controller.py: Controller.get_node"]}
{"id": "C62", "title": "A device node survives every well-formed request", "statement": "A LocalNode whose objects use the built-in handler and hold data of at most 255 bytes processes any sequence of well-formed messages without an exception, and stays in such a state.", "quantifier": "every sequence of accepted messages", "why_tests_cant": "Histories; one message kills the receiving thread.", "anchors": ["uecho/local_node.py: message_received", "uecho/object.py: message_received", "uecho/super_object.py: property_read_requested"]}
{"id": "C63", "title": "Property access predicates", "statement": "is_read/write/announce_enabled hold exactly for attributes REQUIRED or OPTIONAL, is_*_required exactly for REQUIRED, is_mandatory exactly if one of the three is REQUIRED, and set_attribute changes only the named attribute.", "quantifier": "every attribute value", "why_tests_cant": "All integer attribute values.", "anchors": ["uecho/property.py: Property"]}
{"id": "C64", "title": "Adding properties to a message", "statement": "Message.add_property/add_set_property/add_get_property accept a Property, a property code or a (code, data) pair, append exactly one property with that code and data to the one list, and refuse anything else by returning False without changing the message.", "quantifier": "every argument and message", "why_tests_cant": "All arguments.", "anchors": ["uecho/message.py: Message.__to_property, add_property, add_set_property, add_get_property"]}
{"id": "C65", "title": "Object.send_message/post_message build the request described", "statement": "Object.post_message(esv, props) and Property.post_message send a message whose DEOJ is the object's code, ESV the given code, properties the given pairs in order; malformed property lists are refused without sending anything.", "quantifier": "every object, code and property list", "why_tests_cant": "All lists and malformed shapes.", "anchors": ["uecho/object.py: Object.__create_message, send_message, post_message", "uecho/property.py: Property.send_message, post_message"]}
{"id": "C66", "title": "post_message and message_received never deadlock", "statement": "Under every interleaving of post_message calls and received messages at most one thread is inside the section guarded by the condition variable, and every reachable state can be continued so that all calls return; without new calls at most 12 steps per thread are possible.", "quantifier": "every number of threads, every schedule", "why_tests_cant": "Any number of posting and receiving threads; timeouts may expire at any moment.", "anchors": ["uecho/controller.py: Controller.post_message, message_received, __PostMessage"]}
{"id": "C67", "title": "A session with a device behaves as a store", "statement": "For every sequence of read, write, write-without-answer and write-read calls that a controller makes through post_message to the objects of a device with built-in handlers, the sequence of returned messages (including TIDs, service codes, refused and empty answers, and calls that get no answer because nothing is due or the object does not exist) is exactly what a table of data with read and write permissions gives, and at the end the device's objects hold exactly that table.", "quantifier": "every sequence of calls, every device, every controller that has found the device", "why_tests_cant": "Unbounded sequences over many objects; state carried between calls.", "anchors": ["uecho/controller.py: Controller.post_message, message_received", "uecho/object.py: Object.message_received", "uecho/local_node.py: LocalNode.message_received"]}
{"id": "C68", "title": "Answers are never answered; no message storms", "statement": "A datagram that a node sends in reaction to a received datagram makes no node (LocalNode or Controller) send anything. In a network of any number of such nodes, whatever datagrams are in flight and however the network loses, duplicates, reorders and redirects them, every further datagram is an answer, and their number is at most n times the number of deliveries of the original requests, where n bounds observers times interfaces of a server.", "quantifier": "every network, every schedule of deliveries, every datagram", "why_tests_cant": "Any number of nodes, any number of deliveries, adversarial network.", "anchors": ["uecho/local_node.py: LocalNode.message_received", "uecho/object.py: Object.message_received", "uecho/protocol/esv.py: ESV", "uecho/frame/server.py: Server.run"]}
{"id": "C69", "title": "Datagrams leave only as complete frames through open sockets", "statement": "Whatever sequence of calls (start, stop, add_object, add_observer, set_enabled, send, announce, search, post) and received datagrams a LocalNode or Controller sees, and whatever the operating system answers, every datagram it sends is the encoding of a message with a unicast socket that was opened and not closed since; and at every moment each socket was opened exactly as often as it was closed plus the number of servers that still use it.", "quantifier": "every sequence of calls and datagrams, every operating system", "why_tests_cant": "Unbounded histories with restarts and failing system calls.", "anchors": ["uecho/local_node.py: LocalNode", "uecho/controller.py: Controller", "uecho/frame/manager.py: Manager.start, stop, send_message, announce_message", "uecho/frame/unicast_server.py", "uecho/frame/multicast_server.py"]}
{"id": "C70", "title": "A node announces itself when it starts", "statement": "When a LocalNode has started it has sent its instance list (INF of D5) to the multicast address (ECHONET Lite Specification Part II, 4.3.1); a Controller searches on every interface when it starts.", "quantifier": "every node, every operating system", "why_tests_cant": "All configurations.", "anchors": ["uecho/local_node.py: LocalNode.start", "uecho/controller.py: Controller.start, search"]}
{"id": "C71", "title": "A string is stored as its UTF-8 encoding", "statement": "Object.set_property_string(code, s) stores the octets that RFC 3629 gives for s and nothing else changes; no other string gives the same octets; a string with a surrogate raises and changes nothing; an unknown property gives False.", "quantifier": "every object, property code and string of code points", "why_tests_cant": "All strings; the boundaries between one to four octets, overlong forms and surrogates.", "anchors": ["uecho/object.py: Object.set_property_string, set_property_data"]}
{"id": "C72", "title": "The example light is always on or off", "statement": "Whatever messages the example MonoLight object receives after its node has started, its operation status is one byte, 0x30 or 0x31: the last value of these two that a write request set, and no message raises. A read is answered with the current data of the readable properties, a write of another byte is refused.", "quantifier": "every sequence of messages", "why_tests_cant": "Unbounded histories of reads, writes and write-reads with valid and invalid data.", "anchors": ["examples/device/monolight/monolight.py: MonoLight.property_read_requested, property_write_requested, MonoLightNode.start, stop", "uecho/object.py: Object.message_received"]}
{"id": "C73", "title": "uechopost sends what its arguments spell", "statement": "uechopost OBJ ESV '(code,data)'... builds the message with the destination, the service code and the properties that the hexadecimal digits of its arguments spell, in order.", "quantifier": "every object code, service code and list of tuples", "why_tests_cant": "All argument lists, with quoted and unquoted fields.", "anchors": ["bin/uechopost.py", "uecho/util/bytes.py: Bytes.from_string", "uecho/message.py: Message.add_property"]}
{"id": "C74", "title": "uechosearch -v reads every mandatory property once", "statement": "For a node found through an instance list, uechosearch -v reads of the node profile and of every listed object exactly the properties whose read access the standard database calls mandatory, each once.", "quantifier": "every instance list", "why_tests_cant": "All lists, with repeated, unknown and profile codes.", "anchors": ["bin/uechosearch.py", "uecho/property.py: Property.is_read_required", "uecho/remote_node.py: RemoteNode.parse_message"]}
{"id": "C75", "title": "A node describes itself correctly throughout its life", "statement": "Whatever sequence of calls, restarts and received datagrams (any bytes, from anyone) a LocalNode or Controller sees after its construction, and however its user changes the objects other than the node profile: the objects of the node are the profile and the distinct added objects in order of first addition; its profile answers operating status 0x30, version 1.13 and the identification number drawn at construction; the number of instances and, for at most 255 devices, both instance lists name exactly the added devices; and the class list names exactly their classes. (The counts of classes are C36.)", "quantifier": "every construction, every sequence of calls and datagrams, every operating system, every change by the user", "why_tests_cant": "Needs that no message can write the profile, that restarts and failures keep it, and that every addition updates it.", "anchors": ["uecho/local_node.py: LocalNode", "uecho/node_profile.py: NodeProfile", "uecho/object.py: Object.message_received", "uecho/controller.py: Controller"]}
{"id": "C76", "title": "The table of found nodes can be used while nodes are being found", "statement": "While receiving threads store announced nodes, get_node and nodes of a Controller return what the table contained during the call: get_node a node stored under the address it was asked for, or nothing only if no stored address is the one asked for; nodes one node per stored address; no call raises because of the other threads. No node is lost, every announced node is stored and announced to the listeners once, and no address is stored twice.", "quantifier": "every table, every number of threads, every schedule, every behaviour of the resolver", "why_tests_cant": "The dictionary is shared without a lock by the user's thread and the receiving threads.", "anchors": ["uecho/controller.py: Controller.nodes", "uecho/controller.py: Controller.get_node", "uecho/controller.py: Controller._add_found_node"]}
{"id": "C77", "title": "Every listener is told, also if callbacks change the listeners", "statement": "When listeners or observers are told, each one registered at the beginning is called exactly once in the order of registration and the loop ends, also if callbacks add or remove listeners.", "quantifier": "every list of listeners, every behaviour of the callbacks", "why_tests_cant": "The loops run over the live list.", "anchors": ["uecho/controller.py: Controller.add_listener", "uecho/controller.py: Controller.remove_listener", "uecho/controller.py: Controller.message_received", "uecho/protocol/subject.py: Subject"]}
{"id": "C78", "title": "Requests received at the same time are treated as if one after the other", "statement": "When several receiving threads treat requests to one object (with a built-in handler) at the same time, each request gets the response it gets alone, except that data read are those of the property at some moment of the treatment, after the request's own writes; the object ends with exactly the permitted writes of all requests in the order made; no thread waits for another; and the outcome is that of treating the requests one after the other in an order that respects which was answered before which arrived.", "quantifier": "every object with a built-in handler, every list of requests, every schedule", "why_tests_cant": "Every interface has two servers with a thread each, and Object.message_received has no lock.", "anchors": ["uecho/object.py: Object.message_received", "uecho/object.py: Object.set_property_data", "uecho/local_node.py: LocalNode.message_received"]}
{"id": "C79", "title": "A search finds the nodes of the network", "statement": "After a controller that knows no node has searched on a network of nodes with different IP addresses, then, whatever datagrams of the search and of the answers are delivered, in whatever order and how often, the controller's table contains exactly the nodes that heard the search and one of whose answers arrived at the controller, each once, with its address and with exactly the node profile and the devices it hosts in their order.", "quantifier": "every network of nodes that were created and had any life of calls and datagrams, every schedule of deliveries, losses and repetitions", "why_tests_cant": "Discovery is what a controller is for; an answer lost or stored under the wrong address makes devices unreachable.", "anchors": ["uecho/controller.py: Controller.search", "uecho/controller.py: Controller.message_received", "uecho/local_node.py: LocalNode.message_received", "uecho/node_profile.py: NodeProfile", "uecho/controller.py: Controller._add_found_node"]}
{"id": "C80", "title": "Objects do not influence each other through shared properties", "statement": "A program that creates objects and properties, copies them, adds properties that do not already belong to an object, writes properties through any reference it holds, and lets objects answer requests, observes exactly what it would observe if each object contained its own properties: a write to a property of one object is seen through every reference to that property and through nothing else, copies are independent of their originals, a replaced property no longer belongs to the object, and the objects of the database stay as they were.", "quantifier": "every program over the constructors, copy, add_property, data and attribute writes, reads and received messages that adds no property twice and does not write to the database's objects", "why_tests_cant": "Python objects are references; a shallow copy of a standard property would make every device of a class share its data.", "anchors": ["uecho/property.py: Property.copy", "uecho/super_object.py: SuperObject._set_object_properties", "uecho/object.py: Object.add_property", "uecho/object.py: Object.copy", "uecho/std/object.py: StandardObject.set_code", "uecho/std/database.py: Database.get_object"]}
{"id": "C81", "title": "The bench and search tools show what the device holds", "statement": "For each mandatory readable property of each object of a found node, uechobench and uechosearch -v show exactly the data the device holds at that moment for it: nothing of another property or of an earlier answer, although each property is requested twice (send_message, then post_message) and the answer to the first request may arrive before, during or after the second. Reading changes nothing on the device.", "quantifier": "every found node, every contents of the device, every order in which the two answers to each property arrive", "why_tests_cant": "The first answer could be taken for the second: they differ only in the TID.", "anchors": ["bin/uechobench.py", "bin/uechosearch.py", "uecho/property.py: Property.send_message", "uecho/property.py: Property.post_message", "uecho/controller.py: Controller.post_message", "uecho/controller.py: Controller.message_received"]}
{"id": "C82", "title": "A device is one store for all its controllers", "statement": "When several controllers call post_message on one device at the same time, and requests and answers are delayed, overtake each other or are lost, the calls have one order, in which each call that reaches the device takes its place between its beginning and its return: the device's contents are the result of treating the calls in this order, and each call that returns an answer returns exactly the answer its own request has at its place in the order. Answers are not mixed up although the controllers use the same TIDs.", "quantifier": "every number of controllers with different addresses, every contents of the device, every sequence of calls, deliveries, losses and returns", "why_tests_cant": "Linearizability over a transport that loses and reorders; answers are told apart by address and TID only.", "anchors": ["uecho/controller.py: Controller.post_message", "uecho/controller.py: Controller.message_received", "uecho/local_node.py: LocalNode.message_received", "uecho/object.py: Object.message_received", "uecho/frame/manager.py: Manager.send_message"]}
{"id": "C83", "title": "The read-only node profile shows the node profile", "statement": "A NodeProfileReadOnly shows the same operating status, version, identification number and instance lists as a NodeProfile built from the same random numbers, and its Set property map (0x9E) names no property, as none can be written.", "quantifier": "every draw of random numbers, every order of a Python set", "why_tests_cant": "ECHONET Lite's transmission-only node profile; controllers read these values.", "anchors": ["uecho/node_profile.py: NodeProfileReadOnly", "uecho/profile.py: Profile.set_code", "uecho/super_object.py: SuperObject._set_object_properties"]}
{"id": "C84", "title": "SuperObjectReadOnly refuses every write", "statement": "A SuperObjectReadOnly refuses every write request and is changed by none, whatever properties are added to it.", "quantifier": "every added property, every request", "why_tests_cant": "The class is named read-only but defines no property_write_requested.", "anchors": ["uecho/super_object.py: SuperObjectReadOnly", "uecho/super_object.py: SuperObject.property_write_requested"]}
{"id": "C85", "title": "Manager.notify tells every observer once", "statement": "Manager.notify(msg) on a started node passes the message to every registered observer, once.", "quantifier": "every node, message and list of observers", "why_tests_cant": "Observers are registered with every server of the manager.", "anchors": ["uecho/frame/manager.py: Manager.notify", "uecho/frame/manager.py: Manager.add_observer", "uecho/protocol/subject.py: Subject.notify"]}
{"id": "C86", "title": "stop() ends every receiving thread", "statement": "stop() on a running node returns True, and when it has returned every socket is closed, every receiving thread has ended and no callback is called any more; it returns as soon as every thread has had its turns. After the socket of a server is given up at most one more callback of that server is begun.", "quantifier": "every number of servers, every behaviour of the callbacks, every interleaving of the receiving threads with threads of the user", "why_tests_cant": "Server.run reads self.sock without a lock while Server.stop closes it, and Server.stop waits for the thread.", "anchors": ["uecho/frame/server.py: Server.stop", "uecho/frame/server.py: Server.run", "uecho/frame/manager.py: Manager.stop"]}
{"id": "C87", "title": "Sending while the node is stopped", "statement": "A message sent or announced while another thread stops the node is sent or refused, without an exception; once stop() has returned nothing is sent any more.", "quantifier": "every number of servers, every interleaving of sending, receiving and stopping threads", "why_tests_cant": "UnicastServer tests self.sock and uses it later; Server.stop sets it to None in between.", "anchors": ["uecho/frame/unicast_server.py: UnicastServer.send_message", "uecho/frame/unicast_server.py: UnicastServer.announce_message", "uecho/frame/manager.py: Manager.send_message", "uecho/frame/server.py: Server.stop"]}
{"id": "C88", "title": "A controller switches the example light", "statement": "A controller that writes any list of bytes one after the other to the operation status of the example light gets every request answered, accepted exactly for 0x30 and 0x31; a read afterwards returns the last accepted one (0x30 after the start of the light if there was none), and nothing else in the device has changed.", "quantifier": "every list of bytes, every state of the controller and the device, on a network that loses nothing", "why_tests_cant": "Exchanges of any length through both nodes, their servers and the wire format.", "anchors": ["examples/device/monolight/monolight.py: MonoLight", "uecho/controller.py: Controller.post_message", "uecho/object.py: Object.message_received", "uecho/local_node.py: LocalNode.message_received"]}
{"id": "C89", "title": "Requests to different objects do not disturb each other", "statement": "When several threads of a node treat requests at the same time, the contents of each object and the answers it gives are those it would have if only the requests addressed to it had been made; a request that shares its object with no other is answered as if it were alone, and a request to an object the node does not have is not answered.", "quantifier": "every number of objects with built-in handlers, every list of requests, every interleaving", "why_tests_cant": "Frame property of the dispatch: threads share the node's table, not the objects of others.", "anchors": ["uecho/local_node.py: LocalNode.message_received", "uecho/node.py: Node.get_object", "uecho/object.py: Object.message_received"]}
{"id": "C90", "title": "A node can be extended while it is running", "statement": "When one thread of the application adds objects to a started node and sets data while other threads answer requests: every call returns True (set_property_data: a bool) without an exception; an object is found as soon as the call has stored it and stays found; every value of an instance or class property (0xD3-0xD7) of the node profile that is read or answered describes the node after a number of additions that lies between those that had returned before the request was received and those that had begun before it was answered; when the calls have returned the profile describes all objects; every request is answered after as many steps as it has properties; and one answer describes the node at one moment.", "quantifier": "every node, every sequence of calls, every list of requests, every interleaving", "why_tests_cant": "add_object stores the object first and the eight properties of the profile one after the other, without a lock.", "anchors": ["uecho/local_node.py: LocalNode.add_object", "uecho/node.py: Node.add_object", "uecho/node_profile.py: NodeProfile._update_map_properties", "uecho/local_node.py: LocalNode.message_received"]}
{"id": "C91", "title": "Several threads can add objects to a node", "statement": "When several threads add objects to a node at the same time, every call returns True, every added object is found, every value of an instance or class property of the node profile describes the node at some moment, and when all calls have returned the profile describes all objects of the node.", "quantifier": "every node, every number of threads and calls, every list of requests, every interleaving", "why_tests_cant": "add_object walks over the table of objects while others store in it.", "anchors": ["uecho/local_node.py: LocalNode.add_object", "uecho/node.py: Node.add_object", "uecho/node.py: Node.objects", "uecho/node_profile.py: NodeProfile._update_map_properties"]}
{"id": "C92", "title": "The application stores data while requests are answered", "statement": "When threads of the application call set_property_data while other threads answer requests, the data of every property are always those of the last store, by the application or by an accepted write; an answer tells of each property the data it had at the moment the property was read, and is otherwise the answer that is given without these threads; every call returns whether the object has the property; and every request is finished after as many steps as it has properties, plus three.", "quantifier": "every number of objects with built-in handlers, of threads and of stores, every list of requests, every interleaving", "why_tests_cant": "set_property_data stores without a lock in the property objects from which requests are answered.", "anchors": ["uecho/object.py: Object.set_property_data", "uecho/object.py: Object.message_received", "uecho/local_node.py: LocalNode.message_received"]}
{"id": "C93", "title": "A request contains what was added to it", "statement": "A request made with one of the classes of messages.py and extended with add_property, add_set_property and add_get_property is sent as the frame with the sender 0x0EF001, the given object, the service of the class and exactly the added properties in their order; a receiver decodes exactly them; each call returns True exactly when the property is sent.", "quantifier": "every class, object, sequence of additions with every kind of argument, TID", "why_tests_cant": "Messages are put together by three methods that fill three lists, of which the encoder sends one or two.", "anchors": ["uecho/messages.py: ReadRequest", "uecho/messages.py: WriteRequest", "uecho/messages.py: WriteResponseRequiredRequest", "uecho/messages.py: WriteReadRequest", "uecho/message.py: Message.add_property", "uecho/message.py: Message.add_set_property", "uecho/message.py: Message.add_get_property"]}
{"id": "C94", "title": "Objects that are shared, added again or given another code", "statement": "When objects are added to several nodes or several times, and their codes are changed: a node finds under a code the last object that was added with this code and answers requests with it; a device is one object for all nodes, so a write through one of them is read through the others; add_object returns True; and the instance and class properties of the node profile describe the objects under the codes by which they are found.", "quantifier": "every number of nodes and devices, every sequence of additions, changes of codes, stores and requests", "why_tests_cant": "The table of a node is filled from obj.code at the time of the addition, the lists of the profile are computed from the codes at a later time.", "anchors": ["uecho/node.py: Node.add_object", "uecho/node.py: Node.objects", "uecho/local_node.py: LocalNode.add_object", "uecho/object.py: Object.set_code", "uecho/node_profile.py: NodeProfile._update_map_properties"]}
{"id": "C95", "title": "A network that repeats datagrams", "statement": "When several controllers call post_message of one device and the network also repeats requests and answers: every call returns at most once, and only an answer to itself; every answer is that of the store at the moment the device treated the request or a copy of it; a repeated write changes nothing unless one of its properties was written in between; and the calls that return an answer have one order, in which each takes effect once.", "quantifier": "every number of controllers, every sequence of calls, arrivals, losses, copies and returns", "why_tests_cant": "UDP may deliver a datagram twice; the device keeps no record of requests it has treated.", "anchors": ["uecho/controller.py: Controller.post_message", "uecho/controller.py: Controller.message_received", "uecho/local_node.py: LocalNode.message_received", "uecho/object.py: Object.message_received"]}
{"id": "C96", "title": "Calls of post_message in callbacks", "statement": "A callback (listener, observer or request handler) may call post_message: the call returns the response to its own request if one arrives in time and otherwise None, the calls of other threads return what they would return without it, and no thread waits forever.", "quantifier": "every number of threads, every interleaving of calls, calls inside callbacks, and received messages", "why_tests_cant": "Callbacks run in the receiving thread, in the middle of message_received; a listener that asks a node it was just told about is the usual use of the API.", "anchors": ["uecho/controller.py: Controller.post_message", "uecho/controller.py: Controller.message_received", "uecho/controller.py: Controller._add_found_node", "uecho/controller.py: Controller._update_properties"]}
{"id": "C97", "title": "Several controllers and several devices", "statement": "When several controllers call post_message to several devices, and the network loses and reorders datagrams: every call returns nothing or an answer of the device and the object it was made to; every device is one store that is changed only by the calls made to it; and all calls have one order, in which each takes effect at most once between its start and its return.", "quantifier": "every number of controllers and devices, every sequence of calls, arrivals, losses and returns", "why_tests_cant": "Controllers match answers by TID only, and every controller counts its TIDs on its own; that the answers of different devices are not mixed up rests on the devices answering what was sent to them.", "anchors": ["uecho/controller.py: Controller.post_message", "uecho/controller.py: Controller.message_received", "uecho/local_node.py: LocalNode.message_received", "uecho/object.py: Object.message_received", "uecho/frame/manager.py: Manager.send_message"]}
{"id": "C98", "title": "Callbacks that use their node", "statement": "Observers and request handlers may read and store property data of the node's objects, announce and send messages, and raise: a request that is handled without an exception gets at most one answer, sent after everything the callbacks sent, with the TID, the objects and the property codes of the request; the data in a read answer is the content of the property when its handler returned, so a handler may measure and store first; an accepted write leaves the requested data; objects that no callback stores into are not changed; and a handler that announces the written property announces the written data.", "quantifier": "every state of the node, every received message, all programs of observers and request handlers over these operations, every result of the operating system", "why_tests_cant": "The callbacks run in the middle of message_received; what they see and what is sent depends on where the code stores the data and builds the answer.", "anchors": ["uecho/local_node.py: LocalNode.message_received", "uecho/object.py: Object.message_received", "uecho/object.py: Object.set_property_data", "uecho/local_node.py: LocalNode.announce_message", "uecho/local_node.py: LocalNode.send_message"]}
{"id": "C99", "title": "Starting and stopping a node while messages arrive", "statement": "Each message that a server receives is handled exactly once and in order; start and stop always can return, and raise only when bind raises. With one thread that calls them: after start returned True there are exactly one unicast and one multicast server for each interface, all running with the node as observer, the address is set, everything received is handled until the next call; a message is handled only when the address is set and all servers are started; start returns False only without interfaces; after stop nothing is open, received or handled. Nothing received during a start that succeeds is lost, a start that raises leaves nothing running, and calls from several threads have the effect of the calls one after the other.", "quantifier": "every number of interfaces, every interleaving of the steps of the calls, the receiving threads and arriving datagrams, every place where bind raises; any number of calling threads for the first part", "why_tests_cant": "start creates the threads before it registers the node as observer and sets the address; stop and start work on the same list of servers without a lock.", "anchors": ["uecho/local_node.py: LocalNode.start", "uecho/local_node.py: LocalNode.stop", "uecho/frame/manager.py: Manager.start", "uecho/frame/manager.py: Manager.stop", "uecho/frame/manager.py: Manager.add_observer", "uecho/frame/server.py: Server.run", "uecho/frame/server.py: Server.stop"]}
{"id": "C100", "title": "post_message returns the answer to its own request", "statement": "On a network that delivers only answers to requests sent before, each with the TID of its request, a call of post_message returns only an answer to the request that this call sent, however late the answers to other requests arrive.", "quantifier": "every number of calls (up to 65535 messages) and of receiving threads, every delay of the answers, message objects new or used again", "why_tests_cant": "The call recognises its answer by the TID of the message object alone; the manager gives a TID only to messages that have none.", "anchors": ["uecho/controller.py: Controller.post_message", "uecho/controller.py: Controller.message_received", "uecho/frame/manager.py: Manager.send_message", "uecho/frame/manager.py: Manager.__next_TID", "uecho/protocol/message.py: Message.is_response_message"]}
{"id": "C101", "title": "Property data are values", "statement": "The data of a property of a device or of a found device, and of a property of a message, changes only by storing into that property: an application that changes a byte array after storing it, or after getting it from a property or a message, changes nothing else. The library itself never changes an array in place, so without such changes every program behaves as if each variable and property had its own bytes.", "quantifier": "every sequence of creating, changing, storing, getting, receiving, recording, copying, adding to messages and sending byte arrays", "why_tests_cant": "Arrays are stored and handed out by reference; received messages contain bytearrays, because LocalNode and Controller parse the bytearray that to_bytes returns.", "anchors": ["uecho/object.py: Object.set_property_data", "uecho/object.py: Object.get_property_data", "uecho/object.py: Object.message_received", "uecho/controller.py: Controller._update_properties", "uecho/message.py: Message.add_property", "uecho/protocol/message.py: Message.to_bytes", "uecho/property.py: Property.copy"]}
{"id": "C102", "title": "The device of the documentation", "statement": "The device MyDevice of doc/device_overview.md, added to a node, answers a read of property 0x80 with its content and refuses other reads; a write of 0x30 or 0x31 to 0x80 is stored and any other write refused, so that the status is always the last of these values that was written; no message raises an exception, and the handler is asked only about properties the device has.", "quantifier": "every content of the device and every sequence of messages with any service code and properties", "why_tests_cant": "The handler compares the length of the stored data instead of the length of the data received, so the answers depend on the history of the device.", "anchors": ["doc/device_overview.md: MyDevice", "doc/device_inside.md: Property Message Handler", "uecho/object.py: Object.message_received", "uecho/std/object.py: StandardObject.__init__"]}
{"id": "C103", "title": "Observers only listen", "statement": "What a node stores and answers depends on the messages it receives and not on what observers do to the message object they are given: the answer carries the TID of the request and goes to its sender, and what is stored is the data of the request, also if observers assign to the fields of the message.", "quantifier": "every node or controller, every message, every list of observers of objects and servers with a state of their own, and every change they make to the message", "why_tests_cant": "An observer that normalises or logs a message by assigning to it silently changes what the device does.", "anchors": ["uecho/protocol/subject.py: Subject.notify", "uecho/object.py: Object.message_received", "uecho/local_node.py: LocalNode.message_received", "uecho/controller.py: Controller.message_received", "uecho/frame/server.py: Server.run", "doc/device_inside.md: Device Message Handler and Observer"]}
{"id": "C104", "title": "What a handler is asked", "statement": "The handler of an object is asked exactly once about each property that a read, write or write-read request names and the object has, in the order of the request, writes before reads, with the property as it is at that moment and the data of the request; it is asked about nothing else, and other messages lead to no question.", "quantifier": "every handler that remembers all earlier questions and may change data and attributes of the properties, every property table and every sequence of messages", "why_tests_cant": "doc/device_inside.md promises that handlers receive only valid requests; handlers that count, confirm or log requests depend on it.", "anchors": ["uecho/object.py: Object.message_received", "uecho/object.py: ObjectRequestHandler", "doc/device_inside.md: Device Message Handler and Observer"]}
{"id": "C105", "title": "A controller remembers the last value it received of each property", "statement": "After any history of received messages, each property of the node profile of a found node has the data of the last answer or announcement from that address that named it, and before the first such message the data of a new object; data received for its devices is kept in the same way.", "quantifier": "every history of messages from any addresses, received by a controller that has found no node before", "why_tests_cant": "get_node, get_object and get_property of a controller are used to look up values that have been received; a value that is lost or put at the wrong object is shown to users.", "anchors": ["uecho/controller.py: Controller.message_received", "uecho/controller.py: Controller._add_found_node", "uecho/controller.py: Controller._update_properties", "uecho/remote_node.py: RemoteNode.parse_message"]}
{"id": "C106", "title": "Nodes that are no longer used stop", "statement": "A local node that the program no longer refers to is finalised, and this closes its sockets and ends its threads; a node that can still be reached, and its servers, are never finalised, and a failed start leaves no socket open.", "quantifier": "every program that creates, keeps, drops, starts, stops and observes nodes, with any outcome of bind, threads that end at any time, and collections of any unreachable objects in any order and in any thread", "why_tests_cant": "LocalNode, Manager and Server have __del__ methods that stop them; a node that is not stopped keeps its ports, goes on answering and keeps the process alive.", "anchors": ["uecho/local_node.py: LocalNode.__del__", "uecho/frame/manager.py: Manager.__del__", "uecho/frame/server.py: Server.__del__", "uecho/controller.py: Controller.__del__"]}
{"id": "C107", "title": "Properties that are given another code", "statement": "An object finds, serves and describes its properties under the codes they have: after a program assigns to Property.code, the property is found under its new code, requests are decided by the rights of the property they name, the property maps name exactly the codes under which properties are found, and a copy of the object has the same properties under the same codes.", "quantifier": "every program that creates objects and properties, assigns codes, data and attributes, adds properties (also several times and to several objects) and lets objects answer requests", "why_tests_cant": "code is a plain public attribute that the library itself assigns (Message, Object.__create_message); the effect of assigning it after an addition depends on three different lookups.", "anchors": ["uecho/object.py: Object.add_property, get_property, message_received, copy", "uecho/super_object.py: property_read_requested, property_write_requested, _update_property_map_properties", "uecho/protocol/property.py: Property"]}
{"id": "C108", "title": "Copies of attached properties and objects", "statement": "Property.copy and Object.copy return a copy of every property and every object a program has: the copy has the same code and data, nothing of the original changes, and nothing the copy refers to is shared with the original. So an object of every class of the database can be made (the constructors copy the database's properties) and every node that answers is found.", "quantifier": "every program that makes properties, objects, local nodes and controllers, attaches them to each other and to handlers and observers, starts and stops nodes, hears of other nodes, and copies", "why_tests_cant": "copy.deepcopy follows Property.object, Object.node, the manager, its servers and the controller; it copies all of it or raises TypeError at the first thread, socket or condition.", "anchors": ["uecho/property.py: Property.copy", "uecho/object.py: Object.copy", "uecho/super_object.py: SuperObject._set_object_properties", "uecho/std/object.py: StandardObject.set_code", "uecho/controller.py: Controller._add_found_node"]}
{"id": "C109", "title": "What observers of an object are told", "statement": "An observer added with Object.add_observer to an object of a local node is told of every valid message from another node for that object, once, in the order of arrival and with its contents, before the node answers; it is told of no other message (none for other objects, none of the node itself, none that is not valid).", "quantifier": "all nodes and controllers with any objects, observers and handlers; all sequences of messages and of datagrams at its servers; observers that raise", "why_tests_cant": "doc/device_inside.md says observers of objects get only valid messages for the object from other nodes; message_received tells them before anything is checked and the check for own messages never holds.", "anchors": ["doc/device_inside.md: Object Message Listener", "uecho/object.py: Object.message_received", "uecho/local_node.py: LocalNode.message_received", "uecho/controller.py: Controller.message_received", "uecho/frame/server.py: Server.run"]}
{"id": "C110", "title": "Parsing into a message again", "statement": "A Message into which several byte strings are parsed one after the other (parse_bytes, parse_hexstring) is what the last frame among them denotes; a string that is no frame leaves the message as it was.", "quantifier": "all messages, all sequences of byte strings, frames or not", "why_tests_cant": "parse_bytes assigns to the message while it reads; it checks lengths only when it gets there and clears nothing.", "anchors": ["uecho/protocol/message.py: Message.parse_bytes", "uecho/protocol/message.py: Message.__parse_property_bytes", "uecho/protocol/message.py: Message.parse_hexstring"]}
{"id": "C111", "title": "The log shows the traffic", "statement": "With the level DEBUG the log has one line for every datagram received, before anything that is sent because of it, and one for every datagram sent, in order; a line says on which interface, from or to which address and which bytes, and nothing else can be read from it. Datagrams that are no frames or could not be sent are logged as errors. Without setLevel only errors are printed.", "quantifier": "all nodes, all sequences of received datagrams, all results of the sockets, all levels", "why_tests_cant": "The lines are the only record of what a node did; they are built by hand in three places, two of them after something that can raise.", "anchors": ["uecho/frame/server.py: Server.run", "uecho/frame/unicast_server.py: UnicastServer.announce_message", "uecho/frame/unicast_server.py: UnicastServer.send_message", "uecho/log/logger.py", "uecho/log/__init__.py"]}
{"id": "C112", "title": "What the tools print", "statement": "uechopost prints one line for an answer, with the address it came from, the object, the service and every property with its data, and nothing if there is none. uechosearch and uechobench print one line for every found node with its address and its objects, numbered; with -v also a line for every object and for every mandatory readable property, with the data that the device holds, and uechosearch the name of the manufacturer or, if it is unknown, its code. From a line without -v everything that it is about can be read.", "quantifier": "all answers, all received messages, all found nodes and devices", "why_tests_cant": "The lines are put together by hand with fixed widths; a field that runs into the next one, or a property that is left out, makes the output wrong without any error.", "anchors": ["bin/uechopost.py", "bin/uechosearch.py", "bin/uechobench.py", "uecho/std/database.py: Database.get_manufacturer_name"]}
{"id": "C113", "title": "A request to all nodes of the network", "statement": "A request that a controller sends to the multicast group goes out once on every interface with the next TID and the node profile as its source. Whatever the network then loses, repeats or reorders, every device that hears it carries it out once in effect, however often it hears it, and sends nothing but its answer to the controller, once for each time; a device without the object sends nothing, one that does not hear it keeps its contents, and all devices go on listening.", "quantifier": "all read and write requests, all devices and contents, all schedules of the network", "why_tests_cant": "A request to the group is heard several times by a device with several interfaces; a copy that were applied twice, or answered to the group or not at all, would go unnoticed by the sender.", "anchors": ["uecho/controller.py: Controller.announce_message", "uecho/local_node.py: LocalNode.announce_message", "uecho/local_node.py: LocalNode.message_received", "uecho/frame/manager.py"]}
{"id": "C114", "title": "Searching again", "statement": "After any number of searches, between which nodes come, leave and change their devices, a controller shows each node as it answered the last search that it answered and leaves the entries of the others as they were; a node that has left the network is no longer shown after the next search.", "quantifier": "all controllers with any entries, all sequences of networks, all schedules of deliveries", "why_tests_cant": "Tests search once in a network that stays as it is; entries that are mixed up, or that are not renewed, need several searches and changes between them.", "anchors": ["uecho/controller.py: Controller.search", "uecho/controller.py: Controller._add_found_node", "uecho/controller.py: Controller.message_received", "uecho/remote_node.py: RemoteNode.parse_message"]}
{"id": "C115", "title": "Using the nodes that were found", "statement": "On a network of nodes made with the library, once each controller has searched and heard an answer of each node, it shows every node with its address and devices, and from then on everything the controllers call and the network delivers, delays or loses gives the results of one store per node with the contents the nodes had before the searches.", "quantifier": "all numbers of controllers and nodes (of up to 84 devices), all lives of the nodes before, all schedules of the searches, all later runs", "why_tests_cant": "Every other test starts from a controller that is connected; that a search itself connects it and changes nothing else is seen only when the two are put together.", "anchors": ["uecho/controller.py: Controller.search", "uecho/controller.py: Controller.post_message", "uecho/controller.py: Controller.message_received", "uecho/local_node.py: LocalNode.message_received"]}
{"id": "C116", "title": "The address of a node", "statement": "A node accepts as its address exactly the tuples of two items, given at its creation or later, says whether it did, and shows the last one accepted, the empty tuple if there was none; its ip and port are the two items of the address, and the empty string and 0 as long as it has none.", "quantifier": "all values given at creation, all sequences of calls with any values", "why_tests_cant": "The address decides where every request to a node goes and which node a datagram is taken to come from.", "anchors": ["uecho/node.py: Node.set_address", "uecho/node.py: Node.address", "uecho/node.py: Node.ip", "uecho/node.py: Node.port"]}
{"id": "C117", "title": "Requests to objects with a handler of the application", "statement": "An object with a handler of the application answers a read or write request by asking the handler about each named property it has, in order, and a write-read request that reads properties it has by asking about the writes and then the reads: an accepted read is answered with the data the property holds after the question, an accepted write is stored and answered without data, a refused write with the data of the request, everything else without data; the answer is positive exactly if everything was accepted; an exception of the handler ends the request without an answer and keeps what was stored before; nothing but the property table changes.", "quantifier": "all handlers with a memory of the number of questions that may change the table, raise, accept or refuse; all objects and requests", "why_tests_cant": "An application that implements a device decides in its handler; what the library does with the decisions is all that other nodes see.", "anchors": ["uecho/object.py: Object.message_received", "uecho/object.py: Object.set_request_handler"]}
{"id": "C118", "title": "Standard objects and their properties say what they are", "statement": "A standard object has the name of its class (classes not in the tables are called after the super class), and each of its properties has the name, the data type and the size that the tables give for the class of the object or, where the class has no such property, for the super class, the last of several rows counting. Writing data, by the application or by requests, leaves them; copies have them; a new class code gives the object the name of the class and describes the properties of that class anew; a property that the application made itself is described as the application did, and reading the name of one that was not described raises AttributeError. A profile keeps what it says about the properties that a new class does not have; an object of the class Object has no name and says only what the application did. The tools therefore print the name of the tables for every mandatory property of the nodes that they found, and never fail for want of a name.", "quantifier": "all class codes, all sequences of writes, added properties, class codes and received messages, all found nodes", "why_tests_cant": "Names, types and sizes are how applications and the tools tell people what a device is and how its data is to be read.", "anchors": ["uecho/std/object.py", "uecho/std/reader.py", "uecho/property.py", "uecho/std/objects_mra.py", "uecho/std/objects_scsl.py", "uecho/object.py"]}
{"id": "C119", "title": "The lamp of the example light shows its status", "statement": "From its start on, the lamp of the example light and the last line the program printed show the operation status: the lamp is white and the line is ON while the status begins with 0x30, the lamp is black and the line is OFF while it begins with 0x31, whatever messages arrive; once the program has stopped the light, the lamp is off.", "quantifier": "all property tables and sequences of messages, all outcomes of the lamp driver; all interleavings of any number of servers and of the program", "why_tests_cant": "The lamp is what people see of the device; what controllers read must be what people see.", "anchors": ["examples/device/monolight/monolight-sense.py", "examples/device/monolight/monolight.py", "uecho/object.py: Object.message_received"]}
{"id": "C120", "title": "Destinations of any kind", "statement": "send_message and post_message of a Controller take a host name or an address (port 3610), an address tuple, or a found node; get_node takes a host name, an address or an address tuple. The datagram goes to the address the destination names, and to no other. Every other value is refused: send_message returns False, post_message and get_node return None, nothing is sent and nothing is raised.", "quantifier": "all destination values, messages, controller states, traces and outcomes of the operating system", "why_tests_cant": "Destinations come from users and configuration files; a mistaken one must not reach some other host or stop the program.", "anchors": ["uecho/controller.py: Controller.send_message, Controller.post_message, Controller.get_node", "uecho/frame/unicast_server.py: UnicastServer.send_message", "uecho/frame/manager.py: Manager.send_message"]}
{"id": "C121", "title": "Requests through objects and properties", "statement": "send_message and post_message of an Object or a Property send the request to the node that holds the object, from the controller that found the node, with the object as destination; a listener that is told of a node can use its objects in the callback. Through an object or a property that belongs to no found node nothing is sent: send_message returns False and post_message None, without an exception.", "quantifier": "all histories of creating, adding, moving and renaming properties, objects and nodes, all announcements, listeners and arguments", "why_tests_cant": "Programs hold on to objects and properties; a request must reach the device they stand for.", "anchors": ["uecho/object.py: Object.send_message, Object.post_message", "uecho/property.py: Property.send_message, Property.post_message", "uecho/controller.py: Controller._add_found_node", "uecho/remote_node.py"]}
{"id": "C122", "title": "The controller of the documentation", "statement": "The controller program of the documentation lists every node that announced itself with its number and address, followed by each of its objects with number and code, so that nodes and objects can be read back from the lines. The write request it builds, sent or posted to the first found node, changes exactly the property it names, and only if that may be written; after the post nothing is printed if the data was stored or the device does not have the object, otherwise the service code 50 and the property. An answer is printed so that service code and properties can be read back. Without a found node the program raises IndexError and sends nothing.", "quantifier": "all received messages, all nodes with plain addresses, all contents of the device, objects, property codes and data of up to 255 bytes", "why_tests_cant": "Users start from the documented program; what it prints is all they see of the network.", "anchors": ["doc/controller_overview.md", "uecho/controller.py: Controller.send_message, Controller.post_message, Controller.nodes", "uecho/message.py: Message.add_property"]}
{"id": "C123", "title": "The two programs of the documentation together", "statement": "The controller program and the device program of the documentation work together: of the writes the controller posts, those of the single byte 0x30 or 0x31 to property 0x80 of the light are stored and nothing is printed; every other write is refused, printed as service code 50 with the property, and changes nothing. The device goes on answering, and its status is the last valid value posted.", "quantifier": "all contents of the device, all sequences of writes of up to 255 bytes to any properties of the light", "why_tests_cant": "The documentation offers both programs as starting points; what one requests and the other does must fit together.", "anchors": ["doc/controller_overview.md", "doc/device_overview.md", "uecho/local_node.py: LocalNode.message_received", "uecho/object.py: Object.message_received", "uecho/controller.py: Controller.post_message"]}
{"id": "C124", "title": "Values that a device announces", "statement": "A device announces values of properties of one of its objects: each open interface sends one notification from that object with these values to the group. Every controller that hears it and has found the device records the values in the object they come from, and in nothing else; all controllers go on listening; nodes without a controller do not change and send nothing.", "quantifier": "all devices, objects and values that fit a datagram; any number of controllers and other nodes; all orders, losses and repetitions of the datagrams", "why_tests_cant": "Announcements are how a controller follows the state of a device without asking.", "anchors": ["uecho/local_node.py: LocalNode.announce_message, LocalNode.message_received", "uecho/controller.py: Controller.message_received, Controller._update_properties", "uecho/frame/manager.py: Manager.announce_message", "uecho/frame/server.py: Server.run"]}
{"id": "C125", "title": "Several controllers search on one network", "statement": "On a network of nodes with different addresses, none with more than 84 devices and some of them controllers that have found nothing yet, controllers search at any times, also at the same time and repeatedly, and whatever has been sent is delivered in any order, any number of times or not at all. Then each controller has found exactly the nodes of which an answer to it has arrived (itself too, if its own search comes back to it), each with its address and its devices; all nodes go on listening with all servers and keep their devices; on the network there are only searches from controllers to the group and answers with the device list of the sender to the controllers; and at any time a search, one of its datagrams at a node and the answer to it are enough for a controller to find that node.", "quantifier": "all such networks; all orders of searches and deliveries, with losses and repetitions", "why_tests_cant": "Nodes that answer one controller must not disturb the search of another.", "anchors": ["uecho/controller.py: Controller.search, Controller.message_received, Controller._add_found_node", "uecho/local_node.py: LocalNode.message_received, LocalNode.announce_message, LocalNode.send_message", "uecho/frame/server.py: Server.run", "uecho/frame/manager.py: Manager.announce_message, Manager.send_message"]}
{"id": "C126", "title": "A controller that uses its own objects", "statement": "A controller whose own answer to its search has reached it has found itself, on a network with any other nodes. It can then use its own objects through the network: each call of post_message with its own address returns what a reference store of its objects answers, from the object that was asked, with the TID of the call; writes and reads of later calls see earlier writes, and the tables of the objects are those of the store.", "quantifier": "all controllers, objects with built-in handlers and sequences of reads, writes, posted writes and write-reads that fit a datagram; all traffic before", "why_tests_cant": "The project's own test of devices (test/device_test.py) works this way; a process that hosts both a controller and a device has no other address.", "anchors": ["uecho/controller.py: Controller.post_message, Controller.message_received, Controller.send_message", "uecho/local_node.py: LocalNode.message_received, LocalNode.send_message", "uecho/object.py: Object.message_received"]}
{"id": "C127", "title": "Several controllers using a network", "statement": "On a network of any nodes and controllers each controller can call the objects of every node it has found, itself included. Each call of post_message, with the address, the IP address or the node as destination, returns what a reference store of the called node answers, from the called object and the address of that node, with the next TID of the calling controller; reads see the writes of all controllers, a call changes no other node's objects, and the controllers' TIDs do not disturb each other. If the network loses or repeats the request or answers, the call returns the first answer that arrives, or None, a lost request changes nothing, a repeated one is carried out again, and later calls are right again.", "quantifier": "all networks of working nodes with built-in handlers, all numbers of controllers, all interleavings of complete calls (reads, writes, posted writes, write-reads that fit a datagram), all losses and repetitions of requests and answers, and all searches before", "why_tests_cant": "A home has several controllers and devices; what one of them switches the others must be able to read.", "anchors": ["uecho/controller.py: Controller.post_message, Controller.message_received, Controller.send_message", "uecho/local_node.py: LocalNode.message_received, LocalNode.send_message, LocalNode.next_tid", "uecho/object.py: Object.message_received"]}
