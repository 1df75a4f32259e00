{"id": "C01", "title": "Frame encode/decode round trip", "statement": "Decoding the bytes of any message that fits the Format 1 limits (at most 255 properties, each at most 255 data bytes) succeeds and yields a message with the same TID, SEOJ, DEOJ, ESV, OPC and the same property list (codes and data, in order).", "quantifier": "every TID, SEOJ, DEOJ, ESV and every property list within the wire limits", "why_tests_cant": "The space of property lists is unbounded in practice (255 properties of 0..255 bytes); unit tests decode a handful of literals.", "anchors": ["net/echonet/protocol/message.go: Message.Bytes, Message.AddProperty", "net/echonet/protocol/message_parser.go: Message.ParseBytes"]}
{"id": "C02", "title": "Wire layout of encoded frames", "statement": "The bytes produced for a message are exactly EHD 10 81, big-endian TID, SEOJ, DEOJ, ESV, OPC and then EPC, PDC, EDT for every property in insertion order; nothing is missing, reordered or appended, and the reported size is the length of that byte string.", "quantifier": "every message built through the message API within the wire limits", "why_tests_cant": "Interoperability needs the layout for every number and size of properties, not for the sampled frames.", "anchors": ["net/echonet/protocol/message.go: Message.Bytes, Message.Size", "net/echonet/protocol/property.go"]}
{"id": "C03", "title": "Decoder never crashes and accepts by header only", "statement": "For every byte string received from the network decoding terminates without a runtime panic, and it reports success exactly when the input has at least 12 bytes and starts with 10 81.", "quantifier": "every byte string of every length", "why_tests_cant": "Absence of index-out-of-range panics for all inputs is a universal statement; fuzzing only samples.", "anchors": ["net/echonet/protocol/message_parser.go: ParseBytes, parseFrameHeaderBytes, parseFormat1HeaderBytes, parseFormat1PropertyBytes"]}
{"id": "C04", "title": "Well-formed frames re-encode to themselves", "statement": "If a byte string is a well-formed Format 1 frame (optionally followed by trailing bytes), decoding it and encoding the result gives back exactly that frame, so forwarding or logging a decoded frame never alters it.", "quantifier": "every well-formed frame and every trailing garbage", "why_tests_cant": "Injectivity of the decoder on the whole language of frames cannot be sampled.", "anchors": ["net/echonet/protocol/message_parser.go: ParseBytes", "net/echonet/protocol/message.go: Bytes"]}
{"id": "C05", "title": "Truncated frames are rejected", "statement": "A byte string whose property area is shorter than its OPC and PDC counters announce is reported as an error instead of being delivered as a message with invented property contents.", "quantifier": "every byte string, every cut point of a valid frame", "why_tests_cant": "Every frame has as many cut points as bytes; tests only check one or two cuts.", "anchors": ["net/echonet/protocol/message_parser.go: parseFormat1PropertyBytes"]}
{"id": "C06", "title": "Stream decoding agrees with datagram decoding", "statement": "Reading a frame from a TCP stream yields the same message as decoding the same bytes from a datagram, however the stream is split into segments.", "quantifier": "every well-formed frame and every segmentation of the stream", "why_tests_cant": "The number of segmentations is exponential in the frame length and depends on network timing.", "anchors": ["net/echonet/protocol/message_parser_reader.go: ParseReader, parseFormat1PropertyReader", "net/echonet/transport/tcp_socket.go: ReadMessage"]}
{"id": "C07", "title": "Integer encoding round trip", "statement": "Encoding an integer into n bytes and decoding those bytes gives the integer modulo 256^n, the encoding is big-endian and always n bytes, and decoding then encoding any string of at most 8 bytes is the identity.", "quantifier": "every unsigned value, every buffer length and every byte string", "why_tests_cant": "All 64-bit values and all lengths; only a few values are tested.", "anchors": ["net/echonet/encoding/binary.go: IntegerToByte, ByteToInteger"]}
{"id": "C08", "title": "Service code classification is consistent", "statement": "Every service code is in at most one of the families request / response / notification / error response, the valid codes are exactly the sixteen codes of the ECHONET Lite table, and the codes for which a response is required are exactly those for which a success response code exists.", "quantifier": "every ESV byte", "why_tests_cant": "Tests check single codes; consistency between six predicates and two mapping tables is a cross-cutting statement over all bytes.", "anchors": ["net/echonet/protocol/esv.go", "net/echonet/protocol/message.go: NewResponseMessageWithMessage, NewImpossibleMessageWithMessage"]}
{"id": "C09", "title": "Success responses are addressed back to the requester", "statement": "A success response carries the TID of the request, swaps source and destination object, and has exactly the response service code that the protocol table assigns to the request service code.", "quantifier": "every request message", "why_tests_cant": "Must hold for all TIDs, objects and service codes.", "anchors": ["net/echonet/protocol/message.go: NewResponseMessageWithMessage"]}
{"id": "C10", "title": "Error responses echo the request", "statement": "An error (service-not-available) response carries the TID of the request, swaps source and destination object, has the error service code of the table, and lists the same number of properties with the same property codes as the request, so the requester can tell which properties failed.", "quantifier": "every request message with any property list", "why_tests_cant": "Property lists are unbounded and the existing tests do not look at the property list of an error response.", "anchors": ["net/echonet/protocol/message.go: NewImpossibleMessageWithMessage"]}
{"id": "C11", "title": "Transaction identifiers are fresh", "statement": "The k-th message sent by a node carries TID k modulo 65536, so any 65536 consecutive requests of a node carry pairwise different TIDs, and the TID assigned is the TID put on the wire.", "quantifier": "every length of the send history and every starting TID", "why_tests_cant": "A wrap-around needs 65536 sends; tests send four.", "anchors": ["net/echonet/local_node.go: NextTID", "net/echonet/protocol/message.go: SetTID, TID", "net/echonet/local_node_msssage.go: updateMessageDestinationHeader"]}
{"id": "C12", "title": "Property count bookkeeping", "statement": "After any sequence of property additions the reported OPC is the number of added properties, property n is the n-th added one, and membership queries agree with that list, up to the 255 properties the frame format can carry.", "quantifier": "every sequence of additions", "why_tests_cant": "Histories are unbounded; the byte counter wraps only after 255 additions.", "anchors": ["net/echonet/protocol/message.go: AddProperty, AddProperties, OPC, Property, HasProperty, SetOPC"]}
{"id": "C13", "title": "Message copy and equality", "statement": "A copied message equals its original and keeps source address and packet type, and two in-limit messages compare equal exactly when TID, objects, service code and property lists are the same.", "quantifier": "every pair of messages", "why_tests_cant": "Equality over all pairs of messages cannot be enumerated.", "anchors": ["net/echonet/protocol/message.go: NewMessageWithMessage, Equals"]}
{"id": "C14", "title": "Service availability follows the access attributes", "statement": "A property accepts a service exactly when its access attributes allow it: writes need a writable property, reads a readable one, notification requests and notifications an announceable one, write-read both read and write; any other service code is refused.", "quantifier": "every property attribute combination and every service code", "why_tests_cant": "27 attribute combinations times 256 codes, and attributes are compared as open integers.", "anchors": ["net/echonet/property.go: IsAvailableService, IsReadable, IsWritable, IsAnnounceable, IsReadOnly, IsWriteOnly"]}
{"id": "C15", "title": "Property value round trip and isolation", "statement": "After setting data, byte or integer on a property, the value getters return that value (integers modulo the chosen width); setting a value on an object changes only the property with that code, and setting an absent property is reported and changes nothing.", "quantifier": "every property value, width, object content and code", "why_tests_cant": "Quantifies over all values and all object contents.", "anchors": ["net/echonet/property.go: SetData, SetInteger, AsByte, AsInteger", "net/echonet/property_map.go: SetPropertyData, SetPropertyInteger, SetPropertyByte, LookupPropertyData"]}
{"id": "C16", "title": "Property maps decode to the encoded set", "statement": "Decoding a property map produced by the library yields exactly the set of property codes that was encoded, in both the list format (up to 15 codes) and the bitmap format (16 or more codes).", "quantifier": "every set of property codes 0x80..0xFF", "why_tests_cant": "2^128 sets; the bitmap format is only exercised for one object.", "anchors": ["net/echonet/super_object.go: setPropertyMapProperty", "net/echonet/property_func.go", "net/echonet/property.go: PropertyMapData"]}
{"id": "C17", "title": "Property maps always describe the object", "statement": "After any history of class code assignments and property additions the Get, Set and Announcement property maps of an object list exactly the codes of its readable, writable and announceable properties.", "quantifier": "every history of SetCode and AddProperty calls on an object", "why_tests_cant": "Histories are unbounded and the map is recomputed as a side effect of each call.", "anchors": ["net/echonet/super_object.go: AddProperty, addStandardPropertiesWithCode, updatePropertyMap, setPropertyMapProperty"]}
{"id": "C18", "title": "Property enumeration is ordered and complete", "statement": "Enumerating the properties of an object returns every property once, in ascending code order, independently of the iteration order of the underlying hash map and of the order of additions.", "quantifier": "every object content, every hash map iteration order", "why_tests_cant": "Go randomises map iteration; a test run sees one order.", "anchors": ["net/echonet/property_map.go: Properties, AddProperty, LookupProperty"]}
{"id": "C19", "title": "Object code accessors are consistent", "statement": "Setting a 24-bit object code and reading group, class, instance or whole code (or the 3-byte form) gives the corresponding parts; setting one part leaves the other parts unchanged; object codes survive conversion to bytes and back.", "quantifier": "every 24-bit object code and every accessor sequence", "why_tests_cant": "2^24 codes times accessor combinations.", "anchors": ["net/echonet/object.go: SetCode, Code, SetCodes, Class, SetClassGroupCode, SetClassCode, SetInstanceCode", "net/echonet/protocol/object.go: NewObjectCodeFromBytes, Bytes", "net/echonet/class.go"]}
{"id": "C20", "title": "Super class state round trips", "statement": "Operating status, fault status, installation location and manufacturer code read back as they were set on every device and profile created by the library.", "quantifier": "every device code, every value and every interleaving of the setters", "why_tests_cant": "Ranges over all standard classes and all values.", "anchors": ["net/echonet/super_object.go: SetOperatingStatus, OperatingStatus, SetManufacturerCode, ManufacturerCode", "net/echonet/device.go: SetInstallationLocation, SetFaultStatus, SetStandardVersion, StandardVersion"]}
{"id": "C21", "title": "Device creation is determined by the standard database", "statement": "Creating a device with an object code succeeds exactly when the standard database has a class for it, irrespective of the instance number, and the device then has the super class properties plus the properties of that class with the access attributes of the database.", "quantifier": "every 24-bit object code", "why_tests_cant": "All 2^24 codes; tests create a few devices.", "anchors": ["net/echonet/device.go: NewDeviceWithCode, WithDeviceCode", "net/echonet/super_object.go: SetCode, addStandardProperties", "net/echonet/database.go: LookupObject", "net/echonet/database_mra_objects.go"]}
{"id": "C22", "title": "Mandatory standard properties are accessible", "statement": "Every property that the machine readable appendix marks as required for reading (unconditionally or conditionally) is readable on a device of that class created by the library, and likewise for writing.", "quantifier": "every property of every class in the standard database", "why_tests_cant": "The table has about a thousand rules; tests look at five codes.", "anchors": ["net/echonet/database_mra_objects.go: newStandardProperty"]}
{"id": "C23", "title": "Re-coding an object leaves exactly the new class", "statement": "After an object's code has been changed, its properties are those of the super class and of the new class; no property of the previous class is left behind and answered to the network.", "quantifier": "every sequence of code assignments", "why_tests_cant": "Histories of assignments are unbounded.", "anchors": ["net/echonet/super_object.go: SetCode, SetCodes, addStandardProperties"]}
{"id": "C24", "title": "Node profile describes the node", "statement": "After any history of adding devices and profiles to a local node, the node profile reports the number of device instances, the instance list in order of addition, the number of distinct classes and the list of distinct classes without repetition, and nothing else.", "quantifier": "every history of AddDevice and AddProfile", "why_tests_cant": "Histories are unbounded; tests use one device.", "anchors": ["net/echonet/local_node.go: AddDevice, AddProfile, updateNodeProfile", "net/echonet/node_profile.go: SetInstanceCount, SetInstanceList, SetClassCount, SetClassList"]}
{"id": "C25", "title": "Object lookup on a node", "statement": "Looking up an object code on a node returns the first device with that code, otherwise the first profile with that code, otherwise not found; adding further objects never changes the result of a successful device lookup.", "quantifier": "every node content and every code", "why_tests_cant": "Quantifies over all node contents including duplicate codes.", "anchors": ["net/echonet/base_node.go: LookupDevice, LookupProfile, LookupObject, NodeProfile"]}
{"id": "C26", "title": "Manufacturer code propagates to every object", "statement": "At any time every device and profile of a local node carries the node's current manufacturer code, whatever the order in which objects were added and the code was set.", "quantifier": "every history of AddDevice, AddProfile and SetManufacturerCode", "why_tests_cant": "All interleavings of three operations.", "anchors": ["net/echonet/local_node.go: SetManufacturerCode, AddDevice, AddProfile"]}
{"id": "C27", "title": "Status changes are announced exactly when they must be", "statement": "Setting the data of a property of a device on a running local node multicasts exactly one notification carrying that device, that property and the new data when the property is announceable, and sends nothing when the property is not announceable, the node is stopped or the device is not attached.", "quantifier": "every node state, every property and every value", "why_tests_cant": "Needs all combinations of node state and attributes, and absence of a packet is not testable.", "anchors": ["net/echonet/property.go: SetData, Announce", "net/echonet/local_node_msssage.go: AnnounceProperty, AnnounceMessage"]}
{"id": "C28", "title": "Start-up announcement carries the instance list", "statement": "The message multicast when a node starts is a notification from the node profile with the current instance list, and its bytes decode to that instance list on a receiving node.", "quantifier": "every node content", "why_tests_cant": "Every number of devices up to the frame limit and beyond.", "anchors": ["net/echonet/local_node_msssage.go: Announce", "net/echonet/local_node.go: Start", "net/echonet/node_profile.go: SetInstanceList"]}
{"id": "C29", "title": "Read requests return current values", "statement": "A valid read request is answered with one response that lists exactly the requested properties in request order with the data the object holds after the application callbacks ran, and the library itself changes no property.", "quantifier": "every node content, every read request, every application callback behaviour", "why_tests_cant": "Quantifies over all object contents and request lists.", "anchors": ["net/echonet/local_node_message_handler.go: ProtocolMessageReceived, createResponseMessageForRequestMessage"]}
{"id": "C30", "title": "Invalid requests have no effect", "statement": "A request to a missing object, to a missing property, with a service the property does not allow, or with a wrong data size never reaches the object callbacks, changes no property and is answered with the error service code of the request.", "quantifier": "every node content and every invalid read or write request", "why_tests_cant": "The set of invalid requests is infinite.", "anchors": ["net/echonet/local_node_message_handler.go: validateReceivedMessage, ProtocolMessageReceived", "net/echonet/object.go: notifyPropertyRequest"]}
{"id": "C31", "title": "A failing callback suppresses the response", "statement": "If the node listener or any object callback reports an error for a valid request then no response is sent, and if all of them succeed and the service requires a response then exactly one response is sent.", "quantifier": "every request and every pattern of callback results", "why_tests_cant": "All success/failure patterns over arbitrarily many properties.", "anchors": ["net/echonet/local_node_message_handler.go: executeMessageListeners, ProtocolMessageReceived"]}
{"id": "C32", "title": "Callbacks run once per requested property in order", "statement": "For a valid request the node listener runs once, then the object listener and request handler run exactly once for each requested property in request order, and for no other property.", "quantifier": "every valid request and node content", "why_tests_cant": "Unbounded property lists.", "anchors": ["net/echonet/local_node_message_handler.go: executeMessageListeners", "net/echonet/object.go: notifyPropertyRequest"]}
{"id": "C33", "title": "Message exchanges terminate", "statement": "A node never answers a message that is itself an answer, an error or an unsolicited notification, so two nodes cannot keep replying to each other for ever.", "quantifier": "every message and every pair of nodes", "why_tests_cant": "Non-termination is a statement about infinite executions.", "anchors": ["net/echonet/local_node_message_handler.go: ProtocolMessageReceived, validateReceivedMessage", "net/echonet/protocol/message.go: NewImpossibleMessageWithMessage"]}
{"id": "C34", "title": "Write requests are accepted exactly when well-typed", "statement": "A write request is passed to the application exactly when every listed property exists on the target object, is writable and is sent with as many bytes as the property currently holds.", "quantifier": "every write request and every object content", "why_tests_cant": "Unbounded property lists with all data lengths.", "anchors": ["net/echonet/local_node_message_handler.go: validateReceivedMessage"]}
{"id": "C35", "title": "Unreadable properties are not disclosed", "statement": "The data of a property whose read attribute is prohibited is never put into a response to another node.", "quantifier": "every message from the network and every object content", "why_tests_cant": "Non-disclosure must hold for every service code and every request.", "anchors": ["net/echonet/local_node_message_handler.go: createResponseMessageForRequestMessage, validateReceivedMessage"]}
{"id": "C36", "title": "Own multicasts are ignored", "statement": "With self messages disabled a node neither answers nor passes to the application any message whose source is its own address and port; messages of all other sources are processed.", "quantifier": "every message, source and node", "why_tests_cant": "Quantifies over all messages.", "anchors": ["net/echonet/local_node_message_handler.go: ProtocolMessageReceived", "net/echonet/controller_message_listener.go: isSelfMessage", "net/echonet/node.go: nodeEquals"]}
{"id": "C37", "title": "Discovery reconstructs the announced node", "statement": "When a controller receives the instance list of a node, the node it records has exactly the announced devices, in order, at the announcing address.", "quantifier": "every node content and every announcement encoding", "why_tests_cant": "End-to-end statement over all device lists through encoder and decoder.", "anchors": ["net/echonet/remote_node.go: newRemoteNodeWithInstanceListMessage, newRemoteNodeWithInstanceListMessageAndConfig", "net/echonet/controller_message_listener.go: parseNodeProfileMessage", "net/echonet/node_profile.go: SetInstanceList"]}
{"id": "C38", "title": "The controller's node table is a set", "statement": "At all times the controller's node list has no two nodes with the same address and port, keeps discovery order, grows only by announcements, and the application is told about each node exactly once.", "quantifier": "every sequence of received messages", "why_tests_cant": "Invariant over unbounded message histories.", "anchors": ["net/echonet/controller_message_listener.go: addNode, OnMessage", "net/echonet/controller.go: Nodes, Clear"]}
{"id": "C39", "title": "Announcements from the network cannot break discovery", "statement": "No message from the network makes node discovery panic, and an instance list that is too short for its count is refused.", "quantifier": "every message with any property list and any data", "why_tests_cant": "All byte contents of instance lists.", "anchors": ["net/echonet/remote_node.go: newRemoteNodeWithInstanceListMessage", "net/echonet/controller_message_listener.go"]}
{"id": "C40", "title": "Re-announcements refresh the node table", "statement": "When a known node announces a changed instance list the controller's view of that node afterwards lists the newly announced devices.", "quantifier": "every sequence of announcements of one node", "why_tests_cant": "Histories of announcements are unbounded.", "anchors": ["net/echonet/controller_message_listener.go: addNode, parseNodeProfileMessage"]}
{"id": "C41", "title": "Searches reach the requested object", "statement": "A search for an object code multicasts a request addressed to exactly that object code with the requested service and properties.", "quantifier": "every object code, service and property list", "why_tests_cant": "All 2^24 codes.", "anchors": ["net/echonet/controller.go: SearchAllObjectsWithESV, SearchObjectWithESV, Search", "net/echonet/message_func.go: newSearchMessage", "net/echonet/local_node_msssage.go: AnnounceMessage"]}
{"id": "C42", "title": "One outstanding request at a time", "statement": "In every interleaving of concurrent PostMessage calls and received messages at most one call is waiting for a response, and each call ends with exactly one of a response, a timeout or a send error.", "quantifier": "every number of callers, every schedule", "why_tests_cant": "Schedules are unbounded and not reproducible in tests.", "anchors": ["net/echonet/local_node_msssage.go: PostMessage, isResponseMessageWaiting, closeResponseChannel"]}
{"id": "C43", "title": "A response is matched to its request", "statement": "The message returned by PostMessage carries the transaction identifier of the request that was put on the wire and is not the request itself.", "quantifier": "every schedule of callers and received messages", "why_tests_cant": "Mismatches need a precise interleaving.", "anchors": ["net/echonet/local_node_msssage.go: PostMessage, isResponseMessage, setResponseMessage"]}
{"id": "C44", "title": "No schedule of responses crashes the process", "statement": "Whatever the number, order and timing of received responses, no goroutine panics and no handler goroutine blocks for ever.", "quantifier": "every schedule, including duplicate and late responses", "why_tests_cant": "Needs a rare interleaving that tests cannot force.", "anchors": ["net/echonet/local_node_msssage.go: setResponseMessage, closeResponseChannel, PostMessage", "net/echonet/local_node_message_handler.go: ProtocolMessageReceived"]}
{"id": "C45", "title": "Concurrent senders use different transaction identifiers", "statement": "Two requests sent concurrently by the same node never carry the same TID.", "quantifier": "every interleaving of concurrent senders", "why_tests_cant": "A data race; depends on the schedule.", "anchors": ["net/echonet/local_node.go: NextTID, LastTID", "net/echonet/local_node_msssage.go: SendMessage, AnnounceMessage"]}
{"id": "C46", "title": "Malformed datagrams do not stop reception", "statement": "After receiving any sequence of datagrams, including malformed ones, a running node still delivers every later well-formed datagram to the message handler, in order.", "quantifier": "every sequence of datagrams", "why_tests_cant": "Histories of arbitrary datagrams are unbounded.", "anchors": ["net/echonet/transport/unicast_server.go: handleUnicastUDPConnection", "net/echonet/transport/multicast_server.go: handleMulticastConnection", "net/echonet/transport/udp_socket.go: ReadMessage"]}
{"id": "C47", "title": "Datagram transfer is lossless up to the buffer size", "statement": "A message encoded by one node and received in one datagram by another is delivered unchanged, for every message the format allows.", "quantifier": "every message within the format limits", "why_tests_cant": "Messages of every size up to 65 kB.", "anchors": ["net/echonet/transport/udp_socket.go: ReadMessage", "net/echonet/transport/const.go: MaxPacketSize"]}
{"id": "C48", "title": "Start and stop of the transport", "statement": "Starting the transport either reports success with a bound server for every usable interface or reports an error and leaves nothing bound; stopping always leaves nothing bound; the node reports running exactly between a successful start and the next stop.", "quantifier": "every set of interfaces, every pattern of bind failures, every sequence of starts and stops", "why_tests_cant": "Bind failures at particular attempts are not reproducible.", "anchors": ["net/echonet/transport/unicast_manager.go: Start, Stop, IsRunning", "net/echonet/transport/unicast_server.go: Start, Stop", "net/echonet/transport/message_manager.go: Start, Stop, IsRunning", "net/echonet/transport/multicast_manager.go"]}
{"id": "C49", "title": "Configuration is taken over completely", "statement": "After a configuration has been applied to a node's transport, every configured value (TCP, timeouts, bind retry, automatic interface and port selection) is the one in effect.", "quantifier": "every configuration", "why_tests_cant": "All combinations of values; tests compare two booleans.", "anchors": ["net/echonet/transport/config.go", "net/echonet/transport/unicast_config.go: SetConfig", "net/echonet/transport/extention_config.go", "net/echonet/config.go"]}
{"id": "C50", "title": "Waiting for a property sees every update within the window", "statement": "FindPropertyWait returns the property if it is present at any polling instant of its window and reports absence only if it was absent at all of them.", "quantifier": "every time at which the property appears", "why_tests_cant": "Timing dependent.", "anchors": ["net/echonet/property_map.go: FindPropertyWait"]}
{"id": "C51", "title": "Address classification", "statement": "An address is classified as IPv6 or IPv4 exactly by its shape, never as both, and link-local or loopback classification never accepts an unusable interface.", "quantifier": "every address string and interface flag set", "why_tests_cant": "All strings.", "anchors": ["net/echonet/transport/interface.go: IsIPv6Address, IsIPv4Address, IsLoopbackAddress, IsCommunicableAddress"]}
{"id": "C52", "title": "Hidden duplicate cells lose no information", "statement": "The node table printed with duplicate cells hidden can be restored: replacing each blank cell by the cell above it gives back the original table.", "quantifier": "every table", "why_tests_cant": "All tables.", "anchors": ["net/echonet/cmd/table_formatter.go: HideDuplicateColumns, FilterEmptyRows"]}
{"id": "C53", "title": "Command line hex arguments", "statement": "A hexadecimal argument is accepted exactly when it is a valid hex number and yields its value; property data arguments yield the corresponding bytes.", "quantifier": "every argument string", "why_tests_cant": "All strings.", "anchors": ["net/echonet/cmd/func.go: hexStringToByte, hexStringToInt"]}
{"id": "C54", "title": "Answers leave from the interface of the request", "statement": "The answer to a multicast request is sent through a unicast server of the interface on which the request was received, whenever there is one.", "quantifier": "every set of interfaces, every history of starts and stops, every multicast server", "why_tests_cant": "Needs a machine with several interfaces; depends on pointer identity of two interface listings.", "anchors": ["net/echonet/transport/multicast_manager.go: setUnicastManager, getAppropriateServerForInterface", "net/echonet/transport/unicast_manager.go: getAppropriateServerForInterface", "net/echonet/transport/multicast_server.go: handleMulticastRequestMessage"]}
{"id": "C55", "title": "Announcements reach every interface", "statement": "An announcement is sent on every interface the node is bound to, and an error is reported exactly when it could not be sent.", "quantifier": "every set of unicast servers, every pattern of send failures", "why_tests_cant": "Needs several interfaces and send failures at particular servers.", "anchors": ["net/echonet/transport/unicast_manager.go: AnnounceMessage", "net/echonet/transport/message_manager.go: AnnounceMessage"]}
{"id": "C56", "title": "The get and set commands send the request their arguments denote", "statement": "For an object code, a property code and data given in hexadecimal, the get command asks for exactly that property of that object and the set command writes exactly these bytes to it; a malformed argument is reported and nothing is sent.", "quantifier": "every argument string, every state of the controller", "why_tests_cant": "All strings, all states of the node.", "anchors": ["net/echonet/cmd/get.go: getCmd", "net/echonet/cmd/set.go: setCmd", "net/echonet/cmd/func.go: hexStringToInt"]}
{"id": "C57", "title": "The printed response determines the response", "statement": "Two received messages that are printed alike are equal in every field, and the JSON form names every field exactly once.", "quantifier": "every pair of received messages", "why_tests_cant": "Relational, over all messages.", "anchors": ["net/echonet/cmd/message_formatter.go: Columns, Rows", "net/echonet/cmd/table.go: OutputJSON"]}
{"id": "C58", "title": "CSV output can be read back", "statement": "The comma separated text determines the table it was printed from: columns, rows and every cell.", "quantifier": "every pair of tables", "why_tests_cant": "Relational, over all tables and texts.", "anchors": ["net/echonet/cmd/table.go: OutputCSV"]}
{"id": "C59", "title": "A scan lists every object of every discovered node exactly once", "statement": "The table of a scan has one row for each object of each discovered node (with details: for each of its properties), with the address, port and code; restricted to an address it has the rows of that node only.", "quantifier": "every set of discovered nodes, every result of the requests posted", "why_tests_cant": "All nodes, objects and answers.", "anchors": ["net/echonet/cmd/controller.go: DiscoverNodes", "net/echonet/remote_node.go: newRemoteNodeWithInstanceListMessage"]}
{"id": "C60", "title": "A request over UDP gets the values of the device", "statement": "When a node posts a request that another node accepts and no callback reports an error, the other node calls exactly the callbacks of the addressed device for the requested properties, its datagram is taken by the waiting client as the response, and the response has the transaction number, the swapped objects, the answering service and, in order, the values the device holds afterwards.", "quantifier": "every pair of nodes made by library calls, every service with an answer, every device, all properties and values, every application", "why_tests_cant": "Composition of encoder, sender, decoder, handler, response and matching over all messages and states.", "anchors": ["net/echonet/local_node_msssage.go: PostMessage", "net/echonet/local_node_message_handler.go: ProtocolMessageReceived", "net/echonet/transport/udp_socket.go: ReadMessage", "net/echonet/transport/unicast_server.go: handleUnicastUDPConnection"]}
{"id": "C61", "title": "A refused request over UDP gets the error response", "statement": "When a node posts a request another node cannot serve (no such object, no such property, not readable, not writable, wrong size), nothing happens at that node, and the client receives the error response of the service with the transaction number and the swapped objects as the response to its request.", "quantifier": "every pair of nodes, every service with an error answer, every request that cannot be served", "why_tests_cant": "Composition over all messages and states.", "anchors": ["net/echonet/local_node_msssage.go: PostMessage", "net/echonet/local_node_message_handler.go: ProtocolMessageReceived", "net/echonet/protocol/message.go: NewImpossibleMessageWithMessage"]}
{"id": "C62", "title": "A search finds the nodes with their devices", "statement": "When a controller searches all objects, every node that receives the multicast answers, and the answer adds to the table of the controller a node with the address of the sender and exactly the devices added to that node, in order.", "quantifier": "every controller, every node history, every application that does not change the node, both search services", "why_tests_cant": "Composition of search, multicast, handler, node profile and discovery over all node histories.", "anchors": ["net/echonet/controller.go: SearchAllObjectsWithESV", "net/echonet/local_node_message_handler.go: ProtocolMessageReceived", "net/echonet/remote_node.go: newRemoteNodeWithInstanceListMessage"]}
{"id": "C63", "title": "A request over TCP gets the values of the device", "statement": "When a node posts over TCP a request that another node accepts and no callback reports an error, exactly the callbacks of the addressed device are called, the answer is written to the same connection, and PostMessage returns a message with the transaction number, the swapped objects, the answering service and, in order, the values the device holds afterwards, of any size, however the bytes are cut into segments.", "quantifier": "every pair of nodes made by library calls, every service with an answer, all properties and values, every application, every segmentation", "why_tests_cant": "Composition over all messages, states and segmentations.", "anchors": ["net/echonet/local_node_msssage.go: PostMessage", "net/echonet/transport/tcp_socket.go: PostMessage, ReadMessage", "net/echonet/transport/unicast_server.go: handleUnicastTCPConnection"]}
{"id": "C64", "title": "Every request that arrives on a connection is handled", "statement": "When several requests arrive on one TCP connection, each of them is handled and answered, in order.", "quantifier": "every sequence of requests on a connection", "why_tests_cant": "All messages and segmentations.", "anchors": ["net/echonet/transport/unicast_server.go: handleUnicastTCPConnection", "net/echonet/transport/tcp_socket.go: ReadMessage"]}
{"id": "C65", "title": "The message returned for a request over TCP belongs to the request", "statement": "The message PostMessage returns from a TCP connection has the transaction number of the request.", "quantifier": "every message a peer sends on the connection", "why_tests_cant": "All answers of a peer.", "anchors": ["net/echonet/transport/tcp_socket.go: PostMessage", "net/echonet/local_node_msssage.go: PostMessage"]}
{"id": "C66", "title": "A request goes out at most once", "statement": "One call of PostMessage transmits its request at most once, whatever the network answers: a write request is not executed twice.", "quantifier": "every behaviour of the network, every number of servers", "why_tests_cant": "Needs particular failures at particular moments, for any number of interfaces.", "anchors": ["net/echonet/local_node_msssage.go: PostMessage", "net/echonet/transport/unicast_manager.go: PostMessage, SendMessage", "net/echonet/transport/unicast_server.go: SendMessage"]}
{"id": "C67", "title": "A request that gets no response over TCP goes out by UDP", "statement": "When the TCP exchange fails because the remote party cannot use TCP, the request is sent by UDP.", "quantifier": "every failure of the TCP exchange", "why_tests_cant": "All combinations of failures at all servers.", "anchors": ["net/echonet/local_node_msssage.go: PostMessage", "net/echonet/transport/unicast_server.go: SendMessage"]}
{"id": "C68", "title": "Connections do not leak", "statement": "Every TCP connection a call of PostMessage opens is closed when the call goes on, and bytes are written only to the open connection.", "quantifier": "every behaviour of the network, every number of servers", "why_tests_cant": "All combinations of failures.", "anchors": ["net/echonet/transport/tcp_socket.go: dialAndWriteBytes, SendMessage, PostMessage"]}
{"id": "C69", "title": "A request ends with its context", "statement": "PostMessage returns when the context of the caller is cancelled or its deadline has passed, and at the request timeout at the latest; it returns the response when one arrives before.", "quantifier": "every context, timeout and arrival time", "why_tests_cant": "All times.", "anchors": ["net/echonet/local_node_msssage.go: PostMessage"]}
{"id": "C70", "title": "The format option accepts the names of the formats and nothing else", "statement": "A text given for the output format is accepted exactly when it spells table, json or csv in letters of any case with any white space around it, and selects the format it names; every other text is refused with an error; the name of a format is accepted as that format.", "quantifier": "every text", "why_tests_cant": "All texts.", "anchors": ["net/echonet/cmd/format.go: NewFormatFromString, String"]}
{"id": "C71", "title": "A detailed scan shows the rights and values of each property", "statement": "In a scan with details every row shows the read, write and announce right of its property, the manufacturer the node answered with, and for the properties that must be readable the answer of the node to a read request for exactly this property: its value as hex digits, or the text of the error; no other property is asked for. The letters of the rights determine the rights, and the digits can be given to the set command again.", "quantifier": "every set of found nodes, every answer of each node, every address filter", "why_tests_cant": "All answers of all nodes.", "anchors": ["net/echonet/cmd/controller.go: DiscoveredNodeTable", "net/echonet/cmd/func.go: hexStringToByte"]}
{"id": "C72", "title": "The light example is always on or off, and follows its requests", "statement": "Whatever messages the node of examples/uecholight receives and however often it is started and stopped, the operation status of the light is on or off. It changes only by an accepted write request to the light, to the value written; the write is answered with the new status and announced with one multicast while the node runs. A write request that is not confirmed has not switched the light.", "quantifier": "every sequence of calls and of received messages", "why_tests_cant": "Unbounded histories and arbitrary messages.", "anchors": ["examples/uecholight/light_node.go: NewLightNode", "net/echonet/local_node_message_handler.go: ProtocolMessageReceived", "net/echonet/property.go: SetData"]}
{"id": "C73", "title": "The standard version of a device reads back", "statement": "The version set with SetStandardVersion is the one StandardVersion returns.", "quantifier": "every device with the property and every version", "why_tests_cant": "All versions.", "anchors": ["net/echonet/device.go: SetStandardVersion, StandardVersion"]}
{"id": "C74", "title": "uechopost sends the request its arguments describe", "statement": "The program sends a request exactly when the destination node and object are known, the service is an ECHONET Lite service and the property arguments are well formed; the request is for that object, with that service and those properties. Properties given in the documented form (code, length, data) make a request with that data.", "quantifier": "every set of found nodes and every argument list", "why_tests_cant": "All argument lists.", "anchors": ["examples/uechopost/uechopost.go: main", "doc/examples.md: uechopost"]}
{"id": "C75", "title": "Manufacturers are shown by their registered names", "statement": "Every code of the manufacturer table is found with its name and no other code is found; a node answers a read request for its manufacturer code with the code last set, and a scan shows the name registered for it.", "quantifier": "every code, every history of the node, every callbacks that leave the node alone", "why_tests_cant": "All codes and histories.", "anchors": ["net/echonet/database.go: addManufacture, LookupManufacture", "net/echonet/database_manufacturers.go: initManufactures", "net/echonet/cmd/controller.go: DiscoveredNodeTable"]}
{"id": "C76", "title": "Requests handled at the same time behave as if they came one by one", "statement": "The transport hands every received message to a goroutine of its own. Whatever the order in which the goroutines run, whether a request is accepted does not depend on it, every value in a response was held by the device at some moment while the request was handled, a request that runs alone does what the sequential handler does, and the replies and the final values are those of handling the requests one after the other in some order.", "quantifier": "every node, application and number of requests, every interleaving of their steps", "why_tests_cant": "The interleavings of goroutines: unboundedly many, and a test sees one.", "anchors": ["net/echonet/local_node_message_handler.go: ProtocolMessageReceived, validateReceivedMessage, executeMessageListeners, createResponseMessageForRequestMessage", "net/echonet/transport/unicast_server.go: Start", "net/echonet/transport/multicast_server.go: Start"]}
{"id": "C77", "title": "Concurrent announcements leave a correct table of nodes", "statement": "Whatever the order in which the goroutines of received announcements run, none panics, every entry of the controller's table is a node that announced itself, as announced, and the listener has been told of it; no address is in the table twice; every node the listener was told of is in the table until Clear; Clear forgets the earlier nodes.", "quantifier": "every configuration, every sequence of messages and calls of Clear, every interleaving of their steps, every growth of Go's arrays", "why_tests_cant": "The interleavings of goroutines: unboundedly many, and a test sees one.", "anchors": ["net/echonet/controller_message_listener.go: OnMessage, parseNodeProfileMessage, addNode", "net/echonet/controller.go: Clear, Nodes"]}
{"id": "C78", "title": "Only an instance list of a node profile enters a node", "statement": "The node table of a controller changes only on the word of a node profile: neither what a device announces nor what a device answers to a request of the controller enters a node, so that the devices shown for a node are those the node itself reports.", "quantifier": "every controller, every pair of library-made nodes, every device property and its data, every received message", "why_tests_cant": "All messages and property data; the failing case needs a device property that shares its code with the instance list.", "anchors": ["net/echonet/controller_message_listener.go: OnMessage, parseNodeProfileMessage", "net/echonet/remote_node.go: newRemoteNodeWithInstanceListMessage"]}
{"id": "C79", "title": "A search shows exactly the network", "statement": "In a network of a controller and any number of nodes (of up to 84 devices of standard classes), whatever datagrams were lost, repeated or reordered and whoever announced, searched or changed values, the controller's table has every node at most once, only nodes of the network, and each with exactly its devices. After a search from which on no datagram is lost and once no datagram is on its way, the table has all of them; and the datagrams on their way always run out.", "quantifier": "every number of nodes, every history of each node, every sequence of searches, announcements, changes, clears, deliveries, losses, repetitions, in every order", "why_tests_cant": "The orders of delivery and the sizes of networks are unbounded.", "anchors": ["net/echonet/controller.go: SearchAllObjectsWithESV, Clear", "net/echonet/controller_message_listener.go: OnMessage, parseNodeProfileMessage, addNode", "net/echonet/local_node_message_handler.go: ProtocolMessageReceived", "net/echonet/local_node_msssage.go: Announce", "net/echonet/transport/udp_socket.go: SendMessage"]}
{"id": "C80", "title": "The listener of a controller follows the changes in the network", "statement": "Every change the listener of a controller is told was made, by that node, on that object and property, with that value. If no datagram is lost every announced change is told, if none is repeated exactly once, and the value last told for a property is the value last set.", "quantifier": "every number of nodes, every history of each node, every sequence of searches, announcements, changes, clears, deliveries, losses, repetitions, in every order", "why_tests_cant": "The orders of delivery and the sizes of networks are unbounded.", "anchors": ["net/echonet/property_map.go: SetPropertyData", "net/echonet/property.go: SetData", "net/echonet/local_node_msssage.go: AnnounceProperty", "net/echonet/controller_message_listener.go: OnMessage", "net/echonet/local_node_message_handler.go: ProtocolMessageReceived"]}
{"id": "C81", "title": "A device with a storing application is a memory", "statement": "A device whose application stores what it is asked to write behaves as a memory: after any sequence of messages, a read returns for every property what the last accepted write wrote, or what was there before; refused writes, messages for other objects and reads change nothing, no property appears, disappears or changes its size, and a write with response is confirmed with the values written.", "quantifier": "every node, every storing application, every sequence of received messages, every read and write", "why_tests_cant": "Sequences of messages are unbounded; acceptance depends on the node, the object, the attributes and the sizes.", "anchors": ["net/echonet/local_node_message_handler.go: ProtocolMessageReceived, validateReceivedMessage, executeMessageListeners, createResponseMessageForRequestMessage", "net/echonet/property_map.go: SetPropertyData, LookupProperty", "net/echonet/local_node_msssage.go: PostMessage"]}
{"id": "C82", "title": "A detailed scan shows what the devices hold", "statement": "In a network as above, after a search from which on no datagram is lost and once the network is quiet, a detailed scan lists every property of the standard class of every device of every node, at the address of the node; the data shown are those the device holds when its class makes reading mandatory and the device allows it (values of up to 255 bytes), and none when it refuses; the manufacturer is the one registered for the code in the node profile.", "quantifier": "every number of nodes, every history of each node, every order of delivery, every device and property, every value", "why_tests_cant": "Sizes of networks, histories, orders of delivery and values are unbounded.", "anchors": ["net/echonet/cmd/controller.go: DiscoveredNodeTable", "net/echonet/controller.go: SearchAllObjectsWithESV, Nodes", "net/echonet/local_node_msssage.go: PostMessage", "net/echonet/local_node_message_handler.go: ProtocolMessageReceived, createResponseMessageForRequestMessage"]}
{"id": "C83", "title": "Slices and objects do not share memory behind the application's back", "statement": "An object, a message or a byte slice of the application changes only by a call made to change it: the library copies the bytes it is given, so that the application may use its slice again, and a slice it handed out keeps its bytes when the library gets new ones. (An application that writes into its own slices only, does not keep the slice of Codes, does not add one property to two objects and does not change objects of the database.) The bytes returned by Data and Codes are the application's own, a property added to two objects is two properties, and the standard database cannot be changed.", "quantifier": "every sequence of calls on objects, devices, messages and slices", "why_tests_cant": "Aliasing shows only in sequences of calls of unbounded length and variety; a test sees the sharing it looks for.", "anchors": ["net/echonet/property.go: SetData, Data, Copy", "net/echonet/property_map.go: AddProperty, LookupPropertyData", "net/echonet/object.go: SetCode, SetCodes, Codes, Copy", "net/echonet/super_object.go: addStandardPropertiesWithCode, setPropertyMapProperty", "net/echonet/database.go: LookupObject", "net/echonet/protocol/property.go: SetData", "net/echonet/protocol/message_parser.go: parseFormat1PropertyBytes"]}
{"id": "C84", "title": "A received message is not changed by later datagrams", "statement": "A socket reads every datagram into the same buffer while earlier messages are still being handled; a message once decoded stays the decoding of its own datagram whatever arrives or is done later, until the application changes the message itself.", "quantifier": "every sequence of datagrams and calls before and after, every buffer size", "why_tests_cant": "The interleaving of receiving and handling is unbounded.", "anchors": ["net/echonet/transport/udp_socket.go: ReadMessage", "net/echonet/protocol/message.go: NewMessageWithBytes", "net/echonet/protocol/message_parser.go: ParseBytes", "net/echonet/protocol/property.go: SetData"]}
{"id": "C85", "title": "The life of a node", "statement": "Over any life of a node (starts, stops, restarts, calls, any answers of the operating system) no call panics; devices, profiles and values depend only on what the application called. A start or restart that succeeds leaves a node that runs, has a multicast server for every usable address and has sent exactly one announcement, with the devices added so far, under the next transaction number. A stop closes the sockets of the node, reports an error exactly when one of these closes fails, and the node is silent until the next start; transaction numbers go on across restarts. A start that reports an error leaves the node stopped and without open sockets, and a restart never leaves it stopped when a start would succeed.", "quantifier": "every sequence of starts, stops, restarts and calls, every outcome of every bind, close and send, every list of interfaces", "why_tests_cant": "Failures of the operating system at every point of every history cannot be provoked by tests.", "anchors": ["net/echonet/local_node.go: Start, Stop, Restart", "net/echonet/server.go: Start, Stop", "net/echonet/controller.go: Start, Stop", "net/echonet/transport/message_manager.go: Start, Stop, IsRunning", "net/echonet/local_node_msssage.go: Announce, AnnounceMessage"]}
{"id": "C86", "title": "What is written over the network is what is stored", "statement": "On a network whose nodes store the writes the library offers them, whatever is sent by whom, delivered, lost, repeated, reordered or injected: each property of each object of a node holds the value last written to it, where the writes are the settings by its own application and the accepted requests in the order of their arrival. So a value that was not there at first was set by the application of the node, or was sent to be written to this object of this node by a member, or came from outside; nothing else on the network changes it.", "quantifier": "every number of members, every initial network of library nodes with distinct addresses, every sequence of sends, deliveries, losses, repetitions, injections and settings", "why_tests_cant": "The orders in which datagrams of many members can reach each other cannot be enumerated.", "anchors": ["net/echonet/local_node_msssage.go: SendRequest, SendMessage", "net/echonet/local_node_message_handler.go: ProtocolMessageReceived", "net/echonet/property_map.go: SetPropertyData"]}
{"id": "C87", "title": "A response tells the truth about the requested object", "statement": "On such a network (with no datagrams from outside, and members that send only requests) a response of at most 1024 bytes to a read, a write, or a write-and-read is on its way to a member only if that member sent a matching request to that node and object before, under the same transaction number and for the same properties; and at one moment after that request was sent all values in the response were in the object together. If the request was a write to a node, they are the values it wrote.", "quantifier": "every network and history as in C86", "why_tests_cant": "Needs all interleavings of requests and responses of all members.", "anchors": ["net/echonet/local_node_msssage.go: SendRequest", "net/echonet/local_node_message_handler.go: ProtocolMessageReceived", "net/echonet/protocol/message.go: NewResponseMessageWithMessage"]}
{"id": "C88", "title": "Writes take effect in the order in which they are sent", "statement": "When the datagrams to a node are neither lost nor repeated and are handled in the order of sending, the writes executed on an object are a beginning of the acceptable write requests sent to it, in the order of sending; when nothing is on its way to the node any more, all were executed and each property holds the value sent last. When one request overtakes another, the value sent last need not be the one that stays, although both are confirmed.", "quantifier": "every network, object and history of sends and deliveries by any members", "why_tests_cant": "Order under all interleavings of senders cannot be sampled.", "anchors": ["net/echonet/local_node_msssage.go: SendRequest", "net/echonet/local_node_message_handler.go: ProtocolMessageReceived", "net/echonet/transport/unicast_server.go: handleUnicastUDPConnection, handleUnicastUDPRequestMessage"]}
{"id": "C89", "title": "Constructors do what their options say", "statement": "Of the options of a constructor the last one of each kind counts, and what is not given has its default, in every combination and order: for properties, messages (all given properties, in order), classes (a byte slice shorter than two is a panic), configurations, devices, local nodes and controllers. A device whose class is in the database has the properties of the classes given, and its manufacturer code is the one given last, unless the class of the node profile or the super class is given after it; a class that is not in the database is an error. A local node has the devices given in order, and every object of it the manufacturer code last given to the node, wherever it stands among the options, also in place of a code given to the device.", "quantifier": "every list of options, every object code, class of the database and configuration", "why_tests_cant": "The combinations and orders of options are unbounded.", "anchors": ["net/echonet/property.go: NewProperty", "net/echonet/message.go: NewMessage", "net/echonet/class.go: NewClass", "net/echonet/config.go: NewDefaultConfig", "net/echonet/device.go: NewDevice, WithDeviceCode, WithDeviceManufacturerCode", "net/echonet/local_node.go: newLocalNode", "net/echonet/controller.go: newController"]}
{"id": "C90", "title": "Objects and properties carry the names of the standard", "statement": "A device or profile made for a class of the database has the class name of the table and, for each of its properties, the name the table of the class has for the code, or, if it has none, the name of the super class; no name is empty, and two classes of the table never have the same name. After any calls the class name is the one given last and each property's name the one that came with its last addition; a property has a name exactly when it is in the object. That every name of the table is shown is false for the codes that a class names twice.", "quantifier": "every object code, every property code, every sequence of calls that change codes, properties or the class name", "why_tests_cant": "The table has about a thousand names, and the names depend on the whole history of the object.", "anchors": ["net/echonet/database_mra_objects.go: initObjects", "net/echonet/database.go: LookupObject", "net/echonet/super_object.go: addStandardProperties, SetCode", "net/echonet/object.go: ClassName, SetClassName", "net/echonet/property.go: Name"]}
{"id": "C91", "title": "The search programs print what the network holds", "statement": "After a search in which nothing is lost, uechosearch prints one line for each member of the network with its address and manufacturer, below it one for each of its objects with code and class name, below that one for each property that must be readable with its code, its standard name and the data the member holds at that moment, or -- when the member refuses the read. uechobench prints the same for all readable properties, as many times as asked for. With losses the lines for the nodes that were found are right as well. The programs change no member and not the table of nodes they are printing.", "quantifier": "every network of members with unique addresses, every run of searches, deliveries, duplications and reorderings, every number of rounds", "why_tests_cant": "The lines depend on the devices and values of every member and on the messages of the search.", "anchors": ["examples/uechosearch/uechosearch.go: main", "examples/uechobench/uechobench.go: main", "net/echonet/controller_message_listener.go: OnMessage", "net/echonet/local_node_msssage.go: PostMessage"]}
{"id": "C92", "title": "Addresses survive being written as text", "statement": "The text of an address, read again, is the same address and port, for nil, every IPv4 and every IPv6 address (IPv4 in its sixteen-byte form) and every port; so two addresses or IPs with the same text are the same. The text is dotted decimal for IPv4, also in sixteen bytes, and for IPv6 the one of RFC 5952: lower-case groups without leading zeros, the first of the longest runs of at least two zero groups shortened; only the nil address has the text <nil>, and bytes that are no address have a question mark and two digits for each. An IPv6 address with its last four bytes in dotted decimal is read as that address. Every text that is accepted gives nil or sixteen bytes and is stable under writing and reading. The source address of a message read from a TCP connection is the address of the peer, and a text whose host is not an IP address is refused: both are false.", "quantifier": "every IP of four or sixteen bytes, every int as port, every zone, every text", "why_tests_cant": "There are 2^128 addresses, with texts of many shapes; nodes are identified by these texts.", "anchors": ["net/echonet/protocol/address.go: ParseString, String, NewAddressWithString", "net/echonet/transport/tcp_socket.go: ReadMessage", "net/echonet/protocol/message.go: SourceAddress"]}
{"id": "C93", "title": "A controller knows its own messages", "statement": "With self messages disabled, a running controller ignores every message that it sent itself, through whichever of its servers, and passes the valid messages of all others, also of other programs on the same computer, to its listener. Both hold on the standard port without automatic port binding, for all addresses the transport reports, which after a start are all addresses of the usable interfaces (a socket reports interface, address and port of its last binding, nothing once closed); both are false with automatic port binding.", "quantifier": "every history of starts, stops, restarts, configuration changes, calls and malformed datagrams with every answer of the system; every message", "why_tests_cant": "Depends on several programs on one computer and on which binds fail; the tests run one node at a time on the standard port.", "anchors": ["net/echonet/controller_message_listener.go: isSelfMessage", "net/echonet/local_node.go: Address, Port", "net/echonet/transport/socket.go", "net/echonet/transport/message_manager.go: Addresses", "net/echonet/transport/multicast_socket.go: Bind", "net/echonet/transport/unicast_manager.go: Start"]}
{"id": "C94", "title": "A change is told by the node that holds the thing", "statement": "An application that puts each property into one object and each device into one node hears, for each write to a property of a device, exactly one announcement if the property is announceable and the node is a running local one, made by the node that lists the device, in the name of that device, with the value written, and the device answers with that value afterwards; changes of devices of no node and of devices of nodes found in the network are never announced, and no announcement is ever made in the name of an object the announcing node does not list. In every program the object of a property changes only by adding the property to an object and the node of an object only by adding the object to a node or by SetParentNode. For a device added to two nodes, a property replaced by a later SetCode and a property renamed after adding, the first sentence is false.", "quantifier": "every program of calls that make properties, devices and nodes, add them to each other, rename, write, start and stop, with any sharing of pointers", "why_tests_cant": "Depends on the order of calls and on which pointers are shared; the tests use one device in one node and look at no announcements.", "anchors": ["net/echonet/property.go: SetObject, Node, SetData, Announce, SetCode", "net/echonet/property_map.go: AddProperty, SetObject", "net/echonet/object.go: SetParentNode, Node", "net/echonet/super_object.go: AddProperty, SetCode", "net/echonet/local_node.go: AddDevice, AddProfile, Start", "net/echonet/remote_node.go: AddDevice", "net/echonet/local_node_msssage.go: AnnounceProperty"]}
{"id": "C95", "title": "Requests and value writes never stop the program by a concurrent map access", "statement": "The maps of properties have no lock, and a Go program is stopped for good when one goroutine reads or writes a map while another writes it. However many goroutines handle requests, read and write values, list properties, add ready devices, set manufacturer codes, announce and register found nodes, and however they interleave, this never happens, as long as properties are added and codes are set only on objects the goroutine has made itself and not yet handed over. The condition cannot be dropped: if a goroutine adds a property to a device of a running node, or sets a code with standard properties, any other goroutine that looks at the device at all can stop the program, so any request to it.", "quantifier": "all numbers of goroutines, all lists of calls of each, all interleavings of the single accesses", "why_tests_cant": "A test runs one interleaving, and the crash needs a request within the few instructions of a map write.", "anchors": ["net/echonet/property_map.go: AddProperty, Properties, LookupProperty", "net/echonet/super_object.go: AddProperty, SetCode, updatePropertyMap", "net/echonet/database.go: LookupObject", "net/echonet/local_node.go: AddDevice, SetManufacturerCode", "net/echonet/local_node_message_handler.go: ProtocolMessageReceived", "net/echonet/controller_message_listener.go: addNode", "net/echonet/transport/unicast_server.go: handleUnicastUDPConnection"]}
{"id": "C96", "title": "uechopost shows the request and the answer", "statement": "After a search the program sends the request of its arguments to the device and prints a line for the request and a line for the answer. For a request the device serves, the second line has the address of the node, the object, the response service and, for every property of the request, its code and the value the device holds after the request; for a refused request it has the error service; for a service without answer there is only the first line. A line determines the address, the object, the service and all properties with their data, and the words of a printed request can be given as arguments to make the same request again.", "quantifier": "all networks of running library nodes with different addresses, all node histories and applications whose handlers do not fail, all arguments whose request and response fit 1024 bytes", "why_tests_cant": "The text is built by formatting verbs for every service, code and value; a test compares a few lines.", "anchors": ["examples/uechopost/uechopost.go: outputTransportMessage, outputRequestMessage, outputResponseMessage, main", "net/echonet/local_node_msssage.go: PostMessage, SendMessage", "net/echonet/controller.go: LookupNode", "net/echonet/local_node_message_handler.go: ProtocolMessageReceived"]}
{"id": "C97", "title": "A printed table can be read back", "statement": "The text of a table has a line for the names and a line for every row, and every column starts in all lines at the same place, one blank after the longest of its cells. Whoever cuts the lines where the names of the columns start gets all cells back, up to blanks at the end of a cell; tables without such blanks are determined by their text. This is so for the table of every response the get command prints, which determines the received message but for its source, and for the table of every scan, where the cells left blank are those of the row above; all names of classes and properties, all addresses and all names of manufacturers but one are cells without blanks at the end.", "quantifier": "all tables of printable ASCII cells with rows as long as the header; all received messages; all controllers and answers", "why_tests_cant": "The width of a column depends on all cells of all rows; tests look at one table at most.", "anchors": ["net/echonet/cmd/table.go: Output", "net/echonet/cmd/get.go: getCmd", "net/echonet/cmd/scan.go: scanCmd", "net/echonet/cmd/controller.go: DiscoveredNodeTable", "net/echonet/database_manufacturers.go: newManufacture"]}
{"id": "C98", "title": "The JSON output is JSON and says what the table says", "statement": "The JSON output of a table is accepted by a reader of JSON, which finds one array with one object for every row, in the order of the rows; the object has exactly the names of the columns as keys, in the order of their texts, each with the cell of the row as its value. The text determines the rows. This is so for the response the get command prints, whose text determines the received message but for its source, and for every scan; all names of the library are fit for it.", "quantifier": "all tables with distinct column names, rows as long as the header and cells that are valid UTF-8 of any characters; all received messages; all controllers and answers", "why_tests_cant": "Quotes, backslashes, control characters and characters of several bytes have to be written so that they are read back; no test looks at the JSON text.", "anchors": ["net/echonet/cmd/table.go: OutputJSON", "net/echonet/cmd/get.go: getCmd", "net/echonet/cmd/scan.go: scanCmd", "net/echonet/cmd/controller.go: DiscoveredNodeTable"]}
{"id": "C99", "title": "A listener is told how a message came", "statement": "A message a listener is told of says truly whether it came by multicast, by UDP or over a TCP connection, and from which address. In every history of a network every message the listener of the controller is told of by multicast was multicast before by its source, and every one told of by UDP was sent to the controller's address. A response of PostMessage by UDP and a copy of a message say so as well; the response of a PostMessage over TCP says nothing of it.", "quantifier": "all datagrams and connections, applications and node states; all histories of a network", "why_tests_cant": "The packet type is set in three servers and read through bit masks in which unicast is the union of two; no test looks at it.", "anchors": ["net/echonet/protocol/message.go: IsPacketType, IsMulticastPacket, IsUnicastPacket, IsTCPUnicastPacket, IsUDPUnicastPacket, SetPacketType", "net/echonet/transport/multicast_server.go: handleMulticastConnection", "net/echonet/transport/unicast_server.go: handleUnicastUDPConnection", "net/echonet/local_node_msssage.go: PostMessage", "net/echonet/controller_message_listener.go: OnMessage"]}
{"id": "C100", "title": "The texts of messages and nodes tell them apart", "statement": "The text of a message, which the log and the errors show, is its frame in hexadecimal digits: of a message built within the limits of the format and of every received one. The library reads the text back to the frame and the frame to the fields of the message. Two received messages have the same text exactly if Equals holds and exactly if all their fields are the same; none has the empty text of a nil message. Two nodes have the same text exactly if they are equal, that is, at the same address and port.", "quantifier": "all built messages within the limits, all received messages, all addresses and ports", "why_tests_cant": "A lost leading zero or a missing bracket makes two messages or nodes look alike for some values only.", "anchors": ["net/echonet/protocol/message.go: String, Equals", "net/echonet/node.go: nodeEquals", "net/echonet/local_node.go: String, Equals", "net/echonet/remote_node.go: String, Equals"]}
{"id": "C101", "title": "A stopped server hears nothing new", "statement": "Every message a server reads is handed to the message handler exactly once. Once a server is stopped it reads at most one datagram more and accepts at most one connection more, those whose read or accept was in progress, and hands over only what was in flight, held or still to come over open connections. A connection is read for one message, answered at most once and closed once. Left alone, the goroutines of a stopped server take a fixed number of steps and end. After Stop the handler is not called any more, no connection stays open and answers come from the port of the node.", "quantifier": "all interleavings of the goroutines of any number of servers started and stopped, all datagrams, connections and answers", "why_tests_cant": "What is in progress when Stop is called depends on the scheduler and on what arrives in that moment.", "anchors": ["net/echonet/transport/unicast_server.go: Start, Stop, handleUnicastUDPConnection, handleUnicastTCPListener, handleUnicastTCPConnection, handleUnicastUDPRequestMessage", "net/echonet/transport/multicast_server.go: Start, Stop, handleMulticastConnection, handleMulticastRequestMessage", "net/echonet/transport/udp_socket.go: Close, ReadMessage, SendBytes", "net/echonet/transport/tcp_socket.go: Close, ReadMessage"]}
{"id": "C102", "title": "A request ends in time", "statement": "A call of PostMessage takes at most the times of its dials, twice the connection timeout for each server in the first attempt and once in the second, and the request timeout. Without TCP it takes the time until the response, at most the request timeout; a call answered over TCP by the first server takes the time of that exchange. Callers that queue for the lock are all done when it was held for each of them after the last came. A call ends at the deadline of its context or, at the latest, after the request timeout.", "quantifier": "all times of dials, writes, reads and responses, all numbers of servers and timeouts, all messages and nodes", "why_tests_cant": "The worst case needs a peer that accepts connections and stays silent on every interface; tests run against a peer that answers.", "anchors": ["net/echonet/local_node_msssage.go: PostMessage, postMessageSynchronously", "net/echonet/transport/unicast_manager.go: PostMessage, SendMessage", "net/echonet/transport/unicast_server.go: SendMessage", "net/echonet/transport/tcp_socket.go: PostMessage, dialAndWriteBytes"]}
{"id": "C103", "title": "The listings of the standard database are complete", "statement": "In whatever order the maps are ranged over, Objects lists exactly one object for each class of the standard tables, with exactly the properties the tables give it, and Manufactures each manufacturer once with its name. LookupObject finds for the code of any instance the listed object of its class and nothing else, LookupManufacture exactly the listed names; SuperObject and NodeProfile are never nil.", "quantifier": "all orders of the maps, all codes", "why_tests_cant": "A class registered twice or under a wrong group silently replaces another one; the tables have thousands of lines and the order of a map changes from run to run.", "anchors": ["net/echonet/database.go: Manufactures, Objects, LookupManufacture, LookupObject, SuperObject, NodeProfile, addObject, addManufacture", "net/echonet/database_mra_objects.go: initObjects", "net/echonet/database_manufacturers.go: initManufactures"]}
{"id": "C104", "title": "A line of the log tells what was exchanged", "statement": "Two lines that the transport layer writes for messages are equal only if transport type, direction, sender, receiver, size and frame are equal. For every conforming frame the line of the sender and the line of the receiver show the same hex text, which is the frame, and its length; a datagram that cannot be read is shown as it came; the line of a socket that is not bound can be told from all others. A line marked UM is about multicast and a line marked UU about unicast; the line of a received message shows the datagram.", "quantifier": "all messages, addresses, sizes and sockets", "why_tests_cant": "A log is read when something went wrong between two machines; fields that run into each other or a frame that is not the one on the wire show only for particular addresses and bytes.", "anchors": ["net/echonet/transport/logger.go: outputSocketLog", "net/echonet/transport/socket.go: IPAddr", "net/echonet/transport/udp_socket.go: outputReadLog, outputWriteLog, SendBytes, AnnounceMessage, ReadMessage", "net/echonet/transport/tcp_socket.go: outputReadLog, outputWriteLog, ReadMessage, writeBytesToConnection", "net/echonet/transport/unicast_server.go: handleUnicastUDPRequestMessage", "net/echonet/transport/multicast_server.go: handleMulticastRequestMessage", "net/echonet/protocol/message.go: String, Size"]}
{"id": "C105", "title": "The node profile identifies the node", "statement": "SetVersion and SetID store exactly one property and leave all others alone; the manufacturer code can be read back from the identification number, and equal numbers mean equal manufacturer codes. The version information holds the major and the minor version in four bytes, the identification number the byte 0xFE, the manufacturer code and thirteen further bytes, as the size constants of node_profile.go say, and the numbers of two nodes differ.", "quantifier": "all node profiles, versions and manufacturer codes", "why_tests_cant": "The library never calls the two functions and no test reads what they store; that two nodes share a number shows only when they meet.", "anchors": ["net/echonet/node_profile.go: SetVersion, SetID, NodeProfileClassVersionInformationSize, NodeProfileClassIdentificationNumberSize, LowerCommunicationLayerProtocolType", "net/echonet/property_map.go: SetPropertyData"]}
{"id": "C106", "title": "Attributes, comparison and values of properties are consistent", "statement": "The tests of the attributes say what the attributes are: a required access is possible, read-only and write-only exclude each other and agree with the services that a property accepts. Equals holds exactly for the same code and data, and a copy is equal only without data. A map holds as many properties as different codes were added. The byte, string and integer of a property are the same before and after conversion to a protocol property, and an integer of up to eight bytes is the number they spell. A request for any list of codes puts exactly these codes, in order and without data, on the wire.", "quantifier": "all properties, attributes, data, lists of codes", "why_tests_cant": "There are 27 combinations of attributes, and data of any length; the tests of the library look at one or two of each.", "anchors": ["net/echonet/property.go: IsReadOnly, IsWriteOnly, IsReadRequired, IsWriteRequired, IsAnnounceRequired, Equals, Copy, ToProtocol, AsByte, AsString, AsInteger", "net/echonet/property_map.go: PropertyCount, AddProperty", "net/echonet/protocol/property.go: NewPropertiesWithCodes, AsByte, AsString, AsInteger", "net/echonet/profile.go: IsNodeProfile", "net/echonet/transport/unicast_config.go: SetBindRetryEnabled, BindRetryEnabled"]}
{"id": "C107", "title": "Nodes and objects that are not shared behave as values", "statement": "When a program puts every property it makes into one object and every device into one node, then after any sequence of calls (new devices and nodes, writes, added properties, changed codes, added devices, manufacturer codes, starts and stops) every object reached by pointers has the code and the properties, and every node the state, the lists and the announcements, that the same calls give when objects and nodes are plain values. No such call panics if its arguments are in range. A call changes no object but the one it names, or the objects of the node it names.", "quantifier": "all sequences of calls, objects, nodes and property codes", "why_tests_cant": "The library links properties, objects and nodes by pointers in both directions; that no chain of calls lets one object show the data of another is a statement about all heaps.", "anchors": ["net/echonet/super_object.go: AddProperty, SetCode, updatePropertyMap", "net/echonet/property.go: SetObject, SetData, announce", "net/echonet/property_map.go: AddProperty, SetPropertyData, LookupProperty", "net/echonet/local_node.go: AddDevice, AddProfile, SetManufacturerCode, updateNodeProfile, Start, Stop", "net/echonet/device.go: NewDeviceWithCode", "net/echonet/object.go: SetParentNode"]}
{"id": "C108", "title": "A node speaks the IP versions of its interfaces", "statement": "An interface is an IPv4 (IPv6) interface exactly when the system lists an IPv4 (IPv6) address for it. A node that runs serves the addresses of both versions of its usable interfaces, and announces to the multicast group of the version of the address, which is the group that the server of this address listens to. An announcement by the multicast servers leaves from each of them that can send and reports an error exactly when one cannot.", "quantifier": "all lists of interfaces and addresses, all histories of starts and stops, all answers of the system", "why_tests_cant": "Tests run on the interfaces of one machine; which versions are used on others depends on how five functions fit together.", "anchors": ["net/echonet/transport/interface.go: IsIPv6Interface, IsIPv4Interface, GetInterfaceAddresses", "net/echonet/transport/multicast_socket.go: Bind", "net/echonet/transport/udp_socket.go: AnnounceMessage", "net/echonet/transport/multicast_manager.go: AnnounceMessage, Start", "net/echonet/transport/unicast_manager.go: Start"]}
{"id": "C109", "title": "Errors tell what went wrong", "statement": "An error of the library is found by errors.Is as exactly one of the error variables of the package, the one for its reason: no data for an empty value, not found for a property or object that is not there, invalid for data that cannot be read, timeout for a request without answer. Its text has the code of the property or object, the size of the data, the bytes of the property map, the bytes of the request, or the length or header byte of the datagram that were not as expected, from which these can be told.", "quantifier": "all property maps and nodes, all codes, all data, all datagrams, all streams that end within a property, all requests", "why_tests_cant": "Tests of the repository check that there is an error, not which one or its text, and each only for a few inputs.", "anchors": ["net/echonet/errors.go", "net/echonet/protocol/errors.go", "net/echonet/transport/errors.go", "net/echonet/property.go: AsByte, AsInteger, PropertyMapData", "net/echonet/property_map.go", "net/echonet/base_node.go: LookupObject", "net/echonet/device.go: WithDeviceCode, StandardVersion", "net/echonet/object_code.go: NewObjectCodeFromBytes", "net/echonet/protocol/message_parser.go", "net/echonet/protocol/message_parser_reader.go", "net/echonet/local_node_msssage.go: PostMessage"]}
{"id": "C110", "title": "Requests for one object do not touch another", "statement": "For a node whose application keeps its objects apart, the messages for one object have no effect on another: what the callbacks of an object are called with and report, what it answers and what it holds in the end are the same when the messages for all other objects are left out, and the same on any other node that has this object in common. An object for which no message came is unchanged, a message for an object that is not there gets the same answer whatever the objects hold, and without a listener of the node nothing depends on who asks.", "quantifier": "all nodes, all applications that keep their objects apart, all sequences of messages for any objects, with any requests pending", "why_tests_cant": "Noninterference relates two runs of the node; a test sees one run for a few messages and cannot tell that a value of another object has no influence.", "anchors": ["net/echonet/local_node_message_handler.go", "net/echonet/base_node.go: LookupObject", "net/echonet/object.go: notifyPropertyRequest", "net/echonet/property_map.go: SetPropertyData"]}
{"id": "C111", "title": "A search lasts as long as its context and finds what answers in that time", "statement": "Search of a running controller sends one read request for the instance lists to all nodes, also when the context is already done, and returns nil not before the first of the deadline of the context (three seconds if it has none) and its cancellation, and less than one sleep of 200 ms after it; if that moment is over when the message is out, at once. It is not shorter because all nodes have answered. If the message cannot be sent it returns the error at once. When it returns, the controller knows every node whose announcement, of classes it can describe, came before that moment, and no node but those it knew before and those announced before the return.", "quantifier": "all controllers, contexts with or without deadline and cancellation, times of sending, delays of the scheduler, sequences of arriving messages", "why_tests_cant": "Depends on real time and on the moments at which messages come in; a test waits for one context with one set of answering nodes.", "anchors": ["net/echonet/controller.go: Search", "net/echonet/controller.go: SearchAllObjects", "net/echonet/controller_message_listener.go: OnMessage"]}
{"id": "C112", "title": "A command of uechoctl checks, starts, searches, asks, prints and stops, and succeeds exactly if all of it did", "statement": "get, set and scan refuse missing arguments, arguments that are not hexadecimal and unknown formats before anything is started, sent or printed. Otherwise they start a controller, search, make at most one exchange with the node found under the given address, asking exactly for what the arguments say, print the response or the table (not set), and stop, each at most once and in this order. They report success exactly if every step succeeded; they print exactly if all steps before succeeded, and no response makes them crash. A command that has ended has stopped its controller, and success means that the device did what was asked.", "quantifier": "all arguments, formats, results of every call of the controller, found nodes and received responses", "why_tests_cant": "The commands need a network and devices; a test can run one command against one device and not all combinations of failing steps.", "anchors": ["net/echonet/cmd/get.go: getCmd", "net/echonet/cmd/set.go: setCmd", "net/echonet/cmd/scan.go: scanCmd", "net/echonet/cmd/controller.go: DiscoverNodes", "net/echonet/cmd/format.go: NewFormatFromString", "net/echonet/controller.go: LookupNode"]}
{"id": "C113", "title": "get prints the value the device holds", "statement": "After a search in which nothing is lost, uechoctl get with the address of a node, one of its objects and a property of the object asks this node and no other, once. If the object lets the property be read, it prints in every format one row with the object, the property, the length and exactly the bytes the object holds, and reports success; if not, it prints the refusal. For an address without a node nothing is asked or printed and get reports that nothing was found. Every node the scan lists can be asked this way.", "quantifier": "all networks, schedules before and after the search, devices, values, objects, properties, spellings of the arguments and formats", "why_tests_cant": "It takes a controller, a network and devices at once; a test fixes one device, one value and one order of the datagrams.", "anchors": ["net/echonet/cmd/get.go: getCmd", "net/echonet/cmd/message_formatter.go: Rows", "net/echonet/controller.go: LookupNode", "net/echonet/local_node_msssage.go: PostMessage", "net/echonet/local_node_message_handler.go: ProtocolMessageReceived"]}
