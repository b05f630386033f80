{"id": "C01", "title": "Parsing any datagram is memory-safe and terminates", "statement": "uecho_message_parse and uecho_message_parsepacket given any byte buffer (any length, any contents, into a fresh or reused message) always return true or false without reading outside the buffer and without any other undefined behaviour.", "quantifier": "every byte sequence, every prior state of the message object", "why_tests_cant": "the set of datagrams is infinite and adversarial; tests try a handful of frames", "anchors": ["src/uecho/message.c:uecho_message_parse", "src/uecho/message.c:uecho_message_property_parse", "src/uecho/message.c:uecho_message_parsepacket"]}
{"id": "C02", "title": "Parser accepts exactly well-formed ECHONET Lite format-1 frames", "statement": "uecho_message_parse returns true if and only if the buffer starts with a complete ECHONET Lite frame (EHD 10 81, TID, SEOJ, DEOJ, ESV, OPC and the announced property list, with the OPCSet/OPCGet layout for ESV 6E/7E/5E), and then every getter returns the field of that frame.", "quantifier": "every byte sequence", "why_tests_cant": "both directions of an iff over all buffers", "anchors": ["src/uecho/message.c:uecho_message_parse", "src/uecho/message.c:uecho_message_isreadwritemessage"]}
{"id": "C03", "title": "Encode/parse round trip", "statement": "Parsing the bytes of a message yields a message with the same TID, EOJs, ESV and properties (codes and data, in order); it holds for every message whose property data fit the one-byte PDC, and the claim for arbitrary data lengths is examined separately.", "quantifier": "every message built through the API, every property count 0..255, every data length", "why_tests_cant": "all combinations of property counts, lengths and contents", "anchors": ["src/uecho/message.c:uecho_message_getbytes", "src/uecho/message.c:uecho_message_size", "src/uecho/message.c:uecho_message_parse"]}
{"id": "C04", "title": "Parse/encode round trip", "statement": "If a buffer is accepted, re-encoding the parsed message yields exactly the accepted frame, i.e. the buffer without bytes after the last property.", "quantifier": "every accepted byte sequence", "why_tests_cant": "infinite input space", "anchors": ["src/uecho/message.c:uecho_message_parse", "src/uecho/message.c:uecho_message_getbytes"]}
{"id": "C05", "title": "Serialised size is exact", "statement": "uecho_message_getbytes writes exactly uecho_message_size bytes: no write outside the buffer, no byte left uninitialised.", "quantifier": "every message built through the API, including data longer than 255 bytes", "why_tests_cant": "buffer overruns depend on the sum of all property sizes", "anchors": ["src/uecho/message.c:uecho_message_getbytes", "src/uecho/message.c:uecho_message_size", "src/uecho/message.c:uecho_message_setopcbytes"]}
{"id": "C06", "title": "TID survives set/get and the wire", "statement": "uecho_message_gettid returns the value given to uecho_message_settid for every TID 0..65535 on hosts of either byte order, larger values are reduced into range, and the two TID bytes on the wire are the same number in network byte order.", "quantifier": "every unsigned 32-bit value, both host byte orders", "why_tests_cant": "a test runs on one host byte order and a few values", "anchors": ["src/uecho/message.c:uecho_message_settid", "src/uecho/message.c:uecho_message_gettid"]}
{"id": "C07", "title": "Outgoing TIDs are in range and do not repeat early", "statement": "Successive messages sent or announced by one node carry TIDs in 1..65535, and any 65535 consecutive ones are pairwise distinct.", "quantifier": "every history of sends, of any length; also when two threads send concurrently", "why_tests_cant": "needs more than 65535 sends and every interleaving", "anchors": ["src/uecho/node.c:uecho_node_getnexttid", "src/uecho/node.c:uecho_node_sendmessage", "src/uecho/node.c:uecho_node_announcemessage"]}
{"id": "C08", "title": "Object codes survive set/get", "statement": "Setting a source, destination or object code 0..0xFFFFFF and reading it back returns the same code; its three bytes are group, class, instance; setting one of them leaves the other two unchanged.", "quantifier": "every int code", "why_tests_cant": "2^32 inputs", "anchors": ["src/uecho/message.c:uecho_message_setsourceobjectcode", "src/uecho/message.c:uecho_message_setdestinationobjectcode", "src/uecho/object.c:uecho_object_setcode", "src/uecho/object.c:uecho_object_getcode", "src/uecho/object.c:uecho_object_setgroupcode"]}
{"id": "C09", "title": "Integer property data round trip without undefined behaviour", "statement": "uecho_property_setintegerdata followed by uecho_property_getintegerdata returns the integer for every int that fits the given size, and getintegerdata is defined for whatever data the property holds (data may come from the network).", "quantifier": "every int, every size, every stored byte string", "why_tests_cant": "shift widths and signed overflow depend on unbounded sizes and byte values", "anchors": ["src/uecho/misc.c:uecho_integer2byte", "src/uecho/misc.c:uecho_byte2integer", "src/uecho/property.c:uecho_property_setintegerdata", "src/uecho/property.c:uecho_property_getintegerdata"]}
{"id": "C10", "title": "ESV classification is complete and consistent", "statement": "Each ESV is a request, a response or neither, never both; each request needing an answer has exactly the response and error-response codes of the ECHONET Lite specification (60→50, 61→71/51, 62→72/52, 63→73/53, 6E→7E/5E, 74→7A), and every such response or error code is classified as a response.", "quantifier": "all 256 ESV values", "why_tests_cant": "exhaustive over the code space and against the specification, not against the code's own table", "anchors": ["src/uecho/esv.c:uecho_esv_isrequest", "src/uecho/esv.c:uecho_esv_isresponse", "src/uecho/esv.c:uecho_esv_iswriteresponse", "src/uecho/message.c:uecho_message_requestesv2responseesv", "src/uecho/message.c:uecho_message_requestesv2errorresponseesv"]}
{"id": "C11", "title": "Message copy is faithful", "statement": "uecho_message_copy and uecho_message_set yield a message equal to the original: same TID, EOJs, ESV, all property lists, addresses and wire bytes.", "quantifier": "every message including write-read messages", "why_tests_cant": "all contents and ESVs", "anchors": ["src/uecho/message.c:uecho_message_set", "src/uecho/message.c:uecho_message_copy"]}
{"id": "C12", "title": "Message equality means equal wire contents", "statement": "uecho_message_equals is an equivalence relation and holds exactly when the two messages serialise to the same bytes.", "quantifier": "every pair and triple of messages", "why_tests_cant": "quantifies over all pairs", "anchors": ["src/uecho/message.c:uecho_message_equals"]}
{"id": "C13", "title": "Adding properties to a message", "statement": "After adding n properties to a message, uecho_message_getpropertycount is n, uecho_message_getproperty(i) is the i-th added property for i<n and NULL for every i>=n; no number of additions corrupts memory.", "quantifier": "every n and every index", "why_tests_cant": "the 256th addition and out-of-range indices", "anchors": ["src/uecho/message.c:uecho_message_addproperty", "src/uecho/message.c:uecho_message_getproperty", "src/uecho/message.c:uecho_message_setopc"]}
{"id": "C14", "title": "Setting a message property by code", "statement": "uecho_message_setproperty makes getpropertybycode return exactly the given data for that code, keeps one entry per code and leaves every other property and their order unchanged.", "quantifier": "every sequence of setproperty calls within the 255-property limit", "why_tests_cant": "all histories", "anchors": ["src/uecho/message.c:uecho_message_setproperty", "src/uecho/message.c:uecho_message_getpropertybycode"]}
{"id": "C15", "title": "An object's properties behave as a finite map", "statement": "Through any sequence of uecho_object_setproperty / setpropertydata / setpropertyattribute / addproperty, each code occurs at most once, the latest data and attribute written to a code are the ones read back, and operations on one code leave every other code except the property maps unchanged.", "quantifier": "every operation sequence", "why_tests_cant": "all histories", "anchors": ["src/uecho/object.c:uecho_object_setproperty", "src/uecho/object.c:uecho_object_setpropertydata", "src/uecho/object.c:uecho_object_getpropertydata", "src/uecho/property_list.c:uecho_propertylist_set", "src/uecho/property_list.c:uecho_propertylist_getbycode"]}
{"id": "C16", "title": "Reading a property does not change the object", "statement": "uecho_object_getproperty, hasproperty and the getproperty*data getters leave the set of properties, their data and attributes unchanged.", "quantifier": "every object and code", "why_tests_cant": "must hold for codes the object does not have as well", "anchors": ["src/uecho/object.c:uecho_object_getproperty", "src/uecho/object.c:uecho_object_getpropertydata", "src/uecho/object.c:uecho_object_getpropertydatasize", "src/uecho/property_list.c:uecho_propertylist_getbycode", "src/uecho/property_list.c:uecho_propertylist_getdatasize"]}
{"id": "C17", "title": "Attribute predicates", "statement": "isreadable, iswritable, isannounceable, their required variants, isreadonly and iswriteonly answer according to the attribute bits: required implies allowed, readonly means readable and not writable, writeonly means writable and not readable.", "quantifier": "every attribute value", "why_tests_cant": "all bit combinations", "anchors": ["src/uecho/property.c:uecho_property_isreadable", "src/uecho/property.c:uecho_property_iswritable", "src/uecho/property.c:uecho_property_isannounceable", "src/uecho/property.c:uecho_property_isreadonly"]}
{"id": "C18", "title": "Property map encode/decode round trip", "statement": "The property map built for any set of codes 0x80..0xFF decodes with uecho_property_getpropertymapcodes to that set, in list format up to 15 codes and in bitmap format above.", "quantifier": "every duplicate-free list of property codes", "why_tests_cant": "2^128 sets", "anchors": ["src/uecho/object.c:uecho_object_setpropertymap", "src/uecho/object.c:uecho_propertymap_codetoformat2", "src/uecho/property.c:uecho_property_getpropertymapcodes", "src/uecho/property.c:uecho_propertymap_format2bittocode"]}
{"id": "C19", "title": "Decoding an arbitrary property map is safe", "statement": "uecho_property_getpropertymapcodes on any received map data never reads outside the data nor writes outside the caller's buffer, and when it returns true every slot of the buffer holds a code present in the map.", "quantifier": "every map property content and buffer size", "why_tests_cant": "adversarial data", "anchors": ["src/uecho/property.c:uecho_property_getpropertymapcodes", "src/uecho/property.c:uecho_property_getpropertymapcount"]}
{"id": "C20", "title": "Property maps track the properties", "statement": "After every uecho_object_setproperty the Get, Set and Announce property maps of the object list exactly the readable, writable and announceable properties, with no undefined behaviour.", "quantifier": "every history of property additions, attribute changes and clears", "why_tests_cant": "depends on the whole history of the object", "anchors": ["src/uecho/std/object_super_class.c:uecho_object_updatepropertymaps", "src/uecho/std/object_super_class.c:uecho_object_clearpropertymapcaches", "src/uecho/object.c:uecho_object_setproperty", "src/uecho/object.c:uecho_object_clearproperties"]}
{"id": "C21", "title": "Objects of a node are unique by code", "statement": "uecho_node_addobject refuses a duplicate object code; getobjectbycode returns the object added with that code; no sequence of additions yields two objects with one code.", "quantifier": "every sequence of setobject/addobject calls", "why_tests_cant": "all histories", "anchors": ["src/uecho/node.c:uecho_node_addobject", "src/uecho/node.c:uecho_node_setobject", "src/uecho/node.c:uecho_node_getobjectbycode"]}
{"id": "C22", "title": "Node profile reflects the node's objects", "statement": "After every uecho_node_addobject/setobject the node profile's instance count (D3), instance lists (D5, D6) and class list (D7) describe exactly the node's non-profile objects and classes (up to the 255-entry limit), and the class count (D4) is the number of its classes including the profile class.", "quantifier": "every sequence of object additions to a new node", "why_tests_cant": "all histories and object counts", "anchors": ["src/uecho/node.c:uecho_node_addobject", "src/uecho/node.c:uecho_node_updatenodeprofileclass", "src/uecho/std/node_profile_class.c:uecho_nodeprofile_updateinstanceproperties", "src/uecho/std/node_profile_class.c:uecho_nodeprofile_setinstancelist", "src/uecho/std/node_profile_class.c:uecho_nodeprofile_setclasslist"]}
{"id": "C23", "title": "Node announcement is a valid instance list notification", "statement": "uecho_node_announce (also run by uecho_node_start) multicasts one INF (0x73) frame from the node profile to the node profile whose only property is D5 with the current instance list, and the frame is well formed.", "quantifier": "every node, any number of objects", "why_tests_cant": "depends on the number of instances", "anchors": ["src/uecho/node.c:uecho_node_announce", "src/uecho/node.c:uecho_node_start", "src/uecho/node.c:uecho_node_announceproperty"]}
{"id": "C24", "title": "At most one answer, to the right place", "statement": "For each received message a device sends at most one response: nothing for non-request ESVs or unknown destination objects; otherwise to the sender's address, or to the multicast group for a successful 0x63; with the request's TID, swapped EOJs and the request's property codes in order.", "quantifier": "every received message and every node state", "why_tests_cant": "all inputs and states", "anchors": ["src/uecho/node_listener.c:uecho_node_servermessagelistener", "src/uecho/node_listener.c:uecho_node_handlerequestmessage"]}
{"id": "C25", "title": "Messages that are not requests to an existing object change nothing", "statement": "A received message whose ESV is not a request, or whose destination object the node does not have, leaves every property of the node unchanged and sends nothing.", "quantifier": "every message and node state", "why_tests_cant": "frame condition over the whole state", "anchors": ["src/uecho/node_listener.c:uecho_node_servermessagelistener"]}
{"id": "C26", "title": "Accepted writes take effect and are acknowledged", "statement": "A SetC (0x61) whose properties all exist and are accepted stores exactly the requested data in each of them and is answered 0x71 with empty data; SetI (0x60) the same with no answer.", "quantifier": "every request with any number of properties", "why_tests_cant": "all property counts; tests use one property", "anchors": ["src/uecho/node_listener.c:uecho_node_servermessagelistener", "src/uecho/node_listener.c:uecho_node_handlerequestmessage"]}
{"id": "C27", "title": "Reads return the current values", "statement": "A Get (0x62) whose properties all exist and are accepted is answered 0x72 with the current data of each property, and changes nothing.", "quantifier": "every request with any number of properties", "why_tests_cant": "all property counts and contents", "anchors": ["src/uecho/node_listener.c:uecho_node_servermessagelistener", "src/uecho/node_listener.c:uecho_node_handlerequestmessage"]}
{"id": "C28", "title": "Rejected requests are answered with the service's error code and have no effect", "statement": "If a requested property is missing or a handler refuses, that property is not modified and the answer is the error ESV of the service (50, 51, 52, 53, 5E).", "quantifier": "every request, every handler decision", "why_tests_cant": "handler decisions are arbitrary functions", "anchors": ["src/uecho/node_listener.c:uecho_object_notifyrequestproperty", "src/uecho/node_listener.c:uecho_node_servermessagelistener"]}
{"id": "C29", "title": "Access rules are enforced", "statement": "A write request to a property that is not writable and a read request of a property that is not readable are refused.", "quantifier": "every property attribute and request", "why_tests_cant": "all attribute/request combinations", "anchors": ["src/uecho/node_listener.c:uecho_node_handlerequestmessage", "src/uecho/property.c:uecho_property_iswritable", "src/uecho/property.c:uecho_property_isreadable"]}
{"id": "C30", "title": "Write-read requests", "statement": "A SetGet (0x6E) applies its writes, then reads, so that the values answered reflect the writes; it is answered 0x7E when everything is accepted and 0x5E otherwise; handlers registered for write or read requests are consulted.", "quantifier": "every SetGet with any numbers of set and get properties", "why_tests_cant": "all property counts", "anchors": ["src/uecho/node_listener.c:uecho_node_servermessagelistener", "src/uecho/object.c:uecho_object_setpropertywriterequesthandler", "src/uecho/object.c:uecho_object_setpropertyrequesthandler"]}
{"id": "C31", "title": "Requests touch only the addressed properties", "statement": "Handling any message changes at most the data of properties named in a write request of the addressed object: no property is added or removed, no attribute, other property or other object changes.", "quantifier": "every message and node state", "why_tests_cant": "frame condition over the whole state", "anchors": ["src/uecho/node_listener.c:uecho_node_servermessagelistener"]}
{"id": "C32", "title": "Every answer is a well-formed frame", "statement": "Every response a device sends is a frame the parser accepts and parses back to the intended response.", "quantifier": "every request parsed from the network, every node state", "why_tests_cant": "depends on stored data sizes and request property counts", "anchors": ["src/uecho/node_listener.c:uecho_node_servermessagelistener", "src/uecho/message.c:uecho_message_getbytes", "src/uecho/message.c:uecho_message_parse"]}
{"id": "C33", "title": "Changes of announceable properties are announced", "statement": "Storing data into a property with the announce attribute of an object that belongs to a node multicasts exactly one notification (0x73) with the new data, the object's code as source, and a fresh TID; other properties are not announced.", "quantifier": "every object, property and data", "why_tests_cant": "depends on how the property came into existence and on all attributes", "anchors": ["src/uecho/property.c:uecho_property_setdata", "src/uecho/property.c:uecho_property_announce", "src/uecho/node.c:uecho_node_announceproperty", "src/uecho/node.c:uecho_node_announcemessage"]}
{"id": "C34", "title": "A search response registers the sender's objects", "statement": "After a controller receives an instance list response from an address it has exactly one node for that address, holding every listed object; nodes already known are kept; the node listener is told Added once per address and Updated only when objects were added.", "quantifier": "every sequence of received messages", "why_tests_cant": "all histories and list contents", "anchors": ["src/uecho/controller_listener.c:uecho_controller_handlesearchmessage", "src/uecho/controller.c:uecho_controller_getnodebyaddress"]}
{"id": "C35", "title": "Only search responses register nodes and objects", "statement": "Any other received message leaves the set of known nodes and their object codes unchanged, and a message from an unknown address changes nothing.", "quantifier": "every message and controller state", "why_tests_cant": "frame condition", "anchors": ["src/uecho/controller_listener.c:uecho_controller_servermessagelistener", "src/uecho/controller_listener.c:uecho_controller_handlenodemessage"]}
{"id": "C36", "title": "The controller's copy of a property follows responses", "statement": "After a read response or notification from a known node's known object, the controller's copy of each reported property holds the reported data; other properties keep their data; error responses do not destroy known values.", "quantifier": "every message and controller state", "why_tests_cant": "all contents", "anchors": ["src/uecho/controller_listener.c:uecho_controller_updateopcpropertydata", "src/uecho/controller_listener.c:uecho_controller_updatenodebyresponsemessage"]}
{"id": "C37", "title": "A posted request returns its own response", "statement": "When uecho_controller_postmessage returns true, the response message holds a message received after the call that carries the request's TID; if a response is delivered while the call is in progress it returns true.", "quantifier": "every interleaving of the caller with the receiving threads, timeouts and wakeups", "why_tests_cant": "schedules cannot be enumerated by tests", "anchors": ["src/uecho/controller.c:uecho_controller_postmessage", "src/uecho/controller.c:uecho_controller_ispostresponsemessage", "src/uecho/controller_listener.c:uecho_controller_handlepostresponse", "src/uecho/util/cond.c:uecho_cond_timedwait"]}
{"id": "C38", "title": "Controller options", "statement": "After uecho_controller_enableoption(o) the option is enabled, after disableoption(o) it is disabled, whatever was called before; other options are unaffected. The call that switches the UDP server off sets just that option.", "quantifier": "every sequence of enable and disable calls", "why_tests_cant": "all histories", "anchors": ["src/uecho/controller.c:uecho_controller_enableoption", "src/uecho/controller.c:uecho_controller_disableoption", "src/uecho/controller.c:uecho_controller_isoptionenabled"]}
{"id": "C39", "title": "Lists behave as sequences", "statement": "The intrusive lists behind properties, objects, classes, nodes and observers implement a sequence: add appends, remove deletes exactly the given element, size counts, iteration visits all elements in order, and no operation follows a dangling pointer.", "quantifier": "every sequence of list operations on any number of lists", "why_tests_cant": "pointer structure over all histories", "anchors": ["src/uecho/util/list.c:uecho_list_add", "src/uecho/util/list.c:uecho_list_remove", "src/uecho/util/list.c:uecho_list_insert", "src/uecho/util/list.c:uecho_list_size", "src/uecho/util/list.c:uecho_list_next"]}
{"id": "C40", "title": "Received messages reach every observer once, in order", "statement": "Each well-formed datagram received by a server is delivered exactly once to every registered observer in registration order, with the sender's address as source address; malformed datagrams are delivered to none.", "quantifier": "every datagram stream and observer registration history", "why_tests_cant": "all streams", "anchors": ["src/uecho/frame/message_observer_manager.c:uecho_message_observer_manager_addobserver", "src/uecho/frame/message_observer_manager.c:uecho_message_observer_manager_perform", "src/uecho/frame/udp_server.c:uecho_udp_server_action", "src/uecho/message.c:uecho_message_parsepacket"]}
{"id": "C41", "title": "Announcements reach the network", "statement": "When uecho_node_announcemessage returns true at least one datagram was sent; each interface sends the announcement at most once.", "quantifier": "every set of open servers and every pattern of send failures", "why_tests_cant": "all failure patterns", "anchors": ["src/uecho/frame/server.c:uecho_server_postannounce", "src/uecho/frame/server.c:uecho_server_postresponse"]}
{"id": "C42", "title": "Search frames", "statement": "uecho_controller_search multicasts a frame that every conforming node profile recognises as a request for its instance list, and searchobject(code) addresses the given object.", "quantifier": "every object code", "why_tests_cant": "all codes", "anchors": ["src/uecho/controller.c:uecho_controller_search", "src/uecho/controller.c:uecho_controller_searchobject", "src/uecho/message_search.c:uecho_message_search_new", "src/uecho/message_search.c:uecho_message_issearchrequest"]}
{"id": "C43", "title": "End to end: reading a remote property", "statement": "If a controller asks a device for a property of an object the device has, the device's answer, parsed by the controller, carries the current value and is recognised as the response to that request. A refused read leaves the device as it was and the waiting call gets the refusal without data. Several properties read by one request all arrive with their values, but in a refusal.", "quantifier": "every device state, property and value up to 255 bytes", "why_tests_cant": "composition of encoder, parser and handler over all states", "anchors": ["src/uecho/node_listener.c:uecho_node_servermessagelistener", "src/uecho/controller.c:uecho_controller_ispostresponsemessage"]}
{"id": "C44", "title": "Request handlers", "statement": "Registering a handler for an ESV and property code replaces the previous one; exactly the handlers registered for the request's ESV and code are consulted; the request is accepted iff all of them accept.", "quantifier": "every registration history and handler decisions", "why_tests_cant": "all histories, arbitrary handlers", "anchors": ["src/uecho/frame/object_property_observer_manager.c:uecho_object_property_observer_manager_setobserver", "src/uecho/node_listener.c:uecho_object_notifyrequestproperty"]}
{"id": "C45", "title": "Standard object database", "statement": "Creating an object with a standard code gives it the super class properties and the properties of its class with the access rules listed in the database, never overriding a property it already has; a node profile always has the properties the library maintains.", "quantifier": "every object code and every prior property set", "why_tests_cant": "the whole database and all prior states", "anchors": ["src/uecho/object.c:uecho_object_addstandardproperties", "src/uecho/object.c:uecho_object_addmissingobjectproperties", "src/uecho/std/objects_mra.c:uecho_database_addstandardobjects", "src/uecho/std/database.c:uecho_database_getobject"]}
{"id": "C46", "title": "String helpers", "statement": "uecho_string append/set keep the value equal to the concatenation with a terminating NUL inside the allocated memory; the tokenizer yields the non-empty fields between delimiters; trimming removes exactly leading and trailing blanks.", "quantifier": "every string and operation sequence", "why_tests_cant": "all strings", "anchors": ["src/uecho/util/strings.c:uecho_string_naddvalue", "src/uecho/util/strings.c:uecho_string_setnvalue", "src/uecho/util/strings_tokenizer.c:uecho_string_tokenizer_nexttoken", "src/uecho/util/strings_function.c:uecho_strtrimwhite", "src/uecho/util/strings_function.c:uecho_strrtrim"]}
{"id": "C47", "title": "A node survives every datagram and call", "statement": "No datagram, whatever its bytes, and no call of the public API with arguments of the documented types makes a node read or write outside its memory, dereference a null pointer or overflow an int.", "quantifier": "every history of calls and received datagrams, every next datagram or call, every uninitialised memory content", "why_tests_cant": "all byte strings, all histories, all unspecified memory contents", "anchors": ["src/uecho/node_listener.c:uecho_node_servermessagelistener", "src/uecho/node.c:uecho_node_new", "src/uecho/node.c:uecho_node_addobject", "src/uecho/node.c:uecho_node_setobject", "src/uecho/std/object_super_class.c:uecho_object_updatepropertymaps"]}
{"id": "C48", "title": "A starting node is discovered", "statement": "A running controller that receives the announcement a node multicasts when it starts knows the node and its objects from then on, without searching again.", "quantifier": "every node (any byte order, any objects) and every controller state", "why_tests_cant": "all nodes and controller histories", "anchors": ["src/uecho/node.c:uecho_node_start", "src/uecho/node.c:uecho_node_announce", "src/uecho/controller_listener.c:uecho_controller_handlesearchmessage", "src/uecho/message_search.c:uecho_message_issearchresponse"]}
{"id": "C49", "title": "Device helpers", "statement": "A device created with uecho_device_new has the mandatory device properties with their documented defaults and access rules; each setter of the super class (operating status, installation location, standard version, fault status, manufacturer code) is read back by its getter, and changes no other property.", "quantifier": "every sequence of setter calls and every argument", "why_tests_cant": "all sequences and arguments", "anchors": ["src/uecho/std/device.c:uecho_device_new", "src/uecho/std/device_super_class.c:uecho_device_addmandatoryproperties", "src/uecho/std/device_super_class.c:uecho_device_setoperatingstatus"]}
{"id": "C50", "title": "A controller survives every datagram", "statement": "No datagram, whatever its bytes and sender, makes a controller read or write outside its memory, dereference a null or freed pointer or overflow an int, at any point of its history.", "quantifier": "every history of calls and received datagrams and every next datagram", "why_tests_cant": "all byte strings and histories", "anchors": ["src/uecho/controller_listener.c:uecho_controller_servermessagelistener", "src/uecho/controller_listener.c:uecho_controller_handlesearchmessage", "src/uecho/controller_listener.c:uecho_controller_updateopcpropertydata", "src/uecho/controller.c:uecho_controller_postmessage"]}
{"id": "C51", "title": "End to end: writing a remote property", "statement": "If a controller sends a write request for a property of an object the device has and the device's handlers accept it, the device's property afterwards holds exactly the sent value and nothing else changed; a request that asks for a response is answered, and the answer is recognised as the response.", "quantifier": "every device state, property and value up to 255 bytes, every byte order of the two hosts", "why_tests_cant": "composition of encoder, parser and handlers over all states", "anchors": ["src/uecho/controller.c:uecho_controller_sendmessage", "src/uecho/node_listener.c:uecho_node_servermessagelistener"]}
{"id": "C52", "title": "How long a posted request waits", "statement": "A call of uecho_controller_postmessage waits for the response until the configured time (uecho_controller_setpostwaitemilitime) has passed since the request was sent, and not longer.", "quantifier": "every configured time and every time of the call", "why_tests_cant": "the clock cannot be set in unit tests", "anchors": ["src/uecho/controller.c:uecho_controller_setpostwaitemilitime", "src/uecho/controller.c:uecho_controller_postmessage", "src/uecho/util/cond.c:uecho_cond_timedwait"]}
{"id": "C53", "title": "Starting is all or nothing", "statement": "Starting a node's servers either brings up a server with its thread on every network interface (multicast, and UDP unless disabled), each serving the observers registered so far, and returns true, or leaves no server, socket or thread behind and returns false; stopping always leaves nothing behind; the running state reported is that of the last start or stop. A started node takes exactly the address set for it and the addresses of the interfaces at the start in force for its own.", "quantifier": "every history of starts, stops, registrations and option changes, every pattern of refused sockets and threads", "why_tests_cant": "socket and thread failures cannot be provoked at will", "anchors": ["src/uecho/frame/server.c:uecho_server_start", "src/uecho/frame/server.c:uecho_server_stop", "src/uecho/frame/server.c:uecho_server_isrunning", "src/uecho/frame/udp_server.c:uecho_udp_server_open", "src/uecho/frame/udp_server.c:uecho_udp_server_start", "src/uecho/frame/udp_server.c:uecho_udp_server_stop", "src/uecho/frame/mcast_server_list.c:uecho_mcast_serverlist_open"]}
{"id": "C54", "title": "A message to a node is sent exactly once", "statement": "uecho_node_sendmessage returns true exactly if one datagram with the message was sent to the address of the destination node; on false none was sent.", "quantifier": "every set of open servers and every pattern of send failures", "why_tests_cant": "all failure patterns", "anchors": ["src/uecho/frame/server.c:uecho_server_postresponse", "src/uecho/frame/udp_server_list.c:uecho_udp_serverlist_sendto", "src/uecho/node.c:uecho_node_sendmessage"]}
{"id": "C55", "title": "Stopping while receiving", "statement": "Stopping or deleting a node while datagrams arrive uses no released memory, and once the call has returned no handler runs.", "quantifier": "every interleaving of the receiving threads with the stopping thread", "why_tests_cant": "all schedules", "anchors": ["src/uecho/frame/server.c:uecho_server_stop", "src/uecho/frame/udp_server.c:uecho_udp_server_action", "src/uecho/frame/udp_server.c:uecho_udp_server_stop", "src/uecho/util/thread.c:uecho_thread_stop", "src/uecho/util/thread.c:uecho_thread_delete", "src/uecho/node.c:uecho_node_delete"]}
{"id": "C56", "title": "Comparing, searching and printing text", "statement": "Comparing two texts gives their dictionary order and equality; searching gives the first (or last) position of a text or of any of a set of characters, or -1 if there is none; setting a string to a number fits its buffer and reads back as that number; appending a limited number of characters leaves a terminated text.", "quantifier": "every text, every set of characters, every int and long", "why_tests_cant": "all strings and numbers", "anchors": ["src/uecho/util/strings_function.c:uecho_strcmp", "src/uecho/util/strings_function.c:uecho_streq", "src/uecho/util/strings_function.c:uecho_strstr", "src/uecho/util/strings_function.c:uecho_strchr", "src/uecho/util/strings_function.c:uecho_strrchr", "src/uecho/util/strings_function.c:uecho_strncat", "src/uecho/util/strings_function.c:uecho_int2str", "src/uecho/util/strings_function.c:uecho_sizet2str", "src/uecho/util/strings.c:uecho_string_setintvalue", "src/uecho/util/strings.c:uecho_string_setlongvalue"]}
{"id": "C57", "title": "Replacing in a string", "statement": "uecho_string_replace replaces every occurrence of the given patterns, from left to right and the first listed pattern where several match, and always returns.", "quantifier": "every text and every list of patterns and replacements", "why_tests_cant": "all strings and pattern lists", "anchors": ["src/uecho/util/strings.c:uecho_string_replace"]}
{"id": "C58", "title": "Logging is harmless", "statement": "Every packet a node sends or receives is logged without disturbing memory, whatever its length and its peers and whatever the log level; with debug logging on, one line with the direction, both addresses and every byte in hexadecimal is printed for it, otherwise nothing; what the node delivers and sends does not depend on logging.", "quantifier": "every packet, every pair of addresses, every log level, every stream of arriving datagrams", "why_tests_cant": "all packet lengths; an overflow of the stack may go unnoticed in a test", "anchors": ["src/uecho/util/logs.c:uecho_net_socket_log", "src/uecho/util/logs.c:uecho_net_datagram_packet_error", "src/uecho/util/log.c:uecho_log_output", "src/uecho/net/socket.c:uecho_socket_recv", "src/uecho/net/socket.c:uecho_socket_sendto", "src/uecho/frame/udp_server.c:uecho_udp_server_action"]}
{"id": "C59", "title": "Lookups find exactly what is there", "statement": "Looking up an object of a node by its code, or a class by its code, finds it exactly if the node has it, and the counts are the numbers of different objects and classes; looking up a node of a controller by address finds it exactly if the controller knows it; every object of every node a controller knows can be found by its code through the controller. The kind of an object, device or profile, is that of its code, and an object has just its own code.", "quantifier": "every node and controller reachable through the API and by received frames, every code and address", "why_tests_cant": "all histories and codes", "anchors": ["src/uecho/node.c:uecho_node_getobjectbycode", "src/uecho/node.c:uecho_node_hasobjectbycode", "src/uecho/node.c:uecho_node_getclassbycode", "src/uecho/node.c:uecho_node_hasclassbycode", "src/uecho/node.c:uecho_node_getobjectcount", "src/uecho/node.c:uecho_node_getclasscount", "src/uecho/controller.c:uecho_controller_getnodebyaddress", "src/uecho/controller.c:uecho_controller_getobjectbycode", "src/uecho/controller.c:uecho_controller_getnodecount", "src/uecho/node_list.c:uecho_nodelist_getbyaddress", "src/uecho/class.c:uecho_class_iscode"]}
{"id": "C60", "title": "Waiting for an object or property", "statement": "uecho_controller_getobjectbycodewithwait and uecho_object_getpropertywait return the object or property if it appears within the given time, soon after it appears, at once if it is there already, and NULL after that time otherwise.", "quantifier": "every wait time, every moment of appearance, every delay of the sleeping thread", "why_tests_cant": "all schedules; timing is not reproducible in a test", "anchors": ["src/uecho/controller.c:uecho_controller_getobjectbycodewithwait", "src/uecho/object.c:uecho_object_getpropertywait", "src/uecho/util/timer.c:uecho_wait"]}
{"id": "C61", "title": "Messages sent and announced through an object", "statement": "Sending a message through an object known to a controller sends one frame to the address of the object's node, addressed to the object, with the service and properties of the message; announcing a message through an object of a node announces one frame that names the object as its source.", "quantifier": "every reachable controller and node, every object of theirs, every message", "why_tests_cant": "all messages and objects", "anchors": ["src/uecho/object.c:uecho_object_sendmessage", "src/uecho/object.c:uecho_object_announcemessage", "src/uecho/controller.c:uecho_controller_sendmessage"]}
{"id": "C62", "title": "The node profile reads back what the node has", "statement": "The node profile's getters return the number of device objects, the number of classes, the list of device objects and the list of device classes of the node, and the operating status as it was set; reading changes nothing.", "quantifier": "every reachable node whose profile describes it (as every node built only by additions, C22)", "why_tests_cant": "all sets of objects", "anchors": ["src/uecho/std/node_profile_class.c:uecho_nodeprofile_getinstancecount", "src/uecho/std/node_profile_class.c:uecho_nodeprofile_getclasscount", "src/uecho/std/node_profile_class.c:uecho_nodeprofile_getinstancelist", "src/uecho/std/node_profile_class.c:uecho_nodeprofile_getnotificationinstancelist", "src/uecho/std/node_profile_class.c:uecho_nodeprofile_getclasslist", "src/uecho/std/node_profile_class.c:uecho_nodeprofile_isoperatingstatus", "src/uecho/std/node_profile_class.c:uecho_nodeprofile_setoperatingstatus"]}
{"id": "C63", "title": "Properties of a message by code; comparing and copying properties", "statement": "Looking up a property of a message by its code finds the first one with that code, in each of its property lists, exactly if there is one; two properties compare equal exactly if code, attributes and data are the same; a copy equals its original; appending a byte appends just that byte.", "quantifier": "every message reachable through the API and by parsing, every code, every pair of properties", "why_tests_cant": "all messages and properties", "anchors": ["src/uecho/message.c:uecho_message_getpropertybycode", "src/uecho/message.c:uecho_message_getpropertysetbycode", "src/uecho/message.c:uecho_message_getpropertygetbycode", "src/uecho/property.c:uecho_property_equals", "src/uecho/property.c:uecho_property_copy", "src/uecho/property.c:uecho_property_addbytedata"]}
{"id": "C64", "title": "The interfaces a node listens on", "statement": "The interfaces listed by the library are exactly the IPv4 interfaces of the system that are up and not loopback, in the system's order, each with its name, address and mask in dotted decimal notation. A started node has a server at the address of each of them and nowhere else; without such an interface a node does not start.", "quantifier": "every list of interfaces the system may return, every history of starts and stops", "why_tests_cant": "all combinations of interfaces, flags and address families; the interfaces of a test machine are fixed", "anchors": ["src/uecho/net/interface_function.c:uecho_net_gethostinterfaces", "src/uecho/frame/server.c:uecho_server_start"]}
{"id": "C65", "title": "The local address of a received datagram", "statement": "The address reported as the local one of a datagram is that of the first interface in the sender's subnet, else of an interface with a routable address, else of one with a link-local address, else the loopback address; a delivered message carries it as its destination address.", "quantifier": "every list of interfaces, every sender, every sequence of arriving datagrams", "why_tests_cant": "all combinations of interfaces and senders", "anchors": ["src/uecho/net/interface_function.c:uecho_net_selectaddr", "src/uecho/message.c:uecho_message_parsepacket", "src/uecho/message.c:uecho_message_setsourceaddress"]}
{"id": "C66", "title": "Recognising IPv6 addresses and their scope", "statement": "A text is recognised as an IPv6 address exactly if it is one, an IPv4 address in dotted decimal notation never is; the number after the percent sign is returned as the scope; no text makes the functions access memory they must not. An address is used unless it is of a kind that was excluded.", "quantifier": "every text", "why_tests_cant": "all texts", "anchors": ["src/uecho/net/net_function.c:uecho_net_isipv6address", "src/uecho/net/net_function.c:uecho_net_getipv6scopeid"]}
{"id": "C67", "title": "A server gives back what it takes from the system", "statement": "A server holds at most one descriptor; after it is closed, or if opening it fails, the descriptors and address records are those from before. It opens exactly if every system call succeeds; then address reuse is on, and a multicast server has joined the group on its interface with the multicast loop as asked. Sending hands over exactly one datagram from the server's descriptor and reports success exactly if it was taken whole; it uses up nothing.", "quantifier": "every history of opening, closing and sending through UDP and multicast servers, with any answers of the system", "why_tests_cant": "all combinations of failing system calls and all numbers of repetitions", "anchors": ["src/uecho/net/socket.c:uecho_socket_bind", "src/uecho/net/socket.c:uecho_socket_sendto", "src/uecho/net/socket.c:uecho_socket_joingroup", "src/uecho/net/socket.c:uecho_socket_close", "src/uecho/net/socket.c:uecho_socket_startup", "src/uecho/net/socket.c:uecho_socket_setmulticastloop", "src/uecho/frame/udp_server.c:uecho_udp_server_open", "src/uecho/frame/udp_server.c:uecho_udp_server_close", "src/uecho/frame/mcast_server.c:uecho_mcast_server_open", "src/uecho/frame/mcast_server.c:uecho_mcast_server_post"]}
{"id": "C68", "title": "Streams are written in order and read line by line", "statement": "Writing to a stream terminates, hands over a prefix of the data in order, and reports the length exactly if all was taken, giving up only after eleven failures in a row. Reading a line stores the line or its first part with a terminator inside the buffer and leaves the stream after the line. Skipping takes exactly the given number of bytes.", "quantifier": "every data, every stream content, every buffer size, every sequence of partial and failing system calls", "why_tests_cant": "all splittings and failures", "anchors": ["src/uecho/net/socket.c:uecho_socket_write", "src/uecho/net/socket.c:uecho_socket_readline", "src/uecho/net/socket.c:uecho_socket_skip"]}
{"id": "C69", "title": "Names of objects and properties", "statement": "An object that is given the code of a standard class has the standard name of the class, one of another class has none; every property it gets has the standard name (that of the super class first); names given earlier are kept, and the name of a property changes only when it is set.", "quantifier": "every history of setting codes and names and of adding properties, every code, every property code", "why_tests_cant": "all pairs of classes and orders of calls", "anchors": ["src/uecho/object.c:uecho_object_setname", "src/uecho/object.c:uecho_object_getname", "src/uecho/object.c:uecho_object_addstandardproperties", "src/uecho/object.c:uecho_object_setcode", "src/uecho/object.c:uecho_object_setgroupcode", "src/uecho/object.c:uecho_object_setclasscode", "src/uecho/property.c:uecho_property_setname", "src/uecho/property.c:uecho_property_getname", "src/uecho/property.c:uecho_property_copy", "src/uecho/std/objects_mra.c:uecho_database_addstandardobjects"]}
{"id": "C70", "title": "Manufacturers and enumerations are found by their codes", "statement": "A manufacturer of the standard table is found under its code with its name and no other code is found; adding a manufacturer makes it found and changes no other. The entry of an enumeration found under a code is the one added last with it.", "quantifier": "every code, every manufacturer, every sequence of additions", "why_tests_cant": "all codes and sequences", "anchors": ["src/uecho/std/database.c:uecho_database_getmanufacture", "src/uecho/std/database.c:uecho_database_addmanufacture", "src/uecho/manufacture_list.c:uecho_manufacturelist_getbycode", "src/uecho/std/manufacturers.c:uecho_database_addstandardmanufactures", "src/uecho/property_enum_list.c:uecho_property_enumlist_add", "src/uecho/property_enum_list.c:uecho_property_enumlist_findbycode"]}
{"id": "C71", "title": "The shared standard database is complete and made once", "statement": "Every call for the standard database returns the same database with every entry of the tables, also if several threads call at the same time; it is freed once when the program ends and not returned afterwards.", "quantifier": "every number of calls, every number of threads, every interleaving", "why_tests_cant": "the first calls would have to coincide within microseconds", "anchors": ["src/uecho/std/standard.c:uecho_standard_getdatabase", "src/uecho/std/standard.c:uecho_standard_freedatabase"]}
{"id": "C72", "title": "Messages in memory behave as independent values and leave nothing behind", "statement": "A program that creates, fills, parses, serialises, copies, compares, reads and deletes messages in any order, using a message only between its creation and its deletion, sees for each message exactly what was put into it, whatever it does to the others and to its own buffers afterwards; no call reads or writes memory that is not there, and when the messages are deleted all memory has been given back and other memory is untouched.", "quantifier": "every sequence of calls on any number of messages, every argument", "why_tests_cant": "aliasing and lifetimes: all orders of calls on all messages", "anchors": ["src/uecho/message.c:uecho_message_new", "src/uecho/message.c:uecho_message_delete", "src/uecho/message.c:uecho_message_clear", "src/uecho/message.c:uecho_message_set", "src/uecho/message.c:uecho_message_copy", "src/uecho/message.c:uecho_message_equals", "src/uecho/message.c:uecho_message_getbytes", "src/uecho/message.c:uecho_message_parse", "src/uecho/message.c:uecho_message_parsepacket", "src/uecho/message.c:uecho_message_addproperty", "src/uecho/message.c:uecho_message_setproperty", "src/uecho/message.c:uecho_message_setsourceaddress", "src/uecho/property.c:uecho_property_new", "src/uecho/property.c:uecho_property_delete", "src/uecho/property.c:uecho_property_setdata", "src/uecho/property.c:uecho_property_copy", "src/uecho/util/strings.c:uecho_string_setvalue", "src/uecho/net/datagram_packet.c:uecho_socket_datagram_packet_copy"]}
{"id": "C73", "title": "Receiving leaves memory as it was", "statement": "However many datagrams a server receives, valid, damaged or empty, it delivers their messages to the observers and afterwards has given back all memory it took; handlers may read and change the message they are given and make messages of their own if they delete them.", "quantifier": "every sequence of arrivals, every set of observers, every handler that deletes what it makes and not what it is given", "why_tests_cant": "leaks show only after very many datagrams; use after free depends on the allocator", "anchors": ["src/uecho/frame/udp_server.c:uecho_udp_server_action", "src/uecho/frame/mcast_server.c:uecho_mcast_server_action", "src/uecho/net/socket.c:uecho_socket_recv", "src/uecho/net/datagram_packet.c:uecho_socket_datagram_packet_new", "src/uecho/net/datagram_packet.c:uecho_socket_datagram_packet_delete", "src/uecho/net/datagram_packet.c:uecho_socket_datagram_packet_setdata"]}
{"id": "C74", "title": "Values of properties written and read by several threads", "statement": "Several threads write and read the values of properties: nothing undefined happens, and every read gives a value that was written, as if the reads and writes had been made one after the other; no memory is lost.", "quantifier": "every number of threads, every program of reads and writes, every schedule", "why_tests_cant": "the accesses would have to coincide within a few instructions", "anchors": ["src/uecho/property.c:uecho_property_setdata", "src/uecho/property.c:uecho_property_setcount", "src/uecho/property.c:uecho_property_cleardata", "src/uecho/property.c:uecho_property_getdata", "src/uecho/property.c:uecho_property_getdatasize", "src/uecho/node_listener.c:uecho_node_handlerequestmessage", "src/uecho/frame/server.c:uecho_server_start"]}
{"id": "C75", "title": "Memory of objects and of the database of objects", "statement": "A program creates, changes, reads, shares through the database and deletes objects with their properties and handlers: no freed or foreign memory is touched, every call returns what it returns when objects are plain values that nobody else can change, no memory of others changes, and when all objects are deleted or given to the database and the database is deleted, no memory is lost.", "quantifier": "every sequence of calls, every contents of fresh memory, every state of the rest of the memory", "why_tests_cant": "errors of this kind show only for particular orders of calls and go unnoticed while the freed memory is intact", "anchors": ["src/uecho/object.c:uecho_object_new", "src/uecho/object.c:uecho_object_delete", "src/uecho/object.c:uecho_object_addproperty", "src/uecho/object.c:uecho_object_setproperty", "src/uecho/object.c:uecho_object_setpropertydata", "src/uecho/object.c:uecho_object_clearproperties", "src/uecho/object.c:uecho_object_setpropertyrequesthandler", "src/uecho/property_list.c:uecho_propertylist_add", "src/uecho/property_list.c:uecho_propertylist_clear", "src/uecho/object_list.c:uecho_objectlist_delete", "src/uecho/std/object_super_class.c:uecho_object_updatepropertymaps"]}
{"id": "C76", "title": "Life of small records, lists of them, the database and the server when memory is short", "statement": "A program creates, fills, reads, lists, finds and deletes classes, manufacturers, enumeration values, network interfaces and idle threads; the database, a server that is not started, mutexes, conditions and socket options are created and deleted. Whatever requests for memory fail, no call touches freed or missing memory, a text or code that is read is the one last set or none, no memory of others changes and when everything is deleted no memory is lost. When no request fails, every call returns what it returns when these things are plain values.", "quantifier": "every sequence of calls, every set of requests for memory that fail, every state of the rest of the memory", "why_tests_cant": "tests run with memory to spare; there are exponentially many patterns of failing requests", "anchors": ["src/uecho/class.c:uecho_class_new", "src/uecho/class.c:uecho_class_delete", "src/uecho/manufacture.c:uecho_manufacture_new", "src/uecho/manufacture.c:uecho_manufacture_delete", "src/uecho/manufacture.c:uecho_manufacture_setname", "src/uecho/property_enum.c:uecho_property_enum_new", "src/uecho/property_enum.c:uecho_property_enum_delete", "src/uecho/property_enum_list.c:uecho_property_enumlist_add", "src/uecho/net/interface.c:uecho_net_interface_new", "src/uecho/net/interface.c:uecho_net_interface_delete", "src/uecho/util/thread.c:uecho_thread_new", "src/uecho/util/thread.c:uecho_thread_delete", "src/uecho/std/database.c:uecho_database_new", "src/uecho/std/database.c:uecho_database_delete", "src/uecho/frame/server.c:uecho_server_new", "src/uecho/frame/server.c:uecho_server_delete", "src/uecho/frame/server.c:uecho_server_addobserver", "src/uecho/frame/message_observer_manager.c:uecho_message_observer_manager_new", "src/uecho/frame/message_observer_manager.c:uecho_message_observer_manager_delete"]}
{"id": "C77", "title": "Copying text, comparing parts of texts and without regard to case", "statement": "Copying and appending a text put the text and its end into the destination and leave what follows unchanged, exactly if there is room; a limited copy writes exactly that many bytes and leaves a terminated text; a limited comparison gives the dictionary order of the beginnings, a comparison without regard to case that of the texts in small letters, and both are defined for missing texts; a number printed into a buffer of a given size stays within it and reads back as that number.", "quantifier": "every text, block of memory, count and number", "why_tests_cant": "all strings and numbers", "anchors": ["src/uecho/util/strings_function.c:uecho_strcpy", "src/uecho/util/strings_function.c:uecho_strcat", "src/uecho/util/strings_function.c:uecho_strncpy", "src/uecho/util/strings_function.c:uecho_strncmp", "src/uecho/util/strings_function.c:uecho_strcasecmp", "src/uecho/util/strings_function.c:uecho_strcaseeq", "src/uecho/util/strings_function.c:uecho_int2str", "src/uecho/util/strings_function.c:uecho_long2str", "src/uecho/util/strings_function.c:uecho_ssizet2str", "src/uecho/util/strings_function.c:uecho_sizet2str"]}
{"id": "C78", "title": "A thread runs its action from start to stop, once", "statement": "For a program that uses no deleted thread, a thread runs exactly one instance of its action from a successful start until it is stopped, and none at any other time; the library says truthfully whether it runs, stopping or deleting one thread leaves the others running, and no freed thread object and no identity of an ended thread is used. After a stop the action does no more than the piece of work at hand.", "quantifier": "every sequence of calls on threads and lists of threads, every outcome of making a thread, every interleaving of the running actions, also during the wait in a stop", "why_tests_cant": "schedules of running threads", "anchors": ["src/uecho/util/thread.c:uecho_thread_new", "src/uecho/util/thread.c:uecho_thread_start", "src/uecho/util/thread.c:uecho_thread_stop", "src/uecho/util/thread.c:uecho_thread_restart", "src/uecho/util/thread.c:uecho_thread_delete", "src/uecho/util/thread.c:uecho_thread_isrunnable", "src/uecho/util/thread.c:uecho_thread_isrunning", "src/uecho/util/thread.c:uecho_thread_setaction", "src/uecho/util/thread_list.c:uecho_threadlist_start", "src/uecho/util/thread_list.c:uecho_threadlist_stop"]}
{"id": "C79", "title": "A node's memory follows its values from creation to deletion", "statement": "A program that makes nodes, gives them objects, sets addresses, listeners, handlers and property data, lets them announce and answer datagrams, reads them, clears and deletes them, sees exactly the results, announcements, answers and handler calls it would see if nodes and objects were plain values. No freed, foreign or uninitialised memory is used, memory that is not the library's is untouched, and when all is deleted not one block is left.", "quantifier": "every sequence of calls, on any number of nodes and objects, within the rules of use; every datagram, every network result, every handler decision", "why_tests_cant": "all histories of allocations, lists and announcements", "anchors": ["src/uecho/node.c:uecho_node_new", "src/uecho/node.c:uecho_node_delete", "src/uecho/node.c:uecho_node_clear", "src/uecho/node.c:uecho_node_addobject", "src/uecho/node.c:uecho_node_setobject", "src/uecho/node.c:uecho_node_announce", "src/uecho/node.c:uecho_node_setaddress", "src/uecho/node.c:uecho_node_setmessagelistener", "src/uecho/node.c:uecho_node_getobjectbycode", "src/uecho/node_listener.c:uecho_node_servermessagelistener", "src/uecho/std/node_profile_class.c:uecho_nodeprofile_new", "src/uecho/std/node_profile_class.c:uecho_nodeprofile_updateinstanceproperties", "src/uecho/object.c:uecho_object_setpropertydata"]}
{"id": "C80", "title": "A controller's memory follows its values from creation to deletion", "statement": "A program that makes a controller, starts it, sets listeners and options, searches, sends and announces messages, posts requests and waits for the answers, lets datagrams arrive, reads the nodes and objects it found, uses its local node and deletes it, sees exactly the results, the messages sent and the calls of its listeners it would see if the controller were a plain value. No freed, foreign or uninitialised memory is used, memory that is not the library's is untouched, the two messages of a request come back to the caller, and when all is deleted not one block is left.", "quantifier": "every sequence of calls with any number of nodes, objects and messages within the rules of use; every datagram, every network result, every handler decision, every content of uninitialised fields", "why_tests_cant": "all histories of allocations, found nodes and pending requests", "anchors": ["src/uecho/controller.c:uecho_controller_new", "src/uecho/controller.c:uecho_controller_delete", "src/uecho/controller.c:uecho_controller_start", "src/uecho/controller.c:uecho_controller_addnode", "src/uecho/controller.c:uecho_controller_getnodebyaddress", "src/uecho/controller.c:uecho_controller_getobjectbycode", "src/uecho/controller.c:uecho_controller_sendmessage", "src/uecho/controller.c:uecho_controller_announcemessage", "src/uecho/controller.c:uecho_controller_postmessage", "src/uecho/controller.c:uecho_controller_searchwithesv", "src/uecho/controller_listener.c:uecho_controller_servermessagelistener", "src/uecho/controller_listener.c:uecho_controller_handlesearchmessage", "src/uecho/controller_listener.c:uecho_controller_handlenodemessage", "src/uecho/controller_listener.c:uecho_controller_handlepostresponse", "src/uecho/controller_listener.c:uecho_controller_updatenode", "src/uecho/object.c:uecho_object_sendmessage", "src/uecho/node.c:uecho_node_sendmessage"]}
{"id": "C81", "title": "A controller does not make up the values it holds for a device", "statement": "Whatever a controller reports as the value of a property of an object of a device, the device has itself held as the value of that property of that object at some time before. Frames of the device may be lost, repeated, reordered, delayed or cut short, other senders may send anything under their own addresses, and both programs may do what they like with their own objects meanwhile. Seen from any moment on, what it reports it either reported at that moment or the device has held since, provided no frame sent earlier arrives.", "quantifier": "every interleaving of calls on the device, calls on the controller and datagrams, with any frames from others; every object, property and value; every byte order, network result and handler decision", "why_tests_cant": "needs all interleavings of two programs and a network that loses, repeats, reorders and cuts frames", "anchors": ["src/uecho/controller_listener.c:uecho_controller_servermessagelistener", "src/uecho/controller_listener.c:uecho_controller_handlesearchmessage", "src/uecho/controller_listener.c:uecho_controller_handlenodemessage", "src/uecho/controller_listener.c:uecho_controller_updatenode", "src/uecho/node_listener.c:uecho_node_servermessagelistener", "src/uecho/node.c:uecho_node_announceproperty", "src/uecho/node.c:uecho_node_sendmessage", "src/uecho/message.c:uecho_message_parse"]}
{"id": "C82", "title": "What devices and controllers send each other in reaction to a frame dies out", "statement": "On a network of any number of devices and controllers of this library, frames lead to a bounded number of further frames: nothing a party sends by itself in reaction to a frame is a request, only requests lead to frames, and each leads to at most one answer and one notification for every property written. So whatever is under way, in whatever order it is delivered to everybody (the sender included) or lost, after a bounded number of deliveries nothing is under way; two parties never keep each other busy. On the way nobody breaks down: every delivery is taken without undefined behaviour, as long as the calls of the programs were the safe ones of C47 and C50.", "quantifier": "every number of parties with any objects, handlers and settings; every set of datagrams under way, with any contents; every order of deliveries and losses", "why_tests_cant": "needs all schedules of deliveries between any number of parties, and no bound on how long to wait", "anchors": ["src/uecho/node_listener.c:uecho_node_servermessagelistener", "src/uecho/node_listener.c:uecho_node_handlerequestmessage", "src/uecho/node.c:uecho_node_announceproperty", "src/uecho/node.c:uecho_node_announcemessage", "src/uecho/node.c:uecho_node_sendmessagebytes", "src/uecho/controller_listener.c:uecho_controller_servermessagelistener", "src/uecho/message.c:uecho_message_requestesv2responseesv"]}
{"id": "C83", "title": "What a device holds was put there by its program or by a request that names it", "statement": "Whatever happens to a device, a property of an object changes only by a call of its own program on that object and property (or on the whole object, all objects or the whole node), or by a write request addressed to that object which names that property, and then it holds exactly the data given. So at any time the data a property holds are those given by a definite call or request of the past, and they have stayed since. What a controller elsewhere reports as a value of the device has such an origin too.", "quantifier": "every history of calls and datagrams, well formed or not, on every device; every object and property except those the library computes (the property maps, the lists in the node profile); every handler decision and network result", "why_tests_cant": "needs every history; a test can only show that some calls leave some properties alone", "anchors": ["src/uecho/node.c:uecho_node_addobject", "src/uecho/node.c:uecho_node_setobject", "src/uecho/node.c:uecho_node_setmanufacturercode", "src/uecho/node.c:uecho_node_clear", "src/uecho/node_listener.c:uecho_node_servermessagelistener", "src/uecho/node_listener.c:uecho_node_handlerequestmessage", "src/uecho/object.c:uecho_object_setproperty", "src/uecho/object.c:uecho_object_setpropertydata", "src/uecho/object.c:uecho_object_setpropertyintegerdata", "src/uecho/object.c:uecho_object_setpropertybytedata", "src/uecho/object.c:uecho_object_addproperty", "src/uecho/object.c:uecho_object_clearproperties", "src/uecho/property.c:uecho_property_setdata", "src/uecho/property.c:uecho_property_adddata"]}
{"id": "C84", "title": "What a message says about itself is what its datagram says, and tells whether an answer comes", "statement": "A message made from a received datagram answers every question about its sender, its source and destination object, its header and the kind of its service as the datagram does. A device that has the object a message is for answers a message that requires a response exactly once, answers one that requires none only to refuse a write, and never answers what is no request; whoever receives the answer gets a message that is recognised as the response to the request. Setting object codes in a list of objects gives one object per code and leaves the objects already there alone.", "quantifier": "every datagram, well formed or not, parsed into every message a program can have; every device, request and decision of the handlers; every list of objects and sequence of codes", "why_tests_cant": "the questions have to agree with all 256 service numbers and every frame, and the answers with every state of a device", "anchors": ["src/uecho/message.c:uecho_message_issourceobjectcode", "src/uecho/message.c:uecho_message_isdestinationobjectcode", "src/uecho/message.c:uecho_message_isresponserequired", "src/uecho/message.c:uecho_message_isresponsemessage", "src/uecho/message.c:uecho_message_issourceaddress", "src/uecho/message.c:uecho_message_isrequest", "src/uecho/message.c:uecho_message_isresponse", "src/uecho/message.c:uecho_message_iswriterequest", "src/uecho/message.c:uecho_message_isreadrequest", "src/uecho/message.c:uecho_message_isnotifyrequest", "src/uecho/object_list.c:uecho_objectlist_set", "src/uecho/node_listener.c:uecho_node_servermessagelistener"]}
{"id": "C85", "title": "The example lamp does what it is told and says what it was told", "statement": "Started with any options, the example lamp never meets undefined behaviour whatever datagrams it receives and however often it is restarted; its operating status is always the last single byte written to it, 0x30 before any; it prints one line per write, in order, with what was written; a read at any moment is answered with that status and changes nothing; a write of one byte with response is acknowledged.", "quantifier": "every list of datagrams and hang-ups, all random numbers and uninitialised memory, every option", "why_tests_cant": "the status depends on the whole history of datagrams, malformed and addressed to others among them", "anchors": ["examples/device/uecholight/lighting_dev.c:uecho_light_new", "examples/device/uecholight/lighting_dev.c:uecho_lighting_propertyrequesthandler", "examples/device/uecholight/main.c:main", "src/uecho/node_listener.c:uecho_node_servermessagelistener", "src/uecho/node_listener.c:uecho_object_notifyrequestproperty"]}
{"id": "C86", "title": "The posting tool sends the request its arguments spell and prints the response it got", "statement": "Given an object, a service and properties in hexadecimal digits of either case, the example tool uechopost sends to the node exactly one request, to that object, with that service and the complete properties of the text (a repeated property has its last value, a property cut off at the end is left out); it waits for a response exactly for the services that have one; the line it prints shows the sender, object, service and every property of the response, and the printed properties, given as arguments again, spell the same properties.", "quantifier": "every text of hexadecimal digits, every object of the node, every service, every response", "why_tests_cant": "texts are unbounded, and what happens depends on where a property ends and on which codes repeat", "anchors": ["examples/controller/uechopost/uechopost.c:main", "examples/controller/uechopost/uechopost.c:uechopost_print_objectresponse", "src/uecho/message.c:uecho_message_setproperty", "src/uecho/controller.c:uecho_controller_postmessage", "src/uecho/controller.c:uecho_controller_sendmessage"]}
{"id": "C87", "title": "The searching tool lists every device it heard of; the dumping tool shows every frame", "statement": "The example tool uechosearch prints one line for each device from which an instance list has arrived, in the order of their first lists, with the device's address and all its objects, each once, the node profile first; nothing else is printed and the list can be read back. The example tool uechodump shows each frame that arrives, exactly once and in order, on a line with sender, header, transaction id, objects, service and property codes, shows nothing for datagrams that are not frames, sends one search for each s or S and nothing for other keys, and ends with q.", "quantifier": "every sequence of datagrams and keys, every network behaviour", "why_tests_cant": "the printed list depends on the whole history of datagrams, and the dump must handle every byte sequence as a datagram", "anchors": ["examples/controller/uechosearch/uechosearch.c:print_founddevices", "examples/controller/uechosearch/uechosearch.c:main", "examples/controller/uechodump/uechodump.c:uecho_print_multicastmessages", "examples/controller/uechodump/uechodump.c:main", "src/uecho/controller_listener.c:uecho_controller_servermessagelistener"]}
{"id": "C88", "title": "What a device or controller holds stays small whatever arrives, so watching and serving never fail", "statement": "No datagram makes a device or a controller hold a property value of more than 766 bytes; values get longer only by the program's own calls, and never longer than those calls make them. A controller that is started, searches, listens and posts requests, and a device that answers, go through every sequence of datagrams without undefined behaviour and without any assumption about memory for values.", "quantifier": "every sequence of datagrams and calls of unbounded length, every network behaviour", "why_tests_cant": "the bound must hold after every history, and a single growing value could only be seen after arbitrarily many datagrams", "anchors": ["src/uecho/controller_listener.c:uecho_controller_servermessagelistener", "src/uecho/controller_listener.c:uecho_controller_handlesearchmessage", "src/uecho/controller_listener.c:uecho_controller_updateopcpropertydata", "src/uecho/node_listener.c:uecho_node_servermessagelistener", "src/uecho/property.c:uecho_property_setdata", "src/uecho/std/node_profile_class.c:uecho_nodeprofile_updateinstanceproperties"]}
{"id": "C89", "title": "uechosearch -v asks every device found for its manufacturer and its readable properties, each once and in order, and prints just what came back", "statement": "With -v the tool asks each device of its list, in order, for the manufacturer code and then, object by object, for every property that must be readable: one request each and nothing else is sent. Each line of a value shows the values of a frame that arrived during the wait and carries the transaction id of that request, or says that there was none. As long as the requests can be sent and the devices tell of no new objects or properties meanwhile, the tool reaches its end after as many steps as there are things to ask, and no step leads to undefined behaviour, except for a manufacturer code that does not fit in an int.", "quantifier": "every history of datagrams before and during the listing, any number of devices, objects and properties, every length of run", "why_tests_cant": "the requests and their answers interleave with arbitrary other traffic, and the list of things to ask has no bound", "anchors": ["examples/controller/uechosearch/uechosearch.c:print_founddevices", "examples/controller/uechosearch/uechosearch.c:get_nodemanufacturename", "examples/controller/uechosearch/uechosearch.c:create_readpropertymessagebycode", "src/uecho/controller.c:uecho_controller_postmessage", "src/uecho/controller_listener.c:uecho_controller_handlepostresponse"]}
{"id": "C90", "title": "uechobench -v reads every readable property of every device once per round, for exactly the number of rounds given", "statement": "With -v and a number n the benchmark goes through its list of devices n times (n modulo 2^64). In each round it prints each device and object and asks, object by object, for every property that must be readable: one request each and nothing else is sent. Each line of a value shows the values of a frame that arrived during the wait with the transaction id of that request, or says that there was none. As long as the requests can be sent and nothing new is announced, no step leads to undefined behaviour and the end is reached after as many steps as there are things to do in all rounds, and not before. Without devices nothing is sent or printed.", "quantifier": "every history of datagrams before and during the rounds, every number of rounds, devices, objects and properties, every length of run", "why_tests_cant": "the number of rounds and of things to ask has no bound, and the answers interleave with arbitrary other traffic", "anchors": ["examples/controller/uechobench/uechobench.c:benchmark_founddevices", "examples/controller/uechobench/uechobench.c:main", "src/uecho/controller.c:uecho_controller_postmessage", "src/uecho/controller_listener.c:uecho_controller_handlepostresponse"]}
{"id": "C91", "title": "What uechosearch -v and uechobench -v print about devices of this library is what the devices have", "statement": "When the devices that are asked are devices built with this library, and each request is served by the device at that address, every manufacturer and every value printed is the one the device has at the time of the request: the data of the property, no data if the object has no such property, no line of values if there is no such object. For devices that stay as they are the lines printed are the list of everything found with exactly these values, in order, and each round of the benchmark prints the same list. In a network of just these devices, where what arrives is what they answer, and with the program having heard of the objects they list, no step leads to undefined behaviour and after enough steps the whole list has been printed and is true.", "quantifier": "every set of devices reachable by API calls, every history of the program before, every order and number of steps and of rounds, devices that change between the steps", "why_tests_cant": "it joins the program, the wire format and the server on the other side; the number of devices, objects, properties, rounds and changes has no bound", "anchors": ["examples/controller/uechosearch/uechosearch.c:print_founddevices", "examples/controller/uechobench/uechobench.c:benchmark_founddevices", "src/uecho/controller.c:uecho_controller_postmessage", "src/uecho/node_listener.c:uecho_node_servermessagelistener", "src/uecho/controller_listener.c:uecho_controller_handlepostresponse"]}
{"id": "C92", "title": "uechosearch finds every device of this library that answers, with all its devices, and nothing else", "statement": "When the instance lists that arrive after the search are the answers of devices built with this library, each with at most 84 device objects and an instance list that names them, the program lists each device that has answered once, in the order of the first answers, with the node profile and just its device objects in their order; other datagrams, whatever they are, add nothing to the list. When just these devices answer the requests that follow with -v, the whole list with manufacturers and values is printed and is the truth about them, and so is every round of the benchmark.", "quantifier": "every set of devices reachable by API calls, every order and repetition of the answers, every other datagrams in between, every number of steps and rounds", "why_tests_cant": "it joins the server of each device, the wire format, the table of the controller and the program; the number of devices, answers and other datagrams has no bound", "anchors": ["examples/controller/uechosearch/uechosearch.c:print_founddevices", "examples/controller/uechobench/uechobench.c:benchmark_founddevices", "src/uecho/controller.c:uecho_controller_search", "src/uecho/node_listener.c:uecho_node_servermessagelistener", "src/uecho/controller_listener.c:uecho_controller_servermessagelistener"]}
{"id": "C93", "title": "A property written with a response wanted, or with uechopost, is what the device then has and what reading shows", "statement": "When a request that writes one property and wants a response is posted, by an application or with uechopost, to a device that has the property and agrees, the device has the value and nothing else of it has changed, the waiting call gets the answer of the device, and uechopost prints it. Without a response the value is stored, nothing is answered and the program does not wait. Reading the property with uechopost afterwards, from any controller, prints the value that was written. A refused write leaves the device as it was, and the waiting call gets the refusal with the value that was sent. uechopost prints it; of a refused read it prints the refusal without a value. Several properties written by one request are all stored, but the waiting call gets a refusal.", "quantifier": "every property and value up to 255 bytes, every state of the device and of the controllers reachable by API calls, every byte order of the hosts", "why_tests_cant": "it joins the arguments of the program, the request on the wire, the server of the device, the wait of the controller and the printed line, for all values and states", "anchors": ["examples/controller/uechopost/uechopost.c:main", "src/uecho/controller.c:uecho_controller_postmessage", "src/uecho/node_listener.c:uecho_node_servermessagelistener", "src/uecho/controller_listener.c:uecho_controller_servermessagelistener"]}
