{"id": "C01", "title": "A tag name is encoded as exactly the path it spells", "statement": "Reading or writing a tag whose name is a dot-separated list of member names, each with optional subscripts [i], [i,j] or [i,j,k], and with an optional final bit number 0..31, sends a request path that is exactly one symbolic segment per (lower-cased) member name followed by one element segment per subscript in order, using the smallest element form that holds the subscript; the final bit number adds no path bytes and is remembered as the requested bit.", "quantifier": "every tag name generated by that grammar: any number of members, any names of 1..255 letters/digits/underscore/colon that do not look like a number, any subscripts up to 2^32-1", "why_tests_cant": "infinitely many names; tests only try a handful of literal names and never the boundaries of all segment widths in combination", "anchors": ["ioi.go:newIOI", "ioi.go:marshalIOIPart", "ioi.go:parse_tag_name"]}
{"id": "C02", "title": "A server decodes the path a client encodes", "statement": "For every tag name a client can address, the server that receives the encoded path presents its tag provider with the same name, lower-cased, with the same subscripts.", "quantifier": "every well-formed tag name and subscript", "why_tests_cant": "needs encode/decode agreement for every width of index and every name length parity", "anchors": ["ioi.go:newIOI", "ioi.go:getTagFromPath", "ioi.go:getAsciiTagPart"]}
{"id": "C03", "title": "A malformed tag name is rejected, never turned into a different request", "statement": "If a tag name's subscript is not a list of non-negative integers the call returns an error; it never panics, never drops the subscript and never substitutes another one.", "quantifier": "every byte string used as a tag name", "why_tests_cant": "the failing inputs are arbitrary strings; tests only use valid names", "anchors": ["ioi.go:newIOI", "ioi.go:parse_tag_name", "ioi.go:Parse"]}
{"id": "C04", "title": "Caching never changes what is sent", "statement": "After any sequence of reads, writes and tag-list refreshes, the request path and bit selection used for a tag are the same as a freshly created client with the same tag list would use for that tag; differing letter case does not matter.", "quantifier": "every finite history of lookups and tag-list updates, every tag name", "why_tests_cant": "a cache bug shows only after particular histories", "anchors": ["ioi.go:newIOI", "client.go:Client.ioi_cache"]}
{"id": "C05", "title": "Request paths are whole 16-bit words and their size byte is right", "statement": "Every encoded tag path has an even number of bytes and the word count placed in the request header equals half its length.", "quantifier": "every tag name", "why_tests_cant": "the size byte is one byte wide; overflow needs very long names", "anchors": ["ioi.go:newIOI", "read.go:Read_single", "write.go:write_single"]}
{"id": "C06", "title": "Reading bit n of an integer tag returns bit n", "statement": "Reading tag.n as a bool yields bit n of the two's complement value returned by the controller for every integer type wide enough to have bit n, and reports an error when the type has no bit n.", "quantifier": "every integer type, every value, every bit number 0..63", "why_tests_cant": "2^64 values x 64 positions x 9 types", "anchors": ["types.go:getBit", "types.go:readValue", "read.go:Read_single"]}
{"id": "C07", "title": "Route strings denote exactly their port/address bytes", "statement": "ParsePath on any comma separated list of decimal numbers 0..255, with any blanks or brackets, returns exactly those bytes in order; any element that is not such a number (and not an address with dots) makes it return an error; a dotted address is sent as a length-prefixed segment with the extended-link flag set on the preceding port byte; ParsePath never panics.", "quantifier": "every list of numbers, every decoration with blanks and brackets, every string", "why_tests_cant": "unbounded lists and arbitrary strings", "anchors": ["path.go:ParsePath"]}
{"id": "C08", "title": "The path builder concatenates segments and keeps the first error", "statement": "A chain of builder calls yields the concatenation of the segments in call order; if any call in the chain was invalid, the builder reports an error (Err) and adds nothing further, no matter what valid calls come before or after.", "quantifier": "every finite chain of builder calls with every argument", "why_tests_cant": "unbounded chains", "anchors": ["path.go:PathBuilder"]}
{"id": "C09", "title": "Class, instance, attribute and element segments round-trip", "statement": "For every class, instance, attribute and element number, the encoded segment decodes to the same number, the reported length equals the number of bytes, and the segment type byte announces the width actually used.", "quantifier": "every 16-bit class/attribute number and every 32-bit instance/element number", "why_tests_cant": "2^32 values with width switches at 256 and 65536", "anchors": ["cip_definitions.go:CIPClass", "cip_definitions.go:CIPInstance", "cip_definitions.go:CIPAttribute", "cip_definitions.go:CIPElement"]}
{"id": "C10", "title": "Item lists survive the wire", "statement": "Parsing the item list a peer serialised returns the same items (ids and bytes) in the same order, for every list that fits the 16-bit count and length fields; bytes after the list are left unread.", "quantifier": "every list of items", "why_tests_cant": "unbounded lists and payloads; 16-bit field limits", "anchors": ["items.go:readItems", "items.go:serializeItems"]}
{"id": "C11", "title": "Parsing received item lists is safe", "statement": "For every received byte string, parsing an item list either returns items whose data lengths equal their declared lengths and that re-serialise to the consumed bytes, or returns an error; it never panics or reads past the end.", "quantifier": "every byte string", "why_tests_cant": "arbitrary hostile or truncated input", "anchors": ["items.go:readItems"]}
{"id": "C12", "title": "Item cursor reads are exact and fail cleanly", "statement": "Any sequence of typed reads (8/16/32/64 bit, signed, unsigned, float bits, remaining bytes) on an item returns the successive little-endian fields of its data; a read that does not fit returns an error and leaves the cursor where it was; Reset makes the next reads start from the beginning.", "quantifier": "every data buffer and every sequence of cursor operations", "why_tests_cant": "sequence dependent state", "anchors": ["items.go:CIPItem.Byte", "items.go:CIPItem.Uint16", "items.go:CIPItem.Int16", "items.go:CIPItem.Uint32", "items.go:CIPItem.Int32", "items.go:CIPItem.Uint64", "items.go:CIPItem.Int64", "items.go:CIPItem.Rest", "items.go:CIPItem.Reset"]}
{"id": "C13", "title": "Strings are serialised in fixed slots with a truthful length", "statement": "Serialising a string value produces exactly one fixed-size slot whose length field is at most the number of characters carried and whose characters are that prefix of the string.", "quantifier": "every string (any length), every list of strings", "why_tests_cant": "only over-long strings expose the defect", "anchors": ["items.go:CIPItem.Serialize", "pack.go:Serialize"]}
{"id": "C14", "title": "Struct packing round-trips", "statement": "For every struct type made of bools, integers, floats, arrays of those, arrays of bools and nested structs, unpacking the packed bytes of a value gives back the value and consumes exactly the bytes produced.", "quantifier": "every supported struct type (any number of fields, any nesting depth) and every value of it", "why_tests_cant": "the type universe is infinite; bit packing and padding interact", "anchors": ["pack.go:Pack", "pack.go:Unpack"]}
{"id": "C15", "title": "Packed fields are aligned and bools share bytes", "statement": "In the packed form every non-bool field starts at an offset (from the start of its struct) that is a multiple of its alignment, consecutive bools occupy consecutive bits from the least significant bit of a byte, and a value never overlaps its neighbour.", "quantifier": "every supported struct type and value", "why_tests_cant": "layout depends on the entire preceding field sequence", "anchors": ["pack.go:Pack", "pack.go:Align"]}
{"id": "C16", "title": "TypeEncode names every member of the packed layout once", "statement": "The type abbreviation string of a struct lists its members in order, one entry per non-bool member and one SINT entry per byte of packed bools.", "quantifier": "every supported struct type", "why_tests_cant": "depends on arbitrary field sequences", "anchors": ["pack.go:TypeEncode"]}
{"id": "C17", "title": "A successful read returns the controller's value; a failed one returns an error", "statement": "When the controller answers a read with success, the value returned equals the value encoded in the answer for each scalar and array type; when it answers with any status other than success or partial transfer, the call returns an error and no value.", "quantifier": "every type, element count, value and status byte", "why_tests_cant": "unbounded arrays, all values and all 255 failure codes", "anchors": ["read.go:Read_single", "types.go:readValue"]}
{"id": "C18", "title": "Fragmented reads reassemble the whole tag", "statement": "When a tag is larger than one reply, the bytes assembled are exactly the tag's bytes in order, however the controller splits them, with every fragment requested at the offset where the previous one stopped.", "quantifier": "every tag content and every way of splitting it into fragments", "why_tests_cant": "all partitions of all byte strings", "anchors": ["read.go:readFragmented", "read.go:sendFragReadRequest"]}
{"id": "C19", "title": "A fragmented read surfaces controller errors", "statement": "If any fragment reply carries a status other than success or partial transfer the read returns an error, never truncated data.", "quantifier": "every error position and code", "why_tests_cant": "position dependent", "anchors": ["read.go:readFragmented"]}
{"id": "C20", "title": "A fragmented read always finishes", "statement": "A fragmented read returns after finitely many requests whatever the controller answers.", "quantifier": "every controller behaviour", "why_tests_cant": "non-termination cannot be tested", "anchors": ["read.go:readFragmented"]}
{"id": "C21", "title": "List reads cover every tag once, in order", "statement": "ReadList returns one result per requested tag, in request order, each the value the controller gave for that tag, however the list is split into messages; it terminates for every list and every connection size.", "quantifier": "every list length, tag set, controller contents and connection size", "why_tests_cant": "split points depend on sizes of all tags", "anchors": ["partialread.go:ReadList", "partialread.go:countIOIsThatFit", "read.go:readList"]}
{"id": "C22", "title": "Batched requests fit the negotiated connection size", "statement": "No multi-tag request message is larger than the negotiated connection size, provided each tag's own request fits.", "quantifier": "every tag list and connection size", "why_tests_cant": "boundary depends on every name length", "anchors": ["partialread.go:countIOIsThatFit", "read.go:readList"]}
{"id": "C23", "title": "Multi-service requests are well formed", "statement": "In every batched request the count field equals the number of tags and the k-th offset points at the first byte of the k-th embedded request, whose path size and element count are those of the k-th tag.", "quantifier": "every tag list", "why_tests_cant": "unbounded lists", "anchors": ["read.go:readList", "udt_write.go:WriteMap"]}
{"id": "C24", "title": "Multi-service replies are matched to their tags", "statement": "For any reply whose offset table locates one sub-reply per tag, in any physical order, the k-th result is decoded from the k-th sub-reply; a sub-reply with an error status makes the call fail rather than shifting results.", "quantifier": "every reply layout", "why_tests_cant": "arbitrary offset tables", "anchors": ["read.go:readList"]}
{"id": "C25", "title": "Reading a set of tags terminates even when one does not fit", "statement": "A multi-tag read returns (with a result or an error) when one tag's request alone exceeds the connection size.", "quantifier": "every tag list and connection size", "why_tests_cant": "unbounded recursion cannot be observed as a value", "anchors": ["read.go:readList", "read.go:ReadMulti"]}
{"id": "C26", "title": "Reading into a struct fills every tagged field with its own tag's value", "statement": "After ReadMulti succeeds, every field carrying a tag name holds the value of that tag.", "quantifier": "every struct type and tag assignment, including two fields naming one tag", "why_tests_cant": "all assignments of tags to fields", "anchors": ["read.go:ReadMulti"]}
{"id": "C27", "title": "Writes report controller errors", "statement": "Every write operation returns an error when the controller answers it with a non-success status.", "quantifier": "every write operation, status code and position in a batch", "why_tests_cant": "all codes and positions", "anchors": ["write.go:write_single", "udt_write.go:WriteMap"]}
{"id": "C28", "title": "A batch write names every leaf once", "statement": "WriteMulti/WriteMap send exactly one embedded write per scalar leaf of the given struct or map, addressed by its full dotted path and carrying its value.", "quantifier": "every nested map/struct shape", "why_tests_cant": "unbounded nesting", "anchors": ["udt_write.go:multi_to_dict", "udt_write.go:udt_to_dict", "udt_write.go:WriteMap"]}
{"id": "C29", "title": "Bool arrays are unpacked word by word, low bit first", "statement": "Reading a []bool of 32n elements yields element i equal to bit (i mod 32) of 32-bit word i/32.", "quantifier": "every n and every word content", "why_tests_cant": "unbounded n", "anchors": ["read.go:Read"]}
{"id": "C30", "title": "Buffered tags have distinct slots", "statement": "At every moment of a data-table buffer's life all its tags have different slot numbers.", "quantifier": "every sequence of add/sync/remove operations", "why_tests_cant": "history dependent", "anchors": ["datatable.go:AddTag", "datatable.go:AddTags", "datatable.go:RemoveTag"]}
{"id": "C31", "title": "A buffer read hands each tag its own bytes", "statement": "For a controller that returns the buffered tags' values in slot order, ReadAll reports for every tag exactly its own value, for any mix of sizes and batches.", "quantifier": "every tag set, batch partition and memory content", "why_tests_cant": "slot offsets depend on every earlier tag's size", "anchors": ["datatable.go:ReadAll", "datatable.go:ReadAllRaw"]}
{"id": "C32", "title": "Closing a buffer is idempotent and final", "statement": "After Close every operation returns an error and sends nothing; closing again succeeds and sends nothing.", "quantifier": "every operation sequence", "why_tests_cant": "history dependent", "anchors": ["datatable.go:Close"]}
{"id": "C33", "title": "Tag groups expand arrays and names predictably", "statement": "A tag group reads each definition under its formatted name, normalises the element count to at least 1, expands an n-element definition to exactly the names base[0]..base[n-1] in order, and does not alter the caller's slice.", "quantifier": "every definition list and argument map", "why_tests_cant": "unbounded counts and arbitrary strings", "anchors": ["taggroup.go:NewTagGroup", "taggroup.go:formatName", "taggroup.go:expandArrayTag"]}
{"id": "C34", "title": "Typed accessors never return a value of the wrong type", "statement": "A typed accessor of a tag-group result succeeds exactly when the tag is present with that type, and then returns exactly the stored value.", "quantifier": "every result map, name and type", "why_tests_cant": "all type pairs", "anchors": ["taggroup.go:TagGroupResult"]}
{"id": "C35", "title": "At most one connect or disconnect is in progress", "statement": "Under every interleaving of concurrent Connect and Disconnect calls at most one of them is past its entry check, a Connect succeeds only from the disconnected state, and when any accepted call has finished the client is again connected or disconnected.", "quantifier": "every number of goroutines and every interleaving", "why_tests_cant": "schedules are unbounded", "anchors": ["connect.go:startConnect", "connect.go:Connect", "disconnect.go:startDisconnect", "disconnect.go:Disconnect"]}
{"id": "C36", "title": "Concurrent requests get their own replies", "statement": "When several goroutines share a client and the controller answers requests in order, every call receives the reply to the request it sent.", "quantifier": "every number of goroutines, every interleaving", "why_tests_cant": "schedules are unbounded", "anchors": ["sendreceive.go:send_recv_data"]}
{"id": "C37", "title": "Session request parameters carry the requested size", "statement": "The connection-parameter word of an open request has the connection size in its size field unaltered and the type/priority bits elsewhere; a standard open never asks for more than 511 bytes and a fallback sets the client's size to what was opened.", "quantifier": "every configured connection size", "why_tests_cant": "65536 sizes and both request forms", "anchors": ["connect.go:newForwardOpenLarge", "connect.go:newForwardOpenStandard", "connect.go:Connect"]}
{"id": "C38", "title": "Sequence counts differ between nearby requests", "statement": "Any two of 65536 consecutive requests of one process carry different sequence counts, wherever the counter starts and even when several goroutines draw them.", "quantifier": "every start value and every window", "why_tests_cant": "wrap-around happens rarely", "anchors": ["client.go:sequencer"]}
{"id": "C39", "title": "Frames are self-delimiting", "statement": "The frame built for any list of message parts whose total fits 65535 bytes is parsed by the peer into the same header and exactly the same payload, whatever follows in the stream and however the stream is segmented.", "quantifier": "every payload, every following bytes", "why_tests_cant": "arbitrary segmentation", "anchors": ["sendreceive.go:sendMsgBuild", "sendreceive.go:recvData", "server.go:send"]}
{"id": "C40", "title": "The server's connection table behaves like a map of open connections", "statement": "After any sequence of opens and closes, a lookup finds a connection iff one with that id was opened more often than closed, closing one connection never makes another unreachable, and a closed connection is marked closed.", "quantifier": "every operation sequence", "why_tests_cant": "history dependent; swap-with-last removal", "anchors": ["server_connections.go:serverConnectionManager"]}
{"id": "C41", "title": "The map tag provider behaves like an array-aware map", "statement": "After any sequence of reads and writes, reading a tag returns the most recently written value for that name ignoring case, an element write changes only that element, and a failed write changes nothing.", "quantifier": "every operation sequence", "why_tests_cant": "history dependent", "anchors": ["server_router.go:MapTagProvider"]}
{"id": "C42", "title": "Server string replies are fixed-size and truthful", "statement": "A string in a read reply always occupies one fixed slot whose length field is min(len,82) and whose data begins with that many characters of the string followed by zeros; a client that parses it gets that prefix.", "quantifier": "every string", "why_tests_cant": "unbounded lengths", "anchors": ["server_connected.go:cipStringPacker"]}
{"id": "C43", "title": "The server stores what the client wrote", "statement": "For every scalar or array value of a supported type, the values the server extracts from the client's write request equal the values the client was given.", "quantifier": "every type, count and value, including arrays of strings", "why_tests_cant": "unbounded arrays", "anchors": ["server_connected.go:parseWriteValues", "write.go:write_single", "items.go:CIPItem.Serialize"]}
{"id": "C44", "title": "Write then read through the server returns the value", "statement": "After a client write of a tag succeeds against the built-in server and map provider, a client read of the same tag (any letter case) as the same type returns the written value.", "quantifier": "every tag name, atomic type and value", "why_tests_cant": "composition of six codecs for all values", "anchors": ["write.go:write_single", "server_connected.go:cipConnectedWrite", "server_connected.go:connectedRead", "read.go:Read_single"]}
{"id": "C45", "title": "No request can crash the server", "statement": "For every byte string received on a connection the server either replies, closes that connection or keeps waiting; it never panics.", "quantifier": "every byte string", "why_tests_cant": "arbitrary hostile input", "anchors": ["server.go:forwardOpen", "server_connected.go:cipConnectedWrite", "server_connected.go:connectedMulti", "server_unconnected.go:unconnectedData"]}
{"id": "C46", "title": "Every request is answered once, to its sender's context", "statement": "For every complete request the server accepts it sends exactly one reply, carrying the request's sender context and the session handle.", "quantifier": "every request kind", "why_tests_cant": "all services and paths", "anchors": ["server.go:serve", "server.go:sendUnitData", "server_unconnected.go:unconnectedData"]}
{"id": "C47", "title": "Server multi-service replies are self-consistent", "statement": "In a multi-service reply the count equals the number of requests, the k-th offset points at the k-th sub-reply, and the sub-reply answers the k-th request.", "quantifier": "every list of sub-requests", "why_tests_cant": "unbounded lists", "anchors": ["server_connected.go:connectedMulti"]}
{"id": "C48", "title": "Identity data round-trips between server and client", "statement": "The identity a client lists from the built-in server equals the server's configured attributes, with the product name truncated to 255 characters.", "quantifier": "every attribute value, name, address and port", "why_tests_cant": "all values; mixed byte orders", "anchors": ["server_listidentity.go:buildListIdentityItemBody", "listidentity.go:ParseFromBytes"]}
{"id": "C49", "title": "Timer, counter and control structures round-trip", "statement": "Packing then unpacking a TIMER, COUNTER or CONTROL returns the same structure and uses 12 bytes.", "quantifier": "every field value", "why_tests_cant": "2^64+ values", "anchors": ["lgxtypes/timer.go", "lgxtypes/counter.go", "lgxtypes/control.go"]}
{"id": "C50", "title": "Listing tags collects every tag regardless of paging", "statement": "When the controller returns its tags in any sequence of pages, ListAllTags records every valid tag exactly once under its lower-cased name and terminates.", "quantifier": "every tag table and page partition", "why_tests_cant": "unbounded paging", "anchors": ["listalltags.go:ListAllTags", "listsubtags.go:ListSubTags"]}
{"id": "C51", "title": "Listing a program returns every tag of it", "statement": "The list returned by ListSubTags contains every valid tag of the program, and the call terminates.", "quantifier": "every tag table and page partition", "why_tests_cant": "unbounded paging", "anchors": ["listsubtags.go:ListSubTags"]}
{"id": "C52", "title": "Browse instance numbers are stable", "statement": "The server's custom-class instance number of a tag depends only on the set of tag names, is a bijection between 1..n and the tags, and reads through it reach that tag.", "quantifier": "every tag set and iteration order", "why_tests_cant": "map iteration order is random", "anchors": ["server_unconnected.go:resolveSymbolicTagFromCustomClass", "server_unconnected.go:buildSymbolObjectInstanceListResponse"]}
{"id": "C53", "title": "Attribute reads report controller errors", "statement": "GetAttrSingle, GetAttrList and GenericCIPMessage return an error whenever the controller's reply carries a non-success status.", "quantifier": "every status word and payload", "why_tests_cant": "all codes", "anchors": ["getattr.go:GetAttrSingle", "getattr.go:GetAttrList", "getattr.go:GenericCIPMessage"]}
{"id": "C54", "title": "Combined errors can be inspected safely", "statement": "Testing a combined error for membership finds every error it contains and never panics; unwrapping terminates; the error text shows the text of every error it contains, in order.", "quantifier": "every list of errors", "why_tests_cant": "unbounded chains", "anchors": ["errors.go:multiError"]}
{"id": "C55", "title": "No controller reply crashes the client", "statement": "Whatever bytes a controller sends in reply to a read, a write, an attribute request or a connection request, the call returns a result or an error; it never panics.", "quantifier": "every reply payload", "why_tests_cant": "A test sends finitely many replies; a panic needs one particular count, offset or length field.", "anchors": ["read.go:readList", "read.go:Read_single", "partialread.go:ReadList", "write.go:Write", "getattr.go:GetAttrSingle", "connect.go:forwardOpen"]}
{"id": "C56", "title": "Reading into a struct reports type mismatches", "statement": "ReadMulti returns an error when a tag's value cannot be stored in its field; it never panics on a well-formed reply.", "quantifier": "every struct type and controller value type", "why_tests_cant": "The combinations of field type and controller type are too many to list, and the failing ones only show on a controller whose tag changed type.", "anchors": ["read.go:ReadMulti"]}
{"id": "C57", "title": "Slices of structs unpack element by element", "statement": "Unpacking into a slice of structs whose packed elements each fill a multiple of the struct's alignment gives back the elements, whatever the padding bytes hold, and consumes exactly those bytes.", "quantifier": "every struct type, every number of elements, every padding content", "why_tests_cant": "the stride depends on the element layout, which is arbitrary", "anchors": ["pack.go:Unpack"]}
{"id": "C58", "title": "A single write sends exactly one Write Tag request for the value", "statement": "Write(tag, v) sends one request whose path is the tag's (down to the bit, if the name ends in a bit number), whose type is that of v, whose count is the number of elements of v and whose data is those elements in order; a struct is sent with the handle and packed form of its type.", "quantifier": "every tag name, every value, every client state", "why_tests_cant": "unbounded names and values", "anchors": ["write.go:write_single", "write.go:write_udt", "messages.go:msgCIPWriteIOIFooter"]}
{"id": "C59", "title": "Batch writes respect the connection size", "statement": "No request sent by WriteMap or WriteMulti is larger than the negotiated connection size; larger maps are split into several requests, as reads are.", "quantifier": "every map and connection size", "why_tests_cant": "unbounded maps", "anchors": ["udt_write.go:WriteMap"]}
{"id": "C60", "title": "Attribute and generic requests address exactly the named object", "statement": "GetAttrSingle, GetAttrList and GenericCIPMessage send one request carrying the service, the path of the object (class, instance, attribute) with its length in words, and the given data.", "quantifier": "every class, instance, attribute, service, path and payload", "why_tests_cant": "segment widths depend on the numbers", "anchors": ["getattr.go:GetAttrSingle", "getattr.go:GetAttrList", "getattr.go:GenericCIPMessage"]}
{"id": "C61", "title": "A tag group read returns each definition's value", "statement": "ReadTagGroup asks for every definition under its formatted name with the definition's element count, and returns under each name exactly that tag's value, whatever order the map is walked in.", "quantifier": "every group with distinct formatted names, every connection size, every controller that answers with the values", "why_tests_cant": "map order, batching and unbounded definitions", "anchors": ["taggroup_readmap.go:ReadTagGroup", "taggroup.go:zeroValueForTagDef"]}
{"id": "C62", "title": "A group read from a buffer comes back whole", "statement": "After AddTagGroup, ReadAllTyped reports for each definition of the group its value, or for an array the values of its elements in order; tags added by themselves keep their own value, and nothing else is reported.", "quantifier": "every group, history of the buffer, map iteration order and controller memory", "why_tests_cant": "depends on map iteration order, on name expansion and on all slots before", "anchors": ["datatable.go:AddTagGroup", "datatable.go:ReadAllTyped", "taggroup.go:expandArrayTag"]}
{"id": "C63", "title": "Open and close requests announce exactly their route", "statement": "The open requests Connect sends and the close request Disconnect sends end with the configured route followed by the message router path, and the path size they announce counts exactly those bytes.", "quantifier": "every configured route, every controller behaviour", "why_tests_cant": "routes have arbitrary length and can contain dotted addresses of odd length", "anchors": ["connect.go:newForwardOpenLarge", "connect.go:newForwardOpenStandard", "disconnect.go:disconnect"]}
{"id": "C64", "title": "Disconnect closes the connection Connect opened", "statement": "After a successful Connect the close request Disconnect sends carries the serial number, vendor, originator and path of the open request the controller accepted.", "quantifier": "every client configuration, every controller behaviour including refusal of the large open", "why_tests_cant": "the accepted request depends on which of the two opens the controller refuses", "anchors": ["connect.go:Connect", "disconnect.go:disconnect"]}
{"id": "C65", "title": "Connect succeeds exactly when the controller grants an open request", "statement": "A successful Connect means the controller's last reply granted the open request it answered; the client then uses the connection id granted and the session handle of the registration reply. A controller that accepts the registration and grants the first open request makes Connect succeed.", "quantifier": "every controller behaviour, every client configuration", "why_tests_cant": "the space of replies, including extended status and refusals of the large open, is unbounded", "anchors": ["connect.go:Connect", "connect.go:forwardOpen", "connect.go:parseResponse", "connect.go:registerSession"]}
{"id": "C66", "title": "A value read from the provider is a snapshot", "statement": "The value TagRead returned keeps its contents whatever is written to the provider afterwards.", "quantifier": "every provider state, read and later writes", "why_tests_cant": "aliasing between a returned slice and the stored array shows only under particular interleavings", "anchors": ["server_router.go:TagRead", "server_router.go:TagWrite"]}
{"id": "C67", "title": "Writing n values at name[i] fills elements i to i+n-1", "statement": "A write of n values addressed to name[i] of a stored array with i+n within its length stores them in elements i..i+n-1 and nothing else.", "quantifier": "every array, index, count and values", "why_tests_cant": "all index and count combinations", "anchors": ["server_router.go:TagWrite"]}
{"id": "C68", "title": "RemoveTag removes the tag it names", "statement": "RemoveTag of a data-table buffer sends exactly one request naming the position at which the (first) tag of that name was added; on success exactly that tag is forgotten, otherwise the buffer is unchanged; a name never added gives an error and nothing is sent.", "quantifier": "every history of calls on a buffer, every tag name, every reply", "why_tests_cant": "positions depend on the whole history of additions, removals and synchronisations", "anchors": ["datatable.go:RemoveTag"]}
{"id": "C69", "title": "Listing services returns the services the device offers", "statement": "ListServices returns version, capabilities and name of each service the device lists, in order; in particular it succeeds against the built-in server.", "quantifier": "every list of services with names of up to 16 bytes, every state of the built-in server", "why_tests_cant": "all lists; the client and server halves are tested apart", "anchors": ["listservices.go:ListServices", "listservices.go:ParseFromBytes", "server.go:sendListServicesData"]}
{"id": "C70", "title": "Listing a template's members", "statement": "ListMembers returns the name the controller gives the template and every member's name, type and offset in order, nested templates included, and fails when the controller does not know the template.", "quantifier": "every family of templates, however nested, and every client state", "why_tests_cant": "unbounded nesting and member counts; needs controller replies of every shape", "anchors": ["listmembers.go:ListMembers", "listmembers.go:GetTemplateInstanceAttr"]}
{"id": "C71", "title": "Writes by instance number reach the numbered tag", "statement": "A Set_Attribute_Single on the custom class writes the value into the tag with that number and into no other tag, and the tag holds what was written when success is reported.", "quantifier": "every tag set, numbered tag, value, and both the direct and the wrapped form of the request", "why_tests_cant": "the numbering depends on the whole tag set and the written value on every type; a test fixes one of each", "anchors": ["server_unconnected.go:unconnectedServiceSetAttrSingle", "server_unconnected.go:resolveSymbolicTagFromCustomClass"]}
{"id": "C72", "title": "Batched reads of the built-in server return its values", "statement": "ReadList, ReadMap and ReadMulti of tags stored in the built-in server's map provider return, tag for tag, the stored values, however the list is cut into requests, and leave the server's tags and the client's connection as they were.", "quantifier": "every list of tags, connection size, stored values and sequence numbers", "why_tests_cant": "the product of batching on the client and multi-service handling on the server, for unbounded lists", "anchors": ["read.go:ReadList", "read.go:ReadMap", "read.go:ReadMulti", "server_connected.go:connectedMulti"]}
{"id": "C73", "title": "WriteMap to the built-in server stores every entry", "statement": "When WriteMap to the built-in server succeeds, every tag of the map has the value given for it, no other tag has changed, and a client reading the tag in any letter case gets the value; when it fails, nothing has been written.", "quantifier": "every map of tags and values, whatever order it is walked in", "why_tests_cant": "unbounded maps, and every order of walking them", "anchors": ["udt_write.go:WriteMap", "server_connected.go:connectedMulti", "server_router.go:TagWrite"]}
{"id": "C74", "title": "Unpack reads what a controller sends", "statement": "Unpack into a struct returns the value that the bytes show in the controller's layout, whatever the padding bytes and spare bits hold; it reads exactly the struct's bytes and fails when there are fewer.", "quantifier": "every struct type of numbers, bools, arrays and nested structs, every value, every content of the padding", "why_tests_cant": "the padding and the struct types are unbounded; tests unpack only what Pack wrote", "anchors": ["pack.go:Unpack"]}
{"id": "C75", "title": "Output data received over class 1 I/O", "statement": "A class 1 datagram addressed to an open connection stores the value its data shows, after a six byte header, in the provider that connection was routed to, completely or not at all and never replacing newer data by older; any other datagram, whatever its bytes, changes nothing and cannot stop the server.", "quantifier": "For all histories of opens, closes, datagrams, ticks and calls by the program, all provider types and values, and all datagram contents", "why_tests_cant": "Datagrams may be lost, cut, repeated, reordered or forged, at any point in any history; tests send a few well-formed ones in order", "anchors": ["server.go", "server_io.go", "pack.go", "server_connections.go"]}
{"id": "C76", "title": "Input data sent over class 1 I/O", "statement": "From an accepted I/O forward open until the connection is closed or its TCP session ends, each packet interval sends exactly one datagram carrying the connection's identifier, the next sequence number and the input value the program set last; nothing is sent for other connections, nor after the close, and no request can stop the server.", "quantifier": "For all histories, all input types and values, any number of connections, and any number of messages", "why_tests_cant": "Whether a message is sent for a closed connection, or with a stale value or a repeated number, depends on the interleaving of the ticker with opens, closes and updates", "anchors": ["server.go", "server_io.go", "server_iochannel.go"]}
{"id": "C77", "title": "Output data handed out through channels", "statement": "Each value received for a channel provider is given to every channel that has a receiver waiting, and what a channel gives is in the order the datagrams arrived, without repetition.", "quantifier": "For all histories, any number of channels and receivers waiting at any of them", "why_tests_cant": "Which channels have a receiver waiting when a datagram arrives is a matter of scheduling", "anchors": ["server_iochannel.go", "server.go"]}
{"id": "C78", "title": "Variables given to a tag buffer hold the controller's values", "statement": "When tags are added to a data table buffer with variables (AddTagRef) or by passing structs with gologix field tags (AddTaggedStruct), every successful ReadAll leaves in each such variable - scalar, slice element - the value its own tag has in the controller at that time, and changes no other variable; nothing but ReadAll changes any; and a variable only ever holds values of its own type.", "quantifier": "For all structs, tags, variables, order in which maps are walked, histories of adding, syncing and reading, controller memories; the last part for all histories and all answers", "why_tests_cant": "Tests would have to try all ways of walking the tag map, all struct layouts and all histories that assign batch positions to tags", "anchors": ["datatable.go", "taggroup.go"]}
{"id": "C79", "title": "Connecting to the built-in server gives a usable session to the tags at the client's route", "statement": "A client of this library that calls Connect on a running built-in server succeeds, whatever the server's other connections are; the server has one more open connection, the tags are unchanged, and the client's reads and writes from then on act on the provider its route names. Clients already connected keep working on their own tags.", "quantifier": "for all servers with any history of connections, all clients (connection size, route, counter, clock), all other clients already connected", "why_tests_cant": "The numbers both sides keep depend on the clock and on all earlier connections; a test sees one or two clients connecting at times of its choosing.", "anchors": ["connect.go:70", "connect.go:178", "connect.go:328", "connect.go:479", "server.go:640", "server.go:862", "server_connections.go:29"]}
{"id": "C80", "title": "Disconnecting from the built-in server closes that connection and no other", "statement": "When a client of this library calls Disconnect, the built-in server closes the connection that client opened and leaves every other client's connection open and usable; tags are unchanged. A second Disconnect, or one for a connection the server does not know, changes nothing.", "quantifier": "for all servers with any history of connections, all clients", "why_tests_cant": "Which connection a close request hits depends on the serial numbers of all open connections, which wrap around at 65536 and come from the clocks of different clients.", "anchors": ["disconnect.go:55", "server.go:546", "server_connections.go:65"]}
{"id": "C81", "title": "The keep-alive never brings the program down", "statement": "Whatever a program does with Connect, Disconnect, KeepAlive, KeepAliveCancel and requests, from any number of goroutines and in any interleaving with the keep-alive's own goroutine, no call panics because of the keep-alive, and at most one keep-alive runs for a client.", "quantifier": "for all numbers of goroutines, all sequences of calls, all interleavings, all outcomes of requests", "why_tests_cant": "The failures are closings of a nil or already closed channel that need a particular interleaving of Disconnect, Connect and the keep-alive goroutine; a test runs whatever interleaving the scheduler gives it.", "anchors": ["connect.go:166", "connect.go:195", "disconnect.go:68", "disconnect.go:146"]}
{"id": "C82", "title": "The keep-alive re-reads the tags exactly when the controller has changed", "statement": "While it runs, the keep-alive asks for the monitored properties at every tick; with KeepAlivePollTags the tags are listed at the start and after every change of the properties and at no other time; if the properties cannot be read, the connection is taken down.", "quantifier": "for all sequences of ticks, all controller replies, all outcomes of listing", "why_tests_cant": "A change is relative to the previous reply; the claim is about every sequence of replies, including changes back and forth and failures in between.", "anchors": ["connect.go:208", "connect.go:226", "connect.go:236"]}
{"id": "C83", "title": "KeepAliveAutoStart keeps every connection alive", "statement": "With KeepAliveAutoStart set, every successful Connect, the first and every later one, starts a keep-alive for the new connection, which runs as long as the connection does.", "quantifier": "for all histories of connects and disconnects, all interleavings with the keep-alive goroutine", "why_tests_cant": "Whether the setting survives depends on which case of a select the goroutine takes when both are ready, and on when it notices a Disconnect.", "anchors": ["client.go:69", "connect.go:166", "connect.go:267"]}
{"id": "C84", "title": "ReadMulti with arguments reads the tags its templates name", "statement": "When ReadMulti is called with arguments, every tagged field of the struct, also one inside an embedded struct, is filled from the tag whose name is the field's gologix tag with {0}, {1}, ... replaced by the arguments, and fields without a tag keep their contents.", "quantifier": "all structs, templates, arguments, controllers that answer the reads, client states, connection sizes", "why_tests_cant": "The names are assembled at run time from any text and any arguments, and the values come back through an index into the struct that a test with a flat struct cannot tell from a wrong one.", "anchors": ["read.go:704", "read.go:718", "read.go:723", "read.go:733", "read.go:748", "taggroup.go:45"]}
{"id": "C85", "title": "LoadTags gives every tag of a project file its value", "statement": "After l5x.LoadTags every tag the project file shows a value for is in the result: a controller tag under its name, a tag of program P in the map under program:P, an atom as a Go value of its type, a structure as a map by member, an array as the list of its elements, and nothing else is there.", "quantifier": "all project files, all tags, types, values and nestings, all float parsers", "why_tests_cant": "A test has a few exported files; which tags, types and nestings come through for any project is a statement about all of them.", "anchors": ["l5x/load_tags.go:9", "l5x/types.go:8", "l5x/schema.go:3982"]}
{"id": "C86", "title": "Every project file can be loaded", "statement": "l5x.LoadTags returns the tags of every project file the XML decoder accepts; it neither panics nor refuses the file.", "quantifier": "all project files", "why_tests_cant": "Sections and attributes are optional in the format; a test only has files in which the ones it needs are present.", "anchors": ["l5x/load_tags.go:9", "l5x/load_tags.go:61"]}
{"id": "C87", "title": "LoadRungComments has every rung comment at its place", "statement": "After l5x.LoadRungComments the comment of every rung is found under task/program/routine[rung], the task being the one the program is scheduled in, and every entry is the comment of such a rung.", "quantifier": "all project files, all tasks, programs, routines, rungs and comments", "why_tests_cant": "That no two rungs share a key and that text comes out as written depends on all names and texts.", "anchors": ["l5x/load_tags.go:193", "l5x/load_tags.go:217", "l5x/schema.go:3982"]}
{"id": "C88", "title": "LoadTagComments describes tags, all their members and module points", "statement": "l5x.LoadTagComments returns, and has the description of every tag under its name, for every member, at any depth, under tag.member.member the descriptions of the tag, the types and the members on the way, and the comment on every point of a module under module:I or module:O and the operand.", "quantifier": "all project files, all user-defined types at any depth, all tags of the controller and of programs", "why_tests_cant": "Types nest to any depth and every level adds to text and key; a test only has the depths and names of its file.", "anchors": ["l5x/load_tags.go:100", "l5x/load_tags.go:151", "l5x/load_tags.go:171", "l5x/load_tags.go:238"]}
{"id": "C89", "title": "GetFaults returns the controller's fault summary", "statement": "When the controller answers the request for its fault object with success, canned.GetFaults returns the fault types, counts and the three last events exactly as sent; when it answers with an error, for another service or with less than a whole summary, GetFaults returns an error; and a summary is only ever returned if the controller has sent it.", "quantifier": "all controllers, all well-formed replies, all fault summaries", "why_tests_cant": "All counts, types, times, codes and details and all replies; a test has one recorded reply.", "anchors": ["canned/faults.go:161", "canned/faults.go:52"]}
{"id": "C90", "title": "Fault type methods report the faults there are", "statement": "For every value of a fault type word and every kind of fault, the method for that kind (IOFault, ProgramFault, ...) is true exactly if the controller has set the bit of that fault type, numbered as in FaultDescriptions.", "quantifier": "all 32-bit words, all kinds of faults", "why_tests_cant": "All combinations of faults; tests try none.", "anchors": ["canned/faults.go:60", "canned/faults.go:85", "canned/fault_descriptions.go:16"]}
{"id": "C91", "title": "A fault is described as what it is", "statement": "Description of a fault event has the type and code of the event, and for an unknown fault the event's own detail.", "quantifier": "all fault events", "why_tests_cant": "All 2^32 types and codes, of which the table knows 178.", "anchors": ["canned/faults.go:18", "canned/fault_descriptions.go:15"]}
{"id": "C92", "title": "GetForces tells whether forces exist and are enabled", "statement": "canned.GetForces returns the force status the controller reports or an error, Enabled tells whether forces are enabled, and Exist whether forces exist.", "quantifier": "all controllers, all replies, all status words", "why_tests_cant": "Forces that exist but are not enabled need a controller in that state.", "anchors": ["canned/forces.go:11", "canned/forces.go:14", "canned/forces.go:18"]}
{"id": "C93", "title": "GetControllerPropList and Match tell whether the controller has changed", "statement": "When the controller reports its five properties, GetControllerPropList returns them as reported; when it answers with an error, that error is returned; and two property lists Match exactly if the controller reported the same.", "quantifier": "all controllers, all well-formed replies, all property values and statuses", "why_tests_cant": "All values of five properties and all pairs of lists.", "anchors": ["getattr.go:189", "getattr.go:211"]}
{"id": "C94", "title": "Reading a structure gives the controller's value or an error", "statement": "Client.Read into a pointer to a struct (user-defined, or lgxtypes TIMER, COUNTER, CONTROL) or into a slice of structs fills it with the value the controller sent for the tag, element by element for slices, whatever the padding holds; it reports success only if the controller sent such a value, and it never brings the program down.", "quantifier": "for all tags, struct types and values, slice lengths, controllers (any reply bytes), paddings and previous contents of the destination", "why_tests_cant": "A test reads a few structs from one controller. It says nothing about other layouts, about what a misbehaving reply leads to, or about destinations nobody tried.", "anchors": ["read.go:294", "read.go:326", "read.go:336", "read.go:350", "pack.go:241", "lgxtypes/timer.go:56"]}
{"id": "C95", "title": "A client leaves no socket behind", "statement": "At any time the only socket a client has open is the one of its current connection: a Connect that fails, a connection that is lost and a Disconnect leave none behind.", "quantifier": "for all sequences of calls on a client, AutoConnect on or off, and everything the network and the controller may do (dials failing, requests lost or refused at any moment)", "why_tests_cant": "A leaked socket has no effect a test would see; which failures leak shows only over all orders of failures.", "anchors": ["connect.go:70", "connect.go:129", "disconnect.go:54", "sendreceive.go:79"]}
{"id": "C96", "title": "Without a connection a call returns an error", "statement": "A call made while the client is not connected, or whose connection breaks during the call, returns an error (or reconnects): it neither panics nor blocks for ever.", "quantifier": "for all methods, all sequences of earlier calls and everything the network may do at any moment", "why_tests_cant": "The crashes need a connection to break at one particular moment of a call and the next dial to fail; a test cannot place failures at every point.", "anchors": ["sendreceive.go:53", "connect.go:547", "client.go:239", "udt_write.go:127", "listalltags.go:115"]}
{"id": "C97", "title": "AutoConnect reconnects by itself", "statement": "With AutoConnect, whatever failed before, the next read or write made once the controller answers again succeeds over a connection that is open then; without AutoConnect it fails without anything being sent. A read or write that succeeds was answered over the client's current connection.", "quantifier": "for all histories of calls and failures and all reads and writes", "why_tests_cant": "Tests lose a connection at one place and try one method.", "anchors": ["connect.go:547", "read.go:39", "write.go:50", "write.go:102", "udt_write.go:127"]}
{"id": "C98", "title": "A client gets the attributes of the built-in server's identity", "statement": "A client connected to the built-in server gets every attribute the server's identity object has, with its value, by GetAttrSingle, and all of them by GetAttributesAll; whichever call is used. GetAttributesAll on the program object gives the server's name. The firmware revision the client works with is the server's. Asking for an attribute, instance or class that is not there is an error and the connection stays usable.", "quantifier": "for all attribute tables of a server, all attributes asked for, and every state of server and connection", "why_tests_cant": "Tests ask for one or two attributes of the default identity and for nothing that is absent.", "anchors": ["getattr.go:101", "getattr.go:421", "client.go:239", "server_connected.go:521", "server_connected.go:538", "server.go:376"]}
{"id": "C99", "title": "A client lists the tags of the built-in server", "statement": "ListAllTags of a client connected to the built-in server returns without an error, and the client then knows every tag of the server's tag provider.", "quantifier": "for all tag providers, all listing states of the client and every state of server and connection", "why_tests_cant": "Tests of listing use recorded replies of a controller or the server's reply bytes alone; the two halves meet only when every provider is tried.", "anchors": ["listalltags.go:115", "server.go:441", "server_unconnected.go:207"]}
{"id": "C100", "title": "What the built-in server does not offer is an error and no more", "statement": "A request over a connection for a service the built-in server does not know, or one of the calls made for a controller's own objects (properties, forces, faults), returns an error and leaves the server and the connection as they were, so that reads and writes go on; and a client's keep-alive keeps asking as long as the connection is up.", "quantifier": "for all services, paths, request data, attribute lists and every state of server and connection", "why_tests_cant": "There are more services and paths than a test can try, and the effect on later requests has to be shown for all of them.", "anchors": ["getattr.go:246", "getattr.go:211", "getattr.go:421", "faults.go:161", "forces.go:18", "connect.go:195", "server.go:251"]}
{"id": "C101", "title": "Serve opens both ports or neither, serves, and returns when it cannot", "statement": "Serve opens both of the server's ports or returns an error and has neither, so that it can be called again. While it serves, every client that connects gets a handler of its own, also after accepts that failed. When its listeners are closed it returns an error with both ports given up. Calling it twice does no harm.", "quantifier": "for all states of the two ports, all programs calling Serve and closing listeners, all clients and all interleavings of the goroutines", "why_tests_cant": "Tests start one server on free ports and never let an accept fail, close a listener or call Serve again.", "anchors": ["server.go:44", "server.go:63", "server.go:116", "server.go:142"]}
{"id": "C102", "title": "A server forgets the connections of a client that is gone", "statement": "When a client's TCP connection ends, for whatever reason, the server gives up the connections that were opened over it; tags, other clients and their connections stay as they are.", "quantifier": "for all servers, clients, numbers of clients and moments at which a TCP connection ends", "why_tests_cant": "Tests end with the test program, so nothing looks at the server's table after a client has gone, let alone after many.", "anchors": ["server.go:202", "server.go:205", "server.go:619", "server.go:704"]}
{"id": "C103", "title": "A request acts on the tags of its route", "statement": "A request is served by the provider registered for its route: the route the connection was opened with, or the route an Unconnected Send carries. It reads and changes the tags of no other provider.", "quantifier": "for every server state with any providers and routes, every frame, and every course of frames on any number of TCP connections with any writes by the program to other providers", "why_tests_cant": "A test sees the tags it looks at for the requests it sends; that no frame at all, well formed or not, lets one route's tags leak into another's answers or be changed is a statement about all pairs of states and all frames.", "anchors": ["server_router.go:26", "server_router.go:34", "server.go:704", "server_unconnected.go:11", "server_connected.go:9", "server_connected.go:261"]}
{"id": "C104", "title": "An Unconnected Send does what a connected request does", "statement": "A read or write sent in an Unconnected Send does what it does over a connection to the same route: the same tags change in the same way, and the reply has the same contents. When it cannot be done the sender is told.", "quantifier": "for every server state, every path, count, type and values of a read or write, every route and whatever follows on the stream", "why_tests_cant": "Tests compare replies for a handful of requests; that two separate handlers with their own parsing agree for every path, value and route, including when requests fail, needs a proof about both on all inputs.", "anchors": ["server_unconnected.go:11", "server_unconnected.go:336", "server_unconnected.go:577", "server_connected.go:9", "server_connected.go:261", "server_connected.go:418"]}
{"id": "C105", "title": "A reply names the connection and service it answers", "statement": "A reply is addressed to the connection its request came over, and carries the request's sequence count and its service; an unconnected reply carries the service of the request, or of the message in an Unconnected Send.", "quantifier": "for every server state and handler, every connected or unconnected request, well formed or not, of every service", "why_tests_cant": "A client matches replies by connection number, sequence count and service. Tests use one connection per socket and a few services; whether each of the handlers addresses its replies right for every connection and every malformed request is not something they can settle.", "anchors": ["server_connected.go:477", "server_connected.go:501", "server.go:351", "server.go:474", "server.go:495", "server_unconnected.go:649", "server_unconnected.go:667"]}
{"id": "C106", "title": "Overlapping requests act as at one moment", "statement": "However the requests of several clients overlap, each request gives the answer and has the effect it would have in one go at some moment while it was being served.", "quantifier": "for every number of clients, every sequence of requests of each, every schedule of their steps, every state of the server", "why_tests_cant": "Clients are served by goroutines that share tags and connections. Tests run one client at a time or a few interleavings by chance; whether an answer can mix states that never existed depends on every schedule.", "anchors": ["server_router.go:97", "server_router.go:152", "server_connected.go:261", "server_connected.go:9", "server_unconnected.go:577", "server_unconnected.go:336", "server.go:251", "items.go:214"]}
{"id": "C107", "title": "A multiple service request is done in one go", "statement": "A multiple service request is done in one go: no other client's request takes place between its parts.", "quantifier": "for every multiple service request, every other client's requests, every schedule of their steps", "why_tests_cant": "Whether another client can come in between the parts of a multiple request depends on the schedule of goroutines; tests see one or two schedules.", "anchors": ["server_connected.go:65", "server_router.go:97", "server_router.go:152"]}
{"id": "C108", "title": "One client can be used by several goroutines", "statement": "Whatever goroutines read, write, list tags and set up buffers through one client at the same time, no two of them use one of its maps while one writes it (Go stops the program then), every tag lookup returns what a client without any cache would, given the tag list of some moment during the call, and no goroutine is left waiting while nothing can go on.", "quantifier": "every number of goroutines, every sequence of calls, every interleaving, every reply about the firmware", "why_tests_cant": "The runtime only notices two goroutines in one map when they happen to meet there; a test sees the interleavings the scheduler gives it.", "anchors": ["ioi.go:107", "listalltags.go:312", "listsubtags.go:138", "datatable.go:98", "examples/Heartbeat/main.go:35"]}
{"id": "C109", "title": "Removing tags from a buffer leaves the others alone", "statement": "After any sequence of adding tags to a data table buffer, announcing them, reading, and removing tags by name, ReadAll and ReadAllRaw return exactly the tags that are still there, each with its own value; RemoveTag removes the tag named, in the controller as in the buffer.", "quantifier": "for all sequences of AddTag, AddTags, SyncTags, ReadAll, ReadAllRaw and RemoveTag, all tags and types, and every controller that keeps a removed tag's slot number out of use", "why_tests_cant": "Which index a later tag gets depends on how many were removed before; the mix-up needs a controller with state and particular sequences, and gives wrong values without an error.", "anchors": ["datatable.go:272", "datatable.go:350", "datatable.go:386", "datatable.go:466", "datatable.go:534", "datatable.go:650"]}
{"id": "C110", "title": "A listed tag is addressed as the tag of that name", "statement": "After the tags of the controller have been listed, and listed again after changes of its program, every request path the client makes for a name refers to the controller's tag of that name (in any case of letters) and to no other; a name of no tag refers to none.", "quantifier": "every controller program (tables of tags, programs and their tags), every sequence of pages, every tag name with or without a bit, every history of the client", "why_tests_cant": "the path depends on everything listed before; unbounded tables and names", "anchors": ["ioi.go:121", "listalltags.go:312", "listsubtags.go:138", "client.go:218", "connect.go:252"]}
{"id": "C111", "title": "Calls come back in time", "statement": "Whatever the network does, a call of a client comes back within a number of socket timeouts that depends only on how many messages it takes, connecting included.", "quantifier": "every behaviour of the network (dials and replies that come, fail or never come, at any time), every history of calls, every socket timeout", "why_tests_cant": "needs every pattern of delays and failures, in real time", "anchors": ["sendreceive.go:57", "sendreceive.go:113", "sendreceive.go:128", "connect.go:130", "connect.go:547", "client.go:239"]}
{"id": "C112", "title": "A client keeps one path for each name", "statement": "However long a client is used, the paths it keeps are those of names it was asked for, one for each whatever the case of the letters, so that asking for the same tags again and again does not make it grow or change its answers.", "quantifier": "every history of lookups, tag listings and firmware changes", "why_tests_cant": "histories of any length", "anchors": ["ioi.go:107", "ioi.go:215"]}
{"id": "C113", "title": "ReadPacked and pointers to slices read what the plain calls read", "statement": "ReadPacked[T] returns the structure the controller holds under the tag, as Read into a *T does. Read given a pointer to a slice fills the slice as Read given the slice does, and no destination makes it crash.", "quantifier": "every type, tag name and controller reply", "why_tests_cant": "types are compile-time; a test covers the few it names, and a crash depends on the controller's reply", "anchors": ["pack.go:389", "read.go:328", "pack.go:241"]}
{"id": "C114", "title": "Structs with TIMER, COUNTER, CONTROL and STRING members are exchanged as Logix holds them", "statement": "A Go struct whose members include the structures of the lgxtypes package, nested or in arrays, packs to the bytes of the corresponding Logix structure, unpacks from them to the same value, and Write sends it with the type handle Logix gives that structure: the fixed number of a built-in type, the CRC-16 of the description of any other.", "quantifier": "every nesting of structs, arrays and lgxtypes members, every value, every tag name", "why_tests_cant": "tests pack a handful of struct types and compare single handles; offsets, flag bits and descriptions depend on the whole type", "anchors": ["pack.go:96", "pack.go:241", "pack.go:416", "write.go:116", "lgxtypes/timer.go:26", "lgxtypes/counter.go:18", "lgxtypes/control.go:21", "lgxtypes/string.go:8"]}
{"id": "C115", "title": "Nested structures take whole words as in the controller", "statement": "In a Logix structure a nested structure starts at a multiple of four bytes (eight if it holds 64-bit members) and every structure fills a multiple of that. Pack produces and Unpack reads structures laid out like that, including the filling.", "quantifier": "every struct type, every nesting, every value", "why_tests_cant": "offsets of all later members shift with the size of each nested structure; tests cover a few types, all with 32- or 64-bit members", "anchors": ["pack.go:24", "pack.go:96", "pack.go:241"]}
{"id": "C116", "title": "Cyclic data goes to where the connection came from", "statement": "A cyclic connection the server accepted gets its data: every message is sent to the IP address the Forward Open came from, UDP port 2222.", "quantifier": "every remote address, IPv4 or IPv6 with or without zone, and port", "why_tests_cant": "depends on the textual form of the peer's address; tests run over IPv4 loopback", "anchors": ["server.go:797", "server.go:806"]}
{"id": "C117", "title": "Structures written to the built-in server", "statement": "When a program writes a structure (a Go struct or one of the lgxtypes structures) to a tag of this library's own server, either the write succeeds and a read of that tag into the same type returns the structure as it was written, whatever other clients do to other tags in between, or the write returns an error and no tag of the server has changed.", "quantifier": "for all servers with an open connection, all tag names, all structure types and values, all activity of other clients on other tags", "why_tests_cant": "Tests write one struct to a real controller, or one string to the server; which structures the server understands depends on a 16-bit checksum of the description of the type, and the outcome on every byte of the value, so no finite set of examples covers the types and values.", "anchors": ["write.go:116", "server_connected.go:418", "pack.go:96", "pack.go:416", "lgxtypes/string.go:8"]}
{"id": "C118", "title": "What browsing says of the type of a tag", "statement": "Of the tags found by browsing the controller, Atomic() is true exactly for those of elementary types, Template_ID() is the number of the structure for tags that are structures and 0 for others, a tag has a structure description only if it is a structure, and PreDefined() is true for every tag of an elementary type and for no user-defined structure. IsAtomic() of a type code is true exactly for elementary types.", "quantifier": "for all type words and dimensions, all controllers with any tables of symbols, programs and templates", "why_tests_cant": "The tests browse one controller whose type words use few of the 65536 values; the masks must be right for every combination of system bit, structure bit, dimension bits and type bits, and for every table of symbols.", "anchors": ["listalltags.go:26", "listalltags.go:37", "listalltags.go:44", "types.go:216"]}
{"id": "C119", "title": "Size of a structure description", "statement": "Size() of a structure's description obtained from the controller is the number of bytes up to the end of the structure's last member.", "quantifier": "for all descriptions: all numbers, types, offsets, array lengths and nesting of members", "why_tests_cant": "There is no unit test of Size; the result depends on the kinds and places of all members, and is wrong only for particular members and structure numbers that a test against one controller would not contain.", "anchors": ["listmembers.go:295", "types.go:117"]}
{"id": "C120", "title": "Replies to batched reads fit the connection", "statement": "ReadList divides a list of tags into Multiple Service requests such that the reply a controller gives to each of them, with every value, is no longer than the connection size.", "quantifier": "all tag lists, types, element counts, connection sizes and controllers", "why_tests_cant": "A test has one list of tags and one size; whether the reply to every request of every division fits is a statement about all of them, and the overhead only shows up with many short names.", "anchors": ["partialread.go:91", "partialread.go:135", "types.go:117", "read.go:790"]}
{"id": "C121", "title": "Type sizes agree with decoding", "statement": "CIPType.Size is the number of bytes decoding one value of that type takes, and a buffer of that size (CIPType.NewBuffer) holds exactly one value of every type that has a size.", "quantifier": "all type codes and all buffers", "why_tests_cant": "The table and the decoder are two separate switches over type codes; tests try a few types on a few buffers.", "anchors": ["types.go:117", "types.go:168", "types.go:227"]}
{"id": "C122", "title": "Browsing survives whatever the controller answers", "statement": "Listing tags, programs, tags of programs and templates, identity and services, reading faults, forces and controller properties, and working with a buffer of tags never panic, whatever bytes the controller answers, and come to an end", "quantifier": "all controllers (any state, any reply bytes), all client states, all calls named", "why_tests_cant": "the panics need replies no simulator sends (a truncated item list, a definition whose name is empty, a template that contains itself); a test can only try a few", "anchors": ["listalltags.go:182", "listsubtags.go:57", "listmembers.go:202", "listmembers.go:247", "listmembers.go:258", "listallprograms.go:8", "listidentity.go:47", "listservices.go:40", "canned/faults.go:161", "datatable.go:137"]}
{"id": "C123", "title": "A tag addressed with the path builder", "statement": "The path a PathBuilder makes of a tag's levels and subscripts, or of its whole name, is the tag's request path; a generic message with service Read (0x4C) over it brings the tag's type and value, and one with Write (0x4D) writes it", "quantifier": "all tag names, all clients and states of the built-in server, all values", "why_tests_cant": "a test tries a few names; the spelling, number of levels and subscripts are unbounded, and paths that name another symbol still give no error", "anchors": ["path.go:199", "path.go:214", "ioi.go:226", "getattr.go:421", "server_connected.go:9", "server_connected.go:261"]}
{"id": "C124", "title": "Only registered sessions are served", "statement": "The built-in server serves a peer only after it registered a session, under the session handle it was given; no two peers hold the same handle; after unregistering the peer is served no longer. Replies carry the handle given.", "quantifier": "for all servers, frames, handles, contexts and numbers of frames", "why_tests_cant": "Tests use one well-behaved client that always registers first and always sends its own handle.", "anchors": ["server.go:212", "server.go:217", "server.go:862", "server.go:870", "server.go:933"]}
{"id": "C125", "title": "A registered route leads to the endpoint last registered for it", "statement": "Whatever routes are registered with Handle, in any order and at any time, also while the server is serving, a request for a route reaches the endpoint last registered for exactly those bytes, and an error when there is none; clients of other routes notice nothing.", "quantifier": "for all sequences of registrations, all routes, all numbers of goroutines and interleavings, all connected clients", "why_tests_cant": "Tests register one or two routes before serving; unlocked map accesses only fail when goroutines happen to meet.", "anchors": ["server_router.go:20", "server_router.go:26", "server_router.go:34", "server.go:47"]}
{"id": "C126", "title": "Connecting again always works when all clients use one route", "statement": "Whatever number of clients of the same first hop connected to the built-in server before, disconnected, or lost their TCP connection without the server noticing, at whatever times (also in the same millisecond, when they get the same numbers), a client that connects over a new TCP connection is connected to the tags at its route, and reading a number, bool or text gives what the tag holds at that moment.", "quantifier": "for all servers, all sequences of connects, disconnects and uses of tags, all clocks and client settings", "why_tests_cant": "Needs arbitrarily long histories with connections left behind and coinciding clock values.", "anchors": ["connect.go:72", "connect.go:350", "server.go:633", "server_connections.go:29", "disconnect.go:55"]}
{"id": "C127", "title": "Leaving the built-in server is prompt", "statement": "A client that calls Disconnect on a connection to the built-in server is answered: the call comes back as soon as the network allows and does not sit out SocketTimeout.", "quantifier": "For all servers, connections, clients, routes, socket timeouts and network delays.", "why_tests_cant": "Tests that disconnect from a server in the same process do not look at how long the call takes; the ten seconds of the default look like any slow test.", "anchors": ["server.go:545-564", "disconnect.go:55-146", "sendreceive.go:101-126"]}
{"id": "C128", "title": "One failed read does not spoil the next", "statement": "A client with AutoConnect that gets an error from the built-in server, for instance because it misspelled a tag, can go on: the next Read of an existing tag returns the tag's value.", "quantifier": "For all servers, clients of one route, tags, histories of other clients and times.", "why_tests_cant": "A test of a failing read ends with the failing read; a test of two reads in a row with no error in between never meets the ended TCP connection.", "anchors": ["server_connected.go:261-341", "server.go:209-247", "sendreceive.go:79-106", "connect.go:547-559"]}
{"id": "C129", "title": "A write is done exactly when it returns nil", "statement": "A Write of a client with AutoConnect that returns nil was done, at the tag named and nowhere else; one that returns an error changed no tag, and the next call finds the client ready.", "quantifier": "For all servers, clients, tags, values, states of the connection and of the TCP connection, histories of other clients and times.", "why_tests_cant": "A lost connection shows at one moment of a program's life; tests write over a connection that stands.", "anchors": ["write.go:101-111", "write.go:221-307", "server_connected.go:9-63", "server.go:209-247", "sendreceive.go:79-106", "connect.go:547-559"]}
{"id": "C130", "title": "AutoConnect works for several goroutines", "statement": "As long as the network and the controller do their part, every call that any of several goroutines makes on one client with AutoConnect succeeds: none of them is told that the client cannot connect or is not connected.", "quantifier": "for all numbers of goroutines, all interleavings of their calls", "why_tests_cant": "A test runs a few schedules on one machine; the window in which one goroutine is inside Connect and another calls is milliseconds long.", "anchors": ["connect.go:24-40", "connect.go:547-559", "connect.go:172-176", "disconnect.go:8-66", "sendreceive.go:79-106"]}
{"id": "C131", "title": "Requests name the session of their connection", "statement": "Every request a client sends names the session of the TCP connection it is sent on, and an error closes only the connection it occurred on, whatever goroutines use the client and however often it reconnects.", "quantifier": "for all numbers of goroutines, all interleavings, all failures of network and controller", "why_tests_cant": "The request is built before the mutex is taken; a test would have to make another goroutine reconnect exactly in between.", "anchors": ["sendreceive.go:79-106", "sendreceive.go:175-191", "connect.go:70-170", "disconnect.go:8-142"]}
{"id": "C132", "title": "A failed reconnection does not crash other calls", "statement": "When one goroutine's attempt to reconnect fails, calls of other goroutines on the same client return errors: none of them panics.", "quantifier": "for all numbers of goroutines, all interleavings, all failures of network and controller", "why_tests_cant": "It takes a request waiting for the mutex at the moment another goroutine's dial fails.", "anchors": ["connect.go:123-129", "sendreceive.go:53-75", "sendreceive.go:79-106"]}
{"id": "C133", "title": "A connection that was ended stays ended", "statement": "Once Disconnect has closed a connection, whether the program called it or an error did, nothing is sent on that connection any more and no other Disconnect closes it again, whatever other goroutines do with the client at the same time.", "quantifier": "for all numbers of goroutines, all interleavings, all failures of network and controller", "why_tests_cant": "Requests may wait for the mutex while another goroutine disconnects; a test sees a few of these schedules.", "anchors": ["disconnect.go:8-142", "sendreceive.go:53-106", "connect.go:70-170"]}
{"id": "C134", "title": "Several elements of an array of strings of the built-in server", "statement": "When a program reads several elements of an array of strings of this library's own server with one call, into a slice of lgxtypes.STRING or into a slice of Go strings, the slice receives the strings of the array in order, or the call returns an error; the program goes on either way.", "quantifier": "for all servers with an open connection, all arrays of strings, all numbers of elements, all tag names and first elements", "why_tests_cant": "Tests of the server read one string at a time, or look at the bytes it sends; the length and content of every string decide what the client makes of the bytes after the first one, and the client and the server are each tested against their own idea of the layout.", "anchors": ["server_connected.go:329", "read.go:501", "read.go:350", "pack.go:263"]}
{"id": "C135", "title": "Arrays of strings written to the built-in server", "statement": "When a program writes a slice of several strings to an array of strings of this library's own server, either the write succeeds and the array then holds exactly these strings in order and no other tag has changed, or the write returns an error and no tag has changed.", "quantifier": "for all servers with an open connection, all arrays of strings, all numbers of strings written, all strings of up to 82 characters", "why_tests_cant": "Tests of the server write strings in the layout the server expects, and tests of the client compare its bytes with those of a controller; that the two layouts differ by the padding of each string shows only for slices, and which strings survive depends on every length and character.", "anchors": ["write.go:221", "items.go:234", "server_connected.go:450"]}
