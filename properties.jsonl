{"id": "C01", "title": "Integer codec round-trips", "statement": "For every Go int n, DecodeInteger(EncodeInteger(n)) returns n with a nil error, and EncodeInteger(n) is 'i', the canonical decimal of n, 'e'.", "quantifier": "all 2^64 values of a Go int", "why_tests_cant": "the input space is unbounded; tests sample a handful of literals", "anchors": ["misc/beancode.go:EncodeInteger", "misc/beancode.go:DecodeInteger", "misc/beancode.go:innerDecodeInteger"]}
{"id": "C02", "title": "DecodeInteger accepts exactly the documented integers", "statement": "For every string s, DecodeInteger(s) terminates without panicking; it succeeds with n exactly when s is i<body>e where body is the canonical decimal of n (no leading zeros, no -0), or a '+' followed by decimal digits of value n, and n fits an int; otherwise it returns an error. (The '+' forms are a leniency the code has and bencode does not.)", "quantifier": "all byte strings", "why_tests_cant": "the input space is unbounded; tests sample a handful of literals", "anchors": ["misc/beancode.go:DecodeInteger", "misc/beancode.go:innerDecodeInteger"]}
{"id": "C03", "title": "Stand-alone string codec round-trips", "statement": "For every string s, DecodeString(EncodeString(s)) returns s. FALSE of the code for strings that contain ':' (it returns an error); it holds for every string without ':'.", "quantifier": "all byte strings", "why_tests_cant": "the input space is unbounded; tests sample a handful of literals", "anchors": ["misc/beancode.go:EncodeString", "misc/beancode.go:DecodeString"]}
{"id": "C04", "title": "DecodeString never panics", "statement": "DecodeString returns a value or an error for every input. FALSE of the code: a decimal number with no ':' (e.g. \"12\") panics; the panicking inputs are exactly the strings of length >= 2 without ':' which parse as a number.", "quantifier": "all byte strings", "why_tests_cant": "the input space is unbounded; tests sample a handful of literals", "anchors": ["misc/beancode.go:DecodeString"]}
{"id": "C05", "title": "Lists and dictionaries round-trip through the codec for every map iteration order", "statement": "Whatever order Go iterates each map in, decoding the bencoding of a well-formed List or Dict with DecodeSlice / DecodeDict / DecodeDictNoLimit succeeds and yields an equal value.", "quantifier": "all well-formed nested values (ints, strings, lists, dicts) and all iteration orders at all levels", "why_tests_cant": "iteration order is chosen by the runtime and nesting is unbounded", "anchors": ["misc/beancode.go:EncodeSlice", "misc/beancode.go:EncodeDict", "misc/beancode.go:DecodeSlice", "misc/beancode.go:DecodeDict", "misc/beancode.go:DecodeDictNoLimit"]}
{"id": "C06", "title": "DecodeDictNoLimit reports where the dictionary ends", "statement": "If a packet is the bencoding of a dict followed by arbitrary bytes, DecodeDictNoLimit returns the dict and exactly the offset of the first trailing byte.", "quantifier": "all well-formed dicts, all trailing byte strings", "why_tests_cant": "the input space is unbounded; tests sample a handful of literals", "anchors": ["misc/beancode.go:DecodeDictNoLimit"]}
{"id": "C07", "title": "Encoder output is bencode", "statement": "Whenever EncodeSlice/EncodeDict succeed, the output is derivable in the BEP-3 grammar and denotes the encoded value. The further BEP-3 requirement that dictionary keys appear sorted is FALSE of the code (they appear in map iteration order).", "quantifier": "all values and iteration orders", "why_tests_cant": "iteration order is nondeterministic", "anchors": ["misc/beancode.go:EncodeSlice", "misc/beancode.go:EncodeDict", "misc/beancode.go:encodeItem"]}
{"id": "C08", "title": "The encoder rejects exactly the unsupported values", "statement": "EncodeDict/EncodeSlice succeed exactly when every leaf is an int or string and every container is a non-nil List or Dict. They return an error for other kinds and panic for an untyped nil or a named int/string type.", "quantifier": "all Go interface{} values reachable as dict/list contents", "why_tests_cant": "the input space is unbounded; tests sample a handful of literals", "anchors": ["misc/beancode.go:encodeItem", "misc/beancode.go:EncodeSlice", "misc/beancode.go:EncodeDict"]}
{"id": "C09", "title": "Decoder accepts exactly the lenient grammar", "statement": "For every input, the decoder's success, value and end offset agree with a small declarative grammar: bencode with '+' integers, leading zeros in string lengths, duplicate keys (last wins) and containers left open at end of input.", "quantifier": "all byte strings and start offsets", "why_tests_cant": "the input space is unbounded; tests sample a handful of literals", "anchors": ["misc/beancode.go:decodeItem", "misc/beancode.go:innerDecodeSlice", "misc/beancode.go:innerDecodeDict", "misc/beancode.go:innerDecodeString", "misc/beancode.go:innerDecodeInteger"]}
{"id": "C10", "title": "Decoding terminates and never reads outside the input", "statement": "On every input, each decoder finishes within a number of steps linear in the input length, and every index it reads is inside the input or the read panics.", "quantifier": "all byte strings", "why_tests_cant": "non-termination cannot be observed by a test", "anchors": ["misc/beancode.go"]}
{"id": "C11", "title": "Decoders do not panic on hostile input", "statement": "No input makes a decoder panic. FALSE of the code: an integer cut off by the end of input, or a string length close to 2^63, panics. On an input whose last byte is 'e' the only panic left is the length overflow.", "quantifier": "all byte strings", "why_tests_cant": "the input space is unbounded; tests sample a handful of literals", "anchors": ["misc/beancode.go:innerDecodeInteger", "misc/beancode.go:innerDecodeString"]}
{"id": "C12", "title": "DecodeSlice consumes the whole input", "statement": "DecodeSlice succeeds only on inputs that are exactly one closed list: nothing missing at the end and no trailing bytes.", "quantifier": "all byte strings", "why_tests_cant": "the input space is unbounded; tests sample a handful of literals", "anchors": ["misc/beancode.go:DecodeSlice"]}
{"id": "C13", "title": "DecodeDict consumes the whole input", "statement": "DecodeDict succeeds only on inputs that are exactly one closed dictionary. FALSE of the code: trailing bytes give a nil Dict with a nil error, and a dictionary whose closing 'e' is missing is accepted when the last byte happens to be 'e'.", "quantifier": "all byte strings", "why_tests_cant": "the input space is unbounded; tests sample a handful of literals", "anchors": ["misc/beancode.go:DecodeDict"]}
{"id": "C14", "title": "Typed getters never invent values", "statement": "Dict.GetInteger/GetString/GetList/GetDict return v exactly when the key is present with a value of that type, and otherwise panic with a *misc.Error of code 201 (which the server turns into a protocol error).", "quantifier": "all dicts and keys", "why_tests_cant": "the input space is unbounded; tests sample a handful of literals", "anchors": ["misc/types.go:GetInteger", "misc/types.go:GetString", "misc/types.go:GetList", "misc/types.go:GetDict"]}
{"id": "C15", "title": "Defaulting getters are total", "statement": "GetIntegerOrDefault / GetStringOrDefault never panic and return the stored value when it has the right type, the default otherwise. GetValOrDefault returning the default for a missing key is FALSE of the code: it returns nil.", "quantifier": "all dicts, keys and defaults", "why_tests_cant": "the input space is unbounded; tests sample a handful of literals", "anchors": ["misc/types.go:GetIntegerOrDefault", "misc/types.go:GetStringOrDefault", "misc/types.go:GetValOrDefault"]}
{"id": "C16", "title": "List access is guarded by Exist", "statement": "If List.Exist(i) then GetVal(i) does not panic. True for i >= 0, FALSE of the code for negative i. Typed list getters return the element exactly when it has the type.", "quantifier": "all lists and int indices", "why_tests_cant": "the input space is unbounded; tests sample a handful of literals", "anchors": ["misc/types.go:List"]}
{"id": "C17", "title": "String comparison used for names and ids", "statement": "The case-insensitive comparison behind ContainsString, NodeInfo.Equals, Find and the handshake check is reflexive and symmetric, coincides with ASCII case-insensitive equality on ASCII strings, but compares texts character by character (Unicode simple folding), but identifies distinct binary ids: any two invalid UTF-8 bytes compare equal.", "quantifier": "all byte strings", "why_tests_cant": "ids are 160-bit binary strings; tests use ASCII", "anchors": ["misc/types.go:ContainsString", "dht/node.go:Equals", "dht/routetable.go:Find"]}
{"id": "C18", "title": "Prefix length is the longest common bit prefix", "statement": "solvePrefixLen(a,b) is the number of leading bits on which a and b agree (within the shorter of the two), it is symmetric, and satisfies the ultrametric inequality on equal-length ids.", "quantifier": "all pairs/triples of byte strings", "why_tests_cant": "the input space is unbounded; tests sample a handful of literals", "anchors": ["dht/routetable.go:solvePrefixLen", "misc/bits.go:Xor"]}
{"id": "C19", "title": "Transaction ids do not repeat within a window of 65536", "statement": "However calls to TxIdGenerator.Next from different goroutines are interleaved, every result is 4 lowercase hex digits, any two results fewer than 65536 calls apart differ, and the sequence repeats with period exactly 65536.", "quantifier": "all initial values, all numbers and interleavings of calls", "why_tests_cant": "needs 65536 calls and all schedules", "anchors": ["dht/node.go:TxIdGenerator"]}
{"id": "C20", "title": "Compact node info round-trips", "statement": "For nodes with 20-byte ids, IPv4 addresses and 16-bit ports, parseNodeInfo(joinNodeInfos(ns)) gives back the same ids, IPv4 addresses and ports.", "quantifier": "all lists of nodes", "why_tests_cant": "the input space is unbounded; tests sample a handful of literals", "anchors": ["dht/node.go:joinNodeInfos", "dht/node.go:parseNodeInfo"]}
{"id": "C21", "title": "Compact node parsing is total and lossless", "statement": "parseNodeInfo never panics on any string, yields exactly floor(len/26) nodes, and re-joining them gives the input without its last len mod 26 bytes.", "quantifier": "all byte strings", "why_tests_cant": "the input space is unbounded; tests sample a handful of literals", "anchors": ["dht/node.go:parseNodeInfo", "dht/node.go:joinNodeInfos"]}
{"id": "C22", "title": "Compact encoding is aligned for every node the crawler can hold", "statement": "joinNodeInfos produces 26 bytes per node. FALSE of the code for IPv6 addresses (20 bytes) and ids that are not 20 bytes long; ports are truncated modulo 65536.", "quantifier": "all lists of nodes", "why_tests_cant": "the input space is unbounded; tests sample a handful of literals", "anchors": ["dht/node.go:joinNodeInfos"]}
{"id": "C23", "title": "Compact peer info round-trips", "statement": "For IPv4 addresses with 16-bit ports parsePeerInfo(joinPeerInfos(as)) gives back the same addresses; for entries of at least 6 bytes the first 6 bytes decide the result; a non-string entry panics with a *misc.Error.", "quantifier": "all address lists, all lists of values", "why_tests_cant": "the input space is unbounded; tests sample a handful of literals", "anchors": ["dht/node.go:joinPeerInfos", "dht/node.go:parsePeerInfo"]}
{"id": "C24", "title": "Every stored node sits in the bucket of its distance", "statement": "After any sequence of AddNode calls every stored node is in the bucket given by min(common prefix with the local id, index of the last bucket), and no bucket holds two nodes that compare equal.", "quantifier": "all configurations and all AddNode histories", "why_tests_cant": "must hold after every history of operations", "anchors": ["dht/routetable.go:AddNode", "dht/routetable.go:addNode", "dht/routetable.go:addNodeWithsplitBucket"]}
{"id": "C25", "title": "The routing table is bounded", "statement": "No bucket exceeds k nodes, there are at most capacity+1 buckets, hence at most k*(capacity+1) stored nodes.", "quantifier": "all configurations and AddNode histories", "why_tests_cant": "must hold after every history of operations", "anchors": ["dht/routetable.go:NewRouteTable", "dht/routetable.go:AddNode"]}
{"id": "C26", "title": "Nodes are never evicted and the local node is always present", "statement": "AddNode never removes a stored node (splitting a bucket loses nothing); for k >= 1 the host node is in the table forever.", "quantifier": "all configurations and AddNode histories", "why_tests_cant": "must hold after every history of operations", "anchors": ["dht/routetable.go:addNodeWithsplitBucket"]}
{"id": "C27", "title": "AddNode's result tells what happened", "statement": "If AddNode returns an error the table is unchanged, and it does so exactly when the node's bucket is full and holds an equal node, or is not the last bucket, or the bucket limit is reached. If it returns nil the node (or one comparing equal) is in the table afterwards: FALSE of the code when a split uses up the bucket limit (the node is dropped and nil returned); for k >= 1 and a capacity within the bit length of the local id this is the only exception, i.e. the table is Full afterwards.", "quantifier": "all reachable tables and nodes", "why_tests_cant": "must hold after every history of operations", "anchors": ["dht/routetable.go:AddNode", "dht/routetable.go:addNodeWithsplitBucket"]}
{"id": "C28", "title": "Size reports the number of stored nodes", "statement": "RouteTable.Size() equals the number of nodes stored. FALSE of the code: re-adding a present node to a non-full bucket increments Size. Exactly: Size = stored nodes + number of such re-adds.", "quantifier": "all AddNode histories", "why_tests_cant": "must hold after every history of operations", "anchors": ["dht/routetable.go:Size", "dht/routetable.go:addNode"]}
{"id": "C29", "title": "Find returns a stored node with the requested id, if there is one", "statement": "Find(id) never panics, returns only stored nodes whose id compares equal to id, and finds some node whenever a node with exactly this id is stored. Returning a node with exactly this id is FALSE of the code (binary ids may be confused).", "quantifier": "all reachable tables and ids", "why_tests_cant": "must hold after every history of operations", "anchors": ["dht/routetable.go:Find"]}
{"id": "C30", "title": "FindClosest returns stored nodes nearest first", "statement": "FindClosest(id,n) returns a duplicate-free list of stored nodes in order of non-increasing bucket, stops only when it has more than n nodes or has visited all lower buckets. That these are the n closest stored nodes, and that at most n are returned, is FALSE of the code.", "quantifier": "all reachable tables, ids and n", "why_tests_cant": "must hold after every history of operations", "anchors": ["dht/routetable.go:FindClosest"]}
{"id": "C31", "title": "Routing table operations terminate without panicking", "statement": "AddNode, Find, FindClosest, Full and Size terminate and do not panic, for ids of any length, any k and any capacity; bucket splitting recurses at most capacity times.", "quantifier": "all reachable tables and arguments", "why_tests_cant": "recursion depth and nil-map lookups depend on the history", "anchors": ["dht/routetable.go"]}
{"id": "C32", "title": "Pooled buffers have the requested size", "statement": "GetBySize(n) always returns a slice of length and capacity n and Get() one of the default width, whatever was put into the pool before.", "quantifier": "all histories of Get/GetBySize/Put", "why_tests_cant": "must hold after every history of operations", "anchors": ["misc/bytespool.go"]}
{"id": "C33", "title": "A pooled buffer has one owner", "statement": "If every buffer obtained is put back at most once per acquisition, no two live holders ever hold the same buffer and a held buffer is never in the pool.", "quantifier": "all histories respecting the discipline", "why_tests_cant": "must hold after every history of operations", "anchors": ["misc/bytespool.go"]}
{"id": "C34", "title": "The pool is bounded and does not clear buffers", "statement": "At most maxSize buffers per width are retained. A recycled buffer still shows the bytes of its previous owner.", "quantifier": "all histories", "why_tests_cant": "must hold after every history of operations", "anchors": ["misc/bytespool.go"]}
{"id": "C35", "title": "Each middleware runs exactly once, in registration order", "statement": "Whatever the handlers do - call Next zero, one or many times - one dispatch starts every registered handler exactly once and in registration order, the request handler last, and terminates (unless one panics, in which case the started handlers are a prefix).", "quantifier": "all handler chains and handler behaviours", "why_tests_cant": "handlers are arbitrary code", "anchors": ["dht/krpc/middleware.go:Next", "dht/krpc/server.go:doRequestHandle"]}
{"id": "C36", "title": "Middleware nests like an onion", "statement": "If every middleware calls Next exactly once, code before Next runs in registration order and code after Next in reverse order around the handler.", "quantifier": "all chain lengths and handler bodies", "why_tests_cant": "the input space is unbounded; tests sample a handful of literals", "anchors": ["dht/krpc/middleware.go:Next"]}
{"id": "C37", "title": "The response sent is the last one written", "statement": "The value returned for a request is the last WriteAs of the dispatch, or nil if none happened.", "quantifier": "all handler chains", "why_tests_cant": "the input space is unbounded; tests sample a handful of literals", "anchors": ["dht/krpc/middleware.go:WriteAs", "dht/krpc/server.go:doRequestHandle"]}
{"id": "C38", "title": "Every well-formed query is answered exactly once, to its sender, with its transaction id", "statement": "A packet decoding to a dict with y=q, a string t and a string q produces exactly one datagram, addressed to the packet's source, whose t equals the query's t - provided the registered handler writes a response with that t or panics with a *misc.Error.", "quantifier": "all packets, all registered handlers", "why_tests_cant": "the input space is unbounded; tests sample a handful of literals", "anchors": ["dht/krpc/server.go:recvPacketHandle", "dht/krpc/server.go:requestHandle"]}
{"id": "C39", "title": "Malformed or unsupported queries get a 203 error", "statement": "A query with an unsupported type, without arguments, without a 20-byte id, or for an unregistered type is answered with an error response of code 203 and no application handler runs.", "quantifier": "all packets", "why_tests_cant": "the input space is unbounded; tests sample a handful of literals", "anchors": ["dht/krpc/server.go:requestHandle", "dht/krpc/messages.go:WithParamErr"]}
{"id": "C40", "title": "Garbage is dropped silently", "statement": "A packet that does not decode, has no y, or whose y is neither q nor r causes no datagram and changes nothing; for a packet with y = r the server itself sends nothing (only the handler waiting for that response acts).", "quantifier": "all byte strings", "why_tests_cant": "the input space is unbounded; tests sample a handful of literals", "anchors": ["dht/krpc/server.go:recvPacketHandle"]}
{"id": "C41", "title": "One bad packet cannot stop the server", "statement": "recvPacketHandle returns normally for every packet and every handler behaviour: panics are contained, and the packet's buffer is returned to the pool exactly once.", "quantifier": "all packets, handlers and panics", "why_tests_cant": "the input space is unbounded; tests sample a handful of literals", "anchors": ["dht/krpc/server.go:recvPacketHandle"]}
{"id": "C42", "title": "Responses are routed by transaction id", "statement": "A response packet runs the handler of the request most recently sent with that transaction id, with that request and the response body, after the response middlewares; with an unknown id nothing runs.", "quantifier": "all packets and all histories of queries", "why_tests_cant": "must hold after every history of operations", "anchors": ["dht/krpc/server.go:responseHandle", "dht/krpc/server.go:Query"]}
{"id": "C43", "title": "A request is answered at most once and only by the queried node", "statement": "FALSE of the code: the pending request is never removed and the source address is not checked, so a response can be replayed any number of times, from any address, and each time the handler runs.", "quantifier": "all packet histories", "why_tests_cant": "must hold after every history of operations", "anchors": ["dht/krpc/server.go:responseHandle"]}
{"id": "C44", "title": "Handler registration is checked", "statement": "RegisteHandler accepts only the four KRPC query types (up to case) and non-nil handlers; a handler registered under a different capitalisation is never reached by a correctly spelled query.", "quantifier": "all names and handlers", "why_tests_cant": "the input space is unbounded; tests sample a handful of literals", "anchors": ["dht/krpc/server.go:RegisteHandler"]}
{"id": "C45", "title": "Query messages have the KRPC wire format", "statement": "The datagram sent for ping, find_node, get_peers and announce_peer decodes - for every map iteration order - to exactly the BEP-5 dictionary for its arguments.", "quantifier": "all ids, targets, info hashes, tokens and ports", "why_tests_cant": "the input space is unbounded; tests sample a handful of literals", "anchors": ["dht/messgaes.go", "dht/krpc/messages.go:RawData"]}
{"id": "C46", "title": "Two crawlers understand each other", "statement": "If crawler A sends a ping or find_node query to crawler B, B answers with exactly one datagram that, delivered to A, runs the handler A registered with that query, and the response carries B's node id.", "quantifier": "all node ids, transaction ids, iteration orders", "why_tests_cant": "the input space is unbounded; tests sample a handful of literals", "anchors": ["dht/krpc/server.go", "dht/requesthandler.go"]}
{"id": "C47", "title": "The crawler's replies are what BEP-5 requires", "statement": "ping and announce_peer are answered with our id, find_node with our id and an empty nodes string, get_peers with our id, a token and an empty nodes string; get_peers without a string info_hash, and announce_peer without a string info_hash or int port, get a 203 error.", "quantifier": "all queries", "why_tests_cant": "the input space is unbounded; tests sample a handful of literals", "anchors": ["dht/requesthandler.go"]}
{"id": "C48", "title": "Exactly the valid announcements are queued for fetching", "statement": "An info hash is queued for download exactly when an announce_peer query with valid id, string info_hash and int port is handled; what the fetcher has taken followed by what is queued is exactly those announcements in order; the queue never exceeds its capacity, and when it is full exactly the valid announcements have to wait.", "quantifier": "all packet histories", "why_tests_cant": "must hold after every history of operations", "anchors": ["dht/requesthandler.go:announcePeerHandler", "dht/fetchtorrent.go"]}
{"id": "C49", "title": "Announcements need a valid token", "statement": "FALSE of the code: announce_peer is accepted with any token or none.", "quantifier": "all announce_peer packets", "why_tests_cant": "the input space is unbounded; tests sample a handful of literals", "anchors": ["dht/requesthandler.go:announcePeerHandler"]}
{"id": "C50", "title": "A find_node response triggers one query per accepted node", "statement": "Handling a find_node response sends one find_node query, with consecutive fresh transaction ids, to each listed node for which AddNode returned nil, in order, and nothing else; at most len(nodes)/26 datagrams.", "quantifier": "all responses and reachable tables", "why_tests_cant": "must hold after every history of operations", "anchors": ["dht/resphandler.go:findNodeRespHandler", "dht/resphandler.go:genericRespHandler"]}
{"id": "C51", "title": "Each discovered node is queried at most once", "statement": "FALSE of the code: a node already stored in a non-full bucket is queried again each time it is listed.", "quantifier": "all response histories", "why_tests_cant": "must hold after every history of operations", "anchors": ["dht/resphandler.go:findNodeRespHandler"]}
{"id": "C52", "title": "BitTorrent handshake round-trips", "statement": "For 20-byte peer id and info hash the handshake message is 68 bytes and parses back to protocol 'BitTorrent protocol', the extension bit, the same info hash and peer id; other lengths panic before anything is sent. Parsing 68 arbitrary bytes succeeds exactly when the protocol length byte is at most 19.", "quantifier": "all 20-byte ids; all byte strings", "why_tests_cant": "the input space is unbounded; tests sample a handful of literals", "anchors": ["dht/peerwire/bep3.go"]}
{"id": "C53", "title": "Extended handshake round-trips and is length-prefixed", "statement": "The extended handshake message starts with the big-endian length of the rest and parses back to an equal dictionary with m set.", "quantifier": "all dictionaries and iteration orders", "why_tests_cant": "the input space is unbounded; tests sample a handful of literals", "anchors": ["dht/peerwire/bep10.go"]}
{"id": "C54", "title": "Metadata messages round-trip including binary payload", "statement": "A metadata request/data/reject message built for any id, type, piece, total size and payload has a correct length prefix and parses back to the same fields, whatever bytes the payload contains.", "quantifier": "all field values and payloads", "why_tests_cant": "the input space is unbounded; tests sample a handful of literals", "anchors": ["dht/peerwire/bep9.go:Bytes", "dht/peerwire/bep9.go:parseExtendedFetchMetaMsg"]}
{"id": "C55", "title": "Frame reading bounds", "statement": "readBytesByPrefixLenMsg reports keep-alive exactly for a zero length prefix, rejects a declared length above 32 KiB, and never returns more than 32 KiB. Returning exactly one declared message is FALSE of the code (short reads and coalesced messages are mishandled).", "quantifier": "all read schedules", "why_tests_cant": "segmentation is chosen by the network", "anchors": ["dht/peerwire/bep3.go:readBytesByPrefixLenMsg"]}
{"id": "C56", "title": "Downloaded metadata is authentic", "statement": "FetchMetaData returns data only if the SHA-1 of that data is the requested info hash - whatever the peer sends, however reads are split, and whatever other goroutines do to shared buffers.", "quantifier": "all peer behaviours, read schedules and buffer interference", "why_tests_cant": "adversarial peer and scheduler", "anchors": ["dht/peerwire/bep9.go:FetchMetaData"]}
{"id": "C57", "title": "Fetching always finishes, contained, with the connection closed", "statement": "For every peer behaviour no panic escapes FetchMetaData; if it returns (data or error) and the dial succeeded, the connection has been closed exactly once, as the last operation; its loop is finite, so it fails to return only when a Write blocks forever or the process runs out of memory. Both of these can be caused by a hostile peer (stop reading; announce a huge metadata_size), so unconditional termination is FALSE of the code.", "quantifier": "all peer behaviours", "why_tests_cant": "adversarial peer", "anchors": ["dht/peerwire/bep9.go:FetchMetaData"]}
{"id": "C58", "title": "An honest peer with one-piece metadata is served", "statement": "If the peer speaks the protocol with one message per read and the metadata is at most 16 KiB, FetchMetaData returns exactly the metadata, for any sound prior pool contents, if no other goroutine uses the pool meanwhile; and after every such call (honest peer or not) the pool is sound again. With a concurrent fetch the first part is FALSE of the code.", "quantifier": "all metadata up to 16384 bytes, all pool states", "why_tests_cant": "the input space is unbounded; tests sample a handful of literals", "anchors": ["dht/peerwire/bep9.go:FetchMetaData"]}
{"id": "C59", "title": "An honest peer with multi-piece metadata is served", "statement": "True only if the pool already holds at least as many 32 KiB buffers as messages arrive between the first and the last piece; FALSE of the code otherwise (in particular from an empty pool): received pieces alias a buffer that is returned to the shared pool and overwritten by the next read, so the metadata is assembled from overwritten bytes.", "quantifier": "all metadata sizes", "why_tests_cant": "needs buffer aliasing through the pool", "anchors": ["dht/peerwire/bep9.go:readMetaDataHandler", "misc/bytespool.go"]}
{"id": "C60", "title": "Piece requests cover the metadata exactly once", "statement": "After an extended handshake announcing size s >= 0 the crawler requests pieces 0..ceil(s/16384)-1, each once, in order. Whatever the peer does, nothing is ever written to it but our handshake, our extended handshake and such runs of requests. A peer that sends piece 0 without having announced a size or been asked is believed if the checksum is right.", "quantifier": "all announced sizes", "why_tests_cant": "the input space is unbounded; tests sample a handful of literals", "anchors": ["dht/peerwire/bep9.go:handleExtendedMsg"]}
{"id": "C61", "title": "The result does not depend on TCP segmentation", "statement": "FALSE of the code: the same byte stream delivered in different segments can make the fetch fail.", "quantifier": "all segmentations", "why_tests_cant": "segmentation is chosen by the network", "anchors": ["dht/peerwire/bep3.go:readBytesByPrefixLenMsg"]}
{"id": "C62", "title": "Every torrent file is named after the hash of its contents", "statement": "Every file the crawler writes is torrent/<hex>.torrent where hex is the SHA-1 of the complete written data.", "quantifier": "all announcements and peers", "why_tests_cant": "adversarial peers", "anchors": ["dht/fetchtorrent.go:fetchHandler", "dht/fetchtorrent.go:flushTorrentFile"]}
{"id": "C63", "title": "Announced info hashes cannot escape the torrent directory", "statement": "The path built from any announced info hash (any bytes, any length) consists of the fixed prefix, lowercase hex digits and the fixed suffix; different info hashes give different paths.", "quantifier": "all byte strings", "why_tests_cant": "the input space is unbounded; tests sample a handful of literals", "anchors": ["dht/fetchtorrent.go:flushTorrentFile", "dht/fetchtorrent.go:fetchHandler"]}
{"id": "C64", "title": "Torrent files are written atomically", "statement": "FALSE of the code: a crash between creating and writing leaves an empty or partial file under the final name. Without a crash or I/O error the file content is complete.", "quantifier": "all crash points", "why_tests_cant": "needs a crash at every point", "anchors": ["dht/fetchtorrent.go:flushTorrentFile"]}
{"id": "C65", "title": "The fetch address follows implied_port", "statement": "The download address is source-ip:port from the announcement, or the UDP source address when implied_port is an int > 0; for IPv4 sources it is a well-formed host:port. For IPv6 sources without implied_port this is FALSE (no brackets).", "quantifier": "all announcements and source addresses", "why_tests_cant": "the input space is unbounded; tests sample a handful of literals", "anchors": ["dht/fetchtorrent.go:parseFetchAddr"]}
{"id": "C66", "title": "Work pool: no task lost, duplicated or reordered at start", "statement": "At every point of every schedule the tasks started so far followed by the queued ones are exactly the accepted tasks in submission order.", "quantifier": "all schedules", "why_tests_cant": "depends on the goroutine schedule", "anchors": ["misc/workpool.go"]}
{"id": "C67", "title": "Work pool: bounded queue and parallelism", "statement": "At most size tasks are queued and at most size tasks run at the same time; a submit blocks rather than overflow.", "quantifier": "all schedules", "why_tests_cant": "depends on the goroutine schedule", "anchors": ["misc/workpool.go"]}
{"id": "C68", "title": "Work pool: status only moves forward and later submits panic", "statement": "As long as no two Shutdown calls (the one triggered by the context included) shut the pool down at the same time, the status goes Running -> Shutdowning -> Shutdowned and never back; with overlapping calls this is FALSE of the code (it can go back from Shutdowned to Shutdowning). In every schedule, a pool that is not Running never runs again and an AsyncSubmit that begins then panics and adds nothing.", "quantifier": "all schedules", "why_tests_cant": "depends on the goroutine schedule", "anchors": ["misc/workpool.go:AsyncSubmit", "misc/workpool.go:Shutdown"]}
{"id": "C69", "title": "Work pool: Shutdown stops the workers", "statement": "FALSE of the code: workers never exit (break leaves only the select), so with size >= 1 Shutdown always runs into its timeout and queued tasks are still started after it returned.", "quantifier": "all schedules", "why_tests_cant": "depends on the goroutine schedule", "anchors": ["misc/workpool.go:workerLoop", "misc/workpool.go:Shutdown"]}
{"id": "C70", "title": "Work pool: concurrent Shutdown calls are safe", "statement": "FALSE of the code: two concurrent Shutdown calls (e.g. user and context cancellation) can both close the channel, which panics. Sequential repeated calls are harmless, and of all calls at most one ever waits for the workers.", "quantifier": "all schedules", "why_tests_cant": "depends on the goroutine schedule", "anchors": ["misc/workpool.go:Shutdown", "misc/workpool.go:listenCancelLoop"]}
{"id": "C71", "title": "Work pool: accepted tasks are never stuck", "statement": "From every reachable state there is a continuation in which every accepted task has run, even after Shutdown.", "quantifier": "all reachable states", "why_tests_cant": "depends on the goroutine schedule", "anchors": ["misc/workpool.go"]}
{"id": "C72", "title": "Shutdown runs every clean-up before reporting success", "statement": "If nothing is registered after the shutdown began, WaitShutdown returns without timeout only after every registered clean function has been called exactly once and has returned; the status is Running before, Shutdowning while it waits and Shutdowned on return. FALSE of the code: after a timeout a clean function can start when the status is already Shutdowned, and a function registered during the shutdown (dht.Run registers from its own goroutine) can be missed by a successful shutdown or crash the process.", "quantifier": "all schedules and clean function sets", "why_tests_cant": "depends on the goroutine schedule", "anchors": ["misc/shutdown.go"]}
{"id": "C73", "title": "SyncMap behaves like a map", "statement": "For every concurrent history of Put, Get, Del without data race (linearizability): every call takes effect exactly once between its begin and its return, and the result of Get is the latest Put of the key not followed by a Del of the key.", "quantifier": "all schedules of any number of goroutines", "why_tests_cant": "depends on the goroutine schedule", "anchors": ["misc/syncmap.go"]}
{"id": "C74", "title": "SyncMap is free of data races", "statement": "FALSE of the code: Del first reads the map without holding the lock, so it can overlap a locked write of Put. Put and Get alone never overlap.", "quantifier": "all schedules", "why_tests_cant": "depends on the goroutine schedule", "anchors": ["misc/syncmap.go:Del"]}
{"id": "C75", "title": "Packets in flight never share a buffer", "statement": "In every schedule of the receive loop and the workers, the buffers being received into, queued, being processed and pooled are pairwise distinct, so a packet's bytes are not overwritten before its handler finished.", "quantifier": "all schedules", "why_tests_cant": "depends on the goroutine schedule", "anchors": ["dht/krpc/udp.go:recvRoutiue", "dht/krpc/server.go:recvPacketHandle", "misc/bytespool.go"]}
{"id": "C76", "title": "Received packets are at most 1024 bytes and delivered in order", "statement": "The bytes handed to the server are the first min(len,1024) bytes of the datagram, in arrival order, and at most 100 packets are buffered.", "quantifier": "all datagram sequences and schedules", "why_tests_cant": "depends on the goroutine schedule", "anchors": ["dht/krpc/udp.go"]}
{"id": "C77", "title": "Log filtering", "statement": "The console logger prints a message exactly when the message level is at least the logger level in the order DEBUG<INFO<WARN<ERROR<PANIC<TRACE, and Panic panics exactly when it prints.", "quantifier": "all levels and messages", "why_tests_cant": "the input space is unbounded; tests sample a handful of literals", "anchors": ["misc/logger.go"]}
{"id": "C78", "title": "SetLevel changes the level of the loggers in use", "statement": "FALSE of the code: loggers obtained before SetLevel keep their level, and GetLogger keeps returning the cached logger with the old level.", "quantifier": "all histories of GetLogger/SetLevel", "why_tests_cant": "must hold after every history of operations", "anchors": ["misc/logger.go:SetLevel", "misc/logger.go:mapLogger"]}
{"id": "C79", "title": "Configuration is read once", "statement": "A section that has been read once is returned unchanged forever, also after ResetConfig; hence a --config file cannot change the dht, fetchTorrent and logger sections, which are read during package initialisation or before flag parsing.", "quantifier": "all histories of reads and resets", "why_tests_cant": "must hold after every history of operations", "anchors": ["config/config.go:getSubConfig", "cmd/root.go", "dht/dht.go"]}
{"id": "C80", "title": "The torrent command reports name and sizes", "statement": "For every file that decodes, the printed name, length and piece length are the top-level values when they have the right type and the documented defaults otherwise; type confusion never panics. Rejecting a file with trailing bytes is FALSE of the code.", "quantifier": "all files", "why_tests_cant": "the input space is unbounded; tests sample a handful of literals", "anchors": ["cmd/torrent.go:printTorrentInfo"]}
{"id": "C81", "title": "Concurrent downloads of the same torrent leave a correct file", "statement": "Any number of downloads run at the same time, several possibly for the same info hash, with their file operations interleaved in any way: unless the file system fails or two downloads returned different data with the same SHA-1, every changed file ends up holding complete data whose SHA-1 is its name, and the data of every successful download is on disk.", "quantifier": "every set of concurrent downloads, every peer behaviour, every interleaving of create/write/close system calls, every initial disk", "why_tests_cant": "needs all interleavings of truncating creates and partial writes on one path", "anchors": ["dht/fetchtorrent.go: fetchHandler, flushTorrentFile, fetchTorrent"]}
{"id": "C82", "title": "Close stops reception", "statement": "Once a Close call that closed the socket has returned, no datagram is read any more, the receive goroutine fails at most one read and then ends (unless the packet queue is full), later Close calls return nil at once and of the concurrent ones exactly the first to reach the socket returns nil; Close never deadlocks. A Close call that returns early because another one is in progress gives no such guarantee (FALSE of the code: it can return nil while datagrams are still read).", "quantifier": "every schedule of the receive goroutine, the dispatcher, the handlers and any number of Close calls", "why_tests_cant": "the guarantee is about all interleavings of a flag, a mutex, a blocking read and a close", "anchors": ["dht/krpc/udp.go: UdpServer.Close, recvRoutiue"]}
{"id": "C83", "title": "Log level names", "statement": "A configured level name is understood in any ASCII letter case; every unknown name silently selects DEBUG.", "quantifier": "every ASCII string", "why_tests_cant": "all strings cannot be enumerated", "anchors": ["misc/logger.go: TransLogLevel"]}
{"id": "C84", "title": "Level names of the zap logger", "statement": "The file logger understands exactly DEBUG, INFO, ERROR and PANIC in upper case; everything else selects INFO. That every documented level name selects that level is FALSE of the code (WARN).", "quantifier": "every string", "why_tests_cant": "all strings cannot be enumerated", "anchors": ["misc/zap.go: parseLogLevel"]}
{"id": "C85", "title": "GetLogger from several goroutines", "statement": "In every schedule two GetLogger calls return the same logger exactly when they ask for the same name, provided map accesses take effect atomically. That the accesses never overlap is FALSE of the code: the first look-up is not synchronised with the store.", "quantifier": "every number of goroutines, every schedule", "why_tests_cant": "a double-checked lock is right or wrong only over all interleavings", "anchors": ["misc/logger.go: mapLogger"]}
{"id": "C86", "title": "Replies under any schedule of the workers", "statement": "However the handler goroutines are interleaved, handling a packet sends at most one reply, to the source of the packet, carrying the answer owed to a proper query or an error 203 with the same transaction id; packets that ask nothing get none; a query whose handler has returned has been answered exactly once.", "quantifier": "every number of concurrent handlers, every interleaving of their accesses to the request table, routing table, id counter, queue and socket, every sequence of packets", "why_tests_cant": "tests run one handler at a time; interleavings of many cannot be enumerated", "anchors": ["dht/krpc/server.go: recvPacketHandle", "dht/requesthandler.go"]}
{"id": "C87", "title": "The announcement queue under any schedule", "statement": "The announcements taken by the fetcher followed by those waiting are, in order, those put by the handlers; there are never more waiting than the queue holds; a handler queues at most one announcement, the one its packet makes, and only then replies.", "quantifier": "every schedule, every queue capacity", "why_tests_cant": "all interleavings of blocking sends and receives", "anchors": ["dht/requesthandler.go: announcePeerHandler", "dht/fetchtorrent.go: recvInfoHash", "dht/fetchtorrent.go"]}
{"id": "C88", "title": "Transaction ids under any schedule", "statement": "The ids drawn by concurrent handlers are consecutive (modulo 65536) after those of the bootstrap, so no two handlers get the same id within 65536 draws; a query is in the request table before it is sent; the table never holds more than 65536 requests.", "quantifier": "every schedule, every number of queries", "why_tests_cant": "uniqueness over all interleavings and beyond wrap-around", "anchors": ["dht/node.go: TxIdGenerator.Next", "dht/krpc/server.go: Query", "misc/syncmap.go"]}
{"id": "C89", "title": "Node lists under any schedule", "statement": "A find_node response is followed at each moment by a prefix of its node list having been offered to the table, one query per accepted node with an id of its own, in order; when its handler has returned the whole list has been offered. A response to a known request is always followed, one to an unknown id never.", "quantifier": "every schedule, every node list", "why_tests_cant": "all interleavings with other handlers changing the table, ids and request map", "anchors": ["dht/resphandler.go: genericRespHandler, findNodeRespHandler", "dht/krpc/server.go: responseHandle"]}
{"id": "C90", "title": "The routing table under any schedule", "statement": "However handlers interleave, the routing table is one that some sequence of AddNode calls produces; it holds at most 8*161 nodes, always the local node, and every other node was listed by a handled response to a request the crawler made.", "quantifier": "every schedule, every sequence of packets", "why_tests_cant": "all interleavings and histories", "anchors": ["dht/routetable.go: AddNode", "dht/resphandler.go: findNodeRespHandler"]}
{"id": "C91", "title": "Handlers are only ever blocked by a full queue", "statement": "A started handler can always run to its end on its own, whatever the others are doing, unless its packet is an announcement not yet queued and the queue is full; in that case it neither queues, replies nor ends until the fetcher takes an announcement.", "quantifier": "every reachable state, every handler", "why_tests_cant": "a statement about all states and all continuations", "anchors": ["dht/requesthandler.go: announcePeerHandler", "dht/krpc/server.go: recvPacketHandle"]}
{"id": "C92", "title": "One packet at a time is one schedule", "statement": "Running a handler from start to end without interruption has exactly the effect of handling the packet in one step, so the sequential properties hold of every schedule that handles one packet at a time.", "quantifier": "every reachable state, every packet", "why_tests_cant": "refinement between two models over all inputs", "anchors": ["dht/krpc/server.go: recvPacketHandle"]}
{"id": "C93", "title": "Bounded reaction to a packet", "statement": "Handling a packet sends one datagram (the reply), or fewer than one per 26 bytes of the packet (queries to nodes it lists), never both, and only to the source of the packet or to nodes it lists: at most 39 for a packet of 1024 bytes. All datagrams ever sent are those of the bootstrap followed by those of the handlers.", "quantifier": "every packet that fits a Go slice, every schedule", "why_tests_cant": "amplification must be bounded for every packet", "anchors": ["dht/krpc/server.go", "dht/resphandler.go", "dht/dht.go: BootStrap"]}
{"id": "C94", "title": "A bucket shared by goroutines", "statement": "A Bucket used by any number of goroutines never panics, never deadlocks, never holds more than its capacity, and each call behaves as if it took place at one moment between its start and its return; Add returns true exactly when it stored its node in a place of its own and false only when the bucket is full; the slice returned by All stays valid whatever is added later; Iterator also calls its handler with nil for every free place.", "quantifier": "every capacity, every number of concurrent calls, every interleaving", "why_tests_cant": "linearizability over all schedules", "anchors": ["dht/routetable.go: Bucket"]}
{"id": "C95", "title": "Responses and errors on the wire", "statement": "If the handlers of a query leave one of the DHT responses (ping, find_node, get_peers with nodes or with values, announce_peer) or an error, the peer receives exactly one datagram, which decodes to exactly the BEP-5 message with that transaction id and contents; compact node and peer lists in it parse back to the nodes and peers given; a parameter error without message says \"invalid param\".", "quantifier": "every node list, peer list, token, code, message, transaction id and map iteration order", "why_tests_cant": "the wire format must be right for every content", "anchors": ["dht/messgaes.go", "dht/krpc/messages.go: WithErr, WithParamErr, RawData", "dht/krpc/server.go: recvPacketHandle"]}
{"id": "C96", "title": "The whole pipeline loses nothing and is bounded", "statement": "From the UDP socket through the packet queue, Listen, the work pool, the handlers, the announcement queue, the fetch loop and the fetch pool to the downloads: whatever the schedule, the packets read are in order exactly those handled, waiting or in hand; the announcements taken are exactly those being downloaded, downloaded, waiting or in hand; each download is caused by an announcement packet of its own; everything waiting or being worked on is bounded by the configured sizes; and the handlers behave as the concurrent crawler of C86-C93.", "quantifier": "every configuration of sizes, every sequence of datagrams, every schedule, every behaviour of peers and file system", "why_tests_cant": "a statement about all histories of some ten kinds of goroutine", "anchors": ["cmd/root.go", "dht/krpc/udp.go", "dht/krpc/server.go: Listen", "dht/dht.go: Run", "dht/fetchtorrent.go", "misc/workpool.go"]}
{"id": "C97", "title": "Where files and connections come from", "statement": "Every file that differs from its initial state is torrent/<hex>.torrent of the SHA-1 of data a peer delivered, and a packet read from the socket announced that info hash; whenever no write is in progress, the file system did not fail and there is no SHA-1 collision, every changed file is complete and every successful download is on disk; TCP connections are only opened to addresses that announcement packets name.", "quantifier": "every configuration, every sequence of datagrams, every schedule, every behaviour of peers and file system", "why_tests_cant": "provenance over all histories", "anchors": ["dht/fetchtorrent.go", "dht/requesthandler.go: announcePeerHandler", "dht/peerwire/bep9.go"]}
{"id": "C98", "title": "Only hanging downloads stall the crawler", "statement": "From every point of every execution the crawler can finish all the work it has taken on without further input, unless as many downloads hang as there are fetch workers. A hanging download never gives its worker back. That the crawler never stalls is FALSE of the code: from every state a fixed number of copies of one announcement datagram, naming a peer that stops reading, leaves a state in which no step at all is possible any more, not even reading packets.", "quantifier": "every configuration, every reachable state", "why_tests_cant": "a liveness statement about all reachable states", "anchors": ["dht/fetchtorrent.go: fetchTorrent", "dht/peerwire/peer.go", "dht/krpc/udp.go: recvRoutiue", "misc/workpool.go"]}
{"id": "C99", "title": "A work pool that is never shut down is a bounded queue", "statement": "As long as Shutdown is not called and the context is not cancelled, the pool stays Running and every schedule of it is one of a FIFO queue of the configured capacity emptied by the configured number of workers, and every step of such a queue is possible for the pool.", "quantifier": "every size, every sequence of submissions, every schedule", "why_tests_cant": "refinement over all interleavings", "anchors": ["misc/workpool.go"]}
{"id": "C100", "title": "Messages cut short", "statement": "If a strict prefix of a dictionary's bencoding is accepted by DecodeDict, the result is that dictionary without everything after the cut and the reported end offset lies behind the input; DecodeSlice rejects such input. A query datagram longer than the 1024-byte receive buffer, if understood at all, is handled with its own transaction id, method and sender id and with arguments cut short. That every cut message is rejected is FALSE of the code.", "quantifier": "every dictionary, every cut point, every datagram", "why_tests_cant": "all inputs and all cut points", "anchors": ["misc/beancode.go: DecodeDict, DecodeSlice", "dht/krpc/udp.go: recvRoutiue"]}
{"id": "C101", "title": "Decoding amplifies nothing", "statement": "Every string or key in a decoded value is a contiguous part of the input; the total size and the nesting depth of a decoded value are at most the length of the input.", "quantifier": "every input", "why_tests_cant": "all inputs", "anchors": ["misc/beancode.go: DecodeDict, decodeItem"]}
{"id": "C102", "title": "Encodings can be told apart and concatenated", "statement": "Two values with a common encoding are equal up to the order of dictionary entries; no encoding is a proper prefix of another; a concatenation of encodings can be split back into its items in only one way.", "quantifier": "every value that can be encoded, every list of values", "why_tests_cant": "all pairs of values", "anchors": ["misc/beancode.go: EncodeDict, EncodeSlice"]}
{"id": "C103", "title": "Errors report everything and panics need a cause", "statement": "The text of an error contains its code first, its message, its parameters and the text of its cause, to any nesting depth; PanicSysErrNonNil and PanicBizErrNonNil panic exactly when given a non-nil error, and the panic's text contains the message and the cause's text; the text a KRPC error reply carries is that text. That business errors carry no stack trace, and that parameters can be read back from the text, are FALSE of the code.", "quantifier": "every code, message, list of parameters and nesting of errors", "why_tests_cant": "errors nest without bound and carry arbitrary data", "anchors": ["misc/errors.go", "misc/strings.go: ToString", "dht/krpc/server.go: recvPacketHandle"]}
{"id": "C104", "title": "What replies say and how much the crawler sends", "statement": "Every reply carries exactly the BEP-5 answer to the packet, or error 203 with the text naming the first thing that is wrong with the query. For packets of less than 10000 bytes an answer is at most twice as long as the query (at most 2 bytes longer unless get_peers), an error reply at most 100 bytes longer than query and stack trace, every query sent is 94 bytes long, and all a handler sends is at most four times its packet plus 100 bytes plus a stack trace. That replies disclose nothing of the crawler's internals is FALSE of the code (a query without arguments gets the stack trace), and so is that replies fit the 1024-byte buffer used for receiving.", "quantifier": "every packet, every schedule, every state", "why_tests_cant": "a bound for all packets and schedules", "anchors": ["dht/krpc/server.go: recvPacketHandle, requestHandle", "dht/requesthandler.go", "dht/resphandler.go", "dht/messgaes.go", "misc/errors.go: Error"]}
{"id": "C105", "title": "Start-up", "statement": "The crawler starts exactly if the configuration in ./conf (or the defaults, written there when there is none) can be read, its port is valid and free, its sizes are not negative, the file named with --config can be read, and every bootstrap host can be resolved and be sent a packet. It then has opened its port, sent one find_node query for its own id to each bootstrap host in order with consecutive transaction ids from 1001, and is in the initial state of the whole-process model. Every command, also version and torrent, opens the UDP port before anything else. All crawlers use one and the same node id. FALSE of the code: that other commands can be used while the crawler runs (they crash without output), that one unresolvable bootstrap host is skipped (the process crashes and later hosts are not asked), that every configuration that starts works (with zero workers no packet is ever handled).", "quantifier": "all configuration files, command lines, name resolutions, port states, send results and map orders; for the zero-worker claim all schedules and packets", "why_tests_cant": "The combinations of configuration, network and already running processes cannot be enumerated, and tests cannot bind a busy port or fail DNS deterministically.", "anchors": ["main.go: main", "cmd/root.go: rootExectueFunc, ExecuteBackgroud", "cmd/version.go: version", "cmd/torrent.go: torrent", "config/config.go: init, ResetConfig, getSubConfig", "dht/dht.go: BootStrap, Run, localNodeId", "dht/node.go: generateNodeId, resolveHost", "dht/krpc/udp.go: StartUdpServer", "dht/fetchtorrent.go: recvInfoHash"]}
{"id": "C106", "title": "A whole run, from bootstrapping to the end", "statement": "Whenever a handler runs, all four queries are registered, every bootstrap host was contacted and the fetch loop was started: packets that arrive during start-up wait. Packets are dispatched once, in the order in which they were read; at most 100 wait in the queue and one with the reader. Hosts are contacted in order, each once, before anything else starts. The process ends by itself only after a signal, and only after all hosts were contacted; after a signal nothing can keep it from ending within five steps of its main goroutine; a second signal has no effect; nothing happens after the end. No datagram is read after the socket was closed; if the process was listening when the clean-up began and reports it finished, the socket was closed. FALSE of the code: that a finished clean-up always closes the socket and that a signal never makes the process panic (a signal during bootstrapping), that packets read before the signal are handled, that no handler runs after the socket was closed.", "quantifier": "all interleavings of main, Run, the socket reader, handlers, clean functions and signals; any number of hosts and packets", "why_tests_cant": "Signals can arrive at every step of every goroutine; tests cannot enumerate the schedules.", "anchors": ["cmd/root.go: rootExectueFunc", "dht/dht.go: Run, BootStrap", "misc/shutdown.go", "dht/krpc/udp.go: recvRoutiue, Close", "dht/krpc/server.go: Listen, RegisteHandler"]}
{"id": "C107", "title": "The file logger", "statement": "Each call of a file logger's methods appends nothing or exactly one line: the call's entry, if the method's level is at least the level the logger was made with. The line carries level, time, the prefix in brackets followed by the message, and each context entry once; whatever bytes are logged, the line contains no other line break or control character, so that no entry can be forged, it is a JSON object whose members stand for what was logged (bytes that are not UTF-8 replaced by U+FFFD), and two entries (of UTF-8 text) with the same line are the same entry. Panic also panics, with the prefixed message, whether or not it is written; the other methods do not. A new prefix replaces the old one. That the line identifies an entry whose strings are not UTF-8, such as raw info hashes, is FALSE of the code.", "quantifier": "all messages, prefixes, level names, contexts, bytes", "why_tests_cant": "Any bytes received from the network may be logged; a test uses a few.", "anchors": ["misc/zap.go: NewZapLogger, SetPrefix, Trace, convert2slice, parseLogLevel"]}
{"id": "C108", "title": "The info-hash log", "statement": "In every schedule logs/infohash.log consists of exactly one line for each handled get_peers or announce_peer query with proper arguments, naming the query, its sender's address, the info hash in hexadecimal and the announced port, and of nothing else; it only grows. A query is in the log before it is answered, and an announcement before the fetcher can see it: everything in, or taken from, the fetch queue is in the log. The file can be read back: it determines the sequence of its entries, and an entry determines sender, info hash and port. FALSE of the code: that logged info hashes have 20 bytes, that logged ports are ports, that nothing is logged twice, that everything logged gets into the fetch queue.", "quantifier": "all packets, all schedules of any number of handlers and the fetcher, all map iteration orders", "why_tests_cant": "schedules of concurrent handlers and arbitrary packets cannot be enumerated", "anchors": ["dht/requesthandler.go: getPeersHandler, announcePeerHandler, infoHashLogger", "misc/zap.go: Info", "dht/krpc/server.go: requestHandle"]}
{"id": "C109", "title": "How far the crawl reaches", "statement": "In every schedule and for all packets the handlers of one process send find_node queries to at most 8*161 different addresses, and this bound can be met. Once eight nodes that share exactly i < 160 bits with the local id are stored, no other node at that distance is ever accepted. Once the table holds 8*161 nodes it never changes again and nobody new is asked. Nothing remembers which node was asked: a response that lists stored nodes (in buckets with room) is followed by a new query to each of them. FALSE of the code: that the crawler goes on crawling (35 datagrams from one address fill the table for good, after which no query is ever sent), and that the crawl of a finite network comes to rest (with six other nodes, each query answered once, N answers cause 6*N queries for every N).", "quantifier": "all packets, all schedules of any number of handlers, all later executions", "why_tests_cant": "a bound on whole executions with attacker-chosen packets; no test can explore them all or run for ever", "anchors": ["dht/resphandler.go: findNodeRespHandler", "dht/routetable.go: AddNode", "dht/node.go: Equals, parseNodeInfo", "dht/krpc/server.go: responseHandle"]}
{"id": "C110", "title": "What a download demands of the peer", "statement": "For every peer, way of splitting the stream, pool and environment: metadata is returned only if both ids are 20 bytes long and the first bytes received, completed with zeros to 68, are a handshake with length 19, the protocol name (in any case) and the extension bit; any other peer is refused after exactly one write and one read. Nothing depends on the two ids in the peer's handshake. With an id of another length nothing is sent or read. The returned data is never longer than all that was received. FALSE of the code: that a peer naming another info hash is refused, that the announced metadata_size and total_size are enforced, that a handshake must be complete (26 bytes suffice), that requests carry the extension number the peer announced (they always carry 1).", "quantifier": "every sequence of bytes a peer can send, every pool state and environment", "why_tests_cant": "arbitrary hostile peers cannot be enumerated", "anchors": ["dht/peerwire/bep9.go: FetchMetaData, handshakePeer, readMetaDataHandler", "dht/peerwire/bep3.go: parseHandShakeMsg, SupportExtended", "dht/peerwire/peer.go"]}
{"id": "C111", "title": "The outcome of a download for any well-framed peer", "statement": "Whatever length-prefixed messages an accepted peer sends - any bodies, any order, any repetition, any end - the result of FetchMetaData and everything it writes is determined by a small relation over messages: keep-alives, other message types, other extensions and non-data metadata messages change nothing; an announcement (dictionary with m and metadata_size) sets size and number of pieces, discards earlier data and causes one request per piece; a data message fills its piece, the last one for a piece counting; a message that is none of these, or longer than 32 KiB, ends the download with an error, whatever follows. As soon as all pieces are there the rest is not read, and the joined pieces are returned exactly if their SHA-1 is the wanted one. In particular one data message without any announcement is enough. (Without concurrent downloads, on a sound pool that has a buffer for every message, or when no announced size exceeds one piece.)", "quantifier": "all lists of message bodies, all sound pools, all environments whose writes and allocations succeed", "why_tests_cant": "all sequences of messages of unbounded number and arbitrary content", "anchors": ["dht/peerwire/bep9.go: FetchMetaData, readMetaDataHandler, parseExtendedFetchMetaMsg", "dht/peerwire/bep10.go: parseExtendedHandShake", "dht/peerwire/bep3.go: readBytesByPrefixLenMsg", "dht/peerwire/peer.go: CompledMetaData"]}
{"id": "C112", "title": "Downloads that share the buffer pool", "statement": "Other downloads take buffers from the common pool, receive data into the ones they hold and give them back, at any time and in any order. If the big buffers they take during a download plus the messages it receives do not exceed the big buffers in the pool at its start, its outcome and everything it writes are those of a download alone. Whatever the peer sends, whatever the others do and however the download ends, the pool stays sound (no buffer twice in it, none at once in it and with another download), and a buffer held by another download is never written. FALSE of the code beyond that bound: with one buffer more taken, another download receives its data into the buffer in which this one left a piece, and an honest peer's metadata is rejected.", "quantifier": "every schedule of the other downloads, every sequence of messages, every sound pool", "why_tests_cant": "all interleavings of arbitrarily many downloads", "anchors": ["dht/peerwire/bep9.go: FetchMetaData, readMetaDataHandler", "dht/peerwire/bep3.go: readBytesByPrefixLenMsg", "misc/bytespool.go"]}
{"id": "C113", "title": "Existence, size and creation of files", "statement": "IsExist(path) holds exactly if the path, links followed, names something the process can reach; GetFileSize is the length of that file and -1 exactly when IsExist is false; IsDir(path) holds exactly if the path itself (a link in the last place not followed) is a directory, and then the path exists. Mkdir creates one level: it fails without changing anything if the parent is missing, not a directory, not searchable or not writable, or if the name is taken; otherwise the path is a new empty directory, every path that named something names the same thing, and no file changes. BaseDir is absolute. FALSE of the code: that a path for which IsDir is false cannot be listed (a link to a directory), that a path for which IsExist is false can be created or has nothing there (a dangling link, a directory without search permission), that BaseDir is the directory of the program (a program started by its bare name).", "quantifier": "all file systems with directories, files, symbolic links and permissions; all paths", "why_tests_cant": "File system trees, links and paths are unbounded.", "anchors": ["misc/file.go: GetFileSize, IsExist, Mkdir, IsDir, BaseDir"]}
{"id": "C114", "title": "The torrent command on a real directory tree", "statement": "For a directory named by a path without '..', or on whose way no link is met, the torrent command shows exactly the entries whose names end in .torrent and that are not directories, each once, sorted by name, with the contents of the file the entry names (links followed), provided each is a readable file holding a bencoded dictionary. Any other path is taken as one file, links followed. FALSE of the code: that a symbolic link to a directory works like the directory (the command crashes unless the path ends in a slash, and such a link named x.torrent ends the listing), and that paths with '..' work behind links (there the contents shown belong to a file of another directory, because the path is cleaned textually).", "quantifier": "all file systems with directories, files, symbolic links and permissions; all paths and directory contents", "why_tests_cant": "File system trees, links and paths are unbounded.", "anchors": ["cmd/torrent.go: torrent, printTorrentInfo", "misc/file.go: IsDir"]}
{"id": "C115", "title": "First starts and the configuration file", "statement": "In a directory without a configuration file any number of processes may start, interleaved in any way, and be killed at any moment: everything that had a name keeps it and every file keeps its contents, ./conf/config.json is absent, empty or holds the defaults, at most one process is writing it, and a process that gets past configuration has the defaults while the file is complete. Where a configuration file exists no start changes the file system, and every process has what is in it. A start with nothing else running ends within six calls, and in a writable directory without conf it leaves the complete file, which later starts read. It is not true that first starts are safe: one killed between creating and writing the file leaves an empty file, after which every start panics for ever; and of two simultaneous first starts one panics.", "quantifier": "all file systems, all numbers of processes, all interleavings and kill points, all --config values", "why_tests_cant": "Interleavings of processes and crash points between system calls cannot be enumerated by tests.", "anchors": ["config/config.go: init, ResetConfig, configPath, FileAbsPath", "misc/file.go: IsExist, Mkdir", "cmd/root.go: rootExectueFunc"]}
{"id": "C116", "title": "Any number of downloads at once", "statement": "Any number of FetchMetaData calls run at once, interleaved at every access to the shared buffer pool and to the buffers. Each call that ends ended like a single download from a sound pool with the rest of the crowd as the others; returned data has the requested SHA-1, the connection is closed exactly once, last; no call ever waits for another. If the big buffers the others take while a call runs plus the messages it receives do not exceed the big buffers in the pool when it began, its outcome and everything it writes are decided by its own peer's messages, and an honest peer's metadata is returned; if all messages of all peers together do not exceed the big buffers at the start, this holds for every call. A call takes no more big buffers than its peer sends messages that are not keep-alives. At every moment no buffer is in two places, and no access of one call changes a buffer another one holds. FALSE of the code without that bound: in a freshly started crawler two honest peers that send one small message each suffice for one download to fail.", "quantifier": "every number of concurrent downloads, every interleaving of their accesses to shared memory, every sequence of bytes from every peer", "why_tests_cant": "all interleavings of arbitrarily many downloads", "anchors": ["dht/peerwire/bep9.go: FetchMetaData, readMetaDataHandler", "dht/peerwire/bep3.go: readBytesByPrefixLenMsg", "misc/bytespool.go: GetBySize, Put", "dht/fetchtorrent.go: asyncExecutorFetchTorrent"]}
{"id": "C117", "title": "How long a download takes", "statement": "FetchMetaData with a clock: connecting is given up after 3 s; a call whose connection is made ends within 4 s of its start plus the crawler's own delays (computation, scheduling, and its writes), whatever the peer sends or withholds, and only bytes that could be read within the first second after the connection was made count: the outcome is that of an untimed download fed with an initial part of them, exactly all of them if the own delays are short. An honest peer whose messages all come in time is served; the returned data has the requested SHA-1 and the connection is closed once, last, at whatever times things happen. The 10 s limit on the read loop never acts unless the crawler itself loses 9 s. FALSE of the code: that a peer has 10 s (or a second per message): an honest peer whose last message comes 1.2 s after the connection is refused; that a call's duration is bounded: one slow write delays it arbitrarily and makes it fail although the answer is there.", "quantifier": "all arrival times of all runs of bytes, all answers to the dial, all own delays before every step", "why_tests_cant": "Arrival times and scheduling delays are unbounded and cannot be reproduced by tests.", "anchors": ["dht/peerwire/bep9.go: FetchMetaData, readMetaDataLoop, handshakePeer", "dht/peerwire/peer.go: IsReadLoopExpire", "dht/peerwire/bep3.go: readBytesByPrefixLenMsg"]}
{"id": "C118", "title": "The texts of messages and log values", "statement": "ToString of a number, list or dictionary is a JSON text (RFC 8259) that stands for it, with every byte that is not part of a UTF-8 sequence replaced by U+FFFD; of a value of UTF-8 strings it stands for exactly this value, and two such values with the same text are equal. It does not depend on the order in which maps are visited and is one line without control characters, whatever bytes the value holds. The String of a response is that text of the dictionary that is sent for it. A console line stays one line as long as no plain string given to the logger holds a control character; lists, dictionaries and numbers cannot break it. FALSE of the code: that the String of a request says what was requested (it is {} for all); that responses with different ids have different Strings (ids are raw bytes); that console lines are written by the crawler only: anyone can have it print any line of up to 400 bytes by a ping query with that line in its transaction id.", "quantifier": "all values built from numbers, byte strings, lists and dictionaries; all iteration orders; all transaction ids", "why_tests_cant": "Values are unbounded trees, and map order is random.", "anchors": ["misc/strings.go: ToString", "dht/krpc/messages.go: BaseResponse.String, BaseRequest.String", "misc/logger.go: appendCtx, print", "dht/requesthandler.go: pingHandler"]}
{"id": "C119", "title": "Conversions between strings and byte slices", "statement": "Bytes2Str and Str2Bytes keep contents and length and are inverse to each other; the result of Str2Bytes has no spare capacity. A program that stores nothing into memory it gave to Bytes2Str or got from Str2Bytes (appending directly to a result of Str2Bytes is allowed) cannot tell them from conversions that copy: it ends the same way with the same strings, slices and capacities; its strings never change and it never stores to read-only memory. Str2Hex is the hexadecimal text and changes nothing. FALSE of the code without that rule: that strings are immutable (whatever is stored into the slice shows in the string; so in the strings of the dictionaries decoded from the download buffers), that appending is safe (appending to a part of a result of Str2Bytes overwrites the string), and that a store panics (a store into a literal's bytes ends the process).", "quantifier": "all programs over strings and slices: literals, make, copies, slicing, element stores, appends with any growth, the conversions", "why_tests_cant": "Programs and sharing patterns are unbounded.", "anchors": ["misc/strings.go: Str2Bytes, Bytes2Str, Str2Hex", "dht/peerwire/bep9.go: parseExtendedFetchMetaMsg"]}
{"id": "C120", "title": "Info hashes and ids are SHA-1", "statement": "The hash by which GeneratePeerId, GenerateInfoHash and the node id are computed and metadata is checked is SHA-1 as FIPS 180-4 defines it: for every message of fewer than 2^64 bits the standard defines exactly one digest, and it is this one; metadata returned by FetchMetaData has the requested info hash by the standard's definition.", "quantifier": "all messages shorter than 2^64 bits", "why_tests_cant": "Messages are unbounded; test vectors cover a handful.", "anchors": ["dht/peerwire/peer.go: GeneratePeerId, GenerateInfoHash", "dht/node.go: generateNodeId", "dht/peerwire/bep9.go: FetchMetaData"]}
{"id": "C121", "title": "Shutdown used by several goroutines", "statement": "Any number of goroutines register clean functions and call WaitShutdown, signals arrive and contexts are done or replaced, in any interleaving. As long as no two registrations overlap, none is lost: at every moment exactly the functions of the completed registrations are registered, in order; and each WaitShutdown call, whatever the others do, calls each function registered before it began to clean at most once, and exactly once - and all have returned - if it returns without timeout and no registration slipped in before it read the list. In every run no more calls go on than signals were sent, unless a context is done; and no call panics unless InitShutdownCtx replaces the context. FALSE of the code: that overlapping registrations are kept (one of two that both returned can be lost, at the first append as well as later); that a clean function runs once (every WaitShutdown call runs it again, and the status goes back from Shutdowned to Shutdowning); that a signal stops every waiting call (one goes on, the others stay blocked, also after two signals); that a waiting call obeys a context set by InitShutdownCtx (cancelling the new one does nothing, cancelling the old one makes the call panic).", "quantifier": "all numbers of registrations and WaitShutdown calls, all interleavings at the steps of append and of the cleaning goroutines, all growth choices of append, all signals and contexts", "why_tests_cant": "Interleavings of arbitrarily many goroutines on an unprotected slice cannot be enumerated by tests.", "anchors": ["misc/shutdown.go: Clean, RegisterShutDownClean, WaitShutdown, Wait4Shutdown, waitCleans, runCleans, InitShutdownCtx, Status"]}
{"id": "C122", "title": "The crawler comes to rest", "statement": "However the goroutines are scheduled and whatever the peers do: the work is linear in the input - an execution of the whole process that has read some packets has at most 14 steps for each packet and 4 for each 26 bytes of it (at most 170 for a packet), besides the file operations of the downloads; so a process that never stops reads packets again and again, and once no more packets arrive every execution finishes all the work after finitely many steps, unless it dies or as many downloads hang as there are fetch workers; it never rests before that. In a process that never stops every packet read is sooner or later taken up by a worker, and if announcements keep coming every announcement is sooner or later handed to a fetch worker; no fairness of the scheduler is needed.", "quantifier": "all schedules, all finite and infinite executions, all datagrams, all behaviours of all peers, all pool sizes", "why_tests_cant": "Termination over all schedules and infinite executions cannot be observed by running tests.", "anchors": ["dht/krpc/udp.go: recvRoutiue", "dht/krpc/server.go: Listen, recvPacketHandle", "misc/workpool.go: AsyncSubmit, worker", "dht/resphandler.go", "dht/requesthandler.go", "dht/fetchtorrent.go: asyncExecutorFetchTorrent, fetchHandler"]}
{"id": "C123", "title": "An address survives being written as text", "statement": "The text of an address that a socket delivered (IPv4 or IPv6, with or without a zone), as the crawler logs and compares it, is read back by net.ResolveUDPAddr as the same address without asking a name service; so two different addresses are never written alike, and two nodes compare equal exactly if their ids are equal up to case and their addresses are the same. With udp4, as for the crawler's own node, IPv6 addresses are refused (except ::, which is taken for 0.0.0.0).", "quantifier": "all IPv4 and IPv6 addresses, all ports, all zones without brackets and percent signs, all name services", "why_tests_cant": "2^128 addresses; the text form has many cases (longest zero run, embedded zeros).", "anchors": ["dht/node.go: NodeInfo.Equals, resolveHost", "dht/krpc/udp.go: SendPacketToHost, StartUdpServer, recvRoutiue", "dht/requesthandler.go: announcePeerHandler"]}
{"id": "C124", "title": "A download contacts only the announcer", "statement": "Whatever an announce_peer query says, the only machine the crawler tries to connect to for it is the one the packet came from: DialTimeout is given a text that resolves, without any name service, to the packet's source IP and one valid port - the UDP source port with implied_port, the announced port otherwise - or to an error (malformed port, or an IPv6 source without implied_port). FALSE of the code: that a number that is no port is always refused: port 4294967300 leads to a connection to port 4 of the sender (numbers overflow in 32 bits).", "quantifier": "all announcements, all source addresses, all port numbers, all name services", "why_tests_cant": "Ports are unbounded integers chosen by strangers.", "anchors": ["dht/fetchtorrent.go: parseFetchAddr, fetchHandler", "dht/peerwire/bep9.go: FetchMetaData"]}
{"id": "C125", "title": "Where bootstrapping goes", "statement": "The address a bootstrap query is sent to comes from the configured text: host:port or [host]:port, with the port as written (a number of a port means that port) and the IP as written if the host is a literal IPv4 or IPv6 address in any of its spellings (leading zeros, either case, '::', an IPv4 tail, a zone), otherwise one of the name service's answers for exactly that host, the first IPv4 one if there is one. The text of an address of a running node can be used as it is. A host without port keeps the crawler from starting, and the hosts after it are not contacted. A first start with the default configuration depends on no name service.", "quantifier": "all configured texts, all name services, all configurations", "why_tests_cant": "Arbitrary texts and arbitrary answers of name services.", "anchors": ["dht/dht.go: BootStrap", "dht/node.go: resolveHost", "cmd/root.go: rootExectueFunc", "config/config.go"]}
{"id": "C126", "title": "Installing a logger factory", "statement": "GetLogger returns, for a name (the factory in force names the default one), the logger returned for that name before, or - the first time - a new one made by the factory then in force with the level then in force; a name has one logger for the life of the process and no two names share one. Close flushes every logger handed out so far, by whichever factory it was made, exactly once, and changes nothing. FALSE of the code: that InitLogger makes the program log through the new factory: the package variables have asked for the default name before main runs, so a factory with the same default name is never used for them.", "quantifier": "all sequences of GetLogger, SetLevel, InitLogger and Close, all factories, all names, all map iteration orders", "why_tests_cant": "Histories of calls are unbounded; the effect of a call depends on the whole history.", "anchors": ["misc/logger.go: InitLogger, GetLogger, SetLevel, Close, mapLogger, flush, LoggerFactory"]}
{"id": "C127", "title": "The debug server", "statement": "Starting the debug server never fails, whatever happens to its port. A page is served only for paths below /debug/pprof/, and it is the page of that name (index, cmdline, profile, symbol, trace, a profile of the runtime, or 'unknown profile'); every request with such a path without detours gets it. Other paths are not found; paths with detours ('..', '//') are redirected once, to the path without them, so a detour cannot leave the directory. FALSE of the code: that nobody can look into the crawler unless the user asked for it: with the default configuration the server runs, listens on every interface, and shows everybody the command line and the profiles.", "quantifier": "all request paths, all Host headers, CONNECT and other methods, all configurations", "why_tests_cant": "Paths and hosts are arbitrary strings chosen by strangers.", "anchors": ["misc/pprof.go: StartPProf", "cmd/root.go: rootExectueFunc", "config/config.go: init"]}
{"id": "C128", "title": "The command line", "statement": "A command line without help flags, in which no configuration file is named like a command, means what it says: the first word that is not '-', not empty and not after '--' is the command (version, torrent, help); without one the crawler is started, any other word is an error; the configuration file is the one named last with --config FILE or --config=FILE, wherever it stands, by default ./conf/config.json; the command gets the other words in order. Everything else that begins with a dash, and --config without a file, is an error whatever else is given; if help is asked for (and not turned off again) nothing runs. A process that comes to crawl was started so and uses that file; a command line with a command word sends nothing. Refuted: with a configuration file named like a command the wrong words and file are used; words after '--' are ignored and start the crawler; help asked for in front of a command can end in a crash.", "quantifier": "all command lines (lists of arbitrary byte strings)", "why_tests_cant": "Command lines are unbounded lists of arbitrary strings; flags may stand anywhere.", "anchors": ["cmd/root.go: rootCmd, init, ExecuteBackgroud", "cmd/version.go: version", "cmd/torrent.go: torrent", "main.go: main", "config/config.go: FileAbsPath"]}
{"id": "C129", "title": "Fair schedules", "statement": "In a process that never stops and whose scheduler forgets no handler and not the download side as a whole (each takes a step again and again, or from some time on cannot): every handler that has begun ends; every packet that was read and asks something is answered, exactly once, to its source, with what it is owed; and every announcement that was accepted is given to a fetch worker (for this only the download side must not be forgotten) - unless from some time on as many downloads hang as there are fetch workers. Refuted: without fairness one handler can be forgotten forever while all others are answered and nothing hangs.", "quantifier": "all infinite executions of the whole process (every interleaving, every behaviour of peers and runtime), all configurations, every packet and announcement", "why_tests_cant": "Liveness under fairness speaks about infinite executions; no test runs one.", "anchors": ["dht/krpc/server.go: recvPacketHandle, Listen", "dht/requesthandler.go", "dht/fetchtorrent.go: fetchTorrent", "misc/workpool.go: AsyncSubmit", "dht/krpc/udp.go"]}
{"id": "C130", "title": "The files of the info-hash log", "statement": "Whatever is logged, whenever files are rotated, however often the process ends (at any point) and is started again: logs/infohash.log holds exactly what was written since the last rotation, every backup exactly what was written between two rotations, in order and in whole lines; a backup is removed only after the remover saw three newer ones or found it older than 28 days; the last three backups not too old are always there. The remover looks at the directory at most once for every rotation and every start of the process. Until there were more than three rotations nothing is lost: the backups by age and then the log are everything ever written, and every info hash the crawler was asked for can be found in one of them. No file is larger than 500 MiB and, once the remover is done, they take at most 2000 MiB together. A line is refused only if it is longer than 500 MiB, which no packet can cause; any other line can always be written. FALSE of the code: that everything ever logged is kept; that the files hold an unbroken stretch (the remover begins with the newest of those too many); that nothing else gets lost if the clock does not advance between rotations.", "quantifier": "all sequences of lines, all interleavings of writer and remover, all times, all crash points and restarts", "why_tests_cant": "Rotation happens at 500 MiB and removal in a goroutine of its own; crash points are arbitrary.", "anchors": ["misc/zap.go: NewZapLogger", "dht/requesthandler.go: infoHashLogger, getPeersHandler, announcePeerHandler"]}
{"id": "C131", "title": "Downloads can be traced in the log", "statement": "At every moment of every execution of the whole process: every file the crawler changed is torrent/<hex>.torrent of an info hash for which the info-hash log holds an announce_peer line, the line of a packet read from the socket that announced it; every TCP address it dialled can be read off such a line (the address in the line, or its host with the port in the line); there are never more downloads, begun or finished, than announce_peer lines. While the log was rotated at most three times and no backup grew too old, the line is on the disk in one piece.", "quantifier": "all executions of the whole process (configurations, datagrams, schedules, peers, file system failures), all their logs, all map orders", "why_tests_cant": "Relates three concurrent parts (handlers, fetch workers, log) over all interleavings.", "anchors": ["dht/requesthandler.go: announcePeerHandler, infoHashLogger", "dht/fetchtorrent.go: fetchHandler, parseFetchAddr, flushTorrentFile", "misc/zap.go: NewZapLogger"]}
{"id": "C132", "title": "A network of crawlers", "statement": "Any number of crawler processes, each with its own node id, configuration, runtime and disk, that hear of nothing but each other, on a network that may lose, delay, reorder, duplicate and misroute their datagrams and change source addresses: nobody ever learns anything. At every moment the routing table of each process holds itself only, no announcement was queued, no download begun, no file changed and no line logged; all a process sends is one bootstrap query per configured host and, for find_node queries it read, answers without nodes, at most one per packet. If the network does not duplicate datagrams it falls silent: all processes together send at most two datagrams per configured host. FALSE of the code: that crawlers which bootstrap from one another find one another.", "quantifier": "all numbers of processes, all configurations and node ids, all schedules, all behaviours of the network short of forging datagrams", "why_tests_cant": "Several processes, unbounded executions and every behaviour of the network.", "anchors": ["dht/dht.go: Run, BootStrap", "dht/requesthandler.go: findNodeHandler", "dht/resphandler.go: genericRespHandler, findNodeRespHandler", "dht/krpc/server.go", "dht/krpc/udp.go", "cmd/root.go"]}
{"id": "C133", "title": "What the handlers print", "statement": "What a finished handler printed on standard output is a transcript of its packet and of what it did, with nothing missing and nothing added, in this order: a packet that cannot be decoded, has no type, is malformed, is an error message or is a response nobody asked for prints its one or two lines; a query prints its transaction id and type, its handler's line (with info hash and port) or that a field is missing, and then the reply's lines; a matched response prints its lines, for every node listed what the routing table and the query to it print (one line per new bucket, one if the node found no place, the reason of a refusal, sent or not sent), and the number of nodes. Only started handlers print; every call yields exactly one record (time, level, logger, message, context in some order; C118 says what a stranger can do with it). FALSE of the code: that 'cannot match request ignore' is about a response that could not be matched - it is printed exactly for those that were matched and listed nodes; that 'Bytes sended' means something was sent; that 'add fail' is printed for nodes that were not added.", "quantifier": "all executions of the crawler with any number of handlers in any interleaving, all packets, all error texts, times and map orders", "why_tests_cant": "Interleavings of handlers and packets are unbounded; the lines depend on shared state.", "anchors": ["dht/krpc/server.go: recvPacketHandle, requestHandle, responseHandle, responseErrHandle, Query", "dht/krpc/udp.go: SendPacket", "dht/requesthandler.go", "dht/resphandler.go: genericRespHandler, findNodeRespHandler", "dht/routetable.go: AddNode, addNode", "misc/logger.go"]}
{"id": "C134", "title": "Responses to the other queries", "statement": "A response that matches a query of any type but find_node (ping, get_peers, announce_peer) changes nothing and causes nothing to be sent, whatever it contains and whatever the state: neither the routing table nor the announcements nor the open queries. Its handler gives up, harmlessly, exactly if the response is one to get_peers with a 'values' entry that is not a list of strings with room for six bytes, or without 'values' and without a string 'nodes'.", "quantifier": "all packets, all states, all requests of these types, all runtimes", "why_tests_cant": "Responses come from strangers; the crawler itself never sends these queries, so no test reaches the code.", "anchors": ["dht/resphandler.go: genericRespHandler, pingRespHandler, getPeerValRespHandler, getPeerNodesRespHandler, announcePeerRespHandler", "dht/node.go: parsePeerInfo, parseNodeInfo"]}
{"id": "C135", "title": "What a download prints", "statement": "What one call of FetchMetaData prints about its peer is a transcript of what happened, with nothing missing and nothing added: nothing while the greeting works, then for every message the read loop looked at the lines that belong to it, in order (keep-alives: none; the announced size and the number of pieces requested after an extended handshake; the answers, those without data marked; other extensions; other messages; undecodable messages; only the last message can end the download), and last the closing line, which the result determines: checksum match with the info hash for a success, checksum mismatch with the announced size, or the reason of the failure. At most one line of a download is at level PANIC; the only line after it repeats its text as the reason and the call fails. FALSE of the code: that every failed download leaves a trace in the log - a failed dial, a peer that runs out of time and a write that blocks forever do not.", "quantifier": "all peers (every byte string in every segmentation), all timers, write outcomes, memory limits and interferences of other goroutines, all info hashes and peer ids, all texts of errors", "why_tests_cant": "Peers are arbitrary and sessions unbounded; which lines appear depends on where the session broke.", "anchors": ["dht/peerwire/bep9.go: FetchMetaData, readMetaDataLoop, readMetaDataHandler, handleExtendedMsg, initialMessages, handshakePeer", "dht/peerwire/bep3.go: parseHandShakeMsg, withHandShakeMsg", "dht/peerwire/bep10.go: parseExtendedHandShake", "misc/logger.go: Panic, Error, Info"]}
{"id": "C136", "title": "What a download worker prints", "statement": "What one run of fetchHandler prints is the transcript of its download (C135), exactly as FetchMetaData prints it, and nothing else, with two exceptions: it complains once, after a successful download, about a file it could not create or complete; and for an announcement without a usable info hash or port it prints one line instead of everything else, having dialled nobody and touched no file. After a successful download it is silent exactly if the file holds the complete metadata, whatever the directory held before. The line with the matching checksum and the info hash in hexadecimal appears exactly if the metadata was downloaded. FALSE of the code: that every announcement a worker handled leaves a line - none does if the peer cannot be reached.", "quantifier": "all announcements, peers, timers, write outcomes, memory limits, failures of the file system and sizes of its writes, all texts of errors", "why_tests_cant": "Peers and the file system are arbitrary; failing disks cannot be enumerated.", "anchors": ["dht/fetchtorrent.go: fetchHandler, parseFetchAddr, flushTorrentFile", "dht/peerwire/bep9.go: FetchMetaData", "misc/logger.go: Error"]}
{"id": "C137", "title": "What the receiving goroutines print", "statement": "In every execution of the receive goroutine, Listen, the workers, concurrent Close calls and any other goroutines that print: the lines '<<< received Bytes' are those of the first n datagrams read, and the lines '<<<rpc received' those of the first m of these, each in the order of arrival, with the sender and the number of bytes kept (at most 1024), none missing, repeated or invented; at most one datagram read has no line yet; m is at most n, lags behind it by at most 102, and no packet beyond the first m has been looked at by a handler: a handler never starts on more packets than the console shows. Every failed read except possibly the last has its error line. With no line outstanding the lines are complete. FALSE of the code: that the lines tell which datagram was received - neither its contents nor, beyond 1024 bytes, its size is in them.", "quantifier": "all executions, all datagrams, any number of Close calls, all other output", "why_tests_cant": "The lines come from goroutines that run concurrently; the order and completeness concern every schedule.", "anchors": ["dht/krpc/udp.go: recvRoutiue, StartUdpServer, RecvChanLen, RecvPacketLen", "dht/krpc/server.go: Listen", "misc/logger.go: Info, Error"]}
