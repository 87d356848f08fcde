#!/usr/bin/env python3
"""Writes /verif/properties.jsonl (one JSON object per line). Source of truth for the property texts."""
import json, os
P = []
def p(title, statement, quantifier, why, anchors):
    P.append(dict(id="C%02d" % (len(P)+1), title=title, statement=statement,
                  quantifier=quantifier, why_tests_cant=why, anchors=anchors))

BE = "misc/beancode.go"
INF = "the input space is unbounded; tests sample a handful of literals"
# ---- bencode -------------------------------------------------------------
p("Integer codec round-trips",
  "For every Go int n, DecodeInteger(EncodeInteger(n)) returns n with a nil error, and EncodeInteger(n) is 'i', the canonical decimal of n, 'e'.",
  "all 2^64 values of a Go int", INF, [BE+":EncodeInteger", BE+":DecodeInteger", BE+":innerDecodeInteger"])
p("DecodeInteger accepts exactly the documented integers",
  "For every string s, DecodeInteger(s) terminates without panicking; it succeeds with n exactly when s is i<body>e where body is the canonical decimal of n (no leading zeros, no -0), or a '+' followed by decimal digits of value n, and n fits an int; otherwise it returns an error. (The '+' forms are a leniency the code has and bencode does not.)",
  "all byte strings", INF, [BE+":DecodeInteger", BE+":innerDecodeInteger"])
p("Stand-alone string codec round-trips",
  "For every string s, DecodeString(EncodeString(s)) returns s. FALSE of the code for strings that contain ':' (it returns an error); it holds for every string without ':'.",
  "all byte strings", INF, [BE+":EncodeString", BE+":DecodeString"])
p("DecodeString never panics",
  "DecodeString returns a value or an error for every input. FALSE of the code: a decimal number with no ':' (e.g. \"12\") panics; the panicking inputs are exactly the strings of length >= 2 without ':' which parse as a number.",
  "all byte strings", INF, [BE+":DecodeString"])
p("Lists and dictionaries round-trip through the codec for every map iteration order",
  "Whatever order Go iterates each map in, decoding the bencoding of a well-formed List or Dict with DecodeSlice / DecodeDict / DecodeDictNoLimit succeeds and yields an equal value.",
  "all well-formed nested values (ints, strings, lists, dicts) and all iteration orders at all levels", "iteration order is chosen by the runtime and nesting is unbounded", [BE+":EncodeSlice", BE+":EncodeDict", BE+":DecodeSlice", BE+":DecodeDict", BE+":DecodeDictNoLimit"])
p("DecodeDictNoLimit reports where the dictionary ends",
  "If a packet is the bencoding of a dict followed by arbitrary bytes, DecodeDictNoLimit returns the dict and exactly the offset of the first trailing byte.",
  "all well-formed dicts, all trailing byte strings", INF, [BE+":DecodeDictNoLimit"])
p("Encoder output is bencode",
  "Whenever EncodeSlice/EncodeDict succeed, the output is derivable in the BEP-3 grammar and denotes the encoded value. The further BEP-3 requirement that dictionary keys appear sorted is FALSE of the code (they appear in map iteration order).",
  "all values and iteration orders", "iteration order is nondeterministic", [BE+":EncodeSlice", BE+":EncodeDict", BE+":encodeItem"])
p("The encoder rejects exactly the unsupported values",
  "EncodeDict/EncodeSlice succeed exactly when every leaf is an int or string and every container is a non-nil List or Dict. They return an error for other kinds and panic for an untyped nil or a named int/string type.",
  "all Go interface{} values reachable as dict/list contents", INF, [BE+":encodeItem", BE+":EncodeSlice", BE+":EncodeDict"])
p("Decoder accepts exactly the lenient grammar",
  "For every input, the decoder's success, value and end offset agree with a small declarative grammar: bencode with '+' integers, leading zeros in string lengths, duplicate keys (last wins) and containers left open at end of input.",
  "all byte strings and start offsets", INF, [BE+":decodeItem", BE+":innerDecodeSlice", BE+":innerDecodeDict", BE+":innerDecodeString", BE+":innerDecodeInteger"])
p("Decoding terminates and never reads outside the input",
  "On every input, each decoder finishes within a number of steps linear in the input length, and every index it reads is inside the input or the read panics.",
  "all byte strings", "non-termination cannot be observed by a test", [BE])
p("Decoders do not panic on hostile input",
  "No input makes a decoder panic. FALSE of the code: an integer cut off by the end of input, or a string length close to 2^63, panics. On an input whose last byte is 'e' the only panic left is the length overflow.",
  "all byte strings", INF, [BE+":innerDecodeInteger", BE+":innerDecodeString"])
p("DecodeSlice consumes the whole input",
  "DecodeSlice succeeds only on inputs that are exactly one closed list: nothing missing at the end and no trailing bytes.",
  "all byte strings", INF, [BE+":DecodeSlice"])
p("DecodeDict consumes the whole input",
  "DecodeDict succeeds only on inputs that are exactly one closed dictionary. FALSE of the code: trailing bytes give a nil Dict with a nil error, and a dictionary whose closing 'e' is missing is accepted when the last byte happens to be 'e'.",
  "all byte strings", INF, [BE+":DecodeDict"])
# ---- typed access ------------------------------------------------------------
p("Typed getters never invent values",
  "Dict.GetInteger/GetString/GetList/GetDict return v exactly when the key is present with a value of that type, and otherwise panic with a *misc.Error of code 201 (which the server turns into a protocol error).",
  "all dicts and keys", INF, ["misc/types.go:GetInteger", "misc/types.go:GetString", "misc/types.go:GetList", "misc/types.go:GetDict"])
p("Defaulting getters are total",
  "GetIntegerOrDefault / GetStringOrDefault never panic and return the stored value when it has the right type, the default otherwise. GetValOrDefault returning the default for a missing key is FALSE of the code: it returns nil.",
  "all dicts, keys and defaults", INF, ["misc/types.go:GetIntegerOrDefault", "misc/types.go:GetStringOrDefault", "misc/types.go:GetValOrDefault"])
p("List access is guarded by Exist",
  "If List.Exist(i) then GetVal(i) does not panic. True for i >= 0, FALSE of the code for negative i. Typed list getters return the element exactly when it has the type.",
  "all lists and int indices", INF, ["misc/types.go:List"])
p("String comparison used for names and ids",
  "The case-insensitive comparison behind ContainsString, NodeInfo.Equals, Find and the handshake check is reflexive and symmetric, coincides with ASCII case-insensitive equality on ASCII strings, but compares texts character by character (Unicode simple folding), but identifies distinct binary ids: any two invalid UTF-8 bytes compare equal.",
  "all byte strings", "ids are 160-bit binary strings; tests use ASCII", ["misc/types.go:ContainsString", "dht/node.go:Equals", "dht/routetable.go:Find"])
# ---- ids ----------------------------------------------------------------------
p("Prefix length is the longest common bit prefix",
  "solvePrefixLen(a,b) is the number of leading bits on which a and b agree (within the shorter of the two), it is symmetric, and satisfies the ultrametric inequality on equal-length ids.",
  "all pairs/triples of byte strings", INF, ["dht/routetable.go:solvePrefixLen", "misc/bits.go:Xor"])
p("Transaction ids do not repeat within a window of 65536",
  "However calls to TxIdGenerator.Next from different goroutines are interleaved, every result is 4 lowercase hex digits, any two results fewer than 65536 calls apart differ, and the sequence repeats with period exactly 65536.",
  "all initial values, all numbers and interleavings of calls", "needs 65536 calls and all schedules", ["dht/node.go:TxIdGenerator"])
p("Compact node info round-trips",
  "For nodes with 20-byte ids, IPv4 addresses and 16-bit ports, parseNodeInfo(joinNodeInfos(ns)) gives back the same ids, IPv4 addresses and ports.",
  "all lists of nodes", INF, ["dht/node.go:joinNodeInfos", "dht/node.go:parseNodeInfo"])
p("Compact node parsing is total and lossless",
  "parseNodeInfo never panics on any string, yields exactly floor(len/26) nodes, and re-joining them gives the input without its last len mod 26 bytes.",
  "all byte strings", INF, ["dht/node.go:parseNodeInfo", "dht/node.go:joinNodeInfos"])
p("Compact encoding is aligned for every node the crawler can hold",
  "joinNodeInfos produces 26 bytes per node. FALSE of the code for IPv6 addresses (20 bytes) and ids that are not 20 bytes long; ports are truncated modulo 65536.",
  "all lists of nodes", INF, ["dht/node.go:joinNodeInfos"])
p("Compact peer info round-trips",
  "For IPv4 addresses with 16-bit ports parsePeerInfo(joinPeerInfos(as)) gives back the same addresses; for entries of at least 6 bytes the first 6 bytes decide the result; a non-string entry panics with a *misc.Error.",
  "all address lists, all lists of values", INF, ["dht/node.go:joinPeerInfos", "dht/node.go:parsePeerInfo"])
# ---- routing table ------------------------------------------------------------
RT="dht/routetable.go"
HIST="must hold after every history of operations"
p("Every stored node sits in the bucket of its distance",
  "After any sequence of AddNode calls every stored node is in the bucket given by min(common prefix with the local id, index of the last bucket), and no bucket holds two nodes that compare equal.",
  "all configurations and all AddNode histories", HIST, [RT+":AddNode", RT+":addNode", RT+":addNodeWithsplitBucket"])
p("The routing table is bounded",
  "No bucket exceeds k nodes, there are at most capacity+1 buckets, hence at most k*(capacity+1) stored nodes.",
  "all configurations and AddNode histories", HIST, [RT+":NewRouteTable", RT+":AddNode"])
p("Nodes are never evicted and the local node is always present",
  "AddNode never removes a stored node (splitting a bucket loses nothing); for k >= 1 the host node is in the table forever.",
  "all configurations and AddNode histories", HIST, [RT+":addNodeWithsplitBucket"])
p("AddNode's result tells what happened",
  "If AddNode returns an error the table is unchanged, and it does so exactly when the node's bucket is full and holds an equal node, or is not the last bucket, or the bucket limit is reached. If it returns nil the node (or one comparing equal) is in the table afterwards: FALSE of the code when a split uses up the bucket limit (the node is dropped and nil returned); for k >= 1 and a capacity within the bit length of the local id this is the only exception, i.e. the table is Full afterwards.",
  "all reachable tables and nodes", HIST, [RT+":AddNode", RT+":addNodeWithsplitBucket"])
p("Size reports the number of stored nodes",
  "RouteTable.Size() equals the number of nodes stored. FALSE of the code: re-adding a present node to a non-full bucket increments Size. Exactly: Size = stored nodes + number of such re-adds.",
  "all AddNode histories", HIST, [RT+":Size", RT+":addNode"])
p("Find returns a stored node with the requested id, if there is one",
  "Find(id) never panics, returns only stored nodes whose id compares equal to id, and finds some node whenever a node with exactly this id is stored. Returning a node with exactly this id is FALSE of the code (binary ids may be confused).",
  "all reachable tables and ids", HIST, [RT+":Find"])
p("FindClosest returns stored nodes nearest first",
  "FindClosest(id,n) returns a duplicate-free list of stored nodes in order of non-increasing bucket, stops only when it has more than n nodes or has visited all lower buckets. That these are the n closest stored nodes, and that at most n are returned, is FALSE of the code.",
  "all reachable tables, ids and n", HIST, [RT+":FindClosest"])
p("Routing table operations terminate without panicking",
  "AddNode, Find, FindClosest, Full and Size terminate and do not panic, for ids of any length, any k and any capacity; bucket splitting recurses at most capacity times.",
  "all reachable tables and arguments", "recursion depth and nil-map lookups depend on the history", [RT])
# ---- bytes pool ---------------------------------------------------------------
BP="misc/bytespool.go"
p("Pooled buffers have the requested size",
  "GetBySize(n) always returns a slice of length and capacity n and Get() one of the default width, whatever was put into the pool before.",
  "all histories of Get/GetBySize/Put", HIST, [BP])
p("A pooled buffer has one owner",
  "If every buffer obtained is put back at most once per acquisition, no two live holders ever hold the same buffer and a held buffer is never in the pool.",
  "all histories respecting the discipline", HIST, [BP])
p("The pool is bounded and does not clear buffers",
  "At most maxSize buffers per width are retained. A recycled buffer still shows the bytes of its previous owner.",
  "all histories", HIST, [BP])
# ---- middleware ---------------------------------------------------------------
MW="dht/krpc/middleware.go"
p("Each middleware runs exactly once, in registration order",
  "Whatever the handlers do - call Next zero, one or many times - one dispatch starts every registered handler exactly once and in registration order, the request handler last, and terminates (unless one panics, in which case the started handlers are a prefix).",
  "all handler chains and handler behaviours", "handlers are arbitrary code", [MW+":Next", "dht/krpc/server.go:doRequestHandle"])
p("Middleware nests like an onion",
  "If every middleware calls Next exactly once, code before Next runs in registration order and code after Next in reverse order around the handler.",
  "all chain lengths and handler bodies", INF, [MW+":Next"])
p("The response sent is the last one written",
  "The value returned for a request is the last WriteAs of the dispatch, or nil if none happened.",
  "all handler chains", INF, [MW+":WriteAs", "dht/krpc/server.go:doRequestHandle"])
# ---- krpc server --------------------------------------------------------------
SV="dht/krpc/server.go"
p("Every well-formed query is answered exactly once, to its sender, with its transaction id",
  "A packet decoding to a dict with y=q, a string t and a string q produces exactly one datagram, addressed to the packet's source, whose t equals the query's t - provided the registered handler writes a response with that t or panics with a *misc.Error.",
  "all packets, all registered handlers", INF, [SV+":recvPacketHandle", SV+":requestHandle"])
p("Malformed or unsupported queries get a 203 error",
  "A query with an unsupported type, without arguments, without a 20-byte id, or for an unregistered type is answered with an error response of code 203 and no application handler runs.",
  "all packets", INF, [SV+":requestHandle", "dht/krpc/messages.go:WithParamErr"])
p("Garbage is dropped silently",
  "A packet that does not decode, has no y, or whose y is neither q nor r causes no datagram and changes nothing; for a packet with y = r the server itself sends nothing (only the handler waiting for that response acts).",
  "all byte strings", INF, [SV+":recvPacketHandle"])
p("One bad packet cannot stop the server",
  "recvPacketHandle returns normally for every packet and every handler behaviour: panics are contained, and the packet's buffer is returned to the pool exactly once.",
  "all packets, handlers and panics", INF, [SV+":recvPacketHandle"])
p("Responses are routed by transaction id",
  "A response packet runs the handler of the request most recently sent with that transaction id, with that request and the response body, after the response middlewares; with an unknown id nothing runs.",
  "all packets and all histories of queries", HIST, [SV+":responseHandle", SV+":Query"])
p("A request is answered at most once and only by the queried node",
  "FALSE of the code: the pending request is never removed and the source address is not checked, so a response can be replayed any number of times, from any address, and each time the handler runs.",
  "all packet histories", HIST, [SV+":responseHandle"])
p("Handler registration is checked",
  "RegisteHandler accepts only the four KRPC query types (up to case) and non-nil handlers; a handler registered under a different capitalisation is never reached by a correctly spelled query.",
  "all names and handlers", INF, [SV+":RegisteHandler"])
p("Query messages have the KRPC wire format",
  "The datagram sent for ping, find_node, get_peers and announce_peer decodes - for every map iteration order - to exactly the BEP-5 dictionary for its arguments.",
  "all ids, targets, info hashes, tokens and ports", INF, ["dht/messgaes.go", "dht/krpc/messages.go:RawData"])
p("Two crawlers understand each other",
  "If crawler A sends a ping or find_node query to crawler B, B answers with exactly one datagram that, delivered to A, runs the handler A registered with that query, and the response carries B's node id.",
  "all node ids, transaction ids, iteration orders", INF, [SV, "dht/requesthandler.go"])
# ---- dht handlers -------------------------------------------------------------
RH="dht/requesthandler.go"
p("The crawler's replies are what BEP-5 requires",
  "ping and announce_peer are answered with our id, find_node with our id and an empty nodes string, get_peers with our id, a token and an empty nodes string; get_peers without a string info_hash, and announce_peer without a string info_hash or int port, get a 203 error.",
  "all queries", INF, [RH])
p("Exactly the valid announcements are queued for fetching",
  "An info hash is queued for download exactly when an announce_peer query with valid id, string info_hash and int port is handled; what the fetcher has taken followed by what is queued is exactly those announcements in order; the queue never exceeds its capacity, and when it is full exactly the valid announcements have to wait.",
  "all packet histories", HIST, [RH+":announcePeerHandler", "dht/fetchtorrent.go"])
p("Announcements need a valid token",
  "FALSE of the code: announce_peer is accepted with any token or none.",
  "all announce_peer packets", INF, [RH+":announcePeerHandler"])
p("A find_node response triggers one query per accepted node",
  "Handling a find_node response sends one find_node query, with consecutive fresh transaction ids, to each listed node for which AddNode returned nil, in order, and nothing else; at most len(nodes)/26 datagrams.",
  "all responses and reachable tables", HIST, ["dht/resphandler.go:findNodeRespHandler", "dht/resphandler.go:genericRespHandler"])
p("Each discovered node is queried at most once",
  "FALSE of the code: a node already stored in a non-full bucket is queried again each time it is listed.",
  "all response histories", HIST, ["dht/resphandler.go:findNodeRespHandler"])
# ---- peer wire ----------------------------------------------------------------
p("BitTorrent handshake round-trips",
  "For 20-byte peer id and info hash the handshake message is 68 bytes and parses back to protocol 'BitTorrent protocol', the extension bit, the same info hash and peer id; other lengths panic before anything is sent. Parsing 68 arbitrary bytes succeeds exactly when the protocol length byte is at most 19.",
  "all 20-byte ids; all byte strings", INF, ["dht/peerwire/bep3.go"])
p("Extended handshake round-trips and is length-prefixed",
  "The extended handshake message starts with the big-endian length of the rest and parses back to an equal dictionary with m set.",
  "all dictionaries and iteration orders", INF, ["dht/peerwire/bep10.go"])
p("Metadata messages round-trip including binary payload",
  "A metadata request/data/reject message built for any id, type, piece, total size and payload has a correct length prefix and parses back to the same fields, whatever bytes the payload contains.",
  "all field values and payloads", INF, ["dht/peerwire/bep9.go:Bytes", "dht/peerwire/bep9.go:parseExtendedFetchMetaMsg"])
p("Frame reading bounds",
  "readBytesByPrefixLenMsg reports keep-alive exactly for a zero length prefix, rejects a declared length above 32 KiB, and never returns more than 32 KiB. Returning exactly one declared message is FALSE of the code (short reads and coalesced messages are mishandled).",
  "all read schedules", "segmentation is chosen by the network", ["dht/peerwire/bep3.go:readBytesByPrefixLenMsg"])
p("Downloaded metadata is authentic",
  "FetchMetaData returns data only if the SHA-1 of that data is the requested info hash - whatever the peer sends, however reads are split, and whatever other goroutines do to shared buffers.",
  "all peer behaviours, read schedules and buffer interference", "adversarial peer and scheduler", ["dht/peerwire/bep9.go:FetchMetaData"])
p("Fetching always finishes, contained, with the connection closed",
  "For every peer behaviour no panic escapes FetchMetaData; if it returns (data or error) and the dial succeeded, the connection has been closed exactly once, as the last operation; its loop is finite, so it fails to return only when a Write blocks forever or the process runs out of memory. Both of these can be caused by a hostile peer (stop reading; announce a huge metadata_size), so unconditional termination is FALSE of the code.",
  "all peer behaviours", "adversarial peer", ["dht/peerwire/bep9.go:FetchMetaData"])
p("An honest peer with one-piece metadata is served",
  "If the peer speaks the protocol with one message per read and the metadata is at most 16 KiB, FetchMetaData returns exactly the metadata, for any sound prior pool contents, if no other goroutine uses the pool meanwhile; and after every such call (honest peer or not) the pool is sound again. With a concurrent fetch the first part is FALSE of the code.",
  "all metadata up to 16384 bytes, all pool states", INF, ["dht/peerwire/bep9.go:FetchMetaData"])
p("An honest peer with multi-piece metadata is served",
  "True only if the pool already holds at least as many 32 KiB buffers as messages arrive between the first and the last piece; FALSE of the code otherwise (in particular from an empty pool): received pieces alias a buffer that is returned to the shared pool and overwritten by the next read, so the metadata is assembled from overwritten bytes.",
  "all metadata sizes", "needs buffer aliasing through the pool", ["dht/peerwire/bep9.go:readMetaDataHandler", BP])
p("Piece requests cover the metadata exactly once",
  "After an extended handshake announcing size s >= 0 the crawler requests pieces 0..ceil(s/16384)-1, each once, in order. Whatever the peer does, nothing is ever written to it but our handshake, our extended handshake and such runs of requests. A peer that sends piece 0 without having announced a size or been asked is believed if the checksum is right.",
  "all announced sizes", INF, ["dht/peerwire/bep9.go:handleExtendedMsg"])
p("The result does not depend on TCP segmentation",
  "FALSE of the code: the same byte stream delivered in different segments can make the fetch fail.",
  "all segmentations", "segmentation is chosen by the network", ["dht/peerwire/bep3.go:readBytesByPrefixLenMsg"])
# ---- torrent files ------------------------------------------------------------
FT="dht/fetchtorrent.go"
p("Every torrent file is named after the hash of its contents",
  "Every file the crawler writes is torrent/<hex>.torrent where hex is the SHA-1 of the complete written data.",
  "all announcements and peers", "adversarial peers", [FT+":fetchHandler", FT+":flushTorrentFile"])
p("Announced info hashes cannot escape the torrent directory",
  "The path built from any announced info hash (any bytes, any length) consists of the fixed prefix, lowercase hex digits and the fixed suffix; different info hashes give different paths.",
  "all byte strings", INF, [FT+":flushTorrentFile", FT+":fetchHandler"])
p("Torrent files are written atomically",
  "FALSE of the code: a crash between creating and writing leaves an empty or partial file under the final name. Without a crash or I/O error the file content is complete.",
  "all crash points", "needs a crash at every point", [FT+":flushTorrentFile"])
p("The fetch address follows implied_port",
  "The download address is source-ip:port from the announcement, or the UDP source address when implied_port is an int > 0; for IPv4 sources it is a well-formed host:port. For IPv6 sources without implied_port this is FALSE (no brackets).",
  "all announcements and source addresses", INF, [FT+":parseFetchAddr"])
# ---- work pool ----------------------------------------------------------------
WP="misc/workpool.go"
SCH="depends on the goroutine schedule"
p("Work pool: no task lost, duplicated or reordered at start",
  "At every point of every schedule the tasks started so far followed by the queued ones are exactly the accepted tasks in submission order.",
  "all schedules", SCH, [WP])
p("Work pool: bounded queue and parallelism",
  "At most size tasks are queued and at most size tasks run at the same time; a submit blocks rather than overflow.",
  "all schedules", SCH, [WP])
p("Work pool: status only moves forward and later submits panic",
  "As long as no two Shutdown calls (the one triggered by the context included) shut the pool down at the same time, the status goes Running -> Shutdowning -> Shutdowned and never back; with overlapping calls this is FALSE of the code (it can go back from Shutdowned to Shutdowning). In every schedule, a pool that is not Running never runs again and an AsyncSubmit that begins then panics and adds nothing.",
  "all schedules", SCH, [WP+":AsyncSubmit", WP+":Shutdown"])
p("Work pool: Shutdown stops the workers",
  "FALSE of the code: workers never exit (break leaves only the select), so with size >= 1 Shutdown always runs into its timeout and queued tasks are still started after it returned.",
  "all schedules", SCH, [WP+":workerLoop", WP+":Shutdown"])
p("Work pool: concurrent Shutdown calls are safe",
  "FALSE of the code: two concurrent Shutdown calls (e.g. user and context cancellation) can both close the channel, which panics. Sequential repeated calls are harmless, and of all calls at most one ever waits for the workers.",
  "all schedules", SCH, [WP+":Shutdown", WP+":listenCancelLoop"])
p("Work pool: accepted tasks are never stuck",
  "From every reachable state there is a continuation in which every accepted task has run, even after Shutdown.",
  "all reachable states", SCH, [WP])
# ---- shutdown -------------------------------------------------------------------
p("Shutdown runs every clean-up before reporting success",
  "If nothing is registered after the shutdown began, WaitShutdown returns without timeout only after every registered clean function has been called exactly once and has returned; the status is Running before, Shutdowning while it waits and Shutdowned on return. FALSE of the code: after a timeout a clean function can start when the status is already Shutdowned, and a function registered during the shutdown (dht.Run registers from its own goroutine) can be missed by a successful shutdown or crash the process.",
  "all schedules and clean function sets", SCH, ["misc/shutdown.go"])
# ---- sync map -------------------------------------------------------------------
p("SyncMap behaves like a map",
  "For every concurrent history of Put, Get, Del without data race (linearizability): every call takes effect exactly once between its begin and its return, and the result of Get is the latest Put of the key not followed by a Del of the key.",
  "all schedules of any number of goroutines", SCH, ["misc/syncmap.go"])
p("SyncMap is free of data races",
  "FALSE of the code: Del first reads the map without holding the lock, so it can overlap a locked write of Put. Put and Get alone never overlap.",
  "all schedules", SCH, ["misc/syncmap.go:Del"])
# ---- udp ------------------------------------------------------------------------
p("Packets in flight never share a buffer",
  "In every schedule of the receive loop and the workers, the buffers being received into, queued, being processed and pooled are pairwise distinct, so a packet's bytes are not overwritten before its handler finished.",
  "all schedules", SCH, ["dht/krpc/udp.go:recvRoutiue", SV+":recvPacketHandle", BP])
p("Received packets are at most 1024 bytes and delivered in order",
  "The bytes handed to the server are the first min(len,1024) bytes of the datagram, in arrival order, and at most 100 packets are buffered.",
  "all datagram sequences and schedules", SCH, ["dht/krpc/udp.go"])
# ---- logger, config, tools --------------------------------------------------------
p("Log filtering",
  "The console logger prints a message exactly when the message level is at least the logger level in the order DEBUG<INFO<WARN<ERROR<PANIC<TRACE, and Panic panics exactly when it prints.",
  "all levels and messages", INF, ["misc/logger.go"])
p("SetLevel changes the level of the loggers in use",
  "FALSE of the code: loggers obtained before SetLevel keep their level, and GetLogger keeps returning the cached logger with the old level.",
  "all histories of GetLogger/SetLevel", HIST, ["misc/logger.go:SetLevel", "misc/logger.go:mapLogger"])
p("Configuration is read once",
  "A section that has been read once is returned unchanged forever, also after ResetConfig; hence a --config file cannot change the dht, fetchTorrent and logger sections, which are read during package initialisation or before flag parsing.",
  "all histories of reads and resets", HIST, ["config/config.go:getSubConfig", "cmd/root.go", "dht/dht.go"])
p("The torrent command reports name and sizes",
  "For every file that decodes, the printed name, length and piece length are the top-level values when they have the right type and the documented defaults otherwise; type confusion never panics. Rejecting a file with trailing bytes is FALSE of the code.",
  "all files", INF, ["cmd/torrent.go:printTorrentInfo"])

exec(open(os.path.join(os.path.dirname(__file__), "more_properties.py")).read()) if os.path.exists(os.path.join(os.path.dirname(__file__), "more_properties.py")) else None
with open("/verif/properties.jsonl", "w") as f:
    for o in P: f.write(json.dumps(o)+"\n")
print(len(P))
