p("Concurrent downloads of the same torrent leave a correct file",
  "Any number of downloads run at the same time, several possibly for the same info hash, with their file operations interleaved in any way: unless the file system fails or two downloads returned different data with the same SHA-1, every changed file ends up holding complete data whose SHA-1 is its name, and the data of every successful download is on disk.",
  "every set of concurrent downloads, every peer behaviour, every interleaving of create/write/close system calls, every initial disk",
  "needs all interleavings of truncating creates and partial writes on one path",
  ["dht/fetchtorrent.go: fetchHandler, flushTorrentFile, fetchTorrent"])
p("Close stops reception",
  "Once a Close call that closed the socket has returned, no datagram is read any more, the receive goroutine fails at most one read and then ends (unless the packet queue is full), later Close calls return nil at once and of the concurrent ones exactly the first to reach the socket returns nil; Close never deadlocks. A Close call that returns early because another one is in progress gives no such guarantee (FALSE of the code: it can return nil while datagrams are still read).",
  "every schedule of the receive goroutine, the dispatcher, the handlers and any number of Close calls",
  "the guarantee is about all interleavings of a flag, a mutex, a blocking read and a close",
  ["dht/krpc/udp.go: UdpServer.Close, recvRoutiue"])
p("Log level names",
  "A configured level name is understood in any ASCII letter case; every unknown name silently selects DEBUG.",
  "every ASCII string", "all strings cannot be enumerated", ["misc/logger.go: TransLogLevel"])
p("Level names of the zap logger",
  "The file logger understands exactly DEBUG, INFO, ERROR and PANIC in upper case; everything else selects INFO. That every documented level name selects that level is FALSE of the code (WARN).",
  "every string", "all strings cannot be enumerated", ["misc/zap.go: parseLogLevel"])
p("GetLogger from several goroutines",
  "In every schedule two GetLogger calls return the same logger exactly when they ask for the same name, provided map accesses take effect atomically. That the accesses never overlap is FALSE of the code: the first look-up is not synchronised with the store.",
  "every number of goroutines, every schedule", "a double-checked lock is right or wrong only over all interleavings",
  ["misc/logger.go: mapLogger"])
p("Replies under any schedule of the workers",
  "However the handler goroutines are interleaved, handling a packet sends at most one reply, to the source of the packet, carrying the answer owed to a proper query or an error 203 with the same transaction id; packets that ask nothing get none; a query whose handler has returned has been answered exactly once.",
  "every number of concurrent handlers, every interleaving of their accesses to the request table, routing table, id counter, queue and socket, every sequence of packets",
  "tests run one handler at a time; interleavings of many cannot be enumerated",
  ["dht/krpc/server.go: recvPacketHandle", "dht/requesthandler.go"])
p("The announcement queue under any schedule",
  "The announcements taken by the fetcher followed by those waiting are, in order, those put by the handlers; there are never more waiting than the queue holds; a handler queues at most one announcement, the one its packet makes, and only then replies.",
  "every schedule, every queue capacity", "all interleavings of blocking sends and receives",
  ["dht/requesthandler.go: announcePeerHandler", "dht/fetchtorrent.go: recvInfoHash", "dht/fetchtorrent.go"])
p("Transaction ids under any schedule",
  "The ids drawn by concurrent handlers are consecutive (modulo 65536) after those of the bootstrap, so no two handlers get the same id within 65536 draws; a query is in the request table before it is sent; the table never holds more than 65536 requests.",
  "every schedule, every number of queries", "uniqueness over all interleavings and beyond wrap-around",
  ["dht/node.go: TxIdGenerator.Next", "dht/krpc/server.go: Query", "misc/syncmap.go"])
p("Node lists under any schedule",
  "A find_node response is followed at each moment by a prefix of its node list having been offered to the table, one query per accepted node with an id of its own, in order; when its handler has returned the whole list has been offered. A response to a known request is always followed, one to an unknown id never.",
  "every schedule, every node list", "all interleavings with other handlers changing the table, ids and request map",
  ["dht/resphandler.go: genericRespHandler, findNodeRespHandler", "dht/krpc/server.go: responseHandle"])
p("The routing table under any schedule",
  "However handlers interleave, the routing table is one that some sequence of AddNode calls produces; it holds at most 8*161 nodes, always the local node, and every other node was listed by a handled response to a request the crawler made.",
  "every schedule, every sequence of packets", "all interleavings and histories",
  ["dht/routetable.go: AddNode", "dht/resphandler.go: findNodeRespHandler"])
p("Handlers are only ever blocked by a full queue",
  "A started handler can always run to its end on its own, whatever the others are doing, unless its packet is an announcement not yet queued and the queue is full; in that case it neither queues, replies nor ends until the fetcher takes an announcement.",
  "every reachable state, every handler", "a statement about all states and all continuations",
  ["dht/requesthandler.go: announcePeerHandler", "dht/krpc/server.go: recvPacketHandle"])
p("One packet at a time is one schedule",
  "Running a handler from start to end without interruption has exactly the effect of handling the packet in one step, so the sequential properties hold of every schedule that handles one packet at a time.",
  "every reachable state, every packet", "refinement between two models over all inputs",
  ["dht/krpc/server.go: recvPacketHandle"])
p("Bounded reaction to a packet",
  "Handling a packet sends one datagram (the reply), or fewer than one per 26 bytes of the packet (queries to nodes it lists), never both, and only to the source of the packet or to nodes it lists: at most 39 for a packet of 1024 bytes. All datagrams ever sent are those of the bootstrap followed by those of the handlers.",
  "every packet that fits a Go slice, every schedule", "amplification must be bounded for every packet",
  ["dht/krpc/server.go", "dht/resphandler.go", "dht/dht.go: BootStrap"])
p("A bucket shared by goroutines",
  "A Bucket used by any number of goroutines never panics, never deadlocks, never holds more than its capacity, and each call behaves as if it took place at one moment between its start and its return; Add returns true exactly when it stored its node in a place of its own and false only when the bucket is full; the slice returned by All stays valid whatever is added later; Iterator also calls its handler with nil for every free place.",
  "every capacity, every number of concurrent calls, every interleaving", "linearizability over all schedules",
  ["dht/routetable.go: Bucket"])
p("Responses and errors on the wire",
  "If the handlers of a query leave one of the DHT responses (ping, find_node, get_peers with nodes or with values, announce_peer) or an error, the peer receives exactly one datagram, which decodes to exactly the BEP-5 message with that transaction id and contents; compact node and peer lists in it parse back to the nodes and peers given; a parameter error without message says \"invalid param\".",
  "every node list, peer list, token, code, message, transaction id and map iteration order", "the wire format must be right for every content",
  ["dht/messgaes.go", "dht/krpc/messages.go: WithErr, WithParamErr, RawData", "dht/krpc/server.go: recvPacketHandle"])
p("The whole pipeline loses nothing and is bounded",
  "From the UDP socket through the packet queue, Listen, the work pool, the handlers, the announcement queue, the fetch loop and the fetch pool to the downloads: whatever the schedule, the packets read are in order exactly those handled, waiting or in hand; the announcements taken are exactly those being downloaded, downloaded, waiting or in hand; each download is caused by an announcement packet of its own; everything waiting or being worked on is bounded by the configured sizes; and the handlers behave as the concurrent crawler of C86-C93.",
  "every configuration of sizes, every sequence of datagrams, every schedule, every behaviour of peers and file system", "a statement about all histories of some ten kinds of goroutine",
  ["cmd/root.go", "dht/krpc/udp.go", "dht/krpc/server.go: Listen", "dht/dht.go: Run", "dht/fetchtorrent.go", "misc/workpool.go"])
p("Where files and connections come from",
  "Every file that differs from its initial state is torrent/<hex>.torrent of the SHA-1 of data a peer delivered, and a packet read from the socket announced that info hash; whenever no write is in progress, the file system did not fail and there is no SHA-1 collision, every changed file is complete and every successful download is on disk; TCP connections are only opened to addresses that announcement packets name.",
  "every configuration, every sequence of datagrams, every schedule, every behaviour of peers and file system", "provenance over all histories",
  ["dht/fetchtorrent.go", "dht/requesthandler.go: announcePeerHandler", "dht/peerwire/bep9.go"])
p("Only hanging downloads stall the crawler",
  "From every point of every execution the crawler can finish all the work it has taken on without further input, unless as many downloads hang as there are fetch workers. A hanging download never gives its worker back. That the crawler never stalls is FALSE of the code: from every state a fixed number of copies of one announcement datagram, naming a peer that stops reading, leaves a state in which no step at all is possible any more, not even reading packets.",
  "every configuration, every reachable state", "a liveness statement about all reachable states",
  ["dht/fetchtorrent.go: fetchTorrent", "dht/peerwire/peer.go", "dht/krpc/udp.go: recvRoutiue", "misc/workpool.go"])
p("A work pool that is never shut down is a bounded queue",
  "As long as Shutdown is not called and the context is not cancelled, the pool stays Running and every schedule of it is one of a FIFO queue of the configured capacity emptied by the configured number of workers, and every step of such a queue is possible for the pool.",
  "every size, every sequence of submissions, every schedule", "refinement over all interleavings",
  ["misc/workpool.go"])
p("Messages cut short",
  "If a strict prefix of a dictionary's bencoding is accepted by DecodeDict, the result is that dictionary without everything after the cut and the reported end offset lies behind the input; DecodeSlice rejects such input. A query datagram longer than the 1024-byte receive buffer, if understood at all, is handled with its own transaction id, method and sender id and with arguments cut short. That every cut message is rejected is FALSE of the code.",
  "every dictionary, every cut point, every datagram", "all inputs and all cut points",
  ["misc/beancode.go: DecodeDict, DecodeSlice", "dht/krpc/udp.go: recvRoutiue"])
p("Decoding amplifies nothing",
  "Every string or key in a decoded value is a contiguous part of the input; the total size and the nesting depth of a decoded value are at most the length of the input.",
  "every input", "all inputs",
  ["misc/beancode.go: DecodeDict, decodeItem"])
p("Encodings can be told apart and concatenated",
  "Two values with a common encoding are equal up to the order of dictionary entries; no encoding is a proper prefix of another; a concatenation of encodings can be split back into its items in only one way.",
  "every value that can be encoded, every list of values", "all pairs of values",
  ["misc/beancode.go: EncodeDict, EncodeSlice"])
p("Errors report everything and panics need a cause",
  "The text of an error contains its code first, its message, its parameters and the text of its cause, to any nesting depth; PanicSysErrNonNil and PanicBizErrNonNil panic exactly when given a non-nil error, and the panic's text contains the message and the cause's text; the text a KRPC error reply carries is that text. That business errors carry no stack trace, and that parameters can be read back from the text, are FALSE of the code.",
  "every code, message, list of parameters and nesting of errors", "errors nest without bound and carry arbitrary data",
  ["misc/errors.go", "misc/strings.go: ToString", "dht/krpc/server.go: recvPacketHandle"])
p("What replies say and how much the crawler sends",
  "Every reply carries exactly the BEP-5 answer to the packet, or error 203 with the text naming the first thing that is wrong with the query. For packets of less than 10000 bytes an answer is at most twice as long as the query (at most 2 bytes longer unless get_peers), an error reply at most 100 bytes longer than query and stack trace, every query sent is 94 bytes long, and all a handler sends is at most four times its packet plus 100 bytes plus a stack trace. That replies disclose nothing of the crawler's internals is FALSE of the code (a query without arguments gets the stack trace), and so is that replies fit the 1024-byte buffer used for receiving.",
  "every packet, every schedule, every state", "a bound for all packets and schedules",
  ["dht/krpc/server.go: recvPacketHandle, requestHandle", "dht/requesthandler.go", "dht/resphandler.go", "dht/messgaes.go", "misc/errors.go: Error"])
p("Start-up",
  "The crawler starts exactly if the configuration in ./conf (or the defaults, written there when there is none) can be read, its port is valid and free, its sizes are not negative, the file named with --config can be read, and every bootstrap host can be resolved and be sent a packet. It then has opened its port, sent one find_node query for its own id to each bootstrap host in order with consecutive transaction ids from 1001, and is in the initial state of the whole-process model. Every command, also version and torrent, opens the UDP port before anything else. All crawlers use one and the same node id. FALSE of the code: that other commands can be used while the crawler runs (they crash without output), that one unresolvable bootstrap host is skipped (the process crashes and later hosts are not asked), that every configuration that starts works (with zero workers no packet is ever handled).",
  "all configuration files, command lines, name resolutions, port states, send results and map orders; for the zero-worker claim all schedules and packets",
  "The combinations of configuration, network and already running processes cannot be enumerated, and tests cannot bind a busy port or fail DNS deterministically.",
  ["main.go: main", "cmd/root.go: rootExectueFunc, ExecuteBackgroud", "cmd/version.go: version", "cmd/torrent.go: torrent", "config/config.go: init, ResetConfig, getSubConfig", "dht/dht.go: BootStrap, Run, localNodeId", "dht/node.go: generateNodeId, resolveHost", "dht/krpc/udp.go: StartUdpServer", "dht/fetchtorrent.go: recvInfoHash"])
p("A whole run, from bootstrapping to the end",
  "Whenever a handler runs, all four queries are registered, every bootstrap host was contacted and the fetch loop was started: packets that arrive during start-up wait. Packets are dispatched once, in the order in which they were read; at most 100 wait in the queue and one with the reader. Hosts are contacted in order, each once, before anything else starts. The process ends by itself only after a signal, and only after all hosts were contacted; after a signal nothing can keep it from ending within five steps of its main goroutine; a second signal has no effect; nothing happens after the end. No datagram is read after the socket was closed; if the process was listening when the clean-up began and reports it finished, the socket was closed. FALSE of the code: that a finished clean-up always closes the socket and that a signal never makes the process panic (a signal during bootstrapping), that packets read before the signal are handled, that no handler runs after the socket was closed.",
  "all interleavings of main, Run, the socket reader, handlers, clean functions and signals; any number of hosts and packets",
  "Signals can arrive at every step of every goroutine; tests cannot enumerate the schedules.",
  ["cmd/root.go: rootExectueFunc", "dht/dht.go: Run, BootStrap", "misc/shutdown.go", "dht/krpc/udp.go: recvRoutiue, Close", "dht/krpc/server.go: Listen, RegisteHandler"])
p("The file logger",
  "Each call of a file logger's methods appends nothing or exactly one line: the call's entry, if the method's level is at least the level the logger was made with. The line carries level, time, the prefix in brackets followed by the message, and each context entry once; whatever bytes are logged, the line contains no other line break or control character, so that no entry can be forged, it is a JSON object whose members stand for what was logged (bytes that are not UTF-8 replaced by U+FFFD), and two entries (of UTF-8 text) with the same line are the same entry. Panic also panics, with the prefixed message, whether or not it is written; the other methods do not. A new prefix replaces the old one. That the line identifies an entry whose strings are not UTF-8, such as raw info hashes, is FALSE of the code.",
  "all messages, prefixes, level names, contexts, bytes", "Any bytes received from the network may be logged; a test uses a few.",
  ["misc/zap.go: NewZapLogger, SetPrefix, Trace, convert2slice, parseLogLevel"])
p("The info-hash log",
  "In every schedule logs/infohash.log consists of exactly one line for each handled get_peers or announce_peer query with proper arguments, naming the query, its sender's address, the info hash in hexadecimal and the announced port, and of nothing else; it only grows. A query is in the log before it is answered, and an announcement before the fetcher can see it: everything in, or taken from, the fetch queue is in the log. The file can be read back: it determines the sequence of its entries, and an entry determines sender, info hash and port. FALSE of the code: that logged info hashes have 20 bytes, that logged ports are ports, that nothing is logged twice, that everything logged gets into the fetch queue.",
  "all packets, all schedules of any number of handlers and the fetcher, all map iteration orders", "schedules of concurrent handlers and arbitrary packets cannot be enumerated",
  ["dht/requesthandler.go: getPeersHandler, announcePeerHandler, infoHashLogger", "misc/zap.go: Info", "dht/krpc/server.go: requestHandle"])
p("How far the crawl reaches",
  "In every schedule and for all packets the handlers of one process send find_node queries to at most 8*161 different addresses, and this bound can be met. Once eight nodes that share exactly i < 160 bits with the local id are stored, no other node at that distance is ever accepted. Once the table holds 8*161 nodes it never changes again and nobody new is asked. Nothing remembers which node was asked: a response that lists stored nodes (in buckets with room) is followed by a new query to each of them. FALSE of the code: that the crawler goes on crawling (35 datagrams from one address fill the table for good, after which no query is ever sent), and that the crawl of a finite network comes to rest (with six other nodes, each query answered once, N answers cause 6*N queries for every N).",
  "all packets, all schedules of any number of handlers, all later executions", "a bound on whole executions with attacker-chosen packets; no test can explore them all or run for ever",
  ["dht/resphandler.go: findNodeRespHandler", "dht/routetable.go: AddNode", "dht/node.go: Equals, parseNodeInfo", "dht/krpc/server.go: responseHandle"])
p("What a download demands of the peer",
  "For every peer, way of splitting the stream, pool and environment: metadata is returned only if both ids are 20 bytes long and the first bytes received, completed with zeros to 68, are a handshake with length 19, the protocol name (in any case) and the extension bit; any other peer is refused after exactly one write and one read. Nothing depends on the two ids in the peer's handshake. With an id of another length nothing is sent or read. The returned data is never longer than all that was received. FALSE of the code: that a peer naming another info hash is refused, that the announced metadata_size and total_size are enforced, that a handshake must be complete (26 bytes suffice), that requests carry the extension number the peer announced (they always carry 1).",
  "every sequence of bytes a peer can send, every pool state and environment", "arbitrary hostile peers cannot be enumerated",
  ["dht/peerwire/bep9.go: FetchMetaData, handshakePeer, readMetaDataHandler", "dht/peerwire/bep3.go: parseHandShakeMsg, SupportExtended", "dht/peerwire/peer.go"])
p("The outcome of a download for any well-framed peer",
  "Whatever length-prefixed messages an accepted peer sends - any bodies, any order, any repetition, any end - the result of FetchMetaData and everything it writes is determined by a small relation over messages: keep-alives, other message types, other extensions and non-data metadata messages change nothing; an announcement (dictionary with m and metadata_size) sets size and number of pieces, discards earlier data and causes one request per piece; a data message fills its piece, the last one for a piece counting; a message that is none of these, or longer than 32 KiB, ends the download with an error, whatever follows. As soon as all pieces are there the rest is not read, and the joined pieces are returned exactly if their SHA-1 is the wanted one. In particular one data message without any announcement is enough. (Without concurrent downloads, on a sound pool that has a buffer for every message, or when no announced size exceeds one piece.)",
  "all lists of message bodies, all sound pools, all environments whose writes and allocations succeed", "all sequences of messages of unbounded number and arbitrary content",
  ["dht/peerwire/bep9.go: FetchMetaData, readMetaDataHandler, parseExtendedFetchMetaMsg", "dht/peerwire/bep10.go: parseExtendedHandShake", "dht/peerwire/bep3.go: readBytesByPrefixLenMsg", "dht/peerwire/peer.go: CompledMetaData"])
p("Downloads that share the buffer pool",
  "Other downloads take buffers from the common pool, receive data into the ones they hold and give them back, at any time and in any order. If the big buffers they take during a download plus the messages it receives do not exceed the big buffers in the pool at its start, its outcome and everything it writes are those of a download alone. Whatever the peer sends, whatever the others do and however the download ends, the pool stays sound (no buffer twice in it, none at once in it and with another download), and a buffer held by another download is never written. FALSE of the code beyond that bound: with one buffer more taken, another download receives its data into the buffer in which this one left a piece, and an honest peer's metadata is rejected.",
  "every schedule of the other downloads, every sequence of messages, every sound pool", "all interleavings of arbitrarily many downloads",
  ["dht/peerwire/bep9.go: FetchMetaData, readMetaDataHandler", "dht/peerwire/bep3.go: readBytesByPrefixLenMsg", "misc/bytespool.go"])
p("Existence, size and creation of files",
  "IsExist(path) holds exactly if the path, links followed, names something the process can reach; GetFileSize is the length of that file and -1 exactly when IsExist is false; IsDir(path) holds exactly if the path itself (a link in the last place not followed) is a directory, and then the path exists. Mkdir creates one level: it fails without changing anything if the parent is missing, not a directory, not searchable or not writable, or if the name is taken; otherwise the path is a new empty directory, every path that named something names the same thing, and no file changes. BaseDir is absolute. FALSE of the code: that a path for which IsDir is false cannot be listed (a link to a directory), that a path for which IsExist is false can be created or has nothing there (a dangling link, a directory without search permission), that BaseDir is the directory of the program (a program started by its bare name).",
  "all file systems with directories, files, symbolic links and permissions; all paths", "File system trees, links and paths are unbounded.",
  ["misc/file.go: GetFileSize, IsExist, Mkdir, IsDir, BaseDir"])
p("The torrent command on a real directory tree",
  "For a directory named by a path without '..', or on whose way no link is met, the torrent command shows exactly the entries whose names end in .torrent and that are not directories, each once, sorted by name, with the contents of the file the entry names (links followed), provided each is a readable file holding a bencoded dictionary. Any other path is taken as one file, links followed. FALSE of the code: that a symbolic link to a directory works like the directory (the command crashes unless the path ends in a slash, and such a link named x.torrent ends the listing), and that paths with '..' work behind links (there the contents shown belong to a file of another directory, because the path is cleaned textually).",
  "all file systems with directories, files, symbolic links and permissions; all paths and directory contents", "File system trees, links and paths are unbounded.",
  ["cmd/torrent.go: torrent, printTorrentInfo", "misc/file.go: IsDir"])
p("First starts and the configuration file",
  "In a directory without a configuration file any number of processes may start, interleaved in any way, and be killed at any moment: everything that had a name keeps it and every file keeps its contents, ./conf/config.json is absent, empty or holds the defaults, at most one process is writing it, and a process that gets past configuration has the defaults while the file is complete. Where a configuration file exists no start changes the file system, and every process has what is in it. A start with nothing else running ends within six calls, and in a writable directory without conf it leaves the complete file, which later starts read. It is not true that first starts are safe: one killed between creating and writing the file leaves an empty file, after which every start panics for ever; and of two simultaneous first starts one panics.",
  "all file systems, all numbers of processes, all interleavings and kill points, all --config values", "Interleavings of processes and crash points between system calls cannot be enumerated by tests.",
  ["config/config.go: init, ResetConfig, configPath, FileAbsPath", "misc/file.go: IsExist, Mkdir", "cmd/root.go: rootExectueFunc"])
p("Any number of downloads at once",
  "Any number of FetchMetaData calls run at once, interleaved at every access to the shared buffer pool and to the buffers. Each call that ends ended like a single download from a sound pool with the rest of the crowd as the others; returned data has the requested SHA-1, the connection is closed exactly once, last; no call ever waits for another. If the big buffers the others take while a call runs plus the messages it receives do not exceed the big buffers in the pool when it began, its outcome and everything it writes are decided by its own peer's messages, and an honest peer's metadata is returned; if all messages of all peers together do not exceed the big buffers at the start, this holds for every call. A call takes no more big buffers than its peer sends messages that are not keep-alives. At every moment no buffer is in two places, and no access of one call changes a buffer another one holds. FALSE of the code without that bound: in a freshly started crawler two honest peers that send one small message each suffice for one download to fail.",
  "every number of concurrent downloads, every interleaving of their accesses to shared memory, every sequence of bytes from every peer", "all interleavings of arbitrarily many downloads",
  ["dht/peerwire/bep9.go: FetchMetaData, readMetaDataHandler", "dht/peerwire/bep3.go: readBytesByPrefixLenMsg", "misc/bytespool.go: GetBySize, Put", "dht/fetchtorrent.go: asyncExecutorFetchTorrent"])
p("How long a download takes",
  "FetchMetaData with a clock: connecting is given up after 3 s; a call whose connection is made ends within 4 s of its start plus the crawler's own delays (computation, scheduling, and its writes), whatever the peer sends or withholds, and only bytes that could be read within the first second after the connection was made count: the outcome is that of an untimed download fed with an initial part of them, exactly all of them if the own delays are short. An honest peer whose messages all come in time is served; the returned data has the requested SHA-1 and the connection is closed once, last, at whatever times things happen. The 10 s limit on the read loop never acts unless the crawler itself loses 9 s. FALSE of the code: that a peer has 10 s (or a second per message): an honest peer whose last message comes 1.2 s after the connection is refused; that a call's duration is bounded: one slow write delays it arbitrarily and makes it fail although the answer is there.",
  "all arrival times of all runs of bytes, all answers to the dial, all own delays before every step", "Arrival times and scheduling delays are unbounded and cannot be reproduced by tests.",
  ["dht/peerwire/bep9.go: FetchMetaData, readMetaDataLoop, handshakePeer", "dht/peerwire/peer.go: IsReadLoopExpire", "dht/peerwire/bep3.go: readBytesByPrefixLenMsg"])
p("The texts of messages and log values",
  "ToString of a number, list or dictionary is a JSON text (RFC 8259) that stands for it, with every byte that is not part of a UTF-8 sequence replaced by U+FFFD; of a value of UTF-8 strings it stands for exactly this value, and two such values with the same text are equal. It does not depend on the order in which maps are visited and is one line without control characters, whatever bytes the value holds. The String of a response is that text of the dictionary that is sent for it. A console line stays one line as long as no plain string given to the logger holds a control character; lists, dictionaries and numbers cannot break it. FALSE of the code: that the String of a request says what was requested (it is {} for all); that responses with different ids have different Strings (ids are raw bytes); that console lines are written by the crawler only: anyone can have it print any line of up to 400 bytes by a ping query with that line in its transaction id.",
  "all values built from numbers, byte strings, lists and dictionaries; all iteration orders; all transaction ids", "Values are unbounded trees, and map order is random.",
  ["misc/strings.go: ToString", "dht/krpc/messages.go: BaseResponse.String, BaseRequest.String", "misc/logger.go: appendCtx, print", "dht/requesthandler.go: pingHandler"])
p("Conversions between strings and byte slices",
  "Bytes2Str and Str2Bytes keep contents and length and are inverse to each other; the result of Str2Bytes has no spare capacity. A program that stores nothing into memory it gave to Bytes2Str or got from Str2Bytes (appending directly to a result of Str2Bytes is allowed) cannot tell them from conversions that copy: it ends the same way with the same strings, slices and capacities; its strings never change and it never stores to read-only memory. Str2Hex is the hexadecimal text and changes nothing. FALSE of the code without that rule: that strings are immutable (whatever is stored into the slice shows in the string; so in the strings of the dictionaries decoded from the download buffers), that appending is safe (appending to a part of a result of Str2Bytes overwrites the string), and that a store panics (a store into a literal's bytes ends the process).",
  "all programs over strings and slices: literals, make, copies, slicing, element stores, appends with any growth, the conversions", "Programs and sharing patterns are unbounded.",
  ["misc/strings.go: Str2Bytes, Bytes2Str, Str2Hex", "dht/peerwire/bep9.go: parseExtendedFetchMetaMsg"])
p("Info hashes and ids are SHA-1",
  "The hash by which GeneratePeerId, GenerateInfoHash and the node id are computed and metadata is checked is SHA-1 as FIPS 180-4 defines it: for every message of fewer than 2^64 bits the standard defines exactly one digest, and it is this one; metadata returned by FetchMetaData has the requested info hash by the standard's definition.",
  "all messages shorter than 2^64 bits", "Messages are unbounded; test vectors cover a handful.",
  ["dht/peerwire/peer.go: GeneratePeerId, GenerateInfoHash", "dht/node.go: generateNodeId", "dht/peerwire/bep9.go: FetchMetaData"])
p("Shutdown used by several goroutines",
  "Any number of goroutines register clean functions and call WaitShutdown, signals arrive and contexts are done or replaced, in any interleaving. As long as no two registrations overlap, none is lost: at every moment exactly the functions of the completed registrations are registered, in order; and each WaitShutdown call, whatever the others do, calls each function registered before it began to clean at most once, and exactly once - and all have returned - if it returns without timeout and no registration slipped in before it read the list. In every run no more calls go on than signals were sent, unless a context is done; and no call panics unless InitShutdownCtx replaces the context. FALSE of the code: that overlapping registrations are kept (one of two that both returned can be lost, at the first append as well as later); that a clean function runs once (every WaitShutdown call runs it again, and the status goes back from Shutdowned to Shutdowning); that a signal stops every waiting call (one goes on, the others stay blocked, also after two signals); that a waiting call obeys a context set by InitShutdownCtx (cancelling the new one does nothing, cancelling the old one makes the call panic).",
  "all numbers of registrations and WaitShutdown calls, all interleavings at the steps of append and of the cleaning goroutines, all growth choices of append, all signals and contexts", "Interleavings of arbitrarily many goroutines on an unprotected slice cannot be enumerated by tests.",
  ["misc/shutdown.go: Clean, RegisterShutDownClean, WaitShutdown, Wait4Shutdown, waitCleans, runCleans, InitShutdownCtx, Status"])
p("The crawler comes to rest",
  "However the goroutines are scheduled and whatever the peers do: the work is linear in the input - an execution of the whole process that has read some packets has at most 14 steps for each packet and 4 for each 26 bytes of it (at most 170 for a packet), besides the file operations of the downloads; so a process that never stops reads packets again and again, and once no more packets arrive every execution finishes all the work after finitely many steps, unless it dies or as many downloads hang as there are fetch workers; it never rests before that. In a process that never stops every packet read is sooner or later taken up by a worker, and if announcements keep coming every announcement is sooner or later handed to a fetch worker; no fairness of the scheduler is needed.",
  "all schedules, all finite and infinite executions, all datagrams, all behaviours of all peers, all pool sizes", "Termination over all schedules and infinite executions cannot be observed by running tests.",
  ["dht/krpc/udp.go: recvRoutiue", "dht/krpc/server.go: Listen, recvPacketHandle", "misc/workpool.go: AsyncSubmit, worker", "dht/resphandler.go", "dht/requesthandler.go", "dht/fetchtorrent.go: asyncExecutorFetchTorrent, fetchHandler"])
p("An address survives being written as text",
  "The text of an address that a socket delivered (IPv4 or IPv6, with or without a zone), as the crawler logs and compares it, is read back by net.ResolveUDPAddr as the same address without asking a name service; so two different addresses are never written alike, and two nodes compare equal exactly if their ids are equal up to case and their addresses are the same. With udp4, as for the crawler's own node, IPv6 addresses are refused (except ::, which is taken for 0.0.0.0).",
  "all IPv4 and IPv6 addresses, all ports, all zones without brackets and percent signs, all name services", "2^128 addresses; the text form has many cases (longest zero run, embedded zeros).",
  ["dht/node.go: NodeInfo.Equals, resolveHost", "dht/krpc/udp.go: SendPacketToHost, StartUdpServer, recvRoutiue", "dht/requesthandler.go: announcePeerHandler"])
p("A download contacts only the announcer",
  "Whatever an announce_peer query says, the only machine the crawler tries to connect to for it is the one the packet came from: DialTimeout is given a text that resolves, without any name service, to the packet's source IP and one valid port - the UDP source port with implied_port, the announced port otherwise - or to an error (malformed port, or an IPv6 source without implied_port). FALSE of the code: that a number that is no port is always refused: port 4294967300 leads to a connection to port 4 of the sender (numbers overflow in 32 bits).",
  "all announcements, all source addresses, all port numbers, all name services", "Ports are unbounded integers chosen by strangers.",
  ["dht/fetchtorrent.go: parseFetchAddr, fetchHandler", "dht/peerwire/bep9.go: FetchMetaData"])
p("Where bootstrapping goes",
  "The address a bootstrap query is sent to comes from the configured text: host:port or [host]:port, with the port as written (a number of a port means that port) and the IP as written if the host is a literal IPv4 or IPv6 address in any of its spellings (leading zeros, either case, '::', an IPv4 tail, a zone), otherwise one of the name service's answers for exactly that host, the first IPv4 one if there is one. The text of an address of a running node can be used as it is. A host without port keeps the crawler from starting, and the hosts after it are not contacted. A first start with the default configuration depends on no name service.",
  "all configured texts, all name services, all configurations", "Arbitrary texts and arbitrary answers of name services.",
  ["dht/dht.go: BootStrap", "dht/node.go: resolveHost", "cmd/root.go: rootExectueFunc", "config/config.go"])
p("Installing a logger factory",
  "GetLogger returns, for a name (the factory in force names the default one), the logger returned for that name before, or - the first time - a new one made by the factory then in force with the level then in force; a name has one logger for the life of the process and no two names share one. Close flushes every logger handed out so far, by whichever factory it was made, exactly once, and changes nothing. FALSE of the code: that InitLogger makes the program log through the new factory: the package variables have asked for the default name before main runs, so a factory with the same default name is never used for them.",
  "all sequences of GetLogger, SetLevel, InitLogger and Close, all factories, all names, all map iteration orders", "Histories of calls are unbounded; the effect of a call depends on the whole history.",
  ["misc/logger.go: InitLogger, GetLogger, SetLevel, Close, mapLogger, flush, LoggerFactory"])
p("The debug server",
  "Starting the debug server never fails, whatever happens to its port. A page is served only for paths below /debug/pprof/, and it is the page of that name (index, cmdline, profile, symbol, trace, a profile of the runtime, or 'unknown profile'); every request with such a path without detours gets it. Other paths are not found; paths with detours ('..', '//') are redirected once, to the path without them, so a detour cannot leave the directory. FALSE of the code: that nobody can look into the crawler unless the user asked for it: with the default configuration the server runs, listens on every interface, and shows everybody the command line and the profiles.",
  "all request paths, all Host headers, CONNECT and other methods, all configurations", "Paths and hosts are arbitrary strings chosen by strangers.",
  ["misc/pprof.go: StartPProf", "cmd/root.go: rootExectueFunc", "config/config.go: init"])
p("The command line",
  "A command line without help flags, in which no configuration file is named like a command, means what it says: the first word that is not '-', not empty and not after '--' is the command (version, torrent, help); without one the crawler is started, any other word is an error; the configuration file is the one named last with --config FILE or --config=FILE, wherever it stands, by default ./conf/config.json; the command gets the other words in order. Everything else that begins with a dash, and --config without a file, is an error whatever else is given; if help is asked for (and not turned off again) nothing runs. A process that comes to crawl was started so and uses that file; a command line with a command word sends nothing. Refuted: with a configuration file named like a command the wrong words and file are used; words after '--' are ignored and start the crawler; help asked for in front of a command can end in a crash.",
  "all command lines (lists of arbitrary byte strings)", "Command lines are unbounded lists of arbitrary strings; flags may stand anywhere.",
  ["cmd/root.go: rootCmd, init, ExecuteBackgroud", "cmd/version.go: version", "cmd/torrent.go: torrent", "main.go: main", "config/config.go: FileAbsPath"])
p("Fair schedules",
  "In a process that never stops and whose scheduler forgets no handler and not the download side as a whole (each takes a step again and again, or from some time on cannot): every handler that has begun ends; every packet that was read and asks something is answered, exactly once, to its source, with what it is owed; and every announcement that was accepted is given to a fetch worker (for this only the download side must not be forgotten) - unless from some time on as many downloads hang as there are fetch workers. Refuted: without fairness one handler can be forgotten forever while all others are answered and nothing hangs.",
  "all infinite executions of the whole process (every interleaving, every behaviour of peers and runtime), all configurations, every packet and announcement", "Liveness under fairness speaks about infinite executions; no test runs one.",
  ["dht/krpc/server.go: recvPacketHandle, Listen", "dht/requesthandler.go", "dht/fetchtorrent.go: fetchTorrent", "misc/workpool.go: AsyncSubmit", "dht/krpc/udp.go"])
p("The files of the info-hash log",
  "Whatever is logged, whenever files are rotated, however often the process ends (at any point) and is started again: logs/infohash.log holds exactly what was written since the last rotation, every backup exactly what was written between two rotations, in order and in whole lines; a backup is removed only after the remover saw three newer ones or found it older than 28 days; the last three backups not too old are always there. The remover looks at the directory at most once for every rotation and every start of the process. Until there were more than three rotations nothing is lost: the backups by age and then the log are everything ever written, and every info hash the crawler was asked for can be found in one of them. No file is larger than 500 MiB and, once the remover is done, they take at most 2000 MiB together. A line is refused only if it is longer than 500 MiB, which no packet can cause; any other line can always be written. FALSE of the code: that everything ever logged is kept; that the files hold an unbroken stretch (the remover begins with the newest of those too many); that nothing else gets lost if the clock does not advance between rotations.",
  "all sequences of lines, all interleavings of writer and remover, all times, all crash points and restarts", "Rotation happens at 500 MiB and removal in a goroutine of its own; crash points are arbitrary.",
  ["misc/zap.go: NewZapLogger", "dht/requesthandler.go: infoHashLogger, getPeersHandler, announcePeerHandler"])
p("Downloads can be traced in the log",
  "At every moment of every execution of the whole process: every file the crawler changed is torrent/<hex>.torrent of an info hash for which the info-hash log holds an announce_peer line, the line of a packet read from the socket that announced it; every TCP address it dialled can be read off such a line (the address in the line, or its host with the port in the line); there are never more downloads, begun or finished, than announce_peer lines. While the log was rotated at most three times and no backup grew too old, the line is on the disk in one piece.",
  "all executions of the whole process (configurations, datagrams, schedules, peers, file system failures), all their logs, all map orders", "Relates three concurrent parts (handlers, fetch workers, log) over all interleavings.",
  ["dht/requesthandler.go: announcePeerHandler, infoHashLogger", "dht/fetchtorrent.go: fetchHandler, parseFetchAddr, flushTorrentFile", "misc/zap.go: NewZapLogger"])
p("A network of crawlers",
  "Any number of crawler processes, each with its own node id, configuration, runtime and disk, that hear of nothing but each other, on a network that may lose, delay, reorder, duplicate and misroute their datagrams and change source addresses: nobody ever learns anything. At every moment the routing table of each process holds itself only, no announcement was queued, no download begun, no file changed and no line logged; all a process sends is one bootstrap query per configured host and, for find_node queries it read, answers without nodes, at most one per packet. If the network does not duplicate datagrams it falls silent: all processes together send at most two datagrams per configured host. FALSE of the code: that crawlers which bootstrap from one another find one another.",
  "all numbers of processes, all configurations and node ids, all schedules, all behaviours of the network short of forging datagrams", "Several processes, unbounded executions and every behaviour of the network.",
  ["dht/dht.go: Run, BootStrap", "dht/requesthandler.go: findNodeHandler", "dht/resphandler.go: genericRespHandler, findNodeRespHandler", "dht/krpc/server.go", "dht/krpc/udp.go", "cmd/root.go"])
p("What the handlers print",
  "What a finished handler printed on standard output is a transcript of its packet and of what it did, with nothing missing and nothing added, in this order: a packet that cannot be decoded, has no type, is malformed, is an error message or is a response nobody asked for prints its one or two lines; a query prints its transaction id and type, its handler's line (with info hash and port) or that a field is missing, and then the reply's lines; a matched response prints its lines, for every node listed what the routing table and the query to it print (one line per new bucket, one if the node found no place, the reason of a refusal, sent or not sent), and the number of nodes. Only started handlers print; every call yields exactly one record (time, level, logger, message, context in some order; C118 says what a stranger can do with it). FALSE of the code: that 'cannot match request ignore' is about a response that could not be matched - it is printed exactly for those that were matched and listed nodes; that 'Bytes sended' means something was sent; that 'add fail' is printed for nodes that were not added.",
  "all executions of the crawler with any number of handlers in any interleaving, all packets, all error texts, times and map orders", "Interleavings of handlers and packets are unbounded; the lines depend on shared state.",
  ["dht/krpc/server.go: recvPacketHandle, requestHandle, responseHandle, responseErrHandle, Query", "dht/krpc/udp.go: SendPacket", "dht/requesthandler.go", "dht/resphandler.go: genericRespHandler, findNodeRespHandler", "dht/routetable.go: AddNode, addNode", "misc/logger.go"])
p("Responses to the other queries",
  "A response that matches a query of any type but find_node (ping, get_peers, announce_peer) changes nothing and causes nothing to be sent, whatever it contains and whatever the state: neither the routing table nor the announcements nor the open queries. Its handler gives up, harmlessly, exactly if the response is one to get_peers with a 'values' entry that is not a list of strings with room for six bytes, or without 'values' and without a string 'nodes'.",
  "all packets, all states, all requests of these types, all runtimes", "Responses come from strangers; the crawler itself never sends these queries, so no test reaches the code.",
  ["dht/resphandler.go: genericRespHandler, pingRespHandler, getPeerValRespHandler, getPeerNodesRespHandler, announcePeerRespHandler", "dht/node.go: parsePeerInfo, parseNodeInfo"])
p("What a download prints",
  "What one call of FetchMetaData prints about its peer is a transcript of what happened, with nothing missing and nothing added: nothing while the greeting works, then for every message the read loop looked at the lines that belong to it, in order (keep-alives: none; the announced size and the number of pieces requested after an extended handshake; the answers, those without data marked; other extensions; other messages; undecodable messages; only the last message can end the download), and last the closing line, which the result determines: checksum match with the info hash for a success, checksum mismatch with the announced size, or the reason of the failure. At most one line of a download is at level PANIC; the only line after it repeats its text as the reason and the call fails. FALSE of the code: that every failed download leaves a trace in the log - a failed dial, a peer that runs out of time and a write that blocks forever do not.",
  "all peers (every byte string in every segmentation), all timers, write outcomes, memory limits and interferences of other goroutines, all info hashes and peer ids, all texts of errors", "Peers are arbitrary and sessions unbounded; which lines appear depends on where the session broke.",
  ["dht/peerwire/bep9.go: FetchMetaData, readMetaDataLoop, readMetaDataHandler, handleExtendedMsg, initialMessages, handshakePeer", "dht/peerwire/bep3.go: parseHandShakeMsg, withHandShakeMsg", "dht/peerwire/bep10.go: parseExtendedHandShake", "misc/logger.go: Panic, Error, Info"])
p("What a download worker prints",
  "What one run of fetchHandler prints is the transcript of its download (C135), exactly as FetchMetaData prints it, and nothing else, with two exceptions: it complains once, after a successful download, about a file it could not create or complete; and for an announcement without a usable info hash or port it prints one line instead of everything else, having dialled nobody and touched no file. After a successful download it is silent exactly if the file holds the complete metadata, whatever the directory held before. The line with the matching checksum and the info hash in hexadecimal appears exactly if the metadata was downloaded. FALSE of the code: that every announcement a worker handled leaves a line - none does if the peer cannot be reached.",
  "all announcements, peers, timers, write outcomes, memory limits, failures of the file system and sizes of its writes, all texts of errors", "Peers and the file system are arbitrary; failing disks cannot be enumerated.",
  ["dht/fetchtorrent.go: fetchHandler, parseFetchAddr, flushTorrentFile", "dht/peerwire/bep9.go: FetchMetaData", "misc/logger.go: Error"])
p("What the receiving goroutines print",
  "In every execution of the receive goroutine, Listen, the workers, concurrent Close calls and any other goroutines that print: the lines '<<< received Bytes' are those of the first n datagrams read, and the lines '<<<rpc received' those of the first m of these, each in the order of arrival, with the sender and the number of bytes kept (at most 1024), none missing, repeated or invented; at most one datagram read has no line yet; m is at most n, lags behind it by at most 102, and no packet beyond the first m has been looked at by a handler: a handler never starts on more packets than the console shows. Every failed read except possibly the last has its error line. With no line outstanding the lines are complete. FALSE of the code: that the lines tell which datagram was received - neither its contents nor, beyond 1024 bytes, its size is in them.",
  "all executions, all datagrams, any number of Close calls, all other output", "The lines come from goroutines that run concurrently; the order and completeness concern every schedule.",
  ["dht/krpc/udp.go: recvRoutiue, StartUdpServer, RecvChanLen, RecvPacketLen", "dht/krpc/server.go: Listen", "misc/logger.go: Info, Error"])
