# Formal model of GalaIO/P2Pcrawler in Coq 8.16.1

## 1. Approach and conventions

* For an area `X` there are up to five files under `rocq/theories/`:
  * `X.v` -- the model: executable Gallina definitions and transition relations only. Every definition cites the Go
    file and lines it models; simplifications are in the header comment of the file or at the definition.
  * `XSpec.v` -- the specification: grammars, "longest common prefix", "same Go value", reference maps, ... written
    without the model's helpers wherever the property is about meaning rather than about names.
  * `XProofs.v` -- lemmas. `XPf.v` -- the property lemmas, each named `Cnn_..._pf`.
  * `P_X.v` -- generated from `XPf.v` by `tools/gen_p.py`: every property as `Theorem Cnn_...` (same statement, closed
    by `exact`) followed by `Print Assumptions`.
* Go errors and panics are explicit results (`Ok` / `Err` / `Panic`). Fuelled functions report running out of fuel as a
  distinguished panic `PFuel`; theorems exclude it or state that it never occurs.
* Goroutines are labelled transition systems; theorems quantify over all reachable states, i.e. all schedules.
* Whatever the code does not control (network, file system, timers, map iteration order, other goroutines sharing a
  pool, viper) is an input or an environment that theorems quantify over.
* Where the code does *not* have the property one would expect, the theorem has the suffix `_refuted` and exhibits a
  reachable counter-example; next to it is the strongest positive statement that does hold. The statement in
  `properties.jsonl` says the same (what holds, and what fails).
* `Cnn_example` theorems show, on concrete non-trivial data, that the hypotheses of the neighbouring theorems are met.
* `tools/build.sh` regenerates `P_*.v`, `_CoqProject`'s file list and `MANIFEST.json` and builds. The generated files
  are committed; nothing has to be generated for the build.
* `seeded/LOG.jsonl` records every wrong program tried against the theorems and what was tightened.

## 2. Plan per property (ids from properties.jsonl)

| ids | modelled | proof |
|---|---|---|
| C01-C13 | all of misc/beancode.go, strconv.Atoi/Itoa, strings.Split (`Bencode.v`, `GoLib.v`); map iteration order = order of the association list, quantified over | induction on values / grammar derivations; fuel sufficiency; refutations by `vm_compute` |
| C14-C17 | misc/types.go; strings.EqualFold with UTF-8 decoding (non-ASCII folding pairs are an oracle) (`Types.v`) | case analysis; induction on strings |
| C18-C23 | misc/bits.go, dht/node.go, solvePrefixLen (`Node.v`) | induction on byte lists; arithmetic modulo 2^16 |
| C24-C31 | dht/routetable.go, calls atomic because of the table lock (`RouteTable.v`) | invariant over AddNode histories; recursion on capacity - lastBucketIndex |
| C32-C34 | misc/bytespool.go with buffer identities (`BytesPool.v`) | invariant over histories |
| C35-C37 | dht/krpc/middleware.go, handlers as arbitrary interaction trees (`Middleware.v`) | recursion on the remaining chain |
| C38-C46 | dht/krpc/{messages,server}.go, dht/messgaes.go (`Krpc.v`) | case analysis on the decoded packet, codec round-trip |
| C47-C51 | dht/{requesthandler,resphandler,dht}.go (`Dht.v`) | composition of the above |
| C52-C61 | dht/peerwire/*.go with heap, pool, read/write schedules (`PeerWire.v`, `Fetch.v`); SHA-1 in Gallina (`Sha1.v`) | invariants over the read loop; concrete refutations |
| C62-C65, C81 | dht/fetchtorrent.go, file system with crash points, several downloads interleaved (`FetchTorrent.v`) | composition with C56; simulation of interleaved writes |
| C66-C71, C99 | misc/workpool.go as a transition system (`WorkPool.v`) | inductive invariants over schedules; C99 is a refinement to a bounded queue |
| C72 | misc/shutdown.go (`Shutdown.v`) | inductive invariant |
| C73-C74 | misc/syncmap.go with map accesses as intervals (`SyncMap.v`) | linearisation to a map; race witness |
| C75-C76, C82 | dht/krpc/udp.go, Listen loop, Close (`Udp.v`) | ownership invariant of buffers; trace invariant |
| C77-C78, C83-C84 | misc/logger.go, misc/zap.go level parsing (`Logger.v`) | case analysis / history induction |
| C85 | GetLogger from several goroutines (`LoggerRace.v`) | inductive invariant; race witness |
| C79 | config/config.go, order of its uses (viper as oracle) (`Config.v`) | history induction |
| C80 | cmd/torrent.go (`TorrentCmd.v`) | induction on the directory tree |
| C86-C93 | the KRPC workers interleaved at every access to shared state (`Conc.v`) | invariants over schedules; C92 relates it to the atomic `Dht.v` |
| C94 | one Bucket, all its methods interleaved (`BucketConc.v`) | linearisation |
| C95 | responses and error messages on the wire (`ResponsesPf.v` over `Krpc.v`) | codec round-trip |
| C96-C98 | the whole process (`System.v`) | conservation invariants; C98 by constructing draining executions (`SystemLive.v`) |
| C100-C102 | global facts about the codec: prefixes, sizes, self-delimitation (`CodecPf.v`, `TruncPf.v`) | induction on grammar derivations |
| C103 | misc/errors.go, misc.ToString (`Errors.v`) | case analysis |
| C104 | contents and sizes of everything the crawler sends (`AmplifyPf.v`, `SizeProofs.v` over `Krpc.v`/`Dht.v`) | size lemmas on encodings |
| C105 | package initialisation, main.go, cmd/root.go, cmd/version.go up to the loops (`Startup.v`) | case analysis, induction on the hosts |
| C106 | the goroutines of a whole run: main, Run, reader, dispatch, clean-up, signals (`Lifecycle.v`) | inductive invariants over the labelled transition system |
| C107 | misc/zap.go and zap's JSON encoding of an entry (`ZapLog.v`) | case analysis; injectivity of escaping by a decoder, of lines by delimiters; `Utf8Spec.v` writes down UTF-8 (RFC 3629) apart from any decoder, and C107_utf8_is_text, C118_repair_is_mending, C118_text_stays and C17_characters tie the decoder-based specifications of C107, C118 and C17 to it |
| C108 | the info-hash log written by the interleaved handlers (`InfoLog.v`, on top of `Conc.v` and `ZapLog.v`) | inductive invariant over the instrumented runs, which are shown to be the runs of `Conc.v` |
| C109 | the queries sent by the interleaved handlers (`Conc.v`) against the routing table (`RouteTable.v`) | inductive invariant (every accepted address is that of a stored node, or of the only node that can be dropped), pigeonhole; the flood and the storm are constructed runs |
| C110 | the download of `Fetch.v` for arbitrary peers; the acceptable handshakes are specified in `SessionSpec.v` | case analysis of the handshake against the 68-byte grammar; a weight (stored plus outstanding bytes) that no step increases |
| C111 | the same model against sequences of framed messages; outcome relation in `SessionSpec.v`, written with the bencode grammar | the relation is shown to be a function computed by the parsers (both directions, from the decoder theorems); simulation by induction over the messages with the buffer-ownership invariant |
| C112 | the download of `Fetch.v` while other downloads, a script of get/put/receive steps before each shared access (`ShareSpec.v`), use the same pool | ownership invariant over the queues, everybody's buffers and the arrays whose contents matter (a FIFO budget), under which the session argument of C111 is repeated; a second invariant for arbitrary peers; refuted beyond the bound |
| C113 | FileSys.v: a file system with directories, files, links and permissions (path resolution as in Linux, at most 40 links), misc/file.go on it | induction over the links left and the path's components; creating a name leaves every successful resolution unchanged |
| C114 | the same with filepath.Join/Clean, ioutil.ReadDir (sorted), os.Open; cmd/torrent.go of TorrentCmd.v | dropping empty and "." components does not change a resolution that ends in a name; counter-examples for links to directories and ".." |
| C115 | FirstStart.v: config/config.go:48-87 and cmd/root.go:36-40 as calls on the file system of FileSys.v, several processes, kills between calls; viper's search, read and SafeWriteConfig from its source | invariant over all interleavings (no file yet / one file, empty or complete, at most one writer) using the frame lemmas of C113; concrete runs for the two refuted expectations; link to [su_file] of Startup.v |
| C116 | Crowd.v: a download as a tree of accesses to the shared pool and buffers, a crowd as any number of such trees, one step = one access of one download, downloads may begin at any time; the local parts are the functions of Fetch.v | simulation (CrowdSim.v): running a tree against recorded actions of the others equals FetchMetaData of Fetch.v; ownership invariant over all interleavings (CrowdOk.v, CrowdProofs.v) that yields for each download a history of the others in the sense of C112; concrete schedules for the example and the refuted expectation |
| C117 | Timed.v: the download of Fetch.v with a clock (dial timeout, one read deadline, expiry of the loop, delays before every step, durations of writes); TimedSpec.v: what can be read within the first second | simulation: every timed run is an untimed run fed with part of that (TimedSim.v), invariant on the clock; counterexamples computed |
| C118 | Json.v: ToString, String of messages, the console line of a ping; json.Marshal from the source of encoding/json; JsonSpec.v: grammar and meaning of JSON texts (RFC 8259), repair of bytes that are not UTF-8 | induction on values; injectivity by unique readability of the texts; sorting makes the order canonical; counterexamples |
| C119 | Mem.v: memory blocks, string and slice headers as words, the conversions as in strings.go, programs over them; MemSpec.v: the rule (ownership by families of slices), the copying program | simulation between the sharing and the copying program under the rule; counterexamples computed |
| C120 | Sha1.v (computes); Sha1Spec.v: the standard's definition as a relation (bits, schedule W_t, rounds, padding), written independently | equivalence: the computed schedule is a sliding window, rotation by bits against arithmetic, uniqueness of the defined digest |
| C121 | misc/shutdown.go (`ShutdownConc.v`): registrations step by step on slice headers and arrays, any number of WaitShutdown calls, signal channel, replaceable context | invariant: header contents = completed registrations (in-place writes stay behind every header in use), per call the invariant of C72; executable schedules for the refutations |
| C122 | every execution of `System.v`, finite and infinite (`QuietSpec.v`: counted runs, "settles", "forever") | a measure that every step but a file operation or a read decreases, lexicographic with the file operations left; capacity arguments on the FIFO queues for the infinite executions |
| C123 | `NetAddr.v`: SplitHostPort, parsePort (uint32 arithmetic), ParseIP with zones, internetAddrList, ResolveUDPAddr of Go's package net, with the name service as a parameter; addresses a socket delivers in `NetAddrSpec.v` | round trip of the text (decimal and hexadecimal numerals, the "::" of the longest zero run), injectivity from it |
| C124 | `parseFetchAddr` of `FetchTorrent.v` and the address list of net.DialTimeout in `NetAddr.v` | from the round trip; the 32-bit overflow refuted |
| C125 | BootStrap's resolution (`NetAddr.v`) in the start-up process of `Startup.v`; a declarative grammar of literal IP addresses in `NetAddrSpec.v` | inversion of the resolution; the parser accepts exactly the grammar (`NetLitProofs.literal_iff`); C105 |
| C126 | `LogReg.v`: InitLogger, GetLogger, SetLevel, Close with arbitrary factories (calls of NewLogger and Flush are events) | invariant over histories; InitLogger's effect refuted |
| C127 | `Pprof.v`: StartPProf, Go's http.ServeMux and pprof.Index (paths, redirections) | case analysis over the patterns, lemmas on path cleaning; open by default refuted |
| C128 | `CmdLine.v`: cobra's Find/stripFlags/execute and pflag's parser for the program's commands and flags, from their sources; what a command line says is the relation `reads` of `CmdLineSpec.v` | parser = relation (both directions); a word can be taken out of and put into a readable command line; then C105 |
| C129 | infinite executions of `System.v` (`QuietSpec.forever`); strong fairness per handler, and for the download side as a whole, stated in `FairSpec.v` without naming the model's steps: `moves`/`can` look only at the handlers running before and after | a handler can move at every program point except in a full announcement queue; each of its moves lowers a measure; a queue that stays full forever means that nothing is taken from it, so the download side's own measure runs out and only hanging downloads remain; announcements: lexicographic measure (downloads still to begin, fetch queue and workers, file operations) |
| C130 | `LogFiles.v`: lumberjack v2.0.0's Write, openExistingOrNew, rotate, openNew and the removing goroutine as steps on a directory, with the end of the process possible between any two; `LogFilesSpec.v` splits the written lines at the rotations (from the trace of events alone); `InfoFilesPf.v` ties it to the lines of C108 | one invariant relating directory and trace; removal justified by the sortedness of the backups under a clock that advances between rotations; size of a line bounded by the packet (weight of a decoded value, C101); looks of the remover counted against rotations and ends of the process |
| C131 | the whole process (`System.v`) and the log of C108 (`InfoLog.v`) over the same handlers; no new model | the announcement behind each download was queued by a handler past its first step (C87, C96), hence logged (C108); counting by job for the bound; C130 for the files |
| C132 | `NetCrawl.v`: a list of processes of `System.v` joined by a network that delivers any datagram sent so far to anybody, any number of times | invariant: only bootstrap queries (94 bytes) and empty answers (58 bytes) are ever read, so C86-C96 leave no room for additions, announcements or queries; counting queries by length for the bound; an executed run of two crawlers |
| C133 | `ConsoleLog.v`: the log calls of the handlers, the RPC server, the UDP sender and the routing table, attached to the steps of `Conc.v`, printed by `Logger.v`'s logger | `ConsoleLogSpec.v` relates a packet, the list of what its handler did, and the lines (`transcript`); invariant per job over every interleaving; `AddNode`'s lines by induction on the splits |
| C134 | `Dht.v` (`genericRespHandler`, every branch), `Krpc.v` | a request of another type is put in the table by hypothesis (the crawler never does); case analysis on the response |
| C135 | `FetchLog.v`: the functions of `Fetch.v` that print, with their log calls; proved to do the same as without them | `FetchLogSpec.v` says message by message which lines belong to it, how the part ended and which closing line fits the result; inductions over the request loop, the read loop and the merge; concrete sessions; refutation by a late timer, a failed dial and a blocked write |
| C136 | `JobLog.v`: fetchHandler and flushTorrentFile with their log calls on top of `FetchTorrent.v` and `FetchLog.v`; proved to do the same as without them | case analysis over the handler; the lines of a download are never those of the logger "dht" (from C135's transcript); the disk after a short write compared with the data; concrete jobs; refutation by an unreachable peer |
| C137 | `RecvLog.v`: the log calls of the receive goroutine and of Listen on top of the steps of `Udp.v`: a goroutine at its log call waits until the line is out, everything else goes on | one invariant relating console and trace, on top of the one of `Udp.v` (C75, C76); every execution of `Udp.v` is shown to be one with lines; concrete execution; refutation by datagrams that differ in contents only |

## 3. Trusted base

* **Coq's kernel** (8.16.1). `vm_compute` is used for closed computations (refutations, examples); no
  `native_compute`, no plugins, no disabled checks.
* **Axioms: none.** `Print Assumptions` says "Closed under the global context" for every property theorem (the standard
  library's axioms are not used either).
* **The reading of the Go code** recorded in the comments of the model, at the cited lines.
* **Go's standard library and runtime**, modelled from their documentation and source: strconv.Itoa/Atoi, strings.Split,
  hex.EncodeToString/DecodeString, binary.BigEndian, net.IP.To4/String, net.SplitHostPort, net.ParseIP with zones, port numbers, net.ResolveUDPAddr and the address list of net.Dial (`NetAddr.v`, from the go 1.12 sources), strings.EqualFold,
  crypto/sha1 (`Sha1.v`; proved equivalent to the definition in FIPS 180-4, C120), maps, slices, channels, sync.Mutex/RWMutex/WaitGroup/sync.Map, select,
  panic/recover. None of these is repository code.
* **Oracles** (inputs quantified over, never axioms): non-ASCII case folding pairs, map iteration order, the text of
  debug.Stack, what viper returns, what the network delivers and accepts, what the file system answers, when timers
  fire, which allocations succeed.

### 3.1 Modelled

| Go file | model | what |
|---|---|---|
| misc/beancode.go | Bencode.v | everything |
| misc/types.go | Types.v | everything |
| misc/bits.go | Node.v | everything |
| misc/bytespool.go | BytesPool.v | everything |
| misc/errors.go | Errors.v | everything |
| misc/strings.go | Errors.v, Json.v, Mem.v | everything |
| misc/logger.go | Logger.v, LogReg.v, LoggerRace.v, Json.v | everything |
| misc/pprof.go | Pprof.v | everything; http.ServeMux and pprof.Index modelled from the Go sources, the contents of profiles not |
| misc/zap.go | Logger.v (parseLogLevel), ZapLog.v | all; zap's level check and JSON encoder (strings and integers), time stamps as input; LogFiles.v: rotation (lumberjack v2.0.0, from its source; file operations do not fail) |
| misc/shutdown.go | Shutdown.v, ShutdownConc.v | everything |
| misc/syncmap.go | SyncMap.v | everything |
| misc/workpool.go | WorkPool.v | everything |
| misc/file.go | FileSys.v | everything, on a modelled file system (no devices, no I/O errors) |
| config/config.go | Config.v, FirstStart.v | everything; viper's parsing is a parameter, its search and file calls are modelled from its source |
| cmd/root.go, main.go, cmd/version.go | Config.v, Startup.v, Lifecycle.v, CmdLine.v | everything; the command lookup of cobra and the flag parsing of pflag are modelled from their sources, help and error texts are not |
| cmd/torrent.go | TorrentCmd.v | everything |
| dht/node.go | Node.v, NetAddr.v (resolveHost) | everything |
| dht/routetable.go | RouteTable.v, BucketConc.v | everything |
| dht/messgaes.go | Krpc.v, Dht.v | everything |
| dht/requesthandler.go, dht/resphandler.go | Dht.v (atomic), Conc.v (interleaved), InfoLog.v (info-hash log), ConsoleLog.v (console log) | everything; of the log calls those of response types never requested are left out of ConsoleLog.v |
| dht/dht.go | Dht.v, System.v | BootStrap, handlers, global state |
| dht/fetchtorrent.go | FetchTorrent.v, System.v, JobLog.v (log lines) | everything |
| dht/krpc/messages.go, dht/krpc/server.go, dht/krpc/middleware.go | Krpc.v, Middleware.v | everything |
| dht/krpc/udp.go | Udp.v, NetAddr.v, RecvLog.v (log lines of the receiving goroutines) | everything |
| dht/peerwire/{bep3,bep9,bep10,peer}.go | PeerWire.v, Fetch.v, ShareSpec.v, Crowd.v, Timed.v, FetchLog.v (log lines) | everything; concurrent downloads meet in the buffer pool: one download followed step by step against an arbitrary script of the others (C112), and any number of downloads interleaved at every shared access (C116) |

### 3.2 Not modelled

* The contents of profiles; the internals of viper and zap; the help and error texts of cobra.
* The Go memory model (shared accesses are sequentially consistent; where the code has data races, the racing accesses
  are intervals and the race itself is the theorem), the Go stack limit, memory exhaustion except for the
  allocations whose size a peer chooses (C57), the scheduler's fairness except where a liveness theorem states what
  it needs as existence of a schedule.
* The name service behind net.ResolveUDPAddr (any answers; `NetAddr.v`), real time outside the download (there a timer may fire at any moment after it was armed; Timed.v gives the download a clock), the operating system's socket buffers.
* Log output of the work pool (its trace lines) and of Close; what the handlers, a download, a download worker and the receiving goroutines print is modelled (ConsoleLog.v, FetchLog.v, JobLog.v, RecvLog.v), as are the loggers (Logger.v, ZapLog.v).

### 3.3 Refuted expectations

Each is a theorem with a reachable counter-example, MANIFEST.json says what holds instead;
see the theorems with the suffix `_refuted` in MANIFEST.json:
C03, C04, C07, C11, C13, C15, C16, C17, C22, C27, C28, C29, C30, C33, C43, C44, C49, C51, C55, C57, C58, C59, C61, C64, C65, C68, C69, C70, C72, C74, C78, C79, C80, C82, C84, C85, C98, C100, C103, C104, C105, C106, C107, C108, C109, C110, C112, C113, C114, C115, C116, C117, C118, C119, C121, C124, C126, C127, C128, C129, C130, C132, C133, C135, C136, C137.
