(** Startup.v -- what a process does from its start until the loops run: package initialisation
    (config/config.go:46-87, dht/dht.go:11-20, dht/fetchtorrent.go:14), main.go:9-12, cmd/root.go:14-52,
    cmd/version.go and the beginning of dht/dht.go:22-58 (Run, BootStrap).

    One goroutine runs all of this; the socket reader it starts (dht/krpc/udp.go:92) only fills the packet
    queue, nobody takes from it before Listen (Lifecycle.v).  Simplified: what viper makes of a
    configuration file is an input, so is what cobra makes of the command line; queue sizes so large that make fails
    are not modelled; console logging is dropped; the text of a log.Panic is its first argument. *)
From Verif Require Import Base GoLib Bencode Types Node RouteTable Middleware Krpc Dht Conc Config Logger TorrentCmd Sha1 BytesPool PeerWire Fetch FetchTorrent Udp System NetAddr.
Local Open Scope list_scope.

(** config/config.go:23-40, as far as they are used. *)
Record dhtsec := { ds_port : Z; ds_pool : Z; ds_nodes : list bytes }.
Record fetchsec := { fc_queue : Z; fc_pool : Z }.
(** A configuration: what viper.UnmarshalKey gives for each section (None: an error). *)
Record conf := { cn_dht : option dhtsec; cn_fetch : option fetchsec; cn_pprof : option bool; cn_logger : option bytes }.
Inductive section := SDht (d : dhtsec) | SFetch (f : fetchsec) | SPprof (b : bool) | SLogger (l : bytes).
Definition sect {A} (o : option A) (f : A -> section) : res section := match o with Some x => Ok (f x) | None => Err EIO end.
Definition sec_of (c : conf) (key : bytes) : res section :=
  if beq key dhtConfigKey then sect (cn_dht c) SDht
  else if beq key fetchTorrentConfigKey then sect (cn_fetch c) SFetch
  else if beq key pprofConfigKey then sect (cn_pprof c) SPprof
  else if beq key loggerConfigKey then sect (cn_logger c) SLogger
  else Err EIO.

(** config/config.go:50-66 *)
Definition defaults : conf :=
  {| cn_dht := Some {| ds_port := 21000; ds_pool := 2000; ds_nodes := [B "87.98.162.88:6881"] |};
     cn_fetch := Some {| fc_queue := 300000; fc_pool := 500 |}; cn_pprof := Some true; cn_logger := Some (B "Info") |}.

(** config/config.go:89-103: the type assertions cannot fail, see [sec_of]. *)
Definition DhtConfig (s : cfg section) : res (cfg section * dhtsec) :=
  do (s', v) <- getSubConfig s dhtConfigKey; match v with SDht d => Ok (s', d) | _ => Panic PRuntime end.
Definition FetchTorrentConfig (s : cfg section) : res (cfg section * fetchsec) :=
  do (s', v) <- getSubConfig s fetchTorrentConfigKey; match v with SFetch d => Ok (s', d) | _ => Panic PRuntime end.
Definition PProfConfig (s : cfg section) : res (cfg section * bool) :=
  do (s', v) <- getSubConfig s pprofConfigKey; match v with SPprof d => Ok (s', d) | _ => Panic PRuntime end.
Definition LoggerConfig (s : cfg section) : res (cfg section * bytes) :=
  do (s', v) <- getSubConfig s loggerConfigKey; match v with SLogger d => Ok (s', d) | _ => Panic PRuntime end.

(** What the process meets: ./conf/config.json (read, merged with the defaults; missing, and whether the
    defaults could be written there; or unusable), the value of --config and the file of that name (None:
    missing or unusable, which viper does not distinguish for a file set by name), whether a port can be bound, name
    resolution, the network and the runtime, Unicode upper case, the files. *)
Inductive confread := CfOk (c : conf) | CfMissing (written : bool) | CfBad.
Record surroundings := {
  su_file : confread; su_flag : bytes; su_named : bytes -> option conf; su_can_listen : Z -> bool;
  su_resolve : bytes -> option udpaddr; su_env : nat -> env; su_uni : bytes -> bytes; su_fs : filesys }.
Definition read_of (r : confread) : readres section :=
  match r with CfOk c => RdOk (sec_of c) | CfMissing w => RdNotFound w | CfBad => RdError end.

(** What the command line asks for: cmd/root.go:12-28 (CmdLine.v says how it is read); the text of a help page is arbitrary. *)
Inductive command := CmdCrawl | CmdVersion | CmdTorrent (args : list bytes) | CmdHelp (text : bytes) | CmdBad.

(** What the process does that can be seen from outside. *)
Inductive eff :=
| EfConfWritten            (* config/config.go:81 *)
| EfListen (port : Z)      (* dht/krpc/udp.go:79, the socket is bound *)
| EfLevel (level : Z)      (* main.go:10 *)
| EfPprof                  (* cmd/root.go:44, a debug server on :10080 *)
| EfQuery (g : datagram)   (* dht/dht.go:54 *)
| EfPrint (out : bytes)    (* standard output of a command *)
| EfRun.                   (* cmd/root.go:50 *)
(** How it goes on: an unrecovered panic, a return of main, or the crawler runs. *)
Inductive ending := Crashed (p : gopanic) | Exited | Crawling (w : cworld) (port : Z) (z : sizes).
Definition proc := (list eff * ending)%type.
Definition emit (x : eff) (p : proc) : proc := (x :: fst p, snd p).
Definition emits (l : list eff) (p : proc) : proc := (l ++ fst p, snd p).
Definition crash (p : gopanic) : proc := ([], Crashed p).
(** The value of a call that may panic. *)
Definition need {A} (r : res A) (k : A -> proc) : proc :=
  match r with Ok a => k a | Err _ => crash PRuntime | Panic p => crash p end.

(** dht/dht.go:13, dht/node.go:119-122 *)
Definition localNodeId : bytes := sha1 (B "galaio.p2pclawer").

(** cmd/root.go:47-49 and dht/dht.go:46-58: the hosts one after the other. *)
Fixpoint boot_hosts (v : surroundings) (hosts : list bytes) (w : cworld) (k : cworld -> proc) : proc :=
  match hosts with
  | [] => k w
  | h :: t =>
      match su_resolve v h with
      | None => crash (PStr (B "bootstrap resolve host err"))
      | Some a =>
          let (w', r) := BootStrap (su_env v (length (w_sent w))) localNodeId w a in
          emits (map EfQuery (skipn (length (w_sent w)) (w_sent w'))) (need r (fun _ => boot_hosts v t w' k))
      end
  end.

(** misc/workpool.go:96-108: make panics for a negative size. *)
Definition pool_size (n : Z) : res nat := if (n <? 0)%Z then Panic PRuntime else Ok (Z.to_nat n).

(** dht/dht.go:22-43 and dht/fetchtorrent.go:16-18 up to the loops; [port] and [queue] are those of the socket and of
    recvInfoHash. *)
Definition run_dht (v : surroundings) (s : cfg section) (w : cworld) (port : Z) (queue : nat) : proc :=
  need (Run_server (su_env v 0)) (fun _ =>
  need (FetchTorrentConfig s) (fun '(s1, f) =>
  need (pool_size (fc_pool f)) (fun fp =>
  need (DhtConfig s1) (fun '(_, d) =>
  need (pool_size (ds_pool d)) (fun kp =>
  ([], Crawling w port {| z_krpc := kp; z_ann := queue; z_fetch := fp |})))))).

(** cmd/root.go:36-52 *)
Definition rootExectueFunc (v : surroundings) (s : cfg section) (w0 : cworld) (port : Z) (queue : nat) : proc :=
  need (match su_flag v with [] => Ok s | f => ResetConfig s (match su_named v f with Some c => RdOk (sec_of c) | None => RdError end) end) (fun s1 =>
  need (PProfConfig s1) (fun '(s2, b) =>
  emits (if b then [EfPprof] else []) (
  need (DhtConfig s2) (fun '(s3, d) =>
  boot_hosts v (ds_nodes d) w0 (fun w =>
  emit EfRun (run_dht v s3 w port queue)))))).

(** cmd/version.go:13, config/config.go:9 *)
Definition version_text : bytes := B "p2pcrlawer version 0.1.0" ++ [byte_of 13; byte_of 10].

(** main.go:9-12 and cmd/root.go:30-34, after package initialisation. *)
Definition main_run (v : surroundings) (cmd : command) (s : cfg section) (w0 : cworld) (port : Z) (queue : nat) : proc :=
  need (LoggerConfig s) (fun '(s1, l) =>
  emit (EfLevel (TransLogLevel (su_uni v) l)) (
  match cmd with
  | CmdCrawl => rootExectueFunc v s1 w0 port queue
  | CmdVersion => emit (EfPrint version_text) ([], Exited)
  | CmdTorrent args => let (o, r) := torrent_run (su_fs v) args in emit (EfPrint o) ([], match r with None => Exited | Some p => Crashed p end)
  | CmdHelp text => emit (EfPrint text) ([], Exited)
  | CmdBad => crash (PBiz GenericErr (B "execute cobra cmd err"))
  end)).

(** dht/dht.go:12: fmt.Sprintf(":%d", Port), resolved at dht/node.go:59 ("udp4") and dht/krpc/udp.go:74 ("udp"); both
    give the same port and no IP for a text without host; -1: neither resolves. *)
Definition sec_port (d : dhtsec) : Z := match resolveHost no_names (B ":" ++ itoa (ds_port d)) with Some a => port a | None => -1 end.

(** The whole process: package initialisation - config (config/config.go:46-68), then the variables of package dht in
    their order: the address (dht/dht.go:12; dht/node.go:58-64), the table
    (:18), the socket (:19, dht/krpc/udp.go:73-94), the queue (dht/fetchtorrent.go:14) -, then main. *)
Definition process (v : surroundings) (cmd : command) : proc :=
  need (ResetConfig {| cf_map := []; cf_cur := sec_of defaults |} (read_of (su_file v))) (fun s0 =>
  emits (match su_file v with CfMissing _ => [EfConfWritten] | _ => [] end) (
  need (DhtConfig s0) (fun '(s1, d) =>
  if negb ((0 <=? sec_port d) && (sec_port d <=? 65535))%Z then crash (PStr (B "resolve remote host err")) else
  need (crawler_init localNodeId (mkaddr [] (sec_port d))) (fun w0 =>
  if negb (su_can_listen v (sec_port d)) then crash (PStr (B "listen udp err")) else
  emit (EfListen (sec_port d)) (
  need (FetchTorrentConfig s1) (fun '(s2, f) =>
  need (pool_size (fc_queue f)) (fun queue =>
  main_run v cmd s2 w0 (sec_port d) queue))))))).
