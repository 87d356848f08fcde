(** P_Startup.v -- property theorems (generated by tools/gen_p.py from StartupPf.v).
    Each statement is repeated in full and closed by [exact]. *)
From Verif Require Import Base GoLib Bencode Types Node RouteTable Middleware Krpc KrpcSpec KrpcPf Dht DhtSpec DhtPf Conc ConcSpec ConcProofs ConcPf Config Logger TorrentCmd Sha1 BytesPool PeerWire Fetch FetchTorrent Udp System NetAddr NetAddrProofs NetAddrPf Startup StartupSpec.
Local Open Scope list_scope.
From Verif Require Import StartupPf.

(** C105: the crawler starts exactly if the configuration in ./conf (or the defaults, written there) can be read, its port
    is valid and free, its sizes are not negative, the file named with --config can be read, and every
    bootstrap host can be resolved and be sent a packet. *)
Theorem C105_starts_iff : forall v uf, runtime_ok (su_env v) uf ->
  ((exists effs w port z, process v CmdCrawl = (effs, Crawling w port z)) <->
   exists d f lvl pp hosts, initialises v d f lvl /\ boots v d f pp hosts).
Proof. exact C105_starts_iff_pf. Qed.
Print Assumptions C105_starts_iff.

(** C105: a crawler that started has, in this order: written the default configuration if there was none, opened its
    port, set the log level, started the debug server if configured, sent one find_node query for its own id to
    each bootstrap host in the order of the configuration with transaction ids 1001, 1002, ..., and started to
    run - in the initial state of the whole-process model, with the sizes of the configuration. *)
Theorem C105_started : forall v uf effs w port z, runtime_ok (su_env v) uf -> process v CmdCrawl = (effs, Crawling w port z) ->
  exists d f lvl pp hosts gs, initialises v d f lvl /\ boots v d f pp hosts /\ port = sec_port d /\
    z_krpc z = Z.to_nat (ds_pool d) /\ z_ann z = Z.to_nat (fc_queue f) /\ z_fetch z = Z.to_nat (fc_pool f) /\
    boot_sent localNodeId 1000 hosts gs /\
    effs = (match su_file v with CfMissing _ => [EfConfWritten] | _ => [] end) ++ [EfListen port; EfLevel (TransLogLevel (su_uni v) lvl)] ++
           (if pp then [EfPprof] else []) ++ map EfQuery gs ++ [EfRun] /\
    forall d0, sys_reach (su_env v) localNodeId (mkaddr [] port) hosts z d0 (sys_init {| k_world := w; k_jobs := []; k_next := 0; k_taken := []; k_log := [] |} d0).
Proof. exact C105_started_pf. Qed.
Print Assumptions C105_started.

(** C105: if one bootstrap host cannot be resolved, the crawler does not start: the process crashes, at most the hosts
    before it have been sent a query, nobody after it, and nothing has run. *)
Theorem C105_bad_host : forall v uf l1 h l2, runtime_ok (su_env v) uf -> hosts_configured v (l1 ++ h :: l2) -> su_resolve v h = None ->
  (exists p, snd (process v CmdCrawl) = Crashed p) /\ length (queries (fst (process v CmdCrawl))) <= length l1 /\ ~ In EfRun (fst (process v CmdCrawl)).
Proof. exact C105_bad_host_pf. Qed.
Print Assumptions C105_bad_host.

(** C105: every command - also version, torrent and wrong ones - opens the UDP port before it does anything else
    that can be seen, except that it writes the default configuration when there is none. *)
Theorem C105_port_first : forall v cmd l1 x l2, fst (process v cmd) = l1 ++ x :: l2 ->
  x = EfConfWritten \/ (exists p, x = EfListen p) \/ exists p, In (EfListen p) l1.
Proof. exact C105_port_first_pf. Qed.
Print Assumptions C105_port_first.

(** C105: while a crawler runs (on a fixed port), no command works with the same configuration: it crashes without
    having printed or sent anything. *)
Theorem C105_one_process : forall v effs w port z v' cmd, process v CmdCrawl = (effs, Crawling w port z) ->
  in_force v' = in_force v -> su_can_listen v' port = false ->
  snd (process v' cmd) = Crashed (PStr (B "listen udp err")) /\ incl (fst (process v' cmd)) [EfConfWritten].
Proof. exact C105_one_process_pf. Qed.
Print Assumptions C105_one_process.

(** C105: the other commands, when the port is free: version prints the version, torrent prints what C80 says and
    ends as it does; both have opened the port; neither sends a packet; a wrong command line crashes. *)
Theorem C105_other_commands : forall v d f lvl, initialises v d f lvl ->
  (printed (fst (process v CmdVersion)) = B "p2pcrlawer version 0.1.0" ++ [byte_of 13; byte_of 10] /\ snd (process v CmdVersion) = Exited) /\
  (forall args, printed (fst (process v (CmdTorrent args))) = fst (torrent_run (su_fs v) args) /\
     (snd (process v (CmdTorrent args)) = Exited <-> snd (torrent_run (su_fs v) args) = None)) /\
  (exists p, snd (process v CmdBad) = Crashed p) /\
  (forall cmd, cmd <> CmdCrawl -> queries (fst (process v cmd)) = [] /\ ~ In EfRun (fst (process v cmd)) /\ In (EfListen (sec_port d)) (fst (process v cmd))).
Proof. exact C105_other_commands_pf. Qed.
Print Assumptions C105_other_commands.

(** C105: all crawlers claim the same node id: there is one 20-byte id which every process, wherever and however it is
    started, puts into all of its bootstrap queries, as its own id and as the id it looks for. *)
Theorem C105_same_id : exists id, length id = 20 /\ forall v uf cmd, runtime_ok (su_env v) uf -> forall g, In g (queries (fst (process v cmd))) ->
  exists tx, carries (g_bytes g) (query_msg tx "find_node" [(B "id", VStr id); (B "target", VStr id)]).
Proof. exact C105_same_id_pf. Qed.
Print Assumptions C105_same_id.

(** C105 refuted, "a configuration with which the crawler starts lets it work": with WorkPoolSize 0 it starts like any
    other, but whatever is sent to it and however it is scheduled, no packet is ever handled and nothing is ever sent
    after the bootstrap queries. *)
Theorem C105_zero_workers_refuted : exists v effs w port z, process v CmdCrawl = (effs, Crawling w port z) /\ length (queries effs) = 1 /\
  forall e me local hosts d0 s, sys_reach e me local hosts z d0 s -> k_jobs (y_core s) = [] /\ k_log (y_core s) = [].
Proof. exact C105_zero_workers_refuted_pf. Qed.
Print Assumptions C105_zero_workers_refuted.

Theorem C105_version_refuted : exists v v' effs w port z, process v CmdCrawl = (effs, Crawling w port z) /\ su_file v' = su_file v /\
  snd (process v CmdVersion) = Exited /\
  process v' CmdVersion = ([], Crashed (PStr (B "listen udp err"))).
Proof. exact C105_version_refuted_pf. Qed.
Print Assumptions C105_version_refuted.

(** C105 refuted, "one bad bootstrap host does not keep the crawler from starting". *)
Theorem C105_bad_host_refuted : exists v, hosts_configured v [B "good"; B "bad"; B "fine"] /\ su_resolve v (B "good") <> None /\ su_resolve v (B "fine") <> None /\
  snd (process v CmdCrawl) = Crashed (PStr (B "bootstrap resolve host err")) /\ map g_to (queries (fst (process v CmdCrawl))) = [mkaddr (B "goodgood") 6881].
Proof. exact C105_bad_host_refuted_pf. Qed.
Print Assumptions C105_bad_host_refuted.

(** C105: a number in the configuration means the port with that number if there is one, and keeps the program from
    starting if it is negative or a bit too large. *)
Theorem C105_port_number : forall d,
  ((0 <= ds_port d <= 65535)%Z -> sec_port d = ds_port d) /\
  ((ds_port d < 0 \/ 65535 < ds_port d < 4294967300)%Z -> (forall v, ~ port_usable v (sec_port d)) /\
     forall v c, in_force v = Some c -> cn_dht c = Some d -> forall cmd, snd (process v cmd) = Crashed (PStr (B "resolve remote host err"))).
Proof. exact C105_port_number_pf. Qed.
Print Assumptions C105_port_number.

(** C105 refuted, "a number that is no port keeps the program from starting": with port 4294967300 it listens on
    port 4. *)
Theorem C105_port_refuted : exists v c d, in_force v = Some c /\ cn_dht c = Some d /\ ds_port d = 4294967300%Z /\ In (EfListen 4) (fst (process v CmdVersion)) /\ snd (process v CmdVersion) = Exited.
Proof. exact C105_port_refuted_pf. Qed.
Print Assumptions C105_port_refuted.

(** Non-vacuity: a start with three hosts; a first start without a configuration file uses the defaults; the id. *)
Theorem C105_example :
  (exists d f lvl pp hosts, initialises (ex_su false (Some (mkaddr (B "abcd") 1)) (B "x")) d f lvl /\ boots (ex_su false (Some (mkaddr (B "abcd") 1)) (B "x")) d f pp hosts /\ length hosts = 3) /\
  (let v := {| su_file := CfMissing true; su_flag := []; su_named := fun _ => None; su_can_listen := fun _ => true; su_resolve := fun _ => Some (mkaddr (B "WbX!") 6881); su_env := fun _ => ex_env;
     su_uni := fun s => s; su_fs := {| f_isdir := fun _ => false; f_readdir := fun _ => None; f_read := fun _ => FrOpenErr; f_join := fun a b => a ++ b |} |} in
   let effs := fst (process v CmdCrawl) in
   length effs = 6 /\ nth_error effs 0 = Some EfConfWritten /\ nth_error effs 1 = Some (EfListen 21000) /\ nth_error effs 3 = Some EfPprof /\ nth_error effs 5 = Some EfRun /\
   match snd (process v CmdCrawl) with Crawling _ p z => p = 21000%Z /\ z_fetch z = 500 | _ => False end) /\
  hex localNodeId = B "9be1696018a69ba161651978c76c46f34a6aba74".
Proof. exact C105_example_pf. Qed.
Print Assumptions C105_example.
