(** P_BootHost.v -- property theorems (generated by tools/gen_p.py from BootHostPf.v).
    Each statement is repeated in full and closed by [exact]. *)
From Verif Require Import Base GoLib Node Krpc KrpcSpec Dht DhtSpec Conc ConcSpec FetchTorrentSpec NetAddr NetAddrSpec NetAddrProofs NetAddrPf NetLitProofs Startup StartupSpec StartupPf.
Local Open Scope list_scope.
From Verif Require Import BootHostPf.

(** C125: whatever a bootstrap host is resolved to comes from the configured text: it must read host:port or
    [host]:port; the port is the one written; the IP is the one written if the host is a literal address, and otherwise
    one of the name service's answers for exactly that host (for the answer ::, also 0.0.0.0).  Without a host, the address has no IP; an empty text gives no IP and
    port 0. *)
Theorem C125_where : forall nm h a, boot_resolve nm h = Some a ->
  (h = [] /\ a = mkaddr [] 0) \/
  exists host p, endpoint h host p /\ (0 <= port a <= 65535)%Z /\ (forall z, (0 <= z <= 65535)%Z -> p = itoa z -> port a = z) /\
   ((host = [] /\ ip a = [] /\ zone a = []) \/
    ip_literal host (ip a) (zone a) \/
    ((forall i z, ~ ip_literal host i z) /\ exists l, nm_host nm host = Some l /\ (In {| ia_ip := ip a; ia_zone := zone a |} l \/ (exists z, l = [{| ia_ip := repeat (byte_of 0) 16; ia_zone := z |}]) /\ ip a = wide (repeat (byte_of 0) 4)))).
Proof. exact C125_where_pf. Qed.
Print Assumptions C125_where.

(** C125: a literal address - the address of a running node as the log shows it - is used as it is, whatever the name
    service says. *)
Theorem C125_literal : forall nm a, sock_addr a -> boot_resolve nm (addr_string a) = Some (widened a).
Proof. exact C125_literal_pf. Qed.
Print Assumptions C125_literal.

(** C125: a name with a port is given its first IPv4 answer, if it has one. *)
Theorem C125_prefers_ipv4 : forall nm host z l1 i l2, Forall (fun c => c <> ":"%char /\ c <> "["%char /\ c <> "]"%char) host -> host <> [] -> (forall j zn, ~ ip_literal host j zn) -> (0 <= z <= 65535)%Z ->
  nm_host nm host = Some (l1 ++ i :: l2) -> Forall (fun j => length (ia_ip j) = 4 \/ length (ia_ip j) = 16) (l1 ++ i :: l2) -> Forall (fun j => ~ is_v4 (ia_ip j)) l1 -> is_v4 (ia_ip i) ->
  boot_resolve nm (host ++ B ":" ++ itoa z) = Some {| ip := ia_ip i; port := z; zone := ia_zone i |}.
Proof. exact C125_prefers_ipv4_pf. Qed.
Print Assumptions C125_prefers_ipv4.

(** C125: a literal address can be written in any of its spellings (leading zeros, either case, "::" or not, an IPv4
    tail, a zone), and is used as it is. *)
Theorem C125_spelling : forall nm h host i zn z, endpoint h host (itoa z) -> (0 <= z <= 65535)%Z -> ip_literal host i zn ->
  boot_resolve nm h = Some {| ip := i; port := z; zone := zn |}.
Proof. exact C125_spelling_pf. Qed.
Print Assumptions C125_spelling.

(** C125: a host without a port keeps the crawler from starting: the process crashes, and nobody after it in the list is
    contacted. *)
Theorem C125_no_port : forall v uf nm l1 h l2, runtime_ok (su_env v) uf -> su_resolve v = boot_resolve nm -> hosts_configured v (l1 ++ h :: l2) ->
  h <> [] -> ~ In ":"%char h ->
  (exists p, snd (process v CmdCrawl) = Crashed p) /\ length (queries (fst (process v CmdCrawl))) <= length l1 /\ ~ In EfRun (fst (process v CmdCrawl)).
Proof. exact C125_no_port_pf. Qed.
Print Assumptions C125_no_port.

(** C125: a first start, with the default configuration, needs no name service: it sends its one query to 87.98.162.88:6881,
    whatever names there are. *)
Theorem C125_defaults : forall v uf nm effs w port z, runtime_ok (su_env v) uf -> su_resolve v = boot_resolve nm -> su_file v = CfMissing true ->
  process v CmdCrawl = (effs, Crawling w port z) ->
  map g_to (queries effs) = [mkaddr (wide (map byte_of [87; 98; 162; 88]%N)) 6881] /\ port = 21000%Z.
Proof. exact C125_defaults_pf. Qed.
Print Assumptions C125_defaults.

Theorem C125_example :
  boot_resolve ex_names (B "router.example:6881") = Some (mkaddr (map byte_of [10; 0; 0; 9]%N) 6881) /\
  boot_resolve ex_names (B "[router.example]:6881") = Some (mkaddr (repeat (byte_of 1) 16) 6881) /\
  boot_resolve ex_names (B "router.example") = None /\ boot_resolve ex_names (B "nosuch:6881") = None /\ boot_resolve ex_names (B "router.example:99999") = None /\
  boot_resolve ex_names (B "router.example:http") = Some (mkaddr (map byte_of [10; 0; 0; 9]%N) 80) /\
  boot_resolve ex_names [] = Some (mkaddr [] 0) /\
  boot_resolve ex_names (B "010.0.0.009:80") = Some (mkaddr (wide (map byte_of [10; 0; 0; 9]%N)) 80) /\
  boot_resolve ex_names (B "[1:02::FfFF:10.0.0.9%eth0]:80") = Some {| ip := map byte_of [0; 1; 0; 2; 0; 0; 0; 0; 0; 0; 255; 255; 10; 0; 0; 9]%N; port := 80; zone := B "eth0" |} /\
  boot_resolve ex_names (B "10.0.0.256:80") = None /\ boot_resolve ex_names (B "[1::2::3]:80") = None /\
  ip_literal (B "1::10.0.0.9%e") (map byte_of [0; 1; 0; 0; 0; 0; 0; 0; 0; 0; 0; 0; 10; 0; 0; 9]%N) (B "e") /\ (forall i z, ~ ip_literal (B "10.0.0.256") i z) /\
  (exists v effs w port z, su_resolve v = boot_resolve ex_names /\ runtime_ok (su_env v) (fun _ _ => false) /\ su_file v = CfMissing true /\ process v CmdCrawl = (effs, Crawling w port z)).
Proof. exact C125_example_pf. Qed.
Print Assumptions C125_example.
