(** NetCrawl.v -- several crawler processes on one network, every interleaving.

    Each process is the whole crawler of System.v (cmd/root.go:36-52, dht/dht.go:17-42), with its own configuration, node id, runtime, disk and socket; the processes share
    nothing but the network.  The network is UDP at its worst: a datagram that was sent may be delivered never, once or many times, at any later moment, in any order, to
    any of the processes, and with any source address (NAT); it is never altered.  Nobody else sends. *)
From Verif Require Import Base GoLib Bencode Types Node RouteTable Middleware Krpc Dht Conc BytesPool PeerWire Fetch FetchTorrent Udp System.
Local Open Scope list_scope.

(** One process: what does not change while it runs (config/config.go, cmd/root.go:36-52, dht/dht.go:17-42). *)
Record proc := { n_e : nat -> env; n_me : bytes; n_local : udpaddr; n_hosts : list udpaddr; n_z : sizes; n_disk : disk }.

Notation network := (list (proc * sys)).

(** What a process has handed to its socket so far (dht/krpc/udp.go:64-73). *)
Definition sent_by (s : sys) : list datagram := w_sent (k_world (y_core s)).

(** dht/dht.go:17-42: the process when its loops start. *)
Definition started_proc (p : proc) (s : sys) : Prop :=
  exists w0 w, crawler_init (n_me p) (n_local p) = Ok w0 /\ boot (n_e p) (n_me p) (n_hosts p) w0 = Ok w /\
    s = sys_init {| k_world := w; k_jobs := []; k_next := 0; k_taken := []; k_log := [] |} (n_disk p).

Inductive net_step (n : network) : network -> Prop :=
(** one process does something other than reading a datagram *)
| nt_own l1 p s l2 s' : n = l1 ++ (p, s) :: l2 -> sys_step (n_e p) (n_me p) (n_z p) s s' -> y_read s' = y_read s -> net_step n (l1 ++ (p, s') :: l2)
(** dht/krpc/udp.go:99: one process reads a datagram some process has sent *)
| nt_deliver l1 p s l2 s' q t g from : n = l1 ++ (p, s) :: l2 -> In (q, t) n -> In g (sent_by t) ->
    sys_step (n_e p) (n_me p) (n_z p) s s' -> y_read s' = y_read s ++ [cut {| dg_from := from; dg_bytes := g_bytes g |}] -> net_step n (l1 ++ (p, s') :: l2).

Inductive net_reach : network -> Prop :=
| nr_start n : (forall p s, In (p, s) n -> started_proc p s) -> net_reach n
| nr_step n n' : net_reach n -> net_step n n' -> net_reach n'.
