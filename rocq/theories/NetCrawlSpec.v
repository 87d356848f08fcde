(** NetCrawlSpec.v -- vocabulary for C132. *)
From Verif Require Import Base GoLib Bencode BencodeSpec Types Node RouteTable Middleware Krpc KrpcSpec Dht DhtSpec Conc ConcSpec BytesPool PeerWire Fetch FetchTorrent Udp System SystemSpec NetCrawl.
From Coq Require Export Permutation.
Local Open Scope list_scope.

(** The processes run on a faithful runtime and have node ids of 20 bytes. *)
Definition net_ok (n : network) : Prop := forall p s, In (p, s) n -> (exists uf, runtime_ok (n_e p) uf) /\ length (n_me p) = 20.

(** All datagrams sent and all packets read so far, as bytes. *)
Definition all_sent (n : network) : list bytes := flat_map (fun x => map g_bytes (sent_by (snd x))) n.
Definition all_read (n : network) : list bytes := flat_map (fun x => map p_bytes (y_read (snd x))) n.

(** The network loses datagrams but does not duplicate them: what was read is part of what was sent. *)
Definition no_duplicates (n : network) : Prop := exists lost, Permutation (all_read n ++ lost) (all_sent n).

(** How many hosts the processes were configured with, altogether. *)
Definition configured (n : network) : nat := list_sum (map (fun x => length (n_hosts (fst x))) n).

(** The answer of a crawler with an empty list of nodes. *)
Definition empty_answer (tx me : bytes) : entries := ok_reply tx [(B "id", VStr me); (B "nodes", VStr [])].
(** The bootstrap query. *)
Definition boot_query (tx me : bytes) : entries := query_msg tx "find_node" [(B "id", VStr me); (B "target", VStr me)].
