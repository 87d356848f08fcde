(** DhtSpec.v -- vocabulary for the crawler properties. *)
From Verif Require Import Base Bencode BencodeSpec Types Node RouteTable Middleware Krpc KrpcSpec Dht.
Local Open Scope list_scope.

(** A BEP-5 query on the wire. *)
Definition query_msg (tx : bytes) (q : string) (args : entries) : entries :=
  [(B "t", VStr tx); (B "y", VStr (B "q")); (B "q", VStr (B q)); (B "a", VDict args)].

(** The packet is a query [q] with transaction id [tx], arguments [a] and a 20-byte node id. *)
Definition proper_query (pkt : bytes) (tx : bytes) (q : string) (a : entries) : Prop :=
  exists d id, packet_dict pkt d /\ field d "y" (VStr (B "q")) /\ field d "t" (VStr tx) /\ field d "q" (VStr (B q)) /\
    field d "a" (VDict a) /\ field a "id" (VStr id) /\ length id = 20.

(** The packet is an announcement of an info hash; [x] is the request it makes and its source. *)
Definition announcement (pk : packet) (x : request hid * udpaddr) : Prop :=
  exists tx a ih port, proper_query (p_bytes pk) tx "announce_peer" a /\
    field a "info_hash" (VStr ih) /\ field a "port" (VInt port) /\
    x = ({| rq_tx := tx; rq_type := B "announce_peer"; rq_body := Some a; rq_handler := None |}, p_addr pk).

(** The announcements among a sequence of packets, in order. *)
Inductive announcements : list packet -> list (request hid * udpaddr) -> Prop :=
| an_nil : announcements [] []
| an_yes pks xs pk x : announcements pks xs -> announcement pk x -> announcements (pks ++ [pk]) (xs ++ [x])
| an_no pks xs pk : announcements pks xs -> (forall x, ~ announcement pk x) -> announcements (pks ++ [pk]) xs.

(** Adding nodes one after the other; [acc] are those for which AddNode returned nil. *)
Inductive adds (uf : N -> N -> bool) : rtable -> list ninfo -> rtable -> list ninfo -> Prop :=
| adds_nil t : adds uf t [] t []
| adds_ok t n t1 ns t' acc : AddNode uf t n = Ok (t1, None) -> adds uf t1 ns t' acc -> adds uf t (n :: ns) t' (n :: acc)
| adds_err t n t1 er ns t' acc : AddNode uf t n = Ok (t1, Some er) -> adds uf t1 ns t' acc -> adds uf t (n :: ns) t' acc.

(** The find_node queries sent to [ns], with consecutive transaction ids after [tx]. *)
Inductive find_queries (me : bytes) : N -> list ninfo -> list datagram -> Prop :=
| fq_nil tx : find_queries me tx [] []
| fq_cons tx n ns g gs : g_to g = naddr n ->
    carries (g_bytes g) (query_msg (txid_string ((tx + 1) mod 65536)) "find_node" [(B "id", VStr me); (B "target", VStr me)]) ->
    find_queries me ((tx + 1) mod 65536) ns gs -> find_queries me tx (n :: ns) (g :: gs).
