(** ConcSpec.v -- vocabulary for the properties of the concurrent crawler. *)
From Verif Require Import Base Bencode BencodeSpec Types Node RouteTable Middleware Krpc KrpcSpec Dht DhtSpec Conc.
Local Open Scope list_scope.

(** The packet is a KRPC query with a transaction id and a type. *)
Definition asks (pk : packet) (tx q : bytes) : Prop :=
  exists d, packet_dict (p_bytes pk) d /\ field d "y" (VStr (B "q")) /\ field d "t" (VStr tx) /\ field d "q" (VStr q).

(** The body the crawler with node id [me] owes to a proper query [q] with arguments [a]. *)
Inductive answer (me tx : bytes) (a : entries) : string -> entries -> Prop :=
| as_ping : answer me tx a "ping" [(B "id", VStr me)]
| as_find : answer me tx a "find_node" [(B "id", VStr me); (B "nodes", VStr [])]
| as_peers ih : field a "info_hash" (VStr ih) -> answer me tx a "get_peers" [(B "id", VStr me); (B "token", VStr tx); (B "nodes", VStr [])]
| as_announce ih port : field a "info_hash" (VStr ih) -> field a "port" (VInt port) -> answer me tx a "announce_peer" [(B "id", VStr me)].

(** The dictionary owed to a packet: the answer, or an error 203 if there is none. *)
Inductive owed (me : bytes) (pk : packet) : entries -> Prop :=
| ow_answer tx q a body : proper_query (p_bytes pk) tx q a -> answer me tx a q body -> owed me pk (ok_reply tx body)
| ow_error tx q msg : asks pk tx q -> msg <> [] ->
    (forall tx' q' a body, proper_query (p_bytes pk) tx' q' a -> ~ answer me tx' a q' body) -> owed me pk (error_reply tx 203 msg).

(** The packet is a find_node response: transaction id, nodes. *)
Definition lists_nodes (pk : packet) (tx : bytes) (ns : list ninfo) : Prop :=
  exists d body id nodes, packet_dict (p_bytes pk) d /\ field d "y" (VStr (B "r")) /\ field d "t" (VStr tx) /\
    field d "r" (VDict body) /\ field body "id" (VStr id) /\ field body "nodes" (VStr nodes) /\ parseNodeInfo nodes = Ok ns.

(** What one job did, read off the history. *)
Definition evs (i : nat) (log : list (nat * ev)) : list ev := map snd (filter (fun p => Nat.eqb (fst p) i) log).
Definition replies_in (l : list ev) : list datagram := flat_map (fun v => match v with EvReply g => [g] | _ => [] end) l.
Definition enqueued_in (l : list ev) : list (request hid * udpaddr) := flat_map (fun v => match v with EvEnq x => [x] | _ => [] end) l.
Definition tried_in (l : list ev) : list (ninfo * bool) := flat_map (fun v => match v with EvAdd n b => [(n, b)] | _ => [] end) l.
Definition accepted_in (l : list ev) : list ninfo := map fst (filter snd (tried_in l)).
Definition drawn_in (l : list ev) : list bytes := flat_map (fun v => match v with EvDraw tx => [tx] | _ => [] end) l.
Definition queries_in (l : list ev) : list datagram := flat_map (fun v => match v with EvQuery g => [g] | _ => [] end) l.
Definition sent_in (l : list ev) : list datagram := flat_map (fun v => match v with EvReply g => [g] | EvQuery g => [g] | _ => [] end) l.

(** One find_node query per node and transaction id. *)
Inductive asked (me : bytes) : list ninfo -> list bytes -> list datagram -> Prop :=
| asked_nil : asked me [] [] []
| asked_snoc ns txs gs n tx g : asked me ns txs gs -> g_to g = naddr n ->
    carries (g_bytes g) (query_msg tx "find_node" [(B "id", VStr me); (B "target", VStr me)]) -> asked me (ns ++ [n]) (txs ++ [tx]) (gs ++ [g]).

(** Several steps. *)
Inductive conc_steps (e : nat -> env) (me : bytes) (cap : nat) : conc -> conc -> Prop :=
| kst_refl s : conc_steps e me cap s s
| kst_step s s' s'' : conc_steps e me cap s s' -> conc_step e me cap s' s'' -> conc_steps e me cap s s''.

(** The runtime: any iteration order of maps, one fixed Unicode table. *)
Definition runtime_ok (e : nat -> env) (uf : N -> N -> bool) : Prop := forall k, env_ok (e k) /\ e_uf (e k) = uf.

(** The string is (part of) the value. *)
Inductive occurs (s : bytes) : val -> Prop :=
| oc_here : occurs s (VStr s)
| oc_list l v : In v l -> occurs s v -> occurs s (VList l)
| oc_dict d k v : In (k, v) d -> occurs s v -> occurs s (VDict d).

(** The datagrams of the bootstrap queries: to each host, with consecutive transaction ids. *)
Inductive boot_sent (me : bytes) : N -> list udpaddr -> list datagram -> Prop :=
| bs_nil tx : boot_sent me tx [] []
| bs_cons tx h hs g gs : g_to g = h -> carries (g_bytes g) (query_msg (txid_string ((tx + 1) mod 65536)) "find_node" [(B "id", VStr me); (B "target", VStr me)]) ->
    boot_sent me ((tx + 1) mod 65536) hs gs -> boot_sent me tx (h :: hs) (g :: gs).
