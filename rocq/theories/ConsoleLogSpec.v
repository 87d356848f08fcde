(** ConsoleLogSpec.v -- what C133 means: what the handling of one packet prints, read off the packet and what happened. *)
From Verif Require Import Base GoLib Bencode BencodeSpec Types Logger LoggerSpec Node RouteTable RouteTableProofs Middleware Krpc KrpcSpec Dht DhtSpec Conc ConcSpec FetchTorrentSpec Json ConsoleLog.
From Coq Require Export Permutation.
Local Open Scope list_scope.

(** The text of a call: time, level, logger, message, and the context in some order. *)
Definition rendered (en : centry) (out : bytes) : Prop :=
  exists now ctx, out = now ++ B " " ++ repeat (byte_of 32) (6 - length (tag (ce_m en))) ++ tag (ce_m en) ++ B ": [" ++ ce_log en ++ B "]" ++ ce_msg en ++ ctx ++ [byte_of 13; byte_of 10] /\
    match ce_ctx en with
    | None => ctx = []
    | Some l => exists l', Permutation l' l /\ ctx = B ", " ++ ctx_text true (map (fun f => (fst f, text_of (snd f))) l')
    end.

(** The calls of one job. *)
Definition calls_of (i : nat) (l : list (nat * centry)) : list centry := map snd (filter (fun p => Nat.eqb (fst p) i) l).

Definition str (s : bytes) : val := VStr s.
Definition num (n : nat) : val := VInt (Z.of_nat n).
Definition from (pk : packet) : bytes * val := (B "from", VStr (addr_string (p_addr pk))).

(** ** Queries *)

(** The query is refused without a handler being called: unknown type, node id of a wrong length, or a type that is known only up to case. *)
Definition turned_down (uf : N -> N -> bool) (pk : packet) (q : bytes) : Prop :=
  ~ supported uf q \/
  exists d a id, packet_dict (p_bytes pk) d /\ field d "a" (VDict a) /\ field a "id" (VStr id) /\ (length id <> 20 \/ ~ In q [B "ping"; B "find_node"; B "get_peers"; B "announce_peer"]).
(** Something the query needs is missing or of the wrong type. *)
Definition lacking (uf : N -> N -> bool) (pk : packet) (q : bytes) : Prop :=
  supported uf q /\ exists d, packet_dict (p_bytes pk) d /\
  ((forall a, ~ field d "a" (VDict a)) \/
   exists a, field d "a" (VDict a) /\
     ((forall id, ~ field a "id" (VStr id)) \/
      (q = B "get_peers" \/ q = B "announce_peer") /\ (forall ih, ~ field a "info_hash" (VStr ih)) \/
      q = B "announce_peer" /\ (forall p, ~ field a "port" (VInt p)))).

Inductive remark (uf : N -> N -> bool) (pk : packet) (tx q : bytes) : list centry -> Prop :=
| rm_ping a : proper_query (p_bytes pk) tx "ping" a -> remark uf pk tx q [entry "dht" MInfo "get ping request" [(B "txId", str tx)]]
| rm_find a : proper_query (p_bytes pk) tx "find_node" a -> remark uf pk tx q [entry "dht" MInfo "get find_node request" [(B "txId", str tx)]]
| rm_peers a ih : proper_query (p_bytes pk) tx "get_peers" a -> field a "info_hash" (VStr ih) ->
    remark uf pk tx q [entry "dht" MInfo "get get_peers request" [(B "txId", str tx); (B "infoHash", str (hex_text ih))]]
| rm_announce a ih p : proper_query (p_bytes pk) tx "announce_peer" a -> field a "info_hash" (VStr ih) -> field a "port" (VInt p) ->
    remark uf pk tx q [entry "dht" MInfo "get announce_peer request" [(B "txId", str tx); (B "infoHash", str (hex_text ih)); (B "port", VInt p)]]
| rm_turned_down : turned_down uf pk q -> remark uf pk tx q []
| rm_lacking text : lacking uf pk q -> text <> [] -> remark uf pk tx q [entry "server" MError "request handle panic" [(B "err", str text)]].

(** ** The routing table: what AddNode prints when it takes the table from [t] to [t'] and returns [er]. *)
Definition split_line (index : nat) (size : Z) : centry := entry "rtable" MTrace "the route table has split new bucket" [(B "lastIndex", num index); (B "size", VInt size)].
Definition fail_line (t : rtable) : centry := entry "rtable" MError "the route table add fail" [(B "lastIndex", num (rlast t)); (B "size", VInt (Size t))].
Inductive full_line (t : rtable) : centry -> Prop :=
| fl_bucket i : i <= rlast t -> full_line t (entry "rtable" MInfo "the bucket has full" [(B "tableSize", VInt (Size t)); (B "preLen", num i)])
| fl_table : (rcapacity t <= Z.of_nat (rlast t))%Z -> full_line t (entry "rtable" MError "the route table has full" [(B "size", VInt (Size t))]).

(** One line for every new bucket, one if the node found no place, and as many complaints as new buckets if the count of
    nodes is then not what the table believes. *)
Inductive table_says (uf : N -> N -> bool) (t : rtable) (n : ninfo) (t' : rtable) (er : option goerr) (ls : list centry) : Prop :=
| ts_intro sizes full :
    ls = map (fun p => split_line (fst p) (snd p)) (combine (seq (S (rlast t)) (rlast t' - rlast t)) sizes) ++ full ++
         (if (Size t + 1 =? Z.of_nat (length (stored t')))%Z then [] else repeat (fail_line t') (rlast t' - rlast t)) ->
    length sizes = rlast t' - rlast t ->
    (full = [] /\ er = None /\ exists m, In m (stored t') /\ Equals uf m n = true) \/
    (exists x, full = [x] /\ full_line t' x /\ Permutation (stored t') (stored t) /\ (er = None <-> rlast t < rlast t')) ->
    table_says uf t n t' er ls.

(** ** What happens while a packet is handled, and what is printed about it. *)
Inductive udp_line (laddr : udpaddr) (g : datagram) : bool -> centry -> Prop :=
| ul_sent : udp_line laddr g true (entry "udp" MInfo ">>> send Bytes" [(B "laddr", str (addr_string laddr)); (B "raddr", str (addr_string (g_to g))); (B "length", num (length (g_bytes g)))])
| ul_failed text : udp_line laddr g false (entry "udp" MError ">>> send udp err" [(B "laddr", str (addr_string laddr)); (B "err", str text)]).
Definition to (g : datagram) : bytes * val := (B "to", str (addr_string (g_to g))).

Inductive ev_lines (uf : N -> N -> bool) (laddr : udpaddr) : ev -> list centry -> Prop :=
| el_enq x : ev_lines uf laddr (EvEnq x) []
| el_draw tx : ev_lines uf laddr (EvDraw tx) []
| el_added n t t' ls : AddNode uf t n = Ok (t', None) -> table_says uf t n t' None ls -> ev_lines uf laddr (EvAdd n true) ls
| el_refused n t m size ls : AddNode uf t n = Ok (t, Some (ENew m)) -> table_says uf t n t (Some (ENew m)) ls ->
    ev_lines uf laddr (EvAdd n false) (ls ++ [entry "dht" MInfo "add node err" [(B "err", str m); (B "tableSize", VInt size)]])
| el_reply g ok u : udp_line laddr g ok u -> ev_lines uf laddr (EvReply g) [u; entry "server" MInfo ">>>  Bytes sended" [to g; (B "len", num (length (g_bytes g)))]]
| el_query g u : udp_line laddr g true u -> ev_lines uf laddr (EvQuery g) [u; entry "server" MInfo ">>>rpc sended" [to g; (B "len", num (length (g_bytes g)))]]
| el_query_failed g u text size : udp_line laddr g false u ->
    ev_lines uf laddr (EvQuery g) [u; entry "server" MError "send query packet err" [to g; (B "query", str (B "{}")); (B "err", str text)];
                                   entry "dht" MError "recurve find node err" [(B "err", str text); (B "tableSize", VInt size)]].

Inductive says (uf : N -> N -> bool) (laddr : udpaddr) : list ev -> list centry -> Prop :=
| sy_nil : says uf laddr [] []
| sy_snoc l ls v vs : says uf laddr l ls -> ev_lines uf laddr v vs -> says uf laddr (l ++ [v]) (ls ++ vs).

(** ** The packet *)

(** A response: transaction id, body, id of the responding node. *)
Definition responds_with (pk : packet) (tx : bytes) (body : entries) (id : bytes) : Prop :=
  exists d, packet_dict (p_bytes pk) d /\ field d "y" (VStr (B "r")) /\ field d "t" (VStr tx) /\ field d "r" (VDict body) /\ field body "id" (VStr id).
(** An error: transaction id, list (a nil list counts). *)
Definition reports (pk : packet) (tx : bytes) (v : val) : Prop :=
  exists d, packet_dict (p_bytes pk) d /\ field d "y" (VStr (B "e")) /\ field d "t" (VStr tx) /\ field d "e" v /\ (v = VNilList \/ exists l, v = VList l).
(** None of the three kinds, although it says which one it is. *)
Definition malformed (pk : packet) : Prop :=
  (exists p, DecodeDictNoLimit (p_bytes pk) = Panic p) \/
  exists d, packet_dict (p_bytes pk) d /\ (exists v, field d "y" v /\ (forall y, v = VStr y -> In y [B "q"; B "r"; B "e"])) /\
    (forall tx q, ~ asks pk tx q) /\ (forall tx b id, ~ responds_with pk tx b id) /\ (forall tx l, ~ reports pk tx l).

Definition response_line (tx id : bytes) : centry := entry "server" MInfo "response handle" [(B "txId", str tx); (B "nodeId", str (hex_text id))].
Definition matched_line (tx : bytes) : centry := entry "dht" MInfo "handle response" [(B "txid", str tx); (B "queryType", str (B "find_node"))].
Definition panic_line (pk : packet) (text : bytes) : centry := entry "server" MError "recv packet handle panic" [from pk; (B "err", str text); (B "bytesLen", num (length (p_bytes pk)))].
Definition ignore_line : centry := {| ce_log := B "dht"; ce_m := MInfo; ce_msg := B "cannot match request ignore"; ce_ctx := None |}.

(** The whole of what the handling of [pk] prints, when [l] is what it did. *)
Inductive transcript (uf : N -> N -> bool) (laddr : udpaddr) (pk : packet) : list ev -> list centry -> Prop :=
| tr_undecodable er text : DecodeDictNoLimit (p_bytes pk) = Err er -> transcript uf laddr pk [] [entry "server" MError "decode bencode err" [from pk; (B "err", str text); (B "len", num (length (p_bytes pk)))]]
| tr_malformed text : malformed pk -> transcript uf laddr pk [] [panic_line pk text]
| tr_untyped d : packet_dict (p_bytes pk) d -> (forall v, ~ field d "y" v) -> transcript uf laddr pk [] [entry "server" MError "cannot handle packet err" [from pk]]
| tr_unknown d y : packet_dict (p_bytes pk) d -> field d "y" (VStr y) -> ~ In y [B "q"; B "r"; B "e"] -> transcript uf laddr pk [] []
| tr_error tx v : reports pk tx v -> transcript uf laddr pk [] [entry "server" MError "return err" [(B "txId", str tx); (B "err", v)]]
| tr_query tx q r g l ls : asks pk tx q -> remark uf pk tx q r -> says uf laddr l ls -> replies_in l = [g] -> queries_in l = [] ->
    transcript uf laddr pk l (entry "server" MInfo "response handle" [(B "txId", str tx); (B "queryType", str q)] :: r ++ ls)
| tr_stray tx b id : responds_with pk tx b id -> transcript uf laddr pk [] [response_line tx id; entry "server" MError "cannot match request" [(B "txId", str tx); (B "nodeId", str id)]]
| tr_unlisted tx b id text : responds_with pk tx b id -> (forall ns, ~ lists_nodes pk tx ns) -> transcript uf laddr pk [] [response_line tx id; matched_line tx; panic_line pk text]
| tr_listed tx b id ns l ls size : responds_with pk tx b id -> lists_nodes pk tx ns -> says uf laddr l ls -> map fst (tried_in l) = ns -> replies_in l = [] ->
    transcript uf laddr pk l ([response_line tx id; matched_line tx] ++ ls ++ [entry "dht" MInfo "add nodes" [(B "size", num (length ns)); (B "tableSize", VInt size)]; ignore_line]).
