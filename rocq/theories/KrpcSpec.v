(** KrpcSpec.v -- vocabulary for the KRPC properties (BEP-5), independent of server.go's helpers. *)
From Verif Require Import Base Bencode BencodeSpec Types Node Middleware Krpc.
Local Open Scope list_scope.

(** The runtime may visit a map in any order, nothing else. *)
Definition env_ok (e : env) : Prop := forall n d, deq d (e_ord e n d).

(** The packet is a bencoded dictionary (anything may follow it). *)
Definition packet_dict (pkt : bytes) (d : entries) : Prop := exists n, DecodeDictNoLimit pkt = Ok (d, n).

(** [field d k v]: the dictionary binds k to v. *)
Definition field (d : entries) (k : string) (v : val) : Prop := dget d (B k) = Some v.

(** The KRPC query types, compared as strings.EqualFold does. *)
Definition supported (uf : N -> N -> bool) (q : bytes) : Prop :=
  exists t, In t [B "ping"; B "find_node"; B "get_peers"; B "announce_peer"] /\ EqualFold uf t q = true.

(** A datagram that is a BEP-3 bencoding of a dictionary equal to [d], whatever the order of its entries, and
    which the crawler's own decoder reads as such. *)
Definition carries (b : bytes) (d : entries) : Prop :=
  (exists d', deq d d' /\ bencoding (VDict d') b) /\
  (fits b -> exists r, DecodeDictNoLimit b = Ok (r, length b) /\ deq d r).

(** A response that can be put on the wire. *)
Definition sendable (r : response) : Prop :=
  if rs_err r then exists b c m, rs_body r = Some b /\ is_int c /\ field b "code" (VInt c) /\ field b "msg" (VStr m)
  else exists b, rs_body r = Some b /\ go_value (VDict b) /\ plain (VDict b).

(** What a handler chain did: wrote a proper response to transaction [tx], or panicked with a *misc.Error. *)
Definition responds {A H} (tx : bytes) (o : world A H * res (option response)) : Prop :=
  match snd o with
  | Ok (Some r) => rs_tx r = tx /\ sendable r
  | Panic (PBiz _ _) => True
  | _ => False
  end.

(** The query [d] of type [q] is one the server must refuse. *)
Definition bad_query {H} (uf : N -> N -> bool) (router : bytes -> option H) (d : entries) (q : bytes) : Prop :=
  ~ supported uf q \/
  (~ exists a, field d "a" (VDict a)) \/
  (exists a, field d "a" (VDict a) /\ ~ exists id, field a "id" (VStr id) /\ length id = 20) \/
  router q = None.

(** The error reply of BEP-5. *)
Definition error_reply (tx : bytes) (code : Z) (msg : bytes) : entries :=
  [(B "t", VStr tx); (B "y", VStr (B "e")); (B "e", VList [VInt code; VStr msg])].
Definition ok_reply (tx : bytes) (body : entries) : entries :=
  [(B "t", VStr tx); (B "y", VStr (B "r")); (B "r", VDict body)].

(** Programs that change the request table only by sending queries. *)
Definition table_change {A H} (w w' : world A H) (qs : list (request H)) : Prop :=
  w_queries w' = w_queries w ++ qs /\
  forall tx, w_reqs w' tx = fold_left (fun m q => mput m (rq_tx q) q) qs (w_reqs w) tx.
Inductive queries_only {A H} : prog (world A H) response -> Prop :=
| qo_ret : queries_only PRet
| qo_panic p : queries_only (PPanic p)
| qo_act f k : (forall w, exists qs, table_change w (f w) qs) -> queries_only k -> queries_only (PAct f k)
| qo_look k : (forall w r, queries_only (k w r)) -> queries_only (PLook k)
| qo_write r k : queries_only k -> queries_only (PWrite r k)
| qo_next k : queries_only k -> queries_only (PNext k).

(** The request most recently sent with transaction id [tx]. *)
Definition latest {H} (qs : list (request H)) (tx : bytes) : option (request H) :=
  find (fun q => beq (rq_tx q) tx) (rev qs).

(** Histories of a server: any sequence of Query calls and received packets. *)
Inductive krpc_reach {A H} (e : env) (code : H -> request H -> udpaddr -> prog (world A H) response) (s : server H) (a : A) : world A H -> Prop :=
| kr_init : krpc_reach e code s a {| w_app := a; w_reqs := fun _ => None; w_sent := []; w_queries := [] |}
| kr_query w to r : krpc_reach e code s a w -> krpc_reach e code s a (fst (Query e w to r))
| kr_recv w pk : krpc_reach e code s a w -> krpc_reach e code s a (o_world (recvPacketHandle e code s w pk)).
