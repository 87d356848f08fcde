(** Dht.v -- model of dht/messgaes.go, dht/requesthandler.go, dht/resphandler.go and
    dht/dht.go (the crawler built on the KRPC server). *)
From Verif Require Import Base GoLib Bencode Types Node RouteTable Middleware Krpc.
Local Open Scope list_scope.

(** The handlers of the crawler (dht/dht.go:29-32, dht/resphandler.go:9). *)
Inductive hid := HPing | HFindNode | HGetPeers | HAnnounce | HGenericResp.

(** Shared state: rtable (dht/dht.go:18), txIdGenerator (:20), and the contents of the
    channel recvInfoHash (dht/fetchtorrent.go:14), whose elements carry the request and the
    remote address of the context. *)
Record appst := { a_rt : rtable; a_tx : N; a_queue : list (request hid * udpaddr) }.
Notation cworld := (world appst hid).
Notation cprog := (prog (world appst hid) response).

Definition set_app (w : cworld) (a : appst) : cworld := {| w_app := a; w_reqs := w_reqs w; w_sent := w_sent w; w_queries := w_queries w |}.

(** ** messgaes.go *)

(** dht/messgaes.go:10-12 *)
Definition WithPingResponse (txId nodeId : bytes) : response := WithResponse txId (Some [(B "id", VStr nodeId)]).
(** dht/messgaes.go:14-16 *)
Definition WithFindNodeResponse (txId nodeId : bytes) (nodes : list ninfo) : response :=
  WithResponse txId (Some [(B "id", VStr nodeId); (B "nodes", VStr (joinNodeInfos nodes))]).
(** dht/messgaes.go:18-20 *)
Definition WithGetPeersValsResponse (txId nodeId token : bytes) (addrs : list udpaddr) : response :=
  WithResponse txId (Some [(B "id", VStr nodeId); (B "token", VStr token); (B "values", VList (joinPeerInfos addrs))]).
(** dht/messgaes.go:22-24 *)
Definition WithGetPeersNodesResponse (txId nodeId token : bytes) (nodes : list ninfo) : response :=
  WithResponse txId (Some [(B "id", VStr nodeId); (B "token", VStr token); (B "nodes", VStr (joinNodeInfos nodes))]).
(** dht/messgaes.go:26-28 *)
Definition WithAnnouncePeerResponse (txId nodeId : bytes) : response := WithResponse txId (Some [(B "id", VStr nodeId)]).

(** dht/messgaes.go:31-35 *)
Definition WithPingMsg (txId nodeId : bytes) (h : option hid) : request hid :=
  {| rq_tx := txId; rq_type := B "ping"; rq_body := Some [(B "id", VStr nodeId)]; rq_handler := h |}.
(** dht/messgaes.go:37-42 *)
Definition WithFindNodeMsg (txId nodeId target : bytes) (h : option hid) : request hid :=
  {| rq_tx := txId; rq_type := B "find_node"; rq_body := Some [(B "id", VStr nodeId); (B "target", VStr target)]; rq_handler := h |}.
(** dht/messgaes.go:44-49 *)
Definition WithGetPeersMsg (txId nodeId infoHash : bytes) (h : option hid) : request hid :=
  {| rq_tx := txId; rq_type := B "get_peers"; rq_body := Some [(B "id", VStr nodeId); (B "info_hash", VStr infoHash)]; rq_handler := h |}.
(** dht/messgaes.go:51-59 *)
Definition WithAnnouncePeerMsg (txId nodeId infoHash token : bytes) (port : Z) (h : option hid) : request hid :=
  {| rq_tx := txId; rq_type := B "announce_peer";
     rq_body := Some [(B "id", VStr nodeId); (B "info_hash", VStr infoHash); (B "port", VInt port); (B "token", VStr token); (B "implied_port", VInt 0)];
     rq_handler := h |}.

Section Crawler.
  (** [me] is localNodeId (dht/dht.go:13). *)
  Variable e : env.
  Variable me : bytes.

  (** ** requesthandler.go *)

  (** dht/requesthandler.go:11-15 *)
  Definition pingHandler (req : request hid) : cprog := PWrite (Some (WithPingResponse (rq_tx req) me)) PRet.
  (** dht/requesthandler.go:17-21 *)
  Definition findNodeHandler (req : request hid) : cprog := PWrite (Some (WithFindNodeResponse (rq_tx req) me [])) PRet.
  (** dht/requesthandler.go:23-31 *)
  Definition getPeersHandler (req : request hid) : cprog :=
    match GetString (dict_of (rq_body req)) (B "info_hash") with
    | Panic p => PPanic p | Err _ => PRet
    | Ok _ => PWrite (Some (WithGetPeersNodesResponse (rq_tx req) me (rq_tx req) [])) PRet
    end.
  (** dht/requesthandler.go:33-44.  The send to recvInfoHash (:43) blocks while the channel
      is full: see [crawl_step]. *)
  Definition announcePeerHandler (req : request hid) (addr : udpaddr) : cprog :=
    match (do _ <- GetString (dict_of (rq_body req)) (B "info_hash"); GetInteger (dict_of (rq_body req)) (B "port")) with
    | Panic p => PPanic p | Err _ => PRet
    | Ok _ => PWrite (Some (WithAnnouncePeerResponse (rq_tx req) me))
               (PAct (fun w => set_app w {| a_rt := a_rt (w_app w); a_tx := a_tx (w_app w); a_queue := a_queue (w_app w) ++ [(req, addr)] |}) PRet)
    end.

  (** ** resphandler.go *)

  (** txIdGenerator.Next() (dht/node.go:30-34): the generator advances ... *)
  Definition draw_tx (w : cworld) : cworld := set_app w {| a_rt := a_rt (w_app w); a_tx := nextVal (a_tx (w_app w)); a_queue := a_queue (w_app w) |}.
  (** ... and dht/resphandler.go:45: rpcServer.Query(n.Addr, WithFindNodeMsg(...)). *)
  Definition query_node (w : cworld) (n : ninfo) : cworld * res unit :=
    let w' := draw_tx w in
    Query e w' (naddr n) (WithFindNodeMsg (txid_string (a_tx (w_app w'))) me me (Some HGenericResp)).
  (** rtable.AddNode(n), dht/resphandler.go:40. *)
  Definition add_node (w : cworld) (n : ninfo) : cworld :=
    match AddNode (e_uf e) (a_rt (w_app w)) n with
    | Ok (rt', _) => set_app w {| a_rt := rt'; a_tx := a_tx (w_app w); a_queue := a_queue (w_app w) |}
    | _ => w
    end.
  (** dht/resphandler.go:38-51; an error of Query is only logged (:46-48). *)
  Fixpoint findNodeRespHandler (nodes : list ninfo) : cprog :=
    match nodes with
    | [] => PRet
    | n :: t =>
        PLook (fun w _ =>
          match AddNode (e_uf e) (a_rt (w_app w)) n with
          | Panic p => PPanic p
          | Err _ => PRet
          | Ok (_, Some _) => PAct (fun w => add_node w n) (findNodeRespHandler t)
          | Ok (_, None) => PAct (fun w => add_node w n)
              (PLook (fun w2 _ =>
                 match snd (query_node w2 n) with
                 | Panic p => PAct (fun w => fst (query_node w n)) (PPanic p)
                 | _ => PAct (fun w => fst (query_node w n)) (findNodeRespHandler t)
                 end))
          end)
    end.
  (** dht/resphandler.go:9-36; the ping, get_peers and announce_peer branches only log
      (:53-67), but can panic while parsing. *)
  Definition genericRespHandler (req : request hid) : cprog :=
    PLook (fun w r =>
      match r with
      | None => PPanic PRuntime
      | Some resp =>
          match NodeId resp with
          | Panic p => PPanic p | Err _ => PRet
          | Ok _ =>
              let body := dict_of (rs_body resp) in
              if beq (rq_type req) (B "find_node") then
                match (do nodes <- GetString body (B "nodes"); parseNodeInfo nodes) with
                | Panic p => PPanic p | Err _ => PRet
                | Ok ns => findNodeRespHandler ns
                end
              else if beq (rq_type req) (B "get_peers") then
                if Exist body (B "values") then
                  match (do vals <- GetList body (B "values"); parsePeerInfo (e_slack e) (match vals with Some l => l | None => [] end)) with
                  | Panic p => PPanic p | _ => PRet
                  end
                else
                  match (do nodes <- GetString body (B "nodes"); parseNodeInfo nodes) with
                  | Panic p => PPanic p | _ => PRet
                  end
              else PRet
          end
      end).

  Definition crawler_code (h : hid) (req : request hid) (addr : udpaddr) : cprog :=
    match h with
    | HPing => pingHandler req
    | HFindNode => findNodeHandler req
    | HGetPeers => getPeersHandler req
    | HAnnounce => announcePeerHandler req addr
    | HGenericResp => genericRespHandler req
    end.

  (** dht/dht.go:22-43 Run: the registrations (:29-32); no middleware is installed (:26). *)
  Definition Run_server : res (server hid) :=
    do s1 <- RegisteHandler e NewRpcServer (B "ping") (Some HPing);
    do s2 <- RegisteHandler e s1 (B "find_node") (Some HFindNode);
    do s3 <- RegisteHandler e s2 (B "get_peers") (Some HGetPeers);
    RegisteHandler e s3 (B "announce_peer") (Some HAnnounce).

  (** dht/dht.go:46-58 BootStrap after the host was resolved; an error of Query panics (:54-56). *)
  Definition BootStrap (w : cworld) (raddr : udpaddr) : cworld * res unit :=
    let w' := draw_tx w in
    let (w'', r) := Query e w' raddr (WithFindNodeMsg (txid_string (a_tx (w_app w'))) me me (Some HGenericResp)) in
    (w'', match r with Ok _ => Ok tt | Err _ => Panic (PStr (B "bootstrap findnode err")) | Panic p => Panic p end).

  Definition recv (s : server hid) (w : cworld) (pk : packet) : outcome appst hid := recvPacketHandle e crawler_code s w pk.
End Crawler.

(** dht/dht.go:15-20: the initial state. *)
Definition crawler_init (me : bytes) (local : udpaddr) : res cworld :=
  do t <- NewRouteTable {| nid := me; naddr := local |} 8 160;
  Ok {| w_app := {| a_rt := t; a_tx := 1000; a_queue := [] |}; w_reqs := fun _ => None; w_sent := []; w_queries := [] |}.

(** The running crawler.  [cr_taken] are the announcements handed to the fetch pool so far
    (dht/fetchtorrent.go:19-23). *)
Record crawler := { cr_world : cworld; cr_taken : list (request hid * udpaddr) }.
(** One step: a packet is handled - not possible as long as the handler would have to wait
    for room in recvInfoHash of capacity [cap] (cap >= 1; an unbuffered channel is not
    modelled) -, the fetcher takes an announcement, or BootStrap is called.  The label is
    the list of packets handled. [e i] is the runtime's behaviour during that step. *)
Inductive crawl_step (e : nat -> env) (me : bytes) (s : server hid) (cap : nat) (c : crawler) : list packet -> crawler -> Prop :=
| cs_recv i pk : length (a_queue (w_app (o_world (recv (e i) me s (cr_world c) pk)))) <= cap ->
    crawl_step e me s cap c [pk] {| cr_world := o_world (recv (e i) me s (cr_world c) pk); cr_taken := cr_taken c |}
| cs_take x q : a_queue (w_app (cr_world c)) = x :: q ->
    crawl_step e me s cap c []
      {| cr_world := set_app (cr_world c) {| a_rt := a_rt (w_app (cr_world c)); a_tx := a_tx (w_app (cr_world c)); a_queue := q |};
         cr_taken := cr_taken c ++ [x] |}
| cs_boot i raddr : crawl_step e me s cap c [] {| cr_world := fst (BootStrap (e i) me (cr_world c) raddr); cr_taken := cr_taken c |}.
(** States reachable from the start, with the packets handled so far. *)
Inductive crawl_reach (e : nat -> env) (me : bytes) (local : udpaddr) (s : server hid) (cap : nat) : list packet -> crawler -> Prop :=
| crr_init w : crawler_init me local = Ok w -> crawl_reach e me local s cap [] {| cr_world := w; cr_taken := [] |}
| crr_step pks c l c' : crawl_reach e me local s cap pks c -> crawl_step e me s cap c l c' -> crawl_reach e me local s cap (pks ++ l) c'.
