(** Conc.v -- the crawler with its worker goroutines interleaved: dht/krpc/server.go:111-208,
    dht/requesthandler.go and dht/resphandler.go, executed by any number of goroutines at once.

    Dht.v handles one packet as one atomic step.  Here one call of recvPacketHandle is a *job*
    whose accesses to shared state are separate steps: requestMapping.Get and Put (one lock each,
    misc/syncmap.go), rtable.AddNode (one lock, dht/routetable.go:147), txIdGenerator.Next (one
    lock, dht/node.go:22), the send to recvInfoHash, and SendPacket.  Everything between two such
    accesses is local to the goroutine and happens in one go.  Jobs may start at any time (the
    size of the work pool, WorkPool.v, only restricts this further).  A panic ends a job through
    the deferred recover (server.go:113-118).  Log calls are dropped. *)
From Verif Require Import Base GoLib Bencode Types Node RouteTable Middleware Krpc Dht.
Local Open Scope list_scope.

(** Program points of a job. *)
Inductive jpc :=
| JStart                                            (* server.go:111, nothing done yet *)
| JEnq (x : request hid * udpaddr) (r : response)   (* requesthandler.go:43; r is the response written before *)
| JReply (r : response)                             (* server.go:132-138 *)
| JLook (tx : bytes) (body : gdict)                 (* server.go:162 *)
| JAdd (ns : list ninfo)                            (* resphandler.go:39-40, nodes still to be added *)
| JDraw (n : ninfo) (ns : list ninfo)               (* resphandler.go:45, txIdGenerator.Next() *)
| JPut (n : ninfo) (ns : list ninfo) (tx : bytes)   (* server.go:96 *)
| JQuery (n : ninfo) (ns : list ninfo) (tx : bytes) (* server.go:97-108 *)
| JEnd.                                             (* server.go:117, about to give the buffer back *)

(** What a job does that others can see (ghost history, with the number of the job). *)
Inductive ev :=
| EvStart (pk : packet)
| EvEnq (x : request hid * udpaddr)
| EvReply (g : datagram)
| EvAdd (n : ninfo) (ok : bool)
| EvDraw (tx : bytes)
| EvQuery (g : datagram)
| EvEnd.

Section Job.
  Variable e : env.
  Variable me : bytes.

  (** dht/requesthandler.go:11-44; the handlers up to their first access to shared state. *)
  Definition request_pc (h : hid) (req : request hid) (addr : udpaddr) : res jpc :=
    let body := dict_of (rq_body req) in
    match h with
    | HPing => Ok (JReply (WithPingResponse (rq_tx req) me))
    | HFindNode => Ok (JReply (WithFindNodeResponse (rq_tx req) me []))
    | HGetPeers => do _ <- GetString body (B "info_hash");
                   Ok (JReply (WithGetPeersNodesResponse (rq_tx req) me (rq_tx req) []))
    | HAnnounce => do _ <- GetString body (B "info_hash"); do _ <- GetInteger body (B "port");
                   Ok (JEnq (req, addr) (WithAnnouncePeerResponse (rq_tx req) me))
    | HGenericResp => Ok JEnd          (* never registered for a query (dht.go:29-32) *)
    end.

  (** dht/dht.go:29-32: the router after Run registered its handlers (Listen starts afterwards, :41). *)
  Definition crawler_router (q : bytes) : option hid :=
    if beq q (B "ping") then Some HPing
    else if beq q (B "find_node") then Some HFindNode
    else if beq q (B "get_peers") then Some HGetPeers
    else if beq q (B "announce_peer") then Some HAnnounce
    else None.

  (** dht/krpc/server.go:191-207 *)
  Definition query_pc (addr : udpaddr) (dict : entries) (tx q : bytes) : res jpc :=
    do ok <- ContainsString (e_uf e) supportQueryType q;
    if negb ok then Ok (JReply (WithParamErr tx (B "donnot support <" ++ q ++ B "> query type"))) else
    do body <- GetDict dict (B "a");
    do sourceId <- GetString (dict_of body) (B "id");
    if negb (length sourceId =? 20) then Ok (JReply (WithParamErr tx (B "id format err"))) else
    match crawler_router q with
    | None => Ok (JReply (WithParamErr tx (B "cannot handle not match handler")))
    | Some h => request_pc h {| rq_tx := tx; rq_type := q; rq_body := body; rq_handler := None |} addr
    end.

  (** dht/krpc/server.go:175-189: an error panic becomes a reply, other panics end the job. *)
  Definition start_query (addr : udpaddr) (dict : entries) : jpc :=
    match (do t <- GetString dict (B "t"); do q <- GetString dict (B "q"); Ok (t, q)) with
    | Ok (tx, q) =>
        match query_pc addr dict tx q with
        | Ok pc => pc
        | Panic (PBiz c m) => JReply (WithParamErr tx (error_text e c m))
        | _ => JEnd
        end
    | _ => JEnd
    end.

  (** dht/krpc/server.go:120-131, :139-143, :155-161 *)
  Definition start_pc (pk : packet) : jpc :=
    match DecodeDictNoLimit (p_bytes pk) with
    | Ok (dict, _) =>
        if negb (Exist dict (B "y")) then JEnd else
        match GetString dict (B "y") with
        | Ok y =>
            if beq y (B "q") then start_query (p_addr pk) dict
            else if beq y (B "r") then
              match (do t <- GetString dict (B "t"); do b <- GetDict dict (B "r"); do _ <- GetString (dict_of b) (B "id"); Ok (t, b)) with
              | Ok (t, b) => JLook t b
              | _ => JEnd
              end
            else JEnd
        | _ => JEnd
        end
    | _ => JEnd
    end.

  (** dht/krpc/server.go:164-171 and dht/resphandler.go:9-36.  Every request of the crawler carries
      genericRespHandler (dht.go:49, resphandler.go:45), so no other handler is considered. *)
  Definition look_pc (found : option (request hid)) (body : gdict) : jpc :=
    match found with
    | Some req =>
        match rq_handler req with
        | Some HGenericResp =>
            if beq (rq_type req) (B "find_node") then
              match (do _ <- GetString (dict_of body) (B "id"); do nodes <- GetString (dict_of body) (B "nodes"); parseNodeInfo nodes) with
              | Ok ns => JAdd ns
              | _ => JEnd
              end
            else JEnd
        | _ => JEnd
        end
    | None => JEnd
    end.

  (** dht/krpc/server.go:133-138: the datagram sent for a response, None when RawData panics. *)
  Definition reply_bytes (w : cworld) (r : response) : option bytes :=
    match resp_RawData r with
    | Ok raw => match encode_now e w raw with Ok bs => Some bs | Err _ => Some [] | Panic _ => None end
    | _ => None
    end.

  Definition find_msg (tx : bytes) : request hid := WithFindNodeMsg tx me me (Some HGenericResp).

  (** One access of a job to shared state: [job_step cap w pk pc w' pc' evs]. *)
  Inductive job_step (cap : nat) (w : cworld) (pk : packet) : jpc -> cworld -> jpc -> list ev -> Prop :=
  | js_start : job_step cap w pk JStart w (start_pc pk) []
  | js_enq x r : length (a_queue (w_app w)) < cap ->
      job_step cap w pk (JEnq x r)
        (set_app w {| a_rt := a_rt (w_app w); a_tx := a_tx (w_app w); a_queue := a_queue (w_app w) ++ [x] |}) (JReply r) [EvEnq x]
  | js_reply r bs : reply_bytes w r = Some bs ->
      job_step cap w pk (JReply r) (fst (send e w bs (p_addr pk))) JEnd [EvReply {| g_bytes := bs; g_to := p_addr pk |}]
  | js_reply_panic r : reply_bytes w r = None -> job_step cap w pk (JReply r) w JEnd []
  | js_look tx body : job_step cap w pk (JLook tx body) w (look_pc (w_reqs w tx) body) []
  | js_added : job_step cap w pk (JAdd []) w JEnd []
  | js_add n ns rt' : AddNode (e_uf e) (a_rt (w_app w)) n = Ok (rt', None) ->
      job_step cap w pk (JAdd (n :: ns)) (set_app w {| a_rt := rt'; a_tx := a_tx (w_app w); a_queue := a_queue (w_app w) |}) (JDraw n ns) [EvAdd n true]
  | js_add_err n ns rt' er : AddNode (e_uf e) (a_rt (w_app w)) n = Ok (rt', Some er) ->
      job_step cap w pk (JAdd (n :: ns)) (set_app w {| a_rt := rt'; a_tx := a_tx (w_app w); a_queue := a_queue (w_app w) |}) (JAdd ns) [EvAdd n false]
  | js_add_panic n ns p : AddNode (e_uf e) (a_rt (w_app w)) n = Panic p -> job_step cap w pk (JAdd (n :: ns)) w JEnd []
  | js_draw n ns : job_step cap w pk (JDraw n ns) (draw_tx w) (JPut n ns (txid_string (a_tx (w_app (draw_tx w))))) [EvDraw (txid_string (a_tx (w_app (draw_tx w))))]
  | js_put n ns tx : job_step cap w pk (JPut n ns tx)
      {| w_app := w_app w; w_reqs := mput (w_reqs w) tx (find_msg tx); w_sent := w_sent w; w_queries := w_queries w ++ [find_msg tx] |} (JQuery n ns tx) []
  | js_query n ns tx bs : encode_now e w (req_RawData (find_msg tx)) = Ok bs ->
      job_step cap w pk (JQuery n ns tx) (fst (send e w bs (naddr n))) (JAdd ns) [EvQuery {| g_bytes := bs; g_to := naddr n |}]
  | js_query_err n ns tx x : encode_now e w (req_RawData (find_msg tx)) = Err x -> job_step cap w pk (JQuery n ns tx) w (JAdd ns) []
  | js_query_panic n ns tx p : encode_now e w (req_RawData (find_msg tx)) = Panic p -> job_step cap w pk (JQuery n ns tx) w JEnd [].
End Job.

(** The crawler: shared state, the running jobs (number, packet, program point), the number of the
    next job, the announcements taken by the fetcher, and the history. *)
Record conc := { k_world : cworld; k_jobs : list (nat * packet * jpc); k_next : nat; k_taken : list (request hid * udpaddr); k_log : list (nat * ev) }.

(** [e i] is the runtime's behaviour during a step; every step may use a different one. *)
Inductive conc_step (e : nat -> env) (me : bytes) (cap : nat) (s : conc) : conc -> Prop :=
(** a worker of the pool begins recvPacketHandle(pk) (server.go:46) *)
| ks_begin pk : conc_step e me cap s
    {| k_world := k_world s; k_jobs := k_jobs s ++ [(k_next s, pk, JStart)]; k_next := S (k_next s); k_taken := k_taken s;
       k_log := k_log s ++ [(k_next s, EvStart pk)] |}
| ks_job k l1 i pk pc l2 w' pc' evs : k_jobs s = l1 ++ (i, pk, pc) :: l2 -> job_step (e k) me cap (k_world s) pk pc w' pc' evs ->
    conc_step e me cap s
      {| k_world := w'; k_jobs := l1 ++ (i, pk, pc') :: l2; k_next := k_next s; k_taken := k_taken s; k_log := k_log s ++ map (pair i) evs |}
(** server.go:117, the call returns *)
| ks_end l1 i pk l2 : k_jobs s = l1 ++ (i, pk, JEnd) :: l2 ->
    conc_step e me cap s
      {| k_world := k_world s; k_jobs := l1 ++ l2; k_next := k_next s; k_taken := k_taken s; k_log := k_log s ++ [(i, EvEnd)] |}
(** dht/fetchtorrent.go:20 *)
| ks_take x q : a_queue (w_app (k_world s)) = x :: q ->
    conc_step e me cap s
      {| k_world := set_app (k_world s) {| a_rt := a_rt (w_app (k_world s)); a_tx := a_tx (w_app (k_world s)); a_queue := q |};
         k_jobs := k_jobs s; k_next := k_next s; k_taken := k_taken s ++ [x]; k_log := k_log s |}.

(** cmd/root.go:47-49: BootStrap for every configured host, before Run; a failure panics. *)
Fixpoint boot (e : nat -> env) (me : bytes) (hosts : list udpaddr) (w : cworld) : res cworld :=
  match hosts with
  | [] => Ok w
  | h :: t => let (w', r) := BootStrap (e (length (w_sent w))) me w h in do _ <- r; boot e me t w'
  end.

Inductive conc_reach (e : nat -> env) (me : bytes) (local : udpaddr) (hosts : list udpaddr) (cap : nat) : conc -> Prop :=
| kr_start w0 w : crawler_init me local = Ok w0 -> boot e me hosts w0 = Ok w ->
    conc_reach e me local hosts cap {| k_world := w; k_jobs := []; k_next := 0; k_taken := []; k_log := [] |}
| kr_step s s' : conc_reach e me local hosts cap s -> conc_step e me cap s s' -> conc_reach e me local hosts cap s'.
