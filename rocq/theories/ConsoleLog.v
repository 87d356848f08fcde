(** ConsoleLog.v -- model of what the handling of packets prints on standard output: the calls of
    serverLogger (dht/krpc/server.go:99-182), udpLogger (dht/krpc/udp.go:51, :54), dhtLogger
    (dht/requesthandler.go, dht/resphandler.go) and rtableLogger (dht/routetable.go:164-200), on top of
    Conc.v (the interleaved crawler) and Logger.v (the console logger).

    A call prints its line in the same step as the access to shared state next to it; since two goroutines may print
    in either order, only the order of the lines of one job is meaningful.  The time stamp, the iteration order of
    the context map, the texts of runtime errors and the table sizes read for a log line are inputs.  Left out: the
    two lines for a received datagram (udp.go:104, server.go:42), which other goroutines print, and write errors. *)
From Verif Require Import Base GoLib Bencode Types Logger Node RouteTable Middleware Krpc Dht Conc Json.
From Coq Require Import Permutation.
Local Open Scope list_scope.

(** A call of a logger: the logger's prefix, the method, the message and the context. *)
Record centry := { ce_log : bytes; ce_m : method; ce_msg : bytes; ce_ctx : gdict }.
Definition entry (lg : string) (m : method) (msg : string) (ctx : entries) : centry := {| ce_log := B lg; ce_m := m; ce_msg := B msg; ce_ctx := Some ctx |}.

(** dht/dht.go:11, dht/routetable.go:11, dht/krpc/udp.go:11, dht/krpc/server.go:11: every logger of the program. *)
Definition logger_named (p : bytes) : clogger := SetPrefix (snd (GetLogger registry0 [])) p.
(** misc/logger.go:146-223: what a call prints at time [now], visiting the context in the order [ctx]. *)
Definition prints (en : centry) (out : bytes) : Prop :=
  exists now ctx, match ce_ctx en, ctx with Some l, Some l' => Permutation l' l | None, None => True | _, _ => False end /\
    out = fst (call_log (ce_m en) now (logger_named (ce_log en)) (ce_msg en) (ctx_of ctx)).

(** What the runtime supplies: texts of errors and panics, and the table size some time later. *)
Record oracle := { or_err : goerr -> bytes; or_panic : gopanic -> bytes; or_size : Z }.
(** misc/strings.go:14-16, Error() *)
Definition err_text (o : oracle) (er : goerr) : bytes := match er with ENew m => m | _ => or_err o er end.
Definition panic_text (o : oracle) (e : env) (p : gopanic) : bytes := match p with PBiz c m => error_text e c m | PStr m => m | _ => or_panic o p end.

(** ** routetable.go:154-203, with the log calls *)
Definition l_bucket_full (t : rtable) (preLen : nat) : centry :=
  entry "rtable" MInfo "the bucket has full" [(B "tableSize", VInt (rsize t)); (B "preLen", VInt (Z.of_nat preLen))].
Definition l_table_full (t : rtable) : centry := entry "rtable" MError "the route table has full" [(B "size", VInt (rsize t))].
Definition l_split (t : rtable) : centry := entry "rtable" MTrace "the route table has split new bucket" [(B "lastIndex", VInt (Z.of_nat (rlast t))); (B "size", VInt (rsize t))].
Definition l_add_fail (t : rtable) : centry := entry "rtable" MError "the route table add fail" [(B "lastIndex", VInt (Z.of_nat (rlast t))); (B "size", VInt (rsize t))].

(** The same function as [addNode] (RouteTable.v); the lines are printed in this order. *)
Fixpoint addNode_log (uf : N -> N -> bool) (fuel : nat) (t : rtable) (node : ninfo) (preLen : nat) : list centry :=
  match bget t preLen with
  | Ok b =>
      if (rlast t <=? preLen) && negb (bExist uf b node) && bFull b then
        if (rcapacity t <=? Z.of_nat (rlast t))%Z then [l_table_full t]
        else match fuel with
        | O => []
        | S f =>
            match bget t (rlast t) with
            | Ok src =>
                let red := fold_left (fun (r : res rtable * list centry) n =>
                             match fst r with
                             | Ok t1 => (do x <- addNode uf f t1 n (solveMaxPreLen t1 (nid n)); Ok (fst x), snd r ++ addNode_log uf f t1 n (solveMaxPreLen t1 (nid n)))
                             | _ => r
                             end) (bAll src) (Ok (split_empty t src), [l_split (split_empty t src)]) in
                match fst red with
                | Ok t2 =>
                    match addNode uf f t2 node (solveMaxPreLen t2 (nid node)) with
                    | Ok x =>
                        snd red ++ addNode_log uf f t2 node (solveMaxPreLen t2 (nid node)) ++
                        match nodeCount (fst x) with
                        | Ok n => if (rsize t + 1 =? Z.of_nat n)%Z then [] else [l_add_fail (fst x)]
                        | _ => []
                        end
                    | _ => snd red ++ addNode_log uf f t2 node (solveMaxPreLen t2 (nid node))
                    end
                | _ => snd red
                end
            | _ => []
            end
        end
      else if bFull b then [l_bucket_full t preLen]
      else []          (* :168-170 cannot be reached: bAdd succeeds on a bucket that is not full *)
  | _ => []
  end.
(** routetable.go:147-151 *)
Definition AddNode_log (uf : N -> N -> bool) (t : rtable) (node : ninfo) : list centry :=
  addNode_log uf (Z.to_nat (rcapacity t - Z.of_nat (rlast t))) t node (solveMaxPreLen t (nid node)).

(** ** The lines of a job *)
Section Lines.
  Variable e : env.
  Variable o : oracle.
  (** s.laddr (udp.go:24), the address listened on; a *net.UDPAddr prints as its String(). *)
  Variable laddr : udpaddr.

  (** server.go:115 *)
  Definition l_panic (pk : packet) (p : gopanic) : centry :=
    entry "server" MError "recv packet handle panic" [(B "from", VStr (addr_string (p_addr pk))); (B "err", VStr (panic_text o e p)); (B "bytesLen", VInt (Z.of_nat (length (p_bytes pk))))].

  (** udp.go:48-56 *)
  Definition send_log (w : cworld) (bs : bytes) (to : udpaddr) : list centry :=
    if snd (send e w bs to) then [entry "udp" MInfo ">>> send Bytes" [(B "laddr", VStr (addr_string laddr)); (B "raddr", VStr (addr_string to)); (B "length", VInt (Z.of_nat (length bs)))]]
    else [entry "udp" MError ">>> send udp err" [(B "laddr", VStr (addr_string laddr)); (B "err", VStr (or_err o EIO))]].

  (** requesthandler.go:13, :19, :28, :39; nothing is printed when a getter panics before. *)
  Definition request_line (h : hid) (req : request hid) : list centry :=
    let body := dict_of (rq_body req) in
    match h with
    | HPing => [entry "dht" MInfo "get ping request" [(B "txId", VStr (rq_tx req))]]
    | HFindNode => [entry "dht" MInfo "get find_node request" [(B "txId", VStr (rq_tx req))]]
    | HGetPeers => match GetString body (B "info_hash") with
                   | Ok ih => [entry "dht" MInfo "get get_peers request" [(B "txId", VStr (rq_tx req)); (B "infoHash", VStr (hex ih))]]
                   | _ => [] end
    | HAnnounce => match (do ih <- GetString body (B "info_hash"); do p <- GetInteger body (B "port"); Ok (ih, p)) with
                   | Ok (ih, p) => [entry "dht" MInfo "get announce_peer request" [(B "txId", VStr (rq_tx req)); (B "infoHash", VStr (hex ih)); (B "port", VInt p)]]
                   | _ => [] end
    | HGenericResp => []
    end.

  (** server.go:191-207 *)
  Definition query_line (dict : entries) (tx q : bytes) : list centry :=
    match (do ok <- ContainsString (e_uf e) supportQueryType q;
           if negb ok then Ok [] else
           do body <- GetDict dict (B "a");
           do sourceId <- GetString (dict_of body) (B "id");
           if negb (length sourceId =? 20) then Ok [] else
           match crawler_router q with
           | None => Ok []
           | Some h => Ok (request_line h {| rq_tx := tx; rq_type := q; rq_body := body; rq_handler := None |})
           end) with
    | Ok l => l
    | _ => []
    end.

  (** server.go:175-189; a panic that is no *misc.Error is raised again and reaches :115. *)
  Definition start_query_log (me : bytes) (pk : packet) (dict : entries) : list centry :=
    match (do t <- GetString dict (B "t"); do q <- GetString dict (B "q"); Ok (t, q)) with
    | Ok (tx, q) =>
        entry "server" MInfo "response handle" [(B "txId", VStr tx); (B "queryType", VStr q)] ::
        query_line dict tx q ++
        match query_pc e me (p_addr pk) dict tx q with
        | Panic p => entry "server" MError "request handle panic" [(B "err", VStr (panic_text o e p))] :: match p with PBiz _ _ => [] | _ => [l_panic pk p] end
        | _ => []
        end
    | Panic p => [l_panic pk p]
    | Err _ => []
    end.

  (** server.go:155-161 *)
  Definition start_resp_log (pk : packet) (dict : entries) : list centry :=
    match (do t <- GetString dict (B "t"); do b <- GetDict dict (B "r"); do id <- GetString (dict_of b) (B "id"); Ok (t, id)) with
    | Ok (t, id) => [entry "server" MInfo "response handle" [(B "txId", VStr t); (B "nodeId", VStr (hex id))]]
    | Panic p => [l_panic pk p]
    | Err _ => []
    end.

  (** server.go:147-152 *)
  Definition start_err_log (pk : packet) (dict : entries) : list centry :=
    match (do t <- GetString dict (B "t"); do l <- GetList dict (B "e"); Ok (t, l)) with
    | Ok (t, l) => [entry "server" MError "return err" [(B "txId", VStr t); (B "err", match l with Some vs => VList vs | None => VNilList end)]]
    | Panic p => [l_panic pk p]
    | Err _ => []
    end.

  (** server.go:120-143 *)
  Definition start_log (me : bytes) (pk : packet) : list centry :=
    match DecodeDictNoLimit (p_bytes pk) with
    | Ok (dict, _) =>
        if negb (Exist dict (B "y")) then [entry "server" MError "cannot handle packet err" [(B "from", VStr (addr_string (p_addr pk)))]] else
        match GetString dict (B "y") with
        | Ok y =>
            if beq y (B "q") then start_query_log me pk dict
            else if beq y (B "r") then start_resp_log pk dict
            else if beq y (B "e") then start_err_log pk dict
            else []
        | Panic p => [l_panic pk p]
        | Err _ => []
        end
    | Err er => [entry "server" MError "decode bencode err" [(B "from", VStr (addr_string (p_addr pk))); (B "err", VStr (err_text o er)); (B "len", VInt (Z.of_nat (length (p_bytes pk))))]]
    | Panic p => [l_panic pk p]
    end.

  (** server.go:133-138; the last line is printed whether or not the packet could be sent. *)
  Definition reply_log (w : cworld) (pk : packet) (r : response) : list centry :=
    match resp_RawData r with
    | Ok raw =>
        match encode_now e w raw with
        | Ok bs => send_log w bs (p_addr pk) ++ [entry "server" MInfo ">>>  Bytes sended" [(B "to", VStr (addr_string (p_addr pk))); (B "len", VInt (Z.of_nat (length bs)))]]
        | Err _ => entry "server" MError "encode response err" [(B "from", VStr (addr_string (p_addr pk))); (B "dict", VStr (match resp_String r with Ok s => s | _ => [] end))] ::
                   send_log w [] (p_addr pk) ++ [entry "server" MInfo ">>>  Bytes sended" [(B "to", VStr (addr_string (p_addr pk))); (B "len", VInt 0)]]
        | Panic p => [l_panic pk p]
        end
    | Panic p => [l_panic pk p]
    | Err _ => []
    end.

  (** server.go:162-171, resphandler.go:9-23; requests other than find_node are never sent (dht.go:49, resphandler.go:45). *)
  Definition look_log (w : cworld) (pk : packet) (tx : bytes) (body : gdict) : list centry :=
    match w_reqs w tx with
    | None => [entry "server" MError "cannot match request" [(B "txId", VStr tx); (B "nodeId", VStr (match GetString (dict_of body) (B "id") with Ok id => id | _ => [] end))]]
    | Some req =>
        entry "dht" MInfo "handle response" [(B "txid", VStr tx); (B "queryType", VStr (rq_type req))] ::
        match (do nodes <- GetString (dict_of body) (B "nodes"); parseNodeInfo nodes) with
        | Panic p => [l_panic pk p]
        | _ => []
        end
    end.

  (** resphandler.go:38-51, one node. *)
  Definition add_log (w : cworld) (pk : packet) (n : ninfo) : list centry :=
    AddNode_log (e_uf e) (a_rt (w_app w)) n ++
    match AddNode (e_uf e) (a_rt (w_app w)) n with
    | Ok (_, Some er) => [entry "dht" MInfo "add node err" [(B "err", VStr (err_text o er)); (B "tableSize", VInt (or_size o))]]
    | Panic p => [l_panic pk p]
    | _ => []
    end.
  (** resphandler.go:47 *)
  Definition l_recurve (er : goerr) : centry := entry "dht" MError "recurve find node err" [(B "err", VStr (err_text o er)); (B "tableSize", VInt (or_size o))].
  (** server.go:95-109 after the Put, resphandler.go:46-48 *)
  Definition query_log (me : bytes) (w : cworld) (pk : packet) (n : ninfo) (tx : bytes) : list centry :=
    let to := naddr n in
    match encode_now e w (req_RawData (find_msg me tx)) with
    | Ok bs => send_log w bs to ++
        (if snd (send e w bs to) then [entry "server" MInfo ">>>rpc sended" [(B "to", VStr (addr_string to)); (B "len", VInt (Z.of_nat (length bs)))]]
         else [entry "server" MError "send query packet err" [(B "to", VStr (addr_string to)); (B "query", VStr (req_String (find_msg me tx))); (B "err", VStr (or_err o EIO))]; l_recurve EIO])
    | Err er => [entry "server" MError "encode request err" [(B "to", VStr (addr_string to)); (B "query", VStr (req_String (find_msg me tx))); (B "err", VStr (err_text o er))]; l_recurve er]
    | Panic p => [l_panic pk p]
    end.
  (** resphandler.go:50, :35.  [size] is len(nodes), recomputed from the packet. *)
  Definition nodes_count (pk : packet) : Z :=
    match (do d <- DecodeDictNoLimit (p_bytes pk); do b <- GetDict (fst d) (B "r"); do nodes <- GetString (dict_of b) (B "nodes"); parseNodeInfo nodes) with
    | Ok ns => Z.of_nat (length ns) | _ => 0
    end.
  Definition done_log (pk : packet) : list centry :=
    [entry "dht" MInfo "add nodes" [(B "size", VInt (nodes_count pk)); (B "tableSize", VInt (or_size o))];
     {| ce_log := B "dht"; ce_m := MInfo; ce_msg := B "cannot match request ignore"; ce_ctx := None |}].

  (** What a job prints during its step from [pc]. *)
  Definition step_log (me : bytes) (w : cworld) (pk : packet) (pc : jpc) : list centry :=
    match pc with
    | JStart => start_log me pk
    | JReply r => reply_log w pk r
    | JLook tx body => look_log w pk tx body
    | JAdd [] => done_log pk
    | JAdd (n :: _) => add_log w pk n
    | JQuery n _ tx => query_log me w pk n tx
    | JEnq _ _ | JDraw _ _ | JPut _ _ _ | JEnd => []
    end.
End Lines.

(** The crawler with its standard output and the history of the calls (job, call). *)
Record cconc := { c_conc : conc; c_out : bytes; c_calls : list (nat * centry) }.

Inductive cstep (e : nat -> env) (me : bytes) (laddr : udpaddr) (cap : nat) (s : cconc) : cconc -> Prop :=
| cs_job k o l1 i pk pc l2 w' pc' evs outs : k_jobs (c_conc s) = l1 ++ (i, pk, pc) :: l2 -> job_step (e k) me cap (k_world (c_conc s)) pk pc w' pc' evs ->
    Forall2 prints (step_log (e k) o laddr me (k_world (c_conc s)) pk pc) outs ->
    cstep e me laddr cap s
      {| c_conc := {| k_world := w'; k_jobs := l1 ++ (i, pk, pc') :: l2; k_next := k_next (c_conc s); k_taken := k_taken (c_conc s); k_log := k_log (c_conc s) ++ map (pair i) evs |};
         c_out := c_out s ++ concat outs; c_calls := c_calls s ++ map (pair i) (step_log (e k) o laddr me (k_world (c_conc s)) pk pc) |}
| cs_begin pk : cstep e me laddr cap s
      {| c_conc := {| k_world := k_world (c_conc s); k_jobs := k_jobs (c_conc s) ++ [(k_next (c_conc s), pk, JStart)]; k_next := S (k_next (c_conc s)); k_taken := k_taken (c_conc s);
                      k_log := k_log (c_conc s) ++ [(k_next (c_conc s), EvStart pk)] |};
         c_out := c_out s; c_calls := c_calls s |}
| cs_end l1 i pk l2 : k_jobs (c_conc s) = l1 ++ (i, pk, JEnd) :: l2 -> cstep e me laddr cap s
      {| c_conc := {| k_world := k_world (c_conc s); k_jobs := l1 ++ l2; k_next := k_next (c_conc s); k_taken := k_taken (c_conc s); k_log := k_log (c_conc s) ++ [(i, EvEnd)] |};
         c_out := c_out s; c_calls := c_calls s |}
| cs_take x q : a_queue (w_app (k_world (c_conc s))) = x :: q -> cstep e me laddr cap s
      {| c_conc := {| k_world := set_app (k_world (c_conc s)) {| a_rt := a_rt (w_app (k_world (c_conc s))); a_tx := a_tx (w_app (k_world (c_conc s))); a_queue := q |};
                      k_jobs := k_jobs (c_conc s); k_next := k_next (c_conc s); k_taken := k_taken (c_conc s) ++ [x]; k_log := k_log (c_conc s) |};
         c_out := c_out s; c_calls := c_calls s |}.

(** The output starts after the bootstrap (whose lines are left out, as are those of Run). *)
Inductive creach (e : nat -> env) (me : bytes) (laddr local : udpaddr) (hosts : list udpaddr) (cap : nat) : cconc -> Prop :=
| cr_start w0 w : crawler_init me local = Ok w0 -> boot e me hosts w0 = Ok w ->
    creach e me laddr local hosts cap {| c_conc := {| k_world := w; k_jobs := []; k_next := 0; k_taken := []; k_log := [] |}; c_out := []; c_calls := [] |}
| cr_step s s' : creach e me laddr local hosts cap s -> cstep e me laddr cap s s' -> creach e me laddr local hosts cap s'.
