(** Krpc.v -- model of dht/krpc/messages.go and dht/krpc/server.go.

    Handlers are named by tags of type [H] (Go: RpcHandlerFunc values); [code] gives the
    program of each handler for a request, a response slot and a remote address.  [A] is
    whatever application state the handlers share.  Request and Response are the only
    implementations in the repository, BaseRequest and BaseResponse.
    One call of recvPacketHandle is one step: before its single table lookup it touches
    no shared state, and what other goroutines do afterwards can be seen as part of the
    (arbitrary) handler programs.  Logging is dropped. *)
From Verif Require Import Base GoLib Bencode Types Node Middleware.
Local Open Scope list_scope.

(** ** messages.go *)

(** dht/krpc/messages.go:18-30 *)
Record response := { rs_tx : bytes; rs_body : gdict; rs_err : bool }.
(** dht/krpc/messages.go:83-97; a nil handler is None. *)
Record request (H : Type) := { rq_tx : bytes; rq_type : bytes; rq_body : gdict; rq_handler : option H }.
Arguments rq_tx {H}. Arguments rq_type {H}. Arguments rq_body {H}. Arguments rq_handler {H}.

(** A Dict stored in an interface{}. *)
Definition dict_val (d : gdict) : val := match d with Some l => VDict l | None => VNilDict end.

(** dht/krpc/messages.go:36-38 *)
Definition NodeId (r : response) : res bytes := GetString (dict_of (rs_body r)) (B "id").

(** dht/krpc/messages.go:48-63 *)
Definition resp_RawData (r : response) : res entries :=
  if negb (rs_err r) then
    Ok [(B "t", VStr (rs_tx r)); (B "y", VStr (B "r")); (B "r", dict_val (rs_body r))]
  else
    do code <- GetInteger (dict_of (rs_body r)) (B "code");
    do msg <- GetString (dict_of (rs_body r)) (B "msg");
    Ok [(B "t", VStr (rs_tx r)); (B "y", VStr (B "e")); (B "e", VList [VInt code; VStr msg])].

(** dht/krpc/messages.go:115-122 *)
Definition req_RawData {H} (r : request H) : entries :=
  [(B "t", VStr (rq_tx r)); (B "y", VStr (B "q")); (B "q", VStr (rq_type r)); (B "a", dict_val (rq_body r))].

(** dht/krpc/messages.go:134-136 *)
Definition WithResponse (tx : bytes) (body : gdict) : response := {| rs_tx := tx; rs_body := body; rs_err := false |}.
(** dht/krpc/messages.go:139-141 *)
Definition WithErr (tx : bytes) (code : Z) (msg : bytes) : response :=
  {| rs_tx := tx; rs_body := Some [(B "code", VInt code); (B "msg", VStr msg)]; rs_err := true |}.
(** dht/krpc/messages.go:143-148 *)
Definition WithParamErr (tx msg : bytes) : response :=
  WithErr tx ProtocolErr (match msg with [] => B "invalid param" | _ => msg end).

(** ** server.go *)

(** What the Go runtime and the network decide: Unicode folding, the iteration order of a
    map at the n-th send, whether the n-th send succeeds, the text of debug.Stack(), the
    capacity of []byte(s). *)
Record env := {
  e_uf : N -> N -> bool; e_ord : nat -> entries -> entries; e_sok : nat -> bool;
  e_stack : bytes; e_slack : nat -> nat }.

(** misc/errors.go:25-35, without context (PanicBizErr in misc/types.go passes none; for
    an error with context [msg] stands for the message followed by the parameters). *)
Definition error_text (e : env) (code : Z) (msg : bytes) : bytes :=
  itoa code ++ B ": " ++ msg ++ [byte_of 13; byte_of 10] ++ B "stacks:" ++ [byte_of 13; byte_of 10] ++ e_stack e.

(** dht/krpc/server.go:12 *)
Definition supportQueryType : list val := [VStr (B "ping"); VStr (B "find_node"); VStr (B "get_peers"); VStr (B "announce_peer")].

(** misc.SyncMap as a finite map (see SyncMap.v). *)
Definition mput {X} (m : bytes -> option X) (k : bytes) (x : X) : bytes -> option X :=
  fun k' => if beq k' k then Some x else m k'.

(** A datagram handed to UdpServer.SendPacket. *)
Record datagram := { g_bytes : bytes; g_to : udpaddr }.

Section Server.
  Variables A H : Type.

  (** State the handlers can see and change: application state, requestMapping, and the
      datagrams sent so far.  [w_queries] is ghost: the requests passed to Query so far. *)
  Record world := { w_app : A; w_reqs : bytes -> option (request H); w_sent : list datagram; w_queries : list (request H) }.
  (** dht/krpc/server.go:16-22; a new server has an empty router and empty chains (:24-33). *)
  Record server := { s_router : bytes -> option H; s_reqchain : list H; s_respchain : list H }.
  Definition NewRpcServer : server := {| s_router := fun _ => None; s_reqchain := []; s_respchain := [] |}.

  Variable e : env.
  Variable code : H -> request H -> udpaddr -> prog world response.

  (** dht/krpc/udp.go:48-56 as seen by the server: the call is recorded, the result is the network's. *)
  Definition send (w : world) (raw : bytes) (to : udpaddr) : world * bool :=
    ({| w_app := w_app w; w_reqs := w_reqs w; w_sent := w_sent w ++ [{| g_bytes := raw; g_to := to |}]; w_queries := w_queries w |},
     e_sok e (length (w_sent w))).

  (** misc.EncodeDict(d) at this moment: the maps are visited in an order chosen by the runtime. *)
  Definition encode_now (w : world) (d : entries) : res bytes := EncodeDict (Some (e_ord e (length (w_sent w)) d)).

  (** dht/krpc/server.go:57-63 *)
  Definition UseReqHandlerMiddleware (s : server) (l : list H) : server :=
    {| s_router := s_router s; s_reqchain := s_reqchain s ++ l; s_respchain := s_respchain s |}.
  Definition UseRespHandlerMiddleware (s : server) (l : list H) : server :=
    {| s_router := s_router s; s_reqchain := s_reqchain s; s_respchain := s_respchain s ++ l |}.

  (** dht/krpc/server.go:82-92 *)
  Definition RegisteHandler (s : server) (qType : bytes) (h : option H) : res server :=
    do ok <- ContainsString (e_uf e) supportQueryType qType;
    if negb ok then Panic (PStr (B "cannot support the query type")) else
    match h with
    | None => Panic (PStr (B "register fail, handler is nil"))
    | Some f => Ok {| s_router := mput (s_router s) qType f; s_reqchain := s_reqchain s; s_respchain := s_respchain s |}
    end.

  (** dht/krpc/server.go:95-109 *)
  Definition Query (w : world) (raddr : udpaddr) (req : request H) : world * res unit :=
    let w1 := {| w_app := w_app w; w_reqs := mput (w_reqs w) (rq_tx req) req; w_sent := w_sent w; w_queries := w_queries w ++ [req] |} in
    match encode_now w1 (req_RawData req) with
    | Ok raw => let (w2, ok) := send w1 raw raddr in (w2, if ok then Ok tt else Err EIO)
    | Err er => (w1, Err er)
    | Panic p => (w1, Panic p)
    end.

  (** ctx.Next() on a fresh context (middleware.go:13-28): world, response left in the
      context, and how it ended. *)
  Definition run_chain (chain : list (prog world response)) (r0 : option response) (w : world) : world * res (option response) :=
    match Next (S (length chain)) chain (NewReqContext r0 w) with
    | Some (c, None) => (c_world c, Ok (c_resp c))
    | Some (c, Some p) => (c_world c, Panic p)
    | None => (w, Panic PFuel)
    end.

  (** dht/krpc/server.go:65-72 *)
  Definition doRequestHandle (s : server) (w : world) (req : request H) (h : H) (addr : udpaddr) : world * res (option response) :=
    run_chain (map (fun h => code h req addr) (s_reqchain s ++ [h])) None w.

  (** dht/krpc/server.go:74-80; a nil handler (:77) panics when the chain calls it. *)
  Definition doResponseHandle (s : server) (w : world) (req : request H) (resp : response) (addr : udpaddr) : world * res unit :=
    let last_h := match rq_handler req with Some h => code h req addr | None => PPanic PRuntime end in
    let (w', r) := run_chain (map (fun h => code h req addr) (s_respchain s) ++ [last_h]) (Some resp) w in
    (w', do _ <- r; Ok tt).

  (** dht/krpc/server.go:191-207: the part of requestHandle under the deferred recover. *)
  Definition requestHandle_body (s : server) (w : world) (addr : udpaddr) (dict : entries) (txId queryType : bytes) : world * res (option response) :=
    match ContainsString (e_uf e) supportQueryType queryType with
    | Panic p => (w, Panic p) | Err x => (w, Err x)
    | Ok false => (w, Ok (Some (WithParamErr txId (B "donnot support <" ++ queryType ++ B "> query type"))))
    | Ok true =>
        match GetDict dict (B "a") with
        | Panic p => (w, Panic p) | Err x => (w, Err x)
        | Ok body =>
            match GetString (dict_of body) (B "id") with
            | Panic p => (w, Panic p) | Err x => (w, Err x)
            | Ok sourceId =>
                if negb (length sourceId =? 20) then (w, Ok (Some (WithParamErr txId (B "id format err")))) else
                let req := {| rq_tx := txId; rq_type := queryType; rq_body := body; rq_handler := None |} in
                match s_router s queryType with
                | None => (w, Ok (Some (WithParamErr txId (B "cannot handle not match handler"))))
                | Some h => doRequestHandle s w req h addr
                end
            end
        end
    end.

  (** dht/krpc/server.go:175-208: a *misc.Error panic becomes an error response (:180-189),
      any other panic is raised again. *)
  Definition requestHandle (s : server) (w : world) (addr : udpaddr) (dict : entries) : world * res (option response) :=
    match (do t <- GetString dict (B "t"); do q <- GetString dict (B "q"); Ok (t, q)) with
    | Panic p => (w, Panic p) | Err x => (w, Err x)
    | Ok (txId, queryType) =>
        match requestHandle_body s w addr dict txId queryType with
        | (w', Panic (PBiz c m)) => (w', Ok (Some (WithParamErr txId (error_text e c m))))
        | o => o
        end
    end.

  (** dht/krpc/server.go:155-172 *)
  Definition responseHandle (s : server) (w : world) (addr : udpaddr) (dict : entries) : world * res unit :=
    match (do t <- GetString dict (B "t"); do b <- GetDict dict (B "r"); do _ <- GetString (dict_of b) (B "id"); Ok (t, b)) with
    | Panic p => (w, Panic p) | Err x => (w, Err x)
    | Ok (txId, body) =>
        match w_reqs w txId with
        | None => (w, Ok tt)
        | Some req => doResponseHandle s w req (WithResponse txId body) addr
        end
    end.

  (** dht/krpc/server.go:147-152 *)
  Definition responseErrHandle (dict : entries) : res unit :=
    do _ <- GetString dict (B "t"); do _ <- GetList dict (B "e"); Ok tt.

  (** dht/krpc/server.go:120-143: world after, datagrams sent by this function itself, and
      how it ended.  On an encode error (:134-136) the empty string is sent all the same. *)
  Definition recv_body (s : server) (w : world) (addr : udpaddr) (pkt : bytes) : world * list datagram * res unit :=
    match DecodeDictNoLimit pkt with
    | Panic p => (w, [], Panic p)
    | Err _ => (w, [], Ok tt)
    | Ok (dict, _) =>
        if negb (Exist dict (B "y")) then (w, [], Ok tt) else
        match GetString dict (B "y") with
        | Panic p => (w, [], Panic p) | Err x => (w, [], Err x)
        | Ok y =>
            if beq y (B "q") then
              match requestHandle s w addr dict with
              | (w', Ok None) => (w', [], Panic PRuntime)               (* nil Response: ret.RawData() *)
              | (w', Ok (Some ret)) =>
                  match resp_RawData ret with
                  | Panic p => (w', [], Panic p) | Err x => (w', [], Err x)
                  | Ok raw =>
                      match encode_now w' raw with
                      | Panic p => (w', [], Panic p)
                      | Err _ => let (w2, _) := send w' [] addr in (w2, [{| g_bytes := []; g_to := addr |}], Ok tt)
                      | Ok bs => let (w2, _) := send w' bs addr in (w2, [{| g_bytes := bs; g_to := addr |}], Ok tt)
                      end
                  end
              | (w', Err x) => (w', [], Err x) | (w', Panic p) => (w', [], Panic p)
              end
            else if beq y (B "r") then let (w', r) := responseHandle s w addr dict in (w', [], r)
            else if beq y (B "e") then (w, [], responseErrHandle dict)
            else (w, [], Ok tt)
        end
    end.

  (** A packet taken from the receive queue: source, bytes, and the identity of the pooled
      buffer holding the bytes (dht/krpc/udp.go:17-20). *)
  Record packet := { p_addr : udpaddr; p_bytes : bytes; p_buf : nat }.

  (** dht/krpc/server.go:111-144 with its deferred function (:113-118): any panic is
      recovered and the buffer is put back.  [o_puts] are the buffers returned to the pool,
      [o_sent] the datagrams sent by this function itself, [o_result] how the call ends. *)
  Record outcome := { o_world : world; o_sent : list datagram; o_puts : list nat; o_result : res unit; o_recovered : option gopanic }.
  Definition recvPacketHandle (s : server) (w : world) (pk : packet) : outcome :=
    match recv_body s w (p_addr pk) (p_bytes pk) with
    | (w', sent, Panic p) => {| o_world := w'; o_sent := sent; o_puts := [p_buf pk]; o_result := Ok tt; o_recovered := Some p |}
    | (w', sent, r) => {| o_world := w'; o_sent := sent; o_puts := [p_buf pk]; o_result := r; o_recovered := None |}
    end.
End Server.
Arguments w_app {A H}. Arguments w_reqs {A H}. Arguments w_sent {A H}. Arguments w_queries {A H}.
Arguments s_router {H}. Arguments s_reqchain {H}. Arguments s_respchain {H}. Arguments NewRpcServer {H}.
Arguments send {A H}. Arguments encode_now {A H}. Arguments RegisteHandler {H}. Arguments Query {A H}.
Arguments UseReqHandlerMiddleware {H}. Arguments UseRespHandlerMiddleware {H}.
Arguments run_chain {A H}. Arguments doRequestHandle {A H}. Arguments doResponseHandle {A H}.
Arguments requestHandle {A H}. Arguments requestHandle_body {A H}. Arguments responseHandle {A H}.
Arguments recv_body {A H}. Arguments recvPacketHandle {A H}.
Arguments o_world {A H}. Arguments o_sent {A H}. Arguments o_puts {A H}. Arguments o_result {A H}. Arguments o_recovered {A H}.
