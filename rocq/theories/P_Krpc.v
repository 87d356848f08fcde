(** P_Krpc.v -- property theorems (generated by tools/gen_p.py from KrpcPf.v).
    Each statement is repeated in full and closed by [exact]. *)
From Verif Require Import Base GoLib Bencode BencodeSpec Types Node Middleware Krpc KrpcSpec.
From Verif Require Import BencodeProofs BencodePf TypesPf MiddlewarePf KrpcProofs.
Local Open Scope list_scope.
From Verif Require Import KrpcPf.

(** C38: a query with a transaction id and a type is answered with exactly one datagram,
    sent to its source and carrying its transaction id, provided that - if the server
    dispatches the query to a handler - the handlers leave a sendable response with that
    transaction id or panic with a *misc.Error.  It is the last datagram sent. *)
Theorem C38_one_reply : forall (A H : Type) e code (s : server H) (w : world A H) pk d tx q, env_ok e ->
  packet_dict (p_bytes pk) d -> field d "y" (VStr (B "q")) -> field d "t" (VStr tx) -> field d "q" (VStr q) ->
  (forall h a, s_router s q = Some h -> field d "a" (VDict a) ->
     responds tx (run_chain (map (fun h => code h {| rq_tx := tx; rq_type := q; rq_body := Some a; rq_handler := None |} (p_addr pk)) (s_reqchain s ++ [h])) None w)) ->
  let o := recvPacketHandle e code s w pk in
  exists g, o_sent o = [g] /\ g_to g = p_addr pk /\
    (exists before, w_sent (o_world o) = before ++ [g]) /\
    (exists m, carries (g_bytes g) m /\ field m "t" (VStr tx)) /\
    (fits (g_bytes g) -> exists r, DecodeDictNoLimit (g_bytes g) = Ok (r, length (g_bytes g)) /\ field r "t" (VStr tx)).
Proof. exact C38_one_reply_pf. Qed.
Print Assumptions C38_one_reply.

(** C38: whatever the packet and the handlers, the server itself sends at most one
    datagram, only in answer to a query with string t and q, and only to its source. *)
Theorem C38_at_most_one : forall (A H : Type) e code (s : server H) (w : world A H) pk,
  let o := recvPacketHandle e code s w pk in
  o_sent o = [] \/
  (exists b d tx q, o_sent o = [{| g_bytes := b; g_to := p_addr pk |}] /\ packet_dict (p_bytes pk) d /\
     field d "y" (VStr (B "q")) /\ field d "t" (VStr tx) /\ field d "q" (VStr q)).
Proof. exact C38_at_most_one_pf. Qed.
Print Assumptions C38_at_most_one.

(** C38, the proviso is needed: a handler chain that writes no response, or panics with
    anything but a *misc.Error, leaves the query unanswered. *)
Theorem C38_silent_handler : forall (A H : Type) e code (s : server H) (w : world A H) pk d tx q h a,
  packet_dict (p_bytes pk) d -> field d "y" (VStr (B "q")) -> field d "t" (VStr tx) -> field d "q" (VStr q) ->
  ~ bad_query (e_uf e) (s_router s) d q -> s_router s q = Some h -> field d "a" (VDict a) ->
  (match snd (run_chain (map (fun h => code h {| rq_tx := tx; rq_type := q; rq_body := Some a; rq_handler := None |} (p_addr pk)) (s_reqchain s ++ [h])) None w) with
   | Ok None => True | Panic (PBiz _ _) => False | Panic _ => True | _ => False end) ->
  o_sent (recvPacketHandle e code s w pk) = [].
Proof. exact C38_silent_handler_pf. Qed.
Print Assumptions C38_silent_handler.

(** C39: a query of an unsupported type, without an argument dictionary, without a 20-byte
    id, or of an unregistered type gets exactly one reply, an error of code 203 with a
    non-empty message; no handler runs: the outcome is the same whatever the handlers'
    code, and nothing but the log of sent datagrams changes. *)
Theorem C39_bad_query_gets_203 : forall (A H : Type) e code (s : server H) (w : world A H) pk d tx q, env_ok e ->
  packet_dict (p_bytes pk) d -> field d "y" (VStr (B "q")) -> field d "t" (VStr tx) -> field d "q" (VStr q) ->
  bad_query (e_uf e) (s_router s) d q ->
  let o := recvPacketHandle e code s w pk in
  (exists b msg, o_sent o = [{| g_bytes := b; g_to := p_addr pk |}] /\ msg <> [] /\ carries b (error_reply tx 203 msg)) /\
  w_app (o_world o) = w_app w /\ w_reqs (o_world o) = w_reqs w /\ w_queries (o_world o) = w_queries w /\
  w_sent (o_world o) = w_sent w ++ o_sent o /\
  forall code', recvPacketHandle e code' s w pk = o.
Proof. exact C39_bad_query_gets_203_pf. Qed.
Print Assumptions C39_bad_query_gets_203.

(** C40: a packet that does not decode, has no y, or whose y is neither "q" nor "r", is
    dropped: nothing is sent and no state changes. *)
Theorem C40_garbage_dropped : forall (A H : Type) e code (s : server H) (w : world A H) pk,
  (forall d, packet_dict (p_bytes pk) d -> ~ field d "y" (VStr (B "q")) /\ ~ field d "y" (VStr (B "r"))) ->
  let o := recvPacketHandle e code s w pk in o_sent o = [] /\ o_world o = w.
Proof. exact C40_garbage_dropped_pf. Qed.
Print Assumptions C40_garbage_dropped.

(** C40: of the error packets (y = "e") exactly those with a string t and a list e are accepted;
    the others end in a recovered panic.  No error packet sends anything or changes any state. *)
Theorem C40_error_packets : forall (A H : Type) e code (s : server H) (w : world A H) pk d,
  packet_dict (p_bytes pk) d -> field d "y" (VStr (B "e")) ->
  let o := recvPacketHandle e code s w pk in
  o_sent o = [] /\ o_world o = w /\
  (o_recovered o = None <-> (exists tx, field d "t" (VStr tx)) /\ ((exists l, field d "e" (VList l)) \/ field d "e" VNilList)).
Proof. exact C40_error_packets_pf. Qed.
Print Assumptions C40_error_packets.

(** C41: for every packet and every behaviour of the handlers the call returns normally and
    puts the packet's buffer back exactly once. *)
Theorem C41_bad_packet_contained : forall (A H : Type) e code (s : server H) (w : world A H) pk,
  let o := recvPacketHandle e code s w pk in
  o_result o = Ok tt /\ o_puts o = [p_buf pk].
Proof. exact C41_bad_packet_contained_pf. Qed.
Print Assumptions C41_bad_packet_contained.

(** C42: a response packet with transaction id [tx]: if no request with that id was sent
    nothing happens; otherwise the response middlewares and then the request's handler are
    run - each once, in order, unless one panics - on that request, the sender's address and
    the response body, and the server itself sends nothing. *)
Theorem C42_response_routed : forall (A H : Type) e code (s : server H) (w : world A H) pk d tx body id,
  packet_dict (p_bytes pk) d -> field d "y" (VStr (B "r")) -> field d "t" (VStr tx) ->
  field d "r" (VDict body) -> field body "id" (VStr id) ->
  let o := recvPacketHandle e code s w pk in
  o_sent o = [] /\
  (w_reqs w tx = None -> o_world o = w) /\
  (forall req h, w_reqs w tx = Some req -> rq_handler req = Some h ->
     let chain := map (fun h' => code h' req (p_addr pk)) (s_respchain s ++ [h]) in
     exists c end_, Next (S (length chain)) chain (NewReqContext (Some {| rs_tx := tx; rs_body := Some body; rs_err := false |}) w) = Some (c, end_) /\
       o_world o = c_world c /\
       match end_ with
       | None => c_started c = seq 0 (length chain)
       | Some _ => exists m, 1 <= m <= length chain /\ c_started c = seq 0 m
       end).
Proof. exact C42_response_routed_pf. Qed.
Print Assumptions C42_response_routed.

(** C42: a response to a request that has no handler still runs the response middlewares, in
    order, each once unless one panics; then the call is ended by a recovered panic (and not
    silently ignored).  Nothing is sent by the server itself. *)
Theorem C42_request_without_handler : forall (A H : Type) e code (s : server H) (w : world A H) pk d tx body id req,
  packet_dict (p_bytes pk) d -> field d "y" (VStr (B "r")) -> field d "t" (VStr tx) ->
  field d "r" (VDict body) -> field body "id" (VStr id) -> w_reqs w tx = Some req -> rq_handler req = None ->
  let o := recvPacketHandle e code s w pk in
  o_sent o = [] /\ o_recovered o <> None /\
  exists c p, Next (S (S (length (s_respchain s)))) (map (fun h' => code h' req (p_addr pk)) (s_respchain s) ++ [PPanic PRuntime])
      (NewReqContext (Some {| rs_tx := tx; rs_body := Some body; rs_err := false |}) w) = Some (c, Some p) /\ o_world o = c_world c.
Proof. exact C42_request_without_handler_pf. Qed.
Print Assumptions C42_request_without_handler.

(** C42: at any time the request found for a transaction id is the one most recently passed
    to Query with that id (handlers change the table only through Query). *)
Theorem C42_latest_request : forall (A H : Type) e code (s : server H) (a : A) (w : world A H),
  (forall h r x, queries_only (code h r x)) -> krpc_reach e code s a w ->
  forall tx, w_reqs w tx = latest (w_queries w) tx.
Proof. exact C42_latest_request_pf. Qed.
Print Assumptions C42_latest_request.

(** C42: Query makes its request the pending one for its id, leaves the others alone, and
    sends exactly the encoding of the request - or nothing, with an error, if it cannot be
    encoded. *)
Theorem C42_query_registers : forall (A H : Type) e (w : world A H) to req,
  let w' := fst (Query e w to req) in
  w_reqs w' (rq_tx req) = Some req /\ (forall tx, tx <> rq_tx req -> w_reqs w' tx = w_reqs w tx) /\
  w_app w' = w_app w /\
  ((exists b, w_sent w' = w_sent w ++ [{| g_bytes := b; g_to := to |}] /\
      (env_ok e -> (forall a, rq_body req = Some a -> go_value (VDict a)) ->
       carries b [(B "t", VStr (rq_tx req)); (B "y", VStr (B "q")); (B "q", VStr (rq_type req)); (B "a", dict_val (rq_body req))])) \/
   (w_sent w' = w_sent w /\ snd (Query e w to req) <> Ok tt)).
Proof. exact C42_query_registers_pf. Qed.
Print Assumptions C42_query_registers.

(** C43: pending requests are never forgotten: no packet and no query can remove one. *)
Theorem C43_pending_forever : forall (A H : Type) e code (s : server H) (w : world A H) tx,
  (forall h r x, queries_only (code h r x)) -> w_reqs w tx <> None ->
  (forall pk, w_reqs (o_world (recvPacketHandle e code s w pk)) tx <> None) /\
  (forall to req, w_reqs (fst (Query e w to req)) tx <> None).
Proof. exact C43_pending_forever_pf. Qed.
Print Assumptions C43_pending_forever.

(** C43 refuted: one ping was sent to 10.0.0.1; the response is accepted from 10.0.0.2,
    then again from 10.0.0.3, and the handler runs each time. *)
Theorem C43_answered_once_refuted :
  let w0 := fst (Query ex_env ex_world (ex_addr 1) ex_req) in
  let w1 := o_world (recvPacketHandle ex_env ex_code NewRpcServer w0 (ex_pk 2 "d1:rd2:id1:zee")) in
  let w2 := o_world (recvPacketHandle ex_env ex_code NewRpcServer w0 (ex_pk 2 "d1:t2:aa1:y1:r1:rd2:id1:zee")) in
  let w3 := o_world (recvPacketHandle ex_env ex_code NewRpcServer w2 (ex_pk 3 "d1:t2:aa1:y1:r1:rd2:id1:zee")) in
  map g_to (w_sent w0) = [ex_addr 1] /\ w_app w1 = [] /\ w_app w2 = [ex_addr 2] /\ w_app w3 = [ex_addr 2; ex_addr 3].
Proof. exact C43_answered_once_refuted_pf. Qed.
Print Assumptions C43_answered_once_refuted.

(** C44: registration succeeds exactly for the four query types (in any capitalisation)
    with a non-nil handler; it makes the handler the one for exactly that spelling. *)
Theorem C44_register : forall (H : Type) e (s : server H) q h,
  (forall s', RegisteHandler e s q h = Ok s' ->
     supported (e_uf e) q /\ (exists f, h = Some f /\ s_router s' q = Some f) /\
     (forall q', q' <> q -> s_router s' q' = s_router s q') /\ s_reqchain s' = s_reqchain s /\ s_respchain s' = s_respchain s) /\
  (supported (e_uf e) q -> h <> None -> exists s', RegisteHandler e s q h = Ok s') /\
  (~ supported (e_uf e) q -> RegisteHandler e s q h = Panic (PStr (B "cannot support the query type"))) /\
  (supported (e_uf e) q -> h = None -> RegisteHandler e s q h = Panic (PStr (B "register fail, handler is nil"))).
Proof. exact C44_register_pf. Qed.
Print Assumptions C44_register.

(** C44: "PING" can be registered, but a "ping" query then still gets the 203 error. *)
Theorem C44_capitalisation_refuted : forall uf, let e := {| e_uf := uf; e_ord := fun _ d => d; e_sok := fun _ => true; e_stack := []; e_slack := fun n => n |} in
  exists s', RegisteHandler e (@NewRpcServer nat) (B "PING") (Some 1) = Ok s' /\
  map g_bytes (o_sent (recvPacketHandle e ex_code s' ex_world (ex_pk 2 "d1:t2:bb1:y1:q1:q4:ping1:ad2:id20:aaaaaaaaaaaaaaaaaaaaee"))) =
    [B "d1:t2:bb1:y1:e1:eli203e31:cannot handle not match handleree"] /\
  map g_bytes (o_sent (recvPacketHandle e ex_code s' ex_world (ex_pk 2 "d1:t2:bb1:y1:q1:q4:PING1:ad2:id20:aaaaaaaaaaaaaaaaaaaaee"))) =
    [B "d1:t2:bb1:y1:r1:rd2:id20:abcdefghijklmnopqrstee"].
Proof. exact C44_capitalisation_refuted_pf. Qed.
Print Assumptions C44_capitalisation_refuted.

Theorem C38_example :
  let q t := ("d1:t2:bb1:y1:q1:q" ++ t ++ "1:ad2:id20:aaaaaaaaaaaaaaaaaaaaee")%string in
  let run s := let o := recvPacketHandle ex_env ex_code ex_server ex_world (ex_pk 2 s) in (map g_bytes (o_sent o), o_recovered o) in
  run (q "4:ping")%string = ([B "d1:t2:bb1:y1:r1:rd2:id20:abcdefghijklmnopqrstee"], None) /\
  snd (run (q "9:find_node")%string) = None /\ length (fst (run (q "9:find_node")%string)) = 1 /\
  run (q "9:get_peers")%string = ([], Some PRuntime) /\
  run (q "4:pong")%string = ([B "d1:t2:bb1:y1:e1:eli203e32:donnot support <pong> query typeee"], None).
Proof. exact C38_example_pf. Qed.
Print Assumptions C38_example.

Theorem C40_example :
  let run s := let o := recvPacketHandle ex_env ex_code ex_server ex_world (ex_pk 2 s) in (o_sent o, o_puts o, o_result o, o_recovered o) in
  run "garbage"%string = ([], [7], Ok tt, None) /\ run "d1:yi5ee"%string = ([], [7], Ok tt, Some (PBiz 201 (B "y's val cannot match type of string"))) /\
  run "d1:y9223372036854775807:e"%string = ([], [7], Ok tt, Some PRuntime).
Proof. exact C40_example_pf. Qed.
Print Assumptions C40_example.

Theorem C42_example : exists w, krpc_reach ex_env ex_code ex_server [] w /\ latest (w_queries w) (B "aa") = Some ex_req /\ (forall h r x, queries_only (ex_code h r x)).
Proof. exact C42_example_pf. Qed.
Print Assumptions C42_example.

(** C39: four bad queries that meet the hypotheses, one of each kind - unsupported type, no
    arguments, an id of 19 bytes, an unregistered type - and what is sent for them. *)
Theorem C39_example :
  let meets s q := exists d, packet_dict (B s) d /\ field d "y" (VStr (B "q")) /\ field d "t" (VStr (B "bb")) /\ field d "q" (VStr q) /\
    bad_query (e_uf ex_env) (s_router ex_server) d q in
  let run s := let o := recvPacketHandle ex_env ex_code ex_server ex_world (ex_pk 2 s) in map g_bytes (o_sent o) in
  meets "d1:t2:bb1:y1:q1:q4:pong1:ad2:id20:aaaaaaaaaaaaaaaaaaaaee"%string (B "pong") /\
  run "d1:t2:bb1:y1:q1:q4:pong1:ad2:id20:aaaaaaaaaaaaaaaaaaaaee"%string = [B "d1:t2:bb1:y1:e1:eli203e32:donnot support <pong> query typeee"] /\
  meets "d1:t2:bb1:y1:q1:q4:pinge"%string (B "ping") /\ length (run "d1:t2:bb1:y1:q1:q4:pinge"%string) = 1 /\
  meets "d1:t2:bb1:y1:q1:q4:ping1:ad2:id19:aaaaaaaaaaaaaaaaaaaee"%string (B "ping") /\
  length (run "d1:t2:bb1:y1:q1:q4:ping1:ad2:id19:aaaaaaaaaaaaaaaaaaaee"%string) = 1 /\
  meets "d1:t2:bb1:y1:q1:q13:announce_peer1:ad2:id20:aaaaaaaaaaaaaaaaaaaaee"%string (B "announce_peer") /\
  run "d1:t2:bb1:y1:q1:q13:announce_peer1:ad2:id20:aaaaaaaaaaaaaaaaaaaaee"%string = [B "d1:t2:bb1:y1:e1:eli203e31:cannot handle not match handleree"].
Proof. exact C39_example_pf. Qed.
Print Assumptions C39_example.

(** C41: packets that make the decoder, the dispatcher or a handler panic: the call still returns
    and the buffer is put back once. *)
Theorem C41_example :
  let run s := let o := recvPacketHandle ex_env ex_code ex_server ex_world (ex_pk 2 s) in (o_recovered o, o_result o, o_puts o) in
  run "d1:t2:bb1:y1:q1:q9:get_peers1:ad2:id20:aaaaaaaaaaaaaaaaaaaaee"%string = (Some PRuntime, Ok tt, [7]) /\
  run "d1:y9223372036854775807:e"%string = (Some PRuntime, Ok tt, [7]) /\ run ""%string = (None, Ok tt, [7]) /\
  run "d1:t2:bb1:y1:q1:q4:ping1:ad2:id20:aaaaaaaaaaaaaaaaaaaaee"%string = (None, Ok tt, [7]).
Proof. exact C41_example_pf. Qed.
Print Assumptions C41_example.

(** C43: a request is pending after a query has been sent. *)
Theorem C43_example :
  (forall h r x, queries_only (ex_code h r x)) /\ w_reqs ex_world (B "aa") = None /\
  let w := fst (Query ex_env ex_world (ex_addr 1) ex_req) in
  w_reqs w (B "aa") = Some ex_req /\
  w_reqs (o_world (recvPacketHandle ex_env ex_code ex_server w (ex_pk 1 "d1:t2:aa1:y1:r1:rd2:id1:zee"))) (B "aa") = Some ex_req.
Proof. exact C43_example_pf. Qed.
Print Assumptions C43_example.

(** C44: both outcomes occur: "find_node" and "FIND_node" can be registered, "vote" and a nil
    handler cannot. *)
Theorem C44_example :
  let reg q h := RegisteHandler ex_env (@NewRpcServer nat) (B q) h in
  supported (e_uf ex_env) (B "find_node") /\ (exists s, reg "find_node"%string (Some 2) = Ok s) /\ (exists s, reg "FIND_node"%string (Some 2) = Ok s) /\
  ~ supported (e_uf ex_env) (B "vote") /\ (exists m, reg "vote"%string (Some 2) = Panic (PStr m)) /\ (exists m, reg "ping"%string None = Panic (PStr m)).
Proof. exact C44_example_pf. Qed.
Print Assumptions C44_example.
