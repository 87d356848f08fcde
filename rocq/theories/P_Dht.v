(** P_Dht.v -- property theorems (generated by tools/gen_p.py from DhtPf.v).
    Each statement is repeated in full and closed by [exact]. *)
From Verif Require Import Base GoLib Bencode BencodeSpec Types Node RouteTable Middleware Krpc KrpcSpec Dht DhtSpec.
From Verif Require Import BencodeProofs BencodePf TypesPf NodePf RouteTableProofs RouteTablePf MiddlewarePf KrpcProofs KrpcPf DhtProofs.
Local Open Scope list_scope.
From Verif Require Import DhtPf.

(** C45: for every argument and every map iteration order, the datagram sent for each of
    the four queries decodes to exactly the BEP-5 message. *)
Theorem C45_wire_format : forall e (w : cworld) to tx me h, env_ok e ->
  (exists b, w_sent (fst (Query e w to (WithPingMsg tx me h))) = w_sent w ++ [{| g_bytes := b; g_to := to |}] /\
     carries b (query_msg tx "ping" [(B "id", VStr me)])) /\
  (forall target, exists b, w_sent (fst (Query e w to (WithFindNodeMsg tx me target h))) = w_sent w ++ [{| g_bytes := b; g_to := to |}] /\
     carries b (query_msg tx "find_node" [(B "id", VStr me); (B "target", VStr target)])) /\
  (forall ih, exists b, w_sent (fst (Query e w to (WithGetPeersMsg tx me ih h))) = w_sent w ++ [{| g_bytes := b; g_to := to |}] /\
     carries b (query_msg tx "get_peers" [(B "id", VStr me); (B "info_hash", VStr ih)])) /\
  (forall ih token port, is_int port -> exists b, w_sent (fst (Query e w to (WithAnnouncePeerMsg tx me ih token port h))) = w_sent w ++ [{| g_bytes := b; g_to := to |}] /\
     carries b (query_msg tx "announce_peer" [(B "id", VStr me); (B "implied_port", VInt 0); (B "info_hash", VStr ih); (B "port", VInt port); (B "token", VStr token)])).
Proof. exact C45_wire_format_pf. Qed.
Print Assumptions C45_wire_format.

(** C47: the crawler's replies. *)
Theorem C47_replies : forall e me s (w : cworld) pk tx a, env_ok e -> Run_server e = Ok s ->
  let o := recv e me s w pk in
  (proper_query (p_bytes pk) tx "ping" a -> replies o pk (ok_reply tx [(B "id", VStr me)])) /\
  (proper_query (p_bytes pk) tx "find_node" a -> replies o pk (ok_reply tx [(B "id", VStr me); (B "nodes", VStr [])])) /\
  (proper_query (p_bytes pk) tx "get_peers" a ->
     (forall ih, field a "info_hash" (VStr ih) -> replies o pk (ok_reply tx [(B "id", VStr me); (B "token", VStr tx); (B "nodes", VStr [])])) /\
     ((forall ih, ~ field a "info_hash" (VStr ih)) -> exists msg, msg <> [] /\ replies o pk (error_reply tx 203 msg))) /\
  (proper_query (p_bytes pk) tx "announce_peer" a ->
     (forall ih port, field a "info_hash" (VStr ih) -> field a "port" (VInt port) -> replies o pk (ok_reply tx [(B "id", VStr me)])) /\
     ((forall ih port, ~ (field a "info_hash" (VStr ih) /\ field a "port" (VInt port))) -> exists msg, msg <> [] /\ replies o pk (error_reply tx 203 msg))).
Proof. exact C47_replies_pf. Qed.
Print Assumptions C47_replies.

(** C46: A sends ping or find_node to B; B, in any state, answers with exactly one
    datagram addressed to A; when that reaches A - in any later state in which the request
    is still the one pending under its id - the handler of the query runs exactly once, on
    a response whose id is B's. *)
Theorem C46_two_crawlers : forall eA eB meA meB sA sB (wA wB wA' : cworld) addrA addrB tx target h req bufA bufB,
  env_ok eA -> env_ok eB -> Run_server eA = Ok sA -> Run_server eB = Ok sB ->
  length meA = 20 -> length meB = 20 -> length tx <= 100 -> length target <= 100 ->
  req = WithPingMsg tx meA (Some h) \/ req = WithFindNodeMsg tx meA target (Some h) ->
  exists b, w_sent (fst (Query eA wA addrB req)) = w_sent wA ++ [{| g_bytes := b; g_to := addrB |}] /\
  exists b', o_sent (recv eB meB sB wB (delivered b addrA bufB)) = [{| g_bytes := b'; g_to := addrA |}] /\
  (w_reqs wA' tx = Some req ->
   let o := recv eA meA sA wA' (delivered b' addrB bufA) in
   exists body c end_, field body "id" (VStr meB) /\
     Middleware.Next 2 [crawler_code eA meA h req addrB] (NewReqContext (Some {| rs_tx := tx; rs_body := Some body; rs_err := false |}) wA') = Some (c, end_) /\
     c_started c = [0] /\ o_world o = c_world c /\ o_sent o = []).
Proof. exact C46_two_crawlers_pf. Qed.
Print Assumptions C46_two_crawlers.

(** C48: over every history of the crawler - packets handled in any order and with any
    content, bootstraps, announcements taken by the fetcher - the announcements handed to
    the fetcher followed by those still queued are exactly the valid announcements among
    the handled packets, in order; the queue never exceeds its capacity. *)
Theorem C48_queue_exact : forall e me local e0 s cap pks c, Run_server e0 = Ok s -> crawl_reach e me local s cap pks c ->
  announcements pks (cr_taken c ++ a_queue (w_app (cr_world c))) /\ length (a_queue (w_app (cr_world c))) <= cap.
Proof. exact C48_queue_exact_pf. Qed.
Print Assumptions C48_queue_exact.

(** C48: one packet adds at most its own announcement, at the end of the queue; a full
    queue blocks exactly the valid announcements. *)
Theorem C48_queue_step : forall e me local e0 s cap pks c i pk, Run_server e0 = Ok s -> crawl_reach e me local s cap pks c ->
  let q := a_queue (w_app (cr_world c)) in let w' := o_world (recv (e i) me s (cr_world c) pk) in
  (forall x, announcement pk x -> a_queue (w_app w') = q ++ [x] /\
     (length q = cap -> forall c', ~ (crawl_step e me s cap c [pk] c' /\ cr_world c' = w'))) /\
  ((forall x, ~ announcement pk x) -> a_queue (w_app w') = q /\
     crawl_step e me s cap c [pk] {| cr_world := w'; cr_taken := cr_taken c |}).
Proof. exact C48_queue_step_pf. Qed.
Print Assumptions C48_queue_step.

(** C50: handling the response to a find_node query: every listed node is offered to the
    routing table in order, and exactly those for which AddNode returned nil are sent a
    find_node query, in order, with consecutive transaction ids; at most one datagram per 26 bytes;
    nothing else changes.  Without a string "nodes" nothing happens at all. *)
Theorem C50_find_node_response : forall e me e0 s (w : cworld) pk d tx body id req host k capacity,
  env_ok e -> Run_server e0 = Ok s -> rt_reach (e_uf e) host k capacity (a_rt (w_app w)) ->
  packet_dict (p_bytes pk) d -> field d "y" (VStr (B "r")) -> field d "t" (VStr tx) -> field d "r" (VDict body) -> field body "id" (VStr id) ->
  w_reqs w tx = Some req -> rq_type req = B "find_node" -> rq_handler req = Some HGenericResp ->
  let o := recv e me s w pk in let w' := o_world o in
  (forall nodes, field body "nodes" (VStr nodes) ->
   exists ns acc gs qs, parseNodeInfo nodes = Ok ns /\ length gs <= length nodes / 26 /\
    adds (e_uf e) (a_rt (w_app w)) ns (a_rt (w_app w')) acc /\ rt_reach (e_uf e) host k capacity (a_rt (w_app w')) /\
    w_sent w' = w_sent w ++ gs /\ find_queries me (a_tx (w_app w)) acc gs /\
    a_tx (w_app w') = match acc with [] => a_tx (w_app w) | _ => ((a_tx (w_app w) + N.of_nat (length acc)) mod 65536)%N end /\
    a_queue (w_app w') = a_queue (w_app w) /\
    w_queries w' = w_queries w ++ qs /\ length qs = length acc /\ Forall (fun q => rq_type q = B "find_node" /\ rq_handler q = Some HGenericResp) qs) /\
  ((forall nodes, ~ field body "nodes" (VStr nodes)) -> w' = w).
Proof. exact C50_find_node_response_pf. Qed.
Print Assumptions C50_find_node_response.

Theorem C50_table_reachable : forall e me local s cap pks c uf, (forall i, e_uf (e i) = uf) -> crawl_reach e me local s cap pks c ->
  rt_reach uf {| nid := me; naddr := local |} 8 160 (a_rt (w_app (cr_world c))).
Proof. exact C50_table_reachable_pf. Qed.
Print Assumptions C50_table_reachable.

(** The hypotheses of C48 are met: one announcement queued, one ping in between, the
    announcement taken. *)
Theorem C48_example : exists c pks, crawl_reach (fun _ => ex_env) ex_me (mkaddr [] 6881) ex_srv 2 pks c /\ length pks = 3 /\
  length (cr_taken c) = 1 /\ length (a_queue (w_app (cr_world c))) = 1.
Proof. exact C48_example_pf. Qed.
Print Assumptions C48_example.

(** C49 refuted: an announcement without any token (the first), and one with an invented
    token (the second) are acknowledged with a normal reply and queued. *)
Theorem C49_token_refuted :
  let run p := let o := recv ex_env ex_me ex_srv ex_crawler (ex_pk 2 p) in (map g_bytes (o_sent o), length (a_queue (w_app (o_world o)))) in
  run "d1:ad2:id20:aaaaaaaaaaaaaaaaaaaa9:info_hash2:ih4:porti7ee1:q13:announce_peer1:t2:aa1:y1:qe"%string = ([B "d1:t2:aa1:y1:r1:rd2:id20:mmmmmmmmmmmmmmmmmmmmee"], 1) /\
  run "d1:ad2:id20:aaaaaaaaaaaaaaaaaaaa9:info_hash2:ih4:porti7e5:token5:fakede1:q13:announce_peer1:t2:aa1:y1:qe"%string = ([B "d1:t2:aa1:y1:r1:rd2:id20:mmmmmmmmmmmmmmmmmmmmee"], 1).
Proof. exact C49_token_refuted_pf. Qed.
Print Assumptions C49_token_refuted.

(** C51 refuted: a bootstrapped crawler gets a response listing one node twice, then again
    a response listing it; it sends that node three find_node queries. *)
Theorem C51_queried_once_refuted :
  let w0 := fst (BootStrap ex_env ex_me ex_crawler (ex_addr 1)) in
  let n := "aaaaaaaaaaaaaaaaaaaa123456"%string in
  let w1 := o_world (recv ex_env ex_me ex_srv w0 (ex_pk 1 ("d1:t4:03e91:y1:r1:rd2:id1:z5:nodes52:" ++ n ++ n ++ "ee"))) in
  let w2 := o_world (recv ex_env ex_me ex_srv w1 (ex_pk 1 ("d1:t4:03e91:y1:r1:rd2:id1:z5:nodes26:" ++ n ++ "ee"))) in
  map g_to (w_sent w2) = [ex_addr 1; mkaddr (B "1234") 13622; mkaddr (B "1234") 13622; mkaddr (B "1234") 13622].
Proof. exact C51_queried_once_refuted_pf. Qed.
Print Assumptions C51_queried_once_refuted.

(** The hypotheses of C50 are met: a response listing two distinct nodes. *)
Theorem C50_example :
  let w0 := fst (BootStrap ex_env ex_me ex_crawler (ex_addr 1)) in
  let w1 := o_world (recv ex_env ex_me ex_srv w0 (ex_pk 1 "d1:t4:03e91:y1:r1:rd2:id1:z5:nodes52:aaaaaaaaaaaaaaaaaaaa123456aaaaaaaaaaaaaaaaaaab123456ee")) in
  (exists req, w_reqs w0 (B "03e9") = Some req /\ rq_type req = B "find_node" /\ rq_handler req = Some HGenericResp) /\
  length (w_sent w1) = 3 /\ a_tx (w_app w1) = 1003%N /\
  map g_bytes (w_sent w1) = [B "d1:t4:03e91:y1:q1:q9:find_node1:ad2:id20:mmmmmmmmmmmmmmmmmmmm6:target20:mmmmmmmmmmmmmmmmmmmmee";
    B "d1:t4:03ea1:y1:q1:q9:find_node1:ad2:id20:mmmmmmmmmmmmmmmmmmmm6:target20:mmmmmmmmmmmmmmmmmmmmee";
    B "d1:t4:03eb1:y1:q1:q9:find_node1:ad2:id20:mmmmmmmmmmmmmmmmmmmm6:target20:mmmmmmmmmmmmmmmmmmmmee"].
Proof. exact C50_example_pf. Qed.
Print Assumptions C50_example.

(** C45: the four queries of a new crawler, byte for byte (map order as inserted). *)
Theorem C45_example :
  let sent r := map g_bytes (w_sent (fst (Query ex_env ex_crawler (ex_addr 1) r))) in
  env_ok ex_env /\
  sent (WithPingMsg (B "aa") ex_me None) = [B "d1:t2:aa1:y1:q1:q4:ping1:ad2:id20:mmmmmmmmmmmmmmmmmmmmee"] /\
  sent (WithFindNodeMsg (B "aa") ex_me (B "nnnnnnnnnnnnnnnnnnnn") None) = [B "d1:t2:aa1:y1:q1:q9:find_node1:ad2:id20:mmmmmmmmmmmmmmmmmmmm6:target20:nnnnnnnnnnnnnnnnnnnnee"] /\
  sent (WithGetPeersMsg (B "aa") ex_me (B "hhhhhhhhhhhhhhhhhhhh") None) = [B "d1:t2:aa1:y1:q1:q9:get_peers1:ad2:id20:mmmmmmmmmmmmmmmmmmmm9:info_hash20:hhhhhhhhhhhhhhhhhhhhee"] /\
  length (sent (WithAnnouncePeerMsg (B "aa") ex_me (B "hhhhhhhhhhhhhhhhhhhh") (B "tok") 6881 None)) = 1.
Proof. exact C45_example_pf. Qed.
Print Assumptions C45_example.

(** C46: two new crawlers, a ping, the answer, and the handler's run. *)
Theorem C46_example :
  let req := WithPingMsg (B "aa") ex_me (Some HGenericResp) in
  let you := B "yyyyyyyyyyyyyyyyyyyy" in
  let wA := fst (Query ex_env ex_crawler (ex_addr 2) req) in
  Run_server ex_env = Ok ex_srv /\ env_ok ex_env /\ length ex_me = 20 /\ length you = 20 /\ w_reqs wA (B "aa") = Some req /\
  exists b b', w_sent wA = [{| g_bytes := b; g_to := ex_addr 2 |}] /\
    o_sent (recv ex_env you ex_srv ex_crawler (delivered b (ex_addr 1) 5)) = [{| g_bytes := b'; g_to := ex_addr 1 |}] /\
    b' = B "d1:t2:aa1:y1:r1:rd2:id20:yyyyyyyyyyyyyyyyyyyyee" /\
    o_recovered (recv ex_env ex_me ex_srv wA (delivered b' (ex_addr 2) 6)) = None.
Proof. exact C46_example_pf. Qed.
Print Assumptions C46_example.

(** C47: one proper query of each type and its reply; get_peers and announce_peer also without
    the field they need. *)
Theorem C47_example :
  let pkt q a := ("d1:ad2:id20:aaaaaaaaaaaaaaaaaaaa" ++ a ++ "e1:q" ++ q ++ "1:t2:aa1:y1:qe")%string in
  let proper q s := exists a, proper_query (B s) (B "aa") q a in
  let run s := map g_bytes (o_sent (recv ex_env ex_me ex_srv ex_crawler (ex_pk 2 s))) in
  proper "ping"%string (pkt "4:ping" "")%string /\ run (pkt "4:ping" "")%string = [B "d1:t2:aa1:y1:r1:rd2:id20:mmmmmmmmmmmmmmmmmmmmee"] /\
  proper "find_node"%string (pkt "9:find_node" "")%string /\ run (pkt "9:find_node" "")%string = [B "d1:t2:aa1:y1:r1:rd2:id20:mmmmmmmmmmmmmmmmmmmm5:nodes0:ee"] /\
  proper "get_peers"%string (pkt "9:get_peers" "9:info_hash2:ih")%string /\
  run (pkt "9:get_peers" "9:info_hash2:ih")%string = [B "d1:t2:aa1:y1:r1:rd2:id20:mmmmmmmmmmmmmmmmmmmm5:token2:aa5:nodes0:ee"] /\
  proper "get_peers"%string (pkt "9:get_peers" "")%string /\ length (run (pkt "9:get_peers" "")%string) = 1 /\
  proper "announce_peer"%string (pkt "13:announce_peer" "9:info_hash2:ih4:porti7e")%string /\
  run (pkt "13:announce_peer" "9:info_hash2:ih4:porti7e")%string = [B "d1:t2:aa1:y1:r1:rd2:id20:mmmmmmmmmmmmmmmmmmmmee"] /\
  proper "announce_peer"%string (pkt "13:announce_peer" "9:info_hash2:ih4:port1:7")%string /\ length (run (pkt "13:announce_peer" "9:info_hash2:ih4:port1:7")%string) = 1.
Proof. exact C47_example_pf. Qed.
Print Assumptions C47_example.
