(** P_Conc.v -- property theorems (generated by tools/gen_p.py from ConcPf.v).
    Each statement is repeated in full and closed by [exact]. *)
From Verif Require Import Base GoLib Bencode BencodeSpec BencodeProofs BencodePf Types TypesPf Node NodePf RouteTable RouteTableProofs RouteTablePf Middleware MiddlewarePf Krpc KrpcSpec KrpcProofs KrpcPf Dht DhtSpec DhtProofs DhtPf Conc ConcSpec ConcProofs.
Local Open Scope list_scope.
From Verif Require Import ConcPf.

(** C86: however the goroutines are interleaved, handling a packet sends at most one reply; it goes to
    the source of the packet and carries what the packet is owed: the answer of BEP-5 to a proper
    query, an error 203 with the same transaction id to any other packet that asks something.
    Packets that are no queries get no reply.  A handled query has been answered when its handler is
    done. *)
Theorem C86_replies_any_schedule : forall e uf me local hosts cap s i pk, runtime_ok e uf -> conc_reach e me local hosts cap s ->
  In (i, EvStart pk) (k_log s) ->
  let sent := replies_in (evs i (k_log s)) in
  (forall g, In g sent -> g_to g = p_addr pk /\ exists d, owed me pk d /\ carries (g_bytes g) d) /\
  length sent <= 1 /\
  ((forall tx q, ~ asks pk tx q) -> sent = []) /\
  (In (i, EvEnd) (k_log s) -> (exists tx q, asks pk tx q) -> length sent = 1).
Proof. exact C86_replies_any_schedule_pf. Qed.
Print Assumptions C86_replies_any_schedule.

(** C86: a handler is started once per packet, and ends at most once. *)
Theorem C86_one_packet_per_handler : forall e uf me local hosts cap s i, runtime_ok e uf -> conc_reach e me local hosts cap s ->
  (evs i (k_log s) = [] \/ exists pk l, evs i (k_log s) = EvStart pk :: l /\ (forall p, ~ In (EvStart p) l) /\ (forall l1 l2, l = l1 ++ EvEnd :: l2 -> l2 = [] /\ ~ In EvEnd l1)).
Proof. exact C86_one_packet_per_handler_pf. Qed.
Print Assumptions C86_one_packet_per_handler.

(** C87: in every schedule the announcements put into the queue are, in that order, those taken by the
    fetcher followed by those still waiting; the queue never holds more than its capacity. *)
Theorem C87_queue_fifo : forall e uf me local hosts cap s, runtime_ok e uf -> conc_reach e me local hosts cap s ->
  enqueued_in (map snd (k_log s)) = k_taken s ++ a_queue (w_app (k_world s)) /\ length (a_queue (w_app (k_world s))) <= cap.
Proof. exact C87_queue_fifo_pf. Qed.
Print Assumptions C87_queue_fifo.

(** C87: a handler puts at most the announcement of its own packet into the queue; before an announcement
    is confirmed to its sender, and when its handler is done, it has been put there. *)
Theorem C87_announcements : forall e uf me local hosts cap s i pk, runtime_ok e uf -> conc_reach e me local hosts cap s ->
  In (i, EvStart pk) (k_log s) ->
  let l := evs i (k_log s) in
  (enqueued_in l = [] \/ exists x, announcement pk x /\ enqueued_in l = [x]) /\
  (forall x, announcement pk x -> replies_in l <> [] \/ In (i, EvEnd) (k_log s) -> enqueued_in l = [x]).
Proof. exact C87_announcements_pf. Qed.
Print Assumptions C87_announcements.

(** C88: the transaction ids of the queries are given out one by one, whatever the schedule: the k-th id
    drawn (in the order of the history) is the k-th id after those of the bootstrap queries, so two ids
    can only be equal if at least 65535 others were drawn in between. *)
Theorem C88_ids_any_schedule : forall e uf me local hosts cap s, runtime_ok e uf -> conc_reach e me local hosts cap s ->
  let ids := drawn_in (map snd (k_log s)) in
  ids = map (fun k => txid_string ((1000 + N.of_nat (length hosts) + N.of_nat k) mod 65536)) (seq 1 (length ids)) /\
  forall i j x, i < j -> nth_error ids i = Some x -> nth_error ids j = Some x -> (N.of_nat i + 65536 <= N.of_nat j)%N.
Proof. exact C88_ids_any_schedule_pf. Qed.
Print Assumptions C88_ids_any_schedule.

(** C88: a query is in the request table before its datagram is sent and stays there, so that in no
    schedule its response is taken for an unknown one; the entry found is the query itself.  The table
    never holds more than 65536 requests. *)
Theorem C88_registered_before_sent : forall e uf me local hosts cap s, runtime_ok e uf -> conc_reach e me local hosts cap s ->
  (forall i g, In (i, EvQuery g) (k_log s) -> exists tx, In tx (drawn_in (evs i (k_log s))) /\
     carries (g_bytes g) (query_msg tx "find_node" [(B "id", VStr me); (B "target", VStr me)]) /\
     w_reqs (k_world s) tx = Some (WithFindNodeMsg tx me me (Some HGenericResp))) /\
  (forall tx req, w_reqs (k_world s) tx = Some req -> req = WithFindNodeMsg tx me me (Some HGenericResp)) /\
  exists keys, length keys <= 256 * 256 /\ forall tx, w_reqs (k_world s) tx <> None -> In tx keys.
Proof. exact C88_registered_before_sent_pf. Qed.
Print Assumptions C88_registered_before_sent.

(** C89: a handler adds nodes to the routing table and queries nodes only for a find_node response, and
    then works through the nodes of that response from the first to the last: it sends one find_node
    query, to the node's address and with a transaction id drawn for it, to each node the table accepted
    (at most the last one accepted is still to be queried).  When the handler is done it has tried all
    nodes of the response or none, and every accepted node has been queried. *)
Theorem C89_node_lists_any_schedule : forall e uf me local hosts cap s i pk, runtime_ok e uf -> conc_reach e me local hosts cap s ->
  In (i, EvStart pk) (k_log s) ->
  let l := evs i (k_log s) in
  (tried_in l = [] /\ drawn_in l = [] /\ queries_in l = []) \/
  (exists tx ns rest acc more txs late, lists_nodes pk tx ns /\ map fst (tried_in l) ++ rest = ns /\
     accepted_in l = acc ++ more /\ length more <= 1 /\ drawn_in l = txs ++ late /\ length late <= length more /\ asked me acc txs (queries_in l) /\
     (In (i, EvEnd) (k_log s) -> rest = [] /\ more = [] /\ late = [])).
Proof. exact C89_node_lists_any_schedule_pf. Qed.
Print Assumptions C89_node_lists_any_schedule.

(** C89: if the transaction id of a find_node response is that of a query sent before its handler
    starts, the handler tries to add every node of the response, in order. *)
Theorem C89_known_response : forall e uf me local hosts cap s s' i pk tx ns, runtime_ok e uf -> conc_reach e me local hosts cap s ->
  w_reqs (k_world s) tx <> None -> conc_steps e me cap s s' ->
  (forall p, ~ In (i, EvStart p) (k_log s)) -> In (i, EvStart pk) (k_log s') -> In (i, EvEnd) (k_log s') -> lists_nodes pk tx ns ->
  map fst (tried_in (evs i (k_log s'))) = ns.
Proof. exact C89_known_response_pf. Qed.
Print Assumptions C89_known_response.

(** C89: a response whose transaction id belongs to no query sent so far adds and queries nothing. *)
Theorem C89_unknown_response : forall e uf me local hosts cap s i pk tx ns, runtime_ok e uf -> conc_reach e me local hosts cap s ->
  In (i, EvStart pk) (k_log s) -> lists_nodes pk tx ns -> w_reqs (k_world s) tx = None ->
  tried_in (evs i (k_log s)) = [] /\ drawn_in (evs i (k_log s)) = [] /\ queries_in (evs i (k_log s)) = [].
Proof. exact C89_unknown_response_pf. Qed.
Print Assumptions C89_unknown_response.

(** C90: in every schedule the routing table is one built by adding nodes one after the other, so all
    properties of such tables hold; it holds at most 8 nodes in each of 161 buckets, always the local
    node, and otherwise only nodes accepted from find_node responses to queries of the crawler. *)
Theorem C90_table_any_schedule : forall e uf me local hosts cap s, runtime_ok e uf -> conc_reach e me local hosts cap s ->
  let t := a_rt (w_app (k_world s)) in let self := {| nid := me; naddr := local |} in
  rt_reach uf self 8 160 t /\ (Z.of_nat (length (stored t)) <= 8 * 161)%Z /\ In self (stored t) /\
  forall n, In n (stored t) -> n = self \/ exists i pk tx ns, In (i, EvStart pk) (k_log s) /\ In (i, EvAdd n true) (k_log s) /\
    lists_nodes pk tx ns /\ In n ns /\ w_reqs (k_world s) tx <> None.
Proof. exact C90_table_any_schedule_pf. Qed.
Print Assumptions C90_table_any_schedule.

(** C91: a handler never waits for another one: from any point of any schedule, a handler that is not
    yet done can run to its end on its own, except an announcement that finds the queue full. *)
Theorem C91_handlers_finish_alone : forall e uf me local hosts cap s i pk, runtime_ok e uf -> conc_reach e me local hosts cap s ->
  In (i, EvStart pk) (k_log s) -> ~ In (i, EvEnd) (k_log s) ->
  (length (a_queue (w_app (k_world s))) < cap \/ (forall x, ~ announcement pk x) \/ enqueued_in (evs i (k_log s)) <> []) ->
  exists s', conc_steps e me cap s s' /\ In (i, EvEnd) (k_log s') /\ k_next s' = k_next s /\ k_taken s' = k_taken s /\
    (forall j, j <> i -> evs j (k_log s') = evs j (k_log s)).
Proof. exact C91_handlers_finish_alone_pf. Qed.
Print Assumptions C91_handlers_finish_alone.

(** C91: and that one cannot go on until the fetcher takes something out of the queue. *)
Theorem C91_full_queue_blocks : forall e uf me local hosts cap s s' i pk x, runtime_ok e uf -> conc_reach e me local hosts cap s ->
  In (i, EvStart pk) (k_log s) -> announcement pk x -> enqueued_in (evs i (k_log s)) = [] -> length (a_queue (w_app (k_world s))) = cap ->
  conc_steps e me cap s s' -> k_taken s' = k_taken s ->
  enqueued_in (evs i (k_log s')) = [] /\ replies_in (evs i (k_log s')) = [] /\ ~ In (i, EvEnd) (k_log s').
Proof. exact C91_full_queue_blocks_pf. Qed.
Print Assumptions C91_full_queue_blocks.

(** C92: handling one packet without interference has the effect of the sequential handler: starting a
    handler, running it to its end alone and ending it leads to the very state (request table, routing
    table, queue, datagrams sent) computed by handling the packet in one step, so that what holds of the
    sequential crawler holds of every schedule that handles one packet at a time. *)
Theorem C92_one_at_a_time : forall e uf me local hosts cap srv e0 s k pk, runtime_ok e uf -> Run_server e0 = Ok srv ->
  conc_reach e me local hosts cap s -> length (a_queue (w_app (k_world s))) < cap ->
  exists l, conc_steps e me cap s
    {| k_world := o_world (recv (e k) me srv (k_world s) pk); k_jobs := k_jobs s; k_next := S (k_next s); k_taken := k_taken s;
       k_log := k_log s ++ map (pair (k_next s)) (EvStart pk :: l ++ [EvEnd]) |}.
Proof. exact C92_one_at_a_time_pf. Qed.
Print Assumptions C92_one_at_a_time.

(** C93: no amplification beyond the node lists: whatever the schedule, a handled packet makes the crawler
    send one datagram (its reply) or less than one per 26 bytes of the packet (queries to nodes it lists),
    never both, and only to the source of the packet or to nodes the packet lists.  In particular at most
    39 datagrams for a packet of 1024 bytes. *)
Theorem C93_bounded_reaction : forall e uf me local hosts cap s i pk, runtime_ok e uf -> conc_reach e me local hosts cap s ->
  In (i, EvStart pk) (k_log s) -> fits (p_bytes pk) ->
  let sent := sent_in (evs i (k_log s)) in
  (length sent <= 1 \/ 26 * length sent < length (p_bytes pk)) /\ (length (p_bytes pk) <= 1024 -> length sent <= 39) /\
  forall g, In g sent -> g_to g = p_addr pk \/ exists tx ns n, lists_nodes pk tx ns /\ In n ns /\ g_to g = naddr n.
Proof. exact C93_bounded_reaction_pf. Qed.
Print Assumptions C93_bounded_reaction.

(** C93: the datagrams sent are those of the bootstrap, one find_node query per host with consecutive
    transaction ids, followed by what the handlers sent, in the order of the history; nothing else. *)
Theorem C93_all_datagrams : forall e uf me local hosts cap s, runtime_ok e uf -> conc_reach e me local hosts cap s ->
  exists gs, boot_sent me 1000 hosts gs /\ w_sent (k_world s) = gs ++ sent_in (map snd (k_log s)).
Proof. exact C93_all_datagrams_pf. Qed.
Print Assumptions C93_all_datagrams.

(** The hypotheses of C86 are met: the schedule above is an execution; all three handlers are done, two
    of them replied. *)
Theorem C86_example : exists s, runtime_ok (fun _ => ex_env) (fun _ _ => false) /\ conc_reach (fun _ => ex_env) ex_me (mkaddr [] 6881) [ex_addr 1] 1 s /\
  (In (0, EvStart ex_ann) (k_log s) /\ In (1, EvStart ex_list) (k_log s) /\ In (2, EvStart ex_vote) (k_log s)) /\
  (In (0, EvEnd) (k_log s) /\ In (1, EvEnd) (k_log s) /\ In (2, EvEnd) (k_log s)) /\
  asks ex_ann (B "aa") (B "announce_peer") /\ asks ex_vote (B "vv") (B "vote") /\
  map g_bytes (replies_in (evs 0 (k_log s))) = [B "d1:t2:aa1:y1:r1:rd2:id20:mmmmmmmmmmmmmmmmmmmmee"] /\
  replies_in (evs 1 (k_log s)) = [] /\
  map g_bytes (replies_in (evs 2 (k_log s))) = [B "d1:t2:vv1:y1:e1:eli203e32:donnot support <vote> query typeee"].
Proof. exact C86_example_pf. Qed.
Print Assumptions C86_example.

(** The hypotheses of C87 and C91 are met: in the same schedule the announcement is queued and taken; in
    another one, with room for one announcement, a second one waits. *)
Theorem C87_example : exists s x, conc_reach (fun _ => ex_env) ex_me (mkaddr [] 6881) [ex_addr 1] 1 s /\ announcement ex_ann x /\
  In (0, EvStart ex_ann) (k_log s) /\ enqueued_in (evs 0 (k_log s)) = [x] /\ k_taken s = [x].
Proof. exact C87_example_pf. Qed.
Print Assumptions C87_example.

Theorem C91_example : exists s x, conc_reach (fun _ => ex_env) ex_me (mkaddr [] 6881) [ex_addr 1] 1 s /\ announcement ex_ann x /\
  In (1, EvStart ex_ann) (k_log s) /\ ~ In (1, EvEnd) (k_log s) /\ enqueued_in (evs 1 (k_log s)) = [] /\ length (a_queue (w_app (k_world s))) = 1.
Proof. exact C91_example_pf. Qed.
Print Assumptions C91_example.

(** The hypotheses of C88, C89, C90 and C93 are met: handler 1 of the schedule adds two nodes, draws two ids
    (the bootstrap took 03e9) and sends two queries; a response with an unknown id does nothing. *)
Theorem C89_example : exists s ns, conc_reach (fun _ => ex_env) ex_me (mkaddr [] 6881) [ex_addr 1] 1 s /\ In (1, EvStart ex_list) (k_log s) /\
  w_reqs (k_world ex_conc0) (B "03e9") <> None /\ conc_steps (fun _ => ex_env) ex_me 1 ex_conc0 s /\ lists_nodes ex_list (B "03e9") ns /\
  In (1, EvEnd) (k_log s) /\ length ns = 2 /\ tried_in (evs 1 (k_log s)) = map (fun n => (n, true)) ns /\
  drawn_in (map snd (k_log s)) = [B "03ea"; B "03eb"] /\ length (queries_in (evs 1 (k_log s))) = 2 /\ length (stored (a_rt (w_app (k_world s)))) = 3.
Proof. exact C89_example_pf. Qed.
Print Assumptions C89_example.

Theorem C89_unknown_example : exists s pk ns, conc_reach (fun _ => ex_env) ex_me (mkaddr [] 6881) [ex_addr 1] 1 s /\ In (0, EvStart pk) (k_log s) /\
  lists_nodes pk (B "zz") ns /\ length ns = 1 /\ w_reqs (k_world s) (B "zz") = None /\ In (0, EvEnd) (k_log s).
Proof. exact C89_unknown_example_pf. Qed.
Print Assumptions C89_unknown_example.

Theorem C92_example : exists s srv, Run_server ex_env = Ok srv /\ conc_reach (fun _ => ex_env) ex_me (mkaddr [] 6881) [ex_addr 1] 1 s /\
  length (a_queue (w_app (k_world s))) < 1 /\ length (k_log s) = 15.
Proof. exact C92_example_pf. Qed.
Print Assumptions C92_example.

Theorem C93_example : exists s, conc_reach (fun _ => ex_env) ex_me (mkaddr [] 6881) [ex_addr 1] 1 s /\ In (1, EvStart ex_list) (k_log s) /\
  fits (p_bytes ex_list) /\ map g_to (sent_in (evs 1 (k_log s))) = [mkaddr (B "1234") 13622; mkaddr (B "1234") 13622] /\
  map g_to (w_sent (k_world s)) = [ex_addr 1; ex_addr 2; mkaddr (B "1234") 13622; ex_addr 3; mkaddr (B "1234") 13622].
Proof. exact C93_example_pf. Qed.
Print Assumptions C93_example.

(** C88, C90: in the schedule of C86 two ids are drawn after the one of the bootstrap query, three
    requests are in the table, and the routing table has grown from one node to three. *)
Theorem C88_example : exists s, runtime_ok (fun _ => ex_env) (fun _ _ => false) /\ conc_reach (fun _ => ex_env) ex_me (mkaddr [] 6881) [ex_addr 1] 1 s /\
  drawn_in (map snd (k_log s)) = [B "03ea"; B "03eb"] /\ length (queries_in (evs 1 (k_log s))) = 2 /\
  forallb (fun t => match w_reqs (k_world s) (B t) with Some _ => true | None => false end) ["03e9"; "03ea"; "03eb"]%string = true /\ w_reqs (k_world s) (B "03ec") = None.
Proof. exact C88_example_pf. Qed.
Print Assumptions C88_example.

Theorem C90_example : exists s, runtime_ok (fun _ => ex_env) (fun _ _ => false) /\ conc_reach (fun _ => ex_env) ex_me (mkaddr [] 6881) [ex_addr 1] 1 s /\
  length (stored (a_rt (w_app (k_world ex_conc0)))) = 1 /\ length (stored (a_rt (w_app (k_world s)))) = 3.
Proof. exact C90_example_pf. Qed.
Print Assumptions C90_example.
