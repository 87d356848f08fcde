(** P_NetCrawl.v -- property theorems (generated by tools/gen_p.py from NetCrawlPf.v).
    Each statement is repeated in full and closed by [exact]. *)
From Verif Require Import Base GoLib Bencode BencodeSpec BencodeProofs BencodePf Types Node RouteTable RouteTableProofs Middleware Krpc KrpcSpec KrpcProofs KrpcPf Dht DhtSpec DhtPf Conc ConcSpec ConcProofs ConcPf SizeProofs AmplifySpec AmplifyPf
  BytesPool PeerWire Fetch FetchTorrent FetchTorrentSpec Udp System SystemSpec SystemProofs SystemPf ZapLog InfoLog InfoLogSpec InfoLogPf TracePf NetCrawl NetCrawlSpec NetCrawlProofs.
Local Open Scope list_scope.
From Verif Require Import NetCrawlPf.

(** C132: in a network that consists of crawlers only nobody learns anything, whoever bootstraps from whom and whatever the network does to the datagrams: at every moment
    the routing table of each crawler holds the crawler itself and nothing else, no announcement was ever queued, no download ever begun, and no file has changed. *)
Theorem C132_crawlers_learn_nothing : forall n p s, net_reach n -> net_ok n -> In (p, s) n ->
  (forall x, In x (stored (a_rt (w_app (k_world (y_core s))))) <-> x = {| nid := n_me p; naddr := n_local p |}) /\
  k_taken (y_core s) = [] /\ a_queue (w_app (k_world (y_core s))) = [] /\ y_fetch s = None /\ y_fpool s = [] /\ y_loads s = [] /\ y_runs s = [] /\
  forall q, y_disk s q = n_disk p q.
Proof. exact C132_crawlers_learn_nothing_pf. Qed.
Print Assumptions C132_crawlers_learn_nothing.

(** C132: and the info-hash log of each of them stays empty. *)
Theorem C132_nothing_is_logged : forall n p s os l, net_reach n -> net_ok n -> In (p, s) n ->
  orders_ok os -> lreach (n_e p) os (n_me p) (n_local p) (n_hosts p) (z_ann (n_z p)) l -> l_conc l = y_core s -> l_recs l = [] /\ l_file l = [].
Proof. exact C132_nothing_is_logged_pf. Qed.
Print Assumptions C132_nothing_is_logged.

(** C132: everything a crawler sends in such a network is one bootstrap query to each host it was configured with, and after that answers without nodes to find_node
    queries it has read, at most one for each packet read. *)
Theorem C132_what_is_sent : forall n p s, net_reach n -> net_ok n -> In (p, s) n ->
  exists boots answers, sent_by s = boots ++ answers /\ boot_sent (n_me p) 1000 (n_hosts p) boots /\ length boots = length (n_hosts p) /\ length answers <= length (y_read s) /\
    forall g, In g answers -> exists pk tx a, In pk (y_read s) /\ proper_query (p_bytes pk) tx "find_node" a /\ g_to g = p_addr pk /\ carries (g_bytes g) (empty_answer tx (n_me p)).
Proof. exact C132_what_is_sent_pf. Qed.
Print Assumptions C132_what_is_sent.

(** C132: a network that loses datagrams but does not duplicate them falls silent: however long it runs, the crawlers together send at most two datagrams for each host they
    were configured with. *)
Theorem C132_network_falls_silent : forall n, net_reach n -> net_ok n -> no_duplicates n -> length (all_sent n) <= 2 * configured n /\ length (all_read n) <= 2 * configured n.
Proof. exact C132_network_falls_silent_pf. Qed.
Print Assumptions C132_network_falls_silent.

(** C132: so the claim "crawlers that bootstrap from one another find one another" is false: no crawler ever stores the node id of another one. *)
Theorem C132_crawlers_find_each_other_refuted : ~ exists n p s q t x, net_reach n /\ net_ok n /\ In (p, s) n /\ In (q, t) n /\ n_me p <> n_me q /\
  In x (stored (a_rt (w_app (k_world (y_core s))))) /\ nid x = n_me q.
Proof. exact C132_crawlers_find_each_other_refuted_pf. Qed.
Print Assumptions C132_crawlers_find_each_other_refuted.

(** C132: the hypotheses are met: two crawlers, the first bootstraps from the second; its query arrives and is answered, the answer arrives and is handled; no datagram
    was lost or duplicated, and the bound on the number of datagrams is reached. *)
Theorem C132_example : exists p a q b, net_reach [(p, a); (q, b)] /\ net_ok [(p, a); (q, b)] /\ n_me p <> n_me q /\ no_duplicates [(p, a); (q, b)] /\ length (all_sent [(p, a); (q, b)]) = 2 /\ configured [(p, a); (q, b)] = 1 /\ length (y_read a) = 1 /\ length (y_read b) = 1 /\ k_jobs (y_core a) = [] /\ k_jobs (y_core b) = [] /\ (exists i pk, In (i, EvStart pk) (k_log (y_core a)) /\ In (i, EvEnd) (k_log (y_core a))) /\ exists i g, In (i, EvReply g) (k_log (y_core b)).
Proof. exact C132_example_pf. Qed.
Print Assumptions C132_example.
