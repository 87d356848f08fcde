(** P_Crawl.v -- property theorems (generated by tools/gen_p.py from CrawlPf.v).
    Each statement is repeated in full and closed by [exact]. *)
From Verif Require Import Base GoLib Bencode BencodeSpec BencodeProofs BencodePf Types TypesPf Node NodePf RouteTable RouteTableProofs RouteTablePf Middleware Krpc KrpcSpec KrpcPf Dht DhtSpec DhtPf Conc ConcSpec ConcProofs ConcPf CrawlSpec CrawlProofs.
Local Open Scope list_scope.
From Verif Require Import CrawlPf.

(** C109: however many packets arrive and however they are interleaved, the handlers of one process
    send find_node queries to at most 8 * 161 different addresses. *)
Theorem C109_reach_bounded : forall e uf me port hosts cap s, runtime_ok e uf -> length me = 20 -> conc_reach e me (mkaddr [] port) hosts cap s ->
  (exists addrs, length addrs <= 8 * 161 /\ incl (contacted (k_log s)) addrs) /\
  (forall l, NoDup l -> incl l (contacted (k_log s)) -> length l <= 8 * 161).
Proof. exact C109_reach_bounded_pf. Qed.
Print Assumptions C109_reach_bounded.

(** C109: once eight nodes that share exactly i < 160 bits with the local id are stored, no other node
    at that distance is ever accepted, whatever arrives later. *)
Theorem C109_distance_exhausted : forall e uf me local hosts cap s s' i, runtime_ok e uf -> length me = 20 -> conc_reach e me local hosts cap s ->
  i < 160 -> held me s i = 8 -> conc_steps e me cap s s' ->
  held me s' i = 8 /\ forall n, shared_bits me n = i -> (In n (accepted (k_log s')) <-> In n (accepted (k_log s))).
Proof. exact C109_distance_exhausted_pf. Qed.
Print Assumptions C109_distance_exhausted.

(** C109: once the table holds 8 * 161 nodes it never changes again, no node is accepted any more, and
    the handlers send no more queries than they still owe to nodes accepted before. *)
Theorem C109_frozen : forall e uf me local hosts cap s s', runtime_ok e uf -> conc_reach e me local hosts cap s ->
  length (stored (table s)) = 8 * 161 -> conc_steps e me cap s s' ->
  table s' = table s /\ accepted (k_log s') = accepted (k_log s) /\
  length (contacted (k_log s')) <= length (accepted (k_log s)) /\
  (length (contacted (k_log s)) = length (accepted (k_log s)) -> contacted (k_log s') = contacted (k_log s)).
Proof. exact C109_frozen_pf. Qed.
Print Assumptions C109_frozen.

(** C109: nothing remembers which node was asked.  A response to any earlier query that lists nodes
    which are in the table already, in buckets with room, is followed by one new query to each of them;
    handled one after the other, any number of such responses cause that many queries, and the table
    holds what it held before. *)
Theorem C109_asked_again : forall e uf me local hosts cap s, runtime_ok e uf -> conc_reach e me local hosts cap s ->
  let self := {| nid := me; naddr := local |} in
  forall answers, Forall (fun r => exists tx, lists_nodes (fst r) tx (snd r) /\ w_reqs (k_world s) tx <> None /\
    forall n, In n (snd r) -> In n (stored (table s)) /\ length (bucket_nodes (table s) (home_of self (table s) (nid n))) < 8) answers ->
  exists s', conc_steps e me cap s s' /\ k_next s' = k_next s + length answers /\
    contacted (k_log s') = contacted (k_log s) ++ map naddr (concat (map snd answers)) /\ stored (table s') = stored (table s).
Proof. exact C109_asked_again_pf. Qed.
Print Assumptions C109_asked_again.

(** C109: the bound of C109_reach_bounded is met exactly. *)
Theorem C109_bound_reached : exists s, runtime_ok (fun _ => ex_env) (fun _ _ => false) /\ length ex_me = 20 /\
  conc_reach (fun _ => ex_env) ex_me (mkaddr [] 6881) [ex_addr 1] 1 s /\ NoDup (contacted (k_log s)) /\ length (contacted (k_log s)) = 8 * 161.
Proof. exact C109_bound_reached_pf. Qed.
Print Assumptions C109_bound_reached.

(** C109 refuted for "the crawler goes on crawling": thirty-five datagrams of at most 1024 bytes from one
    address, all with the transaction id of the first query, fill the table; from then on, whatever
    arrives, no table entry changes and no query is sent to anyone. *)
Theorem C109_keeps_crawling_refuted : exists s, conc_reach (fun _ => ex_env) ex_me (mkaddr [] 6881) [ex_addr 1] 1 s /\ k_next s = 35 /\
  (forall i pk, In (i, EvStart pk) (k_log s) -> p_addr pk = ex_addr 1 /\ length (p_bytes pk) <= 1024) /\
  length (stored (table s)) = 8 * 161 /\
  forall s', conc_steps (fun _ => ex_env) ex_me 1 s s' -> table s' = table s /\ contacted (k_log s') = contacted (k_log s).
Proof. exact C109_keeps_crawling_refuted_pf. Qed.
Print Assumptions C109_keeps_crawling_refuted.

(** The hypotheses of C109_distance_exhausted are met: twenty-four nodes of the list above, eight of which
    share no bit with the local id. *)
Theorem C109_distance_example : exists s, conc_reach (fun _ => ex_env) ex_me (mkaddr [] 6881) [ex_addr 1] 1 s /\ held ex_me s 0 = 8 /\ held ex_me s 1 = 8 /\ held ex_me s 159 = 0 /\ length (accepted (k_log s)) = 24.
Proof. exact C109_distance_example_pf. Qed.
Print Assumptions C109_distance_example.

(** C109 refuted for "the crawl of a finite network comes to rest": in a network of six other nodes, where
    the i-th query is answered once, by a list of the six, every answer is followed by six more queries;
    after N + 1 answers 6 * (N + 1) queries were sent, for every N, and the table still holds seven nodes. *)
Theorem C109_comes_to_rest_refuted : forall N, exists s, conc_reach (fun _ => ex_env) ex_me (mkaddr [] 6881) [ex_addr 1] 1 s /\ k_next s = S N /\ k_jobs s = [] /\
  (forall i pk, In (i, EvStart pk) (k_log s) -> exists tx, nth_error (B "03e9" :: drawn_in (map snd (k_log s))) i = Some tx /\ lists_nodes pk tx six) /\
  length (stored (table s)) = 7 /\ length (contacted (k_log s)) = 6 * S N.
Proof. exact C109_comes_to_rest_refuted_pf. Qed.
Print Assumptions C109_comes_to_rest_refuted.
