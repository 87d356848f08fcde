(** CrawlSpec.v -- vocabulary for how far the crawl reaches. *)
From Verif Require Import Base Node NodePf RouteTable RouteTableProofs Krpc Dht Conc ConcSpec.
Local Open Scope list_scope.

(** The addresses to which handlers sent find_node queries, in order. *)
Definition contacted (log : list (nat * ev)) : list udpaddr := map g_to (queries_in (map snd log)).
(** The nodes of responses that the routing table accepted, in order. *)
Definition accepted (log : list (nat * ev)) : list ninfo := accepted_in (map snd log).
(** The number of leading bits the id of a node shares with the id [me]. *)
Definition shared_bits (me : bytes) (n : ninfo) : nat := lcp (bits_of (nid n)) (bits_of me).
(** The routing table. *)
Definition table (s : conc) : rtable := a_rt (w_app (k_world s)).
(** The number of nodes it holds that share exactly [i] bits with [me] (all 160 for [i] = 160). *)
Definition held (me : bytes) (s : conc) (i : nat) : nat := length (filter (fun n => Nat.eqb (shared_bits me n) i) (stored (table s))).
