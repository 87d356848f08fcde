(** P_System.v -- property theorems (generated by tools/gen_p.py from SystemPf.v).
    Each statement is repeated in full and closed by [exact]. *)
From Coq Require Import Permutation.
From Verif Require Import Base GoLib Bencode BencodeSpec BencodeProofs BencodePf Types Node RouteTable Middleware Krpc KrpcSpec KrpcProofs KrpcPf Dht DhtSpec DhtPf Conc ConcSpec ConcProofs ConcPf BytesPool Sha1 PeerWire Fetch FetchSpec FetchPf FetchTorrent FetchTorrentSpec FetchTorrentPf Udp System SystemSpec SystemProofs SystemLive.
Local Open Scope list_scope.
From Verif Require Import SystemPf.

(** C96: whatever the whole process does, its handlers, node table, request table and announcement queue
    behave as the concurrent crawler of C86-C93. *)
Theorem C96_refines_crawler : forall e me local hosts z d0 s, sys_reach e me local hosts z d0 s -> conc_reach e me local hosts (z_ann z) (y_core s).
Proof. exact C96_refines_crawler_pf. Qed.
Print Assumptions C96_refines_crawler.

(** C96: no packet is lost, duplicated or reordered between the socket and the start of its handler: the
    packets read from the socket are, in order, those whose handlers were started, those in the work
    pool, the one Listen holds, those in the packet queue and the one the reader holds. *)
Theorem C96_packets_in_order : forall e me local hosts z d0 s, sys_reach e me local hosts z d0 s ->
  y_read s = started (k_log (y_core s)) ++ y_pool s ++ opt (y_listen s) ++ y_q s ++ opt (y_recv s).
Proof. exact C96_packets_in_order_pf. Qed.
Print Assumptions C96_packets_in_order.

(** C96: the reader takes the first 1024 bytes of a datagram and its source: nothing longer is ever read, and a reader
    that waits reads whatever datagram arrives. *)
Theorem C96_reads_1024_bytes : forall e me local hosts z d0 s, sys_reach e me local hosts z d0 s ->
  (forall pk, In pk (y_read s) -> length (p_bytes pk) <= 1024) /\
  (y_dead s = false -> y_recv s = None -> forall d, exists s' pk, sys_step e me z s s' /\ y_read s' = y_read s ++ [pk] /\
     p_addr pk = dg_from d /\ p_bytes pk = firstn 1024 (dg_bytes d)).
Proof. exact C96_reads_1024_bytes_pf. Qed.
Print Assumptions C96_reads_1024_bytes.

(** C96: nor is an announcement: those the fetch loop took from the queue are those handed to a worker,
    followed in order by those in the fetch pool and the one the loop holds; the workers download, or
    have downloaded, exactly those handed to them. *)
Theorem C96_announcements_handed_on : forall e me local hosts z d0 s, sys_reach e me local hosts z d0 s ->
  exists handed, k_taken (y_core s) = handed ++ y_fpool s ++ opt (y_fetch s) /\ Permutation handed (y_loads s ++ map u_x (y_runs s)).
Proof. exact C96_announcements_handed_on_pf. Qed.
Print Assumptions C96_announcements_handed_on.

(** C96: memory: the packets and announcements waiting or being worked on are bounded by the configured sizes. *)
Theorem C96_bounded : forall e uf me local hosts z d0 s, runtime_ok e uf -> sys_reach e me local hosts z d0 s ->
  length (y_q s) <= 100 /\ length (y_pool s) <= z_krpc z /\ length (k_jobs (y_core s)) <= z_krpc z /\
  length (a_queue (w_app (k_world (y_core s)))) <= z_ann z /\ length (y_fpool s) <= z_fetch z /\
  length (y_loads s) + length (filter u_busy (y_runs s)) <= z_fetch z.
Proof. exact C96_bounded_pf. Qed.
Print Assumptions C96_bounded.

(** C96: every download is caused by an announcement packet of its own: the packets read can be arranged
    so that the first of them announce, one by one, what the workers download or have downloaded, what
    waits for a worker, and what waits in the announcement queue. *)
Theorem C96_one_download_per_announcement : forall e uf me local hosts z d0 s, runtime_ok e uf -> sys_reach e me local hosts z d0 s ->
  exists pks rest, Permutation (y_read s) (pks ++ rest) /\
    Forall2 announcement pks (y_loads s ++ map u_x (y_runs s) ++ y_fpool s ++ opt (y_fetch s) ++ a_queue (w_app (k_world (y_core s)))).
Proof. exact C96_one_download_per_announcement_pf. Qed.
Print Assumptions C96_one_download_per_announcement.

(** C97: for every configuration, every sequence of datagrams, every schedule and every behaviour of peers
    and file system: a file that differs from its initial state is torrent/<hex>.torrent of the SHA-1 of
    data a peer delivered, and a packet read from the socket announced that SHA-1 as its info hash. *)
Theorem C97_files_were_announced : forall e uf me local hosts z d0 s q, runtime_ok e uf -> sys_reach e me local hosts z d0 s ->
  y_disk s q <> d0 q ->
  exists d pk tx a, q = file_of (sha1 d) /\ In pk (y_read s) /\ proper_query (p_bytes pk) tx "announce_peer" a /\ field a "info_hash" (VStr (sha1 d)) /\
    exists u, In u (y_runs s) /\ t_data (u_f u) = Some d.
Proof. exact C97_files_were_announced_pf. Qed.
Print Assumptions C97_files_were_announced.

(** C97: whenever no file is being written, the file system did not fail and no two downloads are a SHA-1
    collision, every file that changed holds data whose SHA-1 is its name, and the data of every
    successful download is on disk. *)
Theorem C97_files_are_complete : forall e me local hosts z d0 s, sys_reach e me local hosts z d0 s ->
  (forall u, In u (y_runs s) -> u_left u = [] /\ os_ok (u_os u)) ->
  (forall u1 u2 d1 d2, In u1 (y_runs s) -> In u2 (y_runs s) -> t_data (u_f u1) = Some d1 -> t_data (u_f u2) = Some d2 -> sha1 d1 = sha1 d2 -> d1 = d2) ->
  (forall q, y_disk s q <> d0 q -> exists d, q = file_of (sha1 d) /\ y_disk s q = Some d) /\
  (forall u d, In u (y_runs s) -> t_data (u_f u) = Some d -> y_disk s (file_of (sha1 d)) = Some d).
Proof. exact C97_files_are_complete_pf. Qed.
Print Assumptions C97_files_are_complete.

(** C97: the crawler opens TCP connections only to addresses that announcement packets it read point to. *)
Theorem C97_dials_were_announced : forall e uf me local hosts z d0 s u a, runtime_ok e uf -> sys_reach e me local hosts z d0 s ->
  In u (y_runs s) -> t_dial (u_f u) = Some a -> exists pk, In pk (y_read s) /\ target pk a.
Proof. exact C97_dials_were_announced_pf. Qed.
Print Assumptions C97_dials_were_announced.

(** C98: from every point of every execution the crawler can finish all work it has taken on without
    further input, unless as many downloads hang as there are fetch workers: then every packet read so
    far has been handled, every announcement downloaded or given up, every file written. *)
Theorem C98_can_finish : forall e uf me local hosts z d0 s, runtime_ok e uf -> sys_reach e me local hosts z d0 s -> 0 < z_krpc z -> 0 < z_ann z ->
  y_dead s = false -> length (hung s) < z_fetch z ->
  exists s', sys_steps e me z s s' /\ y_read s' = y_read s /\ y_dead s' = false /\ length (hung s') = length (hung s) /\ idle s'.
Proof. exact C98_can_finish_pf. Qed.
Print Assumptions C98_can_finish.

(** C98: a download that hangs never gives its worker back. *)
Theorem C98_hung_forever : forall e me local hosts z d0 s s' u, sys_reach e me local hosts z d0 s -> sys_steps e me z s s' -> In u (hung s) -> In u (hung s').
Proof. exact C98_hung_forever_pf. Qed.
Print Assumptions C98_hung_forever.

(** C98 is false without the exception: whatever the sizes, the configuration and the history, a fixed
    number of copies of one announcement datagram, naming a peer that stops reading, blocks the whole
    process: nothing can ever happen again, the crawler does not even read packets any more. *)
Theorem C98_never_stalls_refuted : forall e uf me local hosts z d0 s, runtime_ok e uf -> sys_reach e me local hosts z d0 s -> 0 < z_krpc z -> 0 < z_ann z ->
  y_dead s = false -> length (hung s) < z_fetch z ->
  exists s', sys_steps e me z s s' /\ y_dead s' = false /\
    y_read s' = y_read s ++ repeat (cut attack) (2 * z_fetch z - length (hung s) + z_ann z + 2 * z_krpc z + 103) /\
    forall s'', ~ sys_step e me z s' s''.
Proof. exact C98_never_stalls_refuted_pf. Qed.
Print Assumptions C98_never_stalls_refuted.

(** C98: the process dies only through a download that runs out of memory; nothing happens after that. *)
Theorem C98_only_memory_kills : forall e me local hosts z d0 s, sys_reach e me local hosts z d0 s -> y_dead s = true ->
  (exists x fe p h dial o, In x (y_loads s) /\ t_res (fetchHandler fe p h dial o x) = FStop OutOfMemory) /\ forall s', ~ sys_step e me z s s'.
Proof. exact C98_only_memory_kills_pf. Qed.
Print Assumptions C98_only_memory_kills.

(** C98 is false of a machine with finite memory: whatever the sizes, the configuration and the history, a
    single datagram, naming a peer that promises a huge torrent, can end the process. *)
Theorem C98_one_datagram_kills_refuted : forall e uf me local hosts z d0 s, runtime_ok e uf -> sys_reach e me local hosts z d0 s -> 0 < z_krpc z -> 0 < z_ann z ->
  y_dead s = false -> length (hung s) < z_fetch z ->
  exists s', sys_steps e me z s s' /\ y_read s' = y_read s ++ [cut attack] /\ y_dead s' = true /\ forall s'', ~ sys_step e me z s' s''.
Proof. exact C98_one_datagram_kills_refuted_pf. Qed.
Print Assumptions C98_one_datagram_kills_refuted.

(** C97: the hypotheses are met: after that run the file named by the announced info hash holds the data. *)
Theorem C97_example : exists s, sys_reach (fun _ => ex_env) ex_me (mkaddr [] 6881) [ex_addr 1] ex_sizes (fun _ => None) s /\ y_read s = [cut attack] /\
  (forall u, In u (y_runs s) -> u_left u = [] /\ os_ok (u_os u)) /\ y_disk s (file_of (sha1 meta1)) = Some meta1 /\
  exists u, In u (y_runs s) /\ t_dial (u_f u) = Some (B "10.0.0.7:6881").
Proof. exact C97_example_pf. Qed.
Print Assumptions C97_example.

(** C98: the hypotheses are met by that state, and the process can be blocked from there. *)
Theorem C98_example : exists s s', sys_reach (fun _ => ex_env) ex_me (mkaddr [] 6881) [ex_addr 1] ex_sizes (fun _ => None) s /\ y_dead s = false /\ length (hung s) < z_fetch ex_sizes /\
  sys_steps (fun _ => ex_env) ex_me ex_sizes s s' /\ length (y_read s') = 109 /\ forall s'', ~ sys_step (fun _ => ex_env) ex_me ex_sizes s' s''.
Proof. exact C98_example_pf. Qed.
Print Assumptions C98_example.

(** C96: a run in which one announcement packet is read, handled and its torrent downloaded and stored. *)
Theorem C96_example : exists s u, runtime_ok (fun _ => ex_env) (fun _ _ => false) /\
  sys_reach (fun _ => ex_env) ex_me (mkaddr [] 6881) [ex_addr 1] ex_sizes (fun _ => None) s /\ y_dead s = false /\ y_read s = [cut attack] /\ y_runs s = [u] /\ u_f u = run0.
Proof. exact C96_example_pf. Qed.
Print Assumptions C96_example.
