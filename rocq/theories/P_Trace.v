(** P_Trace.v -- property theorems (generated by tools/gen_p.py from TracePf.v).
    Each statement is repeated in full and closed by [exact]. *)
From Verif Require Import Base GoLib Bencode BencodeSpec BencodeProofs BencodePf Types Node RouteTable Middleware Krpc KrpcSpec KrpcProofs KrpcPf Dht DhtSpec DhtPf Conc ConcSpec ConcProofs ConcPf BytesPool Sha1 PeerWire Fetch FetchSpec FetchPf
  FetchTorrent FetchTorrentSpec FetchTorrentPf Udp System SystemSpec SystemProofs SystemLive SystemPf ZapLog ZapLogSpec InfoLog InfoLogSpec InfoLogPf LogFiles LogFilesSpec LogFilesProofs LogFilesPf InfoFilesSpec InfoFilesPf.
From Coq Require Import Permutation.
Local Open Scope list_scope.
From Verif Require Import TracePf.

(** C131: the log can be added to every execution of the whole process: each state of the process is reached with a log. *)
Theorem C131_every_run_has_a_log : forall e os me local hosts z d0 y, sys_reach e me local hosts z d0 y ->
  exists s, lreach e os me local hosts (z_ann z) s /\ l_conc s = y_core y.
Proof. exact C131_every_run_has_a_log_pf. Qed.
Print Assumptions C131_every_run_has_a_log.

(** C131: in every execution, every file that differs from its initial state is named after an info hash for which the log holds an announce_peer line: the line
    of a packet read from the socket that announced this info hash. *)
Theorem C131_files_are_logged : forall e uf os me local hosts z d0 y s q, runtime_ok e uf -> orders_ok os -> sys_reach e me local hosts z d0 y ->
  lreach e os me local hosts (z_ann z) s -> l_conc s = y_core y -> y_disk y q <> d0 q ->
  exists d i now en pk p, q = file_of (sha1 d) /\ In (i, now, en) (l_recs s) /\ In pk (y_read y) /\ record_of pk (sha1 d) (Some p) en.
Proof. exact C131_files_are_logged_pf. Qed.
Print Assumptions C131_files_are_logged.

(** C131: every TCP address the crawler dialled can be read off an announce_peer line of the log: it is the address the line names, or the host of that address with the
    port the line names. *)
Theorem C131_dials_are_logged : forall e uf os me local hosts z d0 y s u a, runtime_ok e uf -> orders_ok os -> sys_reach e me local hosts z d0 y ->
  lreach e os me local hosts (z_ann z) s -> l_conc s = y_core y -> In u (y_runs y) -> t_dial (u_f u) = Some a ->
  exists i now en pk ih p, In (i, now, en) (l_recs s) /\ In pk (y_read y) /\ record_of pk ih (Some p) en /\
    (a = addr_string (p_addr pk) \/ a = ip_string (ip (p_addr pk)) ++ B ":" ++ itoa p).
Proof. exact C131_dials_are_logged_pf. Qed.
Print Assumptions C131_dials_are_logged.

(** C131: nothing is downloaded twice for one line: at every moment there are at most as many downloads, begun or finished, as announce_peer lines in the log. *)
Theorem C131_no_more_downloads_than_lines : forall e uf os me local hosts z d0 y s, runtime_ok e uf -> orders_ok os -> sys_reach e me local hosts z d0 y ->
  lreach e os me local hosts (z_ann z) s -> l_conc s = y_core y ->
  length (y_runs y) + length (y_loads y) <= length (filter (fun r => beq (ze_msg (snd r)) (B "announce_peer")) (l_recs s)).
Proof. exact C131_no_more_downloads_than_lines_pf. Qed.
Print Assumptions C131_no_more_downloads_than_lines.

(** C131: while the log was rotated at most three times and no backup grew too old, that line is on the disk in one piece, in the log file or in a backup. *)
Theorem C131_found_on_disk : forall e uf os me local hosts z d0 y s tr f q, runtime_ok e uf -> orders_ok os -> sys_reach e me local hosts z d0 y ->
  lreach e os me local hosts (z_ann z) s -> l_conc s = y_core y ->
  lj_run zap_rotation tr f -> steady tr -> lines tr = map rec_line (l_recs s) -> length (closed tr) <= 3 ->
  (forall x now, In x (closed tr) -> In (LMill now) tr -> (now <= fst x + 28 * 24 * 3600 * 1000)%N) ->
  y_disk y q <> d0 q ->
  exists d pk p now en file pre post, q = file_of (sha1 d) /\ In pk (y_read y) /\ record_of pk (sha1 d) (Some p) en /\
    (file = text (j_cur f) \/ In file (map snd (j_old f))) /\ file = pre ++ line now en ++ post.
Proof. exact C131_found_on_disk_pf. Qed.
Print Assumptions C131_found_on_disk.

(** C131: the hypotheses are met: in an execution in which a torrent is downloaded and stored there is a log, it holds its announcement and nothing else, and there is a file of the log. *)
Theorem C131_example : forall os, orders_ok os -> exists y s tr f, runtime_ok (fun _ => ex_env) (fun _ _ => false) /\
  sys_reach (fun _ => ex_env) ex_me (mkaddr [] 6881) [ex_addr 1] ex_sizes (fun _ => None) y /\ lreach (fun _ => ex_env) os ex_me (mkaddr [] 6881) [ex_addr 1] (z_ann ex_sizes) s /\ l_conc s = y_core y /\
  lj_run zap_rotation tr f /\ steady tr /\ lines tr = map rec_line (l_recs s) /\ closed tr = [] /\
  y_disk y (file_of (sha1 meta1)) = Some meta1 /\ (exists u, In u (y_runs y) /\ t_dial (u_f u) = Some (B "10.0.0.7:6881")) /\
  exists i now en p, l_recs s = [(i, now, en)] /\ record_of (cut attack) (sha1 meta1) (Some p) en.
Proof. exact C131_example_pf. Qed.
Print Assumptions C131_example.
