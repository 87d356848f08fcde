(** P_Fair.v -- property theorems (generated by tools/gen_p.py from FairPf.v).
    Each statement is repeated in full and closed by [exact]. *)
From Coq Require Import Permutation.
From Verif Require Import Base GoLib Bencode BencodeSpec BencodeProofs BencodePf Types Node NodePf RouteTable RouteTablePf Middleware Krpc KrpcSpec KrpcProofs KrpcPf Dht DhtSpec DhtPf Conc ConcSpec ConcProofs ConcPf BytesPool Sha1 PeerWire Fetch FetchSpec FetchPf FetchTorrent FetchTorrentSpec FetchTorrentPf Udp System SystemSpec SystemProofs SystemLive SystemPf QuietSpec QuietPf FairSpec.
Local Open Scope list_scope.
From Verif Require Import FairPf.

(** C129: every handler ends: in a process that never stops and whose scheduler forgets nobody, each handler that has begun ends, unless from
    some time on as many downloads hang as there are fetch workers. *)
Theorem C129_handlers_end : forall e uf me local hosts z d0 t, runtime_ok e uf -> sys_reach e me local hosts z d0 (t 0) -> forever e me z t -> 0 < z_ann z ->
  fair_handlers e me z t -> fair_downloads e me z t ->
  forall n i pk, In (i, EvStart pk) (k_log (y_core (t n))) -> (exists m, In (i, EvEnd) (k_log (y_core (t m)))) \/ all_hang z t.
Proof. exact C129_handlers_end_pf. Qed.
Print Assumptions C129_handlers_end.

(** C129: every query is answered: a packet that was read and asks something is answered, exactly once, to its source and with what it is
    owed, however long the queues are and whatever the schedule, unless all fetch workers come to hang. *)
Theorem C129_every_query_answered : forall e uf me local hosts z d0 t, runtime_ok e uf -> sys_reach e me local hosts z d0 (t 0) -> forever e me z t -> 0 < z_ann z ->
  fair_handlers e me z t -> fair_downloads e me z t ->
  forall n k pk tx q, nth_error (y_read (t n)) k = Some pk -> asks pk tx q ->
  (exists m i g d, nth_error (started (k_log (y_core (t m)))) k = Some pk /\ In (i, EvStart pk) (k_log (y_core (t m))) /\ replies_in (evs i (k_log (y_core (t m)))) = [g] /\
     g_to g = p_addr pk /\ owed me pk d /\ carries (g_bytes g) d) \/ all_hang z t.
Proof. exact C129_every_query_answered_pf. Qed.
Print Assumptions C129_every_query_answered.

(** C129: every announcement reaches a fetch worker: if the download side is not forgotten, each announcement that was accepted is sooner or
    later given to a fetch worker, in the order of acceptance, unless all fetch workers come to hang; no further announcement is needed for it. *)
Theorem C129_every_announcement_taken_up : forall e uf me local hosts z d0 t, runtime_ok e uf -> sys_reach e me local hosts z d0 (t 0) -> forever e me z t ->
  fair_downloads e me z t ->
  forall n x, In x (enqueued_in (map snd (k_log (y_core (t n))))) -> (exists m, In x (y_loads (t m) ++ map u_x (y_runs (t m)))) \/ all_hang z t.
Proof. exact C129_every_announcement_taken_up_pf. Qed.
Print Assumptions C129_every_announcement_taken_up.

(** The hypotheses are met: an execution that begins with an announcement waiting in the queue, and in which a peer sends ping after
    ping; it is fair, the download of the announcement does not hang, and the pings ask something. *)
Theorem C129_example : exists t x n k, runtime_ok (fun _ => ex_env) (fun _ _ => false) /\
  sys_reach (fun _ => ex_env) ex_me (mkaddr [] 6881) [ex_addr 1] ex_sizes (fun _ => None) (t 0) /\ forever (fun _ => ex_env) ex_me ex_sizes t /\
  0 < z_ann ex_sizes /\ fair_handlers (fun _ => ex_env) ex_me ex_sizes t /\ fair_downloads (fun _ => ex_env) ex_me ex_sizes t /\ ~ all_hang ex_sizes t /\
  a_queue (w_app (k_world (y_core (t 0)))) = [x] /\ In x (enqueued_in (map snd (k_log (y_core (t 0))))) /\
  nth_error (y_read (t n)) k = Some (cut ping_dg) /\ asks (cut ping_dg) (B "pp") (B "ping").
Proof. exact C129_example_pf. Qed.
Print Assumptions C129_example.

(** C129 is false without fairness: a scheduler that forgets one handler, and only that one, leaves its packet unanswered forever, though all
    others are answered and no download hangs. *)
Theorem C129_unfair_refuted : exists z t i pk tx q, sys_reach (fun _ => ex_env) ex_me (mkaddr [] 6881) [ex_addr 1] z (fun _ => None) (t 0) /\ runtime_ok (fun _ => ex_env) (fun _ _ => false) /\
  forever (fun _ => ex_env) ex_me z t /\ 0 < z_ann z /\ 0 < z_fetch z /\ fair_downloads (fun _ => ex_env) ex_me z t /\
  (forall j, j <> i -> fair_to (fun s s' => moves s s' j) (fun s => can (fun _ => ex_env) ex_me z s j) t) /\
  (forall m, hung (t m) = [] /\ can (fun _ => ex_env) ex_me z (t m) i) /\
  In (i, EvStart pk) (k_log (y_core (t 0))) /\ asks pk tx q /\ forall m, ~ In (i, EvEnd) (k_log (y_core (t m))) /\ replies_in (evs i (k_log (y_core (t m)))) = [].
Proof. exact C129_unfair_refuted_pf. Qed.
Print Assumptions C129_unfair_refuted.
