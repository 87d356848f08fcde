(** P_Quiet.v -- property theorems (generated by tools/gen_p.py from QuietPf.v).
    Each statement is repeated in full and closed by [exact]. *)
From Coq Require Import Permutation.
From Verif Require Import Base GoLib Bencode BencodeSpec BencodeProofs BencodePf Types Node NodePf RouteTable Middleware Krpc KrpcSpec KrpcProofs KrpcPf Dht DhtSpec DhtPf Conc ConcSpec ConcProofs ConcPf BytesPool Sha1 PeerWire Fetch FetchSpec FetchPf FetchTorrent FetchTorrentSpec FetchTorrentPf Udp System SystemSpec SystemProofs SystemLive SystemPf QuietSpec.
Local Open Scope list_scope.
From Verif Require Import QuietPf.

(** C122: the work is linear in the input: whatever the schedule and whatever the peers do, a process that has read
    some packets has taken at most 14 steps for each of them, 4 for each node they can list, one for each file
    operation, and the one that killed it; that is at most 170 steps for a packet besides the file operations. *)
Theorem C122_work_is_linear : forall e uf me local hosts z d0 w0 w n s, runtime_ok e uf ->
  crawler_init me local = Ok w0 -> boot e me hosts w0 = Ok w ->
  runs e me z n (sys_init {| k_world := w; k_jobs := []; k_next := 0; k_taken := []; k_log := [] |} d0) s ->
  n <= list_sum (map cost (y_read s)) + length (y_ops s) + (if y_dead s then 1 else 0) /\ list_sum (map cost (y_read s)) <= 170 * length (y_read s).
Proof. exact C122_work_is_linear_pf. Qed.
Print Assumptions C122_work_is_linear.

(** C122: no spinning: a process that never stops reads packets again and again. *)
Theorem C122_no_spinning : forall e me local hosts z d0 t, sys_reach e me local hosts z d0 (t 0) -> forever e me z t ->
  forall n, exists m d, n <= m /\ y_read (t (S m)) = y_read (t m) ++ [cut d].
Proof. exact C122_no_spinning_pf. Qed.
Print Assumptions C122_no_spinning.

(** C122: it rests only when everything is done: in a state where nothing but reading a packet is possible, all
    packets have been handled, all announcements downloaded or given up, all files written - unless as many
    downloads hang as there are fetch workers, or the process is dead. *)
Theorem C122_rests_when_done : forall e uf me local hosts z d0 s, runtime_ok e uf -> sys_reach e me local hosts z d0 s -> 0 < z_krpc z -> 0 < z_ann z ->
  (forall s', ~ quiet e me z s s') -> y_dead s = true \/ z_fetch z <= length (hung s) \/ idle s.
Proof. exact C122_rests_when_done_pf. Qed.
Print Assumptions C122_rests_when_done.

(** C122: it comes to rest: once no more packets arrive, every execution - whatever the schedule, whatever the peers
    do - finishes all the work after finitely many steps, or the process dies, or as many downloads hang as there
    are fetch workers. *)
Theorem C122_comes_to_rest : forall e uf me local hosts z d0 s, runtime_ok e uf -> sys_reach e me local hosts z d0 s -> 0 < z_krpc z -> 0 < z_ann z ->
  settles e me z (fun s' => idle s' \/ y_dead s' = true \/ z_fetch z <= length (hung s')) s.
Proof. exact C122_comes_to_rest_pf. Qed.
Print Assumptions C122_comes_to_rest.

(** C122: every packet gets its handler: in a process that never stops, each packet that has been read is sooner or
    later taken up by a worker, whatever the schedule - no fairness is needed. *)
Theorem C122_every_packet_taken_up : forall e uf me local hosts z d0 t, runtime_ok e uf -> sys_reach e me local hosts z d0 (t 0) -> forever e me z t ->
  forall n k pk, nth_error (y_read (t n)) k = Some pk -> exists m, nth_error (started (k_log (y_core (t m)))) k = Some pk.
Proof. exact C122_every_packet_taken_up_pf. Qed.
Print Assumptions C122_every_packet_taken_up.

(** C122: every announcement gets its download: in a process that is given announcements again and again, each of them is sooner
    or later handed to a fetch worker, whatever the schedule. *)
Theorem C122_every_announcement_taken_up : forall e uf me local hosts z d0 t, runtime_ok e uf -> sys_reach e me local hosts z d0 (t 0) -> forever e me z t ->
  (forall b, exists m, b <= length (enqueued_in (map snd (k_log (y_core (t m)))))) ->
  forall n x, In x (enqueued_in (map snd (k_log (y_core (t n))))) -> exists m, In x (y_loads (t m) ++ map u_x (y_runs (t m))).
Proof. exact C122_every_announcement_taken_up_pf. Qed.
Print Assumptions C122_every_announcement_taken_up.

Theorem C122_example : exists t, sys_reach (fun _ => ex_env) ex_me (mkaddr [] 6881) [ex_addr 1] ex_sizes (fun _ => None) (t 0) /\ forever (fun _ => ex_env) ex_me ex_sizes t /\
  runtime_ok (fun _ => ex_env) (fun _ _ => false) /\ runs (fun _ => ex_env) ex_me ex_sizes 14 (t 0) (t 14) /\ y_read (t 14) = [cut junk; cut junk] /\ y_ops (t 14) = [] /\ cost (cut junk) = 14 /\
  idle (t 14).
Proof. exact C122_example_pf. Qed.
Print Assumptions C122_example.
