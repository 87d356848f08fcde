(** P_InfoLog.v -- property theorems (generated by tools/gen_p.py from InfoLogPf.v).
    Each statement is repeated in full and closed by [exact]. *)
From Verif Require Import Base GoLib Bencode BencodeSpec BencodeProofs Types TypesPf Logger Node NodePf RouteTable Middleware Krpc KrpcSpec KrpcProofs KrpcPf Dht DhtSpec DhtProofs DhtPf Conc ConcSpec ConcProofs ConcPf
  FetchTorrentSpec FetchTorrentPf ZapLog ZapLogSpec ZapLogProofs ZapLogPf InfoLog InfoLogSpec InfoLogProofs.
From Coq Require Import Permutation.
Local Open Scope list_scope.
From Verif Require Import InfoLogPf.

(** C108: in every schedule, the log file consists of one line for each handled packet that asks for or
    announces an info hash, naming its sender and that info hash, and of nothing else. *)
Theorem C108_log_is_exact : forall e uf os me local hosts cap s, runtime_ok e uf -> orders_ok os -> lreach e os me local hosts cap s ->
  l_file s = concat (map rec_line (l_recs s)) /\ NoDup (map rec_job (l_recs s)) /\
  (forall i now en, In (i, now, en) (l_recs s) -> numeric now /\ exists pk ih po, handled (l_conc s) i pk /\ record_of pk ih po en) /\
  (forall i pk ih po, handled (l_conc s) i pk -> seeks pk ih po -> exists now en, In (i, now, en) (l_recs s) /\ record_of pk ih po en).
Proof. exact C108_log_is_exact_pf. Qed.
Print Assumptions C108_log_is_exact.

(** C108: the runs with the log are the runs of the crawler. *)
Theorem C108_same_runs : forall e os me local hosts cap c, conc_reach e me local hosts cap c <-> exists s, lreach e os me local hosts cap s /\ l_conc s = c.
Proof. exact C108_same_runs_pf. Qed.
Print Assumptions C108_same_runs.

(** C108: the file only grows, by at most one line at a time. *)
Theorem C108_append_only : forall e os me cap s s', orders_ok os -> lstep e os me cap s s' ->
  l_file s' = l_file s \/ exists now en, numeric now /\ l_file s' = l_file s ++ line now en.
Proof. exact C108_append_only_pf. Qed.
Print Assumptions C108_append_only.

(** C108: a query for or announcement of an info hash is in the log before it is answered; an announcement is in the log, with
    its info hash, port and sender, before the fetcher can see it: everything in or taken from the queue is in the log. *)
Theorem C108_logged_first : forall e uf os me local hosts cap s, runtime_ok e uf -> orders_ok os -> lreach e os me local hosts cap s ->
  (forall i g, In (i, EvReply g) (k_log (l_conc s)) -> exists pk, In (i, EvStart pk) (k_log (l_conc s)) /\
     forall ih po, seeks pk ih po -> exists now en, In (i, now, en) (l_recs s) /\ record_of pk ih po en) /\
  (forall req addr, In (req, addr) (k_taken (l_conc s) ++ a_queue (w_app (k_world (l_conc s)))) ->
     exists i now en pk ih p, In (i, now, en) (l_recs s) /\ handled (l_conc s) i pk /\ record_of pk ih (Some p) en /\ addr = p_addr pk /\
       field (dict_of (rq_body req)) "info_hash" (VStr ih) /\ field (dict_of (rq_body req)) "port" (VInt p)).
Proof. exact C108_logged_first_pf. Qed.
Print Assumptions C108_logged_first.

(** C108: the file can be read back: two runs that left the same file logged the same entries at the same times in the same order, and an
    entry tells the sender's address, the info hash and the announced port. *)
Theorem C108_readable : forall e uf os me local hosts cap s s', runtime_ok e uf -> orders_ok os -> lreach e os me local hosts cap s -> lreach e os me local hosts cap s' ->
  (forall i pk, In (i, EvStart pk) (k_log (l_conc s)) \/ In (i, EvStart pk) (k_log (l_conc s')) -> ascii (zone (p_addr pk))) ->
  (l_file s = l_file s' -> map (fun r => (snd (fst r), snd r)) (l_recs s) = map (fun r => (snd (fst r), snd r)) (l_recs s')) /\
  (forall pk pk' ih ih' po po' en, record_of pk ih po en -> record_of pk' ih' po' en -> addr_string (p_addr pk) = addr_string (p_addr pk') /\ ih = ih' /\ po = po').
Proof. exact C108_readable_pf. Qed.
Print Assumptions C108_readable.

Theorem C108_example : forall os, orders_ok os -> exists s, runtime_ok (fun _ => ex_env) (fun _ _ => false) /\ lreach (fun _ => ex_env) os ex_me (mkaddr [] 6881) [ex_addr 1] 1 s /\
  (exists now en, In (0, now, en) (l_recs s) /\ record_of ex_ann (B "ih") (Some 7%Z) en) /\ (exists now en, In (1, now, en) (l_recs s) /\ record_of ex_get (B "abc") None en) /\
  (length (k_taken (l_conc s)) = 1) /\ (forall i pk, In (i, EvStart pk) (k_log (l_conc s)) -> ascii (zone (p_addr pk))).
Proof. exact C108_example_pf. Qed.
Print Assumptions C108_example.

Theorem C108_unchecked_refuted : forall os, orders_ok os -> exists s, lreach (fun _ => ex_env) os ex_me (mkaddr [] 6881) [ex_addr 1] 1 s /\
  (exists now now' en en', In (0, now, en) (l_recs s) /\ In (1, now', en') (l_recs s) /\
     In (B "infoHash", JStr []) (ze_fields en) /\ In (B "port", JInt (-70000)) (ze_fields en) /\ Permutation (ze_fields en) (ze_fields en') /\ ze_msg en = ze_msg en').
Proof. exact C108_unchecked_refuted_pf. Qed.
Print Assumptions C108_unchecked_refuted.

(** C108: that an announcement in the log reaches the fetcher's queue is false: while the queue is full it is logged but not queued. *)
Theorem C108_logged_not_queued_refuted : forall os, orders_ok os -> exists s, lreach (fun _ => ex_env) os ex_me (mkaddr [] 6881) [ex_addr 1] 1 s /\
  (exists now en, In (1, now, en) (l_recs s) /\ record_of ex_ann (B "ih") (Some 7%Z) en) /\
  forall s', conc_steps (fun _ => ex_env) ex_me 1 (l_conc s) s' -> k_taken s' = k_taken (l_conc s) -> enqueued_in (evs 1 (k_log s')) = [].
Proof. exact C108_logged_not_queued_refuted_pf. Qed.
Print Assumptions C108_logged_not_queued_refuted.
