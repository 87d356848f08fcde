(** P_ConsoleLog.v -- property theorems (generated by tools/gen_p.py from ConsoleLogPf.v).
    Each statement is repeated in full and closed by [exact]. *)
From Verif Require Import Base GoLib Bencode BencodeSpec BencodeProofs Types TypesPf Logger LoggerSpec Node NodePf RouteTable RouteTableProofs RouteTablePf Middleware Krpc KrpcSpec KrpcProofs KrpcPf Dht DhtSpec DhtProofs DhtPf
  Conc ConcSpec ConcProofs ConcPf FetchTorrentSpec FetchTorrentPf Json InfoLogSpec InfoLogProofs ConsoleLog ConsoleLogSpec ConsoleLogProofs.
Local Open Scope list_scope.
From Verif Require Import ConsoleLogPf.

(** C133: the runs with the console are the runs of the crawler: printing changes nothing. *)
Theorem C133_same_runs : forall e me laddr local hosts cap c, conc_reach e me local hosts cap c <-> exists s, creach e me laddr local hosts cap s /\ c_conc s = c.
Proof. exact C133_same_runs_pf. Qed.
Print Assumptions C133_same_runs.

(** C133: however the handlers are interleaved, what a finished one printed is a transcript of its packet and of what it did:
    nothing is missing, nothing is added, and the lines are in this order. *)
Theorem C133_transcript : forall e uf me laddr local hosts cap s i pk l, runtime_ok e uf -> creach e me laddr local hosts cap s ->
  evs i (k_log (c_conc s)) = EvStart pk :: l ++ [EvEnd] -> transcript uf laddr pk l (calls_of i (c_calls s)).
Proof. exact C133_transcript_pf. Qed.
Print Assumptions C133_transcript.

(** C133: only handlers that were started print, and one that has not run yet has printed nothing. *)
Theorem C133_only_handlers_print : forall e uf me laddr local hosts cap s, runtime_ok e uf -> creach e me laddr local hosts cap s ->
  (forall i en, In (i, en) (c_calls s) -> exists pk, In (i, EvStart pk) (k_log (c_conc s))) /\
  (forall i pk, In (i, pk, JStart) (k_jobs (c_conc s)) -> calls_of i (c_calls s) = []).
Proof. exact C133_only_handlers_print_pf. Qed.
Print Assumptions C133_only_handlers_print.

(** C133: standard output consists of exactly these lines, in the order of the calls; no level is suppressed. *)
Theorem C133_output : forall e me laddr local hosts cap s, creach e me laddr local hosts cap s ->
  exists outs, c_out s = concat outs /\ Forall2 rendered (map snd (c_calls s)) outs.
Proof. exact C133_output_pf. Qed.
Print Assumptions C133_output.

(** C133: what AddNode prints: one line per new bucket, one line if the node found no place (whether AddNode returned an error or not), and
    complaints exactly when buckets were made and the count of nodes is not the table's size plus one. *)
Theorem C133_table_lines : forall uf host k capacity t n t' er, rt_reach uf host k capacity t -> AddNode uf t n = Ok (t', er) -> table_says uf t n t' er (AddNode_log uf t n).
Proof. exact C133_table_lines_pf. Qed.
Print Assumptions C133_table_lines.

(** C133: the line "cannot match request ignore" is printed exactly by those handlers whose response WAS matched and carries nodes. *)
Theorem C133_ignore_line : forall e uf me laddr local hosts cap s i pk l, runtime_ok e uf -> creach e me laddr local hosts cap s ->
  evs i (k_log (c_conc s)) = EvStart pk :: l ++ [EvEnd] ->
  (In ignore_line (calls_of i (c_calls s)) <-> (exists tx, In (matched_line tx) (calls_of i (c_calls s))) /\ exists tx ns, lists_nodes pk tx ns).
Proof. exact C133_ignore_line_pf. Qed.
Print Assumptions C133_ignore_line.

(** C133: the theorems apply: three interleaved handlers, all finished; the lines of each, and one of them spelled out. *)
Theorem C133_example : exists s l, runtime_ok (fun _ => ex_env) (fun _ _ => false) /\ creach (fun _ => ex_env) ex_me (ex_addr 9) (mkaddr [] 6881) [ex_addr 1] 1 s /\
  evs 1 (k_log (c_conc s)) = EvStart ex_list :: l ++ [EvEnd] /\
  map (fun en => (ce_log en, ce_msg en)) (calls_of 1 (c_calls s)) =
    [(B "server", B "response handle"); (B "dht", B "handle response"); (B "udp", B ">>> send Bytes"); (B "server", B ">>>rpc sended"); (B "udp", B ">>> send Bytes"); (B "server", B ">>>rpc sended");
     (B "dht", B "add nodes"); (B "dht", B "cannot match request ignore")] /\
  map (fun en => (ce_log en, ce_msg en)) (calls_of 0 (c_calls s)) =
    [(B "server", B "response handle"); (B "dht", B "get announce_peer request"); (B "udp", B ">>> send Bytes"); (B "server", B ">>>  Bytes sended")] /\
  map (fun en => (ce_log en, ce_msg en)) (calls_of 2 (c_calls s)) = [(B "server", B "response handle"); (B "udp", B ">>> send Bytes"); (B "server", B ">>>  Bytes sended")] /\
  map fst (c_calls s) <> map (fun _ => 0) (calls_of 0 (c_calls s)) ++ map (fun _ => 1) (calls_of 1 (c_calls s)) ++ map (fun _ => 2) (calls_of 2 (c_calls s)).
Proof. exact C133_example_pf. Qed.
Print Assumptions C133_example.

(** C133, refuted as "a line saying that a request cannot be matched means just that": the response to a query of the crawler prints
    "cannot match request ignore" after its nodes were added; a response nobody asked for never prints it. *)
Theorem C133_ignored_refuted : exists s, creach (fun _ => ex_env) ex_me (ex_addr 9) (mkaddr [] 6881) [ex_addr 1] 1 s /\
  (exists l, evs 0 (k_log (c_conc s)) = EvStart ex_list :: l ++ [EvEnd] /\ length (tried_in l) = 2) /\ In ignore_line (calls_of 0 (c_calls s)) /\
  (evs 1 (k_log (c_conc s)) = [EvStart ex_unasked; EvEnd] /\ ~ In ignore_line (calls_of 1 (c_calls s)) /\ In (entry "server" MError "cannot match request" [(B "txId", str (B "zz")); (B "nodeId", str (B "z"))]) (calls_of 1 (c_calls s))).
Proof. exact C133_ignored_refuted_pf. Qed.
Print Assumptions C133_ignored_refuted.

(** C133, refuted as "sent means sent": the handler of a query whose reply could not be sent says so and then reports the bytes as sent. *)
Theorem C133_sent_refuted : exists s, runtime_ok (fun _ => ex_env1) (fun _ _ => false) /\ creach (fun _ => ex_env1) ex_me (ex_addr 9) (mkaddr [] 6881) [ex_addr 1] 1 s /\
  (exists g, evs 0 (k_log (c_conc s)) = [EvStart ex_vote; EvReply g; EvEnd]) /\
  map (fun en => (ce_log en, ce_m en, ce_msg en)) (calls_of 0 (c_calls s)) =
    [(B "server", MInfo, B "response handle"); (B "udp", MError, B ">>> send udp err"); (B "server", MInfo, B ">>>  Bytes sended")].
Proof. exact C133_sent_refuted_pf. Qed.
Print Assumptions C133_sent_refuted.

(** C133, refuted as "AddNode's error log tells what AddNode did": a node can be dropped, with two errors printed, although AddNode reports
    success; and once a node was announced twice, "add fail" is printed for a node that was stored. *)
Theorem C133_table_log_refuted : forall uf,
  (exists t n t', rt_reach uf (nd 64 1) 2 1 t /\ AddNode uf t n = Ok (t', None) /\ stored t' = stored t /\ map ce_msg (AddNode_log uf t n) = [B "the route table has split new bucket"; B "the route table has full"; B "the route table add fail"]) /\
  (exists t n t', rt_reach uf (nd 64 1) 2 8 t /\ AddNode uf t n = Ok (t', None) /\ In n (stored t') /\ map ce_msg (AddNode_log uf t n) = [B "the route table has split new bucket"; B "the route table has split new bucket"; B "the route table add fail"; B "the route table add fail"]).
Proof. exact C133_table_log_refuted_pf. Qed.
Print Assumptions C133_table_log_refuted.
