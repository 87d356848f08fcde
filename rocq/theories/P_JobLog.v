(** P_JobLog.v -- property theorems (generated by tools/gen_p.py from JobLogPf.v).
    Each statement is repeated in full and closed by [exact]. *)
From Verif Require Import Base GoLib Bencode BencodeSpec Types Logger Node Json ConsoleLog Krpc KrpcSpec Dht BytesPool Sha1 PeerWire Fetch FetchSpec FetchProofs FetchPf FetchTorrent FetchTorrentSpec FetchTorrentPf FetchLog FetchLogSpec FetchLogProofs FetchLogPf JobLog JobLogSpec.
Local Open Scope list_scope.
From Verif Require Import JobLogPf.

(** C136: the function with the log calls does what fetchHandler does. *)
Theorem C136_same_job : forall txt ptxt ce we e p h dial o x, fst (fetchHandler_log txt ptxt ce we e p h dial o x) = fetchHandler e p h dial o x.
Proof. exact C136_same_job_pf. Qed.
Print Assumptions C136_same_job.

(** C136: a worker prints the lines of its download and nothing else, except that it complains once about a file it could not create or
    complete, or (instead of everything else, and having neither dialled nor touched a file) about an announcement without info hash or port. *)
Theorem C136_lines : forall txt ptxt ce we e p h dial o x r out, (forall n d, deq d (e_ford e n d)) ->
  fetchHandler_log txt ptxt ce we e p h dial o x = (r, out) ->
  match t_dial r with
  | None => t_data r = None /\ t_ops r = [] /\ exists t, out = [complaint "fetchHandler panic" t]
  | Some a => exists ih tail, field (dict_of (rq_body (fst x))) "info_hash" (VStr ih) /\
      out = lines_of (snd (FetchMetaData_log e a txt ptxt p h (dial a) LocalPeerId ih)) ++ tail /\
      (tail = [] \/ t_data r <> None /\ (tail = [complaint "create file err" ce] \/ tail = [complaint "write file err" we])) /\
      forall en, In en out -> (by_dht en <-> In en tail)
  end.
Proof. exact C136_lines_pf. Qed.
Print Assumptions C136_lines.

(** C136: after a successful download the worker is silent exactly if the file is complete, whatever the directory held before. *)
Theorem C136_silence_means_stored : forall txt ptxt ce we e p h dial o x r out d, (forall n d, deq d (e_ford e n d)) ->
  fetchHandler_log txt ptxt ce we e p h dial o x = (r, out) -> t_data r = Some d ->
  ((forall en, In en out -> ~ by_dht en) <-> forall d0, fs_run (t_ops r) d0 (file_of (sha1 d)) = Some d).
Proof. exact C136_silence_means_stored_pf. Qed.
Print Assumptions C136_silence_means_stored.

(** C136: a worker's lines say whether the metadata was downloaded: the line with the checksum and the info hash in hexadecimal is printed exactly if it was. *)
Theorem C136_success_is_logged : forall txt ptxt ce we e p h dial o x r out a ih, (forall n d, deq d (e_ford e n d)) ->
  fetchHandler_log txt ptxt ce we e p h dial o x = (r, out) -> t_dial r = Some a -> field (dict_of (rq_body (fst x))) "info_hash" (VStr ih) ->
  (t_data r <> None <-> In (fline a MInfo "chesum metadata match" [(B "infohash", VStr (hex_text ih))]) out) /\
  (t_data r = None -> forall en, In en out -> ce_log en = B "FetchMetadata" -> ce_msg en <> B "chesum metadata match").
Proof. exact C136_success_is_logged_pf. Qed.
Print Assumptions C136_success_is_logged.

Theorem C136_examples :
  let fine := [(B "FetchMetadata", B "get extended handshake"); (B "FetchMetadata", B "request pieces"); (B "FetchMetadata", B "fetch extended msg"); (B "FetchMetadata", B "chesum metadata match")] in
  job0 os0 (announce0 (sha1 meta1) []) = fine /\
  job0 {| os_create := false; os_sizes := []; os_fail := None |} (announce0 (sha1 meta1) []) = fine ++ [(B "dht", B "create file err")] /\
  job0 {| os_create := true; os_sizes := [4]; os_fail := Some 3 |} (announce0 (sha1 meta1) []) = fine ++ [(B "dht", B "write file err")] /\
  job0 os0 {| rq_tx := B "aa"; rq_type := B "announce_peer"; rq_body := Some [(B "info_hash", VStr (sha1 meta1))]; rq_handler := None |} = [(B "dht", B "fetchHandler panic")].
Proof. exact C136_examples_pf. Qed.
Print Assumptions C136_examples.

(** C136: not every announcement a worker handled leaves a line: it prints nothing if the peer cannot be reached. *)
Theorem C136_every_job_is_logged_refuted : exists e p h dial o x, forall txt ptxt ce we,
  snd (fetchHandler_log txt ptxt ce we e p h dial o x) = [] /\ t_dial (fst (fetchHandler_log txt ptxt ce we e p h dial o x)) = Some (B "10.0.0.7:6881").
Proof. exact C136_every_job_is_logged_refuted_pf. Qed.
Print Assumptions C136_every_job_is_logged_refuted.
