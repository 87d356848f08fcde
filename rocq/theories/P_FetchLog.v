(** P_FetchLog.v -- property theorems (generated by tools/gen_p.py from FetchLogPf.v).
    Each statement is repeated in full and closed by [exact]. *)
From Verif Require Import Base GoLib Bencode BencodeSpec Types Logger Node Json ConsoleLog Krpc BytesPool Sha1 PeerWire Fetch FetchSpec FetchProofs FetchPf FetchLog FetchLogSpec FetchLogProofs.
Local Open Scope list_scope.
From Verif Require Import FetchLogPf.

(** C135: the function with the log calls returns what FetchMetaData returns and leaves the same connection and memory. *)
Theorem C135_same_download : forall e laddr txt ptxt p h peer peerId infoHash,
  fst (FetchMetaData_log e laddr txt ptxt p h peer peerId infoHash) = FetchMetaData e p h peer peerId infoHash.
Proof. exact C135_same_download_pf. Qed.
Print Assumptions C135_same_download.

(** C135: the lines are the transcript of the greeting and of the messages the loop looked at, followed by the closing line. *)
Theorem C135_transcript : forall e laddr txt ptxt p h script peerId infoHash s r o, (forall n d, deq d (e_ford e n d)) ->
  FetchMetaData_log e laddr txt ptxt p h (Some script) peerId infoHash = ((s, r), o) ->
  exists how body closing, lines_of o = body ++ closing /\ transcript laddr peerId infoHash how (seen_of o) body /\ closes laddr infoHash (f_size s) how r closing.
Proof. exact C135_transcript_pf. Qed.
Print Assumptions C135_transcript.

(** C135: a dialled download prints at most one closing line, as its last line, and the result tells which. *)
Theorem C135_closing_line : forall e laddr txt ptxt p h script peerId infoHash s r o, (forall n d, deq d (e_ford e n d)) ->
  FetchMetaData_log e laddr txt ptxt p h (Some script) peerId infoHash = ((s, r), o) ->
  exists body closing, lines_of o = body ++ closing /\ Forall (fun en => ~ closing_line en) body /\
    match r with
    | FOk _ => closing = [fline laddr MInfo "chesum metadata match" [(B "infohash", VStr (hex infoHash))]]
    | FErr er => (er = ENew (B "check sum err") /\ closing = [fline laddr MError "chesum metadata not match" [(B "metasize", VInt (f_size s))]]) \/
                 (er = ENew (B "FetchMetaData err") /\ exists t, closing = [fline laddr MError "FetchMetaData err" [(B "err", VStr t)]]) \/
                 (er = ENew (B "cannot completed download metadata") /\ closing = [])
    | FStop _ => closing = []
    | FPanic _ => False
    end.
Proof. exact C135_closing_line_pf. Qed.
Print Assumptions C135_closing_line.

(** C135: a line at level PANIC is followed by exactly one line: the closing line that repeats its message as the error,
    and the download fails. *)
Theorem C135_panic_is_last : forall e laddr txt ptxt p h script peerId infoHash s r o before en after, (forall n d, deq d (e_ford e n d)) ->
  FetchMetaData_log e laddr txt ptxt p h (Some script) peerId infoHash = ((s, r), o) -> lines_of o = before ++ en :: after -> ce_m en = MPanic ->
  r = FErr (ENew (B "FetchMetaData err")) /\ after = [fline laddr MError "FetchMetaData err" [(B "err", VStr (ce_msg en))]].
Proof. exact C135_panic_is_last_pf. Qed.
Print Assumptions C135_panic_is_last.

(** C135: a download that succeeds, one whose peer hangs up, one with a wrong checksum, and one with other messages. *)
Theorem C135_examples :
  lines0 calm0 (Some script1) (sha1 meta1) =
    [(MInfo, B "get extended handshake"); (MInfo, B "request pieces"); (MInfo, B "fetch extended msg"); (MInfo, B "chesum metadata match")] /\
  lines0 calm0 (Some [hs0]) (sha1 meta1) = [(MPanic, B "read prefix length err"); (MError, B "FetchMetaData err")] /\
  lines0 calm0 (Some [hs0; frame (ext_of (B "15")); frame (data_of (B "0") (B "15") (B "d4:name5:hellOe"))]) (sha1 meta1) =
    [(MInfo, B "get extended handshake"); (MInfo, B "request pieces"); (MInfo, B "fetch extended msg"); (MError, B "chesum metadata not match")] /\
  lines0 calm0 (Some [hs0; frame [ascii_of_nat 1]; be32 0; frame [ascii_of_nat 20; ascii_of_nat 7]; frame [ascii_of_nat 20; ascii_of_nat 2]; frame (ascii_of_nat 20 :: ascii_of_nat 0 :: B "d1:mdee"); frame []]) (sha1 meta1) =
    [(MInfo, B "fetch bep3 msg"); (MInfo, B "fetch pexExtendedId wrong extend msg"); (MInfo, B "fetch pexExtendedId extend msg"); (MInfo, B "get extended handshake");
     (MPanic, B "get extended handshake wrong format"); (MError, B "FetchMetaData err")] /\
  lines0 calm0 (Some [hs0; frame [ascii_of_nat 20]]) (sha1 meta1) = [(MError, B "FetchMetaData err")].
Proof. exact C135_examples_pf. Qed.
Print Assumptions C135_examples.

(** C135: not every failed download leaves a trace in the log.  A failed dial prints nothing; so does a peer whose download
    runs out of time before it is complete (only the lines of its messages appear, none of them tells of a failure);
    and a download that blocks in a write never prints its end. *)
Theorem C135_silent_failure_refuted :
  (forall e laddr txt ptxt p h peerId infoHash, lines_of (snd (FetchMetaData_log e laddr txt ptxt p h None peerId infoHash)) = [] /\
     exists s err, fst (FetchMetaData_log e laddr txt ptxt p h None peerId infoHash) = (s, FErr err)) /\
  (exists s, FetchMetaData late pool0 heap0 (Some [hs0]) LocalPeerId (sha1 meta1) = (s, FErr (ENew (B "cannot completed download metadata")))) /\
  lines0 late (Some [hs0]) (sha1 meta1) = [] /\
  (exists s, FetchMetaData stuck pool0 heap0 (Some script1) LocalPeerId (sha1 meta1) = (s, FStop BlockedWrite)) /\
  lines0 stuck (Some script1) (sha1 meta1) = [(MInfo, B "get extended handshake")].
Proof. exact C135_silent_failure_refuted_pf. Qed.
Print Assumptions C135_silent_failure_refuted.
