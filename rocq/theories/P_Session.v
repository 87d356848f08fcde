(** P_Session.v -- property theorems (generated by tools/gen_p.py from SessionPf.v).
    Each statement is repeated in full and closed by [exact]. *)
From Verif Require Import Base GoLib Bencode BencodeSpec BencodeProofs BencodePf Types TypesPf Krpc KrpcProofs BytesPool Sha1 PeerWire PeerWirePf Fetch FetchSpec FetchProofs FetchPf SessionSpec SessionProofs SessionRun.
Local Open Scope list_scope.
From Verif Require Import SessionPf.

(** C110: for every peer, way of splitting the stream, pool and environment: data is returned only if
    what the first Read delivered is an acceptable handshake. *)
Theorem C110_handshake_needed : forall e p h script peerId infoHash s d, sane_folding (e_fold e) ->
  FetchMetaData e p h (Some script) peerId infoHash = (s, FOk d) ->
  length peerId = 20 /\ length infoHash = 20 /\ exists seg rest, script = seg :: rest /\ accepted seg.
Proof. exact C110_handshake_needed_pf. Qed.
Print Assumptions C110_handshake_needed.

(** C110: a peer that sends anything else, or nothing, is refused after the handshake was written and
    one Read of 68 bytes done: nothing more is written or read, and the connection is closed. *)
Theorem C110_handshake_refused : forall e p h script peerId infoHash, sane_folding (e_fold e) ->
  length peerId = 20 -> length infoHash = 20 -> e_write e 0 = WOk ->
  (forall seg rest, script = seg :: rest -> ~ accepted seg) ->
  exists s, FetchMetaData e p h (Some script) peerId infoHash = (s, FErr (ENew (B "FetchMetaData err"))) /\
    f_trace s = [CWrite (our_handshake peerId infoHash); CRead 68; CClose].
Proof. exact C110_handshake_refused_pf. Qed.
Print Assumptions C110_handshake_refused.

(** C110: the two identifiers in the peer's handshake play no part: for two peers that differ only
    in them, result and actions are the same. *)
Theorem C110_ids_ignored : forall e p h a t t' rest peerId infoHash, length a = 28 -> length t = 40 -> length t' = 40 ->
  let one := FetchMetaData e p h (Some ((a ++ t) :: rest)) peerId infoHash in
  let two := FetchMetaData e p h (Some ((a ++ t') :: rest)) peerId infoHash in
  snd one = snd two /\ f_trace (fst one) = f_trace (fst two).
Proof. exact C110_ids_ignored_pf. Qed.
Print Assumptions C110_ids_ignored.

(** C110: with an identifier that is not 20 bytes long nothing is sent or read at all. *)
Theorem C110_wrong_length : forall e p h script peerId infoHash, length peerId <> 20 \/ length infoHash <> 20 ->
  exists s, FetchMetaData e p h (Some script) peerId infoHash = (s, FErr (ENew (B "FetchMetaData err"))) /\ f_trace s = [CClose].
Proof. exact C110_wrong_length_pf. Qed.
Print Assumptions C110_wrong_length.

(** C110: for every peer and environment the data returned is not longer than all that was received. *)
Theorem C110_no_longer_than_received : forall e p h script peerId infoHash s d,
  FetchMetaData e p h (Some script) peerId infoHash = (s, FOk d) -> length d <= length (concat script).
Proof. exact C110_no_longer_than_received_pf. Qed.
Print Assumptions C110_no_longer_than_received.

(** C110: which handshakes are accepted, on examples: the usual one; one that stops after 26 bytes; one
    spelled differently; not one without extensions, of another protocol, or of 25 bytes. *)
Theorem C110_accepted_example :
  accepted hs0 /\ accepted (firstn 26 hs0) /\ accepted (hs_head (B "BITtorrent PROTOCOL") 255) /\
  ~ accepted (hs_head (B "BitTorrent protocol") 239 ++ repeat "x"%char 40) /\
  ~ accepted (hs_head (B "BitTorrent protocoL2") 16 ++ repeat "x"%char 39) /\ ~ accepted (firstn 25 hs0) /\ ~ accepted [].
Proof. exact C110_accepted_example_pf. Qed.
Print Assumptions C110_accepted_example.

(** C110: "a peer answering for another torrent is refused" is false: data is accepted although the
    handshake names another info hash (BEP 3 demands that the connection be dropped). *)
Theorem C110_other_torrent_refuted :
  length hs_other = 68 /\ firstn 20 (skipn 28 hs_other) = sha1 (B "another torrent") /\ sha1 (B "another torrent") <> sha1 meta1 /\
  exists s, FetchMetaData calm0 pool0 heap0 (Some (hs_other :: tl script1)) LocalPeerId (sha1 meta1) = (s, FOk meta1).
Proof. exact C110_other_torrent_refuted_pf. Qed.
Print Assumptions C110_other_torrent_refuted.

(** C110: "the announced sizes are enforced" is false: data of 15 bytes is accepted from a peer that
    announced 16384 and 3 of them, and after 26 bytes of handshake only. *)
Theorem C110_sizes_refuted :
  length meta1 = 15 /\
  exists s, FetchMetaData calm0 pool0 heap0 (Some [firstn 26 hs0; frame (ext_of (B "16384")); frame (data_of (B "0") (B "3") meta1)]) LocalPeerId (sha1 meta1) = (s, FOk meta1).
Proof. exact C110_sizes_refuted_pf. Qed.
Print Assumptions C110_sizes_refuted.

(** C110: "requests carry the number the peer announced for ut_metadata" (BEP 10) is false: a peer that
    announces 3 is asked with extension 1, and so is a peer that does not announce the extension. *)
Theorem C110_extension_id_refuted :
  let q := ascii_of_nat 20 :: ascii_of_nat 1 :: B "d8:msg_typei0e5:piecei0ee" in
  (exists a b, written (f_trace (fst (FetchMetaData calm0 pool0 heap0 (Some [hs0; frame (ext_of (B "15"))]) LocalPeerId (sha1 meta1)))) = [a; b; frame q]) /\
  (exists a b, written (f_trace (fst (FetchMetaData calm0 pool0 heap0 (Some [hs0; frame (ext_plain (B "15"))]) LocalPeerId (sha1 meta1)))) = [a; b; frame q]) /\
  (exists m, In (B "m", VDict m) [(B "m", VDict [(B "ut_metadata", VInt 3)]); (B "metadata_size", VInt 15)] /\ In (B "ut_metadata", VInt 3) m) /\
  bencoding (VDict [(B "m", VDict [(B "ut_metadata", VInt 3)]); (B "metadata_size", VInt 15)]) (skipn 2 (ext_of (B "15"))).
Proof. exact C110_extension_id_refuted_pf. Qed.
Print Assumptions C110_extension_id_refuted.

(** C111: whatever well-framed messages an accepted peer sends - any bodies, any order, any repetition -
    the outcome of the download and everything it writes is what [session] and [verdict] say: on a
    sound pool, without concurrent downloads, when the pool has a buffer for every message or no
    announced size exceeds one piece. *)
Theorem C111_outcome : forall e p h hs bodies peerId infoHash,
  alone e -> calm e -> sane_folding (e_fold e) -> sound_pool p h -> length peerId = 20 -> length infoHash = 20 ->
  length hs <= 68 -> accepted hs -> Forall (fun m => (N.of_nat (length m) < 2 ^ 32)%N) bodies ->
  spoken bodies <= length (chan_of (p_chans p) 32768) \/ (forall m size, In m bodies -> announces m size -> (size <= 16384)%Z) ->
  exists s r out asked ext msgs, FetchMetaData e p h (Some (hs :: map frame bodies)) peerId infoHash = (s, r) /\
    session first_contact bodies out asked /\ verdict sha1 infoHash out r /\
    written (f_trace s) = our_handshake peerId infoHash :: ext :: msgs /\ our_ext_handshake ext /\ Forall2 is_request asked msgs.
Proof. exact C111_outcome_pf. Qed.
Print Assumptions C111_outcome.

(** C111: the messages determine outcome and requests, so the previous theorem leaves nothing open. *)
Theorem C111_deterministic : forall s msgs out asked out' asked',
  session s msgs out asked -> session s msgs out' asked' -> out = out' /\ asked = asked'.
Proof. exact C111_deterministic_pf. Qed.
Print Assumptions C111_deterministic.

(** C111: hence data is returned exactly if the messages complete a session whose pieces, joined, have
    the wanted checksum - and then it is these pieces. *)
Theorem C111_success_iff : forall e p h hs bodies peerId infoHash d,
  alone e -> calm e -> sane_folding (e_fold e) -> sound_pool p h -> length peerId = 20 -> length infoHash = 20 ->
  length hs <= 68 -> accepted hs -> Forall (fun m => (N.of_nat (length m) < 2 ^ 32)%N) bodies ->
  spoken bodies <= length (chan_of (p_chans p) 32768) \/ (forall m size, In m bodies -> announces m size -> (size <= 16384)%Z) ->
  (exists s, FetchMetaData e p h (Some (hs :: map frame bodies)) peerId infoHash = (s, FOk d)) <->
  (exists st asked, session first_contact bodies (Some st) asked /\ (0 <= announced st <= 2 ^ 48)%Z /\ content st = d /\ sha1 d = infoHash).
Proof. exact C111_success_iff_pf. Qed.
Print Assumptions C111_success_iff.

(** C111: one data message for piece 0 is enough, with no announcement and with up to 32 KiB in it. *)
Theorem C111_single_message : forall e p h hs enc d payload u more peerId,
  alone e -> calm e -> sane_folding (e_fold e) -> sound_pool p h -> length peerId = 20 -> length hs <= 68 -> accepted hs ->
  item enc (VDict d) payload u -> In (B "msg_type", VInt 1) d -> In (B "piece", VInt 0) d -> (payload <> [] -> exists t, In (B "total_size", VInt t) d) ->
  length enc <= Z.to_nat 32766 -> Forall (fun m => (N.of_nat (length m) < 2 ^ 32)%N) more -> small_only more ->
  exists s, FetchMetaData e p h (Some (hs :: map frame ((ascii_of_nat 20 :: ascii_of_nat 1 :: enc) :: more))) peerId (sha1 payload) = (s, FOk payload).
Proof. exact C111_single_message_pf. Qed.
Print Assumptions C111_single_message.

(** C111: if the messages so far do not complete the download, a message that cannot be understood,
    or is longer than 32 KiB, ends it for good, whatever follows. *)
Theorem C111_no_second_chance : forall e p h hs before bad after peerId infoHash asked,
  alone e -> calm e -> sane_folding (e_fold e) -> sound_pool p h -> length peerId = 20 -> length infoHash = 20 -> length hs <= 68 -> accepted hs ->
  Forall (fun m => (N.of_nat (length m) < 2 ^ 32)%N) (before ++ bad :: after) ->
  spoken (before ++ bad :: after) <= length (chan_of (p_chans p) 32768) \/ small_only (before ++ bad :: after) ->
  session first_contact before None asked -> Z.to_nat 32768 < length bad \/ (forall s s' a, ~ hears s bad s' a) ->
  exists s ext msgs, FetchMetaData e p h (Some (hs :: map frame (before ++ bad :: after))) peerId infoHash = (s, FErr (ENew (B "FetchMetaData err"))) /\
    written (f_trace s) = our_handshake peerId infoHash :: ext :: msgs /\ Forall2 is_request asked msgs.
Proof. exact C111_no_second_chance_pf. Qed.
Print Assumptions C111_no_second_chance.

(** C111: the theorems apply to a session with a keep-alive, a have message, a reject, another announcement
    and data: the empty pool suffices because both announced sizes fit one piece. *)
Theorem C111_example :
  let bodies := [ext_of (B "9"); []; have5; reject0; ext_of (B "15"); data_of (B "0") (B "99") meta1] in
  alone calm0 /\ calm calm0 /\ sane_folding (e_fold calm0) /\ sound_pool pool0 heap0 /\ accepted hs0 /\ length hs0 <= 68 /\
  Forall (fun m => (N.of_nat (length m) < 2 ^ 32)%N) bodies /\ small_only bodies /\
  session first_contact bodies (Some {| announced := 15; slots := [Some meta1] |}) [0; 0] /\
  exists s, FetchMetaData calm0 pool0 heap0 (Some (hs0 :: map frame bodies)) LocalPeerId (sha1 meta1) = (s, FOk meta1).
Proof. exact C111_example_pf. Qed.
Print Assumptions C111_example.

(** C111: what the session relation says in three cases: of two data messages for a piece the last one
    counts, a new announcement discards what was there, and the order of the pieces is free. *)
Theorem C111_rules_example :
  let two := {| announced := 16385; slots := [None; None] |} in
  hears first_contact (ext_of (B "16385")) two [0; 1] /\
  hears two (data_of (B "1") (B "0") (B "b")) {| announced := 16385; slots := [None; Some (B "b")] |} [] /\
  hears {| announced := 16385; slots := [None; Some (B "b")] |} (data_of (B "1") (B "0") (B "c")) {| announced := 16385; slots := [None; Some (B "c")] |} [] /\
  hears {| announced := 16385; slots := [None; Some (B "c")] |} (ext_of (B "16385")) two [0; 1] /\
  (exists s, FetchMetaData calm0 pool2 heap2 (Some [hs0; frame (ext_of (B "16385")); frame (data_of (B "1") (B "0") (B "b"));
     frame (data_of (B "1") (B "0") (B "c")); frame (data_of (B "0") (B "0") (B "a"))]) LocalPeerId (sha1 (B "ac")) = (s, FOk (B "ac"))).
Proof. exact C111_rules_example_pf. Qed.
Print Assumptions C111_rules_example.

(** C111: messages that are never understood: an extension message without a number, an announcement
    without "m" or with a negative number of pieces, data for a piece beyond the announced ones. *)
Theorem C111_not_understood_example :
  (forall s s' a, ~ hears s [ascii_of_nat 20] s' a) /\
  (forall s s' a, ~ hears s (ascii_of_nat 20 :: ascii_of_nat 0 :: B "d13:metadata_sizei15ee") s' a) /\
  (forall s s' a, ~ hears s (ext_of (B "-20000")) s' a) /\
  (forall s' a, ~ hears first_contact (data_of (B "1") (B "15") meta1) s' a) /\
  (exists s, FetchMetaData calm0 pool0 heap0 (Some [hs0; frame (ext_of (B "15")); frame [ascii_of_nat 20]; frame (data_of (B "0") (B "15") meta1)])
     LocalPeerId (sha1 meta1) = (s, FErr (ENew (B "FetchMetaData err")))).
Proof. exact C111_not_understood_example_pf. Qed.
Print Assumptions C111_not_understood_example.
