(** P_Fetch.v -- property theorems (generated by tools/gen_p.py from FetchPf.v).
    Each statement is repeated in full and closed by [exact]. *)
From Verif Require Import Base GoLib Bencode BencodeSpec BencodeProofs BencodePf Types TypesPf Krpc KrpcProofs BytesPool Sha1 PeerWire PeerWirePf Fetch FetchSpec FetchProofs.
Local Open Scope list_scope.
From Verif Require Import FetchPf.

(** C55: on a sound pool and without interference, when the Read of the prefix delivers at least
    four bytes declaring n: a keep-alive is reported iff n = 0, a length above 32 KiB is
    refused, and otherwise the message is whatever the next Read returns - at most 32 KiB of it -
    no matter what n was.  (Four bytes at the very end of the stream give the read error.) *)
Theorem C55_frame_reading : forall e s n more rest,
  alone e -> sound_pool (f_pool s) (f_heap s) -> f_script s = (be32 n ++ more) :: rest -> (N.of_nat n < 2 ^ 32)%N ->
  (n = 0 -> exists s1, readBytesByPrefixLenMsg e s = (s1, FOk None)) /\
  (n > Z.to_nat 32768 -> exists s1, readBytesByPrefixLenMsg e s = (s1, FErr (ENew (B "read input toolarge")))) /\
  (1 <= n <= Z.to_nat 32768 ->
     match (match more with [] => rest | _ => more :: rest end) with
     | chunk :: _ => exists s1 b, readBytesByPrefixLenMsg e s = (s1, FOk (Some b)) /\ h_read (f_heap s1) b = firstn (Z.to_nat 32768) chunk
     | [] => exists s1, readBytesByPrefixLenMsg e s = (s1, FErr EIO)
     end).
Proof. exact C55_frame_reading_pf. Qed.
Print Assumptions C55_frame_reading.

(** C55: whatever arrives, and in whatever pieces, no message longer than 32 KiB is returned. *)
Theorem C55_at_most_32k : forall e s s1 b, alone e -> sound_pool (f_pool s) (f_heap s) ->
  readBytesByPrefixLenMsg e s = (s1, FOk (Some b)) -> length (h_read (f_heap s1) b) <= Z.to_nat 32768.
Proof. exact C55_at_most_32k_pf. Qed.
Print Assumptions C55_at_most_32k.

(** C55: "one call returns one declared message" is false: two messages in one TCP segment are
    returned as one, half a message is returned as a whole one, and after a short read of the
    prefix the old contents of a recycled buffer complete it. *)
Theorem C55_one_message_refuted :
  (exists s1 b, readBytesByPrefixLenMsg calm0 (at_script pool0 heap0 [frame (B "ab") ++ frame (B "c")]) = (s1, FOk (Some b)) /\
     h_read (f_heap s1) b = B "ab" ++ frame (B "c")) /\
  (exists s1 b, readBytesByPrefixLenMsg calm0 (at_script pool0 heap0 [be32 4; B "ab"; B "cd"]) = (s1, FOk (Some b)) /\
     h_read (f_heap s1) b = B "ab") /\
  (exists p h s1 b, sound_pool p h /\
     readBytesByPrefixLenMsg calm0 (at_script p h [map ascii_of_nat [0; 0; 0]; ascii_of_nat 2 :: B "hi"]) = (s1, FOk (Some b)) /\
     h_read (f_heap s1) b = ascii_of_nat 2 :: B "hi").
Proof. exact C55_one_message_refuted_pf. Qed.
Print Assumptions C55_one_message_refuted.

(** C56: for every peer, every way Read splits the stream, every outcome of writes, allocations
    and the timer, and every interference by other goroutines on the shared buffers: returned
    data has the requested SHA-1. *)
Theorem C56_authentic : forall e p h peer peerId infoHash s d,
  FetchMetaData e p h peer peerId infoHash = (s, FOk d) -> sha1 d = infoHash.
Proof. exact C56_authentic_pf. Qed.
Print Assumptions C56_authentic.

(** C56: data is returned to a peer that serves it, and refused when one byte differs. *)
Theorem C56_example :
  (exists s, FetchMetaData calm0 pool0 heap0 (Some script1) LocalPeerId (sha1 meta1) = (s, FOk meta1)) /\
  (exists s, FetchMetaData calm0 pool0 heap0 (Some [hs0; frame (ext_of (B "15")); frame (data_of (B "0") (B "15") (B "d4:name5:hellOe"))])
     LocalPeerId (sha1 meta1) = (s, FErr (ENew (B "check sum err")))).
Proof. exact C56_example_pf. Qed.
Print Assumptions C56_example.

(** C57: for every peer and environment: no panic escapes; when the call returns, the connection
    has been closed exactly once, as the last operation; the call fails to return only if a
    Write blocks forever or the process runs out of memory (the loop itself is finite). *)
Theorem C57_finishes_closed : forall e p h script peerId infoHash s r,
  FetchMetaData e p h (Some script) peerId infoHash = (s, r) ->
  match r with
  | FOk _ | FErr _ => exists t, f_trace s = t ++ [CClose] /\ ~ In CClose t
  | FPanic _ => False
  | FStop BlockedWrite => exists n, e_write e n = WBlock
  | FStop OutOfMemory => exists n, e_mem e n = false
  | FStop OutOfFuel => False
  end.
Proof. exact C57_finishes_closed_pf. Qed.
Print Assumptions C57_finishes_closed.

(** C57: a failed dial is reported as an error; there is no connection to close. *)
Theorem C57_dial_failure : forall e p h peerId infoHash,
  exists s err, FetchMetaData e p h None peerId infoHash = (s, FErr err) /\ f_trace s = [].
Proof. exact C57_dial_failure_pf. Qed.
Print Assumptions C57_dial_failure.

(** C57: unconditional termination is false: a peer that stops reading blocks the fetching
    goroutine forever (the deadline covers reads only), and a peer announcing a huge
    metadata_size (here 2^46 bytes on a machine with 16 GiB) kills the whole process. *)
Theorem C57_peer_can_hang_or_kill_refuted :
  (exists e script s, (forall t x, e_intf e t x = x) /\ (forall n, e_mem e n = true) /\
     FetchMetaData e pool0 heap0 (Some script) LocalPeerId (sha1 meta1) = (s, FStop BlockedWrite)) /\
  (exists e script s, (forall t x, e_intf e t x = x) /\ (forall n, e_write e n = WOk) /\ (forall n, (n <= 2 ^ 34)%Z -> e_mem e n = true) /\
     FetchMetaData e pool0 heap0 (Some script) LocalPeerId (sha1 meta1) = (s, FStop OutOfMemory)).
Proof. exact C57_peer_can_hang_or_kill_refuted_pf. Qed.
Print Assumptions C57_peer_can_hang_or_kill_refuted.

(** C59: in general: an honest peer serving metadata of any size up to 2^48 bytes, its pieces in any order,
    with keep-alives and unrelated messages anywhere, is served - provided the shared pool
    already holds at least as many 32 KiB buffers as messages arrive between the first and the
    last piece (or only one does). *)
Theorem C59_enough_buffers : forall e p h meta script during peerId infoHash,
  alone e -> calm e -> sound_pool p h -> length peerId = 20 -> sha1 meta = infoHash -> (Z.of_nat (length meta) <= 2 ^ 48)%Z ->
  honest meta script during ->
  carrying during <= Nat.max 1 (length (chan_of (p_chans p) 32768)) ->
  exists s, FetchMetaData e p h (Some script) peerId infoHash = (s, FOk meta).
Proof. exact C59_enough_buffers_pf. Qed.
Print Assumptions C59_enough_buffers.

(** C59: two pieces are served from a pool holding two buffers. *)
Theorem C59_enough_buffers_example : honest meta2 script2 [Piece 1 (piece2 1); Piece 0 (piece2 0)] /\ sound_pool pool2 heap2 /\
  exists s, FetchMetaData calm0 pool2 heap2 (Some script2) LocalPeerId (sha1 meta2) = (s, FOk meta2).
Proof. exact C59_enough_buffers_example_pf. Qed.
Print Assumptions C59_enough_buffers_example.

(** C59: without that provision it is false: the same honest peer and an empty (sound) pool - the
    state in which the crawler starts - give a checksum error, because the second piece
    overwrote the first. *)
Theorem C59_multi_piece_refuted :
  honest meta2 script2 [Piece 1 (piece2 1); Piece 0 (piece2 0)] /\ alone calm0 /\ calm calm0 /\ sound_pool pool0 heap0 /\
  exists s, FetchMetaData calm0 pool0 heap0 (Some script2) LocalPeerId (sha1 meta2) = (s, FErr (ENew (B "check sum err"))).
Proof. exact C59_multi_piece_refuted_pf. Qed.
Print Assumptions C59_multi_piece_refuted.

(** C58: metadata of at most 16 KiB: an honest peer is always served, whatever the pool holds. *)
Theorem C58_one_piece : forall e p h meta script during peerId infoHash,
  alone e -> calm e -> sound_pool p h -> length peerId = 20 -> sha1 meta = infoHash -> length meta <= Z.to_nat 16384 ->
  honest meta script during ->
  exists s, FetchMetaData e p h (Some script) peerId infoHash = (s, FOk meta).
Proof. exact C58_one_piece_pf. Qed.
Print Assumptions C58_one_piece.

(** C58: after every fetch - honest peer or not, success or not - the pool is sound again. *)
Theorem C58_pool_stays_sound : forall e p h peer peerId infoHash s r, alone e -> sound_pool p h ->
  FetchMetaData e p h peer peerId infoHash = (s, r) -> sound_pool (f_pool s) (f_heap s).
Proof. exact C58_pool_stays_sound_pf. Qed.
Print Assumptions C58_pool_stays_sound.

Theorem C58_example : honest meta1 script1 [Piece 0 (data_of (B "0") (B "15") meta1)] /\ alone calm0 /\ calm calm0 /\ sound_pool pool0 heap0 /\ sound_pool pool2 heap2.
Proof. exact C58_example_pf. Qed.
Print Assumptions C58_example.

(** C58: with a concurrent fetch (the crawler runs up to 100) the property is false: the stored
    piece still lies in a buffer that was returned to the pool. *)
Theorem C58_concurrent_refuted : honest meta1 script1 [Piece 0 (data_of (B "0") (B "15") meta1)] /\ calm (neighbour 14) /\
  exists s, FetchMetaData (neighbour 14) pool0 heap0 (Some script1) LocalPeerId (sha1 meta1) = (s, FErr (ENew (B "check sum err"))).
Proof. exact C58_concurrent_refuted_pf. Qed.
Print Assumptions C58_concurrent_refuted.

(** C60: a whole session with an honest peer: written are the handshake, the extended handshake and
    one request for each piece 0, ..., k-1, in this order, where k is the number of 16 KiB
    pieces of the announced size - and nothing else. *)
Theorem C60_honest_session : forall e p h meta script during peerId infoHash,
  alone e -> calm e -> sound_pool p h -> length peerId = 20 -> sha1 meta = infoHash -> (Z.of_nat (length meta) <= 2 ^ 48)%Z ->
  honest meta script during -> carrying during <= Nat.max 1 (length (chan_of (p_chans p) 32768)) ->
  exists s r ext k reqs, FetchMetaData e p h (Some script) peerId infoHash = (s, r) /\
    written (f_trace s) = our_handshake peerId infoHash :: ext :: reqs /\ our_ext_handshake ext /\
    pieces_needed (Z.of_nat (length meta)) (Z.of_nat k) /\ Forall2 is_request (seq 0 k) reqs.
Proof. exact C60_honest_session_pf. Qed.
Print Assumptions C60_honest_session.

(** C60: when an extended handshake announcing [size] is handled in any state, the requests sent are
    exactly pieces 0, ..., ceil(size / 16384) - 1. *)
Theorem C60_requests_for_size : forall e b s body size k,
  calm e -> h_read (f_heap s) b = body -> ext_handshake body size -> length body <= Z.to_nat 32768 ->
  (0 <= size <= 2 ^ 48)%Z -> pieces_needed size (Z.of_nat k) ->
  exists s' reqs, handle_msg e b s = (s', FOk tt) /\ written (f_trace s') = written (f_trace s) ++ reqs /\ Forall2 is_request (seq 0 k) reqs.
Proof. exact C60_requests_for_size_pf. Qed.
Print Assumptions C60_requests_for_size.

(** C60: whatever the peer does and whatever fails: nothing is ever written but our handshake, our
    extended handshake and runs of piece requests that each start at piece 0 and go up by one. *)
Theorem C60_only_requests : forall e p h script peerId infoHash s r,
  (forall n x, deq x (e_ford e n x)) -> FetchMetaData e p h (Some script) peerId infoHash = (s, r) ->
  written (f_trace s) = [] \/ written (f_trace s) = [our_handshake peerId infoHash] \/
  exists ext runs, our_ext_handshake ext /\ Forall request_run runs /\
    written (f_trace s) = our_handshake peerId infoHash :: ext :: concat runs.
Proof. exact C60_only_requests_pf. Qed.
Print Assumptions C60_only_requests.

(** C54: the exact shape of a metadata message: length prefix, message 20, the peer's extension
    id, a dictionary with exactly msg_type and piece - and total_size if and only if there is
    payload - followed by the payload. *)
Theorem C54_wire_format : forall (ord : entries -> entries) id ty piece total data msg,
  id < 256 -> is_int ty -> is_int piece -> is_int total -> (forall x, deq x (ord x)) ->
  withExtendedFetchMetaMsg ord (Z.of_nat id) ty piece total data = Ok msg ->
  exists d enc, msg = frame (ascii_of_nat 20 :: ascii_of_nat id :: enc ++ data) /\ bencoding (VDict d) enc /\
    (data = [] -> Permutation d [(B "msg_type", VInt ty); (B "piece", VInt piece)]) /\
    (data <> [] -> Permutation d [(B "msg_type", VInt ty); (B "piece", VInt piece); (B "total_size", VInt total)]).
Proof. exact C54_wire_format_pf. Qed.
Print Assumptions C54_wire_format.

Theorem C60_example : exists s ext r0 r1, fst (FetchMetaData calm0 pool2 heap2 (Some script2) LocalPeerId (sha1 meta2)) = s /\
  written (f_trace s) = [our_handshake LocalPeerId (sha1 meta2); ext; r0; r1] /\
  ext = frame (map ascii_of_nat [20; 0] ++ B "d1:md11:ut_metadatai1eee") /\
  r0 = frame (map ascii_of_nat [20; 1] ++ B "d8:msg_typei0e5:piecei0ee") /\
  r1 = frame (map ascii_of_nat [20; 1] ++ B "d8:msg_typei0e5:piecei1ee").
Proof. exact C60_example_pf. Qed.
Print Assumptions C60_example.

(** C60: a peer need not answer the extended handshake at all: before any announced size the connection
    is ready for one piece, so a peer that sends piece 0 straight away is believed - if the checksum
    is right - without a single request having been sent to it. *)
Theorem C60_unrequested_piece :
  exists s, FetchMetaData calm0 pool0 heap0 (Some [hs0; frame (data_of (B "0") (B "15") meta1)]) LocalPeerId (sha1 meta1) = (s, FOk meta1).
Proof. exact C60_unrequested_piece_pf. Qed.
Print Assumptions C60_unrequested_piece.

(** C61: the same bytes, cut differently: the fetch succeeds, or fails.  (Last two messages in one segment.) *)
Theorem C61_segmentation_refuted : exists script script', concat script = concat script' /\
  (exists s, FetchMetaData calm0 pool0 heap0 (Some script) LocalPeerId (sha1 meta1) = (s, FOk meta1)) /\
  (exists s, FetchMetaData calm0 pool0 heap0 (Some script') LocalPeerId (sha1 meta1) = (s, FErr (ENew (B "FetchMetaData err")))).
Proof. exact C61_segmentation_refuted_pf. Qed.
Print Assumptions C61_segmentation_refuted.

(** C61: cutting one message in two also makes the fetch fail. *)
Theorem C61_split_message_refuted : exists script script', concat script = concat script' /\
  (exists s, FetchMetaData calm0 pool0 heap0 (Some script) LocalPeerId (sha1 meta1) = (s, FOk meta1)) /\
  (exists s err, FetchMetaData calm0 pool0 heap0 (Some script') LocalPeerId (sha1 meta1) = (s, FErr (ENew err))).
Proof. exact C61_split_message_refuted_pf. Qed.
Print Assumptions C61_split_message_refuted.

(** C55: every case occurs: keep-alive, too large, a message in the same segment, a message in the
    next one, and the end of the stream. *)
Theorem C55_example :
  alone calm0 /\ sound_pool pool0 heap0 /\
  (exists s1, readBytesByPrefixLenMsg calm0 (at_script pool0 heap0 [be32 0]) = (s1, FOk None)) /\
  (exists s1, readBytesByPrefixLenMsg calm0 (at_script pool0 heap0 [be32 (Z.to_nat 32769)]) = (s1, FErr (ENew (B "read input toolarge")))) /\
  (exists s1 b, readBytesByPrefixLenMsg calm0 (at_script pool0 heap0 [be32 3 ++ B "abc"]) = (s1, FOk (Some b)) /\ h_read (f_heap s1) b = B "abc") /\
  (exists s1 b, readBytesByPrefixLenMsg calm0 (at_script pool0 heap0 [be32 3; B "abc"]) = (s1, FOk (Some b)) /\ h_read (f_heap s1) b = B "abc") /\
  (exists s1, readBytesByPrefixLenMsg calm0 (at_script pool0 heap0 [be32 3]) = (s1, FErr EIO)).
Proof. exact C55_example_pf. Qed.
Print Assumptions C55_example.

(** C57: a peer that answers the handshake and hangs up: an error, and the connection is closed. *)
Theorem C57_example : exists s err, FetchMetaData calm0 pool0 heap0 (Some [hs0]) LocalPeerId (sha1 meta1) = (s, FErr err) /\
  exists t, f_trace s = t ++ [CClose] /\ ~ In CClose t.
Proof. exact C57_example_pf. Qed.
Print Assumptions C57_example.
