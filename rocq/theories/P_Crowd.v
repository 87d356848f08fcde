(** P_Crowd.v -- property theorems (generated by tools/gen_p.py from CrowdPf.v).
    Each statement is repeated in full and closed by [exact]. *)
From Verif Require Import Base GoLib Bencode BencodeSpec BencodeProofs BencodePf Types TypesPf Krpc KrpcProofs BytesPool BytesPoolPf Sha1 PeerWire PeerWirePf Fetch FetchSpec FetchProofs FetchPf SessionSpec SessionProofs SessionRun SessionPf ShareSpec ShareProofs SharePf Crowd CrowdSim CrowdOk CrowdProofs.
From Verif Require Import BytesPool.
Local Open Scope list_scope.
From Verif Require Import CrowdPf.

(** C116: in any interleaving of any number of downloads, each that is over went exactly like a single
    download (Fetch.v) from some sound state of the pool, the rest of the crowd playing the part of
    "the others" of C112; if it began when the crowd was at c0, k counts the big buffers the others
    took meanwhile. *)
Theorem C116_each_is_a_download : forall p h c0 c l1 d l2 r ops,
  reached p h c0 -> csteps c0 c -> length (c_dls c0) <= length l1 -> c_dls c = l1 ++ d :: l2 -> ended d r ops ->
  exists e acts k p0 h0 s, sharing e acts /\ (forall t, taken acts t <= k) /\ sound_shared p0 h0 /\
    e_exp e = e_exp (d_env d) /\ e_write e = e_write (d_env d) /\ e_mem e = e_mem (d_env d) /\ e_ford e = e_ford (d_env d) /\ e_fold e = e_fold (d_env d) /\
    FetchMetaData e p0 h0 (d_peer d) (d_id d) (d_hash d) = (s, r) /\ f_trace s = ops /\
    k + bigs (c_dls c0) + big_buffers (c_pool c0) <= bigs (l1 ++ l2) + big_buffers p0.
Proof. exact C116_each_is_a_download_pf. Qed.
Print Assumptions C116_each_is_a_download.

(** C116: whatever the peers send and however the downloads overlap, returned data has the requested
    SHA-1, a call that returns has closed its connection exactly once, last, and a call gets stuck only by
    its own Write or for want of memory. *)
Theorem C116_authentic_and_closed : forall p h c d r ops, reached p h c -> In d (c_dls c) -> ended d r ops ->
  match r with
  | FOk x => sha1 x = d_hash d
  | FErr _ => True
  | FPanic _ => False
  | FStop BlockedWrite => exists n, e_write (d_env d) n = WBlock
  | FStop OutOfMemory => exists n, e_mem (d_env d) n = false
  | FStop OutOfFuel => False
  end /\
  (d_peer d <> None -> match r with FStop _ => True | _ => exists t, ops = t ++ [CClose] /\ ~ In CClose t end).
Proof. exact C116_authentic_and_closed_pf. Qed.
Print Assumptions C116_authentic_and_closed.

(** C116: a download begins when the crowd is at c0, or later.  If the big buffers the others take between c0
    and c and the messages this download receives together do not exceed the big buffers in the pool at
    c0, its outcome and everything it writes are decided by its own peer's messages alone. *)
Theorem C116_outcome : forall p h c0 c l1 d l2 hs bodies r ops,
  reached p h c0 -> csteps c0 c -> length (c_dls c0) <= length l1 -> c_dls c = l1 ++ d :: l2 -> plain d hs bodies ->
  bigs (l1 ++ l2) - bigs (c_dls c0) + spoken bodies <= big_buffers (c_pool c0) -> ended d r ops ->
  exists out asked ext msgs, session first_contact bodies out asked /\ verdict sha1 (d_hash d) out r /\
    written ops = our_handshake (d_id d) (d_hash d) :: ext :: msgs /\ our_ext_handshake ext /\ Forall2 is_request asked msgs.
Proof. exact C116_outcome_pf. Qed.
Print Assumptions C116_outcome.

(** C116: a download takes no more big buffers than its peer sends messages that are not keep-alives. *)
Theorem C116_thrift : forall p h c d hs bodies,
  reached p h c -> In d (c_dls c) -> d_peer d = Some (hs :: map frame bodies) -> length hs <= 68 -> Forall (fun m => (N.of_nat (length m) < 2 ^ 32)%N) bodies ->
  d_big d <= spoken bodies.
Proof. exact C116_thrift_pf. Qed.
Print Assumptions C116_thrift.

(** C116: if every peer sends whole messages and all their messages together are no more than the big
    buffers in the pool at the start, every download that is over, in whatever order they advanced, has
    the outcome of its own session. *)
Theorem C116_enough_for_all : forall p h c peers,
  reached p h c -> Forall2 (fun d x => plain d (fst x) (snd x)) (c_dls c) peers ->
  list_sum (map (fun x => spoken (snd x)) peers) <= big_buffers p ->
  forall i d hs bodies r ops, nth_error (c_dls c) i = Some d -> nth_error peers i = Some (hs, bodies) -> ended d r ops ->
  exists out asked ext msgs, session first_contact bodies out asked /\ verdict sha1 (d_hash d) out r /\
    written ops = our_handshake (d_id d) (d_hash d) :: ext :: msgs /\ our_ext_handshake ext /\ Forall2 is_request asked msgs.
Proof. exact C116_enough_for_all_pf. Qed.
Print Assumptions C116_enough_for_all.

(** C116: under the same condition a download from an honest peer returns the metadata, whoever else is
    downloading what from whom. *)
Theorem C116_honest_peer : forall p h c0 c l1 d l2 hs bodies meta during r ops,
  reached p h c0 -> csteps c0 c -> length (c_dls c0) <= length l1 -> c_dls c = l1 ++ d :: l2 -> plain d hs bodies ->
  honest meta (hs :: map frame bodies) during -> sha1 meta = d_hash d -> (Z.of_nat (length meta) <= 2 ^ 48)%Z ->
  bigs (l1 ++ l2) - bigs (c_dls c0) + spoken bodies <= big_buffers (c_pool c0) -> ended d r ops ->
  r = FOk meta.
Proof. exact C116_honest_peer_pf. Qed.
Print Assumptions C116_honest_peer.

(** C116: at every moment the pool is sound and every buffer is in at most one place: with one download or in
    the pool. *)
Theorem C116_no_buffer_twice : forall p h c, reached p h c -> sound_pool (c_pool c) (c_heap c) /\
  NoDup (map s_arr (flat_map d_held (c_dls c) ++ chan_of (p_chans (c_pool c)) 4 ++ chan_of (p_chans (c_pool c)) 32768)).
Proof. exact C116_no_buffer_twice_pf. Qed.
Print Assumptions C116_no_buffer_twice.

(** C116: no access of one download changes a buffer another one holds. *)
Theorem C116_held_data_safe : forall p h c l1 d l2 p' h' d', reached p h c -> c_dls c = l1 ++ d :: l2 ->
  advance (c_pool c) (c_heap c) d = (p', h', d') ->
  forall x b, In x (l1 ++ l2) -> In b (d_held x) -> h_read h' b = h_read (c_heap c) b.
Proof. exact C116_held_data_safe_pf. Qed.
Print Assumptions C116_held_data_safe.

(** C116: no download ever waits for another: from every state, one that is not over can run to its end by
    its own accesses alone, the others standing still. *)
Theorem C116_never_waits : forall p h l1 d l2, exists p' h' d' r ops,
  csteps {| c_pool := p; c_heap := h; c_dls := l1 ++ d :: l2 |} {| c_pool := p'; c_heap := h'; c_dls := l1 ++ d' :: l2 |} /\ ended d' r ops /\ d_peer d' = d_peer d /\ d_hash d' = d_hash d.
Proof. exact C116_never_waits_pf. Qed.
Print Assumptions C116_never_waits.

(** C116: the theorems apply: two downloads, turn by turn, on a pool of two big buffers, each with one message:
    both succeed. *)
Theorem C116_example : reached pool2 heap2 (play turns (two pool2 heap2)) /\
  Forall2 (fun d x => plain d (fst x) (snd x)) (c_dls (two pool2 heap2)) [(hs0, says meta1); (hs0, says metaB)] /\
  spoken (says meta1) + spoken (says metaB) <= big_buffers pool2 /\
  (exists d ops, nth_error (c_dls (play turns (two pool2 heap2))) 0 = Some d /\ ended d (FOk meta1) ops) /\
  exists d ops, nth_error (c_dls (play turns (two pool2 heap2))) 1 = Some d /\ ended d (FOk metaB) ops.
Proof. exact C116_example_pf. Qed.
Print Assumptions C116_example.

(** C116: without enough buffers it is false: in a freshly started crawler - the pool is empty - two honest
    peers send one small message each; the second download gets the buffer in which the first has left its
    piece, and the first fails with a checksum error, although alone it succeeds. *)
Theorem C116_fresh_start_refuted : reached pool0 heap0 (play overtaken (two pool0 heap0)) /\ big_buffers pool0 = 0 /\
  (exists d ops, nth_error (c_dls (play overtaken (two pool0 heap0))) 0 = Some d /\ ended d (FErr (ENew (B "check sum err"))) ops) /\
  (exists d ops, nth_error (c_dls (play overtaken (two pool0 heap0))) 1 = Some d /\ ended d (FOk metaB) ops) /\
  exists d ops, nth_error (c_dls (play (repeat 0 20) (two pool0 heap0))) 0 = Some d /\ ended d (FOk meta1) ops.
Proof. exact C116_fresh_start_refuted_pf. Qed.
Print Assumptions C116_fresh_start_refuted.
