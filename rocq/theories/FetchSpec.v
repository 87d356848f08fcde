(** FetchSpec.v -- what a BitTorrent peer that serves metadata (BEP 3, 9, 10) sends, and what a
    sound shared buffer pool is; written without the functions of Fetch.v and PeerWire.v (only the
    records describing the environment and the connection operations come from there). *)
From Verif Require Import Base Bencode BencodeSpec BytesPool Fetch.
Local Open Scope list_scope.

(** A number below 2^32 as four bytes, big endian. *)
Definition be32 (n : nat) : bytes :=
  map (fun d => ascii_of_N ((N.of_nat n / d) mod 256)) [16777216; 65536; 256; 1]%N.
(** BEP 3: a length-prefixed message. *)
Definition frame (body : bytes) : bytes := be32 (length body) ++ body.

(** BEP 3: a handshake naming the protocol and announcing extension support (BEP 10). *)
Definition good_handshake (hs : bytes) : Prop :=
  exists r5 rest a b, hs = ascii_of_nat 19 :: B "BitTorrent protocol" ++ a ++ r5 :: b ++ rest /\
    length a = 5 /\ length b = 2 /\ length rest = 40 /\ N.testbit (N_of_ascii r5) 4 = true.

(** BEP 10/9: the extended handshake: message 20, extended id 0, a dictionary that has a dictionary
    "m" and announces the metadata size. *)
Definition ext_handshake (body : bytes) (size : Z) : Prop :=
  exists d enc m, body = ascii_of_nat 20 :: ascii_of_nat 0 :: enc /\ bencoding (VDict d) enc /\
    In (B "m", VDict m) d /\ In (B "metadata_size", VInt size) d.

(** The i-th piece of the metadata: 16 KiB each, the last one shorter. *)
Definition kb16 : nat := Z.to_nat 16384.
Definition piece_of (meta : bytes) (i : nat) : bytes := firstn kb16 (skipn (i * kb16) meta).

(** The number of pieces: the least k with k * 16 KiB >= size. *)
Definition pieces_needed (size k : Z) : Prop := ((k - 1) * 16384 < size <= k * 16384)%Z.

(** BEP 9: a data message carrying piece i, as this client asked for it (extended id 1). *)
Definition data_msg (meta : bytes) (i : nat) (body : bytes) : Prop :=
  exists d enc total, body = ascii_of_nat 20 :: ascii_of_nat 1 :: enc ++ piece_of meta i /\ bencoding (VDict d) enc /\
    In (B "msg_type", VInt 1) d /\ In (B "piece", VInt (Z.of_nat i)) d /\ In (B "total_size", VInt total) d.

(** BEP 9: a request for piece i, sent to a peer's extension 1; the dictionary has exactly the two keys. *)
Definition is_request (i : nat) (msg : bytes) : Prop :=
  exists d enc, msg = frame (ascii_of_nat 20 :: ascii_of_nat 1 :: enc) /\ bencoding (VDict d) enc /\ Permutation d [(B "msg_type", VInt 0); (B "piece", VInt (Z.of_nat i))].

(** Messages a peer may send besides: other BEP 3 messages, other extensions, rejects. *)
Definition other_msg (body : bytes) : Prop :=
  (exists c t, body = c :: t /\ c <> ascii_of_nat 20) \/
  (exists c t, body = ascii_of_nat 20 :: c :: t /\ c <> ascii_of_nat 0 /\ c <> ascii_of_nat 1) \/
  (exists d enc ty i, body = ascii_of_nat 20 :: ascii_of_nat 1 :: enc /\ bencoding (VDict d) enc /\
     In (B "msg_type", VInt ty) d /\ ty <> 1%Z /\ In (B "piece", VInt i) d).

Inductive peer_msg := KeepAlive | Other (body : bytes) | Piece (i : nat) (body : bytes).
Definition msg_ok (meta : bytes) (m : peer_msg) : Prop :=
  match m with
  | KeepAlive => True
  | Other body => other_msg body /\ length body <= Z.to_nat 32768
  | Piece i body => data_msg meta i body /\ length body <= Z.to_nat 32768
  end.
Definition wire (m : peer_msg) : bytes :=
  match m with KeepAlive => be32 0 | Other body => frame body | Piece _ body => frame body end.
Definition is_piece (m : peer_msg) : option nat := match m with Piece i _ => Some i | _ => None end.
Fixpoint pieces (l : list peer_msg) : list nat :=
  match l with [] => [] | m :: t => match is_piece m with Some i => i :: pieces t | None => pieces t end end.
(** Messages that are not keep-alives. *)
Fixpoint carrying (l : list peer_msg) : nat :=
  match l with [] => 0 | KeepAlive :: t => carrying t | _ :: t => S (carrying t) end.

(** An honest peer serving [meta], one message per Read: the handshake, the extended handshake, then
    [before] without pieces, then [during], starting with a piece, ending with a piece, and
    carrying every piece exactly once, in any order; anything may follow. *)
Inductive honest (meta : bytes) : list bytes -> list peer_msg -> Prop :=
| honest_intro hs noise ext before during rest k :
    good_handshake hs ->
    ext_handshake ext (Z.of_nat (length meta)) -> length ext <= Z.to_nat 32768 ->
    Forall (msg_ok meta) (noise ++ before ++ during) ->
    pieces noise = [] -> pieces before = [] ->
    (exists i body t, during = Piece i body :: t) ->
    (exists i body t, during = t ++ [Piece i body]) ->
    pieces_needed (Z.of_nat (length meta)) (Z.of_nat k) -> Permutation (pieces during) (seq 0 k) ->
    honest meta (hs :: map wire noise ++ frame ext :: map wire before ++ map wire during ++ rest) during.

(** A buffer of capacity w lying inside an allocated array. *)
Definition usable (h : heap) (w : Z) (b : slc) : Prop :=
  s_len b = w /\ s_cap b = w /\ (0 <= s_off b)%Z /\ s_arr b < h_next h /\ Z.to_nat (s_off b + w) <= length (h_data h (s_arr b)).

(** The state of peerBytesPool between fetches: at most 10000 buffers of each of the two widths in
    use (4 and 32768), all usable, no array twice. *)
Definition sound_pool (p : pool) (h : heap) : Prop :=
  p_max p = Z.to_nat 10000 /\
  Forall (usable h 4) (chan_of (p_chans p) 4) /\ length (chan_of (p_chans p) 4) <= p_max p /\
  Forall (usable h 32768) (chan_of (p_chans p) 32768) /\ length (chan_of (p_chans p) 32768) <= p_max p /\
  NoDup (map s_arr (chan_of (p_chans p) 4 ++ chan_of (p_chans p) 32768)).

(** No other goroutine touches the pool or its buffers meanwhile. *)
Definition alone (e : fenv) : Prop := forall t x, e_intf e t x = x.

(** A well-behaved runtime and network: writes succeed, memory suffices, time does not run out,
    maps are visited in some order. *)
Record calm (e : fenv) : Prop := {
  ca_write : forall n, e_write e n = WOk; ca_mem : forall n, e_mem e n = true;
  ca_exp : forall t, e_exp e t = false; ca_ord : forall n x, deq x (e_ford e n x) }.

(** The messages written, in order. *)
Definition written (t : list connop) : list bytes := flat_map (fun c => match c with CWrite b => [b] | _ => [] end) t.

(** The handshake this client sends (BEP 3) and its extended handshake (BEP 10), which offers
    ut_metadata as extension 1. *)
Definition our_handshake (peerId infoHash : bytes) : bytes :=
  ascii_of_nat 19 :: B "BitTorrent protocol" ++ map ascii_of_nat [0; 0; 0; 0; 0; 16; 0; 0] ++ infoHash ++ peerId.
Definition our_ext_handshake (msg : bytes) : Prop :=
  exists enc, msg = frame (ascii_of_nat 20 :: ascii_of_nat 0 :: enc) /\ bencoding (VDict [(B "m", VDict [(B "ut_metadata", VInt 1)])]) enc.
(** Requests for pieces 0, 1, ..., k-1. *)
Definition request_run (l : list bytes) : Prop := exists k, Forall2 is_request (seq 0 k) l.
