(** P_Timed.v -- property theorems (generated by tools/gen_p.py from TimedPf.v).
    Each statement is repeated in full and closed by [exact]. *)
From Verif Require Import Base GoLib Bencode BencodeSpec BencodeProofs BencodePf Types TypesPf Krpc KrpcProofs BytesPool BytesPoolPf Sha1 PeerWire PeerWirePf Fetch FetchSpec FetchProofs FetchPf Timed TimedSim TimedSpec.
From Verif Require Import BytesPool.
Local Open Scope list_scope.
From Verif Require Import TimedPf.

(** C117: a call that ends does so within 4 seconds (3 to connect, 1 to listen) plus the crawler's own
    delays - computing, being preempted, and its Writes -, whatever the peer does; a refused or silent
    peer costs at most 3 seconds. *)
Theorem C117_duration : forall w dial p h script peerId infoHash delta t r ops,
  (forall n, delays (w_lag w) (w_dur w) n <= delta)%N ->
  timed_fetch w dial p h script peerId infoHash = (t, r, ops) ->
  (t <= 4000 + delta)%N /\ (match dial with Accepts t0 => t0 < 3000 | _ => False end \/ (t <= 3000 /\ ops = []))%N.
Proof. exact C117_duration_pf. Qed.
Print Assumptions C117_duration.

(** C117: every timed run is an untimed download (Fetch.v) fed with an initial part of what came within
    the first second; bytes that come later never count.  The 10 s limit plays no part unless the
    crawler's own delays add up to 9 s. *)
Theorem C117_only_the_first_second : forall w t0 p h script peerId infoHash t r ops, (t0 < 3000)%N ->
  timed_fetch w (Accepts t0) p h script peerId infoHash = (t, r, ops) ->
  exists expired sc s, heard_part sc script /\ FetchMetaData (with_timer (w_env w) expired) p h (Some sc) peerId infoHash = (s, r) /\ f_trace s = ops /\
    ((forall n, delays (w_lag w) (w_dur w) n < 9000)%N -> forall n, expired n = false).
Proof. exact C117_only_the_first_second_pf. Qed.
Print Assumptions C117_only_the_first_second.

(** C117: if the own delays add up to at most delta, and no run of bytes comes within the last delta milliseconds
    of the first second, the outcome and everything written are exactly those of the untimed download
    fed with all that came within the first second. *)
Theorem C117_exact : forall w t0 p h script peerId infoHash delta t r ops, (t0 < 3000)%N ->
  (forall n, delays (w_lag w) (w_dur w) n <= delta)%N -> (delta < 1000)%N -> (forall a x, In (a, x) script -> a + delta < 1000 \/ 1000 <= a)%N ->
  timed_fetch w (Accepts t0) p h script peerId infoHash = (t, r, ops) ->
  exists expired s, (forall n, expired n = false) /\ FetchMetaData (with_timer (w_env w) expired) p h (Some (heard script)) peerId infoHash = (s, r) /\ f_trace s = ops.
Proof. exact C117_exact_pf. Qed.
Print Assumptions C117_exact.

(** C117: returned data has the requested SHA-1 and a call that returns has closed its connection once, last -
    at whatever times things happen. *)
Theorem C117_authentic_and_closed : forall w t0 p h script peerId infoHash t r ops, (t0 < 3000)%N ->
  timed_fetch w (Accepts t0) p h script peerId infoHash = (t, r, ops) ->
  match r with
  | FOk x => sha1 x = infoHash
  | FErr _ => True
  | FPanic _ => False
  | FStop BlockedWrite => exists n, e_write (w_env w) n = WBlock
  | FStop OutOfMemory => exists n, e_mem (w_env w) n = false
  | FStop OutOfFuel => False
  end /\
  match r with FStop _ => True | _ => exists o, ops = o ++ [CClose] /\ ~ In CClose o end.
Proof. exact C117_authentic_and_closed_pf. Qed.
Print Assumptions C117_authentic_and_closed.

(** C117: an honest peer all of whose messages come in time is served. *)
Theorem C117_honest_in_time : forall w t0 p h script meta during peerId infoHash delta t r ops, (t0 < 3000)%N ->
  (forall n, delays (w_lag w) (w_dur w) n <= delta)%N -> Forall (fun x => fst x + delta < 1000)%N script -> (delta < 1000)%N ->
  alone (w_env w) -> calm (w_env w) -> sound_pool p h -> length peerId = 20 -> sha1 meta = infoHash -> (Z.of_nat (length meta) <= 2 ^ 48)%Z ->
  honest meta (map snd script) during -> carrying during <= Nat.max 1 (length (chan_of (p_chans p) 32768)) ->
  timed_fetch w (Accepts t0) p h script peerId infoHash = (t, r, ops) -> r = FOk meta /\ (t < 4000 + delta)%N.
Proof. exact C117_honest_in_time_pf. Qed.
Print Assumptions C117_honest_in_time.

(** C117: a connection after 120 ms, the four messages of an honest peer after 100, 200, 300 and 400 ms
    more, an own delay of 50 ms: the metadata is there 520 ms after the call. *)
Theorem C117_example :
  (forall n, delays (w_lag w1) (w_dur w1) n <= 50)%N /\ delays (w_lag w1) (w_dur w1) 4 = 50%N /\
  Forall (fun x => fst x + 50 < 1000)%N (at_times [100; 200; 300; 400]%N script1) /\ map snd (at_times [100; 200; 300; 400]%N script1) = script1 /\
  honest meta1 script1 [Piece 0 (data_of (B "0") (B "15") meta1)] /\ alone calm0 /\ calm calm0 /\ sound_pool pool0 heap0 /\
  exists ops, timed_fetch w1 (Accepts 120) pool0 heap0 (at_times [100; 200; 300; 400]%N script1) LocalPeerId (sha1 meta1) = (520%N, FOk meta1, ops).
Proof. exact C117_example_pf. Qed.
Print Assumptions C117_example.

(** C117: the limit in force is 1 second for the whole conversation, not 10: an honest peer whose last message comes
    1200 ms after the connection was made is not served, though nobody else disturbs, no own
    delay occurs and the same messages in time are. *)
Theorem C117_slow_peer_refuted :
  honest meta1 script1 [Piece 0 (data_of (B "0") (B "15") meta1)] /\ (forall n, delays (w_lag (w0 (fun _ => 0%N))) (w_dur (w0 (fun _ => 0%N))) n = 0%N) /\
  (exists x ops, timed_fetch (w0 (fun _ => 0%N)) (Accepts 120) pool0 heap0 (at_times [400; 800; 800; 1200]%N script1) LocalPeerId (sha1 meta1) = (1120%N, FErr x, ops)) /\
  (exists ops, timed_fetch (w0 (fun _ => 0%N)) (Accepts 120) pool0 heap0 (at_times [400; 800; 800; 950]%N script1) LocalPeerId (sha1 meta1) = (1070%N, FOk meta1, ops)).
Proof. exact C117_slow_peer_refuted_pf. Qed.
Print Assumptions C117_slow_peer_refuted.

(** C117: Writes have no deadline: one Write of any length d of at least a second delays the whole call by d, and the call then
    fails although everything the peer has to say is there. *)
Theorem C117_write_refuted : forall d peerId infoHash, (1000 <= d)%N -> length peerId = 20 -> length infoHash = 20 ->
  exists dur, (forall n, dur n = 0 \/ (n = 1%nat /\ dur n = d))%N /\
  exists x ops, timed_fetch (w0 dur) (Accepts 0) pool0 heap0 (at_times [0; 0; 0; 0]%N script1) peerId infoHash = (d, FErr x, ops).
Proof. exact C117_write_refuted_pf. Qed.
Print Assumptions C117_write_refuted.
