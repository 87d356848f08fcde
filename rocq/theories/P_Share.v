(** P_Share.v -- property theorems (generated by tools/gen_p.py from SharePf.v).
    Each statement is repeated in full and closed by [exact]. *)
From Verif Require Import Base GoLib Bencode BencodeSpec BencodeProofs BencodePf Types TypesPf Krpc KrpcProofs BytesPool BytesPoolPf Sha1 PeerWire PeerWirePf Fetch FetchSpec FetchProofs FetchPf SessionSpec SessionProofs SessionRun SessionPf ShareSpec ShareProofs.
From Verif Require Import BytesPool.
Local Open Scope list_scope.
From Verif Require Import SharePf.

(** C112: the others take, fill and give back buffers at any time, in any order.  If the big buffers they
    take during this download and the messages it receives together do not exceed the big buffers
    in the pool at its start, outcome and writes are those of a download alone. *)
Theorem C112_outcome : forall e acts k p h hs bodies peerId infoHash,
  sharing e acts -> (forall t, taken acts t <= k) ->
  calm e -> sane_folding (e_fold e) -> sound_shared p h -> length peerId = 20 -> length infoHash = 20 ->
  length hs <= 68 -> accepted hs -> Forall (fun m => (N.of_nat (length m) < 2 ^ 32)%N) bodies ->
  k + spoken bodies <= length (chan_of (p_chans p) 32768) ->
  exists s r out asked ext msgs, FetchMetaData e p h (Some (hs :: map frame bodies)) peerId infoHash = (s, r) /\
    session first_contact bodies out asked /\ verdict sha1 infoHash out r /\
    written (f_trace s) = our_handshake peerId infoHash :: ext :: msgs /\ our_ext_handshake ext /\ Forall2 is_request asked msgs.
Proof. exact C112_outcome_pf. Qed.
Print Assumptions C112_outcome.

(** C112: hence the same data, or the same error, as with nobody else around and any other sound pool
    that is large enough. *)
Theorem C112_as_if_alone : forall e acts k e' p h p' h' hs bodies peerId infoHash,
  sharing e acts -> (forall t, taken acts t <= k) -> alone e' ->
  calm e -> calm e' -> sane_folding (e_fold e) -> sane_folding (e_fold e') -> sound_shared p h -> sound_pool p' h' ->
  length peerId = 20 -> length infoHash = 20 -> length hs <= 68 -> accepted hs -> Forall (fun m => (N.of_nat (length m) < 2 ^ 32)%N) bodies ->
  k + spoken bodies <= length (chan_of (p_chans p) 32768) -> spoken bodies <= length (chan_of (p_chans p') 32768) ->
  snd (FetchMetaData e p h (Some (hs :: map frame bodies)) peerId infoHash) = snd (FetchMetaData e' p' h' (Some (hs :: map frame bodies)) peerId infoHash).
Proof. exact C112_as_if_alone_pf. Qed.
Print Assumptions C112_as_if_alone.

(** C112: whatever the peer sends, whatever the others do and however the download ends, the pool is
    sound afterwards, and no buffer is at once in the pool and with another download. *)
Theorem C112_pool_stays_sound : forall e acts p h peer peerId infoHash s r,
  sharing e acts -> sound_shared p h -> FetchMetaData e p h peer peerId infoHash = (s, r) -> sound_shared (f_pool s) (f_heap s).
Proof. exact C112_pool_stays_sound_pf. Qed.
Print Assumptions C112_pool_stays_sound.

(** C112: and it never touches a buffer another download holds: if the others write nothing and give
    nothing back meanwhile, they still hold the same buffers, with the same contents. *)
Theorem C112_others_unharmed : forall e acts p h peer peerId infoHash s r,
  sharing e acts -> (forall t a, In a (acts t) -> exists big, a = OGet big) -> sound_shared p h -> FetchMetaData e p h peer peerId infoHash = (s, r) ->
  (exists more, theirs (f_pool s) = theirs p ++ more) /\ forall b, In b (theirs p) -> h_read (f_heap s) b = h_read h b.
Proof. exact C112_others_unharmed_pf. Qed.
Print Assumptions C112_others_unharmed.

(** C112: the theorems apply: a pool of two big buffers, others that take one of them, and one message. *)
Theorem C112_example :
  sharing (follow busy) busy /\ (forall t, taken busy t <= 1) /\ calm (follow busy) /\ sane_folding (e_fold (follow busy)) /\ sound_shared pool2 heap2 /\
  accepted hs0 /\ 1 + spoken one_data <= length (chan_of (p_chans pool2) 32768) /\
  (exists s, FetchMetaData (follow busy) pool2 heap2 (Some (hs0 :: map frame one_data)) LocalPeerId (sha1 meta1) = (s, FOk meta1)).
Proof. exact C112_example_pf. Qed.
Print Assumptions C112_example.

(** C112: one buffer more and it is false: of a pool of two, the others take two, the second of which
    is the one in which this download left its only piece. *)
Theorem C112_overdrawn_refuted :
  sharing (follow greedy) greedy /\ calm (follow greedy) /\ sound_shared pool2 heap2 /\ taken greedy 7 = 2 /\ spoken one_data = 1 /\
  length (chan_of (p_chans pool2) 32768) = 2 /\
  (exists s, FetchMetaData calm0 pool2 heap2 (Some (hs0 :: map frame one_data)) LocalPeerId (sha1 meta1) = (s, FOk meta1)) /\
  exists s, FetchMetaData (follow greedy) pool2 heap2 (Some (hs0 :: map frame one_data)) LocalPeerId (sha1 meta1) = (s, FErr (ENew (B "check sum err"))).
Proof. exact C112_overdrawn_refuted_pf. Qed.
Print Assumptions C112_overdrawn_refuted.

Theorem C112_holding_example : sound_shared pool4 heap4 /\ length (theirs pool4) = 2 /\
  (exists s, FetchMetaData calm0 pool4 heap4 (Some (hs0 :: map frame one_data)) LocalPeerId (sha1 meta1) = (s, FOk meta1)).
Proof. exact C112_holding_example_pf. Qed.
Print Assumptions C112_holding_example.
