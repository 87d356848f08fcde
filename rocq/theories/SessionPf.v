(** SessionPf.v -- proofs of C110 (what a download demands of the peer) and C111 (the outcome of a
    download for any well-framed peer). *)
From Verif Require Import Base GoLib Bencode BencodeSpec BencodeProofs BencodePf Types TypesPf Krpc KrpcProofs BytesPool Sha1 PeerWire PeerWirePf Fetch FetchSpec FetchProofs FetchPf SessionSpec SessionProofs SessionRun.
Local Open Scope list_scope.

(** ** C110 *)

(** C110: for every peer, way of splitting the stream, pool and environment: data is returned only if
    what the first Read delivered is an acceptable handshake. *)
Lemma C110_handshake_needed_pf : forall e p h script peerId infoHash s d, sane_folding (e_fold e) ->
  FetchMetaData e p h (Some script) peerId infoHash = (s, FOk d) ->
  length peerId = 20 /\ length infoHash = 20 /\ exists seg rest, script = seg :: rest /\ accepted seg.
Proof.
  intros e p h script peerId infoHash s d Hu E. unfold FetchMetaData in E.
  destruct (fetch_body e peerId infoHash (NewPeerConn p h script)) as [sb [x|x|x|x]] eqn:Eb; try discriminate.
  unfold fetch_body, mbind at 1 in Eb.
  destruct (handshakePeer e peerId infoHash (NewPeerConn p h script)) as [s1 [u| | |]] eqn:E1; try discriminate.
  destruct (Nat.eq_dec (length peerId) 20) as [Hp|Hp]; [|rewrite handshake_bad_ids in E1 by auto; discriminate].
  destruct (Nat.eq_dec (length infoHash) 20) as [Hi|Hi]; [|rewrite handshake_bad_ids in E1 by auto; discriminate].
  split; [exact Hp|]. split; [exact Hi|]. rewrite (handshake_eq e _ _ _ Hp Hi) in E1.
  destruct (e_write e _); [|discriminate|discriminate]. unfold after_handshake in E1. cbn [set_io f_script NewPeerConn] in E1.
  destruct script as [|seg rest]; [discriminate|]. exists seg, rest. split; [reflexivity|]. apply (accepted_iff (e_fold e)); [exact Hu|].
  apply (f_equal snd) in E1. cbn [snd] in E1. destruct (hs_fine (e_fold e) (arrived68 seg)); [reflexivity|].
  destruct (parseHandShakeMsg _) as [hh| |]; [destruct (negb _); discriminate|discriminate|discriminate].
Qed.

(** C110: a peer that sends anything else, or nothing, is refused after the handshake was written and
    one Read of 68 bytes done: nothing more is written or read, and the connection is closed. *)
Lemma C110_handshake_refused_pf : forall e p h script peerId infoHash, sane_folding (e_fold e) ->
  length peerId = 20 -> length infoHash = 20 -> e_write e 0 = WOk ->
  (forall seg rest, script = seg :: rest -> ~ accepted seg) ->
  exists s, FetchMetaData e p h (Some script) peerId infoHash = (s, FErr (ENew (B "FetchMetaData err"))) /\
    f_trace s = [CWrite (our_handshake peerId infoHash); CRead 68; CClose].
Proof.
  intros e p h script peerId infoHash Hu Hp Hi Hw Hn. unfold FetchMetaData, fetch_body, mbind at 1.
  rewrite (handshake_eq e _ _ _ Hp Hi). cbn [f_trace NewPeerConn length]. rewrite Hw. unfold after_handshake. cbn [set_io f_script NewPeerConn].
  destruct script as [|seg rest]; [eexists; split; reflexivity|].
  destruct (hs_fine (e_fold e) (arrived68 seg)) eqn:Ef; [exfalso; apply (Hn _ _ eq_refl); apply (accepted_iff (e_fold e)); assumption|].
  destruct (parseHandShakeMsg (arrived68 seg)) as [hh|x|x] eqn:Ep.
  - destruct (negb _); eexists; split; reflexivity.
  - exfalso. eapply parse_no_err. exact Ep.
  - eexists. split; reflexivity.
Qed.

Lemma fetch_split e peerId infoHash : exists k, forall s, fetch_body e peerId infoHash s = mbind (handshakePeer e peerId infoHash) k s.
Proof. eexists. intros s. reflexivity. Qed.

(** C110: the two identifiers in the peer's handshake play no part: for two peers that differ only
    in them, result and actions are the same. *)
Lemma C110_ids_ignored_pf : forall e p h a t t' rest peerId infoHash, length a = 28 -> length t = 40 -> length t' = 40 ->
  let one := FetchMetaData e p h (Some ((a ++ t) :: rest)) peerId infoHash in
  let two := FetchMetaData e p h (Some ((a ++ t') :: rest)) peerId infoHash in
  snd one = snd two /\ f_trace (fst one) = f_trace (fst two).
Proof.
  intros e p h a t t' rest peerId infoHash Ha Ht Ht'. cbv zeta.
  unfold FetchMetaData. destruct (fetch_split e peerId infoHash) as (k & Ek). rewrite !Ek. unfold mbind.
  destruct (Nat.eq_dec (length peerId) 20) as [Hp|Hp]; [|rewrite !handshake_bad_ids by auto; split; reflexivity].
  destruct (Nat.eq_dec (length infoHash) 20) as [Hi|Hi]; [|rewrite !handshake_bad_ids by auto; split; reflexivity].
  assert (K : forall u, length u = 40 -> handshakePeer e peerId infoHash (NewPeerConn p h ((a ++ u) :: rest)) =
    match e_write e 0 with
    | WOk => (set_io (set_io (NewPeerConn p h ((a ++ u) :: rest)) ((a ++ u) :: rest) (CWrite (our_handshake peerId infoHash))) rest (CRead handShakeLen),
              if hs_fine (e_fold e) (arrived68 (a ++ u)) then FOk tt else
              match parseHandShakeMsg (arrived68 (a ++ u)) with
              | Ok h => if negb (EqualFold (e_fold e) supportProtocolName (hs_protocol h))
                        then FPanic (PStr (B "get handshake not support bittoroute protocol"))
                        else FPanic (PStr (B "get handshake not support extended protocol"))
              | Err x => FErr x
              | Panic x => FPanic x
              end)
    | WErr => (set_io (NewPeerConn p h ((a ++ u) :: rest)) ((a ++ u) :: rest) (CWrite (our_handshake peerId infoHash)), FPanic (PStr (B "write handshake err")))
    | WBlock => (set_io (NewPeerConn p h ((a ++ u) :: rest)) ((a ++ u) :: rest) (CWrite (our_handshake peerId infoHash)), FStop BlockedWrite)
    end).
  { intros u Hl. rewrite (handshake_eq e _ _ _ Hp Hi). cbn [f_trace NewPeerConn length f_script]. destruct (e_write e 0); [|reflexivity|reflexivity].
    unfold after_handshake. cbn [set_io f_script]. replace (skipn handShakeLen (a ++ u)) with (@nil byte); [reflexivity|].
    symmetry. apply skipn_all2. rewrite app_length, Ha, Hl. unfold handShakeLen. lia. }
  rewrite (K t Ht), (K t' Ht'). clear K.
  destruct (e_write e 0); [|split; reflexivity|split; reflexivity].
  rewrite (hs_same_28 a t t' Ha Ht Ht' (e_fold e)).
  destruct (hs_fine (e_fold e) (arrived68 (a ++ t'))).
  - split; reflexivity.
  - destruct (parseHandShakeMsg (arrived68 (a ++ t))) as [h1|x|x] eqn:E1; [|exfalso; eapply parse_no_err; exact E1|];
    (destruct (parseHandShakeMsg (arrived68 (a ++ t'))) as [h2|y|y] eqn:E2; [|exfalso; eapply parse_no_err; exact E2|]);
    repeat match goal with |- context [negb ?b] => destruct (negb b) end; split; reflexivity.
Qed.

(** C110: with an identifier that is not 20 bytes long nothing is sent or read at all. *)
Lemma C110_wrong_length_pf : forall e p h script peerId infoHash, length peerId <> 20 \/ length infoHash <> 20 ->
  exists s, FetchMetaData e p h (Some script) peerId infoHash = (s, FErr (ENew (B "FetchMetaData err"))) /\ f_trace s = [CClose].
Proof.
  intros e p h script peerId infoHash H. unfold FetchMetaData, fetch_body, mbind at 1. rewrite handshake_bad_ids by exact H.
  eexists. split; reflexivity.
Qed.

(** C110: for every peer and environment the data returned is not longer than all that was received. *)
Lemma C110_no_longer_than_received_pf : forall e p h script peerId infoHash s d,
  FetchMetaData e p h (Some script) peerId infoHash = (s, FOk d) -> length d <= length (concat script).
Proof. exact fetch_weight. Qed.

(** The handshake of a peer serving another torrent; a handshake cut after its reserved bytes; one in
    another case, with two ids missing; one without the extension bit; one for another protocol. *)
Definition hs_head (name : bytes) (r5 : nat) : bytes := ascii_of_nat 19 :: name ++ map ascii_of_nat [0; 0; 0; 0; 0; r5; 0; 0].
Definition hs_other : bytes := hs_head (B "BitTorrent protocol") 16 ++ sha1 (B "another torrent") ++ LocalPeerId.

Lemma accepted_by seg : hs_fine (fun _ _ => false) (arrived68 seg) = true -> accepted seg.
Proof. apply (accepted_iff (fun _ _ => false)). intros c _. reflexivity. Qed.
Lemma refused_by seg : hs_fine (fun _ _ => false) (arrived68 seg) = false -> ~ accepted seg.
Proof. intros H1 H2. apply (accepted_iff (fun _ _ => false)) in H2; [congruence|]. intros c _. reflexivity. Qed.

(** C110: which handshakes are accepted, on examples: the usual one; one that stops after 26 bytes; one
    spelled differently; not one without extensions, of another protocol, or of 25 bytes. *)
Lemma C110_accepted_example_pf :
  accepted hs0 /\ accepted (firstn 26 hs0) /\ accepted (hs_head (B "BITtorrent PROTOCOL") 255) /\
  ~ accepted (hs_head (B "BitTorrent protocol") 239 ++ repeat "x"%char 40) /\
  ~ accepted (hs_head (B "BitTorrent protocoL2") 16 ++ repeat "x"%char 39) /\ ~ accepted (firstn 25 hs0) /\ ~ accepted [].
Proof.
  split; [apply accepted_by; vm_compute; reflexivity|]. split; [apply accepted_by; vm_compute; reflexivity|].
  split; [apply accepted_by; vm_compute; reflexivity|]. split; [apply refused_by; vm_compute; reflexivity|].
  split; [apply refused_by; vm_compute; reflexivity|]. split; apply refused_by; vm_compute; reflexivity.
Qed.

(** C110: "a peer answering for another torrent is refused" is false: data is accepted although the
    handshake names another info hash (BEP 3 demands that the connection be dropped). *)
Lemma C110_other_torrent_refuted_pf :
  length hs_other = 68 /\ firstn 20 (skipn 28 hs_other) = sha1 (B "another torrent") /\ sha1 (B "another torrent") <> sha1 meta1 /\
  exists s, FetchMetaData calm0 pool0 heap0 (Some (hs_other :: tl script1)) LocalPeerId (sha1 meta1) = (s, FOk meta1).
Proof.
  split; [vm_compute; reflexivity|]. split; [vm_compute; reflexivity|].
  split; [intros E; apply (f_equal (fun x => beq x (sha1 meta1))) in E; vm_compute in E; discriminate|].
  apply result_ok_spec. vm_compute. reflexivity.
Qed.

(** C110: "the announced sizes are enforced" is false: data of 15 bytes is accepted from a peer that
    announced 16384 and 3 of them, and after 26 bytes of handshake only. *)
Lemma C110_sizes_refuted_pf :
  length meta1 = 15 /\
  exists s, FetchMetaData calm0 pool0 heap0 (Some [firstn 26 hs0; frame (ext_of (B "16384")); frame (data_of (B "0") (B "3") meta1)]) LocalPeerId (sha1 meta1) = (s, FOk meta1).
Proof. split; [reflexivity|]. apply result_ok_spec. vm_compute. reflexivity. Qed.

Definition ext_plain (size : bytes) : bytes := ascii_of_nat 20 :: ascii_of_nat 0 :: B "d1:mde13:metadata_sizei" ++ size ++ B "ee".
Definition asks_once (x : fstate * fres bytes) (m : bytes) : bool :=
  match written (f_trace (fst x)) with [_; _; q] => beq q (frame m) | _ => false end.
Lemma asks_once_ok x m : asks_once x m = true -> exists a b, written (f_trace (fst x)) = [a; b; frame m].
Proof.
  unfold asks_once. destruct (written (f_trace (fst x))) as [|a [|b [|q [|]]]]; try discriminate. intros H. apply beq_eq in H. subst q. eauto.
Qed.

(** C110: "requests carry the number the peer announced for ut_metadata" (BEP 10) is false: a peer that
    announces 3 is asked with extension 1, and so is a peer that does not announce the extension. *)
Lemma C110_extension_id_refuted_pf :
  let q := ascii_of_nat 20 :: ascii_of_nat 1 :: B "d8:msg_typei0e5:piecei0ee" in
  (exists a b, written (f_trace (fst (FetchMetaData calm0 pool0 heap0 (Some [hs0; frame (ext_of (B "15"))]) LocalPeerId (sha1 meta1)))) = [a; b; frame q]) /\
  (exists a b, written (f_trace (fst (FetchMetaData calm0 pool0 heap0 (Some [hs0; frame (ext_plain (B "15"))]) LocalPeerId (sha1 meta1)))) = [a; b; frame q]) /\
  (exists m, In (B "m", VDict m) [(B "m", VDict [(B "ut_metadata", VInt 3)]); (B "metadata_size", VInt 15)] /\ In (B "ut_metadata", VInt 3) m) /\
  bencoding (VDict [(B "m", VDict [(B "ut_metadata", VInt 3)]); (B "metadata_size", VInt 15)]) (skipn 2 (ext_of (B "15"))).
Proof.
  cbv zeta. split; [apply asks_once_ok; vm_compute; reflexivity|]. split; [apply asks_once_ok; vm_compute; reflexivity|].
  split; [eexists; split; [left; reflexivity|left; reflexivity]|]. apply enc_dict; reflexivity.
Qed.

(** ** C111 *)

(** C111: whatever well-framed messages an accepted peer sends - any bodies, any order, any repetition -
    the outcome of the download and everything it writes is what [session] and [verdict] say: on a
    sound pool, without concurrent downloads, when the pool has a buffer for every message or no
    announced size exceeds one piece. *)
Lemma C111_outcome_pf : forall e p h hs bodies peerId infoHash,
  alone e -> calm e -> sane_folding (e_fold e) -> sound_pool p h -> length peerId = 20 -> length infoHash = 20 ->
  length hs <= 68 -> accepted hs -> Forall (fun m => (N.of_nat (length m) < 2 ^ 32)%N) bodies ->
  spoken bodies <= length (chan_of (p_chans p) 32768) \/ (forall m size, In m bodies -> announces m size -> (size <= 16384)%Z) ->
  exists s r out asked ext msgs, FetchMetaData e p h (Some (hs :: map frame bodies)) peerId infoHash = (s, r) /\
    session first_contact bodies out asked /\ verdict sha1 infoHash out r /\
    written (f_trace s) = our_handshake peerId infoHash :: ext :: msgs /\ our_ext_handshake ext /\ Forall2 is_request asked msgs.
Proof. exact fetch_session. Qed.

Lemma hears_fun s m s1 a1 s2 a2 : length m <= Z.to_nat 32768 -> hears s m s1 a1 -> hears s m s2 a2 -> s1 = s2 /\ a1 = a2.
Proof. intros Hl H1 H2. pose proof (fits_small m Hl) as Hf. apply hear_iff in H1; [|exact Hf]. apply hear_iff in H2; [|exact Hf]. split; congruence. Qed.

(** C111: the messages determine outcome and requests, so the previous theorem leaves nothing open. *)
Lemma C111_deterministic_pf : forall s msgs out asked out' asked',
  session s msgs out asked -> session s msgs out' asked' -> out = out' /\ asked = asked'.
Proof.
  intros s msgs out asked out' asked' H. revert out' asked'.
  induction H as [s msgs Hc|s Hn|s m s' asked t out more Hn Hl Hh Hs IH|s m t Hn Hf]; intros out' asked' H'.
  - inversion H'; subst; auto; contradiction.
  - inversion H'; subst; auto; contradiction.
  - inversion H' as [| |? ? s2 asked2 ? ? more2 Hn2 Hl2 Hh2 Hs2|? ? ? Hn2 Hf2]; subst; [contradiction| |].
    + destruct (hears_fun _ _ _ _ _ _ Hl Hh Hh2) as [<- <-]. destruct (IH _ _ Hs2) as [<- <-]. auto.
    + destruct Hf2 as [Hf2|Hf2]; [lia|]. elim (Hf2 _ _ Hh).
  - inversion H' as [| |? ? s2 asked2 ? ? more2 Hn2 Hl2 Hh2 Hs2|? ? ? Hn2 Hf2]; subst; [contradiction| |auto].
    destruct Hf as [Hf|Hf]; [lia|]. elim (Hf _ _ Hh2).
Qed.

(** C111: hence data is returned exactly if the messages complete a session whose pieces, joined, have
    the wanted checksum - and then it is these pieces. *)
Lemma C111_success_iff_pf : forall e p h hs bodies peerId infoHash d,
  alone e -> calm e -> sane_folding (e_fold e) -> sound_pool p h -> length peerId = 20 -> length infoHash = 20 ->
  length hs <= 68 -> accepted hs -> Forall (fun m => (N.of_nat (length m) < 2 ^ 32)%N) bodies ->
  spoken bodies <= length (chan_of (p_chans p) 32768) \/ (forall m size, In m bodies -> announces m size -> (size <= 16384)%Z) ->
  (exists s, FetchMetaData e p h (Some (hs :: map frame bodies)) peerId infoHash = (s, FOk d)) <->
  (exists st asked, session first_contact bodies (Some st) asked /\ (0 <= announced st <= 2 ^ 48)%Z /\ content st = d /\ sha1 d = infoHash).
Proof.
  intros e p h hs bodies peerId infoHash d H1 H2 H3 H4 H5 H6 H7 H8 H9 H10.
  destruct (fetch_session e p h hs bodies peerId infoHash H1 H2 H3 H4 H5 H6 H7 H8 H9 H10) as (s & r & out & asked & ext & msgs & E & Hs & Hv & _).
  rewrite E. split.
  - intros (s' & E'). injection E' as _ ->. destruct out as [st|]; [|discriminate]. exists st, asked. split; [exact Hs|]. destruct Hv as [V1 V2].
    assert (Hr : (0 <= announced st <= 2 ^ 48)%Z) by (destruct (Z.lt_ge_cases (announced st) 0); [specialize (V1 ltac:(lia)); discriminate|]; destruct (Z.lt_ge_cases (2 ^ 48) (announced st)); [specialize (V1 ltac:(lia)); discriminate|lia]).
    split; [exact Hr|]. destruct (V2 Hr) as [V3 V4]. destruct (bytes_eq_dec (sha1 (content st)) infoHash) as [Ec|Ec].
    + specialize (V3 Ec). injection V3 as ->. auto.
    + specialize (V4 Ec). discriminate.
  - intros (st & asked' & Hs' & Hr & <- & Hsum). destruct (C111_deterministic_pf _ _ _ _ _ _ Hs Hs') as [-> _].
    destruct Hv as [_ V2]. destruct (V2 Hr) as [V3 _]. exists s. rewrite (V3 Hsum). reflexivity.
Qed.

(** C111: one data message for piece 0 is enough, with no announcement and with up to 32 KiB in it. *)
Lemma C111_single_message_pf : forall e p h hs enc d payload u more peerId,
  alone e -> calm e -> sane_folding (e_fold e) -> sound_pool p h -> length peerId = 20 -> length hs <= 68 -> accepted hs ->
  item enc (VDict d) payload u -> In (B "msg_type", VInt 1) d -> In (B "piece", VInt 0) d -> (payload <> [] -> exists t, In (B "total_size", VInt t) d) ->
  length enc <= Z.to_nat 32766 -> Forall (fun m => (N.of_nat (length m) < 2 ^ 32)%N) more -> small_only more ->
  exists s, FetchMetaData e p h (Some (hs :: map frame ((ascii_of_nat 20 :: ascii_of_nat 1 :: enc) :: more))) peerId (sha1 payload) = (s, FOk payload).
Proof.
  intros e p h hs enc d payload u more peerId H1 H2 H3 H4 H5 H6 H7 Hi Ht Hp Htot Hl Hm Hsm.
  apply C111_success_iff_pf; auto.
  - apply sha1_length.
  - constructor; [cbn [length]; lia|exact Hm].
  - right. intros m size [<-|Hin]; [|apply Hsm; exact Hin]. intros (enc' & d' & u' & m' & E & _). discriminate.
  - exists {| announced := 0; slots := [Some payload] |}, ([] ++ []). split; [|split; [cbn [announced]; lia|split; [unfold content; cbn; apply app_nil_r|reflexivity]]].
    eapply se_hear; [| |eapply (h_data first_contact enc d payload u [] None []); auto|constructor].
    + intros H. apply (H None); [left; reflexivity|reflexivity].
    + cbn [length]. lia.
    + intros x [<-|[]]. discriminate.
Qed.

Lemma session_bad s before out asked bad after : session s before out asked -> out = None ->
  Z.to_nat 32768 < length bad \/ (forall s s' a, ~ hears s bad s' a) -> session s (before ++ bad :: after) None asked.
Proof.
  intros H E Hb. induction H as [s msgs Hc|s Hn|s m s' asked t out more Hn Hl Hh Hs IH|s m t Hn Hf]; try discriminate; cbn [app].
  - apply se_fail; [exact Hn|]. destruct Hb as [Hb|Hb]; [left; exact Hb|right; apply Hb].
  - eapply se_hear; eauto.
  - apply se_fail; assumption.
Qed.

(** C111: if the messages so far do not complete the download, a message that cannot be understood,
    or is longer than 32 KiB, ends it for good, whatever follows. *)
Lemma C111_no_second_chance_pf : forall e p h hs before bad after peerId infoHash asked,
  alone e -> calm e -> sane_folding (e_fold e) -> sound_pool p h -> length peerId = 20 -> length infoHash = 20 -> length hs <= 68 -> accepted hs ->
  Forall (fun m => (N.of_nat (length m) < 2 ^ 32)%N) (before ++ bad :: after) ->
  spoken (before ++ bad :: after) <= length (chan_of (p_chans p) 32768) \/ small_only (before ++ bad :: after) ->
  session first_contact before None asked -> Z.to_nat 32768 < length bad \/ (forall s s' a, ~ hears s bad s' a) ->
  exists s ext msgs, FetchMetaData e p h (Some (hs :: map frame (before ++ bad :: after))) peerId infoHash = (s, FErr (ENew (B "FetchMetaData err"))) /\
    written (f_trace s) = our_handshake peerId infoHash :: ext :: msgs /\ Forall2 is_request asked msgs.
Proof.
  intros e p h hs before bad after peerId infoHash asked H1 H2 H3 H4 H5 H6 H7 H8 H9 H10 Hs Hb.
  destruct (fetch_session e p h hs _ peerId infoHash H1 H2 H3 H4 H5 H6 H7 H8 H9 H10) as (s & r & out & ask & ext & msgs & E & Hs' & Hv & Hw & _ & Hr).
  destruct (C111_deterministic_pf _ _ _ _ _ _ Hs' (session_bad _ _ _ _ bad after Hs eq_refl Hb)) as [-> ->].
  cbn in Hv. subst r. exists s, ext, msgs. auto.
Qed.

(** Hearing, computed. *)
Lemma hears_by s m s' a : length m <= Z.to_nat 32768 -> hear s m = Some (s', a) -> hears s m s' a.
Proof. intros Hl H. apply hear_iff; [apply fits_small; exact Hl|exact H]. Qed.
Lemma unheard_by m : length m <= Z.to_nat 32768 -> (forall s, hear s m = None) -> forall s s' a, ~ hears s m s' a.
Proof. intros Hl H s s' a Hh. apply hear_iff in Hh; [rewrite H in Hh; discriminate|apply fits_small; exact Hl]. Qed.
Lemma small_by m size : length m <= Z.to_nat 32768 -> announces m size ->
  exists enc dict, m = ascii_of_nat 20 :: ascii_of_nat 0 :: enc /\ parseExtendedHandShake m = Ok dict /\ dget dict (B "metadata_size") = Some (VInt size).
Proof.
  intros Hl (enc & d & u & mm & -> & H). assert (Hf : fits enc) by (apply fits_small; cbn [length] in Hl; lia).
  destruct (proj2 (parse_ext_iff enc size Hf)) as (dict & E1 & E2); [exists d, u, mm; exact H|]. exists enc, dict. auto.
Qed.

Definition reject0 : bytes := ascii_of_nat 20 :: ascii_of_nat 1 :: B "d8:msg_typei2e5:piecei0ee".
Definition have5 : bytes := ascii_of_nat 4 :: map ascii_of_nat [0; 0; 0; 5].

(** C111: the theorems apply to a session with a keep-alive, a have message, a reject, another announcement
    and data: the empty pool suffices because both announced sizes fit one piece. *)
Lemma C111_example_pf :
  let bodies := [ext_of (B "9"); []; have5; reject0; ext_of (B "15"); data_of (B "0") (B "99") meta1] in
  alone calm0 /\ calm calm0 /\ sane_folding (e_fold calm0) /\ sound_pool pool0 heap0 /\ accepted hs0 /\ length hs0 <= 68 /\
  Forall (fun m => (N.of_nat (length m) < 2 ^ 32)%N) bodies /\ small_only bodies /\
  session first_contact bodies (Some {| announced := 15; slots := [Some meta1] |}) [0; 0] /\
  exists s, FetchMetaData calm0 pool0 heap0 (Some (hs0 :: map frame bodies)) LocalPeerId (sha1 meta1) = (s, FOk meta1).
Proof.
  cbv zeta. split; [exact calm0_alone|]. split; [exact calm0_calm|]. split; [intros c _; reflexivity|]. split; [exact pool0_sound|].
  split; [apply accepted_by; vm_compute; reflexivity|]. split; [apply Nat.leb_le; reflexivity|].
  split; [apply Forall_forall; intros m Hm; apply N.ltb_lt; revert m Hm; apply (proj1 (forallb_forall _ _)); vm_compute; reflexivity|].
  split; [|split; [|apply result_ok_spec; vm_compute; reflexivity]].
  - intros m size Hin Ha. assert (Hl : length m <= Z.to_nat 32768).
    { apply Nat.leb_le. revert m Hin Ha. intros m Hin _. revert m Hin. apply (proj1 (forallb_forall _ _)). vm_compute. reflexivity. }
    destruct (small_by m size Hl Ha) as (enc & dict & E & E1 & E2). clear Ha Hl.
    destruct Hin as [<-|[<-|[<-|[<-|[<-|[<-|[]]]]]]]; try discriminate;
      (assert (Hd : forall d, Ok dict = Ok d -> dget d (B "metadata_size") = Some (VInt size)) by (intros d Hd; injection Hd as <-; exact E2);
       rewrite <- E1 in Hd; clear E1 E2; specialize (Hd _ eq_refl); vm_compute in Hd; injection Hd as <-; lia).
  - assert (N : forall z, ~ complete {| announced := z; slots := [None] |}) by (intros z H; apply (H None); [left; reflexivity|reflexivity]).
    apply (se_hear _ _ {| announced := 9; slots := [None] |} [0] _ _ [0]); [apply N|apply Nat.leb_le; vm_compute; reflexivity|apply hears_by; [apply Nat.leb_le|]; vm_compute; reflexivity|].
    apply (se_hear _ _ {| announced := 9; slots := [None] |} [] _ _ [0]); [apply N|cbn; lia|constructor|].
    apply (se_hear _ _ {| announced := 9; slots := [None] |} [] _ _ [0]); [apply N|apply Nat.leb_le; vm_compute; reflexivity|apply hears_by; [apply Nat.leb_le|]; vm_compute; reflexivity|].
    apply (se_hear _ _ {| announced := 9; slots := [None] |} [] _ _ [0]); [apply N|apply Nat.leb_le; vm_compute; reflexivity|apply hears_by; [apply Nat.leb_le|]; vm_compute; reflexivity|].
    apply (se_hear _ _ {| announced := 15; slots := [None] |} [0] _ _ []); [apply N|apply Nat.leb_le; vm_compute; reflexivity|apply hears_by; [apply Nat.leb_le|]; vm_compute; reflexivity|].
    apply (se_hear _ _ {| announced := 15; slots := [Some meta1] |} [] _ _ []); [apply N|apply Nat.leb_le; vm_compute; reflexivity|apply hears_by; [apply Nat.leb_le|]; vm_compute; reflexivity|].
    constructor. intros x [<-|[]]. discriminate.
Qed.

(** C111: what the session relation says in three cases: of two data messages for a piece the last one
    counts, a new announcement discards what was there, and the order of the pieces is free. *)
Lemma C111_rules_example_pf :
  let two := {| announced := 16385; slots := [None; None] |} in
  hears first_contact (ext_of (B "16385")) two [0; 1] /\
  hears two (data_of (B "1") (B "0") (B "b")) {| announced := 16385; slots := [None; Some (B "b")] |} [] /\
  hears {| announced := 16385; slots := [None; Some (B "b")] |} (data_of (B "1") (B "0") (B "c")) {| announced := 16385; slots := [None; Some (B "c")] |} [] /\
  hears {| announced := 16385; slots := [None; Some (B "c")] |} (ext_of (B "16385")) two [0; 1] /\
  (exists s, FetchMetaData calm0 pool2 heap2 (Some [hs0; frame (ext_of (B "16385")); frame (data_of (B "1") (B "0") (B "b"));
     frame (data_of (B "1") (B "0") (B "c")); frame (data_of (B "0") (B "0") (B "a"))]) LocalPeerId (sha1 (B "ac")) = (s, FOk (B "ac"))).
Proof.
  cbv zeta. repeat (split; [apply hears_by; [apply Nat.leb_le|]; vm_compute; reflexivity|]). apply result_ok_spec. vm_compute. reflexivity.
Qed.

(** C111: messages that are never understood: an extension message without a number, an announcement
    without "m" or with a negative number of pieces, data for a piece beyond the announced ones. *)
Lemma C111_not_understood_example_pf :
  (forall s s' a, ~ hears s [ascii_of_nat 20] s' a) /\
  (forall s s' a, ~ hears s (ascii_of_nat 20 :: ascii_of_nat 0 :: B "d13:metadata_sizei15ee") s' a) /\
  (forall s s' a, ~ hears s (ext_of (B "-20000")) s' a) /\
  (forall s' a, ~ hears first_contact (data_of (B "1") (B "15") meta1) s' a) /\
  (exists s, FetchMetaData calm0 pool0 heap0 (Some [hs0; frame (ext_of (B "15")); frame [ascii_of_nat 20]; frame (data_of (B "0") (B "15") meta1)])
     LocalPeerId (sha1 meta1) = (s, FErr (ENew (B "FetchMetaData err")))).
Proof.
  split; [apply unheard_by; [apply Nat.leb_le; vm_compute; reflexivity|intros s; vm_compute; reflexivity]|].
  split; [apply unheard_by; [apply Nat.leb_le; vm_compute; reflexivity|intros s; vm_compute; reflexivity]|].
  split; [apply unheard_by; [apply Nat.leb_le; vm_compute; reflexivity|intros s; vm_compute; reflexivity]|].
  split; [|apply result_err_spec; vm_compute; reflexivity].
  intros s' a H. apply hear_iff in H; [vm_compute in H; discriminate|apply fits_small; apply Nat.leb_le; vm_compute; reflexivity].
Qed.
