(** FetchPf.v -- proofs of the properties of the metadata download (C55-C61). *)
From Verif Require Import Base GoLib Bencode BencodeSpec BencodeProofs BencodePf Types TypesPf Krpc KrpcProofs BytesPool Sha1 PeerWire PeerWirePf Fetch FetchSpec FetchProofs.
Local Open Scope list_scope.

(** ** Concrete cases *)
Definition calm0 : fenv :=
  {| e_intf := fun _ x => x; e_exp := fun _ => false; e_write := fun _ => WOk; e_mem := fun _ => true;
     e_ford := fun _ d => d; e_fold := fun _ _ => false |}.
Definition pool0 : pool := {| p_chans := []; p_width := 4; p_max := Z.to_nat 10000 |}.
Definition heap0 : heap := {| h_next := 0; h_data := fun _ => [] |}.
Definition hs0 : bytes := ascii_of_nat 19 :: B "BitTorrent protocol" ++ map ascii_of_nat [0; 0; 0; 0; 0] ++ ascii_of_nat 16 :: map ascii_of_nat [0; 0] ++ repeat "x"%char 40.
Definition ext_of (size : bytes) : bytes := ascii_of_nat 20 :: ascii_of_nat 0 :: B "d1:md11:ut_metadatai3ee13:metadata_sizei" ++ size ++ B "ee".
Definition data_of (piece total payload : bytes) : bytes :=
  ascii_of_nat 20 :: ascii_of_nat 1 :: (B "d8:msg_typei1e5:piecei" ++ piece ++ B "e10:total_sizei" ++ total ++ B "ee") ++ payload.
Definition meta1 : bytes := B "d4:name5:helloe".
Definition script1 : list bytes := [hs0; frame (ext_of (B "15")); be32 0; frame (data_of (B "0") (B "15") meta1)].
Definition meta2 : bytes := repeat "a"%char kb16 ++ B "b".
Definition piece2 (i : nat) : bytes := data_of (if i =? 0 then B "0" else B "1") (B "16385") (piece_of meta2 i).
Definition script2 : list bytes := [hs0; frame (ext_of (B "16385")); frame (piece2 1); frame (piece2 0)].
(** A pool holding two buffers of 32768 bytes. *)
Definition heap2 : heap := {| h_next := 2; h_data := fun _ => repeat (byte_of 0) (Z.to_nat 32768) |}.
Definition pool2 : pool :=
  {| p_chans := [(32768%Z, [{| s_arr := 0; s_off := 0; s_len := 32768; s_cap := 32768 |}; {| s_arr := 1; s_off := 0; s_len := 32768; s_cap := 32768 |}])];
     p_width := 4; p_max := Z.to_nat 10000 |}.

Lemma calm0_alone : alone calm0. Proof. intros t x. reflexivity. Qed.
Lemma calm0_calm : calm calm0.
Proof. constructor; try reflexivity. intros n x. cbn. apply deq_refl. Qed.
Lemma pool0_sound : sound_pool pool0 heap0.
Proof. unfold sound_pool, pool0. cbn [p_chans p_max chan_of length]. split; [reflexivity|]. split; [constructor|]. split; [lia|]. split; [constructor|]. split; [lia|constructor]. Qed.
Lemma pool2_sound : sound_pool pool2 heap2.
Proof.
  unfold sound_pool, pool2. cbn [p_chans p_max chan_of]. change (32768 =? 4)%Z with false. change (32768 =? 32768)%Z with true. cbv iota.
  split; [reflexivity|]. split; [constructor|]. split; [cbn [length]; lia|]. split; [|split; [cbn [length]; lia|]].
  - assert (H : length (repeat (byte_of 0) (Z.to_nat 32768)) = Z.to_nat 32768) by apply repeat_length.
    repeat constructor; cbn [s_len s_cap s_off s_arr h_next h_data heap2]; try lia; rewrite H; lia.
  - cbn. repeat constructor; cbn; intuition discriminate.
Qed.
Lemma hs0_good : good_handshake hs0.
Proof. exists (ascii_of_nat 16), (repeat "x"%char 40), (map ascii_of_nat [0; 0; 0; 0; 0]), (map ascii_of_nat [0; 0]). repeat split. Qed.

Lemma enc_dict d enc : go_valueb (VDict d) = true -> encodeItem (VDict d) = Ok enc -> bencoding (VDict d) enc.
Proof. intros H1 H2. apply bencoding_iff. split; [apply go_valueb_ok; exact H1|exact H2]. Qed.

Lemma ext15 : ext_handshake (ext_of (B "15")) 15.
Proof.
  exists [(B "m", VDict [(B "ut_metadata", VInt 3)]); (B "metadata_size", VInt 15)]. eexists. eexists. split; [reflexivity|].
  split; [apply enc_dict; reflexivity|]. cbn. auto.
Qed.
Lemma ext16385 : ext_handshake (ext_of (B "16385")) 16385.
Proof.
  exists [(B "m", VDict [(B "ut_metadata", VInt 3)]); (B "metadata_size", VInt 16385)]. eexists. eexists. split; [reflexivity|].
  split; [apply enc_dict; reflexivity|]. cbn. auto.
Qed.
Lemma data1_ok : data_msg meta1 0 (data_of (B "0") (B "15") meta1).
Proof.
  exists [(B "msg_type", VInt 1); (B "piece", VInt 0); (B "total_size", VInt 15)]. eexists. exists 15%Z. split; [|split].
  - unfold data_of. replace (piece_of meta1 0) with meta1 by (vm_compute; reflexivity). reflexivity.
  - apply enc_dict; reflexivity.
  - cbn. auto 12.
Qed.
Lemma piece2_ok i : i < 2 -> data_msg meta2 i (piece2 i).
Proof.
  intros Hi. exists [(B "msg_type", VInt 1); (B "piece", VInt (Z.of_nat i)); (B "total_size", VInt 16385)].
  assert (Hx : i = 0 \/ i = 1) by lia. eexists. exists 16385%Z. split; [unfold piece2, data_of; reflexivity|].
  destruct Hx as [-> | ->]; (split; [apply enc_dict; reflexivity|cbn; auto 12]).
Qed.
Lemma piece2_len i : i < 2 -> length (piece2 i) <= Z.to_nat 32768.
Proof.
  intros Hi. unfold piece2, data_of. cbn [length]. rewrite app_length.
  assert (H : length (piece_of meta2 i) <= kb16) by (unfold piece_of; rewrite firstn_length; lia). unfold kb16 in H.
  assert (Hx : i = 0 \/ i = 1) by lia. destruct Hx as [-> | ->]; cbn [Nat.eqb] in *;
    change (length (B "d8:msg_typei1e5:piecei" ++ _ ++ B "e10:total_sizei" ++ B "16385" ++ B "ee")) with 45; lia.
Qed.
Lemma meta2_len : Z.of_nat (length meta2) = 16385%Z.
Proof. unfold meta2. rewrite app_length, repeat_length. unfold kb16. cbn [length list_ascii_of_string B]. lia. Qed.

Lemma honest1 : honest meta1 script1 [Piece 0 (data_of (B "0") (B "15") meta1)].
Proof.
  apply (honest_intro meta1 hs0 [] (ext_of (B "15")) [KeepAlive] [Piece 0 (data_of (B "0") (B "15") meta1)] [] 1).
  - exact hs0_good.
  - exact ext15.
  - apply Nat.leb_le. vm_compute. reflexivity.
  - constructor; [exact I|]. constructor; [|constructor]. split; [exact data1_ok|apply Nat.leb_le; vm_compute; reflexivity].
  - reflexivity.
  - reflexivity.
  - eauto.
  - eexists _, _, []. reflexivity.
  - vm_compute. split; [reflexivity|discriminate].
  - reflexivity.
Qed.
Lemma honest2 : honest meta2 script2 [Piece 1 (piece2 1); Piece 0 (piece2 0)].
Proof.
  apply (honest_intro meta2 hs0 [] (ext_of (B "16385")) [] [Piece 1 (piece2 1); Piece 0 (piece2 0)] [] 2).
  - exact hs0_good.
  - rewrite meta2_len. exact ext16385.
  - apply Nat.leb_le. vm_compute. reflexivity.
  - cbn [app]. apply Forall_cons; [split; [exact (piece2_ok 1 (le_n 2))|exact (piece2_len 1 (le_n 2))]|].
    apply Forall_cons; [split; [exact (piece2_ok 0 Nat.lt_0_2)|exact (piece2_len 0 Nat.lt_0_2)]|]. apply Forall_nil.
  - reflexivity.
  - reflexivity.
  - eauto.
  - eexists _, _, [Piece 1 (piece2 1)]. reflexivity.
  - rewrite meta2_len. unfold pieces_needed. lia.
  - cbn. constructor.
Qed.

Definition reads_as (x : fstate * fres (option slc)) (m : bytes) : bool :=
  match x with (s1, FOk (Some b)) => beq (h_read (f_heap s1) b) m | _ => false end.
Lemma reads_as_ok x m : reads_as x m = true -> exists s1 b, x = (s1, FOk (Some b)) /\ h_read (f_heap s1) b = m.
Proof.
  destruct x as [s1 [[b|]| | |]]; cbn [reads_as]; try discriminate. intros H. exists s1, b. split; [reflexivity|]. apply beq_eq. exact H.
Qed.

(** ** C55 *)

Lemma readBytes_after e s q4 q32 n more rest : alone e -> own s q4 q32 [] -> f_script s = (be32 n ++ more) :: rest -> (N.of_nat n < 4294967296)%N ->
  exists s2 pre q4', own s2 q4' q32 [pre] /\ usable (f_heap s2) 4 pre /\ f_script s2 = (match more with [] => rest | _ => more :: rest end) /\
    readBytesByPrefixLenMsg e s =
      (if (N.of_nat n =? 0)%N then ret None else
       let* _ := m_put e pre in
       if (Z.to_N maxReadLength <? N.of_nat n)%N then lift (Err (ENew (B "read input toolarge"))) else
       let* buf := m_get e maxReadLength in
       let* n := m_read e buf in
       ret (Some {| s_arr := s_arr buf; s_off := s_off buf; s_len := Z.of_nat n; s_cap := s_cap buf |})) s2.
Proof.
  intros Ha O Hsc Hn. unfold readBytesByPrefixLenMsg.
  destruct (get_alone e PrefixLen s q4 q32 [] Ha (or_introl eq_refl) O) as (s1 & pre & E1 & U1 & O1 & _ & S1 & _).
  unfold PrefixLen in *. cbn [Z.eqb Pos.eqb] in O1.
  unfold mbind at 1. rewrite E1. rewrite Hsc in S1.
  destruct (read_alone e 4 s1 _ _ _ pre _ _ Ha O1 (or_introl eq_refl) U1 ltac:(lia) S1) as (s2 & E2 & S2 & H2 & Pl2 & O2 & U2 & P2 & K2).
  unfold mbind at 1. rewrite E2. unfold mbind at 1. cbn [m_show].
  change (Z.to_nat 4) with (length (be32 n)) in S2, H2.
  rewrite skipn_len_app in S2. rewrite firstn_app, firstn_all, Nat.sub_diag in H2. cbn [firstn] in H2. rewrite app_nil_r in H2.
  assert (R2 : h_read (f_heap s2) pre = be32 n).
  { rewrite H2. apply (h_read_w _ _ 4); [lia|exact U1|reflexivity]. }
  unfold mbind at 1. rewrite R2. unfold lift at 1. rewrite <- (app_nil_r (be32 n)), Uint32_be32 by exact Hn.
  exists s2, pre, (tl q4). split; [exact O2|]. split; [exact U2|]. split; [|reflexivity]. rewrite S2. destruct more; reflexivity.
Qed.

(** C55: on a sound pool and without interference, when the Read of the prefix delivers at least
    four bytes declaring n: a keep-alive is reported iff n = 0, a length above 32 KiB is
    refused, and otherwise the message is whatever the next Read returns - at most 32 KiB of it -
    no matter what n was.  (Four bytes at the very end of the stream give the read error.) *)
Lemma C55_frame_reading_pf : forall e s n more rest,
  alone e -> sound_pool (f_pool s) (f_heap s) -> f_script s = (be32 n ++ more) :: rest -> (N.of_nat n < 2 ^ 32)%N ->
  (n = 0 -> exists s1, readBytesByPrefixLenMsg e s = (s1, FOk None)) /\
  (n > Z.to_nat 32768 -> exists s1, readBytesByPrefixLenMsg e s = (s1, FErr (ENew (B "read input toolarge")))) /\
  (1 <= n <= Z.to_nat 32768 ->
     match (match more with [] => rest | _ => more :: rest end) with
     | chunk :: _ => exists s1 b, readBytesByPrefixLenMsg e s = (s1, FOk (Some b)) /\ h_read (f_heap s1) b = firstn (Z.to_nat 32768) chunk
     | [] => exists s1, readBytesByPrefixLenMsg e s = (s1, FErr EIO)
     end).
Proof.
  intros e s n more rest Ha Hs Hsc Hn. change (2 ^ 32)%N with 4294967296%N in Hn. apply ownable_iff in Hs as (q4 & q32 & O).
  destruct (readBytes_after e s q4 q32 n more rest Ha O Hsc Hn) as (s2 & pre & q4' & O2 & U2 & S2 & ->).
  split; [intros ->; exists s2; reflexivity|].
  destruct (N.eqb_spec (N.of_nat n) 0) as [Hz|Hz]; [split; intros H; lia|].
  destruct (put_alone e 4 s2 _ _ _ pre Ha (or_introl eq_refl) O2) as (s3 & q4'' & q32' & E3 & O3 & Q3 & _ & A3 & S3 & T3 & P3 & H3).
  { rewrite (full_slice_usable _ _ _ U2). exact U2. } { apply U2. }
  match goal with |- context [mbind (m_put e pre) ?k s2] => assert (Ek : mbind (m_put e pre) k s2 = k tt s3) by (unfold mbind; rewrite E3; reflexivity) end.
  rewrite Ek. clear Ek. cbn beta. change (Z.to_N maxReadLength) with 32768%N.
  split.
  - intros Hb. destruct (N.ltb_spec 32768 (N.of_nat n)); [|lia]. eexists. reflexivity.
  - intros [H1 H2]. destruct (N.ltb_spec 32768 (N.of_nat n)); [lia|].
    destruct (get_alone e 32768 s3 _ _ [] Ha (or_intror eq_refl) O3) as (s4 & buf & E4 & U4 & O4 & _ & S4 & _).
    unfold mbind. change maxReadLength with 32768%Z. rewrite E4. rewrite S3, S2 in S4.
    destruct (match more with [] => rest | _ => more :: rest end) as [|chunk rest'].
    + destruct (m_read e buf s4) as [s5 r5] eqn:E5. unfold m_read, mbind in E5.
      destruct (tick_alone e s4 Ha) as (s0 & E0 & _ & _ & Hsc0 & _). rewrite E0 in E5. unfold m_recv in E5.
      destruct U4 as (Ul & _). rewrite Ul in E5. destruct (Nat.eqb_spec (Z.to_nat 32768) 0); [lia|]. rewrite Hsc0, S4 in E5.
      injection E5 as <- <-. eexists. reflexivity.
    + destruct (read_alone e 32768 s4 _ _ _ buf _ _ Ha O4 (or_introl eq_refl) U4 ltac:(lia) S4) as (s5 & E5 & S5 & H5 & _).
      rewrite E5. eexists _, _. split; [reflexivity|]. rewrite H5. apply h_write_read. destruct U4 as (_ & _ & _ & _ & U4). lia.
Qed.

(** C55: whatever arrives, and in whatever pieces, no message longer than 32 KiB is returned. *)
Lemma C55_at_most_32k_pf : forall e s s1 b, alone e -> sound_pool (f_pool s) (f_heap s) ->
  readBytesByPrefixLenMsg e s = (s1, FOk (Some b)) -> length (h_read (f_heap s1) b) <= Z.to_nat 32768.
Proof.
  intros e s s1 b Ha Hs E. apply ownable_iff in Hs as (q4 & q32 & O).
  destruct (readBytes_any e s q4 q32 _ _ Ha O E) as (_ & _ & _ & _ & _ & Hl). unfold h_read. rewrite firstn_length. lia.
Qed.

(** The state of a connection that is about to deliver these chunks. *)
Definition at_script (p : pool) (h : heap) (script : list bytes) : fstate := NewPeerConn p h script.

(** C55: "one call returns one declared message" is false: two messages in one TCP segment are
    returned as one, half a message is returned as a whole one, and after a short read of the
    prefix the old contents of a recycled buffer complete it. *)
Lemma C55_one_message_refuted_pf :
  (exists s1 b, readBytesByPrefixLenMsg calm0 (at_script pool0 heap0 [frame (B "ab") ++ frame (B "c")]) = (s1, FOk (Some b)) /\
     h_read (f_heap s1) b = B "ab" ++ frame (B "c")) /\
  (exists s1 b, readBytesByPrefixLenMsg calm0 (at_script pool0 heap0 [be32 4; B "ab"; B "cd"]) = (s1, FOk (Some b)) /\
     h_read (f_heap s1) b = B "ab") /\
  (exists p h s1 b, sound_pool p h /\
     readBytesByPrefixLenMsg calm0 (at_script p h [map ascii_of_nat [0; 0; 0]; ascii_of_nat 2 :: B "hi"]) = (s1, FOk (Some b)) /\
     h_read (f_heap s1) b = ascii_of_nat 2 :: B "hi").
Proof.
  split; [apply reads_as_ok; vm_compute; reflexivity|]. split; [apply reads_as_ok; vm_compute; reflexivity|].
  exists {| p_chans := [(4%Z, [{| s_arr := 0; s_off := 0; s_len := 4; s_cap := 4 |}])]; p_width := 4; p_max := Z.to_nat 10000 |},
         {| h_next := 1; h_data := fun _ => map ascii_of_nat [0; 0; 0; 7] |}.
  match goal with |- exists s1 b, ?S /\ ?m = _ /\ _ = ?c => assert (H : exists s1 b, m = (s1, FOk (Some b)) /\ h_read (f_heap s1) b = c) end.
  { apply reads_as_ok. vm_compute. reflexivity. }
  destruct H as (s1 & b & H1 & H2). exists s1, b. split; [|split; [exact H1|exact H2]].
  unfold sound_pool. cbn [p_chans p_max chan_of Z.eqb Pos.eqb]. split; [reflexivity|].
  split; [repeat constructor; cbn; lia|]. split; [cbn [length]; lia|]. split; [constructor|]. split; [cbn [length]; lia|].
  cbn. repeat constructor. intros [].
Qed.

(** ** C56 *)

(** C56: for every peer, every way Read splits the stream, every outcome of writes, allocations
    and the timer, and every interference by other goroutines on the shared buffers: returned
    data has the requested SHA-1. *)
Lemma C56_authentic_pf : forall e p h peer peerId infoHash s d,
  FetchMetaData e p h peer peerId infoHash = (s, FOk d) -> sha1 d = infoHash.
Proof.
  intros e p h peer peerId infoHash s d E. unfold FetchMetaData in E. destruct peer as [script|]; [|discriminate].
  destruct (fetch_body e peerId infoHash (NewPeerConn p h script)) as [s1 r1] eqn:E1.
  destruct r1; try discriminate. injection E as <- <-. eapply body_result. exact E1.
Qed.

Definition result_ok (x : fstate * fres bytes) (d : bytes) : bool := match snd x with FOk d' => beq d' d | _ => false end.
Lemma result_ok_spec x d : result_ok x d = true -> exists s, x = (s, FOk d).
Proof. destruct x as [s [d'| | |]]; cbn; try discriminate. intros H. apply beq_eq in H. subst d'. eauto. Qed.
Definition result_err (x : fstate * fres bytes) (m : bytes) : bool := match snd x with FErr (ENew m') => beq m' m | _ => false end.
Lemma result_err_spec x m : result_err x m = true -> exists s, x = (s, FErr (ENew m)).
Proof. destruct x as [s [|[]| |]]; cbn; try discriminate. intros H. apply beq_eq in H. subst. eauto. Qed.

(** C56: data is returned to a peer that serves it, and refused when one byte differs. *)
Lemma C56_example_pf :
  (exists s, FetchMetaData calm0 pool0 heap0 (Some script1) LocalPeerId (sha1 meta1) = (s, FOk meta1)) /\
  (exists s, FetchMetaData calm0 pool0 heap0 (Some [hs0; frame (ext_of (B "15")); frame (data_of (B "0") (B "15") (B "d4:name5:hellOe"))])
     LocalPeerId (sha1 meta1) = (s, FErr (ENew (B "check sum err")))).
Proof. split; [apply result_ok_spec; vm_compute; reflexivity|apply result_err_spec; vm_compute; reflexivity]. Qed.

(** ** C57 *)

(** C57: for every peer and environment: no panic escapes; when the call returns, the connection
    has been closed exactly once, as the last operation; the call fails to return only if a
    Write blocks forever or the process runs out of memory (the loop itself is finite). *)
Lemma C57_finishes_closed_pf : forall e p h script peerId infoHash s r,
  FetchMetaData e p h (Some script) peerId infoHash = (s, r) ->
  match r with
  | FOk _ | FErr _ => exists t, f_trace s = t ++ [CClose] /\ ~ In CClose t
  | FPanic _ => False
  | FStop BlockedWrite => exists n, e_write e n = WBlock
  | FStop OutOfMemory => exists n, e_mem e n = false
  | FStop OutOfFuel => False
  end.
Proof.
  intros e p h script peerId infoHash s r E. unfold FetchMetaData in E.
  destruct (fetch_body e peerId infoHash (NewPeerConn p h script)) as [s1 r1] eqn:E1.
  destruct (ok_body _ _ _ _ _ _ E1) as ((t & T & F) & _ & X). cbn [NewPeerConn f_trace app] in T.
  assert (Hn : ~ In CClose t).
  { intros Hin. rewrite Forall_forall in F. apply F in Hin. exact Hin. }
  destruct r1 as [d|x|q|x]; injection E as <- <-; cbn [set_io f_trace].
  - exists t. rewrite T. auto.
  - exists t. rewrite T. auto.
  - exists t. rewrite T. auto.
  - destruct x; exact X.
Qed.

(** C57: a failed dial is reported as an error; there is no connection to close. *)
Lemma C57_dial_failure_pf : forall e p h peerId infoHash,
  exists s err, FetchMetaData e p h None peerId infoHash = (s, FErr err) /\ f_trace s = [].
Proof. intros. eexists _, _. split; reflexivity. Qed.

(** C57: unconditional termination is false: a peer that stops reading blocks the fetching
    goroutine forever (the deadline covers reads only), and a peer announcing a huge
    metadata_size (here 2^46 bytes on a machine with 16 GiB) kills the whole process. *)
Lemma C57_peer_can_hang_or_kill_refuted_pf :
  (exists e script s, (forall t x, e_intf e t x = x) /\ (forall n, e_mem e n = true) /\
     FetchMetaData e pool0 heap0 (Some script) LocalPeerId (sha1 meta1) = (s, FStop BlockedWrite)) /\
  (exists e script s, (forall t x, e_intf e t x = x) /\ (forall n, e_write e n = WOk) /\ (forall n, (n <= 2 ^ 34)%Z -> e_mem e n = true) /\
     FetchMetaData e pool0 heap0 (Some script) LocalPeerId (sha1 meta1) = (s, FStop OutOfMemory)).
Proof.
  split.
  - exists {| e_intf := fun _ x => x; e_exp := fun _ => false; e_write := fun n => if n =? 0 then WOk else WBlock; e_mem := fun _ => true;
     e_ford := fun _ d => d; e_fold := fun _ _ => false |}, script1.
    match goal with |- exists s, _ /\ _ /\ ?x = _ => assert (H : snd x = FStop BlockedWrite) by (vm_compute; reflexivity); destruct x as [s r] eqn:E end.
    exists s. cbn [snd] in H. subst r. repeat split.
  - exists {| e_intf := fun _ x => x; e_exp := fun _ => false; e_write := fun n => WOk; e_mem := fun n => (n <=? 2 ^ 34)%Z;
     e_ford := fun _ d => d; e_fold := fun _ _ => false |}, [hs0; frame (ext_of (B "70368744177664"))].
    match goal with |- exists s, _ /\ _ /\ _ /\ ?x = _ => assert (H : snd x = FStop OutOfMemory) by (vm_compute; reflexivity); destruct x as [s r] eqn:E end.
    exists s. cbn [snd] in H. subst r. split; [reflexivity|]. split; [reflexivity|]. split; [|reflexivity]. cbn [e_mem]. intros n Hn. apply Z.leb_le. exact Hn.
Qed.

(** ** C58, C59 *)

(** C59: in general: an honest peer serving metadata of any size up to 2^48 bytes, its pieces in any order,
    with keep-alives and unrelated messages anywhere, is served - provided the shared pool
    already holds at least as many 32 KiB buffers as messages arrive between the first and the
    last piece (or only one does). *)
Lemma C59_enough_buffers_pf : forall e p h meta script during peerId infoHash,
  alone e -> calm e -> sound_pool p h -> length peerId = 20 -> sha1 meta = infoHash -> (Z.of_nat (length meta) <= 2 ^ 48)%Z ->
  honest meta script during ->
  carrying during <= Nat.max 1 (length (chan_of (p_chans p) 32768)) ->
  exists s, FetchMetaData e p h (Some script) peerId infoHash = (s, FOk meta).
Proof.
  intros e p h meta script during peerId infoHash Ha Hc Hs Hp Hi Hl Hh Hcar.
  destruct (fetch_honest e p h meta script during peerId infoHash Ha Hc Hs Hp Hi Hl Hh Hcar) as (s & E & _). eauto.
Qed.

(** C59: two pieces are served from a pool holding two buffers. *)
Lemma C59_enough_buffers_example_pf : honest meta2 script2 [Piece 1 (piece2 1); Piece 0 (piece2 0)] /\ sound_pool pool2 heap2 /\
  exists s, FetchMetaData calm0 pool2 heap2 (Some script2) LocalPeerId (sha1 meta2) = (s, FOk meta2).
Proof. split; [exact honest2|]. split; [exact pool2_sound|]. apply result_ok_spec. vm_compute. reflexivity. Qed.

(** C59: without that provision it is false: the same honest peer and an empty (sound) pool - the
    state in which the crawler starts - give a checksum error, because the second piece
    overwrote the first. *)
Lemma C59_multi_piece_refuted_pf :
  honest meta2 script2 [Piece 1 (piece2 1); Piece 0 (piece2 0)] /\ alone calm0 /\ calm calm0 /\ sound_pool pool0 heap0 /\
  exists s, FetchMetaData calm0 pool0 heap0 (Some script2) LocalPeerId (sha1 meta2) = (s, FErr (ENew (B "check sum err"))).
Proof.
  split; [exact honest2|]. split; [exact calm0_alone|]. split; [exact calm0_calm|]. split; [exact pool0_sound|].
  apply result_err_spec. vm_compute. reflexivity.
Qed.

(** C58: metadata of at most 16 KiB: an honest peer is always served, whatever the pool holds. *)
Lemma C58_one_piece_pf : forall e p h meta script during peerId infoHash,
  alone e -> calm e -> sound_pool p h -> length peerId = 20 -> sha1 meta = infoHash -> length meta <= Z.to_nat 16384 ->
  honest meta script during ->
  exists s, FetchMetaData e p h (Some script) peerId infoHash = (s, FOk meta).
Proof.
  intros e p h meta script during peerId infoHash Ha Hc Hs Hp Hi Hl Hh.
  assert (Hcar : carrying during <= 1).
  { destruct Hh as [hs noise ext before during rest k Hg Hext Hle Hok Hn Hb (i & body & t & Hf) (i' & body' & t' & Hla) Hk Hper].
    assert (k <= 1) by (destruct Hk as [Hk _]; lia).
    assert (Hlen : length (pieces during) <= 1) by (rewrite (Permutation_length Hper), seq_length; lia).
    rewrite Hf in Hla, Hlen |- *. destruct t' as [|m t'].
    - cbn in Hla. injection Hla as _ _ ->. cbn. lia.
    - exfalso. cbn in Hla. injection Hla as _ ->. cbn [pieces is_piece length] in Hlen.
      assert (H1 : 1 <= length (pieces (t' ++ [Piece i' body']))); [|lia].
      clear. induction t' as [|m t' IH]; [cbn; lia|]. cbn [app pieces]. destruct (is_piece m); cbn [length]; lia. }
  eapply C59_enough_buffers_pf; try eassumption; [lia|]. lia.
Qed.

(** C58: after every fetch - honest peer or not, success or not - the pool is sound again. *)
Lemma C58_pool_stays_sound_pf : forall e p h peer peerId infoHash s r, alone e -> sound_pool p h ->
  FetchMetaData e p h peer peerId infoHash = (s, r) -> sound_pool (f_pool s) (f_heap s).
Proof. exact fetch_any. Qed.

Lemma C58_example_pf : honest meta1 script1 [Piece 0 (data_of (B "0") (B "15") meta1)] /\ alone calm0 /\ calm calm0 /\ sound_pool pool0 heap0 /\ sound_pool pool2 heap2.
Proof. split; [exact honest1|]. split; [exact calm0_alone|]. split; [exact calm0_calm|]. split; [exact pool0_sound|exact pool2_sound]. Qed.

(** Another goroutine of the crawler reads a message of its own just before the n-th access of
    this one to shared buffers: it takes a buffer from the pool and fills it. *)
Definition neighbour (n : nat) : fenv :=
  {| e_intf := fun t x => if t =? n then match GetBySize (fst x) (snd x) 32768 with Ok (p, h, b) => (p, h_write h b (repeat "z"%char 100)) | _ => x end else x;
     e_exp := fun _ => false; e_write := fun _ => WOk; e_mem := fun _ => true; e_ford := fun _ d => d; e_fold := fun _ _ => false |}.

(** C58: with a concurrent fetch (the crawler runs up to 100) the property is false: the stored
    piece still lies in a buffer that was returned to the pool. *)
Lemma C58_concurrent_refuted_pf : honest meta1 script1 [Piece 0 (data_of (B "0") (B "15") meta1)] /\ calm (neighbour 14) /\
  exists s, FetchMetaData (neighbour 14) pool0 heap0 (Some script1) LocalPeerId (sha1 meta1) = (s, FErr (ENew (B "check sum err"))).
Proof.
  split; [exact honest1|]. split; [constructor; try reflexivity; intros n x; apply deq_refl|].
  apply result_err_spec. vm_compute. reflexivity.
Qed.

(** ** C60 *)

(** C60: a whole session with an honest peer: written are the handshake, the extended handshake and
    one request for each piece 0, ..., k-1, in this order, where k is the number of 16 KiB
    pieces of the announced size - and nothing else. *)
Lemma C60_honest_session_pf : forall e p h meta script during peerId infoHash,
  alone e -> calm e -> sound_pool p h -> length peerId = 20 -> sha1 meta = infoHash -> (Z.of_nat (length meta) <= 2 ^ 48)%Z ->
  honest meta script during -> carrying during <= Nat.max 1 (length (chan_of (p_chans p) 32768)) ->
  exists s r ext k reqs, FetchMetaData e p h (Some script) peerId infoHash = (s, r) /\
    written (f_trace s) = our_handshake peerId infoHash :: ext :: reqs /\ our_ext_handshake ext /\
    pieces_needed (Z.of_nat (length meta)) (Z.of_nat k) /\ Forall2 is_request (seq 0 k) reqs.
Proof.
  intros e p h meta script during peerId infoHash Ha Hc Hs Hp Hi Hl Hh Hcar.
  destruct (fetch_honest e p h meta script during peerId infoHash Ha Hc Hs Hp Hi Hl Hh Hcar) as (s & E & _ & m & n & m' & k & msgs & W & Hm & Hm' & Hk & F).
  exists s, (FOk meta), m', k, msgs. split; [exact E|]. rewrite <- (hs_is _ _ _ Hm). split; [exact W|].
  split; [eapply ext_is; [apply (ca_ord e Hc)|exact Hm']|]. split; [exact Hk|].
  assert (Hb : forall i, In i (seq 0 k) -> (Z.of_nat i <= max_int)%Z).
  { intros i Hin. apply in_seq in Hin. destruct Hk as [Hk _]. unfold max_int. lia. }
  clear W Hk. revert Hb. induction F as [|i m0 is ms (n0 & Hn0) F IH]; intros Hb; constructor.
  - eapply request_is; [apply (ca_ord e Hc)|apply Hb; left; reflexivity|exact Hn0].
  - apply IH. intros j Hj. apply Hb. right. exact Hj.
Qed.

(** C60: when an extended handshake announcing [size] is handled in any state, the requests sent are
    exactly pieces 0, ..., ceil(size / 16384) - 1. *)
Lemma C60_requests_for_size_pf : forall e b s body size k,
  calm e -> h_read (f_heap s) b = body -> ext_handshake body size -> length body <= Z.to_nat 32768 ->
  (0 <= size <= 2 ^ 48)%Z -> pieces_needed size (Z.of_nat k) ->
  exists s' reqs, handle_msg e b s = (s', FOk tt) /\ written (f_trace s') = written (f_trace s) ++ reqs /\ Forall2 is_request (seq 0 k) reqs.
Proof.
  intros e b s body size k Hc Hr Hx Hl Hs Hk.
  destruct (handle_ext e b s body size k Hc Hr Hx Hl Hs Hk) as (s' & msgs & E & _ & _ & _ & T & F).
  exists s', msgs. split; [exact E|]. split.
  - rewrite T, written_app. f_equal. clear. induction msgs as [|m t IH]; [reflexivity|]. cbn. f_equal. exact IH.
  - assert (Hb : forall i, In i (seq 0 k) -> (Z.of_nat i <= max_int)%Z).
    { intros i Hin. apply in_seq in Hin. destruct Hk as [Hk _]. unfold max_int. lia. }
    clear T Hk. revert Hb. induction F as [|i m0 is ms (n0 & Hn0) F IH]; intros Hb; constructor.
    + eapply request_is; [apply (ca_ord e Hc)|apply Hb; left; reflexivity|exact Hn0].
    + apply IH. intros j Hj. apply Hb. right. exact Hj.
Qed.

(** C60: whatever the peer does and whatever fails: nothing is ever written but our handshake, our
    extended handshake and runs of piece requests that each start at piece 0 and go up by one. *)
Lemma C60_only_requests_pf : forall e p h script peerId infoHash s r,
  (forall n x, deq x (e_ford e n x)) -> FetchMetaData e p h (Some script) peerId infoHash = (s, r) ->
  written (f_trace s) = [] \/ written (f_trace s) = [our_handshake peerId infoHash] \/
  exists ext runs, our_ext_handshake ext /\ Forall request_run runs /\
    written (f_trace s) = our_handshake peerId infoHash :: ext :: concat runs.
Proof. exact fetch_writes. Qed.

Lemma deq_ints d d' : (forall e, In e d -> exists z, snd e = VInt z) -> deq d d' -> Permutation d' d.
Proof.
  intros Hd H. inversion H as [a b d'' Hp Hf]; subst. symmetry. etransitivity; [exact Hp|].
  assert (Hin : forall e, In e d'' -> exists z, snd e = VInt z).
  { intros e He. apply Hd. apply (Permutation_in _ (Permutation_sym Hp)) in He. exact He. }
  replace d' with d''; [reflexivity|]. clear Hp H Hd. induction Hf as [|[k v] [k' v'] l l' [H1 H2] Hf IH]; [reflexivity|].
  cbn in H1, H2. subst k'. f_equal; [|apply IH; intros e He; apply Hin; right; exact He].
  destruct (Hin (k, v) (or_introl eq_refl)) as (z & Ez). cbn in Ez. subst v. inversion H2. reflexivity.
Qed.
(** C54: the exact shape of a metadata message: length prefix, message 20, the peer's extension
    id, a dictionary with exactly msg_type and piece - and total_size if and only if there is
    payload - followed by the payload. *)
Lemma C54_wire_format_pf : forall (ord : entries -> entries) id ty piece total data msg,
  id < 256 -> is_int ty -> is_int piece -> is_int total -> (forall x, deq x (ord x)) ->
  withExtendedFetchMetaMsg ord (Z.of_nat id) ty piece total data = Ok msg ->
  exists d enc, msg = frame (ascii_of_nat 20 :: ascii_of_nat id :: enc ++ data) /\ bencoding (VDict d) enc /\
    (data = [] -> Permutation d [(B "msg_type", VInt ty); (B "piece", VInt piece)]) /\
    (data <> [] -> Permutation d [(B "msg_type", VInt ty); (B "piece", VInt piece); (B "total_size", VInt total)]).
Proof.
  intros ord id ty piece total data msg Hid Hty Hpc Htot Hord H. unfold withExtendedFetchMetaMsg in H.
  set (x := match data with [] => _ | _ => _ end) in H.
  assert (Hgx : go_value (VDict x)).
  { subst x. apply go_valueb_ok. destruct data; cbn [dset beq]; cbn; rewrite ?(proj2 (is_intb_spec _)) by assumption; reflexivity. }
  assert (Hx : forall e, In e x -> exists z, snd e = VInt z).
  { subst x. intros e He. destruct data; cbn in He; intuition (subst; cbn; eauto). }
  destruct (EncodeDict (Some (ord x))) as [dst| |] eqn:Ed; [|discriminate..]. injection H as <-.
  exists (ord x), dst. split; [|split; [|split]].
  - unfold frame. rewrite be32_put. cbn [length]. rewrite app_length. unfold byte_of_int.
    rewrite Z.mod_small by lia. rewrite <- nat_N_Z, N2Z.id. unfold ascii_of_nat, byte_of. rewrite (N.mod_small (N.of_nat id)) by lia. reflexivity.
  - apply bencoding_iff. split; [|exact Ed].
    destruct (veq_go_plain (VDict x) (VDict (ord x))) as [H _]; [constructor; apply Hord|]. apply H. exact Hgx.
  - intros ->. etransitivity; [apply (deq_ints x); [exact Hx|apply Hord]|reflexivity].
  - intros Hne. etransitivity; [apply (deq_ints x); [exact Hx|apply Hord]|]. subst x. destruct data; [congruence|reflexivity].
Qed.

Lemma C60_example_pf : exists s ext r0 r1, fst (FetchMetaData calm0 pool2 heap2 (Some script2) LocalPeerId (sha1 meta2)) = s /\
  written (f_trace s) = [our_handshake LocalPeerId (sha1 meta2); ext; r0; r1] /\
  ext = frame (map ascii_of_nat [20; 0] ++ B "d1:md11:ut_metadatai1eee") /\
  r0 = frame (map ascii_of_nat [20; 1] ++ B "d8:msg_typei0e5:piecei0ee") /\
  r1 = frame (map ascii_of_nat [20; 1] ++ B "d8:msg_typei0e5:piecei1ee").
Proof.
  eexists _, _, _, _. split; [reflexivity|]. split; [|split; [reflexivity|split; reflexivity]]. vm_compute. reflexivity.
Qed.

(** C60: a peer need not answer the extended handshake at all: before any announced size the connection
    is ready for one piece, so a peer that sends piece 0 straight away is believed - if the checksum
    is right - without a single request having been sent to it. *)
Lemma C60_unrequested_piece_pf :
  exists s, FetchMetaData calm0 pool0 heap0 (Some [hs0; frame (data_of (B "0") (B "15") meta1)]) LocalPeerId (sha1 meta1) = (s, FOk meta1).
Proof. apply result_ok_spec. vm_compute. reflexivity. Qed.

(** ** C61 *)

(** C61: the same bytes, cut differently: the fetch succeeds, or fails.  (Last two messages in one segment.) *)
Lemma C61_segmentation_refuted_pf : exists script script', concat script = concat script' /\
  (exists s, FetchMetaData calm0 pool0 heap0 (Some script) LocalPeerId (sha1 meta1) = (s, FOk meta1)) /\
  (exists s, FetchMetaData calm0 pool0 heap0 (Some script') LocalPeerId (sha1 meta1) = (s, FErr (ENew (B "FetchMetaData err")))).
Proof.
  exists [hs0; frame (ext_of (B "15")); frame (data_of (B "0") (B "15") meta1)],
         [hs0; frame (ext_of (B "15")) ++ frame (data_of (B "0") (B "15") meta1)].
  split; [vm_compute; reflexivity|]. split; [apply result_ok_spec; vm_compute; reflexivity|apply result_err_spec; vm_compute; reflexivity].
Qed.

(** C61: cutting one message in two also makes the fetch fail. *)
Lemma C61_split_message_refuted_pf : exists script script', concat script = concat script' /\
  (exists s, FetchMetaData calm0 pool0 heap0 (Some script) LocalPeerId (sha1 meta1) = (s, FOk meta1)) /\
  (exists s err, FetchMetaData calm0 pool0 heap0 (Some script') LocalPeerId (sha1 meta1) = (s, FErr (ENew err))).
Proof.
  exists [hs0; frame (ext_of (B "15")); frame (data_of (B "0") (B "15") meta1)],
         [hs0; firstn 20 (frame (ext_of (B "15"))); skipn 20 (frame (ext_of (B "15"))); frame (data_of (B "0") (B "15") meta1)].
  split; [vm_compute; reflexivity|]. split; [apply result_ok_spec; vm_compute; reflexivity|].
  match goal with |- exists s err, ?x = _ => assert (H : exists s, x = (s, FErr (ENew (B "FetchMetaData err")))) end.
  { apply result_err_spec. vm_compute. reflexivity. }
  destruct H as (s & H). eauto.
Qed.

(** C55: every case occurs: keep-alive, too large, a message in the same segment, a message in the
    next one, and the end of the stream. *)
Lemma C55_example_pf :
  alone calm0 /\ sound_pool pool0 heap0 /\
  (exists s1, readBytesByPrefixLenMsg calm0 (at_script pool0 heap0 [be32 0]) = (s1, FOk None)) /\
  (exists s1, readBytesByPrefixLenMsg calm0 (at_script pool0 heap0 [be32 (Z.to_nat 32769)]) = (s1, FErr (ENew (B "read input toolarge")))) /\
  (exists s1 b, readBytesByPrefixLenMsg calm0 (at_script pool0 heap0 [be32 3 ++ B "abc"]) = (s1, FOk (Some b)) /\ h_read (f_heap s1) b = B "abc") /\
  (exists s1 b, readBytesByPrefixLenMsg calm0 (at_script pool0 heap0 [be32 3; B "abc"]) = (s1, FOk (Some b)) /\ h_read (f_heap s1) b = B "abc") /\
  (exists s1, readBytesByPrefixLenMsg calm0 (at_script pool0 heap0 [be32 3]) = (s1, FErr EIO)).
Proof.
  destruct (C55_frame_reading_pf calm0 (at_script pool0 heap0 [be32 0]) 0 [] [] calm0_alone pool0_sound eq_refl eq_refl) as (H1 & _ & _).
  assert (E2 : at_script pool0 heap0 [be32 (Z.to_nat 32769)] = at_script pool0 heap0 [be32 (Z.to_nat 32769) ++ []]) by (rewrite app_nil_r; reflexivity).
  destruct (C55_frame_reading_pf calm0 (at_script pool0 heap0 [be32 (Z.to_nat 32769) ++ []]) (Z.to_nat 32769) [] [] calm0_alone pool0_sound eq_refl ltac:(lia)) as (_ & H2 & _).
  destruct (C55_frame_reading_pf calm0 (at_script pool0 heap0 [be32 3 ++ B "abc"]) 3 (B "abc") [] calm0_alone pool0_sound eq_refl eq_refl) as (_ & _ & H3).
  destruct (C55_frame_reading_pf calm0 (at_script pool0 heap0 [be32 3; B "abc"]) 3 [] [B "abc"] calm0_alone pool0_sound eq_refl eq_refl) as (_ & _ & H4).
  destruct (C55_frame_reading_pf calm0 (at_script pool0 heap0 [be32 3]) 3 [] [] calm0_alone pool0_sound eq_refl eq_refl) as (_ & _ & H5).
  assert (F : firstn (Z.to_nat 32768) (B "abc") = B "abc") by (apply firstn_all2; cbn [length B list_ascii_of_string]; lia).
  assert (L : 1 <= 3 <= Z.to_nat 32768) by lia.
  specialize (H3 L). specialize (H4 L). specialize (H5 L).
  split; [exact calm0_alone|]. split; [exact pool0_sound|]. split; [exact (H1 eq_refl)|]. split; [rewrite E2; apply H2; lia|].
  split; [destruct H3 as (s1 & b & X & Y); exists s1, b; split; [exact X|etransitivity; [exact Y|exact F]]|].
  split; [destruct H4 as (s1 & b & X & Y); exists s1, b; split; [exact X|etransitivity; [exact Y|exact F]]|exact H5].
Qed.

(** C57: a peer that answers the handshake and hangs up: an error, and the connection is closed. *)
Lemma C57_example_pf : exists s err, FetchMetaData calm0 pool0 heap0 (Some [hs0]) LocalPeerId (sha1 meta1) = (s, FErr err) /\
  exists t, f_trace s = t ++ [CClose] /\ ~ In CClose t.
Proof.
  destruct (FetchMetaData calm0 pool0 heap0 (Some [hs0]) LocalPeerId (sha1 meta1)) as [s r] eqn:E.
  pose proof (C57_finishes_closed_pf calm0 pool0 heap0 [hs0] LocalPeerId (sha1 meta1) s r E) as H.
  assert (R : match snd (FetchMetaData calm0 pool0 heap0 (Some [hs0]) LocalPeerId (sha1 meta1)) with FErr _ => true | _ => false end = true) by (vm_compute; reflexivity).
  rewrite E in R. cbn [snd] in R. clear E. destruct r as [d|err|q|q]; [discriminate R| |discriminate R|discriminate R]. exists s, err. split; [reflexivity|exact H].
Qed.
