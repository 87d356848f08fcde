(** PeerWirePf.v -- proofs of C52-C54 (peer wire messages). *)
From Verif Require Import Base GoLib Bencode BencodeSpec BencodeProofs BencodePf Types TypesPf Krpc KrpcProofs Sha1 PeerWire.
Local Open Scope list_scope.

Lemma slice_mid {A} (a b c : list A) i j : i = length a -> j = length a + length b -> slice (a ++ b ++ c) i j = b.
Proof.
  intros -> ->. unfold slice. rewrite skipn_len_app. replace (length a + length b - length a) with (length b) by lia.
  rewrite firstn_app, Nat.sub_diag, firstn_all. cbn [firstn]. apply app_nil_r.
Qed.

Lemma gslice_mid (a b c : bytes) i j : i = length a -> j = length a + length b -> gslice (a ++ b ++ c) i j = Ok b.
Proof.
  intros Hi Hj. unfold gslice. rewrite (slice_mid a b c i j Hi Hj). subst i j.
  rewrite !app_length. replace (length a <=? length a + length b) with true by (symmetry; apply Nat.leb_le; lia).
  replace (length a + length b <=? length a + (length b + length c)) with true by (symmetry; apply Nat.leb_le; lia). reflexivity.
Qed.

Lemma gslice_ok (data : bytes) i j : i <= j -> j <= length data -> gslice data i j = Ok (slice data i j).
Proof. intros H1 H2. unfold gslice. apply Nat.leb_le in H1, H2. rewrite H1, H2. reflexivity. Qed.

Lemma gslice_bad (data : bytes) i j : length data < j -> gslice data i j = Panic PRuntime.
Proof. intros H. unfold gslice. apply Nat.leb_gt in H. rewrite H, andb_false_r. reflexivity. Qed.

(** C52: the handshake for a 20-byte peer id and info hash is
    19, "BitTorrent protocol", eight reserved bytes of which only bit 0x10 of the sixth is
    set, the info hash and the peer id - 68 bytes in all - and it parses back. *)
Lemma C52_handshake_roundtrip_pf : forall peerId infoHash, length peerId = 20 -> length infoHash = 20 ->
  exists msg h, withHandShakeMsg peerId infoHash = Ok msg /\ length msg = 68 /\
    msg = ascii_of_nat 19 :: B "BitTorrent protocol" ++ map ascii_of_nat [0; 0; 0; 0; 0; 16; 0; 0] ++ infoHash ++ peerId /\
    parseHandShakeMsg msg = Ok h /\
    hs_protocol h = B "BitTorrent protocol" /\ SupportExtended h = Ok true /\
    hs_infohash h = infoHash /\ hs_peerid h = peerId.
Proof.
  intros peerId infoHash Hp Hi.
  set (h := {| hs_protocol := supportProtocolName; hs_rbytes := reservedBytes; hs_infohash := infoHash; hs_peerid := peerId |}).
  exists (hs_Bytes h), h. unfold withHandShakeMsg, PeerIdLen, InfoHashLen. rewrite Hp, Hi. cbn [Nat.eqb negb orb].
  assert (Hl : length (hs_Bytes h) = 68).
  { unfold hs_Bytes, h. cbn [hs_protocol hs_rbytes hs_infohash hs_peerid length]. rewrite !app_length, Hp, Hi. reflexivity. }
  repeat split; [exact Hl|].
  unfold parseHandShakeMsg, handShakeLen. rewrite Hl. change (negb (68 =? 68)) with false. cbv iota.
  assert (Hx : idx (hs_Bytes h) 0 = Ok (ascii_of_nat 19)) by reflexivity.
  rewrite Hx. cbn [bind]. change (N.to_nat (bval (ascii_of_nat 19))) with 19.
  change (length reservedBytes) with 8. cbv zeta. unfold InfoHashLen, PeerIdLen. cbn [Nat.add].
  pose (p1 := [ascii_of_nat 19]).
  assert (E : hs_Bytes h = p1 ++ supportProtocolName ++ (reservedBytes ++ infoHash ++ peerId)) by reflexivity.
  rewrite E at 1. rewrite (gslice_mid p1 supportProtocolName) by reflexivity. cbn [bind].
  assert (E2 : hs_Bytes h = (p1 ++ supportProtocolName) ++ reservedBytes ++ (infoHash ++ peerId)) by (rewrite E, <- !app_assoc; reflexivity).
  rewrite E2 at 1. rewrite gslice_mid by reflexivity. cbn [bind].
  assert (E3 : hs_Bytes h = (p1 ++ supportProtocolName ++ reservedBytes) ++ infoHash ++ peerId) by (rewrite E, <- !app_assoc; reflexivity).
  rewrite E3 at 1. rewrite gslice_mid; [|reflexivity|rewrite Hi; reflexivity]. cbn [bind].
  assert (E4 : hs_Bytes h = (p1 ++ supportProtocolName ++ reservedBytes ++ infoHash) ++ peerId ++ []) by (rewrite E, app_nil_r, <- !app_assoc; reflexivity).
  rewrite E4 at 1. rewrite gslice_mid; [reflexivity| |]; rewrite !app_length, Hi; [|rewrite Hp]; reflexivity.
Qed.

(** C52: with any other length the function panics, so nothing can be sent. *)
Lemma C52_wrong_lengths_panic_pf : forall peerId infoHash, length peerId <> 20 \/ length infoHash <> 20 ->
  withHandShakeMsg peerId infoHash = Panic (PStr (B "wrong peerId or infohash")).
Proof.
  intros peerId infoHash H. unfold withHandShakeMsg, PeerIdLen, InfoHashLen.
  destruct (Nat.eqb_spec 20 (length peerId)); destruct (Nat.eqb_spec 20 (length infoHash)); cbn [negb orb]; try reflexivity. lia.
Qed.

(** C52: exact domain of the parser on arbitrary bytes, and the fields it returns. *)
Lemma C52_parse_domain_pf : forall data,
  (length data <> 68 -> parseHandShakeMsg data = Panic (PStr (B "parseHandShakeMsg wrong data len"))) /\
  (forall c rest, data = c :: rest -> length data = 68 ->
     (nat_of_ascii c <= 19 -> exists h, parseHandShakeMsg data = Ok h /\ length (hs_protocol h) = nat_of_ascii c /\
        length (hs_rbytes h) = 8 /\ length (hs_infohash h) = 20 /\ length (hs_peerid h) = 20 /\
        exists tail, rest = hs_protocol h ++ hs_rbytes h ++ hs_infohash h ++ hs_peerid h ++ tail) /\
     (19 < nat_of_ascii c -> parseHandShakeMsg data = Panic PRuntime)).
Proof.
  intros data. split.
  - intros H. unfold parseHandShakeMsg, handShakeLen. destruct (Nat.eqb_spec 68 (length data)); [lia|]. reflexivity.
  - intros c rest -> Hl. unfold parseHandShakeMsg, handShakeLen. rewrite Hl. change (negb (68 =? 68)) with false. cbv iota.
    unfold idx. cbn [nth_error bind]. change (N.to_nat (bval c)) with (nat_of_ascii c). set (n := nat_of_ascii c). cbv zeta.
    change (length reservedBytes) with 8. unfold InfoHashLen, PeerIdLen. split; intros Hn.
    + rewrite !gslice_ok by lia. cbn [bind]. eexists. split; [reflexivity|].
      assert (Hr : length rest = 67) by (cbn in Hl; lia). cbn [hs_protocol hs_rbytes hs_infohash hs_peerid].
      unfold slice. cbn [skipn]. rewrite !firstn_length, !skipn_length. cbn [length].
      replace (1 + n - 1) with n by lia. replace (1 + n + 8 - (1 + n)) with 8 by lia.
      replace (1 + n + 8 + 20 - (1 + n + 8)) with 20 by lia. replace (1 + n + 8 + 20 + 20 - (1 + n + 8 + 20)) with 20 by lia.
      split; [lia|]. split; [lia|]. split; [lia|]. split; [lia|].
      exists (skipn (n + 48) rest). cbn [Nat.add].
      change (S (n + 8)) with (S (n + 8)). cbn [skipn].
      rewrite <- (firstn_skipn n rest) at 1. f_equal.
      rewrite <- (firstn_skipn 8 (skipn n rest)) at 1. f_equal. rewrite <- skipn_add.
      rewrite <- (firstn_skipn 20 (skipn (n + 8) rest)) at 1. f_equal. rewrite <- skipn_add.
      rewrite <- (firstn_skipn 20 (skipn (n + 8 + 20) rest)) at 1. f_equal. rewrite <- skipn_add. f_equal. lia.
    + destruct (Nat.le_gt_cases (1 + n) 68) as [H1|H1]; [|rewrite (gslice_bad _ 1 (1 + n)) by lia; reflexivity].
      rewrite (gslice_ok _ 1 (1 + n)) by lia. cbn [bind].
      destruct (Nat.le_gt_cases (1 + n + 8) 68) as [H2|H2]; [|rewrite (gslice_bad _ (1 + n) (1 + n + 8)) by lia; reflexivity].
      rewrite (gslice_ok _ (1 + n) (1 + n + 8)) by lia. cbn [bind].
      destruct (Nat.le_gt_cases (1 + n + 8 + 20) 68) as [H3|H3]; [|rewrite (gslice_bad _ (1 + n + 8)) by lia; reflexivity].
      rewrite (gslice_ok _ (1 + n + 8)) by lia. cbn [bind].
      rewrite (gslice_bad _ (1 + n + 8 + 20)) by lia. reflexivity.
Qed.

Lemma C52_example_pf : exists msg, withHandShakeMsg LocalPeerId (repeat "h"%char 20) = Ok msg /\ length msg = 68.
Proof. eexists. split; [vm_compute; reflexivity|reflexivity]. Qed.

Lemma dset_In d k v k' v' : In (k', v') (dset d k v) -> (k', v') = (k, v) \/ In (k', v') d.
Proof.
  induction d as [|[k0 v0] t IH]; cbn [dset]; intros H.
  - destruct H as [H|[]]. left. congruence.
  - destruct (beq k0 k) eqn:Eb.
    + apply beq_eq in Eb. destruct H as [H|H]; [left; congruence|right; right; exact H].
    + destruct H as [H|H]; [right; left; exact H|]. destruct (IH H) as [E|E]; [left; exact E|right; right; exact E].
Qed.

Lemma go_dset d k v : go_value (VDict d) -> go_value v -> go_value (VDict (dset d k v)).
Proof.
  intros Hd Hv. inversion Hd as [| | |? Hn Hall| | | |]; subst. constructor; [apply dset_NoDup; exact Hn|].
  intros k' v' H. apply dset_In in H as [H|H]; [injection H as -> ->; exact Hv|eapply Hall; exact H].
Qed.
Lemma plain_dset d k v : plain (VDict d) -> plain v -> plain (VDict (dset d k v)).
Proof.
  intros Hd Hv. inversion Hd as [| | |? Hall]; subst. constructor.
  intros k' v' H. apply dset_In in H as [H|H]; [injection H as -> ->; exact Hv|eapply Hall; exact H].
Qed.

Lemma dset_same d k v : NoDup (map fst d) -> dget d k = Some v -> dset d k v = d.
Proof.
  induction d as [|[k0 v0] t IH]; cbn [dset dget map]; intros Hn H; [discriminate|].
  destruct (beq k0 k) eqn:E; [injection H as ->; reflexivity|]. inversion Hn; subst. rewrite IH; auto.
Qed.

(** The big-endian number in the first four bytes. *)
Definition prefix_of (msg : bytes) : N :=
  match msg with a :: b :: c :: d :: _ => (((N_of_ascii a * 256 + N_of_ascii b) * 256 + N_of_ascii c) * 256 + N_of_ascii d)%N | _ => 0%N end.

Lemma prefix_put n rest : (n < 4294967296)%N -> prefix_of (put_u32 n ++ rest) = n.
Proof. intros H. unfold put_u32. cbn [app prefix_of]. apply (get_put_u32 n H). Qed.

Lemma prefix_put_exact n rest : (N.of_nat n < 4294967296)%N -> n = length rest -> prefix_of (put_u32 (N.of_nat n) ++ rest) = N.of_nat (length rest).
Proof. intros H ->. apply prefix_put. exact H. Qed.

(** C53: for every metadata dictionary, every further dictionary and every map iteration order,
    the extended handshake is: length of the rest (4 bytes, big endian), 20, 0, a bencoded
    dictionary; the peer parses it back to the dictionary with "m" set to the metadata. *)
Lemma C53_extended_handshake_pf : forall (ord : entries -> entries) md d,
  go_value (VDict md) -> plain (VDict md) -> go_value (VDict d) -> plain (VDict d) ->
  (forall x, deq x (ord x)) ->
  exists msg, withExtendedhandShake ord (Some md) (Some d) = Ok msg /\
    firstn 2 (skipn 4 msg) = map ascii_of_nat [20; 0] /\
    ((N.of_nat (length msg) < 2 ^ 32)%N -> prefix_of msg = N.of_nat (length (skipn 4 msg)) /\
       exists r m', parseExtendedHandShake (skipn 4 msg) = Ok r /\ dget r (B "m") = Some (VDict m') /\ deq md m' /\
         (forall k v, k <> B "m" -> dget d k = Some v -> exists v', dget r k = Some v' /\ veq v v') /\
         (forall k v', k <> B "m" -> dget r k = Some v' -> exists v, dget d k = Some v)).
Proof.
  intros ord md d Hgm Hpm Hgd Hpd Hord. unfold withExtendedhandShake, NewBaseExHandShakeMsg, ex_Bytes. cbn [dict_of dict_val].
  set (x := dset d (B "m") (VDict md)).
  assert (Hgx : go_value (VDict x)) by (apply go_dset; assumption).
  assert (Hpx : plain (VDict x)) by (apply plain_dset; assumption).
  destruct (C05_dict_roundtrip_pf x (ord x) Hgx Hpx (Hord x)) as (s & Hs & Hrt). rewrite Hs.
  eexists. split; [reflexivity|]. split; [reflexivity|]. intros Hlen.
  rewrite app_length in Hlen. cbn [length put_u32] in Hlen.
  assert (Hfits : fits s). { unfold fits, max_int. lia. }
  split.
  - change (skipn 4 (put_u32 (N.of_nat (length s + 2)) ++ byte_of ExtendedPeerMsg :: byte_of 0 :: s)) with (byte_of ExtendedPeerMsg :: byte_of 0 :: s).
    apply prefix_put_exact; [cbn in Hlen; lia|cbn [length]; lia].
  - cbn [skipn app put_u32]. unfold parseExtendedHandShake, idx. cbn [nth_error bind].
    change (negb (ExtendedPeerMsg =? bval (byte_of ExtendedPeerMsg))%N || negb (0 =? bval (byte_of 0))%N) with false. cbv iota.
    cbn [skipn]. destruct (dict_roundtrip_exact (ord x) s) as [Hdec _]; [|exact Hfits|exact Hs|].
    { destruct (veq_go_plain (VDict x) (VDict (ord x))) as [H1 _]; [constructor; apply Hord|apply H1; exact Hgx]. }
    rewrite Hdec. cbn [dict_of].
    assert (Hnx : NoDup (map fst x)) by (inversion Hgx; assumption).
    assert (Hnd : NoDup (map fst d)) by (inversion Hgd; assumption).
    assert (Ex : forall k, dget x k = if bytes_eq_dec (B "m") k then Some (VDict md) else dget d k).
    { intros k. unfold x. apply dget_dset. }
    destruct (deq_dget_dict x (ord x) (B "m") md Hnx (Hord x)) as (m' & Em & Hm').
    { rewrite Ex. destruct (bytes_eq_dec (B "m") (B "m")); congruence. }
    unfold GetDict, GetVal. rewrite Em. cbn [bind]. unfold NewBaseExHandShakeMsg. cbn [dict_of dict_val].
    assert (Hno : NoDup (map fst (ord x))) by (eapply Permutation_NoDup; [apply deq_keys, Hord|exact Hnx]).
    rewrite dset_same; [|exact Hno|exact Em].
    exists (ord x), m'. split; [reflexivity|]. split; [exact Em|]. split; [exact Hm'|]. split.
    + intros k v Hk Hv. apply (deq_dget x (ord x) k v Hnx (Hord x)). rewrite Ex. destruct (bytes_eq_dec (B "m") k); congruence.
    + intros k v' Hk Hv. assert (Hin : In k (map fst (ord x))).
      { apply dget_In in Hv; [|exact Hno]. apply in_map_iff. exists (k, v'). auto. }
      assert (Hin' : In k (map fst x)) by (eapply Permutation_in; [symmetry; apply deq_keys, Hord|exact Hin]).
      destruct (dget d k) eqn:Ed; [eauto|]. exfalso. destruct (dget x k) eqn:Ek.
      * rewrite Ex in Ek. destruct (bytes_eq_dec (B "m") k); congruence.
      * apply dget_none in Ek. contradiction.
Qed.

Lemma C53_example_pf : exists msg, withExtendedhandShake (@rev _) (Some [(B "ut_metadata", VInt 1)]) (Some [(B "metadata_size", VInt 123)]) = Ok msg /\
  parseExtendedHandShake (skipn 4 msg) = Ok [(B "m", VDict [(B "ut_metadata", VInt 1)]); (B "metadata_size", VInt 123)].
Proof. eexists. split; [vm_compute; reflexivity|]. vm_compute. reflexivity. Qed.

Lemma getint_deq x y k z : NoDup (map fst x) -> deq x y -> dget x k = Some (VInt z) -> GetInteger y k = Ok z.
Proof.
  intros Hn Hd Hg. destruct (deq_dget x y k _ Hn Hd Hg) as (v & E & Hv). inversion Hv; subst.
  unfold GetInteger, GetVal. rewrite E. reflexivity.
Qed.

(** C54: a metadata message for any message id 0..255, type, piece, total size and payload,
    whatever the payload bytes and the map order: the prefix is the length of the rest, and
    parsing the rest gives back the same id, type, piece and payload - and the same total size
    if there is a payload (without payload no total size is sent, and 0 is reported). *)
Lemma C54_metadata_roundtrip_pf : forall (ord : entries -> entries) id ty piece total data,
  (0 <= id < 256)%Z -> is_int ty -> is_int piece -> is_int total -> (forall x, deq x (ord x)) ->
  exists msg, withExtendedFetchMetaMsg ord id ty piece total data = Ok msg /\
    ((N.of_nat (length msg) < 2 ^ 32)%N -> prefix_of msg = N.of_nat (length (skipn 4 msg)) /\
      exists m, parseExtendedFetchMetaMsg (skipn 4 msg) = Ok m /\ fm_id m = id /\ fm_type m = ty /\ fm_piece m = piece /\
        payload (skipn 4 msg) m = data /\ (data <> [] -> fm_total m = total) /\ (data = [] -> fm_total m = 0%Z)).
Proof.
  intros ord id ty piece total data Hid Hty Hpc Htot Hord. unfold withExtendedFetchMetaMsg.
  set (x := match data with [] => _ | _ => _ end).
  assert (Hgx : go_value (VDict x)).
  { subst x. apply go_valueb_ok. destruct data; cbn [dset beq]; cbn; rewrite ?(proj2 (is_intb_spec _)) by assumption; reflexivity. }
  assert (Hpx : plain (VDict x)). { subst x. apply plainb_ok. destruct data; reflexivity. }
  assert (Hnx : NoDup (map fst x)) by (inversion Hgx; assumption).
  destruct (C05_dict_roundtrip_pf x (ord x) Hgx Hpx (Hord x)) as (s & Hs & _). cbv zeta. fold x. rewrite Hs.
  eexists. split; [reflexivity|]. intros Hlen. rewrite app_length in Hlen. cbn [length put_u32] in Hlen. rewrite app_length in Hlen.
  assert (Hfits : fits (s ++ data)). { unfold fits, max_int. rewrite app_length. lia. }
  split.
  - change (skipn 4 (put_u32 (N.of_nat (2 + length s + length data)) ++ byte_of ExtendedPeerMsg :: byte_of_int id :: s ++ data))
      with (byte_of ExtendedPeerMsg :: byte_of_int id :: s ++ data).
    apply prefix_put_exact; [cbn in Hlen; lia|cbn [length]; rewrite app_length; lia].
  - cbn [skipn app put_u32]. unfold parseExtendedFetchMetaMsg, idx. cbn [nth_error bind].
    change (negb (ExtendedPeerMsg =? bval (byte_of ExtendedPeerMsg))%N) with false. cbv iota. cbn [skipn].
    assert (Hgo : go_value (VDict (ord x))).
    { destruct (veq_go_plain (VDict x) (VDict (ord x))) as [H1 _]; [constructor; apply Hord|apply H1; exact Hgx]. }
    rewrite (dict_prefix_exact (ord x) s data Hgo Hfits Hs). cbv zeta.
    assert (Ety : GetInteger (ord x) (B "msg_type") = Ok ty).
    { apply (getint_deq x (ord x) _ _ Hnx (Hord x)). subst x. destruct data; reflexivity. }
    assert (Epc : GetInteger (ord x) (B "piece") = Ok piece).
    { apply (getint_deq x (ord x) _ _ Hnx (Hord x)). subst x. destruct data; reflexivity. }
    assert (Eid : Z.of_N (bval (byte_of_int id)) = id).
    { unfold byte_of_int. rewrite bval_byte_of, (Z.mod_small id 256) by lia. rewrite N.mod_small by lia. lia. }
    cbn [length]. rewrite app_length.
    destruct (Nat.leb_spec (S (S (length s + length data))) (length s + 2)) as [Hle|Hgt].
    + assert (data = []) as -> by (destruct data; [reflexivity|cbn [length] in Hle; lia]).
      rewrite Ety, Epc. cbn [bind]. eexists. split; [reflexivity|]. cbn [fm_id fm_type fm_piece fm_total]. unfold payload. cbn [fm_data].
      repeat split; try assumption. congruence.
    + assert (Hne : data <> []) by (intros ->; cbn [length] in Hgt; lia).
      assert (Etot : GetInteger (ord x) (B "total_size") = Ok total).
      { apply (getint_deq x (ord x) _ _ Hnx (Hord x)). subst x. destruct data; [congruence|reflexivity]. }
      rewrite Etot, Ety, Epc. cbn [bind]. eexists. split; [reflexivity|]. cbn [fm_id fm_type fm_piece fm_total]. unfold payload. cbn [fm_data].
      repeat split; try assumption; try congruence.
      replace (length s + 2) with (S (S (length s))) by lia. cbn [skipn]. apply skipn_len_app.
Qed.

Lemma C54_example_pf : exists msg m, withExtendedFetchMetaMsg (@rev _) 1 1 0 5 (B "dexee") = Ok msg /\
  parseExtendedFetchMetaMsg (skipn 4 msg) = Ok m /\ payload (skipn 4 msg) m = B "dexee" /\ fm_total m = 5%Z.
Proof. eexists _, _. split; [vm_compute; reflexivity|]. split; [vm_compute; reflexivity|]. split; vm_compute; reflexivity. Qed.
