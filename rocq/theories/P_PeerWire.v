(** P_PeerWire.v -- property theorems (generated by tools/gen_p.py from PeerWirePf.v).
    Each statement is repeated in full and closed by [exact]. *)
From Verif Require Import Base GoLib Bencode BencodeSpec BencodeProofs BencodePf Types TypesPf Krpc KrpcProofs Sha1 PeerWire.
Local Open Scope list_scope.
From Verif Require Import PeerWirePf.

(** C52: the handshake for a 20-byte peer id and info hash is
    19, "BitTorrent protocol", eight reserved bytes of which only bit 0x10 of the sixth is
    set, the info hash and the peer id - 68 bytes in all - and it parses back. *)
Theorem C52_handshake_roundtrip : forall peerId infoHash, length peerId = 20 -> length infoHash = 20 ->
  exists msg h, withHandShakeMsg peerId infoHash = Ok msg /\ length msg = 68 /\
    msg = ascii_of_nat 19 :: B "BitTorrent protocol" ++ map ascii_of_nat [0; 0; 0; 0; 0; 16; 0; 0] ++ infoHash ++ peerId /\
    parseHandShakeMsg msg = Ok h /\
    hs_protocol h = B "BitTorrent protocol" /\ SupportExtended h = Ok true /\
    hs_infohash h = infoHash /\ hs_peerid h = peerId.
Proof. exact C52_handshake_roundtrip_pf. Qed.
Print Assumptions C52_handshake_roundtrip.

(** C52: with any other length the function panics, so nothing can be sent. *)
Theorem C52_wrong_lengths_panic : forall peerId infoHash, length peerId <> 20 \/ length infoHash <> 20 ->
  withHandShakeMsg peerId infoHash = Panic (PStr (B "wrong peerId or infohash")).
Proof. exact C52_wrong_lengths_panic_pf. Qed.
Print Assumptions C52_wrong_lengths_panic.

(** C52: exact domain of the parser on arbitrary bytes, and the fields it returns. *)
Theorem C52_parse_domain : forall data,
  (length data <> 68 -> parseHandShakeMsg data = Panic (PStr (B "parseHandShakeMsg wrong data len"))) /\
  (forall c rest, data = c :: rest -> length data = 68 ->
     (nat_of_ascii c <= 19 -> exists h, parseHandShakeMsg data = Ok h /\ length (hs_protocol h) = nat_of_ascii c /\
        length (hs_rbytes h) = 8 /\ length (hs_infohash h) = 20 /\ length (hs_peerid h) = 20 /\
        exists tail, rest = hs_protocol h ++ hs_rbytes h ++ hs_infohash h ++ hs_peerid h ++ tail) /\
     (19 < nat_of_ascii c -> parseHandShakeMsg data = Panic PRuntime)).
Proof. exact C52_parse_domain_pf. Qed.
Print Assumptions C52_parse_domain.

Theorem C52_example : exists msg, withHandShakeMsg LocalPeerId (repeat "h"%char 20) = Ok msg /\ length msg = 68.
Proof. exact C52_example_pf. Qed.
Print Assumptions C52_example.

(** C53: for every metadata dictionary, every further dictionary and every map iteration order,
    the extended handshake is: length of the rest (4 bytes, big endian), 20, 0, a bencoded
    dictionary; the peer parses it back to the dictionary with "m" set to the metadata. *)
Theorem C53_extended_handshake : forall (ord : entries -> entries) md d,
  go_value (VDict md) -> plain (VDict md) -> go_value (VDict d) -> plain (VDict d) ->
  (forall x, deq x (ord x)) ->
  exists msg, withExtendedhandShake ord (Some md) (Some d) = Ok msg /\
    firstn 2 (skipn 4 msg) = map ascii_of_nat [20; 0] /\
    ((N.of_nat (length msg) < 2 ^ 32)%N -> prefix_of msg = N.of_nat (length (skipn 4 msg)) /\
       exists r m', parseExtendedHandShake (skipn 4 msg) = Ok r /\ dget r (B "m") = Some (VDict m') /\ deq md m' /\
         (forall k v, k <> B "m" -> dget d k = Some v -> exists v', dget r k = Some v' /\ veq v v') /\
         (forall k v', k <> B "m" -> dget r k = Some v' -> exists v, dget d k = Some v)).
Proof. exact C53_extended_handshake_pf. Qed.
Print Assumptions C53_extended_handshake.

Theorem C53_example : exists msg, withExtendedhandShake (@rev _) (Some [(B "ut_metadata", VInt 1)]) (Some [(B "metadata_size", VInt 123)]) = Ok msg /\
  parseExtendedHandShake (skipn 4 msg) = Ok [(B "m", VDict [(B "ut_metadata", VInt 1)]); (B "metadata_size", VInt 123)].
Proof. exact C53_example_pf. Qed.
Print Assumptions C53_example.

(** C54: a metadata message for any message id 0..255, type, piece, total size and payload,
    whatever the payload bytes and the map order: the prefix is the length of the rest, and
    parsing the rest gives back the same id, type, piece and payload - and the same total size
    if there is a payload (without payload no total size is sent, and 0 is reported). *)
Theorem C54_metadata_roundtrip : forall (ord : entries -> entries) id ty piece total data,
  (0 <= id < 256)%Z -> is_int ty -> is_int piece -> is_int total -> (forall x, deq x (ord x)) ->
  exists msg, withExtendedFetchMetaMsg ord id ty piece total data = Ok msg /\
    ((N.of_nat (length msg) < 2 ^ 32)%N -> prefix_of msg = N.of_nat (length (skipn 4 msg)) /\
      exists m, parseExtendedFetchMetaMsg (skipn 4 msg) = Ok m /\ fm_id m = id /\ fm_type m = ty /\ fm_piece m = piece /\
        payload (skipn 4 msg) m = data /\ (data <> [] -> fm_total m = total) /\ (data = [] -> fm_total m = 0%Z)).
Proof. exact C54_metadata_roundtrip_pf. Qed.
Print Assumptions C54_metadata_roundtrip.

Theorem C54_example : exists msg m, withExtendedFetchMetaMsg (@rev _) 1 1 0 5 (B "dexee") = Ok msg /\
  parseExtendedFetchMetaMsg (skipn 4 msg) = Ok m /\ payload (skipn 4 msg) m = B "dexee" /\ fm_total m = 5%Z.
Proof. exact C54_example_pf. Qed.
Print Assumptions C54_example.
