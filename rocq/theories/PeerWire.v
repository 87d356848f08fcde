(** PeerWire.v -- model of the message codecs in dht/peerwire/bep3.go, bep10.go, bep9.go and of
    dht/peerwire/peer.go:55-63.

    [ord] is the order in which Go's runtime visits the map at the moment it is encoded.
    peerWireLogger and fetchMetaLogger are the console logger at level INFO created during
    package initialisation (misc/logger.go; see Logger.v), so their Panic always panics with
    the message string.  Log output is dropped. *)
From Verif Require Import Base GoLib Bencode Types Krpc Sha1.
Local Open Scope list_scope.

(** Logger.Panic(msg, _), misc/logger.go:184-190 at level INFO. *)
Definition LogPanic {A} (msg : bytes) : res A := Panic (PStr msg).

(** [data[i:j]] for a slice whose capacity is its length. *)
Definition gslice (data : bytes) (i j : nat) : res bytes :=
  if (i <=? j) && (j <=? length data) then Ok (slice data i j) else Panic PRuntime.

(** dht/peerwire/peer.go:55-63 *)
Definition GeneratePeerId (str : bytes) : bytes := sha1 str.
Definition GenerateInfoHash (b : bytes) : bytes := sha1 b.

(** dht/peerwire/bep3.go:12-16 *)
Definition handShakeLen : nat := 68.
Definition PeerIdLen : nat := 20.
Definition InfoHashLen : nat := 20.
Definition PrefixLen : Z := 4.
Definition maxReadLength : Z := 32 * 1024.
(** dht/peerwire/bep3.go:19-22, 131-134 *)
Definition defaultReservedBytes : bytes := repeat (byte_of 0) 8.
Definition supportExterned (b : bytes) : res bytes :=
  do c <- idx b 5; Ok (list_set b 5 (byte_of (N.lor (bval c) 16))).
Definition supportProtocolName : bytes := B "BitTorrent protocol".
Definition reservedBytes : bytes :=
  match supportExterned defaultReservedBytes with Ok b => b | _ => [] end.
Definition LocalPeerId : bytes := GeneratePeerId (B "galaio.peerId").
(** dht/peerwire/bep3.go:38 *)
Definition ExtendedPeerMsg : N := 20.

(** dht/peerwire/bep3.go:48-57 *)
Record handshake := { hs_protocol : bytes; hs_rbytes : bytes; hs_infohash : bytes; hs_peerid : bytes }.

(** dht/peerwire/bep3.go:63-65 *)
Definition SupportExtended (h : handshake) : res bool :=
  do c <- idx (hs_rbytes h) 5; Ok (0 <? N.land (bval c) 16)%N.

(** dht/peerwire/bep3.go:75-84 *)
Definition hs_Bytes (h : handshake) : bytes :=
  byte_of (N.of_nat (length (hs_protocol h))) :: hs_protocol h ++ hs_rbytes h ++ hs_infohash h ++ hs_peerid h.

(** dht/peerwire/bep3.go:86-101; the only caller passes a slice of capacity 68 (bep9.go:272). *)
Definition parseHandShakeMsg (data : bytes) : res handshake :=
  if negb (handShakeLen =? length data) then LogPanic (B "parseHandShakeMsg wrong data len") else
  do c <- idx data 0;
  let plen := N.to_nat (bval c) in
  do protocol <- gslice data 1 (1 + plen);
  do rBytes <- gslice data (1 + plen) (1 + plen + length reservedBytes);
  do infoHash <- gslice data (1 + plen + length reservedBytes) (1 + plen + length reservedBytes + InfoHashLen);
  do peerId <- gslice data (1 + plen + length reservedBytes + InfoHashLen) (1 + plen + length reservedBytes + InfoHashLen + PeerIdLen);
  Ok {| hs_protocol := protocol; hs_rbytes := rBytes; hs_infohash := infoHash; hs_peerid := peerId |}.

(** dht/peerwire/bep3.go:103-109 *)
Definition withHandShakeMsg (peerId infoHash : bytes) : res bytes :=
  if negb (PeerIdLen =? length peerId) || negb (InfoHashLen =? length infoHash)
  then LogPanic (B "wrong peerId or infohash")
  else Ok (hs_Bytes {| hs_protocol := supportProtocolName; hs_rbytes := reservedBytes; hs_infohash := infoHash; hs_peerid := peerId |}).

(** dht/peerwire/bep3.go:127-129 (PeerMsgType of the message) *)
Definition parsePrefixLenMsg (data : bytes) : res N := do c <- idx data 0; Ok (bval c).

(** dht/peerwire/bep10.go:21-27; the caller's map is changed in place. *)
Definition NewBaseExHandShakeMsg (metadata dict : gdict) : entries := dset (dict_of dict) (B "m") (dict_val metadata).

(** dht/peerwire/bep10.go:37-50 *)
Definition ex_Bytes (ord : entries -> entries) (exdict : entries) : res bytes :=
  match EncodeDict (Some (ord exdict)) with
  | Ok dst => Ok (put_u32 (N.of_nat (length dst + 2)) ++ byte_of ExtendedPeerMsg :: byte_of 0 :: dst)
  | Err _ => LogPanic (B "encode extended handshake err")
  | Panic p => Panic p
  end.

(** dht/peerwire/bep10.go:67-70 *)
Definition withExtendedhandShake (ord : entries -> entries) (metadata dict : gdict) : res bytes :=
  ex_Bytes ord (NewBaseExHandShakeMsg metadata dict).

(** dht/peerwire/bep10.go:53-65; the result is the message's Dict(). *)
Definition parseExtendedHandShake (data : bytes) : res entries :=
  do t <- idx data 0;
  do i <- idx data 1;
  if negb (ExtendedPeerMsg =? bval t)%N || negb (0 =? bval i)%N then LogPanic (B "extended handshake resp err") else
  match DecodeDict (skipn 2 data) with
  | Ok dict => do m <- GetDict (dict_of dict) (B "m"); Ok (NewBaseExHandShakeMsg m dict)
  | Err _ => LogPanic (B "decode extended handshake err")
  | Panic p => Panic p
  end.

(** dht/peerwire/bep9.go:19-23 *)
Definition ExRequest : Z := 0.
Definition ExData : Z := 1.
Definition ExReject : Z := 2.

(** dht/peerwire/bep9.go:33-39; [fm_data] is the offset of the payload in the parsed message
    (the Go slice aliases it), [None] is nil. *)
Record fetchmsg := { fm_id : Z; fm_type : Z; fm_piece : Z; fm_total : Z; fm_data : option nat }.

(** byte(x) of a Go int *)
Definition byte_of_int (z : Z) : byte := byte_of (Z.to_N (z mod 256)).

(** dht/peerwire/bep9.go:65-89 with :110-117; [data] is the optional last argument. *)
Definition withExtendedFetchMetaMsg (ord : entries -> entries) (exMsgId mType pieceNum totalSize : Z) (data : bytes) : res bytes :=
  let dict := [(B "msg_type", VInt mType); (B "piece", VInt pieceNum)] in
  let dict := match data with [] => dict | _ => dset dict (B "total_size") (VInt totalSize) end in
  match EncodeDict (Some (ord dict)) with
  | Ok dst =>
      let preLen := 2 + length dst + length data in
      Ok (put_u32 (N.of_nat preLen) ++ byte_of ExtendedPeerMsg :: byte_of_int exMsgId :: dst ++ data)
  | Err _ => LogPanic (B "encode extended fetchmetadata err")
  | Panic p => Panic p
  end.

(** dht/peerwire/bep9.go:91-108 *)
Definition parseExtendedFetchMetaMsg (data : bytes) : res fetchmsg :=
  do t <- idx data 0;
  if negb (ExtendedPeerMsg =? bval t)%N then LogPanic (B "extended fetchmetadata not extended msg") else
  do i <- idx data 1;
  match DecodeDictNoLimit (skipn 2 data) with
  | Ok (dict, next0) =>
      let next := next0 + 2 in
      if length data <=? next then
        do ty <- GetInteger dict (B "msg_type"); do pc <- GetInteger dict (B "piece");
        Ok {| fm_id := Z.of_N (bval i); fm_type := ty; fm_piece := pc; fm_total := 0; fm_data := None |}
      else
        do total <- GetInteger dict (B "total_size");
        do ty <- GetInteger dict (B "msg_type"); do pc <- GetInteger dict (B "piece");
        Ok {| fm_id := Z.of_N (bval i); fm_type := ty; fm_piece := pc; fm_total := total; fm_data := Some next |}
  | Err _ => LogPanic (B "decode extended fetchmetadata err")
  | Panic p => Panic p
  end.

(** dht/peerwire/bep9.go:61-63 (Data()); nil shows no bytes. *)
Definition payload (data : bytes) (m : fetchmsg) : bytes :=
  match fm_data m with Some off => skipn off data | None => [] end.

(** Tests against dht/peerwire/bep3_test.go and bep9_test.go. *)
Example t_reserved : map bval reservedBytes = [0; 0; 0; 0; 0; 16; 0; 0]%N. Proof. reflexivity. Qed.
Example t_req : withExtendedFetchMetaMsg (fun d => d) 3 ExRequest 0 0 [] =
  Ok ([byte_of 0; byte_of 0; byte_of 0; byte_of 27; byte_of 20; byte_of 3] ++ B "d8:msg_typei0e5:piecei0ee").
Proof. vm_compute. reflexivity. Qed.
