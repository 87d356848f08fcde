(** FetchLogSpec.v -- the lines one download prints, message by message; written without the functions of FetchLog.v.
    [laddr] is the peer's address as it was given to FetchMetaData. *)
From Verif Require Import Base GoLib Bencode Types Logger ConsoleLog FetchSpec Fetch.
Local Open Scope list_scope.

(** A line of the logger "FetchMetadata" about this peer, and a line of the logger "peerwire". *)
Definition fline (laddr : bytes) (m : method) (msg : string) (ctx : entries) : centry :=
  {| ce_log := B "FetchMetadata"; ce_m := m; ce_msg := B msg; ce_ctx := Some ((B "laddr", VStr laddr) :: ctx) |}.
Definition wline (msg : string) (ctx : entries) : centry := {| ce_log := B "peerwire"; ce_m := MPanic; ce_msg := B msg; ce_ctx := Some ctx |}.

(** How a part of a download ends: it goes on; it is given up by a call of a logger's Panic with this text;
    it dies otherwise (a runtime error or an error raised by a misc type, a write that never returns, no memory). *)
Inductive ending := Goes | Panics (msg : bytes) | Dies.

(** The lines before the first message: nothing is printed unless the greeting fails. *)
Inductive greeting (laddr peerId infoHash : bytes) : ending -> list centry -> Prop :=
| gr_fine : greeting laddr peerId infoHash Goes []
| gr_args : length peerId <> 20 \/ length infoHash <> 20 ->
    greeting laddr peerId infoHash (Panics (B "wrong peerId or infohash")) [wline "wrong peerId or infohash" [(B "peerIdLen", VInt (Z.of_nat (length peerId))); (B "infohashLen", VInt (Z.of_nat (length infoHash)))]]
| gr_err msg t : In msg ["write handshake err"; "get handshake response err"; "write extended handshake err"]%string ->
    greeting laddr peerId infoHash (Panics (B msg)) [fline laddr MPanic msg [(B "err", VStr t)]]
| gr_peer msg t : In msg ["get handshake not support bittoroute protocol"; "get handshake not support extended protocol"]%string ->
    greeting laddr peerId infoHash (Panics (B msg)) [fline laddr MPanic msg [(B "handShakeResp", VStr t)]]
| gr_dies : greeting laddr peerId infoHash Dies [].

(** The key of a decoded dictionary is an integer / a dictionary. *)
Definition has_int (d : entries) (k : string) (z : Z) : Prop := dget d (B k) = Some (VInt z).
Definition no_int (d : entries) (k : string) : Prop := forall z, ~ has_int d k z.
Definition has_dict (d : entries) (k : string) : Prop := exists v, dget d (B k) = Some v /\ (v = VNilDict \/ exists x, v = VDict x).

(** The lines after the peer's extended handshake [d] has been printed. *)
Inductive asking (laddr : bytes) (d : entries) : ending -> list centry -> Prop :=
| as_no_size t : dget d (B "metadata_size") = None ->
    asking laddr d (Panics (B "get extended handshake wrong format")) [fline laddr MPanic "get extended handshake wrong format" [(B "exHandShakeResp", VStr t)]]
| as_bad_size v : dget d (B "metadata_size") = Some v -> no_int d "metadata_size" -> asking laddr d Dies []
| as_dies size : has_int d "metadata_size" size -> asking laddr d Dies []
| as_write size t : has_int d "metadata_size" size ->
    asking laddr d (Panics (B "write request piece err")) [fline laddr MPanic "write request piece err" [(B "err", VStr t)]]
| as_asked size k : has_int d "metadata_size" size -> pieces_needed size k ->
    asking laddr d Goes [fline laddr MInfo "request pieces" [(B "metaSize", VInt size); (B "pieceCount", VInt k)]].

(** The lines about one message. *)
Inductive about (laddr : bytes) : ending -> bytes -> list centry -> Prop :=
| ab_empty : about laddr Dies [] []
| ab_other c t : c <> ascii_of_nat 20 ->
    about laddr Goes (c :: t) [fline laddr MInfo "fetch bep3 msg" [(B "peerMsgType", VInt (Z.of_N (bval c))); (B "payloadLen", VInt (Z.of_nat (length (c :: t))))]]
| ab_short : about laddr Dies [ascii_of_nat 20] []
  (* extended id 0: the extended handshake *)
| ab_handshake_bad rest er t : DecodeDict rest = Err er ->
    about laddr (Panics (B "decode extended handshake err")) (ascii_of_nat 20 :: ascii_of_nat 0 :: rest) [wline "decode extended handshake err" [(B "err", VStr t)]]
| ab_handshake_dies rest p : DecodeDict rest = Panic p -> about laddr Dies (ascii_of_nat 20 :: ascii_of_nat 0 :: rest) []
| ab_handshake_no_m rest g : DecodeDict rest = Ok g -> ~ has_dict (dict_of g) "m" -> about laddr Dies (ascii_of_nat 20 :: ascii_of_nat 0 :: rest) []
| ab_handshake rest d t how more : DecodeDict rest = Ok (Some d) -> has_dict d "m" -> asking laddr d how more ->
    about laddr how (ascii_of_nat 20 :: ascii_of_nat 0 :: rest) (fline laddr MInfo "get extended handshake" [(B "exHandShakeResp", VStr t)] :: more)
  (* extended id 1: the answer to a request *)
| ab_piece_bad rest er t : DecodeDictNoLimit rest = Err er ->
    about laddr (Panics (B "decode extended fetchmetadata err")) (ascii_of_nat 20 :: ascii_of_nat 1 :: rest) [wline "decode extended fetchmetadata err" [(B "err", VStr t)]]
| ab_piece_dies rest p : DecodeDictNoLimit rest = Panic p -> about laddr Dies (ascii_of_nat 20 :: ascii_of_nat 1 :: rest) []
| ab_piece_fields rest d n : DecodeDictNoLimit rest = Ok (d, n) ->
    no_int d "msg_type" \/ no_int d "piece" \/ (n < length rest /\ no_int d "total_size") -> about laddr Dies (ascii_of_nat 20 :: ascii_of_nat 1 :: rest) []
| ab_piece_no_data rest d n ty t t' : DecodeDictNoLimit rest = Ok (d, n) -> has_int d "msg_type" ty -> ty <> 1%Z ->
    about laddr Goes (ascii_of_nat 20 :: ascii_of_nat 1 :: rest) [fline laddr MInfo "fetch extended msg" [(B "fetchMetaResp", VStr t)]; fline laddr MError "get extended piece wrong format" [(B "fetchMetaResp", VStr t')]]
| ab_piece_data rest d n t how : DecodeDictNoLimit rest = Ok (d, n) -> has_int d "msg_type" 1 -> how = Goes \/ how = Dies ->
    about laddr how (ascii_of_nat 20 :: ascii_of_nat 1 :: rest) [fline laddr MInfo "fetch extended msg" [(B "fetchMetaResp", VStr t)]]
  (* other extended ids *)
| ab_pex rest :
    about laddr Goes (ascii_of_nat 20 :: ascii_of_nat 2 :: rest) [fline laddr MInfo "fetch pexExtendedId extend msg" [(B "msgid", VInt 2); (B "payloadLen", VInt (Z.of_nat (2 + length rest)))]]
| ab_unknown c rest : ~ In c (map ascii_of_nat [0; 1; 2]) ->
    about laddr Goes (ascii_of_nat 20 :: c :: rest) [fline laddr MInfo "fetch pexExtendedId wrong extend msg" [(B "msgid", VInt (Z.of_N (bval c))); (B "payloadLen", VInt (Z.of_nat (2 + length rest)))]].

(** The lines about the messages the read loop looked at, in order: nothing for a keep-alive (None);
    only the last message can end the download. *)
Inductive conversation (laddr : bytes) : ending -> list (option bytes) -> list centry -> Prop :=
| cv_end : conversation laddr Goes [] []
| cv_keepalive how l o : conversation laddr how l o -> conversation laddr how (None :: l) o
| cv_message how body l o1 o : about laddr Goes body o1 -> conversation laddr how l o -> conversation laddr how (Some body :: l) (o1 ++ o)
| cv_last how body o : about laddr how body o -> how <> Goes -> conversation laddr how [Some body] o.

(** Everything before the closing line. *)
Inductive transcript (laddr peerId infoHash : bytes) : ending -> list (option bytes) -> list centry -> Prop :=
| tr_greeting how o : greeting laddr peerId infoHash how o -> how <> Goes -> transcript laddr peerId infoHash how [] o
| tr_talk how l o : conversation laddr how l o -> transcript laddr peerId infoHash how l o
| tr_broken l o t : conversation laddr Goes l o -> transcript laddr peerId infoHash (Panics (B "read prefix length err")) l (o ++ [fline laddr MPanic "read prefix length err" [(B "err", VStr t)]])
| tr_dies l o : conversation laddr Goes l o -> transcript laddr peerId infoHash Dies l o.

(** The closing line, by the way the rest ended and the result of FetchMetaData; [size] is the size announced last. *)
Inductive closes (laddr infoHash : bytes) (size : Z) : ending -> fres bytes -> list centry -> Prop :=
| cl_ok d : closes laddr infoHash size Goes (FOk d) [fline laddr MInfo "chesum metadata match" [(B "infohash", VStr (hex infoHash))]]
| cl_sum : closes laddr infoHash size Goes (FErr (ENew (B "check sum err"))) [fline laddr MError "chesum metadata not match" [(B "metasize", VInt size)]]
| cl_incomplete : closes laddr infoHash size Goes (FErr (ENew (B "cannot completed download metadata"))) []
| cl_panics m : closes laddr infoHash size (Panics m) (FErr (ENew (B "FetchMetaData err"))) [fline laddr MError "FetchMetaData err" [(B "err", VStr m)]]
| cl_dies how t : how = Goes \/ how = Dies -> closes laddr infoHash size how (FErr (ENew (B "FetchMetaData err"))) [fline laddr MError "FetchMetaData err" [(B "err", VStr t)]]
| cl_hangs how x : how = Goes \/ how = Dies -> closes laddr infoHash size how (FStop x) [].

(** The three closing lines. *)
Definition closing_line (en : centry) : Prop := ce_log en = B "FetchMetadata" /\
  In (ce_msg en) [B "chesum metadata match"; B "chesum metadata not match"; B "FetchMetaData err"].
