(** FetchLog.v -- model of what one download prints: the calls of fetchMetaLogger (dht/peerwire/bep9.go:119-284) and of
    peerWireLogger (dht/peerwire/bep3.go:88, :105, bep9.go:72, :94, :100, bep10.go:41, :58, :62), on top of Fetch.v.

    Every function of Fetch.v that prints is repeated here with its log calls; C135_same_download says that they do the same.
    Besides the lines, the history records what each turn of the read loop looked at (it has no effect).
    Simplification: the texts of runtime errors and of the printed structs are inputs. *)
From Verif Require Import Base GoLib Bencode Types Logger Node Json ConsoleLog Krpc BytesPool Sha1 PeerWire Fetch.
Local Open Scope list_scope.

(** A line, or the message (None: keep-alive) the read loop is looking at. *)
Inductive litem := LLine (en : centry) | LSeen (msg : option bytes).
Definition lines_of (l : list litem) : list centry := flat_map (fun i => match i with LLine en => [en] | LSeen _ => [] end) l.
Definition seen_of (l : list litem) : list (option bytes) := flat_map (fun i => match i with LLine _ => [] | LSeen m => [m] end) l.

Definition L (A : Type) := fstate -> (fstate * fres A) * list litem.
Definition quiet {A} (m : M A) : L A := fun s => (m s, []).
Definition lbind {A C} (m : L A) (k : A -> L C) : L C :=
  fun s => match m s with
           | ((s', FOk a), o) => (fst (k a s'), o ++ snd (k a s'))
           | ((s', FErr e), o) => ((s', FErr e), o)
           | ((s', FPanic p), o) => ((s', FPanic p), o)
           | ((s', FStop x), o) => ((s', FStop x), o)
           end.
Notation "'log*' x := m 'in' k" := (lbind m (fun x => k)) (at level 200, x pattern, m at level 100, k at level 200, right associativity).
Definition note (i : litem) : L unit := fun s => ((s, FOk tt), [i]).

Section FetchLog.
  Variable e : fenv.
  Variable laddr : bytes.
  (** The text of an error or of a struct printed after t accesses to shared buffers; of a recovered panic. *)
  Variable txt : nat -> bytes.
  Variable ptxt : gopanic -> bytes.
  Definition panic_said (p : gopanic) : bytes := match p with PStr m => m | _ => ptxt p end.

  Definition fetch_entry (m : method) (msg : string) (ctx : entries) : centry := entry "FetchMetadata" m msg ((B "laddr", VStr laddr) :: ctx).
  (** fetchMetaLogger.Info / Error *)
  Definition say (m : method) (msg : string) (ctx : nat -> entries) : L unit := fun s => ((s, FOk tt), [LLine (fetch_entry m msg (ctx (f_tick s)))]).
  (** fetchMetaLogger.Panic *)
  Definition cry {A} (msg : string) (ctx : nat -> entries) : L A := fun s => ((s, FPanic (PStr (B msg))), [LLine (fetch_entry MPanic msg (ctx (f_tick s)))]).
  (** A call that may end in peerWireLogger.Panic; only these panic with a string. *)
  Definition wired {A} (ctx : nat -> entries) (r : res A) : L A :=
    fun s => (lift r s, match r with Panic (PStr m) => [LLine {| ce_log := B "peerwire"; ce_m := MPanic; ce_msg := m; ce_ctx := Some (ctx (f_tick s)) |}] | _ => [] end).
  Definition err_ctx (t : nat) : entries := [(B "err", VStr (txt t))].

  (** bep9.go:223-232 *)
  Fixpoint request_pieces_log (is : list nat) : L unit :=
    match is with
    | [] => quiet (ret tt)
    | i :: t =>
        log* ord := quiet (m_ord e) in
        log* msg := wired err_ctx (withExtendedFetchMetaMsg ord 1 ExRequest (Z.of_nat i) 0 []) in
        log* ok := quiet (m_write e msg) in
        if ok then request_pieces_log t else cry "write request piece err" err_ctx
    end.
  (** bep9.go:205-232 *)
  Definition handle_ext_handshake_log (data : bytes) : L unit :=
    log* dict := wired err_ctx (parseExtendedHandShake data) in
    log* _ := say MInfo "get extended handshake" (fun t => [(B "exHandShakeResp", VStr (txt t))]) in
    if negb (Exist dict (B "metadata_size")) then cry "get extended handshake wrong format" (fun t => [(B "exHandShakeResp", VStr (txt t))]) else
    log* metaSize := quiet (lift (GetInteger dict (B "metadata_size"))) in
    log* _ := quiet (fun s => (set_meta s (f_meta s) metaSize (f_req s), FOk tt)) in
    let n := piece_count metaSize in
    log* _ := quiet (m_make e 24 n) in
    log* _ := quiet (fun s => (set_meta s (repeat None (Z.to_nat n)) (f_size s) (f_req s), FOk tt)) in
    log* _ := quiet (m_make e 1 n) in
    log* _ := quiet (fun s => (set_meta s (f_meta s) (f_size s) (repeat false (Z.to_nat n)), FOk tt)) in
    log* _ := request_pieces_log (seq 0 (Z.to_nat n)) in
    say MInfo "request pieces" (fun _ => [(B "metaSize", VInt metaSize); (B "pieceCount", VInt n)]).
  (** bep9.go:234-244 *)
  Definition handle_piece_log (b : slc) (data : bytes) : L unit :=
    log* m := wired err_ctx (parseExtendedFetchMetaMsg data) in
    log* _ := say MInfo "fetch extended msg" (fun t => [(B "fetchMetaResp", VStr (txt t))]) in
    if negb (fm_type m =? ExData)%Z then say MError "get extended piece wrong format" (fun t => [(B "fetchMetaResp", VStr (txt t))]) else
    quiet (handle_piece b data).
  (** bep9.go:199-253 *)
  Definition handleExtendedMsg_log (b : slc) (data : bytes) : L unit :=
    log* id := quiet (lift (idx data 1)) in
    if (bval id =? 0)%N then handle_ext_handshake_log data
    else if (bval id =? 1)%N then handle_piece_log b data
    else
      let ctx := [(B "msgid", VInt (Z.of_N (bval id))); (B "payloadLen", VInt (Z.of_nat (length data)))] in
      if (bval id =? 2)%N then say MInfo "fetch pexExtendedId extend msg" (fun _ => ctx)
      else say MInfo "fetch pexExtendedId wrong extend msg" (fun _ => ctx).
  (** bep9.go:188-195 *)
  Definition handle_msg_log (b : slc) : L unit :=
    log* data := quiet (m_show b) in
    log* _ := note (LSeen (Some data)) in
    log* ty := quiet (lift (parsePrefixLenMsg data)) in
    if (ty =? ExtendedPeerMsg)%N then handleExtendedMsg_log b data
    else say MInfo "fetch bep3 msg" (fun _ => [(B "peerMsgType", VInt (Z.of_N ty)); (B "payloadLen", VInt (Z.of_nat (length data)))]).
  (** bep9.go:174-178 *)
  Definition with_put_log (b : slc) (body : L unit) : L unit := fun s =>
    match body s with
    | ((s1, FStop x), o) => ((s1, FStop x), o)
    | ((s1, r), o) => (if (0 <? s_cap b)%Z then (fst (m_put e b s1), r) else (s1, r), o)
    end.
  (** bep9.go:170-196 *)
  Definition readMetaDataHandler_log : L unit := fun s =>
    match readBytesByPrefixLenMsg e s with
    | (s1, FOk None) => note (LSeen None) s1
    | (s1, FOk (Some b)) => with_put_log b (handle_msg_log b) s1
    | (s1, FErr _) => cry "read prefix length err" err_ctx s1
    | (s1, FPanic p) => ((s1, FPanic p), [])
    | (s1, FStop x) => ((s1, FStop x), [])
    end.
  (** bep9.go:163-168 *)
  Fixpoint readMetaDataLoop_log (fuel : nat) : L unit := fun s =>
    match fuel with
    | O => ((s, FStop OutOfFuel), [])
    | S f =>
        if negb (CompledMetaData s) && negb (e_exp e (f_tick s))
        then lbind readMetaDataHandler_log (fun _ => readMetaDataLoop_log f) s
        else ((s, FOk tt), [])
    end.
  (** bep9.go:265-284 *)
  Definition handshakePeer_log (peerId infoHash : bytes) : L unit :=
    log* msg := wired (fun _ => [(B "peerIdLen", VInt (Z.of_nat (length peerId))); (B "infohashLen", VInt (Z.of_nat (length infoHash)))]) (withHandShakeMsg peerId infoHash) in
    log* ok := quiet (m_write e msg) in
    if negb ok then cry "write handshake err" err_ctx else
    fun s =>
      match m_recv handShakeLen s with
      | (s1, FErr _) => cry "get handshake response err" err_ctx s1
      | (s1, FOk d) =>
          (log* h := wired (fun _ => [(B "len", VInt (Z.of_nat handShakeLen))]) (parseHandShakeMsg (d ++ repeat (byte_of 0) (handShakeLen - length d))) in
           if negb (EqualFold (e_fold e) supportProtocolName (hs_protocol h)) then cry "get handshake not support bittoroute protocol" (fun t => [(B "handShakeResp", VStr (txt t))]) else
           log* ext := quiet (lift (SupportExtended h)) in
           if negb ext then cry "get handshake not support extended protocol" (fun t => [(B "handShakeResp", VStr (txt t))]) else quiet (ret tt)) s1
      | (s1, FPanic p) => ((s1, FPanic p), [])
      | (s1, FStop x) => ((s1, FStop x), [])
      end.
  (** bep9.go:256-262 *)
  Definition initialMessages_log : L unit :=
    log* ord := quiet (m_ord e) in
    log* msg := wired err_ctx (withExtendedhandShake ord (Some [(B "ut_metadata", VInt 1)]) None) in
    log* ok := quiet (m_write e msg) in
    if ok then quiet (ret tt) else cry "write extended handshake err" err_ctx.
  (** bep9.go:136-159 *)
  Definition fetch_body_log (peerId infoHash : bytes) : L bytes :=
    log* _ := handshakePeer_log peerId infoHash in
    log* _ := initialMessages_log in
    log* _ := (fun s => readMetaDataLoop_log (loop_fuel (f_script s)) s) in
    fun s =>
      if negb (CompledMetaData s) then ((s, FErr (ENew (B "cannot completed download metadata"))), []) else
      (log* _ := quiet (m_make e 1 (f_size s)) in
       log* result := quiet (merge e (seq 0 (length (f_req s))) []) in
       if negb (beq infoHash (GenerateInfoHash result)) then
         log* _ := say MError "chesum metadata not match" (fun _ => [(B "metasize", VInt (f_size s))]) in
         quiet (lift (Err (ENew (B "check sum err"))))
       else
         log* _ := say MInfo "chesum metadata match" (fun _ => [(B "infohash", VStr (hex infoHash))]) in
         quiet (ret result)) s.
  (** bep9.go:122-160; nothing is printed when the dial fails. *)
  Definition FetchMetaData_log (p : pool) (h : heap) (peer : option (list bytes)) (peerId infoHash : bytes) : (fstate * fres bytes) * list litem :=
    match peer with
    | None => ((NewPeerConn p h [], FErr EIO), [])
    | Some script =>
        match fetch_body_log peerId infoHash (NewPeerConn p h script) with
        | ((s, FStop x), o) => ((s, FStop x), o)
        | ((s, FPanic pn), o) => ((set_io s (f_script s) CClose, FErr (ENew (B "FetchMetaData err"))), o ++ [LLine (fetch_entry MError "FetchMetaData err" [(B "err", VStr (panic_said pn))])])
        | ((s, r), o) => ((set_io s (f_script s) CClose, r), o)
        end
    end.
End FetchLog.
