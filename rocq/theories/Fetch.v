(** Fetch.v -- model of the metadata download: dht/peerwire/peer.go:10-53,
    readBytesByPrefixLenMsg (dht/peerwire/bep3.go:137-159) and FetchMetaData with its helpers
    (dht/peerwire/bep9.go:121-284).

    The world outside the calling goroutine is an environment ([fenv]): the bytes the peer
    sends and how Read delivers them, what Write does, when the 10 s timer has fired, which
    allocations succeed, and what the other goroutines that share peerBytesPool do meanwhile.
    Simplifications: deadlines appear only as a read error at the end of the script; log calls
    other than Panic are dropped; allocations other than the three whose size the peer chooses
    always succeed. *)
From Verif Require Import Base GoLib Bencode Types Krpc BytesPool Sha1 PeerWire.
Local Open Scope list_scope.

(** Why a goroutine never comes back from a call: none of these can be recovered. *)
Inductive stop :=
| OutOfMemory     (* runtime "out of memory": the whole process dies *)
| BlockedWrite    (* conn.Write never returns: no write deadline is set (bep9.go:137) *)
| OutOfFuel.      (* model artefact, excluded by C57 *)

(** Outcome of a Go call. *)
Inductive fres (A : Type) := FOk (a : A) | FErr (e : goerr) | FPanic (p : gopanic) | FStop (s : stop).
Arguments FOk {A} a. Arguments FErr {A} e. Arguments FPanic {A} p. Arguments FStop {A} s.

(** Calls on the connection, in order. *)
Inductive connop := CWrite (b : bytes) | CRead (want : nat) | CClose.

Inductive wres := WOk | WErr | WBlock.

(** [e_intf t] is what the other goroutines did to the pool and to memory before the t-th access
    of this goroutine to shared buffers; [e_exp t] whether the timer has fired by then;
    [e_write n] the outcome of the n-th connection operation if it is a Write; [e_mem n] whether
    an allocation of n bytes succeeds; [e_ford n] the iteration order of a map encoded as the n-th
    connection operation; [e_fold] Unicode case folding (see Types.v). *)
Record fenv := {
  e_intf : nat -> pool * heap -> pool * heap; e_exp : nat -> bool; e_write : nat -> wres;
  e_mem : Z -> bool; e_ford : nat -> entries -> entries; e_fold : N -> N -> bool }.

(** dht/peerwire/peer.go:10-20 together with what the goroutine can reach.  [f_script]: each
    element is a run of bytes that one Read can return at most; after the last one Read fails
    (end of stream, reset or the 1 s deadline of bep9.go:136). *)
Record fstate := {
  f_pool : pool; f_heap : heap; f_script : list bytes; f_tick : nat; f_trace : list connop;
  f_meta : list (option slc); f_size : Z; f_req : list bool }.

Definition M (A : Type) := fstate -> fstate * fres A.
Definition ret {A} (a : A) : M A := fun s => (s, FOk a).
Definition mbind {A C} (m : M A) (k : A -> M C) : M C :=
  fun s => match m s with
           | (s', FOk a) => k a s'
           | (s', FErr e) => (s', FErr e)
           | (s', FPanic p) => (s', FPanic p)
           | (s', FStop x) => (s', FStop x)
           end.
Notation "'let*' x := m 'in' k" := (mbind m (fun x => k)) (at level 200, x pattern, m at level 100, k at level 200, right associativity).
Definition lift {A} (r : res A) : M A := fun s => (s, match r with Ok a => FOk a | Err e => FErr e | Panic p => FPanic p end).
Definition mpanic {A} (msg : bytes) : M A := fun s => (s, FPanic (PStr msg)).

(** Record updates. *)
Definition set_ph (s : fstate) (p : pool) (h : heap) : fstate :=
  {| f_pool := p; f_heap := h; f_script := f_script s; f_tick := f_tick s; f_trace := f_trace s; f_meta := f_meta s; f_size := f_size s; f_req := f_req s |}.
Definition set_io (s : fstate) (sc : list bytes) (op : connop) : fstate :=
  {| f_pool := f_pool s; f_heap := f_heap s; f_script := sc; f_tick := f_tick s; f_trace := f_trace s ++ [op]; f_meta := f_meta s; f_size := f_size s; f_req := f_req s |}.
Definition set_meta (s : fstate) (m : list (option slc)) (z : Z) (r : list bool) : fstate :=
  {| f_pool := f_pool s; f_heap := f_heap s; f_script := f_script s; f_tick := f_tick s; f_trace := f_trace s; f_meta := m; f_size := z; f_req := r |}.

(** copy(b, d) for len(d) <= len(b): the write Read performs. *)
Definition h_write (h : heap) (b : slc) (d : bytes) : heap :=
  let old := h_data h (s_arr b) in
  let off := Z.to_nat (s_off b) in
  h_set h (s_arr b) (firstn off old ++ d ++ skipn (off + length d) old).

Section Fetch.
  Variable e : fenv.

  (** The other goroutines run. *)
  Definition interfere : M unit := fun s =>
    let (p, h) := e_intf e (f_tick s) (f_pool s, f_heap s) in
    ({| f_pool := p; f_heap := h; f_script := f_script s; f_tick := S (f_tick s); f_trace := f_trace s; f_meta := f_meta s; f_size := f_size s; f_req := f_req s |}, FOk tt).

  (** peerBytesPool.GetBySize(n) *)
  Definition m_get (n : Z) : M slc :=
    let* _ := interfere in
    fun s => match GetBySize (f_pool s) (f_heap s) n with
             | Ok (p, h, b) => (set_ph s p h, FOk b)
             | Err x => (s, FErr x) | Panic x => (s, FPanic x)
             end.
  (** peerBytesPool.Put(b) *)
  Definition m_put (b : slc) : M unit :=
    let* _ := interfere in fun s => (set_ph s (Put (f_pool s) b) (f_heap s), FOk tt).

  (** conn.Read into a buffer of [want] bytes: the bytes delivered.  Reading into an empty buffer
      returns at once. *)
  Definition m_recv (want : nat) : M bytes := fun s =>
    if want =? 0 then (set_io s (f_script s) (CRead want), FOk []) else
    match f_script s with
    | [] => (set_io s [] (CRead want), FErr EIO)
    | seg :: rest =>
        let left := skipn want seg in
        (set_io s (match left with [] => rest | _ => left :: rest end) (CRead want), FOk (firstn want seg))
    end.
  (** conn.Read(b) for a pooled buffer; the result is n. *)
  Definition m_read (b : slc) : M nat :=
    let* _ := interfere in
    let* d := m_recv (Z.to_nat (s_len b)) in
    fun s => (set_ph s (f_pool s) (h_write (f_heap s) b d), FOk (length d)).
  (** conn.Write(bs); the error text is irrelevant. *)
  Definition m_write (bs : bytes) : M bool := fun s =>
    let n := length (f_trace s) in
    let s' := set_io s (f_script s) (CWrite bs) in
    match e_write e n with WOk => (s', FOk true) | WErr => (s', FOk false) | WBlock => (s', FStop BlockedWrite) end.

  (** The bytes a slice shows now. *)
  Definition m_show (b : slc) : M bytes := fun s => (s, FOk (h_read (f_heap s) b)).
  (** The iteration order for a map encoded now. *)
  Definition m_ord : M (entries -> entries) := fun s => (s, FOk (e_ford e (length (f_trace s)))).

  (** binary.BigEndian.Uint32(b): panics when len(b) < 4. *)
  Definition Uint32 (b : bytes) : res N :=
    match b with x :: y :: z :: w :: _ => Ok (get_u32 x y z w) | _ => Panic PRuntime end.

  (** make([]T, n) for elements of [sz] bytes: a negative or absurd length panics, an allocation
      the machine cannot satisfy kills the process. *)
  Definition m_make (sz n : Z) : M unit := fun s =>
    if (n <? 0)%Z || (2 ^ 48 <? sz * n)%Z then (s, FPanic PRuntime)
    else if e_mem e (sz * n) then (s, FOk tt) else (s, FStop OutOfMemory).

  (** dht/peerwire/bep3.go:137-159.  [None] is a keep-alive (its buffer is not put back, :146). *)
  Definition readBytesByPrefixLenMsg : M (option slc) :=
    let* pre := m_get PrefixLen in
    let* _ := m_read pre in
    let* bs := m_show pre in
    let* preLen := lift (Uint32 bs) in
    if (preLen =? 0)%N then ret None else
    let* _ := m_put pre in
    if (Z.to_N maxReadLength <? preLen)%N then lift (Err (ENew (B "read input toolarge"))) else
    let* buf := m_get maxReadLength in
    let* n := m_read buf in
    ret (Some {| s_arr := s_arr buf; s_off := s_off buf; s_len := Z.of_nat n; s_cap := s_cap buf |}).

  (** dht/peerwire/peer.go:37-44 *)
  Definition CompledMetaData (s : fstate) : bool := forallb (fun b => b) (f_req s).

  (** dht/peerwire/bep9.go:224-231: the request loop. *)
  Fixpoint request_pieces (is : list nat) : M unit :=
    match is with
    | [] => ret tt
    | i :: t =>
        let* ord := m_ord in
        let* msg := lift (withExtendedFetchMetaMsg ord 1 ExRequest (Z.of_nat i) 0 []) in
        let* ok := m_write msg in
        if ok then request_pieces t else mpanic (B "write request piece err")
    end.

  (** dht/peerwire/bep9.go:216-221; Go's / and % truncate toward zero. *)
  Definition SizeOf16KB : Z := 16 * 1024.
  Definition piece_count (metaSize : Z) : Z :=
    (Z.quot metaSize SizeOf16KB + if 0 <? Z.rem metaSize SizeOf16KB then 1 else 0)%Z.

  (** dht/peerwire/bep9.go:205-232 *)
  Definition handle_ext_handshake (data : bytes) : M unit :=
    let* dict := lift (parseExtendedHandShake data) in
    if negb (Exist dict (B "metadata_size")) then mpanic (B "get extended handshake wrong format") else
    let* metaSize := lift (GetInteger dict (B "metadata_size")) in
    let* _ := (fun s => (set_meta s (f_meta s) metaSize (f_req s), FOk tt)) in
    let n := piece_count metaSize in
    let* _ := m_make 24 n in
    let* _ := (fun s => (set_meta s (repeat None (Z.to_nat n)) (f_size s) (f_req s), FOk tt)) in
    let* _ := m_make 1 n in
    let* _ := (fun s => (set_meta s (f_meta s) (f_size s) (repeat false (Z.to_nat n)), FOk tt)) in
    request_pieces (seq 0 (Z.to_nat n)).

  (** dht/peerwire/bep9.go:234-244; the stored piece is a slice of the read buffer. *)
  Definition handle_piece (b : slc) (data : bytes) : M unit :=
    let* m := lift (parseExtendedFetchMetaMsg data) in
    if negb (fm_type m =? ExData)%Z then ret tt else
    let piece := match fm_data m with
                 | None => None
                 | Some off => Some {| s_arr := s_arr b; s_off := s_off b + Z.of_nat off; s_len := s_len b - Z.of_nat off; s_cap := s_cap b - Z.of_nat off |}
                 end in
    fun s =>
      if (fm_piece m <? 0)%Z || (Z.of_nat (length (f_meta s)) <=? fm_piece m)%Z then (s, FPanic PRuntime) else
      let s1 := set_meta s (list_set (f_meta s) (Z.to_nat (fm_piece m)) piece) (f_size s) (f_req s) in
      if (Z.of_nat (length (f_req s)) <=? fm_piece m)%Z then (s1, FPanic PRuntime) else
      (set_meta s1 (f_meta s1) (f_size s1) (list_set (f_req s1) (Z.to_nat (fm_piece m)) true), FOk tt).

  (** dht/peerwire/bep9.go:199-253 *)
  Definition handleExtendedMsg (b : slc) (data : bytes) : M unit :=
    let* id := lift (idx data 1) in
    if (bval id =? 0)%N then handle_ext_handshake data
    else if (bval id =? 1)%N then handle_piece b data
    else ret tt.

  (** dht/peerwire/bep9.go:188-195 *)
  Definition handle_msg (b : slc) : M unit :=
    let* data := m_show b in
    let* ty := lift (parsePrefixLenMsg data) in
    if (ty =? ExtendedPeerMsg)%N then handleExtendedMsg b data else ret tt.

  (** The deferred Put of bep9.go:174-178: it runs however the body ends - except when the body
      never ends. *)
  Definition with_put (b : slc) (body : M unit) : M unit := fun s =>
    match body s with
    | (s1, FStop x) => (s1, FStop x)
    | (s1, r) => if (0 <? s_cap b)%Z then (fst (m_put b s1), r) else (s1, r)
    end.

  (** dht/peerwire/bep9.go:170-196 *)
  Definition readMetaDataHandler : M unit := fun s =>
    match readBytesByPrefixLenMsg s with
    | (s1, FOk None) => (s1, FOk tt)
    | (s1, FOk (Some b)) => with_put b (handle_msg b) s1
    | (s1, FErr _) => (s1, FPanic (PStr (B "read prefix length err")))
    | (s1, FPanic p) => (s1, FPanic p)
    | (s1, FStop x) => (s1, FStop x)
    end.

  (** dht/peerwire/bep9.go:163-168 *)
  Fixpoint readMetaDataLoop (fuel : nat) : M unit := fun s =>
    match fuel with
    | O => (s, FStop OutOfFuel)
    | S f =>
        if negb (CompledMetaData s) && negb (e_exp e (f_tick s))
        then mbind readMetaDataHandler (fun _ => readMetaDataLoop f) s
        else (s, FOk tt)
    end.
  Definition loop_fuel (script : list bytes) : nat := S (fold_right (fun seg n => length seg + 1 + n) 0 script).

  (** dht/peerwire/bep9.go:265-284.  The buffer of :272 is fresh, so a short read leaves zeros. *)
  Definition handshakePeer (peerId infoHash : bytes) : M unit :=
    let* msg := lift (withHandShakeMsg peerId infoHash) in
    let* ok := m_write msg in
    if negb ok then mpanic (B "write handshake err") else
    fun s =>
      match m_recv handShakeLen s with
      | (s1, FErr _) => (s1, FPanic (PStr (B "get handshake response err")))
      | (s1, FOk d) =>
          (let* h := lift (parseHandShakeMsg (d ++ repeat (byte_of 0) (handShakeLen - length d))) in
           if negb (EqualFold (e_fold e) supportProtocolName (hs_protocol h)) then mpanic (B "get handshake not support bittoroute protocol") else
           let* ext := lift (SupportExtended h) in
           if negb ext then mpanic (B "get handshake not support extended protocol") else ret tt) s1
      | (s1, FPanic p) => (s1, FPanic p)
      | (s1, FStop x) => (s1, FStop x)
      end.

  (** dht/peerwire/bep9.go:256-262 *)
  Definition initialMessages : M unit :=
    let* ord := m_ord in
    let* msg := lift (withExtendedhandShake ord (Some [(B "ut_metadata", VInt 1)]) None) in
    let* ok := m_write msg in
    if ok then ret tt else mpanic (B "write extended handshake err").

  (** dht/peerwire/bep9.go:149-151: append the pieces, in the order of their number; other
      goroutines may run between two copies. *)
  Fixpoint merge (is : list nat) (result : bytes) : M bytes :=
    match is with
    | [] => ret result
    | i :: t =>
        let* _ := interfere in
        fun s => match nth_error (f_meta s) i with
                 | None => (s, FPanic PRuntime)
                 | Some None => merge t result s
                 | Some (Some b) => merge t (result ++ h_read (f_heap s) b) s
                 end
    end.

  (** dht/peerwire/bep9.go:136-159, the part under the deferred function. *)
  Definition fetch_body (peerId infoHash : bytes) : M bytes :=
    let* _ := handshakePeer peerId infoHash in
    let* _ := initialMessages in
    let* _ := (fun s => readMetaDataLoop (loop_fuel (f_script s)) s) in
    fun s =>
      if negb (CompledMetaData s) then (s, FErr (ENew (B "cannot completed download metadata"))) else
      (let* _ := m_make 1 (f_size s) in
       let* result := merge (seq 0 (length (f_req s))) [] in
       if negb (beq infoHash (GenerateInfoHash result)) then lift (Err (ENew (B "check sum err"))) else ret result) s.

  (** dht/peerwire/peer.go:24-35, on an open connection. *)
  Definition NewPeerConn (p : pool) (h : heap) (script : list bytes) : fstate :=
    {| f_pool := p; f_heap := h; f_script := script; f_tick := 0; f_trace := [];
       f_meta := repeat None 16; f_size := 0; f_req := [false] |}.

  (** dht/peerwire/bep9.go:122-160.  [peer] is None when the dial fails; the deferred function
      (:127-135) turns every panic into an error and closes the connection. *)
  Definition FetchMetaData (p : pool) (h : heap) (peer : option (list bytes)) (peerId infoHash : bytes) : fstate * fres bytes :=
    match peer with
    | None => (NewPeerConn p h [], FErr EIO)
    | Some script =>
        let (s, r) := fetch_body peerId infoHash (NewPeerConn p h script) in
        match r with
        | FStop x => (s, FStop x)
        | FPanic _ => (set_io s (f_script s) CClose, FErr (ENew (B "FetchMetaData err")))
        | _ => (set_io s (f_script s) CClose, r)
        end
    end.
End Fetch.
