(** Timed.v -- model of FetchMetaData with a clock (dht/peerwire/bep9.go:122-284, dht/peerwire/peer.go:24-53,
    dht/peerwire/bep3.go:137-159): the dial timeout of 3 s (bep9.go:123), the read deadline of 1 s, set once
    (bep9.go:136), no write deadline (bep9.go:137) and the expiry of the read loop after 10 s (bep9.go:138,
    peer.go:46-53).

    Time is counted in milliseconds from the moment the connection is there.  The peer's bytes come
    in runs, each with the time at which it can be read; a Read returns at most one run.  The
    goroutine's own delays are arbitrary: before its n-th step [w_lag n] passes (computing, being
    preempted, garbage collection), and if that step is a Write it takes [w_dur n] more.
    Everything that does not depend on time is taken from Fetch.v; the field f_script of the private state is
    not used.
    Simplifications: those of Fetch.v; deadline and timer are armed at the same instant; at the very
    millisecond of the deadline a Read fails. *)
From Verif Require Import Base GoLib Bencode Types Krpc BytesPool Sha1 PeerWire Fetch.
Local Open Scope list_scope.

(** bep9.go:123, :136, :138 *)
Definition dial_timeout : N := 3000.
Definition read_deadline : N := 1000.
Definition expireTime : N := 10000.

(** [w_end]: when the peer closes the connection after its last bytes, if ever. *)
Record tworld := { w_env : fenv; w_lag : nat -> N; w_dur : nat -> N; w_end : option N }.
(** [t_own] is bookkeeping no step looks at: the goroutine's own delays so far. *)
Record tstate := { t_f : fstate; t_now : N; t_in : list (N * bytes); t_n : nat; t_own : N }.

Definition TM (A : Type) := tstate -> tstate * fres A.
Definition tbd {A C} (m : TM A) (k : A -> TM C) : TM C :=
  fun s => match m s with
           | (s', FOk a) => k a s'
           | (s', FErr x) => (s', FErr x)
           | (s', FPanic p) => (s', FPanic p)
           | (s', FStop x) => (s', FStop x)
           end.
Notation "'let!' x := m 'in' k" := (tbd m (fun x => k)) (at level 200, x pattern, m at level 100, k at level 200, right associativity).
Definition set_f (s : tstate) (f : fstate) : tstate := {| t_f := f; t_now := t_now s; t_in := t_in s; t_n := t_n s; t_own := t_own s |}.
Definition set_conn (s : tstate) (now : N) (l : list (N * bytes)) : tstate := {| t_f := t_f s; t_now := now; t_in := l; t_n := t_n s; t_own := t_own s |}.

Section Timed.
  Variable w : tworld.
  Definition te : fenv := w_env w.

  (** Time passes before the next step. *)
  Definition pause (extra : N) (s : tstate) : tstate :=
    let d := (w_lag w (t_n s) + extra)%N in
    {| t_f := t_f s; t_now := (t_now s + d)%N; t_in := t_in s; t_n := S (t_n s); t_own := (t_own s + d)%N |}.

  (** A step that does not touch the connection. *)
  Definition tl {A} (m : M A) : TM A := fun s =>
    let s1 := pause 0 s in let (f, r) := m (t_f s1) in (set_f s1 f, r).
  Definition tret {A} (a : A) : TM A := fun s => (s, FOk a).

  (** conn.Read into a buffer of [want] bytes.  A Read whose deadline has passed fails at once. *)
  Definition t_fail (want : nat) (now : N) (s : tstate) : tstate * fres bytes :=
    (set_f (set_conn s now (t_in s)) (set_io (t_f s) (f_script (t_f s)) (CRead want)), FErr EIO).
  Definition t_recv (want : nat) : TM bytes := fun s0 =>
    let s := pause 0 s0 in
    if want =? 0 then (set_f s (set_io (t_f s) (f_script (t_f s)) (CRead want)), FOk []) else
    if (read_deadline <=? t_now s)%N then t_fail want (t_now s) s else
    match t_in s with
    | [] => t_fail want (match w_end w with Some c => N.max (t_now s) (N.min c read_deadline) | None => read_deadline end) s
    | (a, seg) :: rest =>
        if (read_deadline <=? a)%N then t_fail want read_deadline s else
        let left := skipn want seg in
        let now := N.max (t_now s) a in
        (set_f (set_conn s now (match left with [] => rest | _ => (a, left) :: rest end)) (set_io (t_f s) (f_script (t_f s)) (CRead want)),
         FOk (firstn want seg))
    end.
  Definition t_read (b : slc) : TM nat :=
    let! _ := tl (interfere te) in
    let! d := t_recv (Z.to_nat (s_len b)) in
    tl (fun s => (set_ph s (f_pool s) (h_write (f_heap s) b d), FOk (length d))).
  (** conn.Write(bs) *)
  Definition t_write (bs : bytes) : TM bool := fun s0 =>
    let s := pause (w_dur w (t_n s0)) s0 in let (f, r) := m_write te bs (t_f s) in (set_f s f, r).

  (** dht/peerwire/bep3.go:137-159 *)
  Definition t_readBytes : TM (option slc) :=
    let! pre := tl (m_get te PrefixLen) in
    let! _ := t_read pre in
    let! bs := tl (m_show pre) in
    let! preLen := tl (lift (Uint32 bs)) in
    if (preLen =? 0)%N then tret None else
    let! _ := tl (m_put te pre) in
    if (Z.to_N maxReadLength <? preLen)%N then tl (lift (Err (ENew (B "read input toolarge")))) else
    let! buf := tl (m_get te maxReadLength) in
    let! n := t_read buf in
    tret (Some {| s_arr := s_arr buf; s_off := s_off buf; s_len := Z.of_nat n; s_cap := s_cap buf |}).

  (** dht/peerwire/bep9.go:224-231 *)
  Fixpoint t_requests (is : list nat) : TM unit :=
    match is with
    | [] => tret tt
    | i :: t =>
        let! ord := tl (m_ord te) in
        let! msg := tl (lift (withExtendedFetchMetaMsg ord 1 ExRequest (Z.of_nat i) 0 [])) in
        let! ok := t_write msg in
        if ok then t_requests t else tl (mpanic (B "write request piece err"))
    end.

  (** dht/peerwire/bep9.go:205-232 *)
  Definition t_ext_handshake (data : bytes) : TM unit :=
    let! dict := tl (lift (parseExtendedHandShake data)) in
    if negb (Exist dict (B "metadata_size")) then tl (mpanic (B "get extended handshake wrong format")) else
    let! metaSize := tl (lift (GetInteger dict (B "metadata_size"))) in
    let! _ := tl (fun s => (set_meta s (f_meta s) metaSize (f_req s), FOk tt)) in
    let n := piece_count metaSize in
    let! _ := tl (m_make te 24 n) in
    let! _ := tl (fun s => (set_meta s (repeat None (Z.to_nat n)) (f_size s) (f_req s), FOk tt)) in
    let! _ := tl (m_make te 1 n) in
    let! _ := tl (fun s => (set_meta s (f_meta s) (f_size s) (repeat false (Z.to_nat n)), FOk tt)) in
    t_requests (seq 0 (Z.to_nat n)).

  (** dht/peerwire/bep9.go:199-253 *)
  Definition t_ext_msg (b : slc) (data : bytes) : TM unit :=
    let! id := tl (lift (idx data 1)) in
    if (bval id =? 0)%N then t_ext_handshake data
    else if (bval id =? 1)%N then tl (handle_piece b data)
    else tret tt.

  (** dht/peerwire/bep9.go:188-195 *)
  Definition t_handle (b : slc) : TM unit :=
    let! data := tl (m_show b) in
    let! ty := tl (lift (parsePrefixLenMsg data)) in
    if (ty =? ExtendedPeerMsg)%N then t_ext_msg b data else tret tt.

  (** dht/peerwire/bep9.go:174-178 *)
  Definition t_with_put (b : slc) (body : TM unit) : TM unit := fun s =>
    match body s with
    | (s1, FStop x) => (s1, FStop x)
    | (s1, r) => if (0 <? s_cap b)%Z then (fst (tl (m_put te b) s1), r) else (s1, r)
    end.

  (** dht/peerwire/bep9.go:170-196 *)
  Definition t_handler : TM unit := fun s =>
    match t_readBytes s with
    | (s1, FOk None) => (s1, FOk tt)
    | (s1, FOk (Some b)) => t_with_put b (t_handle b) s1
    | (s1, FErr _) => (s1, FPanic (PStr (B "read prefix length err")))
    | (s1, FPanic p) => (s1, FPanic p)
    | (s1, FStop x) => (s1, FStop x)
    end.

  (** dht/peerwire/peer.go:46-53 *)
  Definition IsReadLoopExpire (s : tstate) : bool := (expireTime <=? t_now s)%N.

  (** dht/peerwire/bep9.go:163-168 *)
  Fixpoint t_loop (fuel : nat) : TM unit := fun s0 =>
    match fuel with
    | O => (s0, FStop OutOfFuel)
    | S f =>
        let s := pause 0 s0 in
        if negb (CompledMetaData (t_f s)) && negb (IsReadLoopExpire s)
        then tbd t_handler (fun _ => t_loop f) s
        else (s, FOk tt)
    end.

  (** dht/peerwire/bep9.go:265-284 *)
  Definition t_handshakePeer (peerId infoHash : bytes) : TM unit :=
    let! msg := tl (lift (withHandShakeMsg peerId infoHash)) in
    let! ok := t_write msg in
    if negb ok then tl (mpanic (B "write handshake err")) else
    fun s =>
      match t_recv handShakeLen s with
      | (s1, FErr _) => (s1, FPanic (PStr (B "get handshake response err")))
      | (s1, FOk d) =>
          (let! h := tl (lift (parseHandShakeMsg (d ++ repeat (byte_of 0) (handShakeLen - length d)))) in
           if negb (EqualFold (e_fold te) supportProtocolName (hs_protocol h)) then tl (mpanic (B "get handshake not support bittoroute protocol")) else
           let! ext := tl (lift (SupportExtended h)) in
           if negb ext then tl (mpanic (B "get handshake not support extended protocol")) else tret tt) s1
      | (s1, FPanic p) => (s1, FPanic p)
      | (s1, FStop x) => (s1, FStop x)
      end.

  (** dht/peerwire/bep9.go:256-262 *)
  Definition t_initial : TM unit :=
    let! ord := tl (m_ord te) in
    let! msg := tl (lift (withExtendedhandShake ord (Some [(B "ut_metadata", VInt 1)]) None)) in
    let! ok := t_write msg in
    if ok then tret tt else tl (mpanic (B "write extended handshake err")).

  (** dht/peerwire/bep9.go:136-159 *)
  Definition t_body (peerId infoHash : bytes) : TM bytes :=
    let! _ := t_handshakePeer peerId infoHash in
    let! _ := t_initial in
    let! _ := (fun s => t_loop (loop_fuel (map snd (t_in s))) s) in
    fun s =>
      if negb (CompledMetaData (t_f s)) then (s, FErr (ENew (B "cannot completed download metadata"))) else
      (let! _ := tl (m_make te 1 (f_size (t_f s))) in
       let! result := tl (merge te (seq 0 (length (f_req (t_f s)))) []) in
       if negb (beq infoHash (GenerateInfoHash result)) then tl (lift (Err (ENew (B "check sum err")))) else tret result) s.

  (** dht/peerwire/bep9.go:122-160 on a connection that is there at time 0; the clock shows when the call ended. *)
  Definition t_fetch (p : pool) (h : heap) (script : list (N * bytes)) (peerId infoHash : bytes) : tstate * fres bytes :=
    let (s, r) := t_body peerId infoHash {| t_f := NewPeerConn p h []; t_now := 0; t_in := script; t_n := 0; t_own := 0 |} in
    match r with
    | FStop x => (s, FStop x)
    | FPanic _ => (set_f s (set_io (t_f s) (f_script (t_f s)) CClose), FErr (ENew (B "FetchMetaData err")))
    | _ => (set_f s (set_io (t_f s) (f_script (t_f s)) CClose), r)
    end.
End Timed.

(** The dial (bep9.go:123-126): the peer accepts or refuses after some time, or never answers. *)
Inductive answer := Accepts (at_ : N) | Refuses (at_ : N) | Silent.
(** The whole call: when it ends, counted from its beginning, what it returns and what it did on the
    connection. *)
Definition timed_fetch (w : tworld) (dial : answer) (p : pool) (h : heap) (script : list (N * bytes)) (peerId infoHash : bytes) : N * fres bytes * list connop :=
  let failed t := (t, FErr EIO, []) in
  match dial with
  | Accepts t =>
      if (t <? dial_timeout)%N then
        let (s, r) := t_fetch w p h script peerId infoHash in ((t + t_now s)%N, r, f_trace (t_f s))
      else failed dial_timeout
  | Refuses t => failed (N.min t dial_timeout)
  | Silent => failed dial_timeout
  end.
