(** Crowd.v -- model of many calls of FetchMetaData running at once (dht/peerwire/bep9.go:122-284, called
    at dht/fetchtorrent.go:39), interleaved at every access to the shared
    buffers of peerBytesPool (dht/peerwire/peer.go:22, misc/bytespool.go:39-61).

    Fetch.v runs one download against an environment.  Here a download is a tree of accesses to
    shared memory, each of which is one step, and any number of downloads take their steps in any
    order.  Everything a download does between two accesses touches only its own connection and
    its own variables; those parts are the functions of Fetch.v.  The fields f_pool and f_heap of
    the private state are not used: pool and memory are shared.
    Simplifications: those of Fetch.v; a Read stores its bytes in one step, and looking at a
    slice is one step. *)
From Verif Require Import Base GoLib Bencode Types Krpc BytesPool Sha1 PeerWire Fetch.
Local Open Scope list_scope.

(** What a download does next with shared memory. *)
Inductive tree (A : Type) :=
| TDone (s : fstate) (r : fres A)                  (* the call is over *)
| TGet (big : bool) (k : slc -> tree A)            (* peerBytesPool.GetBySize(32768 or 4) *)
| TPut (b : slc) (k : tree A)                      (* peerBytesPool.Put(b) *)
| TRead (b : slc) (d : bytes) (k : tree A)         (* conn.Read(b) delivers d *)
| TWait (k : tree A)                               (* conn.Read(b) fails, or a piece without data is joined *)
| TShow (b : slc) (k : bytes -> tree A)            (* look at the buffer just filled *)
| TLook (b : slc) (k : bytes -> tree A).           (* copy a piece kept earlier *)
Arguments TDone {A} s r. Arguments TGet {A} big k. Arguments TPut {A} b k. Arguments TRead {A} b d k.
Arguments TWait {A} k. Arguments TShow {A} b k. Arguments TLook {A} b k.

(** What follows the end of a call. *)
Fixpoint tbind {A C} (t : tree A) (k : fstate -> fres A -> tree C) : tree C :=
  match t with
  | TDone s r => k s r
  | TGet big f => TGet big (fun b => tbind (f b) k)
  | TPut b f => TPut b (tbind f k)
  | TRead b d f => TRead b d (tbind f k)
  | TWait f => TWait (tbind f k)
  | TShow b f => TShow b (fun x => tbind (f x) k)
  | TLook b f => TLook b (fun x => tbind (f x) k)
  end.
Definition T (A : Type) := fstate -> tree A.
(** m; k: errors and panics end the sequence. *)
Definition tseq {A C} (m : T A) (k : A -> T C) : T C := fun s =>
  tbind (m s) (fun s' r => match r with FOk a => k a s' | FErr x => TDone s' (FErr x) | FPanic x => TDone s' (FPanic x) | FStop x => TDone s' (FStop x) end).
Notation "'let+' x := m 'in' k" := (tseq m (fun x => k)) (at level 200, x pattern, m at level 100, k at level 200, right associativity).
(** A part that does not touch shared memory. *)
Definition local {A} (m : M A) : T A := fun s => let (s', r) := m s in TDone s' r.
Definition ticked (s : fstate) : fstate :=
  {| f_pool := f_pool s; f_heap := f_heap s; f_script := f_script s; f_tick := S (f_tick s); f_trace := f_trace s; f_meta := f_meta s; f_size := f_size s; f_req := f_req s |}.

Definition t_get (big : bool) : T slc := fun s => TGet big (fun b => TDone (ticked s) (FOk b)).
Definition t_put (b : slc) : T unit := fun s => TPut b (TDone (ticked s) (FOk tt)).
Definition t_read (b : slc) : T nat := fun s =>
  match m_recv (Z.to_nat (s_len b)) (ticked s) with
  | (s', FOk d) => TRead b d (TDone s' (FOk (length d)))
  | (s', FErr x) => TWait (TDone s' (FErr x))
  | (s', FPanic x) => TWait (TDone s' (FPanic x))
  | (s', FStop x) => TWait (TDone s' (FStop x))
  end.
Definition t_show (b : slc) : T bytes := fun s => TShow b (fun x => TDone s (FOk x)).

Section Crowd.
  Variable e : fenv.

  (** dht/peerwire/bep3.go:137-159 (prefix 4 bytes, read buffer 32768 bytes) *)
  Definition c_readBytes : T (option slc) :=
    let+ pre := t_get false in
    let+ _ := t_read pre in
    let+ bs := t_show pre in
    let+ preLen := local (lift (Uint32 bs)) in
    if (preLen =? 0)%N then local (ret None) else
    let+ _ := t_put pre in
    if (Z.to_N maxReadLength <? preLen)%N then local (lift (Err (ENew (B "read input toolarge")))) else
    let+ buf := t_get true in
    let+ n := t_read buf in
    local (ret (Some {| s_arr := s_arr buf; s_off := s_off buf; s_len := Z.of_nat n; s_cap := s_cap buf |})).

  (** dht/peerwire/bep9.go:188-253: what is done with the bytes of a message *)
  Definition on_data (b : slc) (data : bytes) : M unit :=
    let* ty := lift (parsePrefixLenMsg data) in
    if (ty =? ExtendedPeerMsg)%N then handleExtendedMsg e b data else ret tt.
  Definition c_handle (b : slc) : T unit := let+ data := t_show b in local (on_data b data).

  (** dht/peerwire/bep9.go:174-178 *)
  Definition c_with_put (b : slc) (body : T unit) : T unit := fun s =>
    tbind (body s) (fun s1 r =>
      match r with
      | FStop x => TDone s1 (FStop x)
      | _ => if (0 <? s_cap b)%Z then TPut b (TDone (ticked s1) r) else TDone s1 r
      end).

  (** dht/peerwire/bep9.go:170-196 *)
  Definition c_handler : T unit := fun s =>
    tbind (c_readBytes s) (fun s1 r =>
      match r with
      | FOk None => TDone s1 (FOk tt)
      | FOk (Some b) => c_with_put b (c_handle b) s1
      | FErr _ => TDone s1 (FPanic (PStr (B "read prefix length err")))
      | FPanic p => TDone s1 (FPanic p)
      | FStop x => TDone s1 (FStop x)
      end).

  (** dht/peerwire/bep9.go:163-168 *)
  Fixpoint c_loop (fuel : nat) : T unit := fun s =>
    match fuel with
    | O => TDone s (FStop OutOfFuel)
    | S f =>
        if negb (CompledMetaData s) && negb (e_exp e (f_tick s))
        then tseq c_handler (fun _ => c_loop f) s
        else TDone s (FOk tt)
    end.

  (** dht/peerwire/bep9.go:149-151 *)
  Fixpoint c_merge (is : list nat) (result : bytes) : T bytes := fun s =>
    match is with
    | [] => TDone s (FOk result)
    | i :: t =>
        match nth_error (f_meta s) i with
        | None => TWait (TDone (ticked s) (FPanic PRuntime))
        | Some None => TWait (c_merge t result (ticked s))
        | Some (Some b) => TLook b (fun x => c_merge t (result ++ x) (ticked s))
        end
    end.

  (** dht/peerwire/bep9.go:136-159 *)
  Definition c_body (peerId infoHash : bytes) : T bytes :=
    let+ _ := local (handshakePeer e peerId infoHash) in
    let+ _ := local (initialMessages e) in
    let+ _ := (fun s => c_loop (loop_fuel (f_script s)) s) in
    fun s =>
      if negb (CompledMetaData s) then TDone s (FErr (ENew (B "cannot completed download metadata"))) else
      (let+ _ := local (m_make e 1 (f_size s)) in
       let+ result := c_merge (seq 0 (length (f_req s))) [] in
       if negb (beq infoHash (GenerateInfoHash result)) then local (lift (Err (ENew (B "check sum err")))) else local (ret result)) s.

  (** dht/peerwire/bep9.go:122-160; [None]: the dial fails *)
  Definition nowhere : pool * heap := ({| p_chans := []; p_width := 0; p_max := 0 |}, {| h_next := 0; h_data := fun _ => [] |}).
  Definition c_fetch (peer : option (list bytes)) (peerId infoHash : bytes) : tree bytes :=
    match peer with
    | None => TDone (NewPeerConn (fst nowhere) (snd nowhere) []) (FErr EIO)
    | Some script =>
        tbind (c_body peerId infoHash (NewPeerConn (fst nowhere) (snd nowhere) script)) (fun s r =>
          match r with
          | FStop x => TDone s (FStop x)
          | FPanic _ => TDone (set_io s (f_script s) CClose) (FErr (ENew (B "FetchMetaData err")))
          | _ => TDone (set_io s (f_script s) CClose) r
          end)
    end.
End Crowd.

(** One call of FetchMetaData: its world apart from pool and memory ([e_intf] is not used), its
    arguments, and what it does next.  [d_held] and [d_big] are bookkeeping no step looks at: the
    buffers it has taken and not given back, and how many big ones it has taken in all. *)
Record dl := { d_env : fenv; d_peer : option (list bytes); d_id : bytes; d_hash : bytes; d_held : list slc; d_big : nat; d_now : tree bytes }.
Record crowd := { c_pool : pool; c_heap : heap; c_dls : list dl }.

Definition begin (e : fenv) (peer : option (list bytes)) (peerId infoHash : bytes) : dl :=
  {| d_env := e; d_peer := peer; d_id := peerId; d_hash := infoHash; d_held := []; d_big := 0; d_now := c_fetch e peer peerId infoHash |}.
Definition set_now (d : dl) (held : list slc) (big : nat) (t : tree bytes) : dl :=
  {| d_env := d_env d; d_peer := d_peer d; d_id := d_id d; d_hash := d_hash d; d_held := held; d_big := big; d_now := t |}.

(** One access of a download to shared memory.  GetBySize cannot fail for these widths. *)
Definition advance (p : pool) (h : heap) (d : dl) : pool * heap * dl :=
  match d_now d with
  | TDone _ _ => (p, h, d)
  | TGet big k =>
      match GetBySize p h (if big then 32768 else 4) with
      | Ok (p', h', b) => (p', h', set_now d (b :: d_held d) (if big then S (d_big d) else d_big d) (k b))
      | _ => (p, h, d)
      end
  | TPut b k => (Put p b, h, set_now d (filter (fun x => negb (s_arr x =? s_arr b)) (d_held d)) (d_big d) k)
  | TRead b x k => (p, h_write h b x, set_now d (d_held d) (d_big d) k)
  | TWait k => (p, h, set_now d (d_held d) (d_big d) k)
  | TShow b k => (p, h, set_now d (d_held d) (d_big d) (k (h_read h b)))
  | TLook b k => (p, h, set_now d (d_held d) (d_big d) (k (h_read h b)))
  end.

(** A call begins, or one of the calls makes its next access. *)
Inductive cstep : crowd -> crowd -> Prop :=
| cs_begin p h l e peer peerId infoHash :
    cstep {| c_pool := p; c_heap := h; c_dls := l |} {| c_pool := p; c_heap := h; c_dls := l ++ [begin e peer peerId infoHash] |}
| cs_access p h l1 d l2 p' h' d' : advance p h d = (p', h', d') ->
    cstep {| c_pool := p; c_heap := h; c_dls := l1 ++ d :: l2 |} {| c_pool := p'; c_heap := h'; c_dls := l1 ++ d' :: l2 |}.
Inductive csteps : crowd -> crowd -> Prop :=
| cs_refl c : csteps c c
| cs_more c c' c'' : csteps c c' -> cstep c' c'' -> csteps c c''.
