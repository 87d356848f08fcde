(** Udp.v -- model of dht/krpc/udp.go and of the dispatch loop of dht/krpc/server.go: the receive
    goroutine, the packet queue, Listen, the workers running recvPacketHandle and any number of
    concurrent Close calls, interleaved in any way.

    Every step touches shared state at most once.  The socket is the network's: it may yield any
    datagram while it is open and may fail at any time.  ReadFromUDP discards what does not fit into
    the buffer (Linux, macOS).  The work pool is abstracted to "a submitted function runs once, at any
    later time, concurrently with anything" (WorkPool.v, C66-C71, is about the pool itself); of
    recvPacketHandle only the copy of the packet and the final Put are kept (Krpc.v models the rest).
    Logging is dropped. *)
From Verif Require Import Base Node BytesPool.
Local Open Scope list_scope.

(** dht/krpc/udp.go:14-15 *)
Definition RecvPacketLen : Z := 1024.
Definition RecvChanLen : nat := 100.

(** What arrives at the socket. *)
Record dgram := { dg_from : udpaddr; dg_bytes : bytes }.
(** dht/krpc/udp.go:17-20 *)
Record rpkt := { k_addr : udpaddr; k_buf : slc }.

(** dht/krpc/udp.go:96-107, the receive goroutine: before the test of :97, before :98, in ReadFromUDP
    (:99), in the send of :105, ended. *)
Inductive rvpc := RvTop | RvGet | RvRead (b : slc) | RvSend (p : rpkt) | RvGone.
(** dht/krpc/server.go:40-47: in the receive of :41, before :44.  There is no other place: Listen has no exit. *)
Inductive lvpc := LvTake | LvSubmit (p : rpkt).
(** dht/krpc/server.go:111-144: before string(packet.Bytes) (:121); after it, with the copied string. *)
Inductive wvpc := WvStart (p : rpkt) | WvBody (p : rpkt) (str : bytes).
(** dht/krpc/udp.go:30-45 Close: before s.Lock(), before closed.Store, before conn.Close(). *)
Inductive kvpc := KvLock | KvStore | KvConn.

(** dht/krpc/udp.go:22-28, the pool of dht/krpc/server.go:13, and the goroutines. [u_sock]: the socket is open. *)
Record udp := {
  u_pool : pool; u_heap : heap; u_recv : rvpc; u_q : list rpkt; u_listen : lvpc; u_work : list wvpc;
  u_closed : bool; u_sock : bool; u_lock : bool; u_closers : list kvpc }.

(** What can be seen from outside. *)
Inductive uev :=
| ERead (d : dgram)                      (* ReadFromUDP delivered a datagram *)
| EReadErr                               (* ReadFromUDP failed *)
| ETake (a : udpaddr) (bs : bytes)       (* Listen took a packet; the bytes it shows *)
| EParse (a : udpaddr) (bs : bytes)      (* a worker copied the packet's bytes *)
| EDone (a : udpaddr)                    (* the handler of a packet finished *)
| ELoopEnd                               (* the receive goroutine ended *)
| ECloseCall                             (* Close() got past the first test *)
| ECloseSeen                             (* Close() returned nil at the first test: another call has set the flag *)
| ECloseRet (ok : bool)                  (* Close() returned the result of closing the socket: nil or an error *)
| ETau.

(** dht/krpc/server.go:13 *)
Definition krpcBytesPool : pool := {| p_chans := [(100%Z, [])]; p_width := 100; p_max := Z.to_nat 10000 |}.

(** dht/krpc/udp.go:73-94 StartUdpServer and server.go:35-40, on a heap with arbitrary contents. *)
Definition StartUdpServer (h : heap) : udp :=
  {| u_pool := krpcBytesPool; u_heap := h; u_recv := RvTop; u_q := []; u_listen := LvTake; u_work := [];
     u_closed := false; u_sock := true; u_lock := false; u_closers := [] |}.

(** buf[:n] *)
Definition reslice (b : slc) (n : nat) : slc := {| s_arr := s_arr b; s_off := s_off b; s_len := Z.of_nat n; s_cap := s_cap b |}.

(** ReadFromUDP(buf): at most len(buf) bytes of the datagram are stored, the rest of the datagram is
    lost and the rest of the buffer keeps its bytes.  Result: heap and number of bytes. *)
Definition read_into (h : heap) (b : slc) (d : bytes) : heap * nat :=
  let got := firstn (Z.to_nat (s_len b)) d in
  let old := h_data h (s_arr b) in
  let o := Z.to_nat (s_off b) in
  (h_set h (s_arr b) (firstn o old ++ got ++ skipn (o + length got) old), length got).

Definition u_set_recv (s : udp) (p : pool) (h : heap) (r : rvpc) (q : list rpkt) : udp :=
  {| u_pool := p; u_heap := h; u_recv := r; u_q := q; u_listen := u_listen s; u_work := u_work s;
     u_closed := u_closed s; u_sock := u_sock s; u_lock := u_lock s; u_closers := u_closers s |}.
Definition u_set_work (s : udp) (p : pool) (q : list rpkt) (l : lvpc) (w : list wvpc) : udp :=
  {| u_pool := p; u_heap := u_heap s; u_recv := u_recv s; u_q := q; u_listen := l; u_work := w;
     u_closed := u_closed s; u_sock := u_sock s; u_lock := u_lock s; u_closers := u_closers s |}.
Definition u_set_close (s : udp) (c k l : bool) (ks : list kvpc) : udp :=
  {| u_pool := u_pool s; u_heap := u_heap s; u_recv := u_recv s; u_q := u_q s; u_listen := u_listen s; u_work := u_work s;
     u_closed := c; u_sock := k; u_lock := l; u_closers := ks |}.

Inductive udp_step (s : udp) : uev -> udp -> Prop :=
(** udp.go:97 *)
| us_end : u_recv s = RvTop -> u_closed s = true ->
    udp_step s ELoopEnd (u_set_recv s (u_pool s) (u_heap s) RvGone (u_q s))
| us_top : u_recv s = RvTop -> u_closed s = false ->
    udp_step s ETau (u_set_recv s (u_pool s) (u_heap s) RvGet (u_q s))
(** udp.go:98 *)
| us_get p h b : u_recv s = RvGet -> GetBySize (u_pool s) (u_heap s) RecvPacketLen = Ok (p, h, b) ->
    udp_step s ETau (u_set_recv s p h (RvRead b) (u_q s))
(** udp.go:99, success *)
| us_read b d h n : u_recv s = RvRead b -> u_sock s = true -> read_into (u_heap s) b (dg_bytes d) = (h, n) ->
    udp_step s (ERead d) (u_set_recv s (u_pool s) h (RvSend {| k_addr := dg_from d; k_buf := reslice b n |}) (u_q s))
(** udp.go:99-103, failure: the buffer is dropped *)
| us_readerr b : u_recv s = RvRead b ->
    udp_step s EReadErr (u_set_recv s (u_pool s) (u_heap s) RvTop (u_q s))
(** udp.go:105: blocks while the channel is full *)
| us_send p : u_recv s = RvSend p -> (length (u_q s) < RecvChanLen)%nat ->
    udp_step s ETau (u_set_recv s (u_pool s) (u_heap s) RvTop (u_q s ++ [p]))
(** server.go:41 *)
| us_take p q : u_listen s = LvTake -> u_q s = p :: q ->
    udp_step s (ETake (k_addr p) (h_read (u_heap s) (k_buf p))) (u_set_work s (u_pool s) q (LvSubmit p) (u_work s))
(** server.go:44 *)
| us_submit p : u_listen s = LvSubmit p ->
    udp_step s ETau (u_set_work s (u_pool s) (u_q s) LvTake (u_work s ++ [WvStart p]))
(** server.go:121 *)
| us_parse l1 p l2 : u_work s = l1 ++ WvStart p :: l2 ->
    udp_step s (EParse (k_addr p) (h_read (u_heap s) (k_buf p)))
      (u_set_work s (u_pool s) (u_q s) (u_listen s) (l1 ++ WvBody p (h_read (u_heap s) (k_buf p)) :: l2))
(** server.go:117 *)
| us_done l1 p str l2 : u_work s = l1 ++ WvBody p str :: l2 ->
    udp_step s (EDone (k_addr p)) (u_set_work s (Put (u_pool s) (k_buf p)) (u_q s) (u_listen s) (l1 ++ l2))
(** udp.go:31-33 *)
| us_close_seen : u_closed s = true -> udp_step s ECloseSeen s
| us_close_call : u_closed s = false ->
    udp_step s ECloseCall (u_set_close s (u_closed s) (u_sock s) (u_lock s) (u_closers s ++ [KvLock]))
(** udp.go:35 *)
| us_lock l1 l2 : u_closers s = l1 ++ KvLock :: l2 -> u_lock s = false ->
    udp_step s ETau (u_set_close s (u_closed s) (u_sock s) true (l1 ++ KvStore :: l2))
(** udp.go:41 *)
| us_store l1 l2 : u_closers s = l1 ++ KvStore :: l2 ->
    udp_step s ETau (u_set_close s true (u_sock s) (u_lock s) (l1 ++ KvConn :: l2))
(** udp.go:42-43 and the deferred Unlock; closing a closed socket is an error *)
| us_conn l1 l2 : u_closers s = l1 ++ KvConn :: l2 ->
    udp_step s (ECloseRet (u_sock s)) (u_set_close s (u_closed s) false false (l1 ++ l2)).

(** All runs from a started server, with the events in order. *)
Inductive udp_run (h : heap) : list uev -> udp -> Prop :=
| ur_nil : udp_run h [] (StartUdpServer h)
| ur_step tr s e s' : udp_run h tr s -> udp_step s e s' -> udp_run h (tr ++ [e]) s'.
