(** P_Udp.v -- property theorems (generated by tools/gen_p.py from UdpPf.v).
    Each statement is repeated in full and closed by [exact]. *)
From Verif Require Import Base Node BytesPool BytesPoolPf Udp UdpSpec UdpProofs.
Local Open Scope list_scope.
From Verif Require Import UdpPf.

(** C75: in every schedule the buffers being received into, queued, held by the dispatcher or used by
    a handler are pairwise distinct memory and none of them is in the pool; a running handler's packet
    still shows the bytes it copied; and the packets copied by handlers are, up to order and with
    multiplicity, among the first 1024 bytes of the datagrams read - nothing is handled twice,
    overwritten or invented. *)
Theorem C75_distinct_buffers : forall h tr s, udp_run h tr s ->
  (forall i j x y, nth_error (in_flight s) i = Some x -> nth_error (in_flight s) j = Some y -> i <> j -> disjoint_bufs x y) /\
  (forall x w y, In x (in_flight s) -> In y (chan_of (p_chans (u_pool s)) w) -> disjoint_bufs x y) /\
  (forall p str, In (WvBody p str) (u_work s) -> h_read (u_heap s) (k_buf p) = str) /\
  (exists rest, Permutation (map trunc1024 (reads tr)) (parses tr ++ rest)).
Proof. exact C75_distinct_buffers_pf. Qed.
Print Assumptions C75_distinct_buffers.

(** C75, conservation: whenever nothing is waiting any more, every datagram read has been handed to
    exactly one handler run. *)
Theorem C75_each_packet_once : forall h tr s, udp_run h tr s ->
  u_q s = [] -> (forall p, u_recv s <> RvSend p) -> u_listen s = LvTake -> (forall p, ~ In (WvStart p) (u_work s)) ->
  Permutation (map trunc1024 (reads tr)) (parses tr) /\ dones tr + length (u_work s) = length (parses tr).
Proof. exact C75_each_packet_once_pf. Qed.
Print Assumptions C75_each_packet_once.

(** C76: what the dispatcher takes is, in arrival order and without gaps, the first 1024 bytes (or all
    bytes of a shorter datagram) of the datagrams read; at most 100 packets are queued, so the receive
    loop is never more than 101 packets ahead. *)
Theorem C76_in_order : forall h tr s, udp_run h tr s ->
  (exists ahead, map trunc1024 (reads tr) = takes tr ++ ahead /\ (length ahead <= 101)%nat) /\
  (length (u_q s) <= 100)%nat /\
  (forall a bs, In (ETake a bs) tr -> (length bs <= 1024)%nat).
Proof. exact C76_in_order_pf. Qed.
Print Assumptions C76_in_order.

(** Non-vacuity: any two datagrams can be read and both be in the hands of handlers at once. *)
Theorem C75_example : forall h d1 d2, exists tr s, udp_run h tr s /\ reads tr = [d1; d2] /\ length (u_work s) = 2 /\
  Permutation (map trunc1024 [d1; d2]) (parses tr).
Proof. exact C75_example_pf. Qed.
Print Assumptions C75_example.

(** C82: once a Close call that closed the socket has returned, no datagram is ever read again, the
    receive goroutine fails at most one more read and needs at most three more steps to end, and
    every later Close call returns nil at once; of all Close calls that reach the socket exactly the
    first returns nil. *)
Theorem C82_close_stops_reception : forall h t1 ok t2 s, udp_run h (t1 ++ ECloseRet ok :: t2) s ->
  reads t2 = [] /\ (read_errs t2 <= 1)%nat /\ (recv_left s <= 3)%nat /\ ~ In ECloseCall t2 /\
  (ok = true <-> forall b, ~ In (ECloseRet b) t1).
Proof. exact C82_close_stops_reception_pf. Qed.
Print Assumptions C82_close_stops_reception.

(** C82, progress: a Close call in progress can always make a step (the lock is never lost), and after
    the closed flag is set the receive goroutine can always go on towards its end unless the queue is full. *)
Theorem C82_close_progress : forall h tr s, udp_run h tr s ->
  (u_closers s <> [] -> exists e s', udp_step s e s' /\ (close_left s' < close_left s)%nat) /\
  (u_closed s = true -> u_recv s <> RvGone -> (length (u_q s) < 100)%nat -> exists e s', udp_step s e s' /\ (recv_left s' < recv_left s)%nat).
Proof. exact C82_close_progress_pf. Qed.
Print Assumptions C82_close_progress.

(** C82: only Close ends the reception: the receive goroutine ends only after a Close call was made, and
    as long as none was, whatever happened before (failed reads, a full queue), any next datagram can
    still be read. *)
Theorem C82_only_close_stops : forall h tr s, udp_run h tr s ->
  (forall t1 t2, tr = t1 ++ ELoopEnd :: t2 -> In ECloseCall t1) /\
  (~ In ECloseCall tr -> forall d, exists t2 s2, udp_run h (tr ++ t2 ++ [ERead d]) s2 /\ reads t2 = []).
Proof. exact C82_only_close_stops_pf. Qed.
Print Assumptions C82_only_close_stops.

(** C82: a Close call that returns at once because another one has set the flag: that other call was made before;
    from then on at most one more read is made, and every later call returns at once too. *)
Theorem C82_early_return : forall h t1 t2 s, udp_run h (t1 ++ ECloseSeen :: t2) s ->
  In ECloseCall t1 /\ (length (reads t2) + read_errs t2 <= 1)%nat /\ ~ In ECloseCall t2.
Proof. exact C82_early_return_pf. Qed.
Print Assumptions C82_early_return.

(** C82, the guarantee does not extend to a Close call that returns because another one is running: it
    can return nil while the socket is still open and datagrams are still read. *)
Theorem C82_early_return_refuted : forall h d, exists t1 t2 s, udp_run h (t1 ++ ECloseSeen :: t2) s /\ reads t2 = [d].
Proof. exact C82_early_return_refuted_pf. Qed.
Print Assumptions C82_early_return_refuted.

(** Non-vacuity of C82: two concurrent Close calls; the first returns nil, the second an error. *)
Theorem C82_example : forall h, exists t1 t2 s, udp_run h (t1 ++ ECloseRet true :: t2) s /\ In (ECloseRet false) t2 /\ u_recv s = RvGone.
Proof. exact C82_example_pf. Qed.
Print Assumptions C82_example.

(** C76: any two datagrams can be read while only the first has been taken. *)
Theorem C76_example : forall h d1 d2, exists tr s, udp_run h tr s /\ reads tr = [d1; d2] /\ length (takes tr) = 1 /\ length (u_q s) = 1.
Proof. exact C76_example_pf. Qed.
Print Assumptions C76_example.
