(** UdpSpec.v -- what C75, C76 and C82 mean, in terms of events. *)
From Verif Require Import Base Node BytesPool Udp.
Local Open Scope list_scope.

(** The part of a datagram the server is meant to see. *)
Definition trunc1024 (d : dgram) : udpaddr * bytes := (dg_from d, firstn 1024 (dg_bytes d)).

(** Datagrams read, packets taken by Listen, packets copied by handlers, in order. *)
Definition reads (tr : list uev) : list dgram := flat_map (fun e => match e with ERead d => [d] | _ => [] end) tr.
Definition takes (tr : list uev) : list (udpaddr * bytes) := flat_map (fun e => match e with ETake a b => [(a, b)] | _ => [] end) tr.
Definition parses (tr : list uev) : list (udpaddr * bytes) := flat_map (fun e => match e with EParse a b => [(a, b)] | _ => [] end) tr.
Definition dones (tr : list uev) : nat := length (filter (fun e => match e with EDone _ => true | _ => false end) tr).

(** The buffer the receive loop holds, those queued, the one held by Listen and those of the handlers
    that have not finished. *)
Definition recv_bufs (s : udp) : list slc := match u_recv s with RvRead b => [b] | RvSend p => [k_buf p] | _ => [] end.
Definition listen_bufs (s : udp) : list slc := match u_listen s with LvSubmit p => [k_buf p] | _ => [] end.
Definition wpkt (w : wvpc) : rpkt := match w with WvStart p => p | WvBody p _ => p end.
Definition work_bufs (s : udp) : list slc := map (fun w => k_buf (wpkt w)) (u_work s).
Definition in_flight (s : udp) : list slc := recv_bufs s ++ map k_buf (u_q s) ++ listen_bufs s ++ work_bufs s.

(** Two slices can show the same memory only if they have the same backing array. *)
Definition disjoint_bufs (a b : slc) : Prop := s_arr a <> s_arr b.

(** Failed reads in a trace. *)
Definition read_errs (tr : list uev) : nat := length (filter (fun e => match e with EReadErr => true | _ => false end) tr).
(** Steps the receive goroutine still has to make once the closed flag is set. *)
Definition recv_left (s : udp) : nat := match u_recv s with RvGet => 3 | RvRead _ | RvSend _ => 2 | RvTop => 1 | RvGone => 0 end.
(** Steps the Close calls in progress still have to make. *)
Definition close_left (s : udp) : nat := list_sum (map (fun k => match k with KvLock => 3 | KvStore => 2 | KvConn => 1 end) (u_closers s)).
