(** LifecycleSpec.v -- what C106 means, in terms of the events of a run. *)
From Verif Require Import Base Node Krpc Dht Lifecycle.
Local Open Scope list_scope.

(** Hosts contacted, datagrams read, packets dispatched and packets handled, in order. *)
Definition booted (tr : list lev) : list bytes := flat_map (fun v => match v with LvBoot h => [h] | _ => [] end) tr.
Definition lreads (tr : list lev) : list (udpaddr * bytes) := flat_map (fun v => match v with LvRead p => [p] | _ => [] end) tr.
Definition ltaken (tr : list lev) : list (udpaddr * bytes) := flat_map (fun v => match v with LvTaken p => [p] | _ => [] end) tr.
Definition lhandled (tr : list lev) : list (udpaddr * bytes) := flat_map (fun v => match v with LvHandle p _ => [p] | _ => [] end) tr.

(** The server answers the four queries of the DHT, each with its own handler, and no other. *)
Definition all_routes (x : server hid) : Prop :=
  s_router x (B "ping") = Some HPing /\ s_router x (B "find_node") = Some HFindNode /\ s_router x (B "get_peers") = Some HGetPeers /\
  s_router x (B "announce_peer") = Some HAnnounce /\
  (forall q, s_router x q <> None -> q = B "ping" \/ q = B "find_node" \/ q = B "get_peers" \/ q = B "announce_peer").

(** [a] occurs in the trace before [b]. *)
Definition before (a b : lev) (tr : list lev) : Prop := exists t1 t2 t3, tr = t1 ++ a :: t2 ++ b :: t3.
