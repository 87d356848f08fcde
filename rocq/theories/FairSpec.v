(** FairSpec.v -- vocabulary for C129: executions in which the Go scheduler, and the channels, forget nobody. *)
From Verif Require Import Base GoLib Bencode Types Node RouteTable Middleware Krpc Dht Conc BytesPool PeerWire Fetch FetchTorrent Udp System SystemSpec QuietSpec.
Local Open Scope list_scope.

(** Handler number [i] is at a program point and leaves it. *)
Definition moves (s s' : sys) (i : nat) : Prop := exists pk pc, In (i, pk, pc) (k_jobs (y_core s)) /\ ~ In (i, pk, pc) (k_jobs (y_core s')).
Definition can (e : nat -> env) (me : bytes) (z : sizes) (s : sys) (i : nat) : Prop := exists s', sys_step e me z s s' /\ moves s s' i.

(** Something changes on the download side: in the fetcher's hand, its pool's queue, or its workers. *)
Definition dl (s : sys) : option ann * list ann * list ann * list frun := (y_fetch s, y_fpool s, y_loads s, y_runs s).
Definition can_dl (e : nat -> env) (me : bytes) (z : sizes) (s : sys) : Prop := exists s', sys_step e me z s s' /\ dl s' <> dl s.

(** The execution is fair to [who]: again and again it takes a step, or from some time on it never can. *)
Definition fair_to (acts : sys -> sys -> Prop) (able : sys -> Prop) (t : nat -> sys) : Prop :=
  forall n, (exists k, n <= k /\ acts (t k) (t (S k))) \/ (exists k, n <= k /\ forall m, k <= m -> ~ able (t m)).

(** No handler is forgotten. *)
Definition fair_handlers (e : nat -> env) (me : bytes) (z : sizes) (t : nat -> sys) : Prop :=
  forall i, fair_to (fun s s' => moves s s' i) (fun s => can e me z s i) t.
(** The download side as a whole is not forgotten (nothing is asked for each single download). *)
Definition fair_downloads (e : nat -> env) (me : bytes) (z : sizes) (t : nat -> sys) : Prop :=
  fair_to (fun s s' => dl s' <> dl s) (can_dl e me z) t.

(** From some time on, as many downloads hang as there are fetch workers. *)
Definition all_hang (z : sizes) (t : nat -> sys) : Prop := exists n, forall m, n <= m -> z_fetch z <= length (hung (t m)).
