(** QuietSpec.v -- vocabulary for C122: executions of the whole process counted in steps, and what must happen
    however the process is scheduled. *)
From Verif Require Import Base GoLib Bencode Types Node RouteTable Middleware Krpc Dht Conc BytesPool PeerWire Fetch FetchTorrent Udp System SystemSpec.
Local Open Scope list_scope.

(** [runs n s s']: an execution of n steps. *)
Inductive runs (e : nat -> env) (me : bytes) (z : sizes) : nat -> sys -> sys -> Prop :=
| rn_here s : runs e me z 0 s s
| rn_step n s s' s'' : runs e me z n s s' -> sys_step e me z s' s'' -> runs e me z (S n) s s''.

(** A step in which no packet arrives. *)
Definition quiet (e : nat -> env) (me : bytes) (z : sizes) (s s' : sys) : Prop := sys_step e me z s s' /\ y_read s' = y_read s.

(** However the goroutines are scheduled, and whatever the peers do, [P] comes to hold after finitely many steps
    in which no packet arrives; the process does not stop before. *)
Inductive settles (e : nat -> env) (me : bytes) (z : sizes) (P : sys -> Prop) (s : sys) : Prop :=
| st_now : P s -> settles e me z P s
| st_later s1 : quiet e me z s s1 -> (forall s', quiet e me z s s' -> settles e me z P s') -> settles e me z P s.

(** An execution that never ends. *)
Definition forever (e : nat -> env) (me : bytes) (z : sizes) (t : nat -> sys) : Prop := forall n, sys_step e me z (t n) (t (S n)).

(** What a packet costs: 4 steps for every node it can list (26 bytes each) and 14 others. *)
Definition cost (pk : packet) : nat := 14 + 4 * (length (p_bytes pk) / 26).
