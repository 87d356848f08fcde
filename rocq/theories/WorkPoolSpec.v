(** WorkPoolSpec.v -- vocabulary for C66-C71. *)
From Verif Require Import Base WorkPool.
Local Open Scope list_scope.

(** The tasks being executed now. *)
Definition running (s : wp) : list nat := flat_map (fun c => match c with WRun t => [t] | _ => [] end) (w_ws s).

(** The order of the states. *)
Definition stage (x : status) : nat := match x with Running => 0 | Shutdowning => 1 | Shutdowned => 2 end.

(** Goroutine i is in Shutdown and has found the pool running. *)
Definition shutting (s : wp) (i : nat) : Prop := w_shuts s i <> HIdle /\ w_shuts s i <> HBegin.
(** Runs in which no two Shutdown calls (the listener's included) shut the pool down at the same time. *)
Definition alone_in (s : wp) : Prop := forall i j, shutting s i -> shutting s j -> i = j.
Inductive serial_reach (size : nat) : wp -> Prop :=
| sr_init : serial_reach size (NewWorkPool size)
| sr_step s s' : serial_reach size s -> wp_step s s' -> alone_in s' -> serial_reach size s'.

(** Steps of the workers only. *)
Inductive worker_steps : wp -> wp -> Prop :=
| wks_refl s : worker_steps s s
| wks_step s s' s'' : work_step s s' -> worker_steps s' s'' -> worker_steps s s''.

(** Goroutine i is in Shutdown, past the closing of the channel. *)
Definition closing (s : wp) (i : nat) : Prop := w_shuts s i = HWait \/ exists b, w_shuts s i = HWoken b.
(** The calls that waited for the workers. *)
Definition waited (rs : list (nat * hret)) : list (nat * hret) := filter (fun r => match snd r with RTimeout | RSuccess => true | _ => false end) rs.

(** The pool as its users see it while nobody shuts it down: a queue of bounded length, and at most
    [size] tasks being executed. *)
Inductive pool_step (size : nat) : list nat * list nat -> list nat * list nat -> Prop :=
| ps_submit q r t : length q < size -> pool_step size (q, r) (q ++ [t], r)
| ps_begin q t r1 r2 : length (r1 ++ r2) < size -> pool_step size (t :: q, r1 ++ r2) (q, r1 ++ t :: r2)
| ps_end q r1 t r2 : pool_step size (q, r1 ++ t :: r2) (q, r1 ++ r2).
