(** Shutdown.v -- model of misc/shutdown.go: one call of WaitShutdown (cmd/root.go:51) running
    concurrently with signals, the cancellation of the context and registrations of clean
    functions (dht/dht.go:37 registers from another goroutine).  The timeout may fire at any moment
    after the select began; append in Clean is one atomic step; log calls are dropped.  A clean
    function is a number. *)
From Verif Require Import Base WorkPool.
Local Open Scope list_scope.

(** misc/shutdown.go:46-68: in the select of :48, before :54, in the select of :61, before :67, returned. *)
Inductive mpc := MWait | MGot | MSelect | MWoken (finished : bool) | MReturned (finished : bool).
(** :78-93, the goroutine of runCleans: not started, before :82, before :83, in the loop with the clean
    functions still to be launched, in wg.Wait (:89), in the send of :90, ended. *)
Inductive rpc := RIdle | RAdd | RRange | RLoop (rest : list nat) | RWait | RSend | RGone.
(** :84-87, a clean goroutine: before callback(), in it, before wg.Done(). *)
Inductive cpc := CStart | CRun | CEnd.

(** misc/shutdown.go:37-42 and the goroutines.  [d_calls]/[d_ended]: clean functions started and
    returned so far; [d_late]: a function was registered after runCleans began; [d_dead]: an
    unrecovered panic killed the process. *)
Record sd := {
  d_status : status; d_cancelled : bool; d_signalled : bool; d_cleans : list nat;
  d_main : mpc; d_run : rpc; d_gos : list (nat * cpc); d_wg : nat;
  d_calls : list nat; d_ended : list nat; d_late : bool; d_dead : bool }.

(** misc/shutdown.go:95-105 *)
Definition WithShutdownContext : sd :=
  {| d_status := Running; d_cancelled := false; d_signalled := false; d_cleans := []; d_main := MWait; d_run := RIdle;
     d_gos := []; d_wg := 0; d_calls := []; d_ended := []; d_late := false; d_dead := false |}.

Definition set_env (s : sd) (c g : bool) (cl : list nat) (late : bool) : sd :=
  {| d_status := d_status s; d_cancelled := c; d_signalled := g; d_cleans := cl; d_main := d_main s; d_run := d_run s;
     d_gos := d_gos s; d_wg := d_wg s; d_calls := d_calls s; d_ended := d_ended s; d_late := late; d_dead := d_dead s |}.
Definition set_main (s : sd) (m : mpc) (st : status) (r : rpc) : sd :=
  {| d_status := st; d_cancelled := d_cancelled s; d_signalled := d_signalled s; d_cleans := d_cleans s; d_main := m; d_run := r;
     d_gos := d_gos s; d_wg := d_wg s; d_calls := d_calls s; d_ended := d_ended s; d_late := d_late s; d_dead := d_dead s |}.
Definition set_run (s : sd) (r : rpc) (gos : list (nat * cpc)) (wg : nat) (calls ended : list nat) : sd :=
  {| d_status := d_status s; d_cancelled := d_cancelled s; d_signalled := d_signalled s; d_cleans := d_cleans s; d_main := d_main s; d_run := r;
     d_gos := gos; d_wg := wg; d_calls := calls; d_ended := ended; d_late := d_late s; d_dead := d_dead s |}.
Definition sd_die (s : sd) : sd :=
  {| d_status := d_status s; d_cancelled := d_cancelled s; d_signalled := d_signalled s; d_cleans := d_cleans s; d_main := d_main s; d_run := d_run s;
     d_gos := d_gos s; d_wg := d_wg s; d_calls := d_calls s; d_ended := d_ended s; d_late := d_late s; d_dead := true |}.

Definition started_running (r : rpc) : bool := match r with RIdle => false | _ => true end.

Inductive sd_step (s : sd) : sd -> Prop :=
(** the context is done; a SIGINT or SIGTERM arrives; :74-76 Clean *)
| sd_cancel : d_dead s = false -> sd_step s (set_env s true (d_signalled s) (d_cleans s) (d_late s))
| sd_signal : d_dead s = false -> sd_step s (set_env s (d_cancelled s) true (d_cleans s) (d_late s))
| sd_clean c : d_dead s = false -> sd_step s (set_env s (d_cancelled s) (d_signalled s) (d_cleans s ++ [c]) (d_late s || started_running (d_run s)))
(** :48-53 *)
| sd_wake : d_dead s = false -> d_main s = MWait -> d_cancelled s = true \/ d_signalled s = true -> sd_step s (set_main s MGot (d_status s) (d_run s))
(** :54 and :61-62: the status, then runCleans() launches its goroutine *)
| sd_begin : d_dead s = false -> d_main s = MGot -> sd_step s (set_main s MSelect Shutdowning RAdd)
(** :64 *)
| sd_timeout : d_dead s = false -> d_main s = MSelect -> sd_step s (set_main s (MWoken false) (d_status s) (d_run s))
(** :62 and :90 meet on the unbuffered channel *)
| sd_meet : d_dead s = false -> d_main s = MSelect -> d_run s = RSend -> sd_step s (set_main s (MWoken true) (d_status s) RGone)
(** :67 *)
| sd_return b : d_dead s = false -> d_main s = MWoken b -> sd_step s (set_main s (MReturned b) Shutdowned (d_run s))
(** :82 *)
| sd_add : d_dead s = false -> d_run s = RAdd -> sd_step s (set_run s RRange (d_gos s) (d_wg s + length (d_cleans s)) (d_calls s) (d_ended s))
(** :83 evaluates the range expression once *)
| sd_range : d_dead s = false -> d_run s = RRange -> sd_step s (set_run s (RLoop (d_cleans s)) (d_gos s) (d_wg s) (d_calls s) (d_ended s))
| sd_launch c rest : d_dead s = false -> d_run s = RLoop (c :: rest) ->
    sd_step s (set_run s (RLoop rest) (d_gos s ++ [(c, CStart)]) (d_wg s) (d_calls s) (d_ended s))
| sd_launched : d_dead s = false -> d_run s = RLoop [] -> sd_step s (set_run s RWait (d_gos s) (d_wg s) (d_calls s) (d_ended s))
(** :89 *)
| sd_waited : d_dead s = false -> d_run s = RWait -> d_wg s = 0 -> sd_step s (set_run s RSend (d_gos s) (d_wg s) (d_calls s) (d_ended s))
(** :85 begins, returns, panics; :86 (a negative counter panics) *)
| sd_call l1 c l2 : d_dead s = false -> d_gos s = l1 ++ (c, CStart) :: l2 ->
    sd_step s (set_run s (d_run s) (l1 ++ (c, CRun) :: l2) (d_wg s) (d_calls s ++ [c]) (d_ended s))
| sd_end l1 c l2 : d_dead s = false -> d_gos s = l1 ++ (c, CRun) :: l2 ->
    sd_step s (set_run s (d_run s) (l1 ++ (c, CEnd) :: l2) (d_wg s) (d_calls s) (d_ended s ++ [c]))
| sd_panic l1 c l2 : d_dead s = false -> d_gos s = l1 ++ (c, CRun) :: l2 -> sd_step s (sd_die s)
| sd_done l1 c l2 n : d_dead s = false -> d_gos s = l1 ++ (c, CEnd) :: l2 -> d_wg s = S n ->
    sd_step s (set_run s (d_run s) (l1 ++ l2) n (d_calls s) (d_ended s))
| sd_negative l1 c l2 : d_dead s = false -> d_gos s = l1 ++ (c, CEnd) :: l2 -> d_wg s = 0 -> sd_step s (sd_die s).

Inductive sd_reach : sd -> Prop :=
| sdr_init : sd_reach WithShutdownContext
| sdr_step s s' : sd_reach s -> sd_step s s' -> sd_reach s'.
