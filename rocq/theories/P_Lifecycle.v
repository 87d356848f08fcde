(** P_Lifecycle.v -- property theorems (generated by tools/gen_p.py from LifecyclePf.v).
    Each statement is repeated in full and closed by [exact]. *)
From Verif Require Import Base Node Krpc KrpcPf Dht DhtProofs DhtPf Conc ConcProofs ConcPf StartupPf WorkPool Shutdown ShutdownPf Lifecycle LifecycleSpec LifecycleProofs.
Local Open Scope list_scope.
From Verif Require Import LifecyclePf.

(** C106: whenever a handler runs, the server answers all four queries: no packet, not even one that came in while the
    program was bootstrapping, meets a server on which only some handlers are registered.  By then
    every bootstrap host was contacted and the fetch loop runs, and the packet was read from the socket before. *)
Theorem C106_handlers_see_all_routes : forall e hosts tr s t1 p x t2, life_run e hosts tr s -> tr = t1 ++ LvHandle p x :: t2 ->
  all_routes x /\ In LvFetch t1 /\ In LvListen t1 /\ booted t1 = hosts /\ In p (lreads t1).
Proof. exact C106_handlers_see_all_routes_pf. Qed.
Print Assumptions C106_handlers_see_all_routes.

(** C106: packets are dispatched in the order in which they were read, each once; at any moment what was read and not yet
    dispatched is in the queue, at most 100 packets, and in the reader's hands, at most one; what was dispatched and not
    yet handled waits for a worker.  Nothing is dispatched or handled before Listen was entered. *)
Theorem C106_packets_in_order : forall e hosts tr s, life_run e hosts tr s ->
  (exists hand, lreads tr = ltaken tr ++ l_q s ++ hand /\ length hand <= 1) /\ length (l_q s) <= 100 /\
  (exists waiting, Permutation (ltaken tr) (lhandled tr ++ waiting)) /\
  Forall (fun p => length (snd p) <= 1024) (lreads tr) /\
  (~ In LvListen tr -> ltaken tr = [] /\ lhandled tr = []).
Proof. exact C106_packets_in_order_pf. Qed.
Print Assumptions C106_packets_in_order.

(** C106: the hosts are contacted in the configured order, each once; the program neither listens nor starts fetching nor starts to clean up before
    all of them were. *)
Theorem C106_bootstrap_first : forall e hosts tr s, life_run e hosts tr s ->
  (exists rest, booted tr ++ rest = hosts) /\ (In LvFetch tr \/ In LvListen tr \/ In LvCleaning tr -> booted tr = hosts).
Proof. exact C106_bootstrap_first_pf. Qed.
Print Assumptions C106_bootstrap_first.

(** C106: the program ends by itself only because of a signal, and only after every bootstrap host was contacted: a signal that arrives
    while it is bootstrapping takes effect afterwards. *)
Theorem C106_exit_needs_signal : forall e hosts tr s t1 b t2, life_run e hosts tr s -> tr = t1 ++ LvExit b :: t2 ->
  In LvSignal t1 /\ In LvCleaning t1 /\ booted t1 = hosts.
Proof. exact C106_exit_needs_signal_pf. Qed.
Print Assumptions C106_exit_needs_signal.

(** C106: nothing happens after the end of the program. *)
Theorem C106_end_is_final : forall e hosts tr s t1 v t2, life_run e hosts tr s -> tr = t1 ++ v :: t2 -> (exists b, v = LvExit b) \/ v = LvCrash -> t2 = [].
Proof. exact C106_end_is_final_pf. Qed.
Print Assumptions C106_end_is_final.

(** C106: once the socket is closed, no datagram is read; it is closed at most once, and only after a signal. *)
Theorem C106_no_read_after_close : forall e hosts tr s t1 t2, life_run e hosts tr s -> tr = t1 ++ LvClosed :: t2 ->
  lreads t2 = [] /\ ~ In LvClosed t2 /\ In LvSignal t1.
Proof. exact C106_no_read_after_close_pf. Qed.
Print Assumptions C106_no_read_after_close.

(** C106: if the program was listening when the clean-up started and it ends reporting that the clean-up finished, the socket was closed before. *)
Theorem C106_clean_exit_closes : forall e hosts tr s t1 t2, life_run e hosts tr s -> tr = t1 ++ LvExit true :: t2 -> before LvListen LvCleaning tr -> In LvClosed t1.
Proof. exact C106_clean_exit_closes_pf. Qed.
Print Assumptions C106_clean_exit_closes.

(** C106: after a signal, a program that has bootstrapped can always end within five steps of its main goroutine, whatever the other goroutines do
    or wait for: no full queue, slow handler or hanging clean function can prevent it. *)
Theorem C106_signal_can_end_it : forall e hosts tr s, life_run e hosts tr s -> l_end s = LAlive -> l_main s = LWaiting -> In LvSignal tr ->
  exists ext b s', life_run e hosts (tr ++ ext ++ [LvExit b]) s' /\ length ext <= 4 /\ Forall (fun v => v = LvTau \/ v = LvCleaning) ext.
Proof. exact C106_signal_can_end_it_pf. Qed.
Print Assumptions C106_signal_can_end_it.

(** C106: a second signal changes nothing: it neither speeds up the end nor kills the program. *)
Theorem C106_second_signal_ignored : forall e hosts tr s s', life_run e hosts tr s -> In LvSignal tr -> life_step e s LvSignal s' -> s' = s.
Proof. exact C106_second_signal_ignored_pf. Qed.
Print Assumptions C106_second_signal_ignored.

(** C106: an example: a datagram arrives during bootstrapping; it is handled later, with all routes; the program is stopped
    by a signal, closes the socket and ends. *)
Theorem C106_example : forall e, exists tr s x, life_run e [lx_host] tr s /\ l_end s = LExited /\
  tr = [LvTau; LvRead lx_p; LvTau; LvBoot lx_host; LvTau; LvTau; LvTau; LvTau; LvTau; LvTau; LvTau; LvFetch; LvTau; LvListen; LvTaken lx_p; LvTau; LvHandle lx_p x;
    LvSignal; LvTau; LvCleaning; LvTau; LvTau; LvTau; LvTau; LvTau; LvTau; LvClosed; LvTau; LvTau; LvTau; LvTau; LvTau; LvExit true] /\ before LvListen LvCleaning tr.
Proof. exact C106_example_pf. Qed.
Print Assumptions C106_example.

(** C106: what a user might expect of the end is false.  A signal that arrives early: the program
    reports a finished clean-up and ends without having closed the socket. *)
Theorem C106_early_signal_leaves_open_refuted : forall e, exists tr s, life_run e [lx_host] tr s /\ In (LvExit true) tr /\ ~ In LvClosed tr /\ In LvSignal tr.
Proof. exact C106_early_signal_leaves_open_refuted_pf. Qed.
Print Assumptions C106_early_signal_leaves_open_refuted.

(** C106: such a signal can even make the program panic, although every host was contacted: the clean function is registered between the count and
    the launch, and the counter of the wait group becomes negative. *)
Theorem C106_early_signal_crash_refuted : forall e, exists tr s, life_run e [lx_host] tr s /\ In LvCrash tr /\ booted tr = [lx_host].
Proof. exact C106_early_signal_crash_refuted_pf. Qed.
Print Assumptions C106_early_signal_crash_refuted.

(** C106: a finished clean-up does not mean that the packets read so far were handled: one queued when the signal comes is lost.  And a handler can run after the socket was closed. *)
Theorem C106_packets_lost_refuted : forall e, exists tr s x, life_run e [] tr s /\ In (LvExit true) tr /\ before LvListen LvSignal tr /\ before LvClosed (LvHandle lx_p x) tr /\ In (LvRead lx_q) tr /\ ~ In lx_q (lhandled tr).
Proof. exact C106_packets_lost_refuted_pf. Qed.
Print Assumptions C106_packets_lost_refuted.
