(** P_Shutdown.v -- property theorems (generated by tools/gen_p.py from ShutdownPf.v).
    Each statement is repeated in full and closed by [exact]. *)
From Verif Require Import Base WorkPool Shutdown.
Local Open Scope list_scope.
From Verif Require Import ShutdownPf.

(** C72: every run in which nothing is registered after shutdown began: when WaitShutdown returns
    without timeout, every registered clean function has been called exactly once and has returned;
    at every other moment each has been called at most once. *)
Theorem C72_success_means_clean : forall s, sd_reach s -> d_late s = false ->
  (d_main s = MReturned true -> Permutation (d_calls s) (d_cleans s) /\ Permutation (d_ended s) (d_cleans s)) /\
  (exists uncalled, Permutation (d_cleans s) (d_calls s ++ uncalled)) /\ (exists unfinished, Permutation (d_calls s) (d_ended s ++ unfinished)).
Proof. exact C72_success_means_clean_pf. Qed.
Print Assumptions C72_success_means_clean.

(** C72: the status: Running until the cause of the shutdown was noticed, Shutdowning while
    WaitShutdown waits for the clean functions, Shutdowned when it has returned; no clean function is
    called before the shutdown began; WaitShutdown does not go on without cancellation or signal. *)
Theorem C72_status : forall s, sd_reach s ->
  (d_main s = MWait \/ d_main s = MGot -> d_status s = Running /\ d_calls s = []) /\
  (d_main s = MSelect -> d_status s = Shutdowning) /\
  (forall b, d_main s = MReturned b -> d_status s = Shutdowned) /\
  (d_main s <> MWait -> d_cancelled s = true \/ d_signalled s = true).
Proof. exact C72_status_pf. Qed.
Print Assumptions C72_status.

(** C72: an example: two clean functions, a signal, and a return without timeout. *)
Theorem C72_example : exists s, sd_reach s /\ d_late s = false /\ d_dead s = false /\ d_main s = MReturned true /\ d_cleans s = [7; 8] /\ d_ended s = [8; 7].
Proof. exact C72_example_pf. Qed.
Print Assumptions C72_example.

(** C72: a clean function that panics while it runs ends the whole process: from then on nothing happens any more, so a WaitShutdown that had not returned never does. *)
Theorem C72_panicking_clean_function : forall s l1 c l2, d_dead s = false -> d_gos s = l1 ++ (c, CRun) :: l2 ->
  exists s', sd_step s s' /\ d_main s' = d_main s /\ d_ended s' = d_ended s /\ forall s'', ~ sd_step s' s''.
Proof. exact C72_panicking_clean_function_pf. Qed.
Print Assumptions C72_panicking_clean_function.

(** C72: the rest of the claim is false.  After a timeout a clean function can start when
    WaitShutdown has returned and the status is Shutdowned. *)
Theorem C72_start_after_return_refuted : exists s s', sd_reach s /\ d_late s = false /\ d_main s = MReturned false /\ d_status s = Shutdowned /\ d_calls s = [] /\
  sd_step s s' /\ d_calls s' = [7].
Proof. exact C72_start_after_return_refuted_pf. Qed.
Print Assumptions C72_start_after_return_refuted.

(** C72: a function registered while shutting down - as dht.Run does from its own goroutine,
    cmd/root.go:50-51 - can be missed by a shutdown that reports success, or kill the process with a
    negative WaitGroup counter. *)
Theorem C72_late_registration_refuted :
  (exists s, sd_reach s /\ d_dead s = false /\ d_main s = MReturned true /\ d_cleans s = [7] /\ d_calls s = []) /\
  (exists s, sd_reach s /\ d_dead s = true /\ d_cleans s = [7] /\ d_ended s = [7]).
Proof. exact C72_late_registration_refuted_pf. Qed.
Print Assumptions C72_late_registration_refuted.
