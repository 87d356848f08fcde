(** P_ShutdownConc.v -- property theorems (generated by tools/gen_p.py from ShutdownConcPf.v).
    Each statement is repeated in full and closed by [exact]. *)
From Verif Require Import Base WorkPool Shutdown ShutdownPf ShutdownConc.
Local Open Scope list_scope.
From Verif Require Import ShutdownConcPf.

(** C121: registrations that do not overlap are all kept: at every moment of every such run - with any
    number of WaitShutdown calls, signals and contexts in between - the slice holds exactly the functions
    of the completed registrations, in order. *)
Theorem C121_registrations_kept : forall c s, serial_reach c s -> contents s (x_hdr s) = x_registered s.
Proof. exact C121_registrations_kept_pf. Qed.
Print Assumptions C121_registrations_kept.

(** C121: and then each WaitShutdown call treats the functions registered before it began cleaning - they are
    the first ones of all those registered - on its own, whatever other calls do: it calls each at most
    once, and if it returns without timeout (and no registration slipped in before it read the slice) it has called each exactly once and each
    has returned. *)
Theorem C121_each_call_cleans : forall c s q, serial_reach c s -> In q (x_waits s) ->
  (exists later, x_registered s = q_before q ++ later) /\
  (q_late q = false ->
     (exists uncalled, Permutation (q_before q) (q_calls q ++ uncalled)) /\ (exists unfinished, Permutation (q_calls q) (q_ended q ++ unfinished)) /\
     (q_pc q = WReturned true -> Permutation (q_calls q) (q_before q) /\ Permutation (q_ended q) (q_before q))).
Proof. exact C121_each_call_cleans_pf. Qed.
Print Assumptions C121_each_call_cleans.

(** C121: a signal is used up by one call: as long as no context is done, no more calls of WaitShutdown go
    on than signals were sent - in every run, overlapping registrations or not. *)
Theorem C121_signal_wakes_one : forall c s, x_reach c s -> (forall k, x_done s k = false) -> length (filter went_on (x_waits s)) <= x_sigs s.
Proof. exact C121_signal_wakes_one_pf. Qed.
Print Assumptions C121_signal_wakes_one.

Theorem C121_fixed_context : forall c s q, fixed_reach c s -> In q (x_waits s) -> q_pc q <> WPanicked.
Proof. exact C121_fixed_context_pf. Qed.
Print Assumptions C121_fixed_context.

(** C121: the status: Running as long as no call of WaitShutdown has begun to clean; Shutdowning only while some call cleans; Shutdowned
    only when some call has returned - so Shutdowned once every call that began has returned. *)
Theorem C121_status : forall c s, x_reach c s ->
  let cleaning := fun q => q_pc q = WClean \/ exists b, q_pc q = WWoken b in let returned := fun q => exists b, q_pc q = WReturned b in
  (x_status s = Running <-> forall q, In q (x_waits s) -> ~ cleaning q /\ ~ returned q) /\
  (x_status s = Shutdowning -> exists q, In q (x_waits s) /\ cleaning q) /\ (x_status s = Shutdowned -> exists q, In q (x_waits s) /\ returned q) /\
  ((exists q, In q (x_waits s) /\ returned q) -> (forall q, In q (x_waits s) -> ~ cleaning q) -> x_status s = Shutdowned).
Proof. exact C121_status_pf. Qed.
Print Assumptions C121_status.

(** C121: with serial registrations, two calls and one cancellation: both return without timeout, and each
    has called the function. *)
Theorem C121_example : exists s q1 q2, serial_reach 1 s /\ x_waits s = [q1; q2] /\ x_registered s = [7] /\
  q_pc q1 = WReturned true /\ q_late q1 = false /\ q_calls q1 = [7] /\ q_pc q2 = WReturned true /\ q_late q2 = false /\ q_calls q2 = [7].
Proof. exact C121_example_pf. Qed.
Print Assumptions C121_example.

(** C121, "a clean function runs once per shutdown" is false: in that run the one registered function ran
    twice; and the status goes back from Shutdowned to Shutdowning. *)
Theorem C121_once_per_process_refuted :
  (exists s, serial_reach 1 s /\ x_registered s = [7] /\ concat (map q_calls (x_waits s)) = [7; 7]) /\
  (exists s s', serial_reach 1 s /\ x_status s = Shutdowned /\ x_step s s' /\ x_status s' = Shutdowning).
Proof. exact C121_once_per_process_refuted_pf. Qed.
Print Assumptions C121_once_per_process_refuted.

(** C121, registrations that overlap can be lost although both calls returned: at the first registrations each
    of two goroutines makes an array of its own; later (in the second run) both write the same free slot of the array. *)
Theorem C121_overlapping_registrations_refuted :
  (exists s q, x_reach 1 s /\ x_regs s = [] /\ x_registered s = [7; 8] /\ contents s (x_hdr s) = [8] /\
     x_waits s = [q] /\ q_pc q = WReturned true /\ q_calls q = [8]) /\
  (exists s, x_reach 1 s /\ x_regs s = [] /\ x_registered s = [5; 7; 8] /\ contents s (x_hdr s) = [5; 7]).
Proof. exact C121_overlapping_registrations_refuted_pf. Qed.
Print Assumptions C121_overlapping_registrations_refuted.

(** C121, "a signal stops every waiting call" is false: of two waiting calls one goes on, the other has no
    step left even though two signals were sent (the second was dropped). *)
Theorem C121_signal_stops_all_refuted : exists s q1 q2, serial_reach 1 s /\ x_sigs s = 2 /\ x_sig s = false /\ x_waits s = [q1; q2] /\ q_pc q1 = WReturned true /\
  q_pc q2 = WSel 1 /\ forall q', ~ q_step s q2 q'.
Proof. exact C121_signal_stops_all_refuted_pf. Qed.
Print Assumptions C121_signal_stops_all_refuted.

(** C121, "InitShutdownCtx makes WaitShutdown obey the new context" is false for a call that is already
    waiting: cancelling the new context does not move it, cancelling the old one makes it panic. *)
Theorem C121_replaced_context_refuted :
  (exists s q, serial_reach 1 s /\ x_ctx s = 2 /\ x_done s 2 = true /\ x_waits s = [q] /\ q_pc q = WSel 1 /\ forall q', ~ q_step s q q') /\
  (exists s q, serial_reach 1 s /\ x_ctx s = 2 /\ x_done s 1 = true /\ x_waits s = [q] /\ q_pc q = WPanicked).
Proof. exact C121_replaced_context_refuted_pf. Qed.
Print Assumptions C121_replaced_context_refuted.

(** C121: the hypotheses of the last two theorems are met: one signal, one call gone on; and a fixed context. *)
Theorem C121_signal_example : exists s, x_reach 1 s /\ fixed_reach 1 (sx0 1) /\ x_sigs s = 1 /\ length (filter went_on (x_waits s)) = 1 /\ length (x_waits s) = 2 /\ forall k, x_done s k = false.
Proof. exact C121_signal_example_pf. Qed.
Print Assumptions C121_signal_example.
