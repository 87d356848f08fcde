(** ShutdownPf.v -- proofs of C72 (graceful shutdown). *)
From Verif Require Import Base WorkPool Shutdown.
Local Open Scope list_scope.

Definition names (l : list (nat * cpc)) (f : cpc -> bool) : list nat := map fst (filter (fun x => f (snd x)) l).
Arguments names : simpl never.
Definition is_start (c : cpc) : bool := match c with CStart => true | _ => false end.
Definition not_start (c : cpc) : bool := negb (is_start c).
Definition is_run (c : cpc) : bool := match c with CRun => true | _ => false end.
(** Clean functions not yet launched. *)
Definition unlaunched (s : sd) : list nat := match d_run s with RIdle | RAdd | RRange => d_cleans s | RLoop rest => rest | _ => [] end.

Record dinv (s : sd) : Prop := {
  di_calls : Permutation (d_cleans s) (d_calls s ++ names (d_gos s) is_start ++ unlaunched s);
  di_ended : Permutation (d_calls s) (d_ended s ++ names (d_gos s) is_run);
  di_wg : match d_run s with RIdle | RAdd => d_gos s = [] /\ d_wg s = 0 | _ => d_wg s = length (d_gos s) + length (unlaunched s) end;
  di_done : match d_run s with RSend | RGone => d_gos s = [] | _ => True end;
  di_main : match d_main s with MWait | MGot => d_run s = RIdle | MWoken true | MReturned true => d_run s = RGone | _ => d_run s <> RIdle end }.

Lemma names_app l1 l2 f : names (l1 ++ l2) f = names l1 f ++ names l2 f.
Proof. unfold names. rewrite filter_app, map_app. reflexivity. Qed.
Lemma names_cons c k l f : names ((c, k) :: l) f = (if f k then [c] else []) ++ names l f.
Proof. unfold names. cbn [filter snd]. destruct (f k); reflexivity. Qed.

Lemma inv_step s s' : dinv s -> sd_step s s' -> d_late s' = false -> d_late s = false /\ dinv s'.
Proof.
  intros [] Hs Hl.
  destruct Hs as [Hd|Hd|c Hd|Hd Em Hw|Hd Em|Hd Em|Hd Em Er|b Hd Em|Hd Er|Hd Er|c rest Hd Er|Hd Er|Hd Er Ew|l1 c l2 Hd Eg|l1 c l2 Hd Eg|l1 c l2 Hd Eg|l1 c l2 n Hd Eg Ew|l1 c l2 Hd Eg Ew];
    cbn in Hl; (split; [try assumption|]).
  - constructor; cbn; assumption.
  - constructor; cbn; assumption.
  - destruct (d_late s); [discriminate|reflexivity].
  - apply orb_false_iff in Hl as [Hl Hr]. destruct (d_run s) eqn:Er; try discriminate.
    constructor; cbn; unfold unlaunched in *; cbn; rewrite ?Er in *; try assumption.
    rewrite !app_assoc. apply Permutation_app_tail. rewrite <- app_assoc. exact di_calls0.
  - rewrite Em in di_main0. constructor; cbn; assumption.
  - rewrite Em in di_main0. constructor; cbn; unfold unlaunched in *; cbn; rewrite ?di_main0 in *; try assumption; try exact I. discriminate.
  - rewrite Em in di_main0. constructor; cbn; assumption.
  - rewrite Er in *. constructor; cbn; unfold unlaunched in *; cbn; rewrite ?Er in *; try assumption. reflexivity.
  - rewrite Em in di_main0. constructor; cbn; try assumption.
  - constructor; cbn; unfold unlaunched in *; cbn; rewrite ?Er in *; try assumption; try exact I.
    + destruct di_wg0 as [-> ->]. cbn. reflexivity.
    + destruct (d_main s) as [| | |[]|[]]; try discriminate; assumption.
  - constructor; cbn; unfold unlaunched in *; cbn; rewrite ?Er in *; try assumption; try exact I.
    destruct (d_main s) as [| | |[]|[]]; try discriminate; assumption.
  - constructor; cbn; unfold unlaunched in *; cbn; rewrite ?Er in *; try assumption; try exact I.
    + rewrite names_app, names_cons. cbn [is_start app]. rewrite <- app_assoc. exact di_calls0.
    + rewrite names_app, names_cons. cbn [is_run app]. rewrite app_nil_r. exact di_ended0.
    + rewrite app_length. cbn [length] in *. lia.
    + destruct (d_main s) as [| | |[]|[]]; try discriminate; assumption.
  - constructor; cbn; unfold unlaunched in *; cbn; rewrite ?Er in *; try assumption; try exact I.
    destruct (d_main s) as [| | |[]|[]]; try discriminate; assumption.
  - constructor; cbn; unfold unlaunched in *; cbn; rewrite ?Er in *; try assumption; try exact I.
    + cbn [length] in di_wg0. destruct (d_gos s); [reflexivity|cbn [length] in di_wg0; lia].
    + destruct (d_main s) as [| | |[]|[]]; try discriminate; assumption.
  - constructor; cbn; unfold unlaunched in *; cbn; rewrite ?Eg in *; try assumption.
    + rewrite names_app, names_cons in *. cbn [is_start app] in *. rewrite <- !app_assoc in *. cbn [app] in *.
      eapply Permutation_trans; [exact di_calls0|]. apply Permutation_app_head. apply Permutation_sym, Permutation_middle.
    + rewrite names_app, names_cons in *. cbn [is_run app] in *.
      eapply Permutation_trans; [apply Permutation_sym, Permutation_cons_append|].
      rewrite app_assoc. apply Permutation_cons_app. rewrite <- app_assoc. exact di_ended0.
    + destruct (d_run s); cbn [length] in *; try (exfalso; destruct l1; destruct di_wg0; discriminate); rewrite !app_length in *; cbn [length] in *; exact di_wg0.
    + destruct (d_run s); try exact I; destruct l1; discriminate.
  - constructor; cbn; unfold unlaunched in *; cbn; rewrite ?Eg in *; try assumption.
    + rewrite names_app, names_cons in *. cbn [is_start app] in *. exact di_calls0.
    + rewrite names_app, names_cons in *. cbn [is_run app] in *.
      eapply Permutation_trans; [exact di_ended0|]. rewrite <- app_assoc. apply Permutation_app_head. cbn [app]. apply Permutation_sym, Permutation_middle.
    + destruct (d_run s); cbn [length] in *; try (exfalso; destruct l1; destruct di_wg0; discriminate); rewrite !app_length in *; cbn [length] in *; exact di_wg0.
    + destruct (d_run s); try exact I; destruct l1; discriminate.
  - constructor; cbn; assumption.
  - constructor; cbn; unfold unlaunched in *; cbn; rewrite ?Eg in *; try assumption.
    + rewrite names_app, names_cons in *. cbn [is_start app] in *. exact di_calls0.
    + rewrite names_app, names_cons in *. cbn [is_run app] in *. exact di_ended0.
    + destruct (d_run s); cbn [length] in *; try (exfalso; destruct l1; destruct di_wg0; discriminate); rewrite !app_length in *; cbn [length] in *; lia.
    + destruct (d_run s); try exact I; destruct l1; discriminate.
  - constructor; cbn; assumption.
Qed.
Lemma reach_inv s : sd_reach s -> d_late s = false -> dinv s.
Proof.
  induction 1 as [|s s' Hr IH Hs]; intros Hl.
  - constructor; cbn; auto.
  - destruct (d_late s) eqn:E.
    + exfalso. clear IH Hr. destruct Hs; cbn in Hl; try congruence. rewrite E in Hl. discriminate.
    + apply (inv_step s s' (IH eq_refl) Hs Hl).
Qed.

(** C72: every run in which nothing is registered after shutdown began: when WaitShutdown returns
    without timeout, every registered clean function has been called exactly once and has returned;
    at every other moment each has been called at most once. *)
Lemma C72_success_means_clean_pf : forall s, sd_reach s -> d_late s = false ->
  (d_main s = MReturned true -> Permutation (d_calls s) (d_cleans s) /\ Permutation (d_ended s) (d_cleans s)) /\
  (exists uncalled, Permutation (d_cleans s) (d_calls s ++ uncalled)) /\ (exists unfinished, Permutation (d_calls s) (d_ended s ++ unfinished)).
Proof.
  intros s Hr Hl. pose proof (reach_inv s Hr Hl) as []. split; [|split; eexists; eassumption].
  intros Em. rewrite Em in di_main0. rewrite di_main0 in *. unfold unlaunched in *. rewrite di_main0 in *. rewrite di_done0 in *.
  cbn in di_calls0, di_ended0. rewrite app_nil_r in *. split; [apply Permutation_sym; exact di_calls0|].
  apply Permutation_sym. eapply Permutation_trans; eassumption.
Qed.

(** C72: the status: Running until the cause of the shutdown was noticed, Shutdowning while
    WaitShutdown waits for the clean functions, Shutdowned when it has returned; no clean function is
    called before the shutdown began; WaitShutdown does not go on without cancellation or signal. *)
Lemma C72_status_pf : forall s, sd_reach s ->
  (d_main s = MWait \/ d_main s = MGot -> d_status s = Running /\ d_calls s = []) /\
  (d_main s = MSelect -> d_status s = Shutdowning) /\
  (forall b, d_main s = MReturned b -> d_status s = Shutdowned) /\
  (d_main s <> MWait -> d_cancelled s = true \/ d_signalled s = true).
Proof.
  intros s Hr.
  assert (H : match d_main s with
              | MWait => d_status s = Running /\ d_run s = RIdle /\ d_gos s = [] /\ d_calls s = []
              | MGot => d_status s = Running /\ d_run s = RIdle /\ d_gos s = [] /\ d_calls s = [] /\ (d_cancelled s = true \/ d_signalled s = true)
              | MSelect | MWoken _ => d_status s = Shutdowning /\ (d_cancelled s = true \/ d_signalled s = true)
              | MReturned _ => d_status s = Shutdowned /\ (d_cancelled s = true \/ d_signalled s = true) end).
  { induction Hr as [|s s' Hr IH Hs]; [cbn; auto|].
    destruct Hs as [Hd|Hd|c Hd|Hd Em Hw|Hd Em|Hd Em|Hd Em Er|b Hd Em|Hd Er|Hd Er|c rest Hd Er|Hd Er|Hd Er Ew|l1 c l2 Hd Eg|l1 c l2 Hd Eg|l1 c l2 Hd Eg|l1 c l2 n Hd Eg Ew|l1 c l2 Hd Eg Ew];
      cbn; try rewrite Em in IH; try tauto;
      try (destruct (d_main s); intuition congruence);
      destruct (d_main s); try tauto; try (destruct IH as (_ & _ & H & _); rewrite H in Eg; destruct l1; discriminate). }
  destruct (d_main s); repeat split; intros; try tauto; try discriminate; try (destruct H0; discriminate).
Qed.

Lemma sdr_cons : forall s s', sd_reach s -> sd_step s s' -> sd_reach s'. Proof. intros; eapply sdr_step; eassumption. Qed.
Ltac dside := first [reflexivity | discriminate | (cbn; lia) | (left; reflexivity) | (right; reflexivity)].
Definition sd_steps (s s' : sd) : Prop := sd_reach s -> sd_reach s'.
Lemma sds_cons a b c : sd_step a b -> sd_steps b c -> sd_steps a c.
Proof. intros H1 H2 H. apply H2. eapply sdr_step; eassumption. Qed.
Ltac dgo c := eapply sds_cons; [eapply c; dside|cbn].
Ltac drun := match goal with |- sd_reach ?s => let H := fresh in enough (H : sd_steps WithShutdownContext s) by (apply H, sdr_init) end; unfold WithShutdownContext.

(** C72: an example: two clean functions, a signal, and a return without timeout. *)
Lemma C72_example_pf : exists s, sd_reach s /\ d_late s = false /\ d_dead s = false /\ d_main s = MReturned true /\ d_cleans s = [7; 8] /\ d_ended s = [8; 7].
Proof.
  eexists. split.
  - drun. dgo (fun s => sd_clean s 7). dgo (fun s => sd_clean s 8). dgo (fun s => sd_signal s). dgo (fun s => sd_wake s). dgo (fun s => sd_begin s).
    dgo (fun s => sd_add s). dgo (fun s => sd_range s). dgo (fun s => sd_launch s 7 [8]). dgo (fun s => sd_launch s 8 []). dgo (fun s => sd_launched s).
    dgo (fun s => sd_call s [] 7 [(8, CStart)]). dgo (fun s => sd_call s [(7, CRun)] 8 []). dgo (fun s => sd_end s [(7, CRun)] 8 []).
    dgo (fun s => sd_done s [(7, CRun)] 8 [] 1). dgo (fun s => sd_end s [] 7 []). dgo (fun s => sd_done s [] 7 [] 0).
    dgo (fun s => sd_waited s). dgo (fun s => sd_meet s). dgo (fun s => sd_return s true). intros H; exact H.
  - cbn. repeat split.
Qed.

(** C72: a clean function that panics while it runs ends the whole process: from then on nothing happens any more, so a WaitShutdown that had not returned never does. *)
Lemma C72_panicking_clean_function_pf : forall s l1 c l2, d_dead s = false -> d_gos s = l1 ++ (c, CRun) :: l2 ->
  exists s', sd_step s s' /\ d_main s' = d_main s /\ d_ended s' = d_ended s /\ forall s'', ~ sd_step s' s''.
Proof.
  intros s l1 c l2 Hd Hg. exists (sd_die s). split; [eapply sd_panic; eassumption|]. split; [reflexivity|]. split; [reflexivity|]. intros s'' Hst.
  assert (Hk : d_dead (sd_die s) = true) by reflexivity. destruct Hst; congruence.
Qed.

(** C72: the rest of the claim is false.  After a timeout a clean function can start when
    WaitShutdown has returned and the status is Shutdowned. *)
Lemma C72_start_after_return_refuted_pf : exists s s', sd_reach s /\ d_late s = false /\ d_main s = MReturned false /\ d_status s = Shutdowned /\ d_calls s = [] /\
  sd_step s s' /\ d_calls s' = [7].
Proof.
  eexists. eexists. split; [|split; [|split; [|split; [|split; [|split]]]]].
  - drun. dgo (fun s => sd_clean s 7). dgo (fun s => sd_cancel s). dgo (fun s => sd_wake s). dgo (fun s => sd_begin s). dgo (fun s => sd_timeout s). dgo (fun s => sd_return s false).
    dgo (fun s => sd_add s). dgo (fun s => sd_range s). dgo (fun s => sd_launch s 7 []). intros H; exact H.
  - reflexivity.
  - reflexivity.
  - reflexivity.
  - reflexivity.
  - apply (sd_call _ [] 7 []); reflexivity.
  - reflexivity.
Qed.
(** C72: a function registered while shutting down - as dht.Run does from its own goroutine,
    cmd/root.go:50-51 - can be missed by a shutdown that reports success, or kill the process with a
    negative WaitGroup counter. *)
Lemma C72_late_registration_refuted_pf :
  (exists s, sd_reach s /\ d_dead s = false /\ d_main s = MReturned true /\ d_cleans s = [7] /\ d_calls s = []) /\
  (exists s, sd_reach s /\ d_dead s = true /\ d_cleans s = [7] /\ d_ended s = [7]).
Proof.
  split; eexists; split.
  - drun. dgo (fun s => sd_signal s). dgo (fun s => sd_wake s). dgo (fun s => sd_begin s). dgo (fun s => sd_add s). dgo (fun s => sd_range s). dgo (fun s => sd_clean s 7).
    dgo (fun s => sd_launched s). dgo (fun s => sd_waited s). dgo (fun s => sd_meet s). dgo (fun s => sd_return s true). intros H; exact H.
  - cbn. repeat split.
  - drun. dgo (fun s => sd_signal s). dgo (fun s => sd_wake s). dgo (fun s => sd_begin s). dgo (fun s => sd_add s). dgo (fun s => sd_clean s 7). dgo (fun s => sd_range s).
    dgo (fun s => sd_launch s 7 []). dgo (fun s => sd_call s [] 7 []). dgo (fun s => sd_end s [] 7 []).
    eapply sds_cons; [eapply (fun s => sd_negative s [] 7 []); reflexivity|]. intros H; exact H.
  - cbn. repeat split.
Qed.
