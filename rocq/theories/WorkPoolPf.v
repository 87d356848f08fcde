(** WorkPoolPf.v -- proofs of C66-C71 (the work pool). *)
From Verif Require Import Base Node WorkPool WorkPoolSpec.
Local Open Scope list_scope.

Definition alive (c : wpc) : Prop := c <> WExit /\ c <> WGone.
Record winv (size : nat) (s : wp) : Prop := {
  wi_size : w_size s = size; wi_len : length (w_ws s) = size; wi_alive : Forall alive (w_ws s); wi_wg : w_wg s = size;
  wi_order : w_started s ++ w_queue s = map snd (w_acc s);
  wi_perm : Permutation (w_started s) (w_done s ++ running s);
  wi_cap : length (w_queue s) <= size;
  wi_status : w_closed s = true -> w_status s <> Running;
  wi_shut : forall i, w_shuts s i = HStored \/ w_shuts s i = HWait \/ (exists b, w_shuts s i = HWoken b) -> w_status s <> Running;
  wi_woken : 0 < size -> (forall i, w_shuts s i <> HWoken true) /\ (forall i, ~ In (i, RSuccess) (w_returns s)) }.

Lemma running_app l1 l2 : flat_map (fun c => match c with WRun t => [t] | _ => [] end) (l1 ++ l2) =
  flat_map (fun c => match c with WRun t => [t] | _ => [] end) l1 ++ flat_map (fun c => match c with WRun t => [t] | _ => [] end) l2.
Proof. apply flat_map_app. Qed.
Lemma alive_swap l1 c c' l2 : alive c' -> Forall alive (l1 ++ c :: l2) -> Forall alive (l1 ++ c' :: l2).
Proof. intros H Hf. apply Forall_app in Hf as [H1 H2]. inversion H2; subst. apply Forall_app. split; [exact H1|]. constructor; assumption. Qed.

Lemma work_winv size s s' : winv size s -> work_step s s' -> winv size s'.
Proof.
  intros [] Hs. destruct Hs as [l1 l2 E Hc|l1 l2 E Hc|l1 l2 t q E Eq|l1 l2 t E|l1 l2 E].
  - constructor; cbn; try assumption.
    + rewrite <- wi_len0, E, !app_length. reflexivity.
    + rewrite E in wi_alive0. eapply alive_swap; [|exact wi_alive0]. split; discriminate.
    + unfold running in *. cbn. rewrite E, running_app in wi_perm0. rewrite running_app. exact wi_perm0.
  - constructor; cbn; try assumption.
    + rewrite <- wi_len0, E, !app_length. reflexivity.
    + rewrite E in wi_alive0. eapply alive_swap; [|exact wi_alive0]. split; discriminate.
    + unfold running in *. cbn. rewrite E, running_app in wi_perm0. rewrite running_app. exact wi_perm0.
  - constructor; cbn; try assumption.
    + rewrite <- wi_len0, E, !app_length. reflexivity.
    + rewrite E in wi_alive0. eapply alive_swap; [|exact wi_alive0]. split; discriminate.
    + rewrite <- wi_order0, Eq, <- app_assoc. reflexivity.
    + unfold running in *. cbn. rewrite E, running_app in wi_perm0. rewrite running_app. cbn [flat_map app] in *.
      apply Permutation_trans with (t :: w_started s); [apply Permutation_sym, Permutation_cons_append|].
      rewrite app_assoc. apply Permutation_cons_app. rewrite <- app_assoc. exact wi_perm0.
    + rewrite Eq in wi_cap0. cbn [length] in wi_cap0. lia.
  - constructor; cbn; try assumption.
    + rewrite <- wi_len0, E, !app_length. reflexivity.
    + rewrite E in wi_alive0. eapply alive_swap; [|exact wi_alive0]. split; discriminate.
    + unfold running in *. cbn. rewrite E, running_app in wi_perm0. rewrite running_app. cbn [flat_map app] in *.
      eapply Permutation_trans; [exact wi_perm0|]. rewrite <- app_assoc. apply Permutation_app_head. cbn [app].
      apply Permutation_sym, Permutation_cons_app. apply Permutation_refl.
  - rewrite E in wi_alive0. apply Forall_app in wi_alive0 as [_ H]. inversion H as [|? ? [H1 _] _]; subst. contradiction H1. reflexivity.
Qed.

Ltac shut_case i0 := intros i0 Hi0; unfold upd in Hi0; destruct (Nat.eqb i0 _) in Hi0.

Lemma step_winv size s s' : winv size s -> wp_step s s' -> winv size s'.
Proof.
  intros Hi Hs. pose proof Hi as [].
  destruct Hs as [s' Hd Hw|l1 l2 t Hd E|i t Hd E|i t Hd E Er|i t Hd E Er|i t Hd E Hl|i Hd E|i Hd E Er|i Hd E Er|i Hd E|i Hd E Ec|i Hd E Ec|Hd E Ec|i Hd E|i Hd E Ew|i b Hd E|Hd|Hd E Ec|Hd E Ec].
  - eapply work_winv; eassumption.
  - constructor; assumption.
  - constructor; cbn; assumption.
  - constructor; cbn; assumption.
  - constructor; cbn; assumption.
  - constructor; cbn; try assumption.
    + rewrite map_app, app_assoc, wi_order0. reflexivity.
    + rewrite app_length. cbn [length]. lia.
  - constructor; cbn; try assumption.
    + intros j Hj. unfold upd in Hj. destruct (Nat.eqb j (S i)); [|apply (wi_shut0 j Hj)].
      destruct Hj as [Hj|[Hj|[b Hj]]]; discriminate.
    + intros Hs. destruct (wi_woken0 Hs) as [H1 H2]. split; [|exact H2]. intros j. unfold upd. destruct (Nat.eqb j (S i)); [discriminate|apply H1].
  - constructor; cbn; try assumption.
    + intros j Hj. exact Er.
    + intros Hs. destruct (wi_woken0 Hs) as [H1 H2]. split.
      * intros j. unfold upd. destruct (Nat.eqb j i); [discriminate|apply H1].
      * intros j Hin. apply in_app_or in Hin as [Hin|[Hin|[]]]; [apply (H2 _ Hin)|discriminate].
  - constructor; cbn; try assumption.
    + intros j Hj. unfold upd in Hj. destruct (Nat.eqb j i); [|apply (wi_shut0 j Hj)].
      destruct Hj as [Hj|[Hj|[b Hj]]]; discriminate.
    + intros Hs. destruct (wi_woken0 Hs) as [H1 H2]. split; [|exact H2]. intros j. unfold upd. destruct (Nat.eqb j i); [discriminate|apply H1].
  - constructor; cbn; try assumption; try discriminate.
    intros Hs. destruct (wi_woken0 Hs) as [H1 H2]. split; [|exact H2]. intros j. unfold upd. destruct (Nat.eqb j i); [discriminate|apply H1].
  - assert (Hr : w_status s <> Running) by (apply (wi_shut0 i); left; exact E).
    constructor; cbn; try assumption; try (intros; exact Hr).
    intros Hs. destruct (wi_woken0 Hs) as [H1 H2]. split; [|exact H2]. intros j. unfold upd. destruct (Nat.eqb j i); [discriminate|apply H1].
  - assert (Hr : w_status s <> Running) by (apply (wi_shut0 (S i)); left; exact E).
    constructor; cbn; try assumption; try (intros; exact Hr).
    intros Hs. destruct (wi_woken0 Hs) as [H1 H2]. split.
    + intros j. unfold upd. destruct (Nat.eqb j (S i)); [discriminate|apply H1].
    + intros j Hin. apply in_app_or in Hin as [Hin|[Hin|[]]]; [apply (H2 _ Hin)|discriminate].
  - constructor; assumption.
  - assert (Hr : w_status s <> Running) by (apply (wi_shut0 i); right; left; exact E).
    constructor; cbn; try assumption; try (intros; exact Hr).
    intros Hs. destruct (wi_woken0 Hs) as [H1 H2]. split; [|exact H2]. intros j. unfold upd. destruct (Nat.eqb j i); [discriminate|apply H1].
  - assert (Hr : w_status s <> Running) by (apply (wi_shut0 i); right; left; exact E).
    constructor; cbn; try assumption; try (intros; exact Hr).
    intros Hs. lia.
  - constructor; cbn; try assumption; try discriminate.
    intros Hs. destruct (wi_woken0 Hs) as [H1 H2]. split.
    + intros j. unfold upd. destruct (Nat.eqb j i); [discriminate|apply H1].
    + intros j Hin. apply in_app_or in Hin as [Hin|[Hin|[]]]; [apply (H2 _ Hin)|]. destruct b; [|discriminate]. contradiction (H1 i E).
  - constructor; assumption.
  - constructor; cbn; try assumption.
    + intros j Hj. unfold upd in Hj. destruct (Nat.eqb j 0); [|apply (wi_shut0 j Hj)].
      destruct Hj as [Hj|[Hj|[b Hj]]]; discriminate.
    + intros Hs. destruct (wi_woken0 Hs) as [H1 H2]. split; [|exact H2]. intros j. unfold upd. destruct (Nat.eqb j 0); [discriminate|apply H1].
  - constructor; assumption.
Qed.

Lemma running_top n : running (NewWorkPool n) = [].
Proof. unfold running. cbn. induction n as [|n IH]; [reflexivity|exact IH]. Qed.
Lemma init_winv size : winv size (NewWorkPool size).
Proof.
  constructor; cbn; try reflexivity; try discriminate; try lia.
  - apply repeat_length.
  - apply Forall_forall. intros c Hc. apply repeat_spec in Hc. subst. split; discriminate.
  - change (Permutation [] (running (NewWorkPool size))). rewrite running_top. constructor.
  - intros i [H|[H|[b H]]]; discriminate.
  - intros _. split; [discriminate|]. intros i [].
Qed.
Lemma steps_winv size s s' : wp_steps s s' -> winv size s -> winv size s'.
Proof. induction 1 as [|s s' s'' _ IH Hs]; intros Hi; [exact Hi|]. eapply step_winv; [apply IH; exact Hi|exact Hs]. Qed.
Lemma reach_winv size s : wp_reach size s -> winv size s.
Proof. intros H. eapply steps_winv; [exact H|apply init_winv]. Qed.
Lemma steps_trans a b c : wp_steps a b -> wp_steps b c -> wp_steps a c.
Proof. intros H1 H2; revert H1; induction H2 as [|s s' s'' _ IH Hs]; intros H1; [exact H1|]. eapply wps_step; [apply IH; exact H1|exact Hs]. Qed.
Lemma worker_wp s s' : worker_steps s s' -> w_dead s = false -> wp_steps s s'.
Proof.
  induction 1 as [|s s' s'' Hw _ IH]; intros Hd; [apply wps_refl|].
  eapply steps_trans; [eapply wps_step; [apply wps_refl|apply st_work; eassumption]|]. apply IH. destruct Hw; exact Hd.
Qed.

(** To exhibit concrete runs. *)
Lemma wps_cons a b c : wp_step a b -> wp_steps b c -> wp_steps a c.
Proof. intros H1 H2. eapply steps_trans; [|exact H2]. eapply wps_step; [apply wps_refl|exact H1]. Qed.
Ltac side := first [reflexivity | discriminate | (cbn; lia)].
Ltac go c := eapply wps_cons; [first [eapply c; side | apply st_work; [reflexivity|eapply c; side]]|cbn].

(** ** C66 *)

(** C66: at every point of every schedule, the tasks started so far followed by the queued ones are
    the accepted tasks in the order of their acceptance: none is lost, duplicated or overtaken; and
    every started task is finished or being executed, exactly once. *)
Lemma C66_fifo_exactly_once_pf : forall size s, wp_reach size s ->
  w_started s ++ w_queue s = map snd (w_acc s) /\ Permutation (w_started s) (w_done s ++ running s).
Proof. intros size s H. apply reach_winv in H as []. split; assumption. Qed.

(** C66: a run with two workers: three tasks accepted, one finished, one executing, one queued. *)
Lemma C66_example_pf : exists s, wp_reach 2 s /\ w_dead s = false /\
  w_acc s = [(5, 70); (6, 71); (5, 72)] /\ w_done s = [70] /\ running s = [71] /\ w_queue s = [72].
Proof.
  eexists. split.
  - unfold wp_reach, NewWorkPool. cbn [repeat].
    go (fun s => st_submit s 5 70). go (fun s => st_submit_ok s 5 70). go (fun s => st_submit_send s 5 70).
    go (fun s => st_submit s 6 71). go (fun s => st_submit_ok s 6 71). go (fun s => st_submit_send s 6 71).
    go (fun s => ws_select_default s [] [WTop]). go (fun s => ws_recv s [] [WTop] 70 [71]).
    go (fun s => ws_select_default s [WRun 70] []). go (fun s => ws_recv s [WRun 70] [] 71 []).
    go (fun s => ws_done s [] [WRun 71] 70).
    go (fun s => st_submit s 5 72). go (fun s => st_submit_ok s 5 72). go (fun s => st_submit_send s 5 72).
    apply wps_refl.
  - cbn. repeat (split; [reflexivity|]). reflexivity.
Qed.

(** ** C67 *)

(** C67: at most [size] tasks are queued and at most [size] are being executed. *)
Lemma C67_bounds_pf : forall size s, wp_reach size s -> length (w_queue s) <= size /\ length (running s) <= size.
Proof.
  intros size s H. apply reach_winv in H as []. split; [assumption|]. rewrite <- wi_len0. unfold running.
  generalize (w_ws s). induction l as [|c l IH]; cbn [flat_map length]; [lia|]. rewrite app_length. destruct c; cbn [length]; lia.
Qed.
(** C67: a submit waits while the queue is full: as long as [size] tasks are queued, no step of
    anybody adds to the accepted tasks; and a waiting submit goes through as soon as there is room,
    even if the pool is being shut down meanwhile. *)
Lemma C67_submit_blocks_pf : forall size s s', wp_reach size s -> wp_step s s' ->
  (length (w_queue s) = size -> w_acc s' = w_acc s) /\
  (forall i t, w_dead s = false -> w_subs s i = SSend t -> length (w_queue s) < size ->
     exists s1, wp_step s s1 /\ w_acc s1 = w_acc s ++ [(i, t)]).
Proof.
  intros size s s' Hr Hs. apply reach_winv in Hr as []. split.
  - intros Hl. destruct Hs as [? ? Hw| | | | |i t Hd E Hlt| | | | | | | | | | | | |]; try reflexivity; [destruct Hw; reflexivity|]. lia.
  - intros i t Hd E Hlt. eexists. split; [apply (st_submit_send _ i t Hd E)|]; [lia|reflexivity].
Qed.
(** C67: the bounds are reached. *)
Lemma C67_example_pf : exists s, wp_reach 1 s /\ w_queue s = [71] /\ running s = [70] /\ w_subs s 5 = SSend 72.
Proof.
  eexists. split.
  - unfold wp_reach, NewWorkPool. cbn [repeat].
    go (fun s => st_submit s 5 70). go (fun s => st_submit_ok s 5 70). go (fun s => st_submit_send s 5 70).
    go (fun s => ws_select_default s [] []). go (fun s => ws_recv s [] [] 70 []).
    go (fun s => st_submit s 5 71). go (fun s => st_submit_ok s 5 71). go (fun s => st_submit_send s 5 71).
    go (fun s => st_submit s 5 72). go (fun s => st_submit_ok s 5 72).
    apply wps_refl.
  - cbn. repeat (split; [reflexivity|]). reflexivity.
Qed.

(** ** C68 *)
Lemma step_not_running s s' : wp_step s s' -> w_status s <> Running -> w_status s' <> Running.
Proof. intros Hs Hr. destruct Hs as [? ? Hw| | | | | | | | | | | | | | | | | |]; cbn; try assumption; try discriminate. destruct Hw; assumption. Qed.

(** C68: once the pool is not running it never runs again, and an AsyncSubmit call that begins after
    that adds nothing: goroutine [i], outside of AsyncSubmit when the pool is not running, never gets
    a task accepted, while each of its calls that ends panics. *)
Lemma C68_no_submit_after_shutdown_pf : forall s s' i, w_status s <> Running -> w_subs s i = SIdle -> wp_steps s s' ->
  w_status s' <> Running /\
  filter (fun x => Nat.eqb (fst x) i) (w_acc s') = filter (fun x => Nat.eqb (fst x) i) (w_acc s) /\
  (forall t, w_subs s' i <> SSend t) /\
  (forall t, w_subs s' i = SBegin t -> w_dead s' = false -> exists s1, wp_step s' s1 /\ w_subpanics s1 = w_subpanics s' ++ [i] /\ w_acc s1 = w_acc s').
Proof.
  intros s s' i Hr Hi Hs.
  assert (H : w_status s' <> Running /\ filter (fun x => Nat.eqb (fst x) i) (w_acc s') = filter (fun x => Nat.eqb (fst x) i) (w_acc s) /\ forall t, w_subs s' i <> SSend t).
  { induction Hs as [s|s s' s'' _ IH Hst]; [repeat split; [exact Hr|]; intros t; rewrite Hi; discriminate|].
    destruct (IH Hr Hi) as (I1 & I2 & I3). clear IH. split; [eapply step_not_running; eassumption|].
    destruct Hst as [s'' ? Hw| |j t Hd E|j t Hd E Er|j t Hd E Er|j t Hd E Hl| | | | | | | | | | | | |]; cbn; try (split; [exact I2|exact I3]).
    - destruct Hw; (split; [exact I2|exact I3]).
    - split; [exact I2|]. intros u. unfold upd. destruct (Nat.eqb i j); [discriminate|apply I3].
    - contradiction.
    - split; [exact I2|]. intros u. unfold upd. destruct (Nat.eqb i j); [discriminate|apply I3].
    - assert (Hij : j <> i) by (intros ->; apply (I3 t E)). split.
      + rewrite filter_app. cbn [filter fst]. destruct (Nat.eqb_spec j i); [contradiction|]. rewrite app_nil_r. exact I2.
      + intros u. unfold upd. destruct (Nat.eqb_spec i j); [congruence|apply I3]. }
  destruct H as (H1 & H2 & H3). split; [exact H1|]. split; [exact H2|]. split; [exact H3|].
  intros t Ht Hd. eexists. split; [apply (st_submit_panic _ i t Hd Ht H1)|]. split; reflexivity.
Qed.

Definition sinv (s : wp) : Prop :=
  (forall i, w_shuts s i = HPassed -> w_status s = Running /\ w_closed s = false) /\
  (forall i, w_shuts s i = HStored -> w_status s = Shutdowning /\ w_closed s = false) /\
  (forall i, w_shuts s i = HWait \/ (exists b, w_shuts s i = HWoken b) -> w_status s = Shutdowning) /\
  (w_status s = Running -> w_closed s = false) /\ (forall i, ~ In (i, RPanicked) (w_returns s)) /\ alone_in s.

Ltac updc Hj := unfold upd in Hj; destruct (Nat.eqb_spec _ _) in Hj.
Lemma serial_inv size s : serial_reach size s -> sinv s.
Proof.
  induction 1 as [|s s' Hr IH Hs Ha'].
  { unfold sinv. cbn. repeat split; try discriminate; intros; try reflexivity; try tauto.
    - destruct H as [H|[b H]]; discriminate.
    - intros j k [Hj _]. cbn in Hj. congruence. }
  destruct IH as (I1 & I2 & I3 & I4 & I5 & Ha).
  assert (Hin : forall i c, w_shuts s i = c -> c <> HIdle -> c <> HBegin -> shutting s i) by (intros i c E; unfold shutting; rewrite E; tauto).
  (* the other goroutines are not shutting down when [i] is *)
  assert (Hout : forall i j c, shutting s i -> w_shuts s j = c -> c <> HIdle -> c <> HBegin -> j = i) by (intros i j c Hi E H1 H2; eapply Ha; [eapply Hin; eassumption|exact Hi]).
  assert (Hsame : w_shuts s' = w_shuts s -> w_status s' = w_status s -> w_closed s' = w_closed s -> w_returns s' = w_returns s -> sinv s').
  { intros E1 E2 E3 E4. unfold sinv. rewrite E1, E2, E3, E4. repeat (split; [assumption|]). exact Ha'. }
  assert (Hpc : forall i c st cl rs, s' = set_shut s i c st cl rs ->
    (c = HPassed -> st = Running /\ cl = false) -> (c = HStored -> st = Shutdowning /\ cl = false) ->
    (c = HWait \/ (exists b, c = HWoken b) -> st = Shutdowning) -> (st = Running -> cl = false) -> (forall j, ~ In (j, RPanicked) rs) ->
    ((forall j, j <> i -> ~ shutting s j) \/ (st = w_status s /\ cl = w_closed s)) -> sinv s').
  { intros i c st cl rs -> P1 P2 P3 P4 P5 P6. unfold sinv. cbn. split; [|split; [|split; [|split; [exact P4|split; [exact P5|exact Ha']]]]]; intros j Hj; unfold upd in Hj; destruct (Nat.eqb_spec j i) as [Eji|Nji].
    - apply P1; exact Hj.
    - destruct P6 as [P6|[-> ->]]; [|apply (I1 j Hj)]. contradiction (P6 j Nji). eapply Hin; [exact Hj|discriminate..].
    - apply P2; exact Hj.
    - destruct P6 as [P6|[-> ->]]; [|apply (I2 j Hj)]. contradiction (P6 j Nji). eapply Hin; [exact Hj|discriminate..].
    - apply P3; exact Hj.
    - destruct P6 as [P6|[-> ->]]; [|apply (I3 j Hj)]. contradiction (P6 j Nji). unfold shutting. destruct Hj as [->|[b ->]]; split; discriminate. }
  assert (Hsk : forall i r, r <> RPanicked -> forall j, ~ In (j, RPanicked) (w_returns s ++ [(i, r)])).
  { intros i r Hne j Hj. apply in_app_or in Hj as [Hj|[Hj|[]]]; [apply (I5 _ Hj)|congruence]. }
  assert (Hal : forall i c, w_shuts s i = c -> c <> HIdle -> c <> HBegin -> forall j, j <> i -> ~ shutting s j).
  { intros i c E H1 H2 j Hj Hsj. apply Hj. apply Ha; [exact Hsj|]. eapply Hin; eassumption. }
  destruct Hs as [s' Hd Hw|l1 l2 t Hd E|i t Hd E|i t Hd E Er|i t Hd E Er|i t Hd E Hl|i Hd E|i Hd E Er|i Hd E Er|i Hd E|i Hd E Ec|i Hd E Ec|Hd E Ec|i Hd E|i Hd E Ew|i b Hd E|Hd|Hd E Ec|Hd E Ec];
    try (apply Hsame; reflexivity).
  - destruct Hw; apply Hsame; reflexivity.
  - eapply Hpc; [reflexivity|try discriminate..|]; try assumption; [intros [H|[b H]]; discriminate|right; split; reflexivity].
  - eapply Hpc; [reflexivity|try discriminate..|]; try assumption; [intros [H|[b H]]; discriminate|apply Hsk; discriminate|right; split; reflexivity].
  - eapply Hpc; [reflexivity|try discriminate..|]; try assumption; [intros _; split; [exact Er|apply I4, Er]|intros [H|[b H]]; discriminate|right; split; reflexivity].
  - eapply Hpc; [reflexivity|try discriminate..|]; try assumption; [intros _; split; [reflexivity|apply (I1 i E)]|intros [H|[b H]]; discriminate|].
    left. eapply Hal; [exact E|discriminate..].
  - eapply Hpc; [reflexivity|try discriminate..|]; try assumption; [intros _; apply (I2 i E)| |].
    + intros H. rewrite (proj1 (I2 i E)) in H. discriminate.
    + left. eapply Hal; [exact E|discriminate..].
  - rewrite (proj2 (I2 _ E)) in Ec. discriminate.
  - eapply Hpc; [reflexivity|try discriminate..|]; try assumption; [intros _; apply (I3 i); left; exact E|right; split; reflexivity].
  - eapply Hpc; [reflexivity|try discriminate..|]; try assumption; [intros _; apply (I3 i); left; exact E|right; split; reflexivity].
  - eapply Hpc; [reflexivity|try discriminate..|]; try assumption; [intros [H|[b' H]]; discriminate|apply Hsk; destruct b; discriminate|].
    left. eapply Hal; [exact E|discriminate..].
  - (* the listener's call *)
    unfold sinv. cbn. split; [|split; [|split; [|split; [exact I4|split; [exact I5|exact Ha']]]]]; intros j Hj; unfold upd in Hj; destruct (Nat.eqb j 0).
    + discriminate.
    + apply (I1 j Hj).
    + discriminate.
    + apply (I2 j Hj).
    + destruct Hj as [H|[b H]]; discriminate.
    + apply (I3 j Hj).
Qed.

(** C68: if no two Shutdown calls shut the pool down at the same time, the status only moves forward
    and no Shutdown panics. *)
Lemma C68_status_forward_pf : forall size s s', serial_reach size s -> wp_step s s' ->
  stage (w_status s) <= stage (w_status s') /\ (alone_in s' -> forall i, ~ In (i, RPanicked) (w_returns s')).
Proof.
  intros size s s' Hr Hs. pose proof (serial_inv size s Hr) as (I1 & I2 & I3 & I4 & I5 & Ha). split.
  - destruct Hs as [s' Hd Hw| | | | | | | | |i Hd E| | | | | |i b Hd E| | |]; cbn; try apply Nat.le_refl.
    + destruct Hw; apply Nat.le_refl.
    + rewrite (proj1 (I1 i E)). cbn. lia.
    + rewrite (I3 i (or_intror (ex_intro _ b E))). cbn. lia.
  - intros Hal. apply (serial_inv size s'). eapply sr_step; eassumption.
Qed.

(** C68: without that restriction it is false: with a second Shutdown that has found the pool running,
    the status goes from Shutdowned back to Shutdowning. *)
Lemma C68_status_backwards_refuted_pf : exists s s', wp_reach 1 s /\ wp_step s s' /\ w_status s = Shutdowned /\ w_status s' = Shutdowning.
Proof.
  eexists. eexists. split; [|split].
  - unfold wp_reach, NewWorkPool. cbn [repeat].
    go (fun s => st_shutdown s 0). go (fun s => st_shutdown s 1). go (fun s => st_shut_pass s 1). go (fun s => st_shut_pass s 2).
    go (fun s => st_shut_store s 1). go (fun s => st_shut_close s 1). go (fun s => st_shut_timeout s 1). go (fun s => st_shut_return s 1 false).
    apply wps_refl.
  - apply (st_shut_store _ 2); reflexivity.
  - split; reflexivity.
Qed.
(** C68: a serial run through all three states, with a submit that panics at the end. *)
Lemma C68_example_pf : exists s, wp_reach 1 s /\ serial_reach 1 s /\ w_status s = Shutdowned /\ w_subpanics s = [7] /\ w_acc s = [].
Proof.
  assert (H0 : forall s i, (forall j, j <> i -> w_shuts s j = HIdle) -> alone_in s).
  { intros s i H j k [Hj _] [Hk _]. destruct (Nat.eq_dec j i) as [->|Nj]; [|rewrite (H j Nj) in Hj; congruence].
    destruct (Nat.eq_dec k i) as [->|Nk]; [reflexivity|]. rewrite (H k Nk) in Hk. congruence. }
  set (s0 := NewWorkPool 1). set (s1 := set_shut s0 1 HBegin (w_status s0) (w_closed s0) (w_returns s0)).
  set (s2 := set_shut s1 1 HPassed (w_status s1) (w_closed s1) (w_returns s1)).
  set (s3 := set_shut s2 1 HStored Shutdowning (w_closed s2) (w_returns s2)).
  set (s4 := set_shut s3 1 HWait (w_status s3) true (w_returns s3)).
  set (s5 := set_shut s4 1 (HWoken false) (w_status s4) (w_closed s4) (w_returns s4)).
  set (s6 := set_shut s5 1 HIdle Shutdowned (w_closed s5) (w_returns s5 ++ [(1, RTimeout)])).
  set (s7 := set_sub s6 7 (SBegin 9) (w_queue s6) (w_acc s6) (w_subpanics s6)).
  set (s8 := set_sub s7 7 SIdle (w_queue s7) (w_acc s7) (w_subpanics s7 ++ [7])).
  assert (E1 : wp_step s0 s1) by (apply (st_shutdown s0 0); reflexivity).
  assert (E2 : wp_step s1 s2) by (apply (st_shut_pass s1 1); reflexivity).
  assert (E3 : wp_step s2 s3) by (apply (st_shut_store s2 1); reflexivity).
  assert (E4 : wp_step s3 s4) by (apply (st_shut_close s3 1); reflexivity).
  assert (E5 : wp_step s4 s5) by (apply (st_shut_timeout s4 1); reflexivity).
  assert (E6 : wp_step s5 s6) by (apply (st_shut_return s5 1 false); reflexivity).
  assert (E7 : wp_step s6 s7) by (apply (st_submit s6 7 9); reflexivity).
  assert (E8 : wp_step s7 s8) by (apply (st_submit_panic s7 7 9); try reflexivity; discriminate).
  assert (Hsh : forall j, j <> 1 -> w_shuts s1 j = HIdle /\ w_shuts s2 j = HIdle /\ w_shuts s3 j = HIdle /\ w_shuts s4 j = HIdle /\ w_shuts s5 j = HIdle /\ w_shuts s6 j = HIdle).
  { intros j Hj. cbn. unfold upd. destruct (Nat.eqb_spec j 1); [contradiction|]. repeat split. }
  exists s8. split; [|split; [|split; [|split]]]; try reflexivity.
  - unfold wp_reach. fold s0. eapply wps_step; [|exact E8]. eapply wps_step; [|exact E7]. eapply wps_step; [|exact E6]. eapply wps_step; [|exact E5].
    eapply wps_step; [|exact E4]. eapply wps_step; [|exact E3]. eapply wps_step; [|exact E2]. eapply wps_step; [|exact E1]. apply wps_refl.
  - eapply sr_step; [|exact E8|apply (H0 _ 1); apply Hsh]. eapply sr_step; [|exact E7|apply (H0 _ 1); apply Hsh].
    eapply sr_step; [|exact E6|apply (H0 _ 1); apply Hsh]. eapply sr_step; [|exact E5|apply (H0 _ 1); apply Hsh].
    eapply sr_step; [|exact E4|apply (H0 _ 1); apply Hsh]. eapply sr_step; [|exact E3|apply (H0 _ 1); apply Hsh].
    eapply sr_step; [|exact E2|apply (H0 _ 1); apply Hsh]. eapply sr_step; [|exact E1|apply (H0 _ 1); apply Hsh]. apply sr_init.
Qed.

(** ** C69 *)

(** C69: what holds: with at least one worker, no worker ever exits and no Shutdown call ever reports
    success - it ends by timeout, by finding the pool not running, or by a panic. *)
Lemma C69_shutdown_never_succeeds_pf : forall size s, 0 < size -> wp_reach size s ->
  length (w_ws s) = size /\ (forall c, In c (w_ws s) -> c <> WExit /\ c <> WGone) /\ forall i, ~ In (i, RSuccess) (w_returns s).
Proof.
  intros size s Hs Hr. apply reach_winv in Hr as []. split; [assumption|]. split; [|apply (wi_woken0 Hs)].
  intros c Hc. rewrite Forall_forall in wi_alive0. apply (wi_alive0 c Hc).
Qed.
(** C69: the claim is false: a task accepted before Shutdown is started after Shutdown has returned. *)
Lemma C69_shutdown_stops_workers_refuted_pf : exists s s', wp_reach 1 s /\ w_returns s = [(1, RTimeout)] /\ w_status s = Shutdowned /\ w_started s = [] /\
  worker_steps s s' /\ w_started s' = [70].
Proof.
  eexists. eexists. split; [|split; [|split; [|split; [|split]]]].
  - unfold wp_reach, NewWorkPool. cbn [repeat].
    go (fun s => st_submit s 5 70). go (fun s => st_submit_ok s 5 70). go (fun s => st_submit_send s 5 70).
    go (fun s => st_shutdown s 0). go (fun s => st_shut_pass s 1). go (fun s => st_shut_store s 1). go (fun s => st_shut_close s 1).
    go (fun s => st_shut_timeout s 1). go (fun s => st_shut_return s 1 false). apply wps_refl.
  - reflexivity.
  - reflexivity.
  - reflexivity.
  - eapply wks_step; [apply (ws_select_closed _ [] []); reflexivity|]. eapply wks_step; [apply (ws_recv _ [] [] 70 []); reflexivity|]. apply wks_refl.
  - reflexivity.
Qed.

(** ** C70 *)

(** C70: false: a Shutdown call and the cancellation of the context at the same time close the
    channel twice; the panic in the pool's own goroutine kills the process.  Two user calls give a
    panic in one of them. *)
Lemma C70_concurrent_shutdown_refuted_pf :
  (exists s, wp_reach 1 s /\ w_dead s = true /\ w_started s = [] /\ w_returns s = []) /\
  (exists s, wp_reach 1 s /\ In (2, RPanicked) (w_returns s)).
Proof.
  split.
  - eexists. split.
    + unfold wp_reach, NewWorkPool. cbn [repeat].
      go (fun s => st_cancel s). go (fun s => st_listen_shut s). go (fun s => st_shutdown s 0). go (fun s => st_shut_pass s 1). go (fun s => st_shut_pass s 0).
      go (fun s => st_shut_store s 1). go (fun s => st_shut_close s 1). go (fun s => st_shut_store s 0).
      eapply wps_cons; [eapply st_listen_close_again; reflexivity|]. apply wps_refl.
    + cbn. repeat split.
  - eexists. split.
    + unfold wp_reach, NewWorkPool. cbn [repeat].
      go (fun s => st_shutdown s 0). go (fun s => st_shutdown s 1). go (fun s => st_shut_pass s 1). go (fun s => st_shut_pass s 2).
      go (fun s => st_shut_store s 1). go (fun s => st_shut_close s 1). go (fun s => st_shut_store s 2). go (fun s => st_shut_close_again s 1). apply wps_refl.
    + left. reflexivity.
Qed.
(** C70: ... and nothing happens any more in a process that was killed so, or by a panicking task. *)
Lemma C70_dead_is_dead_pf : forall s s', w_dead s = true -> ~ wp_step s s'.
Proof. intros s s' Hd Hs. destruct Hs; congruence. Qed.
(** C70: what holds: calls that do not overlap are harmless - nothing panics and only a panicking
    task can kill the process - and a call on a pool that is not running returns at once. *)
Lemma C70_serial_shutdown_pf : forall size s, serial_reach size s ->
  (forall i, ~ In (i, RPanicked) (w_returns s)) /\
  (forall s', wp_step s s' -> alone_in s' -> w_dead s = false -> w_dead s' = true -> exists l1 t l2, w_ws s = l1 ++ WRun t :: l2) /\
  (forall i, w_shuts s i = HBegin -> w_status s <> Running -> w_dead s = false ->
     exists s', wp_step s s' /\ w_shuts s' i = HIdle /\ w_status s' = w_status s /\ w_closed s' = w_closed s /\ w_returns s' = w_returns s ++ [(i, RSkipped)]).
Proof.
  intros size s Hr. pose proof (serial_inv size s Hr) as (I1 & I2 & I3 & I4 & I5 & Ha). split; [exact I5|]. split.
  - intros s' Hs Ha' Hd Hd'. destruct Hs as [s' ? Hw|l1 l2 t ? E| | | | | | | | | | |? E Ec| | | | | |]; cbn in Hd'; try congruence.
    + destruct Hw; cbn in Hd'; congruence.
    + exists l1, t, l2. exact E.
    + rewrite (proj2 (I2 0 E)) in Ec. discriminate.
  - intros i Hi Hn Hd. eexists. split; [apply (st_shut_skip s i Hd Hi Hn)|]. cbn. unfold upd. rewrite Nat.eqb_refl. repeat split.
Qed.

(** ** C71 *)
Lemma winv_run size s : winv size s -> exists s', worker_steps s s' /\ winv size s' /\ w_queue s' = w_queue s /\ w_acc s' = w_acc s /\ running s' = [].
Proof.
  intros Hi. remember (length (running s)) as n eqn:En. revert s Hi En. induction n as [|n IH]; intros s Hi En.
  - exists s. split; [apply wks_refl|]. split; [exact Hi|]. split; [reflexivity|]. split; [reflexivity|]. destruct (running s); [reflexivity|discriminate].
  - assert (Hex : exists l1 t l2, w_ws s = l1 ++ WRun t :: l2).
    { unfold running in En. clear - En. induction (w_ws s) as [|c l IHl]; [discriminate|]. destruct c as [| |t| |]; cbn [flat_map app] in En;
        try (destruct (IHl En) as (l1 & t & l2 & ->)); [eexists (_ :: l1), t, l2; reflexivity|eexists (_ :: l1), t, l2; reflexivity|exists [], t, l; reflexivity|eexists (_ :: l1), t, l2; reflexivity|eexists (_ :: l1), t, l2; reflexivity]. }
    destruct Hex as (l1 & t & l2 & E). pose proof (ws_done s l1 l2 t E) as Hst. pose proof (work_winv size _ _ Hi Hst) as Hi'.
    edestruct (IH _ Hi') as (s' & H1 & H2 & H3 & H4 & H5).
    { unfold running in *. cbn. rewrite E in En. rewrite running_app in *. cbn [flat_map app] in *. rewrite app_length in *. cbn [length] in En. lia. }
    exists s'. split; [eapply wks_step; eassumption|]. split; [exact H2|]. split; [rewrite H3; reflexivity|]. split; [rewrite H4; reflexivity|exact H5].
Qed.
Lemma work_trans a b c : worker_steps a b -> worker_steps b c -> worker_steps a c.
Proof. induction 1 as [|s s' s'' Hw _ IH]; intros H; [exact H|]. eapply wks_step; [exact Hw|apply IH, H]. Qed.

Lemma winv_drain size s : winv size s -> exists s', worker_steps s s' /\ winv size s' /\ w_acc s' = w_acc s /\ w_queue s' = [] /\ running s' = [].
Proof.
  intros Hi. remember (length (w_queue s)) as n eqn:En. revert s Hi En. induction n as [|n IH]; intros s Hi En.
  - destruct (winv_run size s Hi) as (s' & H1 & H2 & H3 & H4 & H5). exists s'. split; [exact H1|]. split; [exact H2|]. split; [exact H4|]. split; [|exact H5].
    rewrite H3. destruct (w_queue s); [reflexivity|discriminate].
  - destruct (winv_run size s Hi) as (s1 & H1 & H2 & H3 & H4 & H5).
    destruct (w_queue s) as [|t q] eqn:Eq; [discriminate|]. cbn [length] in En.
    destruct (w_ws s1) as [|c l] eqn:Ew; [pose proof (wi_len _ _ H2) as Hl; pose proof (wi_cap _ _ H2) as Hc; rewrite Ew in Hl; rewrite H3 in Hc; cbn [length] in Hl, Hc; lia|].
    assert (Hrecv : exists s2, worker_steps s1 s2 /\ winv size s2 /\ w_acc s2 = w_acc s1 /\ w_queue s2 = q).
    { assert (Hgo : forall s1 l, winv size s1 -> w_ws s1 = WRecv :: l -> w_queue s1 = t :: q -> exists s2, worker_steps s1 s2 /\ winv size s2 /\ w_acc s2 = w_acc s1 /\ w_queue s2 = q).
      { clear. intros s1 l H2 Ew H3. pose proof (ws_recv s1 [] l t q Ew H3) as Hst. eexists. split; [eapply wks_step; [exact Hst|apply wks_refl]|].
        split; [eapply work_winv; eassumption|]. split; reflexivity. }
      pose proof (wi_alive _ _ H2) as Hal. rewrite Ew in Hal. inversion Hal as [|? ? [Ha1 Ha2] _]; subst.
      destruct c as [| |u| |]; try congruence.
      - destruct (w_closed s1) eqn:Ec.
        + pose proof (ws_select_closed s1 [] l Ew Ec) as Hst. pose proof (work_winv _ _ _ H2 Hst) as Hi'.
          destruct (Hgo _ l Hi' eq_refl) as (s2 & G1 & G2 & G3 & G4); [cbn; rewrite H3; reflexivity|].
          exists s2. split; [eapply wks_step; eassumption|]. split; [exact G2|]. split; [rewrite G3; reflexivity|exact G4].
        + pose proof (ws_select_default s1 [] l Ew Ec) as Hst. pose proof (work_winv _ _ _ H2 Hst) as Hi'.
          destruct (Hgo _ l Hi' eq_refl) as (s2 & G1 & G2 & G3 & G4); [cbn; rewrite H3; reflexivity|].
          exists s2. split; [eapply wks_step; eassumption|]. split; [exact G2|]. split; [rewrite G3; reflexivity|exact G4].
      - apply (Hgo s1 l H2 Ew H3).
      - unfold running in H5. rewrite Ew in H5. discriminate. }
    destruct Hrecv as (s2 & G1 & G2 & G3 & G4).
    destruct (IH s2 G2) as (s3 & K1 & K2 & K3 & K4 & K5); [rewrite G4; lia|].
    exists s3. split; [eapply work_trans; [exact H1|]; eapply work_trans; eassumption|]. split; [exact K2|]. split; [rewrite K3, G3, H4; reflexivity|]. split; assumption.
Qed.

(** C71: from every reachable state of a living process - also after Shutdown - the workers alone can
    go on to a state in which every accepted task has been executed to its end, exactly once, and
    nothing is queued: no accepted task is ever stuck because of the pool. *)
Lemma C71_accepted_tasks_can_finish_pf : forall size s, wp_reach size s -> w_dead s = false ->
  exists s', worker_steps s s' /\ wp_reach size s' /\ w_acc s' = w_acc s /\ w_queue s' = [] /\ running s' = [] /\
    w_started s' = map snd (w_acc s) /\ Permutation (w_done s') (map snd (w_acc s)).
Proof.
  intros size s Hr Hd. destruct (winv_drain size s (reach_winv _ _ Hr)) as (s' & H1 & H2 & H3 & H4 & H5).
  exists s'. split; [exact H1|]. split; [eapply steps_trans; [exact Hr|apply worker_wp; assumption]|]. split; [exact H3|]. split; [exact H4|]. split; [exact H5|].
  pose proof (wi_order _ _ H2) as Ho. pose proof (wi_perm _ _ H2) as Hp. rewrite H4, app_nil_r in Ho. rewrite H5, app_nil_r in Hp.
  split; [rewrite <- H3; exact Ho|]. rewrite <- H3, <- Ho. apply Permutation_sym. exact Hp.
Qed.
(** C71: the state of C69 after Shutdown with one task queued is such a state. *)
Lemma C71_example_pf : exists s, wp_reach 1 s /\ w_dead s = false /\ w_status s = Shutdowned /\ w_acc s = [(5, 70)] /\ w_started s = [].
Proof.
  eexists. split.
  - unfold wp_reach, NewWorkPool. cbn [repeat].
    go (fun s => st_submit s 5 70). go (fun s => st_submit_ok s 5 70). go (fun s => st_submit_send s 5 70).
    go (fun s => st_shutdown s 0). go (fun s => st_shut_pass s 1). go (fun s => st_shut_store s 1). go (fun s => st_shut_close s 1).
    go (fun s => st_shut_timeout s 1). go (fun s => st_shut_return s 1 false). apply wps_refl.
  - cbn. repeat split.
Qed.

(** ** C70: who wins *)
Definition one_winner (s : wp) : Prop :=
  (w_closed s = false -> waited (w_returns s) = [] /\ forall i, ~ closing s i) /\
  (forall i j, closing s i -> closing s j -> i = j) /\
  (length (waited (w_returns s)) <= 1) /\
  (waited (w_returns s) <> [] -> forall i, ~ closing s i).

Lemma waited_app a b : waited (a ++ b) = waited a ++ waited b. Proof. apply filter_app. Qed.
Lemma closing_upd s i c stt cl rs j : closing (set_shut s i c stt cl rs) j <-> if Nat.eqb j i then (c = HWait \/ exists b, c = HWoken b) else closing s j.
Proof. unfold closing. cbn [set_shut w_shuts]. unfold upd. destruct (Nat.eqb j i); reflexivity. Qed.

Lemma winner_keep s i c stt rs : one_winner s -> (c = HWait \/ (exists b, c = HWoken b) -> closing s i) -> waited rs = waited (w_returns s) ->
  one_winner (set_shut s i c stt (w_closed s) rs).
Proof.
  intros (H1 & H2 & H3 & H4) Hc Hw.
  assert (Hback : forall j, closing (set_shut s i c stt (w_closed s) rs) j -> closing s j).
  { intros j Hj. apply closing_upd in Hj. destruct (Nat.eqb_spec j i) as [Hji|Hji]; [subst j|]; auto. }
  split; [|split; [|split]]; cbn [set_shut w_closed w_returns].
  - intros E. rewrite Hw. destruct (H1 E) as [G1 G2]. split; [exact G1|]. intros j Hj. exact (G2 j (Hback j Hj)).
  - intros j k Hj Hk. apply H2; apply Hback; assumption.
  - rewrite Hw. exact H3.
  - rewrite Hw. intros Hn j Hj. exact (H4 Hn j (Hback j Hj)).
Qed.

Lemma step_winner s s' : one_winner s -> wp_step s s' -> one_winner s'.
Proof.
  intros HI Hs. pose proof HI as (H1 & H2 & H3 & H4).
  assert (Hno : forall c, c <> HWait -> (forall b, c <> HWoken b) -> forall i, (c = HWait \/ exists b, c = HWoken b) -> closing s i).
  { intros c N1 N2 i [E|[b E]]; [elim (N1 E)|elim (N2 b E)]. }
  destruct Hs as [s' Hd Hw|l1 l2 t Hd E|i t Hd E|i t Hd E Er|i t Hd E Er|i t Hd E Hl|i Hd E|i Hd E Er|i Hd E Er|i Hd E|i Hd E Ec|i Hd E Ec|Hd E Ec|i Hd E|i Hd E Ew|i b Hd E|Hd|Hd E Ec|Hd E Ec]; try exact HI.
  - destruct Hw; exact HI.
  - apply winner_keep; [exact HI|apply Hno; discriminate|reflexivity].
  - apply winner_keep; [exact HI|apply Hno; discriminate|rewrite waited_app; apply app_nil_r].
  - apply winner_keep; [exact HI|apply Hno; discriminate|reflexivity].
  - apply winner_keep; [exact HI|apply Hno; discriminate|reflexivity].
  - destruct (H1 Ec) as [G1 G2].
    assert (Hback : forall j, closing (set_shut s i HWait (w_status s) true (w_returns s)) j -> j = i).
    { intros j Hj. apply closing_upd in Hj. destruct (Nat.eqb_spec j i) as [Hji|Hji]; [exact Hji|elim (G2 j Hj)]. }
    split; [|split; [|split]]; cbn [set_shut w_closed w_returns].
    + discriminate.
    + intros j k Hj Hk. rewrite (Hback j Hj), (Hback k Hk). reflexivity.
    + exact H3.
    + rewrite G1. intros Hn. elim Hn. reflexivity.
  - rewrite <- Ec. apply winner_keep; [exact HI|apply Hno; discriminate|rewrite waited_app; apply app_nil_r].
  - apply winner_keep; [exact HI| |reflexivity]. intros _. left. exact E.
  - apply winner_keep; [exact HI| |reflexivity]. intros _. left. exact E.
  - assert (Hci : closing s i) by (right; exists b; exact E).
    assert (Hw : waited (w_returns s) = []). { destruct (waited (w_returns s)) eqn:Ew; [reflexivity|]. elim (H4 ltac:(discriminate) i Hci). }
    assert (Hnone : forall rs j, ~ closing (set_shut s i HIdle Shutdowned (w_closed s) rs) j).
    { intros rs j Hj. apply closing_upd in Hj. destruct (Nat.eqb_spec j i) as [Hn|Hn]; [destruct Hj as [D|[b' D]]; discriminate D|]. elim Hn. apply H2; assumption. }
    split; [|split; [|split]]; cbn [set_shut w_closed w_returns].
    + intros Ec. elim (proj2 (H1 Ec) i Hci).
    + intros j k Hj _. elim (Hnone _ j Hj).
    + rewrite waited_app, Hw. destruct b; cbn; lia.
    + intros _ j. apply Hnone.
  - exact (winner_keep s 0 HBegin (w_status s) (w_returns s) HI (Hno HBegin ltac:(discriminate) ltac:(discriminate) 0) eq_refl).
Qed.

(** C70: in every execution at most one Shutdown call (the listener's included) gets to wait for the
    workers, ever; every other call returns at once or panics. *)
Lemma C70_one_call_waits_pf : forall size s, wp_reach size s ->
  length (waited (w_returns s)) <= 1 /\ (forall i j, closing s i -> closing s j -> i = j) /\
  (forall i r, In r (w_returns s) -> snd r = RTimeout \/ snd r = RSuccess -> ~ closing s i).
Proof.
  intros size s Hr. assert (HI : one_winner s).
  { unfold wp_reach in Hr. remember (NewWorkPool size) as s0 eqn:E0. induction Hr as [s|s s' s'' Hr IH Hst].
    - subst s. split; [|split; [|split]]; cbn.
      + intros _. split; [reflexivity|]. intros i [D|[b D]]; discriminate D.
      + intros i j [D|[b D]]; discriminate D.
      + lia.
      + intros Hn. elim Hn. reflexivity.
    - eapply step_winner; [apply IH; exact E0|exact Hst]. }
  destruct HI as (H1 & H2 & H3 & H4). split; [exact H3|]. split; [exact H2|]. intros i r Hin Hr' Hc. apply (H4 ltac:(intros E; assert (In r (waited (w_returns s))) as Hb; [apply filter_In; split; [exact Hin|destruct Hr' as [->| ->]; reflexivity]|rewrite E in Hb; elim Hb]) i Hc).
Qed.

(** ** C99 *)
Definition quiet (s : wp) : Prop := w_cancelled s = false /\ w_returns s = [] /\ forall i, w_shuts s i = HIdle.
Lemma quiet_back s s' : wp_step s s' -> quiet s' -> quiet s.
Proof.
  intros Hs (Q1 & Q2 & Q3).
  assert (Hu : forall i c, (forall j, upd (w_shuts s) i c j = HIdle) -> c = HIdle).
  { intros i c H. specialize (H i). unfold upd in H. rewrite Nat.eqb_refl in H. exact H. }
  destruct Hs as [s' Hd Hw|l1 l2 t Hd E|i t Hd E|i t Hd E Er|i t Hd E Er|i t Hd E Hl|i Hd E|i Hd E Er|i Hd E Er|i Hd E|i Hd E Ec|i Hd E Ec|Hd E Ec|i Hd E|i Hd E Ew|i b Hd E|Hd|Hd E Ec|Hd E Ec];
    cbn in Q1, Q2, Q3; try (split; [assumption|split; assumption]); try (apply Hu in Q3; discriminate Q3); try (apply app_eq_nil in Q2; destruct Q2 as [_ D]; discriminate D).
  - destruct Hw; cbn in Q1, Q2, Q3; (split; [assumption|split; assumption]).
  - discriminate Q1.
Qed.

(** C99: a pool whose context is not cancelled and on which nobody calls Shutdown stays running: its
    channel stays open and no AsyncSubmit panics. *)
Lemma C99_stays_running_pf : forall size s, wp_reach size s -> w_cancelled s = false -> w_returns s = [] -> (forall i, w_shuts s i = HIdle) ->
  w_status s = Running /\ w_closed s = false /\ w_subpanics s = [] /\ w_listen s = LWait.
Proof.
  intros size s Hr Q1 Q2 Q3. assert (Hq : quiet s) by (split; [exact Q1|split; assumption]). clear Q1 Q2 Q3.
  unfold wp_reach in Hr. remember (NewWorkPool size) as s0 eqn:E0. induction Hr as [s|s s' s'' Hr IH Hst]; [subst s; cbn; auto|].
  pose proof (quiet_back _ _ Hst Hq) as Hq'. destruct (IH E0 Hq') as (A1 & A2 & A3 & A4). destruct Hq as (Q1 & Q2 & Q3). destruct Hq' as (P1 & P2 & P3).
  destruct Hst as [s'' Hd Hw|l1 l2 t Hd E|i t Hd E|i t Hd E Er|i t Hd E Er|i t Hd E Hl|i Hd E|i Hd E Er|i Hd E Er|i Hd E|i Hd E Ec|i Hd E Ec|Hd E Ec|i Hd E|i Hd E Ew|i b Hd E|Hd|Hd E Ec|Hd E Ec];
    try (rewrite P3 in E; discriminate E); try (rewrite A1 in Er; elim (Er eq_refl)); try congruence; try (cbn; auto; fail).
  - destruct Hw; cbn; auto.
Qed.

Lemma running_mid ws l1 c l2 : ws = l1 ++ c :: l2 -> flat_map (fun c => match c with WRun t => [t] | _ => [] end) ws =
  flat_map (fun c => match c with WRun t => [t] | _ => [] end) l1 ++ match c with WRun t => [t] | _ => [] end ++ flat_map (fun c => match c with WRun t => [t] | _ => [] end) l2.
Proof. intros ->. rewrite running_app. reflexivity. Qed.
Lemma running_le ws : length (flat_map (fun c => match c with WRun t => [t] | _ => [] end) ws) <= length ws.
Proof. induction ws as [|c ws IH]; [cbn; lia|]. cbn [flat_map]. rewrite app_length. destruct c; cbn; lia. Qed.

(** C99: every step of every execution looks to the users of the pool like no step at all, or like one of
    the bounded queue with at most [size] running tasks. *)
Lemma C99_refines_bounded_queue_pf : forall size s s', wp_reach size s -> wp_step s s' ->
  (w_queue s', running s') = (w_queue s, running s) \/ pool_step size (w_queue s, running s) (w_queue s', running s').
Proof.
  intros size s s' Hr Hs. pose proof (reach_winv _ _ Hr) as HI.
  destruct Hs as [s' Hd Hw|l1 l2 t Hd E|i t Hd E|i t Hd E Er|i t Hd E Er|i t Hd E Hl|i Hd E|i Hd E Er|i Hd E Er|i Hd E|i Hd E Ec|i Hd E Ec|Hd E Ec|i Hd E|i Hd E Ew|i b Hd E|Hd|Hd E Ec|Hd E Ec]; try (left; reflexivity).
  - destruct Hw as [l1 l2 E Hc|l1 l2 E Hc|l1 l2 t q E Eq|l1 l2 t E|l1 l2 E].
    + left. unfold running. cbn [set_work w_ws w_queue]. rewrite (running_mid _ _ _ _ E), (running_mid _ _ _ _ eq_refl). reflexivity.
    + left. unfold running. cbn [set_work w_ws w_queue]. rewrite (running_mid _ _ _ _ E), (running_mid _ _ _ _ eq_refl). reflexivity.
    + right. unfold running. cbn [set_work w_ws w_queue]. rewrite (running_mid _ _ _ _ E), (running_mid _ _ _ _ eq_refl), Eq. cbn [app]. apply ps_begin.
      pose proof (wi_len _ _ HI) as Hl. rewrite E, app_length in Hl. cbn [length] in Hl. rewrite app_length. pose proof (running_le l1). pose proof (running_le l2). lia.
    + right. unfold running. cbn [set_work w_ws w_queue]. rewrite (running_mid _ _ _ _ E), (running_mid _ _ _ _ eq_refl). cbn [app]. apply ps_end.
    + left. unfold running. cbn [set_work w_ws w_queue]. rewrite (running_mid _ _ _ _ E), (running_mid _ _ _ _ eq_refl). reflexivity.
  - right. cbn [set_sub w_queue]. change (running (set_sub s i SIdle (w_queue s ++ [t]) (w_acc s ++ [(i, t)]) (w_subpanics s))) with (running s). apply ps_submit. rewrite <- (wi_size _ _ HI). exact Hl.
Qed.

Lemma free_worker ws : Forall alive ws -> length (flat_map (fun c => match c with WRun t => [t] | _ => [] end) ws) < length ws ->
  exists l1 c l2, ws = l1 ++ c :: l2 /\ (c = WTop \/ c = WRecv).
Proof.
  induction ws as [|c ws IH]; intros Ha Hl; [cbn in Hl; lia|]. inversion Ha as [|? ? [A1 A2] Ha']; subst.
  destruct c as [| |t| |]; try congruence; [exists [], WTop, ws; auto|exists [], WRecv, ws; auto|].
  destruct IH as (l1 & c & l2 & -> & Hc); [exact Ha'|cbn in Hl; lia|]. exists (WRun t :: l1), c, l2. auto.
Qed.

(** C99: and each of these can happen whenever the bounded queue allows it, while the pool is running: a
    submission that finds room is accepted, a queued task is begun when fewer than [size] are running,
    a running one can end. *)
Lemma C99_bounded_queue_is_live_pf : forall size s, wp_reach size s -> w_dead s = false ->
  (forall i t, w_status s = Running -> w_subs s i = SIdle -> length (w_queue s) < size -> exists s', wp_steps s s' /\ w_queue s' = w_queue s ++ [t] /\ running s' = running s) /\
  (forall t q, w_queue s = t :: q -> length (running s) < size -> exists s', wp_steps s s' /\ w_queue s' = q /\ Permutation (running s') (t :: running s)) /\
  (forall t, In t (running s) -> exists s', wp_steps s s' /\ w_queue s' = w_queue s /\ Permutation (running s) (t :: running s')).
Proof.
  intros size s Hr Hd. pose proof (reach_winv _ _ Hr) as HI. split; [|split].
  - intros i t Hst Hi Hl. rewrite <- (wi_size _ _ HI) in Hl.
    pose proof (st_submit s i t Hd Hi) as S1. set (s1 := set_sub s i (SBegin t) _ _ _) in S1.
    assert (E1 : w_subs s1 i = SBegin t) by (cbn; unfold upd; rewrite Nat.eqb_refl; reflexivity).
    pose proof (st_submit_ok s1 i t Hd E1 Hst) as S2. set (s2 := set_sub s1 i (SSend t) _ _ _) in S2.
    assert (E2 : w_subs s2 i = SSend t) by (cbn; unfold upd; rewrite Nat.eqb_refl; reflexivity).
    pose proof (st_submit_send s2 i t Hd E2 Hl) as S3. eexists. split; [eapply wps_cons; [exact S1|]; eapply wps_cons; [exact S2|]; eapply wps_cons; [exact S3|apply wps_refl]|]. split; reflexivity.
  - intros t q Eq Hl. destruct (free_worker (w_ws s) (wi_alive _ _ HI)) as (l1 & c & l2 & E & Hc); [rewrite (wi_len _ _ HI); exact Hl|].
    assert (Hgo : forall s0, w_dead s0 = false -> w_ws s0 = l1 ++ WRecv :: l2 -> w_queue s0 = t :: q -> exists s', wp_steps s0 s' /\ w_queue s' = q /\ Permutation (running s') (t :: running s0)).
    { intros s0 Hd0 E0 Eq0. eexists. split; [eapply wps_cons; [apply st_work; [exact Hd0|apply (ws_recv s0 l1 l2 t q E0 Eq0)]|apply wps_refl]|]. split; [reflexivity|].
      unfold running. cbn [set_work w_ws]. rewrite (running_mid _ _ _ _ E0), (running_mid _ _ _ _ eq_refl). cbn [app]. symmetry. apply Permutation_middle. }
    destruct Hc as [->| ->]; [|apply Hgo; assumption].
    assert (Hsel : exists s1, wp_step s s1 /\ w_dead s1 = false /\ w_ws s1 = l1 ++ WRecv :: l2 /\ w_queue s1 = t :: q /\ running s1 = running s).
    { destruct (w_closed s) eqn:Ec; (eexists; split; [apply st_work; [exact Hd|first [apply (ws_select_closed s l1 l2 E Ec)|apply (ws_select_default s l1 l2 E Ec)]]|]);
        (split; [exact Hd|]; split; [reflexivity|]; split; [exact Eq|]; unfold running; cbn [set_work w_ws]; rewrite (running_mid _ _ _ _ E), (running_mid _ _ _ _ eq_refl); reflexivity). }
    destruct Hsel as (s1 & S1 & D1 & W1 & Q1 & R1). destruct (Hgo s1 D1 W1 Q1) as (s' & S2 & Q2 & P2). exists s'. split; [eapply wps_cons; eassumption|]. split; [exact Q2|]. rewrite <- R1. exact P2.
  - intros t Hin. unfold running in Hin. apply in_flat_map in Hin. destruct Hin as (c & Hc & Ht). destruct c as [| |t'| |]; cbn in Ht; try contradiction. destruct Ht as [->|[]].
    apply in_split in Hc. destruct Hc as (l1 & l2 & E). eexists. split; [eapply wps_cons; [apply st_work; [exact Hd|apply (ws_done s l1 l2 t E)]|apply wps_refl]|]. split; [reflexivity|].
    unfold running. cbn [set_work w_ws]. rewrite (running_mid _ _ _ _ E), (running_mid _ _ _ _ eq_refl). cbn [app]. symmetry. apply Permutation_middle.
Qed.

(** C99: a pool of one worker with a running and a queued task, never shut down. *)
Lemma C99_example_pf : exists s, wp_reach 1 s /\ w_dead s = false /\ w_cancelled s = false /\ w_returns s = [] /\ (forall i, w_shuts s i = HIdle) /\ w_queue s = [71] /\ running s = [70].
Proof.
  eexists. split.
  - unfold wp_reach, NewWorkPool. cbn [repeat].
    go (fun s => st_submit s 5 70). go (fun s => st_submit_ok s 5 70). go (fun s => st_submit_send s 5 70).
    eapply wps_cons; [apply st_work; [reflexivity|apply (ws_select_default _ [] []); reflexivity]|]. eapply wps_cons; [apply st_work; [reflexivity|apply (ws_recv _ [] [] 70 []); reflexivity]|].
    go (fun s => st_submit s 5 71). go (fun s => st_submit_ok s 5 71). go (fun s => st_submit_send s 5 71). apply wps_refl.
  - cbn. repeat split.
Qed.

(** C69, C70: a pool of two workers, shut down by one call; a second call, after the first, returns at
    once; the workers are still there. *)
Lemma C69_example_pf : exists s, wp_reach 2 s /\ w_returns s = [(1, RTimeout); (2, RSkipped)] /\ w_status s = Shutdowned /\ length (w_ws s) = 2.
Proof.
  eexists. split.
  - unfold wp_reach, NewWorkPool. cbn [repeat].
    go (fun s => st_shutdown s 0). go (fun s => st_shut_pass s 1). go (fun s => st_shut_store s 1). go (fun s => st_shut_close s 1).
    go (fun s => st_shut_timeout s 1). go (fun s => st_shut_return s 1 false).
    go (fun s => st_shutdown s 1). eapply wps_cons; [eapply (st_shut_skip _ 2); [reflexivity|reflexivity|discriminate]|]. apply wps_refl.
  - cbn. repeat split.
Qed.
Lemma C70_example_pf : exists s, serial_reach 1 s /\ w_status s = Shutdowned /\ length (waited (w_returns s)) = 1.
Proof.
  assert (H0 : forall s i, (forall j, j <> i -> w_shuts s j = HIdle) -> alone_in s).
  { intros s i H j k [Hj _] [Hk _]. destruct (Nat.eq_dec j i) as [->|Nj]; [|rewrite (H j Nj) in Hj; congruence].
    destruct (Nat.eq_dec k i) as [->|Nk]; [reflexivity|]. rewrite (H k Nk) in Hk. congruence. }
  set (s0 := NewWorkPool 1). set (s1 := set_shut s0 1 HBegin (w_status s0) (w_closed s0) (w_returns s0)).
  set (s2 := set_shut s1 1 HPassed (w_status s1) (w_closed s1) (w_returns s1)).
  set (s3 := set_shut s2 1 HStored Shutdowning (w_closed s2) (w_returns s2)).
  set (s4 := set_shut s3 1 HWait (w_status s3) true (w_returns s3)).
  set (s5 := set_shut s4 1 (HWoken false) (w_status s4) (w_closed s4) (w_returns s4)).
  set (s6 := set_shut s5 1 HIdle Shutdowned (w_closed s5) (w_returns s5 ++ [(1, RTimeout)])).
  assert (E1 : wp_step s0 s1) by (apply (st_shutdown s0 0); reflexivity).
  assert (E2 : wp_step s1 s2) by (apply (st_shut_pass s1 1); reflexivity).
  assert (E3 : wp_step s2 s3) by (apply (st_shut_store s2 1); reflexivity).
  assert (E4 : wp_step s3 s4) by (apply (st_shut_close s3 1); reflexivity).
  assert (E5 : wp_step s4 s5) by (apply (st_shut_timeout s4 1); reflexivity).
  assert (E6 : wp_step s5 s6) by (apply (st_shut_return s5 1 false); reflexivity).
  assert (Hsh : forall j, j <> 1 -> w_shuts s1 j = HIdle /\ w_shuts s2 j = HIdle /\ w_shuts s3 j = HIdle /\ w_shuts s4 j = HIdle /\ w_shuts s5 j = HIdle /\ w_shuts s6 j = HIdle).
  { intros j Hj. cbn. unfold upd. destruct (Nat.eqb_spec j 1); [contradiction|]. repeat split. }
  exists s6. split; [|split; reflexivity].
  eapply sr_step; [|exact E6|apply (H0 _ 1); apply Hsh]. eapply sr_step; [|exact E5|apply (H0 _ 1); apply Hsh].
  eapply sr_step; [|exact E4|apply (H0 _ 1); apply Hsh]. eapply sr_step; [|exact E3|apply (H0 _ 1); apply Hsh].
  eapply sr_step; [|exact E2|apply (H0 _ 1); apply Hsh]. eapply sr_step; [|exact E1|apply (H0 _ 1); apply Hsh]. apply sr_init.
Qed.
