(** LifecyclePf.v -- proofs of C106 (a whole run of the crawler, from bootstrapping to its end). *)
From Verif Require Import Base Node Krpc KrpcPf Dht DhtProofs DhtPf Conc ConcProofs ConcPf StartupPf WorkPool Shutdown ShutdownPf Lifecycle LifecycleSpec LifecycleProofs.
Local Open Scope list_scope.

Lemma server_routes e x : Run_server e = Ok x -> all_routes x.
Proof.
  intros H. destruct (run_server_ok e) as (s' & E & R1 & R2 & R3 & R4 & _). rewrite H in E. injection E as <-.
  split; [exact R1|split; [exact R2|split; [exact R3|split; [exact R4|]]]].
  intros q Hq. destruct (router_agree e x q H) as [Hr _]. rewrite Hr in Hq. destruct (crawler_router q) as [h|] eqn:Er; [|elim Hq; reflexivity].
  destruct (router_cases q h Er) as [[-> _]|[[-> _]|[[-> _]|[-> _]]]]; tauto.
Qed.

(** C106: whenever a handler runs, the server answers all four queries: no packet, not even one that came in while the
    program was bootstrapping, meets a server on which only some handlers are registered.  By then
    every bootstrap host was contacted and the fetch loop runs, and the packet was read from the socket before. *)
Lemma C106_handlers_see_all_routes_pf : forall e hosts tr s t1 p x t2, life_run e hosts tr s -> tr = t1 ++ LvHandle p x :: t2 ->
  all_routes x /\ In LvFetch t1 /\ In LvListen t1 /\ booted t1 = hosts /\ In p (lreads t1).
Proof.
  intros e hosts tr s t1 p x t2 Hr Ht. destruct (run_prefix _ _ _ _ Hr _ _ _ Ht) as (s1 & s2 & Hr1 & Hs & _). clear Hr Ht.
  pose proof (linv_run _ _ _ _ Hr1) as [Hb _ Hv Hf Hl Hj Hq Hp _].
  inversion Hs as [| | | | | | | | | | | | | | | | | |l1 p' l2 He Ej E1 E2| | | | | | | |]; subst.
  assert (Hli : listening (l_run s1)). { destruct (l_run s1); cbn [listening]; try exact I; exfalso; destruct (Hj (fun x => x)) as [Hj' _]; rewrite Hj' in Ej; destruct l1; discriminate. }
  split; [|split; [|split; [|split]]].
  - apply (server_routes e). destruct (l_run s1); try contradiction; symmetry; exact Hv.
  - apply Hf. destruct (l_run s1); try contradiction; exact I.
  - apply Hl. exact Hli.
  - destruct (l_main s1); destruct Hb as [Hb1 Hb2]; try exact Hb1; rewrite Hb2 in Hli; contradiction.
  - rewrite Hq. apply in_app_iff. left. apply (Permutation_in p (Permutation_sym Hp)). apply in_app_iff. right. apply in_app_iff. left. rewrite Ej. apply in_app_iff. right. left. reflexivity.
Qed.

(** C106: packets are dispatched in the order in which they were read, each once; at any moment what was read and not yet
    dispatched is in the queue, at most 100 packets, and in the reader's hands, at most one; what was dispatched and not
    yet handled waits for a worker.  Nothing is dispatched or handled before Listen was entered. *)
Lemma C106_packets_in_order_pf : forall e hosts tr s, life_run e hosts tr s ->
  (exists hand, lreads tr = ltaken tr ++ l_q s ++ hand /\ length hand <= 1) /\ length (l_q s) <= 100 /\
  (exists waiting, Permutation (ltaken tr) (lhandled tr ++ waiting)) /\
  Forall (fun p => length (snd p) <= 1024) (lreads tr) /\
  (~ In LvListen tr -> ltaken tr = [] /\ lhandled tr = []).
Proof.
  intros e hosts tr s Hr. pose proof (linv_run _ _ _ _ Hr) as [_ _ _ _ Hl Hj Hq Hp [Hn1 Hn2]].
  split; [|split; [exact Hn1|split; [|split; [exact Hn2|]]]].
  - eexists. split; [exact Hq|]. destruct (l_read s); cbn; lia.
  - eexists. exact Hp.
  - intros H. destruct Hj as [H1 H2]; [intros Hli; apply H, Hl, Hli|]. split; [exact H2|]. rewrite H2 in Hp.
    apply Permutation_nil in Hp. destruct (lhandled tr); [reflexivity|discriminate].
Qed.

(** C106: the hosts are contacted in the configured order, each once; the program neither listens nor starts fetching nor starts to clean up before
    all of them were. *)
Lemma C106_bootstrap_first_pf : forall e hosts tr s, life_run e hosts tr s ->
  (exists rest, booted tr ++ rest = hosts) /\ (In LvFetch tr \/ In LvListen tr \/ In LvCleaning tr -> booted tr = hosts).
Proof.
  intros e hosts tr s Hr. pose proof (linv_run _ _ _ _ Hr) as [Hb Hw _ Hf Hl _ _ _ _]. pose proof (lsinv_run _ _ _ _ Hr) as [_ _ _ Hc _ _]. split.
  - destruct (l_main s) as [rest| |]; [exists rest; apply Hb|exists []; rewrite app_nil_r; apply Hb|exists []; rewrite app_nil_r; apply Hb].
  - intros H. destruct (l_main s) eqn:Em; [|apply Hb|apply Hb]. exfalso. destruct Hb as [_ Hb]. rewrite Hb in *.
    destruct H as [H|[H|H]].
    + apply Hf in H. exact H.
    + apply Hl in H. exact H.
    + destruct (d_main (l_sd s)) eqn:Ed; cbn [before_cleaning] in Hc; [exact (Hc H)| | | |]; assert (X : LBoot rest = LWaiting) by (apply Hw; discriminate); discriminate X.
Qed.

Lemma exit_facts e hosts t1 b t2 s : life_run e hosts (t1 ++ LvExit b :: t2) s ->
  exists s1, life_run e hosts t1 s1 /\ d_main (l_sd s1) = MReturned b /\ l_end s1 = LAlive.
Proof.
  intros Hr. destruct (run_prefix _ _ _ _ Hr _ _ _ eq_refl) as (s1 & s2 & Hr1 & Hs & _). exists s1. split; [exact Hr1|].
  inversion Hs; subst; auto.
Qed.

(** C106: the program ends by itself only because of a signal, and only after every bootstrap host was contacted: a signal that arrives
    while it is bootstrapping takes effect afterwards. *)
Lemma C106_exit_needs_signal_pf : forall e hosts tr s t1 b t2, life_run e hosts tr s -> tr = t1 ++ LvExit b :: t2 ->
  In LvSignal t1 /\ In LvCleaning t1 /\ booted t1 = hosts.
Proof.
  intros e hosts tr s t1 b t2 Hr ->. destruct (exit_facts _ _ _ _ _ _ Hr) as (s1 & Hr1 & Em & _).
  pose proof (linv_run _ _ _ _ Hr1) as Hi. pose proof (lsinv_run _ _ _ _ Hr1) as Hsi. pose proof (li_cleaning _ _ Hsi) as Hc. rewrite Em in Hc.
  split; [|split; [exact Hc|]].
  - destruct (li_sd _ _ Hsi) as (Hd & _ & Hcan). destruct (C72_status_pf _ Hd) as (_ & _ & _ & H). destruct H as [H|H]; [rewrite Em; discriminate|congruence|].
    apply (li_sig _ _ Hsi). exact H.
  - eapply (proj2 (C106_bootstrap_first_pf _ _ _ _ Hr1)). tauto.
Qed.

(** C106: nothing happens after the end of the program. *)
Lemma C106_end_is_final_pf : forall e hosts tr s t1 v t2, life_run e hosts tr s -> tr = t1 ++ v :: t2 -> (exists b, v = LvExit b) \/ v = LvCrash -> t2 = [].
Proof.
  intros e hosts tr s t1 v t2 Hr. revert t1 v t2. 
  assert (H : forall t1 v t2, tr = t1 ++ v :: t2 -> (exists b, v = LvExit b) \/ v = LvCrash -> t2 = [] /\ l_end s <> LAlive).
  { induction Hr as [|tr s w s' Hr IH Hs]; intros t1 v t2 Ht Hv; [destruct t1; discriminate|].
    apply snoc_split in Ht as [(-> & -> & ->)|(b' & -> & E)].
    - split; [reflexivity|]. inversion Hs; subst; try (destruct Hv as [[? Hv]|Hv]; discriminate); cbn; discriminate.
    - destruct (IH _ _ _ E Hv) as [_ H]. exfalso. inversion Hs; contradiction. }
  intros t1 v t2 Ht Hv. exact (proj1 (H _ _ _ Ht Hv)).
Qed.

(** C106: once the socket is closed, no datagram is read; it is closed at most once, and only after a signal. *)
Lemma C106_no_read_after_close_pf : forall e hosts tr s t1 t2, life_run e hosts tr s -> tr = t1 ++ LvClosed :: t2 ->
  lreads t2 = [] /\ ~ In LvClosed t2 /\ In LvSignal t1.
Proof.
  intros e hosts tr s t1 t2 Hr ->.
  assert (Hk : forall a v b, t2 = a ++ v :: b -> (forall p, v <> LvRead p) /\ v <> LvClosed).
  { intros a v b ->. rewrite app_comm_cons, app_assoc in Hr. destruct (run_prefix _ _ _ _ Hr _ _ _ eq_refl) as (s1 & s2 & Hr1 & Hs & _).
    pose proof (lcinv_run _ _ _ _ Hr1) as Hc. assert (Hsock : l_sock s1 = false) by (apply (li_sock _ _ Hc), in_app_iff; right; left; reflexivity).
    split; [intros p ->|intros ->]; inversion Hs; subst; [congruence|]. pose proof (li_close _ _ Hc) as K. match goal with H : l_close s1 = _ |- _ => rewrite H in K end. destruct K as (_ & _ & _ & _ & K). congruence. }
  split; [|split].
  - destruct (lreads t2) as [|p l] eqn:E; [reflexivity|]. exfalso. assert (Hin : In p (lreads t2)) by (rewrite E; left; reflexivity).
    apply in_flat_map in Hin as (v & Hv & Hp). apply in_split in Hv as (a & b & ->). destruct (Hk a v b eq_refl) as [H _]. destruct v; try contradiction. elim (H p0). reflexivity.
  - intros H. apply in_split in H as (a & b & E). destruct (Hk _ _ _ E) as [_ H]. apply H. reflexivity.
  - destruct (run_prefix _ _ _ _ Hr _ _ _ eq_refl) as (s1 & s2 & Hr1 & Hs & _). pose proof (lsinv_run _ _ _ _ Hr1) as Hsi. pose proof (lcinv_run _ _ _ _ Hr1) as Hc.
    inversion Hs; subst. pose proof (li_close _ _ Hc) as K. match goal with H : l_close s1 = _ |- _ => rewrite H in K end. destruct K as (_ & K & _).
    destruct (li_sd _ _ Hsi) as (Hd & _ & Hcan). destruct (C72_status_pf _ Hd) as (Hw & _ & _ & Hx).
    destruct (d_main (l_sd s1)) eqn:Em; [destruct Hw as [_ Hw]; [auto|]; rewrite Hw in K; discriminate| | | |]; (destruct Hx as [Hx|Hx]; [discriminate|congruence|apply (li_sig _ _ Hsi); exact Hx]).
Qed.

(** C106: if the program was listening when the clean-up started and it ends reporting that the clean-up finished, the socket was closed before. *)
Lemma C106_clean_exit_closes_pf : forall e hosts tr s t1 t2, life_run e hosts tr s -> tr = t1 ++ LvExit true :: t2 -> before LvListen LvCleaning tr -> In LvClosed t1.
Proof.
  intros e hosts tr s t1 t2 Hr Ht (a & b & c & Hab). pose proof Hr as Hr0. rewrite Ht in Hr. destruct (exit_facts _ _ _ _ _ _ Hr) as (s1 & Hr1 & Em & _).
  assert (Ht2 : t2 = []). { eapply C106_end_is_final_pf; [exact Hr0|exact Ht|left; eexists; reflexivity]. } subst t2.
  pose proof (linv_run _ _ _ _ Hr1) as Hi. pose proof (lsinv_run _ _ _ _ Hr1) as Hsi. pose proof (lcinv_run _ _ _ _ Hr1) as Hci.
  (* the trace before the exit *)
  assert (Hab1 : exists c', t1 = a ++ LvListen :: b ++ LvCleaning :: c').
  { rewrite Ht in Hab. rewrite app_comm_cons, app_assoc in Hab. apply snoc_split in Hab as [(_ & E & _)|(c' & _ & E)]; [discriminate|]. exists c'. rewrite E, <- app_assoc. reflexivity. }
  destruct Hab1 as (c' & Hab1).
  assert (Hl : d_late (l_sd s1) = false).
  { destruct (d_late (l_sd s1)) eqn:El; [|reflexivity]. exfalso. destruct (li_late _ _ Hsi El) as [_ H]. pose proof (H _ _ Hab1) as Hin.
    rewrite app_comm_cons, app_assoc in Hab1. destruct (run_prefix _ _ _ _ Hr1 _ _ _ Hab1) as (s2 & s3 & Hr2 & Hs & _).
    pose proof (li_cleaning _ _ (lsinv_run _ _ _ _ Hr2)) as Hcl. inversion Hs; subst. match goal with H : d_main (l_sd s2) = _ |- _ => rewrite H in Hcl end.
    apply Hcl. apply in_app_iff. left. exact Hin. }
  destruct (li_sd _ _ Hsi) as (Hd & _ & _). destruct (C72_success_means_clean_pf _ Hd Hl) as [Hok _]. destruct (Hok Em) as [Hcalls _].
  assert (Hcl : d_cleans (l_sd s1) = [0]).
  { apply (li_cleans _ _ Hsi). assert (Hli : listening (l_run s1)) by (apply (li_listen _ _ _ _ Hi); rewrite Hab1; apply in_app_iff; right; left; reflexivity). destruct (l_run s1); try contradiction; exact I. }
  assert (Hend : Permutation (d_ended (l_sd s1)) (d_cleans (l_sd s1))) by (apply (Hok Em)). rewrite Hcl in Hend. apply Permutation_sym, Permutation_length_1_inv in Hend.
  apply (li_sock _ _ Hci). pose proof (li_close _ _ Hci) as K. rewrite Hend in K. destruct (l_close s1); [destruct K as (_ & K & _); discriminate|destruct K as (_ & _ & K & _); discriminate|destruct K as (_ & _ & K & _); discriminate|]. apply K.
Qed.

(** Steps of a run, as a function of what came before. *)
Definition lsteps (e : env) (hosts : list bytes) (s : life) (ext : list lev) (s' : life) : Prop := forall tr, life_run e hosts tr s -> life_run e hosts (tr ++ ext) s'.
Lemma lss_nil e hosts s : lsteps e hosts s [] s. Proof. intros tr H. rewrite app_nil_r. exact H. Qed.
Lemma lss_cons e hosts a v b ext c : life_step e a v b -> lsteps e hosts b ext c -> lsteps e hosts a (v :: ext) c.
Proof. intros H1 H2 tr H. replace (tr ++ v :: ext) with ((tr ++ [v]) ++ ext) by (rewrite <- app_assoc; reflexivity). apply H2. eapply lr_step; eassumption. Qed.
Lemma lss_app e hosts a x b y c : lsteps e hosts a x b -> lsteps e hosts b y c -> lsteps e hosts a (x ++ y) c.
Proof. intros H1 H2 tr H. rewrite app_assoc. apply H2, H1, H. Qed.

(** C106: after a signal, a program that has bootstrapped can always end within five steps of its main goroutine, whatever the other goroutines do
    or wait for: no full queue, slow handler or hanging clean function can prevent it. *)
Lemma C106_signal_can_end_it_pf : forall e hosts tr s, life_run e hosts tr s -> l_end s = LAlive -> l_main s = LWaiting -> In LvSignal tr ->
  exists ext b s', life_run e hosts (tr ++ ext ++ [LvExit b]) s' /\ length ext <= 4 /\ Forall (fun v => v = LvTau \/ v = LvCleaning) ext.
Proof.
  intros e hosts tr s Hr Ha Hm Hsig. pose proof (lsinv_run _ _ _ _ Hr) as Hsi. apply (li_sig _ _ Hsi) in Hsig. clear Hsi.
  assert (H4 : forall s b, l_end s = LAlive -> d_main (l_sd s) = MReturned b -> exists s', lsteps e hosts s [LvExit b] s').
  { intros s0 b A M. eexists. eapply lss_cons; [apply lf_exit; eassumption|apply lss_nil]. }
  assert (H3 : forall s b, l_end s = LAlive -> l_main s = LWaiting -> d_main (l_sd s) = MWoken b -> exists s', lsteps e hosts s ([LvTau] ++ [LvExit b]) s').
  { intros s0 b A W M. edestruct (H4 (ls_sd s0 (l_run s0) (set_main (l_sd s0) (MReturned b) Shutdowned (d_run (l_sd s0))) (l_close s0))) as (s' & Hs'); [exact A|reflexivity|].
    exists s'. eapply lss_cons; [|exact Hs']. apply lf_wait; [exact A|exact W|]. apply so_return. exact M. }
  assert (H2 : forall s, l_end s = LAlive -> l_main s = LWaiting -> d_main (l_sd s) = MSelect -> exists s', lsteps e hosts s ([LvTau; LvTau] ++ [LvExit false]) s').
  { intros s0 A W M. destruct (H3 (ls_sd s0 (l_run s0) (set_main (l_sd s0) (MWoken false) (d_status (l_sd s0)) (d_run (l_sd s0))) (l_close s0)) false) as (s' & Hs'); [exact A|exact W|reflexivity|].
    exists s'. eapply lss_cons; [|exact Hs']. apply lf_wait; [exact A|exact W|]. apply so_timeout. exact M. }
  assert (H1 : forall s, l_end s = LAlive -> l_main s = LWaiting -> d_main (l_sd s) = MGot -> exists s', lsteps e hosts s ([LvCleaning; LvTau; LvTau] ++ [LvExit false]) s').
  { intros s0 A W M. destruct (H2 (ls_sd s0 (l_run s0) (set_main (l_sd s0) MSelect Shutdowning RAdd) (l_close s0))) as (s' & Hs'); [exact A|exact W|reflexivity|].
    exists s'. eapply lss_cons; [|exact Hs']. apply lf_begin; [exact A|exact M]. }
  destruct (d_main (l_sd s)) as [| | |b|b] eqn:Ed.
  - destruct (H1 (ls_sd s (l_run s) (set_main (l_sd s) MGot (d_status (l_sd s)) (d_run (l_sd s))) (l_close s))) as (s' & Hs'); [exact Ha|exact Hm|reflexivity|].
    exists [LvTau; LvCleaning; LvTau; LvTau], false, s'. split; [|split; [cbn; lia|repeat (constructor; [tauto|]); constructor]].
    cbn [app]. eapply lss_cons; [|exact Hs'|exact Hr]. apply lf_wait; [exact Ha|exact Hm|]. apply so_wake; [exact Ed|right; exact Hsig].
  - destruct (H1 s Ha Hm Ed) as (s' & Hs'). exists [LvCleaning; LvTau; LvTau], false, s'. split; [exact (Hs' _ Hr)|split; [cbn; lia|repeat (constructor; [tauto|]); constructor]].
  - destruct (H2 s Ha Hm Ed) as (s' & Hs'). exists [LvTau; LvTau], false, s'. split; [exact (Hs' _ Hr)|split; [cbn; lia|repeat (constructor; [tauto|]); constructor]].
  - destruct (H3 s b Ha Hm Ed) as (s' & Hs'). exists [LvTau], b, s'. split; [exact (Hs' _ Hr)|split; [cbn; lia|repeat (constructor; [tauto|]); constructor]].
  - destruct (H4 s b Ha Ed) as (s' & Hs'). exists [], b, s'. split; [exact (Hs' _ Hr)|split; [cbn; lia|constructor]].
Qed.

(** C106: a second signal changes nothing: it neither speeds up the end nor kills the program. *)
Lemma C106_second_signal_ignored_pf : forall e hosts tr s s', life_run e hosts tr s -> In LvSignal tr -> life_step e s LvSignal s' -> s' = s.
Proof.
  intros e hosts tr s s' Hr Hsig Hs. apply (li_sig _ _ (lsinv_run _ _ _ _ Hr)) in Hsig. inversion Hs; subst. destruct s as [a b c d ? ? ? ? ? ? ?], d. cbn in *. rewrite Hsig. reflexivity.
Qed.

Ltac lcb := cbn [life_init l_main l_run l_srv l_sd l_read l_q l_jobs l_close l_closed l_sock l_end ls_main ls_srv ls_sd ls_net ls_close ls_end set_env set_main set_run d_status d_cancelled d_signalled d_cleans d_main d_run d_gos d_wg d_calls d_ended d_late d_dead WithShutdownContext app started_running orb length Nat.add].
Ltac lgo c := eapply lss_cons; [eapply c; first [reflexivity | discriminate | (cbn; unfold LRecvChanLen; lia)]|lcb].
Tactic Notation "lgw" tactic(t) := eapply lss_cons; [t|lcb].
Transparent RegisteHandler registrations.
Lemma reg_steps e hosts s : l_end s = LAlive -> l_run s = LrReg registrations -> exists x, lsteps e hosts s [LvTau; LvTau; LvTau; LvTau; LvTau] (ls_srv s LrFetch x).
Proof.
  intros A R. eexists.
  eapply lss_cons; [eapply lf_register; [exact A|exact R|cbv; reflexivity]|].
  eapply lss_cons; [eapply lf_register; [exact A|reflexivity|cbv; reflexivity]|].
  eapply lss_cons; [eapply lf_register; [exact A|reflexivity|cbv; reflexivity]|].
  eapply lss_cons; [eapply lf_register; [exact A|reflexivity|cbv; reflexivity]|].
  eapply lss_cons; [eapply lf_registered; [exact A|reflexivity]|]. apply lss_nil.
Qed.
Opaque RegisteHandler registrations.
Lemma from_init e hosts ext s : lsteps e hosts (life_init hosts) ext s -> life_run e hosts ext s.
Proof. intros H. apply (H []). constructor. Qed.

Definition lx_p : udpaddr * bytes := (mkaddr [] 1, B "ping").
Definition lx_q : udpaddr * bytes := (mkaddr [] 2, B "pong").
Definition lx_host : bytes := B "host".

(** C106: an example: a datagram arrives during bootstrapping; it is handled later, with all routes; the program is stopped
    by a signal, closes the socket and ends. *)
Lemma C106_example_pf : forall e, exists tr s x, life_run e [lx_host] tr s /\ l_end s = LExited /\
  tr = [LvTau; LvRead lx_p; LvTau; LvBoot lx_host; LvTau; LvTau; LvTau; LvTau; LvTau; LvTau; LvTau; LvFetch; LvTau; LvListen; LvTaken lx_p; LvTau; LvHandle lx_p x;
    LvSignal; LvTau; LvCleaning; LvTau; LvTau; LvTau; LvTau; LvTau; LvTau; LvClosed; LvTau; LvTau; LvTau; LvTau; LvTau; LvExit true] /\ before LvListen LvCleaning tr.
Proof.
  intros e.
  destruct (reg_steps e [lx_host] {| l_main := LWaiting; l_run := LrReg registrations; l_srv := NewRpcServer (H:=hid); l_sd := WithShutdownContext; l_read := LdTop; l_q := [lx_p]; l_jobs := [];
     l_close := LcIdle; l_closed := false; l_sock := true; l_end := LAlive |} eq_refl eq_refl) as (x & Hx).
  eexists. eexists. exists x. split; [|split; [|split; [reflexivity|]]].
  - apply from_init. unfold life_init.
    lgo (fun s => lf_top e s). lgo (fun s => lf_read e s lx_p). lgo (fun s => lf_send e s lx_p). lgo (fun s => lf_boot e s lx_host []). lgo (fun s => lf_booted e s). lgo (fun s => lf_go e s).
    refine (lss_app _ _ _ [LvTau; LvTau; LvTau; LvTau; LvTau] _ _ _ Hx _). unfold ls_srv. cbn [l_main l_run l_srv l_sd l_read l_q l_jobs l_close l_closed l_sock l_end].
    lgo (fun s => lf_fetch e s). lgo (fun s => lf_clean e s). lgo (fun s => lf_listen e s). lgo (fun s => lf_take e s lx_p []). lgo (fun s => lf_submit e s lx_p). lgo (fun s => lf_handle e s [] lx_p []).
    lgo (fun s => lf_signal e s).
    lgw (apply lf_wait; [reflexivity|reflexivity|]; apply so_wake; [reflexivity|right; reflexivity]).
    lgo (fun s => lf_begin e s).
    lgw (apply lf_wait; [reflexivity|reflexivity|]; apply so_add; reflexivity).
    lgw (apply lf_wait; [reflexivity|reflexivity|]; apply so_range; reflexivity).
    lgw (apply lf_wait; [reflexivity|reflexivity|]; eapply so_launch; reflexivity).
    lgw (apply lf_wait; [reflexivity|reflexivity|]; apply so_launched; reflexivity).
    lgw (apply (lf_call e _ [] 0 []); reflexivity).
    lgo (fun s => lf_store e s). lgo (fun s => lf_conn e s).
    lgw (apply (lf_cleaned e _ [] 0 []); reflexivity).
    lgw (apply lf_wait; [reflexivity|reflexivity|]; apply (so_done _ [] 0 [] 0); reflexivity).
    lgw (apply lf_wait; [reflexivity|reflexivity|]; apply so_waited; reflexivity).
    lgw (apply lf_wait; [reflexivity|reflexivity|]; apply so_meet; reflexivity).
    lgw (apply lf_wait; [reflexivity|reflexivity|]; apply (so_return _ true); reflexivity).
    lgo (fun s => lf_exit e s true). apply lss_nil.
  - reflexivity.
  - exists [LvTau; LvRead lx_p; LvTau; LvBoot lx_host; LvTau; LvTau; LvTau; LvTau; LvTau; LvTau; LvTau; LvFetch; LvTau], [LvTaken lx_p; LvTau; LvHandle lx_p x; LvSignal; LvTau]. eexists. reflexivity.
Qed.

(** C106: what a user might expect of the end is false.  A signal that arrives early: the program
    reports a finished clean-up and ends without having closed the socket. *)
Lemma C106_early_signal_leaves_open_refuted_pf : forall e, exists tr s, life_run e [lx_host] tr s /\ In (LvExit true) tr /\ ~ In LvClosed tr /\ In LvSignal tr.
Proof.
  intros e. exists [LvSignal; LvBoot lx_host; LvTau; LvTau; LvTau; LvCleaning; LvTau; LvTau; LvTau; LvTau; LvTau; LvTau; LvExit true]. eexists. split; [|split; [cbn; tauto|split; [cbn; intuition discriminate|cbn; tauto]]].
  apply from_init. unfold life_init.
  lgo (fun s => lf_signal e s). lgo (fun s => lf_boot e s lx_host []). lgo (fun s => lf_booted e s). lgo (fun s => lf_go e s).
  lgw (apply lf_wait; [reflexivity|reflexivity|]; apply so_wake; [reflexivity|right; reflexivity]).
  lgo (fun s => lf_begin e s).
  lgw (apply lf_wait; [reflexivity|reflexivity|]; apply so_add; reflexivity).
  lgw (apply lf_wait; [reflexivity|reflexivity|]; apply so_range; reflexivity).
  lgw (apply lf_wait; [reflexivity|reflexivity|]; eapply so_launched; reflexivity).
  lgw (apply lf_wait; [reflexivity|reflexivity|]; apply so_waited; reflexivity).
  lgw (apply lf_wait; [reflexivity|reflexivity|]; apply so_meet; reflexivity).
  lgw (apply lf_wait; [reflexivity|reflexivity|]; apply (so_return _ true); reflexivity).
  lgo (fun s => lf_exit e s true). apply lss_nil.
Qed.

(** C106: such a signal can even make the program panic, although every host was contacted: the clean function is registered between the count and
    the launch, and the counter of the wait group becomes negative. *)
Lemma C106_early_signal_crash_refuted_pf : forall e, exists tr s, life_run e [lx_host] tr s /\ In LvCrash tr /\ booted tr = [lx_host].
Proof.
  intros e.
  destruct (reg_steps e [lx_host] {| l_main := LWaiting; l_run := LrReg registrations; l_srv := NewRpcServer (H:=hid); l_sd := set_env WithShutdownContext false true [] false; l_read := LdTop; l_q := []; l_jobs := [];
     l_close := LcIdle; l_closed := false; l_sock := true; l_end := LAlive |} eq_refl eq_refl) as (x & Hx).
  exists [LvSignal; LvBoot lx_host; LvTau; LvTau; LvTau; LvTau; LvTau; LvTau; LvTau; LvFetch; LvTau; LvCleaning; LvTau; LvTau; LvTau; LvTau; LvTau; LvTau; LvClosed; LvTau; LvCrash]. eexists. split; [|split; [cbn; tauto|reflexivity]].
  apply from_init. unfold life_init.
  lgo (fun s => lf_signal e s). lgo (fun s => lf_boot e s lx_host []). lgo (fun s => lf_booted e s). lgo (fun s => lf_go e s).
  refine (lss_app _ _ _ [LvTau; LvTau; LvTau; LvTau; LvTau] _ _ _ Hx _). unfold ls_srv. cbn [l_main l_run l_srv l_sd l_read l_q l_jobs l_close l_closed l_sock l_end].
  lgo (fun s => lf_fetch e s).
  lgw (apply lf_wait; [reflexivity|reflexivity|]; apply so_wake; [reflexivity|right; reflexivity]).
  lgo (fun s => lf_begin e s).
  lgw (apply lf_wait; [reflexivity|reflexivity|]; apply so_add; reflexivity).
  lgo (fun s => lf_clean e s).
  lgw (apply lf_wait; [reflexivity|reflexivity|]; apply so_range; reflexivity).
  lgw (apply lf_wait; [reflexivity|reflexivity|]; eapply so_launch; reflexivity).
  lgw (apply (lf_call e _ [] 0 []); reflexivity).
  lgo (fun s => lf_store e s). lgo (fun s => lf_conn e s).
  lgw (apply (lf_cleaned e _ [] 0 []); reflexivity).
  lgw (apply (lf_negative e _ [] 0 []); reflexivity). apply lss_nil.
Qed.

(** C106: a finished clean-up does not mean that the packets read so far were handled: one queued when the signal comes is lost.  And a handler can run after the socket was closed. *)
Lemma C106_packets_lost_refuted_pf : forall e, exists tr s x, life_run e [] tr s /\ In (LvExit true) tr /\ before LvListen LvSignal tr /\ before LvClosed (LvHandle lx_p x) tr /\ In (LvRead lx_q) tr /\ ~ In lx_q (lhandled tr).
Proof.
  intros e.
  destruct (reg_steps e [] {| l_main := LWaiting; l_run := LrReg registrations; l_srv := NewRpcServer (H:=hid); l_sd := WithShutdownContext; l_read := LdTop; l_q := []; l_jobs := [];
     l_close := LcIdle; l_closed := false; l_sock := true; l_end := LAlive |} eq_refl eq_refl) as (x & Hx).
  exists ([LvTau; LvTau; LvTau; LvTau; LvTau; LvTau; LvTau; LvFetch; LvTau; LvListen; LvTau; LvRead lx_p; LvTau; LvTaken lx_p; LvTau; LvTau; LvRead lx_q; LvTau; LvSignal; LvTau; LvCleaning; LvTau; LvTau; LvTau; LvTau; LvTau; LvTau; LvClosed; LvHandle lx_p x; LvTau; LvTau; LvTau; LvTau; LvTau; LvExit true]). eexists. exists x.
  split; [|split; [cbn; tauto|split; [|split; [|split; [cbn; tauto|cbn; intuition discriminate]]]]].
  - apply from_init. unfold life_init. lgo (fun s => lf_booted e s). lgo (fun s => lf_go e s).
    refine (lss_app _ _ _ [LvTau; LvTau; LvTau; LvTau; LvTau] _ _ _ Hx _). unfold ls_srv. cbn [l_main l_run l_srv l_sd l_read l_q l_jobs l_close l_closed l_sock l_end].
    lgo (fun s => lf_fetch e s). lgo (fun s => lf_clean e s). lgo (fun s => lf_listen e s). lgo (fun s => lf_top e s). lgo (fun s => lf_read e s lx_p). lgo (fun s => lf_send e s lx_p). lgo (fun s => lf_take e s lx_p []). lgo (fun s => lf_submit e s lx_p).
    lgo (fun s => lf_top e s). lgo (fun s => lf_read e s lx_q). lgo (fun s => lf_send e s lx_q).
    lgo (fun s => lf_signal e s).
    lgw (apply lf_wait; [reflexivity|reflexivity|]; apply so_wake; [reflexivity|right; reflexivity]).
    lgo (fun s => lf_begin e s).
    lgw (apply lf_wait; [reflexivity|reflexivity|]; apply so_add; reflexivity).
    lgw (apply lf_wait; [reflexivity|reflexivity|]; apply so_range; reflexivity).
    lgw (apply lf_wait; [reflexivity|reflexivity|]; eapply so_launch; reflexivity).
    lgw (apply lf_wait; [reflexivity|reflexivity|]; apply so_launched; reflexivity).
    lgw (apply (lf_call e _ [] 0 []); reflexivity).
    lgo (fun s => lf_store e s). lgo (fun s => lf_conn e s).
    lgo (fun s => lf_handle e s [] lx_p []).
    lgw (apply (lf_cleaned e _ [] 0 []); reflexivity).
    lgw (apply lf_wait; [reflexivity|reflexivity|]; apply (so_done _ [] 0 [] 0); reflexivity).
    lgw (apply lf_wait; [reflexivity|reflexivity|]; apply so_waited; reflexivity).
    lgw (apply lf_wait; [reflexivity|reflexivity|]; apply so_meet; reflexivity).
    lgw (apply lf_wait; [reflexivity|reflexivity|]; apply (so_return _ true); reflexivity).
    lgo (fun s => lf_exit e s true). apply lss_nil.
  - eexists [LvTau; LvTau; LvTau; LvTau; LvTau; LvTau; LvTau; LvFetch; LvTau], [LvTau; LvRead lx_p; LvTau; LvTaken lx_p; LvTau; LvTau; LvRead lx_q; LvTau], _. reflexivity.
  - eexists [LvTau; LvTau; LvTau; LvTau; LvTau; LvTau; LvTau; LvFetch; LvTau; LvListen; LvTau; LvRead lx_p; LvTau; LvTaken lx_p; LvTau; LvTau; LvRead lx_q; LvTau; LvSignal; LvTau; LvCleaning; LvTau; LvTau; LvTau; LvTau; LvTau; LvTau], [], _. reflexivity.
Qed.
