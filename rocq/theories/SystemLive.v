(** SystemLive.v -- executions of the whole process that drain it, and executions that block it (for C98). *)
From Coq Require Import Permutation.
From Verif Require Import Base GoLib Bencode BencodeSpec BencodeProofs BencodePf Types Node RouteTable Middleware Krpc KrpcSpec KrpcProofs KrpcPf Dht DhtSpec DhtPf Conc ConcSpec ConcProofs ConcPf BytesPool Sha1 PeerWire Fetch FetchPf FetchTorrent FetchTorrentSpec FetchTorrentPf Udp System SystemSpec SystemProofs.
Local Open Scope list_scope.

Lemma ss_trans e me z s1 s2 s3 : sys_steps e me z s1 s2 -> sys_steps e me z s2 s3 -> sys_steps e me z s1 s3.
Proof. intros H1 H2. induction H2 as [|s2 s3 s4 H2 IH Hst]; [exact H1|eapply yss_step; [apply IH; exact H1|exact Hst]]. Qed.
Lemma ss_one e me z s1 s2 : sys_step e me z s1 s2 -> sys_steps e me z s1 s2.
Proof. intros H. eapply yss_step; [constructor|exact H]. Qed.
Lemma ss_reach e me local hosts z d0 s s' : sys_reach e me local hosts z d0 s -> sys_steps e me z s s' -> sys_reach e me local hosts z d0 s'.
Proof. intros H1 H2. induction H2 as [|s2 s3 s4 H2 IH Hst]; [exact H1|eapply yr_step; [apply IH; exact H1|exact Hst]]. Qed.

(** A handler running on its own. *)
Lemma run_core e k me z pk w pc w' pc' v : job_run (e k) me (z_ann z) pk w pc w' pc' v -> forall s l1 i l2, y_dead s = false -> k_world (y_core s) = w -> k_jobs (y_core s) = l1 ++ (i, pk, pc) :: l2 ->
  sys_steps e me z s (set_in s (y_recv s) (y_q s) (y_listen s) (y_pool s)
    {| k_world := w'; k_jobs := l1 ++ (i, pk, pc') :: l2; k_next := k_next (y_core s); k_taken := k_taken (y_core s); k_log := k_log (y_core s) ++ map (pair i) v |} (y_read s)).
Proof.
  intros Hr. induction Hr as [w pc|w pc w1 pc1 v1 w2 pc2 v2 Hs Hr IH]; intros s l1 i l2 Hd Hw Hj.
  - cbn [map]. rewrite app_nil_r, <- Hj, <- Hw. destruct s as [? ? ? ? ? c]. destruct c. constructor.
  - set (c1 := {| k_world := w1; k_jobs := l1 ++ (i, pk, pc1) :: l2; k_next := k_next (y_core s); k_taken := k_taken (y_core s); k_log := k_log (y_core s) ++ map (pair i) v1 |}).
    assert (Hc : core_step e me (z_ann z) (y_core s) c1) by (eapply co_job with (k := k); [exact Hj|rewrite Hw; exact Hs]).
    eapply ss_trans; [apply ss_one; apply ys_core; [exact Hd|exact Hc]|].
    specialize (IH (set_in s (y_recv s) (y_q s) (y_listen s) (y_pool s) c1 (y_read s)) l1 i l2 Hd eq_refl eq_refl).
    sysredin IH. unfold c1 in IH. cbn [k_next k_taken k_log] in IH. rewrite <- app_assoc, <- map_app in IH. exact IH.
Qed.

(** ** Draining *)
Definition up (s : sys) : nat :=
  5 * length (opt (y_recv s)) + 4 * length (y_q s) + 3 * length (opt (y_listen s)) + 2 * length (y_pool s) + length (k_jobs (y_core s)).
Definition run_weight (u : frun) : nat := length (u_left u) + (if u_busy u then if stuck u then 0 else 1 else 0).
Definition down (s : sys) : nat :=
  6 * length (a_queue (w_app (k_world (y_core s)))) + 5 * length (opt (y_fetch s)) + 4 * length (y_fpool s) + 3 * length (y_loads s) + list_sum (map run_weight (y_runs s)).

Lemma sum_split l1 u l2 : list_sum (map run_weight (l1 ++ u :: l2)) = run_weight u + list_sum (map run_weight (l1 ++ l2)).
Proof. rewrite !map_app, !list_sum_app. cbn [map list_sum fold_right]. unfold list_sum. lia. Qed.
Lemma sum_pos l : 0 < list_sum (map run_weight l) -> exists l1 u l2, l = l1 ++ u :: l2 /\ 0 < run_weight u.
Proof.
  induction l as [|u l IH]; cbn [map]; intros H; [cbn in H; lia|]. destruct (run_weight u) as [|n] eqn:E.
  - destruct IH as (l1 & v & l2 & -> & Hv); [cbn [list_sum fold_right] in H; unfold list_sum; lia|]. exists (u :: l1), v, l2. auto.
  - exists [], u, l. split; [reflexivity|lia].
Qed.
Lemma hung_split s l1 u l2 : y_runs s = l1 ++ u :: l2 -> length (hung s) = length (filter stuck (l1 ++ l2)) + (if stuck u then 1 else 0).
Proof. intros E. unfold hung. rewrite E. apply filter_split. Qed.
Lemma busy_hung s : y_loads s = [] -> list_sum (map run_weight (y_runs s)) = 0 -> busy s = length (hung s).
Proof.
  intros Hl Hs. unfold busy, hung. rewrite Hl. cbn [length Nat.add]. revert Hs. generalize (y_runs s). induction l as [|u l IH]; intros Hs; [reflexivity|].
  cbn [map] in Hs. change (list_sum (run_weight u :: map run_weight l)) with (run_weight u + list_sum (map run_weight l)) in Hs. specialize (IH ltac:(lia)).
  assert (Hu : run_weight u = 0) by lia. unfold run_weight in Hu. cbn [filter]. assert (Es : stuck u = true -> u_busy u = true) by (unfold stuck; intros H; apply andb_true_iff in H; apply H).
  destruct (u_busy u) eqn:Eb, (stuck u) eqn:E2; cbn [length]; lia.
Qed.

(** A download whose connection attempt fails. *)
Lemma dial_fails o x : exists fe p h dial, t_res (fetchHandler fe p h dial o x) = FOk tt /\ t_ops (fetchHandler fe p h dial o x) = [].
Proof.
  exists calm0, pool0, heap0, (fun _ => None). unfold fetchHandler. destruct (bind _ _) as [[ih a]| |]; cbn; auto.
Qed.

Definition calm (s s' : sys) : Prop := y_dead s' = false /\ length (hung s') = length (hung s) /\ y_read s' = y_read s.

Lemma down_step e me z s : y_dead s = false -> length (hung s) < z_fetch z -> Forall of_handler (y_runs s) ->
  (forall u, In u (y_runs s) -> (exists r, t_res (u_f u) = FStop r) -> u_busy u = true /\ u_left u = []) ->
  0 < down s -> exists s', sys_steps e me z s s' /\ calm s s' /\ up s' = up s /\ down s' < down s.
Proof.
  intros Hd Hh Hof Hst Hdown.
  destruct (Nat.eq_dec (list_sum (map run_weight (y_runs s))) 0) as [E0|E0].
  2:{ destruct (sum_pos (y_runs s) ltac:(lia)) as (l1 & u & l2 & E & Hu). pose proof (sum_split l1 u l2) as Es.
      destruct (u_left u) as [|op ops] eqn:El.
      - unfold run_weight in Hu. rewrite El in Hu. cbn [length Nat.add] in Hu. destruct (u_busy u) eqn:Eb; [|lia]. destruct (stuck u) eqn:Ek; [lia|].
        assert (Hok : t_res (u_f u) = FOk tt).
        { unfold stuck in Ek. rewrite Eb in Ek. cbn [andb] in Ek. rewrite Forall_forall in Hof. destruct (Hof u) as (fe & p & h & dial & Ef & _); [rewrite E; apply mid_in; auto|].
          destruct (t_res (u_f u)) as [[]|er|p0|r0] eqn:Er; [reflexivity| | |discriminate Ek].
          - exfalso. rewrite Ef in Er. unfold fetchHandler in Er. destruct (bind _ _) as [[ih a]| |]; try discriminate Er. destruct (snd _); discriminate Er.
          - exfalso. rewrite Ef in Er. unfold fetchHandler in Er. destruct (bind _ _) as [[ih a]| |]; try discriminate Er. destruct (snd _); discriminate Er. }
        eexists. split; [apply ss_one; eapply ys_fend; eassumption|]. unfold calm, up, down. sysred. split; [split; [exact Hd|split; [|reflexivity]]|].
        + rewrite (hung_split s l1 u l2 E), Ek. erewrite (hung_split (set_out _ _ _ _ _ _ _ _) l1 _ l2) by reflexivity. unfold stuck at 2. cbn [u_busy andb]. reflexivity.
        + split; [reflexivity|]. rewrite E, !sum_split. unfold run_weight at 1 3. rewrite El, Eb, Ek. cbn [u_left u_busy length]. lia.
      - eexists. split; [apply ss_one; eapply ys_op; eassumption|]. unfold calm, up, down. sysred. split; [split; [exact Hd|split; [|reflexivity]]|].
        + rewrite (hung_split s l1 u l2 E). erewrite (hung_split (set_out _ _ _ _ _ _ _ _) l1 _ l2) by reflexivity. unfold stuck at 2 4. cbn [u_busy u_f]. reflexivity.
        + split; [reflexivity|]. rewrite E, !sum_split. unfold run_weight at 1 3. rewrite El. unfold stuck. cbn [u_left u_busy u_f length]. destruct (u_busy u); cbn [andb]; destruct (t_res (u_f u)); cbn; lia. }
  destruct (y_loads s) as [|x lds] eqn:Eld.
  2:{ destruct (dial_fails os0 x) as (fe & p & h & dial & E1 & E2).
      eexists. split; [apply ss_one; eapply (ys_load e me z s [] x lds fe p h dial os0); [exact Hd|exact Eld|reflexivity|rewrite E1; discriminate]|].
      unfold calm, up, down. sysred. split; [split; [exact Hd|split; [|reflexivity]]|].
      - unfold hung. sysred. rewrite filter_app. cbn [filter]. unfold stuck at 2. cbn [u_busy u_f andb]. rewrite E1. rewrite app_nil_r. reflexivity.
      - split; [reflexivity|]. rewrite Eld, map_app, list_sum_app. cbn [map]. unfold run_weight at 2. unfold stuck. cbn [u_left u_busy u_f andb app length]. rewrite E1, E2. cbn. lia. }
  destruct (y_fpool s) as [|x fp] eqn:Efp.
  2:{ eexists. split; [apply ss_one; eapply ys_fbegin; [exact Hd|exact Efp|rewrite busy_hung by assumption; exact Hh]|].
      unfold calm, up, down. sysred. split; [split; [exact Hd|split; reflexivity]|]. split; [reflexivity|]. rewrite Efp, Eld. cbn [app length]. lia. }
  destruct (y_fetch s) as [x|] eqn:Ef.
  { eexists. split; [apply ss_one; eapply ys_fsubmit; [exact Hd|exact Ef|rewrite Efp; cbn; lia]|].
    unfold calm, up, down. sysred. split; [split; [exact Hd|split; reflexivity]|]. split; [reflexivity|]. rewrite Efp, Ef. cbn [app length opt]. lia. }
  destruct (a_queue (w_app (k_world (y_core s)))) as [|x q] eqn:Eq.
  - exfalso. unfold down in Hdown. rewrite Eld, Efp, Ef, Eq in Hdown. cbn [length opt] in Hdown. lia.
  - eexists. split; [apply ss_one; eapply ys_take; [exact Hd|exact Ef|exact Eq]|].
    unfold calm, up, down. sysred. split; [split; [exact Hd|split; reflexivity]|]. split; [reflexivity|]. cbn [set_app w_app a_queue]. rewrite Eq, Ef. cbn [length opt]. lia.
Qed.

Lemma up_step e uf me local hosts z d0 s : runtime_ok e uf -> sys_reach e me local hosts z d0 s -> 0 < z_krpc z -> 0 < z_ann z ->
  y_dead s = false -> a_queue (w_app (k_world (y_core s))) = [] ->
  0 < up s -> exists s', sys_steps e me z s s' /\ calm s s' /\ up s' < up s.
Proof.
  intros Hrt Hr Hz1 Hz2 Hd Hq Hup.
  destruct (k_jobs (y_core s)) as [|[[i pk] pc] jobs] eqn:Ej.
  2:{ pose proof (conc_inv _ _ _ _ _ _ _ Hrt (core_reach _ _ _ _ _ _ _ Hr)) as HI.
      destruct (i_jobs _ _ _ _ HI i pk pc) as [_ Hjok]; [rewrite Ej; left; reflexivity|].
      destruct (job_runs_out uf _ (e 0) me (z_ann z) (k_world (y_core s)) pk pc _ (proj1 (Hrt 0)) (proj2 (Hrt 0)) (i_shared _ _ _ _ HI) Hjok) as (w' & v & Hrun).
      { intros x _ _. rewrite Hq. exact Hz2. }
      eexists. split.
      - eapply ss_trans; [exact (run_core e 0 me z pk _ _ _ _ _ Hrun s [] i jobs Hd eq_refl Ej)|]. apply ss_one. apply ys_core; [exact Hd|]. eapply (co_end _ _ _ _ [] i pk jobs). reflexivity.
      - unfold calm, up. sysred. split; [split; [exact Hd|split; reflexivity]|]. rewrite Ej. cbn [app length]. lia. }
  destruct (y_pool s) as [|pk p] eqn:Ep.
  2:{ eexists. split; [apply ss_one; eapply ys_begin; [exact Hd|exact Ep|rewrite Ej; exact Hz1]|].
      unfold calm, up. sysred. split; [split; [exact Hd|split; reflexivity]|]. rewrite Ej, Ep. cbn [app length]. lia. }
  destruct (y_listen s) as [pk|] eqn:El.
  { eexists. split; [apply ss_one; eapply ys_submit; [exact Hd|exact El|rewrite Ep; exact Hz1]|].
    unfold calm, up. sysred. split; [split; [exact Hd|split; reflexivity]|]. rewrite Ep, El. cbn [app length opt]. lia. }
  destruct (y_q s) as [|pk q] eqn:Eq.
  2:{ eexists. split; [apply ss_one; eapply ys_listen; [exact Hd|exact El|exact Eq]|].
      unfold calm, up. sysred. split; [split; [exact Hd|split; reflexivity]|]. rewrite El, Eq. cbn [app length opt]. lia. }
  destruct (y_recv s) as [pk|] eqn:Er.
  - eexists. split; [apply ss_one; eapply ys_queue; [exact Hd|exact Er|rewrite Eq; unfold RecvChanLen; cbn; lia]|].
    unfold calm, up. sysred. split; [split; [exact Hd|split; reflexivity]|]. rewrite Eq, Er. cbn [app length opt]. lia.
  - exfalso. unfold up in Hup. rewrite Ej, Ep, El, Eq, Er in Hup. cbn in Hup. lia.
Qed.

Lemma calm_trans s1 s2 s3 : calm s1 s2 -> calm s2 s3 -> calm s1 s3.
Proof. intros (A1 & A2 & A3) (B1 & B2 & B3). split; [exact B1|]. split; congruence. Qed.

Lemma zero_idle s : up s = 0 -> down s = 0 -> idle s.
Proof.
  unfold up, down. intros Hu Hd.
  assert (Hlen : forall X (l : list X), length l = 0 -> l = []) by (intros X [|]; [reflexivity|discriminate]).
  assert (Hopt : forall X (o : option X), length (opt o) = 0 -> o = None) by (intros X [|]; [discriminate|reflexivity]).
  split; try (apply Hlen; lia); try (apply Hopt; lia). intros u Hin. apply in_split in Hin. destruct Hin as (l1 & l2 & E). rewrite E, sum_split in Hd.
  assert (H0 : run_weight u = 0) by lia. unfold run_weight in H0. split; [apply Hlen; lia|]. intros Hb. rewrite Hb in H0. destruct (stuck u); [reflexivity|lia].
Qed.

Lemma drains e uf me local hosts z d0 s : runtime_ok e uf -> sys_reach e me local hosts z d0 s -> 0 < z_krpc z -> 0 < z_ann z ->
  y_dead s = false -> length (hung s) < z_fetch z -> exists s', sys_steps e me z s s' /\ calm s s' /\ idle s'.
Proof.
  intros Hrt Hr Hz1 Hz2. assert (H : forall a s, up s <= a -> sys_reach e me local hosts z d0 s -> y_dead s = false -> length (hung s) < z_fetch z -> exists s', sys_steps e me z s s' /\ calm s s' /\ idle s').
  { clear s Hr. induction a as [a IHa] using lt_wf_ind. intros s.
    enough (H : forall b s, down s <= b -> up s <= a -> sys_reach e me local hosts z d0 s -> y_dead s = false -> length (hung s) < z_fetch z -> exists s', sys_steps e me z s s' /\ calm s s' /\ idle s') by (intros; eapply (H (down s)); eauto).
    clear s. induction b as [b IHb] using lt_wf_ind. intros s Hb Ha Hr Hd Hh. pose proof (sys_inv _ _ _ _ _ _ _ Hr) as HI.
    destruct (Nat.eq_dec (down s) 0) as [E|E].
    - destruct (Nat.eq_dec (up s) 0) as [Eu|Eu].
      + exists s. split; [constructor|]. split; [split; [exact Hd|split; reflexivity]|apply zero_idle; assumption].
      + assert (Hq : a_queue (w_app (k_world (y_core s))) = []) by (unfold down in E; destruct (a_queue _); [reflexivity|cbn in E; lia]).
        destruct (up_step e uf me local hosts z d0 s Hrt Hr Hz1 Hz2 Hd Hq ltac:(lia)) as (s1 & S1 & C1 & U1). destruct C1 as (D1 & H1 & R1).
        destruct (IHa (up s1) ltac:(lia) s1 (Nat.le_refl _) (ss_reach _ _ _ _ _ _ _ _ Hr S1) D1 ltac:(lia)) as (s2 & S2 & C2 & I2).
        exists s2. split; [eapply ss_trans; eassumption|]. split; [eapply calm_trans; [split; [exact D1|split; [exact H1|exact R1]]|exact C2]|exact I2].
    - destruct (down_step e me z s Hd Hh (si_runs _ _ _ HI) (si_stuck _ _ _ HI) ltac:(lia)) as (s1 & S1 & C1 & U1 & L1). destruct C1 as (D1 & H1 & R1).
      destruct (IHb (down s1) ltac:(lia) s1 (Nat.le_refl _) ltac:(lia) (ss_reach _ _ _ _ _ _ _ _ Hr S1) D1 ltac:(lia)) as (s2 & S2 & C2 & I2).
      exists s2. split; [eapply ss_trans; eassumption|]. split; [eapply calm_trans; [split; [exact D1|split; [exact H1|exact R1]]|exact C2]|exact I2]. }
  intros Hd Hh. eapply (H (up s)); eauto.
Qed.

(** ** Blocking everything *)
Section Block.
  Variables (e : nat -> env) (uf : N -> N -> bool) (me : bytes) (z : sizes) (dg : dgram) (X : ann).
  Hypothesis Hrt : runtime_ok e uf.
  Hypothesis Hann : announcement (cut dg) X.
  Hypothesis Hhang : exists fe p h dial, t_res (fetchHandler fe p h dial os0 X) = FStop BlockedWrite.
  Let P := cut dg.

  Definition waiting (j : nat * packet * jpc) : Prop := exists i r d, j = (i, P, JEnq X r) /\ wire r d.
  Record shape (s : sys) (h f t a j p l q r : nat) : Prop := {
    sh_alive : y_dead s = false; sh_loads : y_loads s = [];
    sh_runs : forall u, In u (y_runs s) -> u_left u = [] /\ (u_busy u = true -> stuck u = true);
    sh_hung : length (filter u_busy (y_runs s)) = h;
    sh_fpool : y_fpool s = repeat X f; sh_fetch : opt (y_fetch s) = repeat X t; sh_queue : a_queue (w_app (k_world (y_core s))) = repeat X a;
    sh_jobs : Forall waiting (k_jobs (y_core s)); sh_njobs : length (k_jobs (y_core s)) = j;
    sh_pool : y_pool s = repeat P p; sh_listen : opt (y_listen s) = repeat P l; sh_q : y_q s = repeat P q; sh_recv : opt (y_recv s) = repeat P r }.
  Definition mv (n : nat) (s s' : sys) : Prop := sys_steps e me z s s' /\ y_read s' = y_read s ++ repeat P n.

  Lemma mv_trans n m s1 s2 s3 : mv n s1 s2 -> mv m s2 s3 -> mv (n + m) s1 s3.
  Proof. intros [A1 A2] [B1 B2]. split; [eapply ss_trans; eassumption|]. rewrite B2, A2, <- app_assoc, repeat_app. reflexivity. Qed.
  Lemma mv_here s : mv 0 s s.
  Proof. split; [constructor|]. cbn. rewrite app_nil_r. reflexivity. Qed.
  Lemma mv0 s s' : sys_steps e me z s s' -> y_read s' = y_read s -> mv 0 s s'.
  Proof. intros H E. split; [exact H|]. cbn. rewrite app_nil_r. exact E. Qed.
  Lemma opt_none {A} (o : option A) (x : A) : opt o = repeat x 0 -> o = None. Proof. destruct o; [discriminate|reflexivity]. Qed.
  Lemma opt_some {A} (o : option A) (x : A) : opt o = repeat x 1 -> o = Some x. Proof. destruct o; [|discriminate]. cbn. intros E. injection E as ->. reflexivity. Qed.

  Lemma start_waits k : exists r d, start_pc (e k) me P = JEnq X r /\ wire r d.
  Proof.
    pose proof (start_cases (e k) me P) as H. destruct (announcement_asks _ _ Hann) as (tx & q & Hask). fold P in Hask, Hann |- *.
    inversion H as [E Hno|r d tx' q' E _ Hno|x r d E Ha Hw _|tx' b d id E Hno]; [elim (Hno _ _ Hask)|elim (Hno _ Hann)| |elim (Hno _ _ Hask)].
    exists r, d. rewrite E. split; [|exact Hw]. f_equal. destruct Hann as (t1 & a1 & ih1 & po1 & P1 & _ & _ & ->). destruct Ha as (t2 & a2 & ih2 & po2 & P2 & _ & _ & ->).
    destruct (proper_det _ _ _ _ _ _ _ P1 P2) as (-> & _ & ->). reflexivity.
  Qed.

  Ltac shp := split; sysred; try assumption.

  Lemma m_read s h f t a j p l q : shape s h f t a j p l q 0 -> exists s', mv 1 s s' /\ shape s' h f t a j p l q 1.
  Proof.
    intros []. eexists. split; [split; [apply ss_one; apply (ys_read e me z s dg); [assumption|eapply opt_none; eassumption]|reflexivity]|]. shp. reflexivity.
  Qed.
  Lemma m_queue s h f t a j p l q : q < 100 -> shape s h f t a j p l q 1 -> exists s', mv 0 s s' /\ shape s' h f t a j p l (S q) 0.
  Proof.
    intros Hq []. eexists. split; [apply mv0; [apply ss_one; apply (ys_queue e me z s P); [assumption|eapply opt_some; eassumption|rewrite sh_q0, repeat_length; exact Hq]|reflexivity]|].
    shp; [rewrite sh_q0; symmetry; apply repeat_cons|reflexivity].
  Qed.
  Lemma m_listen s h f t a j p q r : shape s h f t a j p 0 (S q) r -> exists s', mv 0 s s' /\ shape s' h f t a j p 1 q r.
  Proof.
    intros []. eexists. split; [apply mv0; [apply ss_one; apply (ys_listen e me z s P (repeat P q)); [assumption|eapply opt_none; eassumption|exact sh_q0]|reflexivity]|]. shp; reflexivity.
  Qed.
  Lemma m_submit s h f t a j p q r : p < z_krpc z -> shape s h f t a j p 1 q r -> exists s', mv 0 s s' /\ shape s' h f t a j (S p) 0 q r.
  Proof.
    intros Hp []. eexists. split; [apply mv0; [apply ss_one; apply (ys_submit e me z s P); [assumption|eapply opt_some; eassumption|rewrite sh_pool0, repeat_length; exact Hp]|reflexivity]|].
    shp; [rewrite sh_pool0; symmetry; apply repeat_cons|reflexivity].
  Qed.
  Lemma m_begin s h f t a j p l q r : j < z_krpc z -> shape s h f t a j (S p) l q r -> exists s', mv 0 s s' /\ shape s' h f t a (S j) p l q r.
  Proof.
    intros Hj []. destruct (start_waits 0) as (rp & d & E & Hw).
    eexists. split; [apply mv0; [eapply ss_trans; apply ss_one|]|].
    - apply (ys_begin e me z s P (repeat P p)); [assumption|exact sh_pool0|rewrite sh_njobs0; exact Hj].
    - apply ys_core; [assumption|]. eapply (co_job e me (z_ann z) _ 0 (k_jobs (y_core s)) _ P JStart []); [reflexivity|apply js_start].
    - reflexivity.
    - shp.
      + apply Forall_app. split; [assumption|]. constructor; [|constructor]. exists (k_next (y_core s)), rp, d. split; [rewrite E; reflexivity|exact Hw].
      + rewrite app_length. cbn. lia.
      + reflexivity.
  Qed.
  Lemma m_enq s h f t a j p l q r : a < z_ann z -> shape s h f t a (S j) p l q r -> exists s', mv 0 s s' /\ shape s' h f t (S a) j p l q r.
  Proof.
    intros Ha []. destruct (k_jobs (y_core s)) as [|jb jobs] eqn:Ej; [discriminate|]. inversion sh_jobs0 as [|? ? Hw0 Hws]; subst. destruct Hw0 as (i & rp & d & -> & Hw).
    set (w := k_world (y_core s)) in *.
    set (w1 := set_app w {| a_rt := a_rt (w_app w); a_tx := a_tx (w_app w); a_queue := a_queue (w_app w) ++ [X] |}).
    destruct (wire_sends (e 0) w1 rp d (proj1 (Hrt 0)) Hw) as (bs & Eb & _).
    assert (Hrun : job_run (e 0) me (z_ann z) P w (JEnq X rp) (fst (send (e 0) w1 bs (p_addr P))) JEnd ([EvEnq X] ++ [EvReply {| g_bytes := bs; g_to := p_addr P |}])).
    { eapply jr_step; [apply js_enq; rewrite sh_queue0, repeat_length; exact Ha|]. apply jr_one. apply js_reply. exact Eb. }
    eexists. split; [apply mv0; [eapply ss_trans; [exact (run_core e 0 me z P _ _ _ _ _ Hrun s [] i jobs sh_alive0 eq_refl Ej)|]|]|].
    - apply ss_one. apply ys_core; [assumption|]. eapply (co_end _ _ _ _ [] i P jobs). reflexivity.
    - reflexivity.
    - shp.
      + reflexivity.
      + transitivity (a_queue (w_app w) ++ [X]); [reflexivity|]. rewrite sh_queue0. symmetry. apply repeat_cons.
      + cbn in sh_njobs0. injection sh_njobs0 as <-. reflexivity.
  Qed.
  Lemma m_take s h f a j p l q r : shape s h f 0 (S a) j p l q r -> exists s', mv 0 s s' /\ shape s' h f 1 a j p l q r.
  Proof.
    intros []. eexists. split; [apply mv0; [apply ss_one; apply (ys_take e me z s X (repeat X a)); [assumption|eapply opt_none; eassumption|exact sh_queue0]|reflexivity]|]. shp; reflexivity.
  Qed.
  Lemma m_fsubmit s h f a j p l q r : f < z_fetch z -> shape s h f 1 a j p l q r -> exists s', mv 0 s s' /\ shape s' h (S f) 0 a j p l q r.
  Proof.
    intros Hf []. eexists. split; [apply mv0; [apply ss_one; apply (ys_fsubmit e me z s X); [assumption|eapply opt_some; eassumption|rewrite sh_fpool0, repeat_length; exact Hf]|reflexivity]|].
    shp; [rewrite sh_fpool0; symmetry; apply repeat_cons|reflexivity].
  Qed.
  Lemma m_hang s h f t a j p l q r : h < z_fetch z -> shape s h (S f) t a j p l q r -> exists s', mv 0 s s' /\ shape s' (S h) f t a j p l q r.
  Proof.
    intros Hh []. destruct Hhang as (fe & pl & hp & dial & E).
    eexists. split; [apply mv0; [eapply ss_trans; apply ss_one|]|].
    - apply (ys_fbegin e me z s X (repeat X f)); [assumption|exact sh_fpool0|]. unfold busy. rewrite sh_loads0, sh_hung0. exact Hh.
    - eapply (ys_load e me z _ [] X [] fe pl hp dial os0); [assumption|sysred; rewrite sh_loads0; reflexivity|reflexivity|rewrite E; discriminate].
    - reflexivity.
    - shp.
      + reflexivity.
      + intros u Hu. apply in_app_iff in Hu. destruct Hu as [Hu|[<-|[]]]; [auto|]. cbn [u_left u_busy]. unfold stuck. cbn [u_busy u_f]. rewrite E.
        split; [apply handler_stops_no_ops; eexists; exact E|reflexivity].
      + rewrite filter_app, app_length. cbn [filter u_busy length]. lia.
      + reflexivity.
  Qed.

  (** Pushing one more announcement as far as it goes. *)
  Lemma lt_0_100 : 0 < 100. Proof. lia. Qed.

  Lemma push_q s h f t a j p l q : q < 100 -> shape s h f t a j p l q 0 -> exists s', mv 1 s s' /\ shape s' h f t a j p l (S q) 0.
  Proof.
    intros Hq H. destruct (m_read _ _ _ _ _ _ _ _ _ H) as (s1 & M1 & H1). destruct (m_queue _ _ _ _ _ _ _ _ _ Hq H1) as (s2 & M2 & H2). exists s2. split; [exact (mv_trans 1 0 _ _ _ M1 M2)|exact H2].
  Qed.
  Lemma push_l s h f t a j p : shape s h f t a j p 0 0 0 -> exists s', mv 1 s s' /\ shape s' h f t a j p 1 0 0.
  Proof.
    intros H. destruct (push_q _ _ _ _ _ _ _ _ _ lt_0_100 H) as (s1 & M1 & H1). destruct (m_listen _ _ _ _ _ _ _ _ _ H1) as (s2 & M2 & H2). exists s2. split; [exact (mv_trans 1 0 _ _ _ M1 M2)|exact H2].
  Qed.
  Lemma push_p s h f t a j p : p < z_krpc z -> shape s h f t a j p 0 0 0 -> exists s', mv 1 s s' /\ shape s' h f t a j (S p) 0 0 0.
  Proof.
    intros Hp H. destruct (push_l _ _ _ _ _ _ _ H) as (s1 & M1 & H1). destruct (m_submit _ _ _ _ _ _ _ _ _ Hp H1) as (s2 & M2 & H2). exists s2. split; [exact (mv_trans 1 0 _ _ _ M1 M2)|exact H2].
  Qed.
  Lemma push_j s h f t a j : j < z_krpc z -> shape s h f t a j 0 0 0 0 -> exists s', mv 1 s s' /\ shape s' h f t a (S j) 0 0 0 0.
  Proof.
    intros Hj H. destruct (push_p _ _ _ _ _ _ 0 ltac:(lia) H) as (s1 & M1 & H1). destruct (m_begin _ _ _ _ _ _ _ _ _ _ Hj H1) as (s2 & M2 & H2). exists s2. split; [exact (mv_trans 1 0 _ _ _ M1 M2)|exact H2].
  Qed.
  Hypothesis Hz : 0 < z_krpc z /\ 0 < z_ann z.
  Lemma push_a s h f t a : a < z_ann z -> shape s h f t a 0 0 0 0 0 -> exists s', mv 1 s s' /\ shape s' h f t (S a) 0 0 0 0 0.
  Proof.
    intros Ha H. destruct (push_j _ _ _ _ _ 0 (proj1 Hz) H) as (s1 & M1 & H1). destruct (m_enq _ _ _ _ _ _ _ _ _ _ Ha H1) as (s2 & M2 & H2). exists s2. split; [exact (mv_trans 1 0 _ _ _ M1 M2)|exact H2].
  Qed.
  Lemma push_t s h f : shape s h f 0 0 0 0 0 0 0 -> exists s', mv 1 s s' /\ shape s' h f 1 0 0 0 0 0 0.
  Proof.
    intros H. destruct (push_a _ _ _ _ 0 (proj2 Hz) H) as (s1 & M1 & H1). destruct (m_take _ _ _ _ _ _ _ _ _ H1) as (s2 & M2 & H2). exists s2. split; [exact (mv_trans 1 0 _ _ _ M1 M2)|exact H2].
  Qed.
  Lemma push_f s h f : f < z_fetch z -> shape s h f 0 0 0 0 0 0 0 -> exists s', mv 1 s s' /\ shape s' h (S f) 0 0 0 0 0 0 0.
  Proof.
    intros Hf H. destruct (push_t _ _ _ H) as (s1 & M1 & H1). destruct (m_fsubmit _ _ _ _ _ _ _ _ _ Hf H1) as (s2 & M2 & H2). exists s2. split; [exact (mv_trans 1 0 _ _ _ M1 M2)|exact H2].
  Qed.
  Lemma push_h s h : h < z_fetch z -> shape s h 0 0 0 0 0 0 0 0 -> exists s', mv 1 s s' /\ shape s' (S h) 0 0 0 0 0 0 0 0.
  Proof.
    intros Hh H. destruct (push_f _ _ 0 ltac:(lia) H) as (s1 & M1 & H1). destruct (m_hang _ _ _ _ _ _ _ _ _ _ Hh H1) as (s2 & M2 & H2). exists s2. split; [exact (mv_trans 1 0 _ _ _ M1 M2)|exact H2].
  Qed.

  Lemma fill (S0 : sys -> nat -> Prop) lim : (forall s k, k < lim -> S0 s k -> exists s', mv 1 s s' /\ S0 s' (S k)) ->
    forall n k s, k + n = lim -> S0 s k -> exists s', mv n s s' /\ S0 s' lim.
  Proof.
    intros Hpush. induction n as [|n IH]; intros k s E H.
    - assert (k = lim) by lia. subst k. exists s. split; [apply mv_here|exact H].
    - destruct (Hpush s k ltac:(lia) H) as (s1 & M1 & H1). destruct (IH (S k) s1 ltac:(lia) H1) as (s2 & M2 & H2). exists s2. split; [exact (mv_trans 1 n _ _ _ M1 M2)|exact H2].
  Qed.

  Lemma fill_all s h : h <= z_fetch z -> shape s h 0 0 0 0 0 0 0 0 ->
    exists s', mv (2 * z_fetch z - h + z_ann z + 2 * z_krpc z + 103) s s' /\ shape s' (z_fetch z) (z_fetch z) 1 (z_ann z) (z_krpc z) (z_krpc z) 1 100 1.
  Proof.
    intros Hh H0.
    destruct (fill (fun s k => shape s k 0 0 0 0 0 0 0 0) (z_fetch z) ltac:(intros; apply push_h; assumption) (z_fetch z - h) h s ltac:(lia) H0) as (s1 & M1 & H1).
    destruct (fill (fun s k => shape s (z_fetch z) k 0 0 0 0 0 0 0) (z_fetch z) ltac:(intros; apply push_f; assumption) (z_fetch z) 0 s1 ltac:(lia) H1) as (s2 & M2 & H2).
    destruct (push_t _ _ _ H2) as (s3 & M3 & H3).
    destruct (fill (fun s k => shape s (z_fetch z) (z_fetch z) 1 k 0 0 0 0 0) (z_ann z) ltac:(intros; apply push_a; assumption) (z_ann z) 0 s3 ltac:(lia) H3) as (s4 & M4 & H4).
    destruct (fill (fun s k => shape s (z_fetch z) (z_fetch z) 1 (z_ann z) k 0 0 0 0) (z_krpc z) ltac:(intros; apply push_j; assumption) (z_krpc z) 0 s4 ltac:(lia) H4) as (s5 & M5 & H5).
    destruct (fill (fun s k => shape s (z_fetch z) (z_fetch z) 1 (z_ann z) (z_krpc z) k 0 0 0) (z_krpc z) ltac:(intros; apply push_p; assumption) (z_krpc z) 0 s5 ltac:(lia) H5) as (s6 & M6 & H6).
    destruct (push_l _ _ _ _ _ _ _ H6) as (s7 & M7 & H7).
    destruct (fill (fun s k => shape s (z_fetch z) (z_fetch z) 1 (z_ann z) (z_krpc z) (z_krpc z) 1 k 0) 100 ltac:(intros; apply push_q; assumption) 100 0 s7 ltac:(lia) H7) as (s8 & M8 & H8).
    destruct (m_read _ _ _ _ _ _ _ _ _ H8) as (s9 & M9 & H9). exists s9. split; [|exact H9].
    pose proof (mv_trans _ _ _ _ _ (mv_trans _ _ _ _ _ (mv_trans _ _ _ _ _ (mv_trans _ _ _ _ _ (mv_trans _ _ _ _ _ (mv_trans _ _ _ _ _ (mv_trans _ _ _ _ _ (mv_trans _ _ _ _ _ M1 M2) M3) M4) M5) M6) M7) M8) M9) as M.
    replace (2 * z_fetch z - h + z_ann z + 2 * z_krpc z + 103) with (z_fetch z - h + z_fetch z + 1 + z_ann z + z_krpc z + z_krpc z + 1 + 100 + 1) by lia. exact M.
  Qed.

  Lemma full_stuck s s' : shape s (z_fetch z) (z_fetch z) 1 (z_ann z) (z_krpc z) (z_krpc z) 1 100 1 -> ~ sys_step e me z s s'.
  Proof.
    intros [] Hst. destruct Hst as [d Ha Hr|pk Ha Hr Hl|pk q Ha Hr Hq|pk Ha Hr Hl|pk p Ha Hp Hl|c Ha Hc|x q Ha Hf Hq|x Ha Hf Hl|x p Ha Hp Hl|l1 x l2 fe p h dial o r Ha Hld Er Hno|l1 x l2 fe p h dial o Ha Hld Ho|l1 u l2 op ops Ha Hru Hlf|l1 u l2 Ha Hru Hlf Hb Hok].
    - rewrite Hr in sh_recv0. discriminate.
    - rewrite sh_q0, repeat_length in Hl. unfold RecvChanLen in Hl. lia.
    - rewrite Hr in sh_listen0. discriminate.
    - rewrite sh_pool0, repeat_length in Hl. lia.
    - lia.
    - destruct Hc as [k l1 i pk pc l2 w' pc' v H1 H2|l1 i pk l2 H]; rewrite ?H1, ?H in sh_jobs0; apply Forall_app in sh_jobs0 as [_ F]; inversion F as [|? ? Hw _]; subst; destruct Hw as (i' & r & d & E & _); [|discriminate E].
      injection E as <- -> ->. inversion H2; subst. rewrite sh_queue0, repeat_length in *. lia.
    - rewrite Hf in sh_fetch0. discriminate.
    - rewrite sh_fpool0, repeat_length in Hl. lia.
    - unfold busy in Hl. rewrite sh_loads0, sh_hung0 in Hl. cbn in Hl. lia.
    - rewrite sh_loads0 in Hld. destruct l1; discriminate.
    - rewrite sh_loads0 in Hld. destruct l1; discriminate.
    - destruct (sh_runs0 u) as [E _]; [rewrite Hru; apply mid_in; auto|]. congruence.
    - destruct (sh_runs0 u) as [_ E]; [rewrite Hru; apply mid_in; auto|]. specialize (E Hb). unfold stuck in E. rewrite Hb, Hok in E. discriminate E.
  Qed.

  Lemma idle_shape s : y_dead s = false -> idle s -> length (hung s) <= z_fetch z -> shape s (length (hung s)) 0 0 0 0 0 0 0 0.
  Proof.
    intros Hd [I1 I2 I3 I4 I5 I6 I7 I8 I9 id_runs0]. split; try assumption; try (rewrite ?I1, ?I3, ?I7; reflexivity).
    - unfold hung. f_equal. clear - id_runs0. induction (y_runs s) as [|u l IH]; [reflexivity|]. cbn [filter]. rewrite IH by (intros v Hv; apply id_runs0; right; exact Hv).
      destruct (id_runs0 u (or_introl eq_refl)) as [_ Hu]. destruct (u_busy u) eqn:Eb; [rewrite (Hu eq_refl); reflexivity|]. unfold stuck. rewrite Eb. reflexivity.
    - rewrite I5. constructor.
    - rewrite I5. reflexivity.
  Qed.
End Block.
