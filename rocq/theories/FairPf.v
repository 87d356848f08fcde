(** FairPf.v -- proofs of C129. *)
From Coq Require Import Permutation.
From Verif Require Import Base GoLib Bencode BencodeSpec BencodeProofs BencodePf Types Node NodePf RouteTable RouteTablePf Middleware Krpc KrpcSpec KrpcProofs KrpcPf Dht DhtSpec DhtPf Conc ConcSpec ConcProofs ConcPf BytesPool Sha1 PeerWire Fetch FetchSpec FetchPf FetchTorrent FetchTorrentSpec FetchTorrentPf Udp System SystemSpec SystemProofs SystemLive SystemPf QuietSpec QuietPf FairSpec.
Local Open Scope list_scope.

Definition qlen (s : sys) : nat := length (a_queue (w_app (k_world (y_core s)))).

(** ** Handlers *)
Lemma job_queue e me cap w pk pc w' pc' evs : job_step e me cap w pk pc w' pc' evs -> length (a_queue (w_app w)) <= length (a_queue (w_app w')).
Proof. intros Hs. destruct Hs; cbn [set_app w_app a_queue send fst draw_tx]; rewrite ?app_length; lia. Qed.

Lemma job_less e me cap w pk pc w' pc' evs : short pk -> job_step e me cap w pk pc w' pc' evs -> jm pk pc' < jm pk pc.
Proof.
  intros Hsh Hs. pose proof (job_m _ _ _ _ _ _ _ _ _ Hsh Hs) as H1. pose proof (job_queue _ _ _ _ _ _ _ _ _ Hs) as H2. lia.
Qed.

Lemma not_twice i pk pc pc' l1 l2 : NoDup (map num (l1 ++ (i, pk, pc) :: l2)) -> ~ In (i, pk, pc') (l1 ++ l2).
Proof.
  intros Hnd Hin. rewrite nums_split in Hnd. apply NoDup_remove_2 in Hnd. apply Hnd. rewrite <- map_app. eapply in_num. exact Hin.
Qed.
Lemma job_is i pk pc pk' pc' l1 l2 : NoDup (map num (l1 ++ (i, pk, pc) :: l2)) -> In (i, pk', pc') (l1 ++ (i, pk, pc) :: l2) -> pk' = pk /\ pc' = pc.
Proof.
  intros Hnd Hin. apply in_mid in Hin. destruct Hin as [E|Hin]; [injection E; auto|]. exfalso. rewrite nums_split in Hnd. apply NoDup_remove_2 in Hnd. apply Hnd. rewrite <- map_app.
  eapply in_num. exact Hin.
Qed.
Lemma job_short s i pk pc : Forall short (pending s) -> In (i, pk, pc) (k_jobs (y_core s)) -> short pk.
Proof.
  intros HF Hin. rewrite Forall_forall in HF. apply HF. unfold pending. do 4 (apply in_or_app; right). apply in_map_iff. exists (i, pk, pc). auto.
Qed.

(** What a step does to a handler. *)
Lemma job_progress e me z s s' i pk pc : Forall short (pending s) -> NoDup (map num (k_jobs (y_core s))) -> sys_step e me z s s' -> In (i, pk, pc) (k_jobs (y_core s)) ->
  In (i, pk, pc) (k_jobs (y_core s')) \/ In (i, EvEnd) (k_log (y_core s')) \/ (exists pc', In (i, pk, pc') (k_jobs (y_core s')) /\ jm pk pc' < jm pk pc).
Proof.
  intros HF Hnd Hst Hin.
  destruct Hst as [d Ha Hr|p0 Ha Hr Hl|p0 q Ha Hn Hq|p0 Ha Hn Hl|p0 p Ha Hp Hl|c Ha Hc|x q Ha Hf Hq|x Ha Hf Hl|x p Ha Hp Hl|l1 x l2 fe p h dial o r Ha Hld Er Hno|l1 x l2 fe p h dial o Ha Hld Ho|l1 v l2 op ops Ha Hru Hlf|l1 v l2 Ha Hru Hlf Hbv Hok]; sysred; auto.
  - left. apply in_or_app. auto.
  - destruct Hc as [k l1 j pj pcj l2 w' pc' evs Hj Hs|l1 j pj l2 Hj]; cbn [k_jobs k_log].
    + assert (Hshj : short pj) by (eapply job_short; [exact HF|rewrite Hj; apply in_elt]).
      rewrite Hj in Hin, Hnd. apply in_mid in Hin as Hin'. destruct Hin' as [E|Hin'].
      * injection E as -> -> ->. right; right. exists pc'. split; [apply in_elt|]. eapply job_less; eassumption.
      * left. apply in_app_iff in Hin'. apply in_or_app. destruct Hin'; [auto|right; right; assumption].
    + rewrite Hj in Hin. apply in_mid in Hin as Hin'. destruct Hin' as [E|Hin'].
      * injection E as -> -> ->. right; left. apply in_or_app. right. left. reflexivity.
      * left. exact Hin'.
Qed.

(** A handler can always go on, unless it waits for room in the announcement queue. *)
Lemma job_able e uf me local hosts z d0 s i pk pc : runtime_ok e uf -> sys_reach e me local hosts z d0 s -> y_dead s = false -> In (i, pk, pc) (k_jobs (y_core s)) ->
  (forall x r, pc = JEnq x r -> qlen s < z_ann z) -> can e me z s i.
Proof.
  intros Hrt Hr Hd Hin Hq. pose proof (conc_inv _ _ _ _ _ _ _ Hrt (core_reach _ _ _ _ _ _ _ Hr)) as HI.
  pose proof (job_short _ _ _ _ (pending_reach _ _ _ _ _ _ _ Hr) Hin) as Hsh.
  pose proof (i_nodup _ _ _ _ HI) as Hnd. apply in_split in Hin as Hsp. destruct Hsp as (l1 & l2 & E). rewrite E in Hnd.
  assert (Hgo : forall w' pc' v, job_step (e 0) me (z_ann z) (k_world (y_core s)) pk pc w' pc' v -> can e me z s i).
  { intros w' pc' v Hs. eexists. split; [apply ys_core; [exact Hd|eapply (co_job e me (z_ann z) (y_core s) 0); [exact E|exact Hs]]|]. exists pk, pc. split; [exact Hin|]. sysred. intros H.
    apply in_mid in H. destruct H as [H|H].
    - injection H as H. pose proof (job_less _ _ _ _ _ _ _ _ _ Hsh Hs). subst pc'. lia.
    - eapply not_twice; eassumption. }
  destruct (job_fun (e 0) me (z_ann z) (k_world (y_core s)) pk pc) as [[[w' pc'] v]|] eqn:Ej.
  { apply job_fun_ok in Ej. eapply Hgo. exact Ej. }
  destruct pc as [|x r|r|tx body|[|n ns]|n ns|n ns tx|n ns tx|]; cbn [job_fun] in Ej; try discriminate Ej.
  - exfalso. specialize (Hq x r eq_refl). unfold qlen in Hq. apply Nat.ltb_lt in Hq. rewrite Hq in Ej. discriminate Ej.
  - destruct (reply_bytes _ _ _); discriminate Ej.
  - exfalso. destruct (i_shared _ _ _ _ HI) as [_ Hrtb]. rewrite (proj2 (Hrt 0)) in Ej. destruct (C31_total_pf uf {| nid := me; naddr := local |} 8 160) as (_ & _ & HT). destruct (HT _ Hrtb) as (HA & _).
    destruct (HA n) as (t' & er & Ea & _). rewrite Ea in Ej. destruct er; discriminate Ej.
  - destruct (encode_now _ _ _); discriminate Ej.
  - eexists. split; [apply ys_core; [exact Hd|eapply co_end; exact E]|]. exists pk, JEnd. split; [exact Hin|]. sysred. eapply not_twice. exact Hnd.
Qed.

(** ** The download side *)
Lemma app_neq {A} (l : list A) x : l ++ [x] <> l.
Proof. intros H. apply (f_equal (@length A)) in H. rewrite app_length in H. cbn in H. lia. Qed.
Lemma cons_neq {A} (l : list A) x : l <> x :: l.
Proof. intros H. apply (f_equal (@length A)) in H. cbn in H. lia. Qed.

Lemma dl_able e me local hosts z d0 s : sys_reach e me local hosts z d0 s -> y_dead s = false -> length (hung s) < z_fetch z -> 0 < down s -> can_dl e me z s.
Proof.
  intros Hr Hd Hh Hdown. pose proof (sys_inv _ _ _ _ _ _ _ Hr) as HI. pose proof (si_runs _ _ _ HI) as Hof.
  destruct (Nat.eq_dec (list_sum (map run_weight (y_runs s))) 0) as [E0|E0].
  2:{ destruct (sum_pos (y_runs s) ltac:(lia)) as (l1 & u & l2 & E & Hu).
      destruct (u_left u) as [|op ops] eqn:El.
      - unfold run_weight in Hu. rewrite El in Hu. cbn [length Nat.add] in Hu. destruct (u_busy u) eqn:Eb; [|lia]. destruct (stuck u) eqn:Ek; [lia|].
        assert (Hok : t_res (u_f u) = FOk tt).
        { unfold stuck in Ek. rewrite Eb in Ek. cbn [andb] in Ek. rewrite Forall_forall in Hof. destruct (Hof u) as (fe & p & h & dial & Ef & _); [rewrite E; apply mid_in; auto|].
          destruct (t_res (u_f u)) as [[]|er|p0|r0] eqn:Er; [reflexivity| | |discriminate Ek];
            exfalso; rewrite Ef in Er; unfold fetchHandler in Er; destruct (bind _ _) as [[ih a]| |]; try discriminate Er; destruct (snd _); discriminate Er. }
        eexists. split; [eapply ys_fend; eassumption|]. unfold dl. sysred. intros H. injection H as H. rewrite E in H. apply app_inv_head in H. injection H as H. rewrite <- H in Eb. discriminate Eb.
      - eexists. split; [eapply ys_op; eassumption|]. unfold dl. sysred. intros H. injection H as H. rewrite E in H. apply app_inv_head in H. injection H as H. rewrite <- H in El. cbn [u_left] in El.
        eapply cons_neq. exact El. }
  destruct (y_loads s) as [|x lds] eqn:Eld.
  2:{ destruct (dial_fails os0 x) as (fe & p & h & dial & E1 & E2).
      eexists. split; [eapply (ys_load e me z s [] x lds fe p h dial os0); [exact Hd|exact Eld|reflexivity|rewrite E1; discriminate]|].
      unfold dl. sysred. intros H. injection H as _ H. eapply app_neq. exact H. }
  destruct (y_fpool s) as [|x fp] eqn:Efp.
  2:{ eexists. split; [eapply ys_fbegin; [exact Hd|exact Efp|rewrite busy_hung by assumption; exact Hh]|].
      unfold dl. sysred. intros H. injection H as _ H. eapply app_neq. exact H. }
  destruct (y_fetch s) as [x|] eqn:Ef.
  { eexists. split; [eapply ys_fsubmit; [exact Hd|exact Ef|rewrite Efp; cbn; lia]|]. unfold dl. sysred. rewrite Ef. discriminate. }
  destruct (a_queue (w_app (k_world (y_core s)))) as [|x q] eqn:Eq.
  - exfalso. unfold down in Hdown. rewrite Eld, Efp, Ef, Eq in Hdown. cbn [length opt] in Hdown. lia.
  - eexists. split; [eapply ys_take; [exact Hd|exact Ef|exact Eq]|]. unfold dl. sysred. rewrite Ef. discriminate.
Qed.

(** Steps of the download side, other than taking an announcement, use up its work. *)
Definition D1 (s : sys) : nat := 4 * length (opt (y_fetch s)) + 3 * length (y_fpool s) + 2 * length (y_loads s) + length (filter u_busy (y_runs s)).
Lemma dl_step e me z s s' : sys_step e me z s s' -> y_dead s' = false ->
  (dl s' = dl s /\ qlen s <= qlen s') \/ S (qlen s') = qlen s \/ (D1 s' < D1 s \/ D1 s' = D1 s /\ left_m s' < left_m s).
Proof.
  intros Hst Hd'.
  destruct Hst as [d Ha Hr|p0 Ha Hr Hl|p0 q Ha Hn Hq|p0 Ha Hn Hl|p0 p Ha Hp Hl|c Ha Hc|x q Ha Hf Hq|x Ha Hf Hl|x p Ha Hp Hl|l1 x l2 fe p h dial o r Ha Hld Er Hno|l1 x l2 fe p h dial o Ha Hld Ho|l1 v l2 op ops Ha Hru Hlf|l1 v l2 Ha Hru Hlf Hbv Hok];
    try (left; split; [reflexivity|unfold qlen; sysred; lia]); unfold dl, qlen, D1, left_m; sysred.
  - left. split; [reflexivity|]. destruct Hc as [k l1 i pk pc l2 w' pc' evs Hj Hs|l1 i pk l2 Hj]; cbn [k_world]; [|lia]. eapply job_queue. exact Hs.
  - right; left. cbn [set_app w_app a_queue]. rewrite Hq. reflexivity.
  - right; right; left. rewrite Hf, app_length. cbn [opt length]. lia.
  - right; right; left. rewrite Hp, app_length. cbn [length]. lia.
  - right; right; left. rewrite Hld, filter_app, !app_length. cbn [filter u_busy length]. lia.
  - right; right; right. rewrite Hru, !busy_split, !left_split. cbn [u_busy u_left]. rewrite Hlf. cbn [length]. split; lia.
  - right; right; left. rewrite Hru, !busy_split. cbn [u_busy]. rewrite Hbv. lia.
Qed.

(** ** Executions *)
Section Run.
  Variables (e : nat -> env) (uf : N -> N -> bool) (me : bytes) (local : udpaddr) (hosts : list udpaddr) (z : sizes) (d0 : disk) (t : nat -> sys).
  Hypothesis Hrt : runtime_ok e uf.
  Hypothesis Hr0 : sys_reach e me local hosts z d0 (t 0).
  Hypothesis Ht : forever e me z t.
  Lemma run_reach k : sys_reach e me local hosts z d0 (t k).
  Proof. induction k as [|k IH]; [exact Hr0|eapply yr_step; [exact IH|apply Ht]]. Qed.
  Lemma run_alive k : y_dead (t k) = false.
  Proof. pose proof (Ht k) as H. destruct H; assumption. Qed.
  Lemma run_inv k : ConcProofs.inv uf me {| nid := me; naddr := local |} (y_core (t k)).
  Proof. apply (conc_inv e me local hosts (z_ann z)); [exact Hrt|]. eapply core_reach. apply run_reach. Qed.
  Lemma run_log a b : a <= b -> exists l, k_log (y_core (t b)) = k_log (y_core (t a)) ++ l.
  Proof.
    intros Hab. induction Hab as [|b Hab [l IH]]; [exists []; rewrite app_nil_r; reflexivity|]. destruct (log_grows _ _ _ _ _ (Ht b)) as [l' ->]. rewrite IH, <- app_assoc. eauto.
  Qed.
  Lemma run_job i pk pc a b : a <= b -> In (i, pk, pc) (k_jobs (y_core (t a))) ->
    In (i, EvEnd) (k_log (y_core (t b))) \/ (exists pc', In (i, pk, pc') (k_jobs (y_core (t b))) /\ jm pk pc' <= jm pk pc).
  Proof.
    intros Hab Hin. induction Hab as [|b Hab IH]; [right; exists pc; split; [exact Hin|lia]|]. destruct IH as [IH|(pc' & Hin' & Hle)].
    - left. destruct (log_grows _ _ _ _ _ (Ht b)) as [l' ->]. apply in_or_app. auto.
    - destruct (job_progress e me z _ _ i pk pc' (pending_reach _ _ _ _ _ _ _ (run_reach b)) (i_nodup _ _ _ _ (run_inv b)) (Ht b) Hin') as [H|[H|(pc2 & H & Hlt)]]; [|auto|].
      + right. exists pc'. auto.
      + right. exists pc2. split; [exact H|lia].
  Qed.
  Lemma run_queue k : qlen (t k) <= z_ann z.
  Proof. destruct (C87_queue_fifo_pf _ _ _ _ _ _ _ Hrt (core_reach _ _ _ _ _ _ _ (run_reach k))) as [_ H]. exact H. Qed.

  (** A queue that stays full. *)
  Lemma full_hangs : 0 < z_ann z -> fair_downloads e me z t -> forall n, (forall m, n <= m -> z_ann z <= qlen (t m)) -> all_hang z t.
  Proof.
    intros Hz Hfd n Hfull.
    enough (H : forall a b m, n <= m -> D1 (t m) <= a -> left_m (t m) <= b -> all_hang z t) by (eapply (H (D1 (t n)) (left_m (t n)) n); lia).
    induction a as [a IHa] using lt_wf_ind. induction b as [b IHb] using lt_wf_ind. intros m Hm Ha Hb.
    assert (Hsame : forall k, n <= k -> dl (t (S k)) = dl (t k) \/ D1 (t (S k)) < D1 (t k) \/ D1 (t (S k)) = D1 (t k) /\ left_m (t (S k)) < left_m (t k)).
    { intros k Hk. destruct (dl_step e me z _ _ (Ht k) (run_alive (S k))) as [[H _]|[H|H]]; [auto| |auto]. pose proof (Hfull (S k) ltac:(lia)). pose proof (run_queue k). lia. }
    assert (Hdl : forall s s', dl s' = dl s -> D1 s' = D1 s /\ left_m s' = left_m s).
    { intros s s' H. unfold dl in H. unfold D1, left_m. injection H as -> -> -> ->. auto. }
    assert (Hmono : forall k, m <= k -> D1 (t k) < D1 (t m) \/ D1 (t k) = D1 (t m) /\ left_m (t k) <= left_m (t m)).
    { intros k Hk. induction Hk as [|k Hk IH]; [right; lia|]. destruct (Hsame k ltac:(lia)) as [H|H]; [apply Hdl in H|]; lia. }
    destruct (Hfd m) as [(k & Hk & Hch)|(k & Hk & Hno)].
    - specialize (Hmono k Hk). destruct (Hsame k ltac:(lia)) as [H|H]; [contradiction|].
      assert (HD : D1 (t (S k)) < a \/ (D1 (t (S k)) <= a /\ left_m (t (S k)) < b)) by lia.
      destruct HD as [HD|[HD1 HD2]].
      + eapply (IHa (D1 (t (S k)))) with (m := S k); [exact HD|lia|lia|constructor].
      + eapply (IHb (left_m (t (S k)))) with (m := S k); lia.
    - exists k. intros j Hj. destruct (Nat.le_gt_cases (z_fetch z) (length (hung (t j)))) as [H|H]; [exact H|]. exfalso. apply (Hno j Hj).
      eapply dl_able; [apply run_reach|apply run_alive|exact H|]. unfold down. pose proof (Hfull j ltac:(lia)) as Hf. unfold qlen in Hf. lia.
  Qed.

  Lemma handler_ends : 0 < z_ann z -> fair_handlers e me z t -> fair_downloads e me z t ->
    forall i pk b n pc, jm pk pc <= b -> In (i, pk, pc) (k_jobs (y_core (t n))) -> (exists m, In (i, EvEnd) (k_log (y_core (t m)))) \/ all_hang z t.
  Proof.
    intros Hz Hfh Hfd i pk. induction b as [b IHb] using lt_wf_ind. intros n pc Hb Hin.
    destruct (Hfh i n) as [(k & Hk & pk1 & pc1 & Hin1 & Hgone)|(k & Hk & Hno)].
    - destruct (run_job i pk pc n k Hk Hin) as [H|(pc' & Hin' & Hle)]; [left; exists k; exact H|].
      assert (E : pk1 = pk /\ pc1 = pc').
      { pose proof (i_nodup _ _ _ _ (run_inv k)) as Hnd. apply in_split in Hin' as (l1 & l2 & E). rewrite E in Hnd, Hin1. eapply job_is; eassumption. }
      destruct E as [-> ->].
      destruct (job_progress e me z _ _ i pk pc' (pending_reach _ _ _ _ _ _ _ (run_reach k)) (i_nodup _ _ _ _ (run_inv k)) (Ht k) Hin') as [H|[H|(pc2 & H & Hlt)]]; [contradiction|left; exists (S k); exact H|].
      eapply (IHb (jm pk pc2)) with (n := S k); [lia|constructor|exact H].
    - destruct (run_job i pk pc n k Hk Hin) as [H|(pc' & Hin' & _)]; [left; exists k; exact H|]. right.
      assert (Hstay : forall m, k <= m -> In (i, pk, pc') (k_jobs (y_core (t m)))).
      { intros m Hm. induction Hm as [|m Hm IH]; [exact Hin'|].
        assert (Hnm : ~ ~ In (i, pk, pc') (k_jobs (y_core (t (S m))))) by (intros H; apply (Hno m Hm); exists (t (S m)); split; [apply Ht|exists pk, pc'; auto]).
        destruct (job_progress e me z _ _ i pk pc' (pending_reach _ _ _ _ _ _ _ (run_reach m)) (i_nodup _ _ _ _ (run_inv m)) (Ht m) IH) as [H|[H|(pc2 & H & Hlt)]]; [exact H| |]; exfalso; apply Hnm; intros Hx.
        - destruct (i_jobs _ _ _ _ (run_inv (S m)) _ _ _ Hx) as [_ Hj]. apply evs_in in H. eapply jok_noend; eassumption.
        - pose proof (i_nodup _ _ _ _ (run_inv (S m))) as Hnd. apply in_split in Hx as (l1 & l2 & E). rewrite E in Hnd, H. destruct (job_is _ _ _ _ _ _ _ Hnd H) as [_ ->]. lia. }
      apply (full_hangs Hz Hfd k). intros m Hm. destruct (Nat.le_gt_cases (z_ann z) (qlen (t m))) as [H|H]; [exact H|]. exfalso. apply (Hno m Hm).
      eapply job_able; [exact Hrt|apply run_reach|apply run_alive|exact (Hstay m Hm)|]. intros x r _. exact H.
  Qed.
End Run.

(** C129: every handler ends: in a process that never stops and whose scheduler forgets nobody, each handler that has begun ends, unless from
    some time on as many downloads hang as there are fetch workers. *)
Lemma C129_handlers_end_pf : forall e uf me local hosts z d0 t, runtime_ok e uf -> sys_reach e me local hosts z d0 (t 0) -> forever e me z t -> 0 < z_ann z ->
  fair_handlers e me z t -> fair_downloads e me z t ->
  forall n i pk, In (i, EvStart pk) (k_log (y_core (t n))) -> (exists m, In (i, EvEnd) (k_log (y_core (t m)))) \/ all_hang z t.
Proof.
  intros e uf me local hosts z d0 t Hrt Hr0 Ht Hz Hfh Hfd n i pk Hin.
  destruct (job_facts _ _ _ _ _ _ (run_inv e uf me local hosts z d0 t Hrt Hr0 Ht n) Hin) as [(pc & Hj & _)|(l & _ & _ & He)]; [|left; exists n; exact He].
  eapply handler_ends with (b := jm pk pc); try eassumption. constructor.
Qed.

Lemma started_in log k pk : nth_error (started log) k = Some pk -> exists i, In (i, EvStart pk) log.
Proof.
  intros H. apply nth_error_In in H. unfold started in H. apply in_flat_map in H as ([i v] & Hin & Hv). cbn [snd] in Hv. destruct v as [p|x|g|n b|tx|g|]; cbn in Hv; try contradiction. destruct Hv as [->|[]]. exists i. exact Hin.
Qed.

(** C129: every query is answered: a packet that was read and asks something is answered, exactly once, to its source and with what it is
    owed, however long the queues are and whatever the schedule, unless all fetch workers come to hang. *)
Lemma C129_every_query_answered_pf : forall e uf me local hosts z d0 t, runtime_ok e uf -> sys_reach e me local hosts z d0 (t 0) -> forever e me z t -> 0 < z_ann z ->
  fair_handlers e me z t -> fair_downloads e me z t ->
  forall n k pk tx q, nth_error (y_read (t n)) k = Some pk -> asks pk tx q ->
  (exists m i g d, nth_error (started (k_log (y_core (t m)))) k = Some pk /\ In (i, EvStart pk) (k_log (y_core (t m))) /\ replies_in (evs i (k_log (y_core (t m)))) = [g] /\
     g_to g = p_addr pk /\ owed me pk d /\ carries (g_bytes g) d) \/ all_hang z t.
Proof.
  intros e uf me local hosts z d0 t Hrt Hr0 Ht Hz Hfh Hfd n k pk tx q Hk Hask.
  destruct (C122_every_packet_taken_up_pf _ _ _ _ _ _ _ _ Hrt Hr0 Ht n k pk Hk) as (m & Hm). destruct (started_in _ _ _ Hm) as (i & Hi).
  destruct (C129_handlers_end_pf _ _ _ _ _ _ _ _ Hrt Hr0 Ht Hz Hfh Hfd m i pk Hi) as [(m' & He)|H]; [left|right; exact H].
  assert (Hlog : exists j, m <= j /\ m' <= j) by (exists (Nat.max m m'); lia). destruct Hlog as (j & Hj & Hj').
  destruct (run_log e me z t Ht _ _ Hj) as (l & El). destruct (run_log e me z t Ht _ _ Hj') as (l' & El').
  assert (Hi' : In (i, EvStart pk) (k_log (y_core (t j)))) by (rewrite El; apply in_or_app; auto).
  assert (He' : In (i, EvEnd) (k_log (y_core (t j)))) by (rewrite El'; apply in_or_app; auto).
  destruct (C86_replies_any_schedule_pf _ _ _ _ _ _ _ _ _ Hrt (core_reach _ _ _ _ _ _ _ (run_reach e me local hosts z d0 t Hr0 Ht j)) Hi') as (H1 & _ & _ & H4).
  specialize (H4 He' (ex_intro _ tx (ex_intro _ q Hask))). destruct (replies_in (evs i (k_log (y_core (t j))))) as [|g [|g' rs]] eqn:Eg; try discriminate H4.
  destruct (H1 g (or_introl eq_refl)) as (Hto & d & Ho & Hc). exists j, i, g, d. split.
  - rewrite El. unfold started. rewrite flat_map_app. rewrite nth_error_app1; [exact Hm|]. apply nth_error_Some. unfold started in Hm. congruence.
  - split; [exact Hi'|]. split; [first [exact Eg|reflexivity]|]. auto.
Qed.

(** ** Announcements *)
Definition begun (s : sys) : nat := length (y_loads s) + length (y_runs s).
Definition M2 (z : sizes) (s : sys) : nat :=
  2 * (S (z_fetch z) - length (y_fpool s) - length (opt (y_fetch s))) + 2 * length (y_loads s) + length (filter u_busy (y_runs s)) + length (opt (y_fetch s)).
Lemma begun_step e me z s s' : sys_step e me z s s' -> length (y_fpool s) <= z_fetch z -> y_dead s' = false ->
  (dl s' = dl s) \/ (begun s' = S (begun s) /\ dl s' <> dl s) \/ (begun s' = begun s /\ (M2 z s' < M2 z s \/ M2 z s' = M2 z s /\ left_m s' < left_m s)).
Proof.
  intros Hst Hb Hd'.
  destruct Hst as [d Ha Hr|p0 Ha Hr Hl|p0 q Ha Hn Hq|p0 Ha Hn Hl|p0 p Ha Hp Hl|c Ha Hc|x q Ha Hf Hq|x Ha Hf Hl|x p Ha Hp Hl|l1 x l2 fe p h dial o r Ha Hld Er Hno|l1 x l2 fe p h dial o Ha Hld Ho|l1 v l2 op ops Ha Hru Hlf|l1 v l2 Ha Hru Hlf Hbv Hok];
    try (left; reflexivity); unfold dl, begun, M2, left_m; sysred.
  - right; right. split; [reflexivity|]. left. rewrite Hf. cbn [opt length]. lia.
  - right; right. split; [reflexivity|]. left. rewrite Hf, app_length. cbn [opt length]. lia.
  - right; left. rewrite app_length. cbn [length]. split; [lia|]. intros H. injection H as _ H. eapply app_neq. exact H.
  - right; right. rewrite Hld, filter_app, !app_length. cbn [filter u_busy length]. split; [lia|]. left. lia.
  - right; right. rewrite Hru, !busy_split, !left_split, !app_length. cbn [u_busy u_left length]. rewrite Hlf. cbn [length]. split; [reflexivity|]. right. split; lia.
  - right; right. rewrite Hru, !busy_split, !app_length. cbn [u_busy length]. rewrite Hbv. split; [reflexivity|]. left. lia.
Qed.

(** C129: every announcement reaches a fetch worker: if the download side is not forgotten, each announcement that was accepted is sooner or
    later given to a fetch worker, in the order of acceptance, unless all fetch workers come to hang; no further announcement is needed for it. *)
Lemma C129_every_announcement_taken_up_pf : forall e uf me local hosts z d0 t, runtime_ok e uf -> sys_reach e me local hosts z d0 (t 0) -> forever e me z t ->
  fair_downloads e me z t ->
  forall n x, In x (enqueued_in (map snd (k_log (y_core (t n))))) -> (exists m, In x (y_loads (t m) ++ map u_x (y_runs (t m)))) \/ all_hang z t.
Proof.
  intros e uf me local hosts z d0 t Hrt Hr0 Ht Hfd n x Hx.
  pose proof (run_reach e me local hosts z d0 t Hr0 Ht) as Hr. pose proof (run_alive e me z t Ht) as Hal.
  set (E := fun k => enqueued_in (map snd (k_log (y_core (t k))))) in *.
  assert (Hgrow : forall m, n <= m -> exists r, E m = E n ++ r).
  { intros m Hm. destruct (run_log e me z t Ht _ _ Hm) as (l & El). unfold E. rewrite El, map_app, enqueued_app. eauto. }
  assert (Hdone : forall m, n <= m -> length (E n) <= begun (t m) -> exists m, In x (y_loads (t m) ++ map u_x (y_runs (t m)))).
  { intros m Hm Hle. exists m. destruct (Hgrow m Hm) as [r Er].
    destruct (C87_queue_fifo_pf _ _ _ _ _ _ _ Hrt (core_reach _ _ _ _ _ _ _ (Hr m))) as [Hq _]. fold (E m) in Hq.
    destruct (C96_announcements_handed_on_pf _ _ _ _ _ _ _ (Hr m)) as (handed & Hh & Hperm).
    apply (Permutation_in _ Hperm). pose proof (Permutation_length Hperm) as Hpl. rewrite app_length, map_length in Hpl. unfold begun in Hle.
    assert (Heq : E n ++ r = handed ++ (y_fpool (t m) ++ opt (y_fetch (t m)) ++ a_queue (w_app (k_world (y_core (t m)))))) by (rewrite <- Er, Hq, Hh, <- !app_assoc; reflexivity).
    fold (E n) in Hx. apply In_nth_error in Hx as [k Hk]. assert (Hkl : k < length (E n)) by (apply nth_error_Some; congruence).
    apply (nth_error_In _ k). assert (Hkh : k < length handed) by lia.
    pose proof (nth_error_app1 (E n) r Hkl) as H1. rewrite Heq, (nth_error_app1 handed _ Hkh) in H1. rewrite H1. exact Hk. }
  assert (Hstep : forall k, dl (t (S k)) = dl (t k) \/ (begun (t (S k)) = S (begun (t k)) /\ dl (t (S k)) <> dl (t k)) \/
     (begun (t (S k)) = begun (t k) /\ (M2 z (t (S k)) < M2 z (t k) \/ M2 z (t (S k)) = M2 z (t k) /\ left_m (t (S k)) < left_m (t k)))).
  { intros k. eapply begun_step; [apply Ht| |apply Hal]. destruct (C96_bounded_pf _ _ _ _ _ _ _ _ Hrt (Hr k)) as (_ & _ & _ & _ & Hfp & _). exact Hfp. }
  assert (Hdl : forall s s', dl s' = dl s -> begun s' = begun s /\ M2 z s' = M2 z s /\ left_m s' = left_m s).
  { intros s s' H. unfold dl in H. unfold begun, M2, left_m. injection H as -> -> -> ->. auto. }
  enough (H : forall c a b m, n <= m -> length (E n) <= begun (t m) + c -> M2 z (t m) <= a -> left_m (t m) <= b -> (exists m, In x (y_loads (t m) ++ map u_x (y_runs (t m)))) \/ all_hang z t)
    by (eapply (H (length (E n)) (M2 z (t n)) (left_m (t n)) n); lia).
  induction c as [|c IHc]; [intros a b m Hm Hc _ _; left; apply (Hdone m Hm); lia|].
  induction a as [a IHa] using lt_wf_ind. induction b as [b IHb] using lt_wf_ind. intros m Hm Hc Ha Hb.
  assert (Hmono : forall k, m <= k -> begun (t m) < begun (t k) \/ begun (t k) = begun (t m) /\ (M2 z (t k) < M2 z (t m) \/ M2 z (t k) = M2 z (t m) /\ left_m (t k) <= left_m (t m))).
  { intros k Hk. induction Hk as [|k Hk IH]; [right; lia|]. destruct (Hstep k) as [H|[[H _]|H]]; [apply Hdl in H|..]; lia. }
  destruct (Hfd m) as [(k & Hk & Hch)|(k & Hk & Hno)].
  - specialize (Hmono k Hk).
    assert (HD : begun (t m) < begun (t (S k)) \/ begun (t (S k)) = begun (t m) /\ (M2 z (t (S k)) < a \/ (M2 z (t (S k)) <= a /\ left_m (t (S k)) < b))).
    { destruct (Hstep k) as [H|[[H _]|H]]; [contradiction|..]; lia. }
    destruct HD as [HD|[HB [HD|[HD1 HD2]]]].
    + eapply (IHc (M2 z (t (S k))) (left_m (t (S k))) (S k)); lia.
    + eapply (IHa (M2 z (t (S k)))) with (m := S k); [exact HD|lia|lia|lia|constructor].
    + eapply (IHb (left_m (t (S k)))) with (m := S k); lia.
  - assert (Hconst : forall j, k <= j -> begun (t j) <= begun (t k)).
    { intros j Hj. induction Hj as [|j Hj IH]; [lia|]. destruct (Hstep j) as [H|[[H Hne]|H]]; [apply Hdl in H; lia| |lia]. exfalso. apply (Hno j Hj). exists (t (S j)). split; [apply Ht|exact Hne]. }
    destruct (Nat.le_gt_cases (length (E n)) (begun (t k))) as [H|Hlt]; [left; apply (Hdone k); lia|]. right.
    exists k. intros j Hj. destruct (Nat.le_gt_cases (z_fetch z) (length (hung (t j)))) as [H|H]; [exact H|]. exfalso. apply (Hno j Hj).
    eapply dl_able; [apply Hr|apply Hal|exact H|]. destruct (Nat.eq_dec (down (t j)) 0) as [E0|E0]; [|lia]. exfalso. unfold down in E0.
    destruct (Hgrow j ltac:(lia)) as [r Er]. destruct (C87_queue_fifo_pf _ _ _ _ _ _ _ Hrt (core_reach _ _ _ _ _ _ _ (Hr j))) as [Hq _]. fold (E j) in Hq.
    destruct (C96_announcements_handed_on_pf _ _ _ _ _ _ _ (Hr j)) as (handed & Hh & Hperm).
    pose proof (Permutation_length Hperm) as Hpl. rewrite app_length, map_length in Hpl. specialize (Hconst j Hj). unfold begun in *.
    apply (f_equal (@length ann)) in Hq. rewrite Er, Hh in Hq. rewrite !app_length in Hq. lia.
Qed.

(** ** Concrete executions: a peer that sends ping after ping; eight steps for each. *)
Definition ping_dg : dgram := {| dg_from := peer0; dg_bytes := B "d1:ad2:id20:aaaaaaaaaaaaaaaaaaaae1:q4:ping1:t2:pp1:y1:qe" |}.
Definition PP : packet := cut ping_dg.
Definition PR : response := WithPingResponse (B "pp") ex_me.
Lemma PP_start : start_pc ex_env ex_me PP = JReply PR.
Proof. vm_compute. reflexivity. Qed.
Lemma PP_asks : asks PP (B "pp") (B "ping").
Proof. eexists. split; [eexists; vm_compute; reflexivity|]. split; [vm_compute; reflexivity|]. split; vm_compute; reflexivity. Qed.

Definition with_jobs (s : sys) (w : cworld) (js : list (nat * packet * jpc)) (l : list (nat * ev)) : sys :=
  set_in s (y_recv s) (y_q s) (y_listen s) (y_pool s) {| k_world := w; k_jobs := js; k_next := k_next (y_core s); k_taken := k_taken (y_core s); k_log := k_log (y_core s) ++ l |} (y_read s).
(** One step of the process, the jobs [pre] being left alone. *)
Definition pingpong (cap : nat) (pre : list (nat * packet * jpc)) (s : sys) : sys :=
  match y_recv s, y_q s, y_listen s, y_pool s with
  | Some pk, _, _, _ => set_in s None (y_q s ++ [pk]) (y_listen s) (y_pool s) (y_core s) (y_read s)
  | None, pk :: q, _, _ => set_in s (y_recv s) q (Some pk) (y_pool s) (y_core s) (y_read s)
  | None, [], Some pk, _ => set_in s (y_recv s) (y_q s) None (y_pool s ++ [pk]) (y_core s) (y_read s)
  | None, [], None, pk :: p => set_in s (y_recv s) (y_q s) (y_listen s) p (core_begin (y_core s) pk) (y_read s)
  | None, [], None, [] =>
    match skipn (length pre) (k_jobs (y_core s)) with
    | (i, pk, JEnd) :: l => with_jobs s (k_world (y_core s)) (pre ++ l) [(i, EvEnd)]
    | (i, pk, pc) :: l => match job_fun ex_env ex_me cap (k_world (y_core s)) pk pc with
        | Some (w', pc', v) => with_jobs s w' (pre ++ (i, pk, pc') :: l) (map (pair i) v)
        | None => s
        end
    | [] => set_in s (Some PP) (y_q s) (y_listen s) (y_pool s) (y_core s) (y_read s ++ [PP])
    end
  end.
Definition stage (rs : list frun) (pre : list (nat * packet * jpc)) (c r : nat) (s : sys) : Prop :=
  (y_dead s = false /\ a_queue (w_app (k_world (y_core s))) = [] /\ dl s = (None, [], [], rs)) /\
  match r with
  | 0 => y_recv s = None /\ y_q s = [] /\ y_listen s = None /\ y_pool s = [] /\ k_jobs (y_core s) = pre /\ k_next (y_core s) = c
  | 1 => y_recv s = Some PP /\ y_q s = [] /\ y_listen s = None /\ y_pool s = [] /\ k_jobs (y_core s) = pre /\ k_next (y_core s) = c
  | 2 => y_recv s = None /\ y_q s = [PP] /\ y_listen s = None /\ y_pool s = [] /\ k_jobs (y_core s) = pre /\ k_next (y_core s) = c
  | 3 => y_recv s = None /\ y_q s = [] /\ y_listen s = Some PP /\ y_pool s = [] /\ k_jobs (y_core s) = pre /\ k_next (y_core s) = c
  | 4 => y_recv s = None /\ y_q s = [] /\ y_listen s = None /\ y_pool s = [PP] /\ k_jobs (y_core s) = pre /\ k_next (y_core s) = c
  | 5 => y_recv s = None /\ y_q s = [] /\ y_listen s = None /\ y_pool s = [] /\ k_jobs (y_core s) = pre ++ [(c, PP, JStart)] /\ k_next (y_core s) = S c
  | 6 => y_recv s = None /\ y_q s = [] /\ y_listen s = None /\ y_pool s = [] /\ k_jobs (y_core s) = pre ++ [(c, PP, JReply PR)] /\ k_next (y_core s) = S c
  | _ => y_recv s = None /\ y_q s = [] /\ y_listen s = None /\ y_pool s = [] /\ k_jobs (y_core s) = pre ++ [(c, PP, JEnd)] /\ k_next (y_core s) = S c
  end.
Definition succ (c r : nat) : nat * nat := if r =? 7 then (S c, 0) else (c, S r).
Lemma skip_pre {A} (l r : list A) : skipn (length l) (l ++ r) = r.
Proof. induction l; [reflexivity|exact IHl]. Qed.
Lemma skip_all {A} (l : list A) : skipn (length l) l = [].
Proof. induction l; [reflexivity|exact IHl]. Qed.
Lemma ys_core' me z s c s' : y_dead s = false -> core_step (fun _ => ex_env) me (z_ann z) (y_core s) c ->
  s' = set_in s (y_recv s) (y_q s) (y_listen s) (y_pool s) c (y_read s) -> sys_step (fun _ => ex_env) me z s s'.
Proof. intros H1 H2 ->. apply ys_core; assumption. Qed.
Lemma stage_next z rs pre c r s : length pre < z_krpc z -> r < 8 -> stage rs pre c r s ->
  sys_step (fun _ => ex_env) ex_me z s (pingpong (z_ann z) pre s) /\ stage rs pre (fst (succ c r)) (snd (succ c r)) (pingpong (z_ann z) pre s).
Proof.
  intros Hz Hr [(Hd & Hq & Hdl) Hs]. unfold stage. unfold dl in *.
  destruct r as [|[|[|[|[|[|[|[|r]]]]]]]]; [..|lia]; destruct Hs as (H1 & H2 & H3 & H4 & H5 & H6); cbn [succ fst snd Nat.eqb]; unfold pingpong; rewrite H1, ?H2, ?H3, ?H4, ?H5; cbn [snd fst].
  - rewrite skip_all. split.
    + pose proof (ys_read (fun _ => ex_env) ex_me z s ping_dg Hd H1) as H. rewrite H2, H3, H4 in H. exact H.
    + sysred. auto 10.
  - split.
    + pose proof (ys_queue (fun _ => ex_env) ex_me z s PP Hd H1) as H. rewrite H2, H3, H4 in H. apply H. unfold RecvChanLen. cbn. lia.
    + sysred. auto 10.
  - split.
    + pose proof (ys_listen (fun _ => ex_env) ex_me z s PP [] Hd H3 H2) as H. rewrite H1, H4 in H. exact H.
    + sysred. auto 10.
  - split.
    + pose proof (ys_submit (fun _ => ex_env) ex_me z s PP Hd H3) as H. rewrite H1, H2, H4 in H. apply H. cbn [length]. lia.
    + sysred. auto 10.
  - split.
    + pose proof (ys_begin (fun _ => ex_env) ex_me z s PP [] Hd H4) as H. rewrite H1, H2, H3, H5 in H. apply H. exact Hz.
    + sysred. rewrite H5, H6. auto 10.
  - rewrite skip_pre. unfold job_fun. rewrite PP_start. split.
    + eapply ys_core'; [exact Hd|eapply (co_job (fun _ => ex_env) ex_me (z_ann z) (y_core s) 0 pre c PP JStart []); [exact H5|apply js_start]|]. rewrite PP_start. unfold with_jobs. rewrite H1, H2, H3, H4. reflexivity.
    + unfold with_jobs. sysred. auto 10.
  - rewrite skip_pre. destruct (job_fun ex_env ex_me (z_ann z) (k_world (y_core s)) PP (JReply PR)) as [[[w' pc'] v]|] eqn:Ej.
    2:{ exfalso. unfold job_fun in Ej. destruct (reply_bytes _ _ _); discriminate Ej. }
    assert (Hpc : pc' = JEnd /\ a_queue (w_app w') = []).
    { unfold job_fun in Ej. destruct (reply_bytes _ _ _); injection Ej as <- <- <-; cbn [send fst w_app]; auto. }
    destruct Hpc as [-> Hq']. split.
    + eapply ys_core'; [exact Hd|eapply (co_job (fun _ => ex_env) ex_me (z_ann z) (y_core s) 0 pre c PP (JReply PR) []); [exact H5|apply job_fun_ok; exact Ej]|]. reflexivity.
    + unfold with_jobs. sysred. auto 10.
  - rewrite skip_pre. split.
    + eapply ys_core'; [exact Hd|eapply (co_end (fun _ => ex_env) ex_me (z_ann z) (y_core s) pre c PP []); exact H5|]. rewrite app_nil_r. reflexivity.
    + unfold with_jobs. sysred. rewrite app_nil_r. auto 10.
Qed.
Section Pings.
  Variables (z : sizes) (rs : list frun) (pre : list (nat * packet * jpc)) (c0 : nat) (s0 : sys).
  Hypothesis Hz : length pre < z_krpc z.
  Hypothesis Hs0 : stage rs pre c0 0 s0.
  Hypothesis Hrs : forall u, In u rs -> u_left u = [] /\ u_busy u = false.
  Definition pings : nat -> sys := fix t n := match n with 0 => s0 | S n => pingpong (z_ann z) pre (t n) end.
  Definition clock : nat -> nat * nat := fix k n := match n with 0 => (c0, 0) | S n => succ (fst (k n)) (snd (k n)) end.
  Lemma clock_lt n : snd (clock n) < 8.
  Proof. induction n as [|n IH]; cbn [clock]; [cbn; lia|]. unfold succ. destruct (snd (clock n) =? 7) eqn:E; cbn [snd]; [lia|]. apply Nat.eqb_neq in E. lia. Qed.
  Lemma clock_val n : 8 * fst (clock n) + snd (clock n) = 8 * c0 + n.
  Proof. induction n as [|n IH]; cbn [clock]; [cbn; lia|]. unfold succ. destruct (snd (clock n) =? 7) eqn:E; cbn [fst snd]; [apply Nat.eqb_eq in E; lia|lia]. Qed.
  Lemma pings_stage n : stage rs pre (fst (clock n)) (snd (clock n)) (pings n).
  Proof. induction n as [|n IH]; [exact Hs0|]. exact (proj2 (stage_next z rs pre _ _ _ Hz (clock_lt n) IH)). Qed.
  Lemma pings_forever : forever (fun _ => ex_env) ex_me z pings.
  Proof. intros n. exact (proj1 (stage_next z rs pre _ _ _ Hz (clock_lt n) (pings_stage n))). Qed.
  Lemma pings_base n : y_dead (pings n) = false /\ a_queue (w_app (k_world (y_core (pings n)))) = [] /\ dl (pings n) = (None, [], [], rs).
  Proof. exact (proj1 (pings_stage n)). Qed.
  Lemma pings_jobs n : exists js, k_jobs (y_core (pings n)) = pre ++ js /\ forall i pk pc, In (i, pk, pc) js -> i = fst (clock n).
  Proof.
    destruct (pings_stage n) as [_ H]. pose proof (clock_lt n) as Hlt. destruct (snd (clock n)) as [|[|[|[|[|[|[|[|r]]]]]]]]; [..|lia]; destruct H as (_ & _ & _ & _ & Hj & _).
    1-5: exists []; rewrite app_nil_r; split; [exact Hj|intros ? ? ? []].
    all: eexists; split; [exact Hj|intros i pk pc [E|[]]; congruence].
  Qed.
  (** The downloads have nothing to do, and every handler but those left alone comes to its end. *)
  Lemma pings_dl : fair_downloads (fun _ => ex_env) ex_me z pings.
  Proof.
    intros n. right. exists n. split; [constructor|]. intros m _ (s' & Hst & Hne). destruct (pings_base m) as (Hd & Hq & Hdl). unfold dl in Hdl. injection Hdl as E1 E2 E3 E4.
    revert Hne. destruct Hst as [d Ha Hr|p0 Ha Hr Hl|p0 q Ha Hn Hq'|p0 Ha Hn Hl|p0 p Ha Hp Hl|c Ha Hc|x q Ha Hf Hq'|x Ha Hf Hl|x p Ha Hp Hl|l1 x l2 fe p h dial o r Ha Hld Er Hno|l1 x l2 fe p h dial o Ha Hld Ho|l1 v l2 op ops Ha Hru Hlf|l1 v l2 Ha Hru Hlf Hbv Hok];
      try (intros Hne; apply Hne; reflexivity); intros _; try congruence.
    - rewrite E3 in Hld. destruct l1; discriminate Hld.
    - destruct (Hrs v) as [H _]; [rewrite <- E4, Hru; apply in_elt|congruence].
    - destruct (Hrs v) as [_ H]; [rewrite <- E4, Hru; apply in_elt|congruence].
  Qed.
  Lemma pings_handlers i : (forall pk pc, ~ In (i, pk, pc) pre) -> fair_to (fun s s' => moves s s' i) (fun s => can (fun _ => ex_env) ex_me z s i) pings.
  Proof.
    intros Hi n. right. exists (n + 8 * (i + 1)). split; [lia|]. intros m Hm (s' & _ & pk & pc & Hin & _). destruct (pings_jobs m) as (js & E & Hjs). rewrite E in Hin. apply in_app_iff in Hin.
    destruct Hin as [Hin|Hin]; [exact (Hi _ _ Hin)|]. apply Hjs in Hin. pose proof (clock_val m). pose proof (clock_lt m). lia.
  Qed.
  Lemma pings_never_hang : 0 < z_fetch z -> ~ all_hang z pings.
  Proof.
    intros H0 (n & H). specialize (H n (le_n _)). destruct (pings_base n) as (_ & _ & E). unfold hung in H. unfold dl in E. injection E as _ _ _ E. rewrite E in H.
    assert (Ef : filter stuck rs = []).
    { clear - Hrs. induction rs as [|u l IH]; [reflexivity|]. cbn [filter]. unfold stuck at 1. rewrite (proj2 (Hrs u (or_introl eq_refl))). cbn [andb]. apply IH. intros v Hv. apply Hrs. right. exact Hv. }
    rewrite Ef in H. cbn in H. lia.
  Qed.
End Pings.

(** Executions with something before them. *)
Lemma prefix_run e me z s1 s2 : sys_steps e me z s1 s2 -> forall t', forever e me z t' -> t' 0 = s2 -> exists j t, forever e me z t /\ t 0 = s1 /\ forall n, t (j + n) = t' n.
Proof.
  intros H. induction H as [s|s s' s'' H IH Hst]; intros t' Ht' E0; [exists 0, t'; auto|].
  destruct (IH (fun n => match n with 0 => s' | S n => t' n end)) as (j & t & H1 & H2 & H3).
  - intros [|n]; [rewrite E0; exact Hst|apply Ht'].
  - reflexivity.
  - exists (S j), t. split; [exact H1|]. split; [exact H2|]. intros n. rewrite <- (H3 (S n)). f_equal. lia.
Qed.
Lemma prefix_fair acts able j (t t' : nat -> sys) : (forall n, t (j + n) = t' n) -> fair_to acts able t' -> fair_to acts able t.
Proof.
  intros E Hf n. destruct (Hf n) as [(k & Hk & H)|(k & Hk & H)]; [left|right]; exists (j + k); (split; [lia|]).
  - rewrite <- Nat.add_succ_r, !E. exact H.
  - intros m Hm. replace m with (j + (m - j)) by lia. rewrite E. apply H. lia.
Qed.
Lemma prefix_hang z j (t t' : nat -> sys) : (forall n, t (j + n) = t' n) -> all_hang z t -> all_hang z t'.
Proof. intros E (n & H). exists n. intros m Hm. rewrite <- E. apply H. lia. Qed.

(** The hypotheses are met: an execution that begins with an announcement waiting in the queue, and in which a peer sends ping after
    ping; it is fair, the download of the announcement does not hang, and the pings ask something. *)
Lemma C129_example_pf : exists t x n k, runtime_ok (fun _ => ex_env) (fun _ _ => false) /\
  sys_reach (fun _ => ex_env) ex_me (mkaddr [] 6881) [ex_addr 1] ex_sizes (fun _ => None) (t 0) /\ forever (fun _ => ex_env) ex_me ex_sizes t /\
  0 < z_ann ex_sizes /\ fair_handlers (fun _ => ex_env) ex_me ex_sizes t /\ fair_downloads (fun _ => ex_env) ex_me ex_sizes t /\ ~ all_hang ex_sizes t /\
  a_queue (w_app (k_world (y_core (t 0)))) = [x] /\ In x (enqueued_in (map snd (k_log (y_core (t 0))))) /\
  nth_error (y_read (t n)) k = Some (cut ping_dg) /\ asks (cut ping_dg) (B "pp") (B "ping").
Proof.
  pose proof (idle_shape ex_sizes attack (announce0 (sha1 meta1) [], peer0) ex_sys0 eq_refl (proj1 ex_sys0_idle) (Nat.le_0_l _)) as H0. rewrite (proj2 ex_sys0_idle) in H0.
  destruct (push_a (fun _ => ex_env) (fun _ _ => false) ex_me ex_sizes attack _ ex_runtime attack_announces attack_hangs (conj Nat.lt_0_1 Nat.lt_0_1) ex_sys0 0 0 0 0 Nat.lt_0_1 H0) as (s1 & [M1 _] & H1).
  pose proof (ss_reach _ _ _ _ _ _ _ _ ex_sys0_ok M1) as Hr1. set (X := (announce0 (sha1 meta1) [], peer0)) in *.
  assert (Hh1 : length (hung s1) = 0).
  { unfold hung. pose proof (sh_hung _ _ _ _ _ _ _ _ _ _ _ _ H1) as Hb. enough (H : forall l, length (filter u_busy l) = 0 -> length (filter stuck l) = 0) by (apply H; exact Hb).
    induction l as [|u l IH]; [reflexivity|]. cbn [filter]. unfold stuck at 1. destruct (u_busy u); [discriminate|exact IH]. }
  destruct (drains _ _ _ _ _ _ _ _ ex_runtime Hr1 Nat.lt_0_1 Nat.lt_0_1 (sh_alive _ _ _ _ _ _ _ _ _ _ _ _ H1) ltac:(rewrite Hh1; exact Nat.lt_0_1)) as (s2 & Hs2 & (C1 & C2 & C3) & Hi).
  assert (Hrs : forall u, In u (y_runs s2) -> u_left u = [] /\ u_busy u = false).
  { intros u Hu. destruct (id_runs _ Hi u Hu) as [H H']. split; [exact H|]. destruct (u_busy u); [|reflexivity]. exfalso. specialize (H' eq_refl). rewrite Hh1 in C2.
    assert (Hin : In u (hung s2)) by (apply filter_In; auto). destruct (hung s2); [elim Hin|discriminate C2]. }
  assert (Hst : stage (y_runs s2) [] (k_next (y_core s2)) 0 s2) by (destruct Hi; split; [unfold dl; repeat split; congruence|auto 10]).
  pose proof (pings_forever ex_sizes _ [] _ s2 Nat.lt_0_1 Hst) as Hpf.
  destruct (prefix_run _ _ _ _ _ Hs2 _ Hpf eq_refl) as (j & t & Ht & E0 & Et).
  exists t, X, (j + 1), (length (y_read s2)). split; [exact ex_runtime|]. split; [rewrite E0; exact Hr1|]. split; [exact Ht|]. split; [exact Nat.lt_0_1|].
  split; [intros i; apply (prefix_fair _ _ j t _ Et); apply (pings_handlers ex_sizes _ [] _ s2 Nat.lt_0_1 Hst); intros ? ? []|].
  split; [apply (prefix_fair _ _ j t _ Et); apply (pings_dl ex_sizes _ [] _ s2 Nat.lt_0_1 Hst Hrs)|].
  split; [intros H; apply (prefix_hang _ _ _ _ Et) in H; revert H; apply (pings_never_hang ex_sizes _ [] _ s2 Nat.lt_0_1 Hst Hrs); exact Nat.lt_0_1|].
  pose proof (sh_queue _ _ _ _ _ _ _ _ _ _ _ _ H1) as Hq. rewrite E0. split; [exact Hq|].
  split. { destruct (C87_queue_fifo_pf _ _ _ _ _ _ _ ex_runtime (core_reach _ _ _ _ _ _ _ Hr1)) as [E _]. rewrite E, Hq. apply in_or_app. right. left. reflexivity. }
  split; [|exact PP_asks]. rewrite Et. cbn [pings]. unfold pingpong. destruct Hi. rewrite id_recv, id_q, id_listen, id_pool, id_jobs. cbn [length skipn]. sysred.
  rewrite nth_error_app2 by constructor. rewrite Nat.sub_diag. reflexivity.
Qed.

Lemma jok_silent me pk l : jok me pk JStart l -> replies_in l = [].
Proof. intros H. inversion H; subst; try reflexivity. match goal with H : nodes_pc _ _ _ _ _ |- _ => inversion H end. Qed.

(** C129 is false without fairness: a scheduler that forgets one handler, and only that one, leaves its packet unanswered forever, though all
    others are answered and no download hangs. *)
Lemma C129_unfair_refuted_pf : exists z t i pk tx q, sys_reach (fun _ => ex_env) ex_me (mkaddr [] 6881) [ex_addr 1] z (fun _ => None) (t 0) /\ runtime_ok (fun _ => ex_env) (fun _ _ => false) /\
  forever (fun _ => ex_env) ex_me z t /\ 0 < z_ann z /\ 0 < z_fetch z /\ fair_downloads (fun _ => ex_env) ex_me z t /\
  (forall j, j <> i -> fair_to (fun s s' => moves s s' j) (fun s => can (fun _ => ex_env) ex_me z s j) t) /\
  (forall m, hung (t m) = [] /\ can (fun _ => ex_env) ex_me z (t m) i) /\
  In (i, EvStart pk) (k_log (y_core (t 0))) /\ asks pk tx q /\ forall m, ~ In (i, EvEnd) (k_log (y_core (t m))) /\ replies_in (evs i (k_log (y_core (t m)))) = [].
Proof.
  set (z := {| z_krpc := 2; z_ann := 1; z_fetch := 1 |}).
  assert (Hr0 : sys_reach (fun _ => ex_env) ex_me (mkaddr [] 6881) [ex_addr 1] z (fun _ => None) ex_sys0) by (eapply yr_start; [exact ex_crawler_ok|reflexivity]).
  assert (Hs0 : stage [] [] 0 0 ex_sys0) by (split; [vm_compute; auto|vm_compute; auto 10]).
  pose proof (pings_forever z [] [] 0 ex_sys0 Nat.lt_0_2 Hs0) as Hf0.
  pose proof (run_reach _ _ _ _ _ _ _ Hr0 Hf0 5) as Hr5. set (s5 := pings z [] ex_sys0 5) in *.
  assert (Hs5 : stage [] [(0, PP, JStart)] 1 0 s5) by exact (pings_stage z [] [] 0 ex_sys0 Nat.lt_0_2 Hs0 5).
  assert (Hz2 : length [(0, PP, JStart)] < z_krpc z) by (cbn; lia).
  pose proof (pings_forever z [] _ 1 s5 Hz2 Hs5) as Hf.
  assert (Hno : forall u : frun, In u [] -> u_left u = [] /\ u_busy u = false) by (intros u []).
  assert (Hjob : forall m, In (0, PP, JStart) (k_jobs (y_core (pings z [(0, PP, JStart)] s5 m)))).
  { intros m. destruct (pings_jobs z [] _ 1 s5 Hz2 Hs5 m) as (js & E & _). rewrite E. left. reflexivity. }
  exists z, (pings z [(0, PP, JStart)] s5), 0, PP, (B "pp"), (B "ping"). split; [exact Hr5|]. split; [exact ex_runtime|]. split; [exact Hf|]. split; [exact Nat.lt_0_1|]. split; [exact Nat.lt_0_1|].
  split; [exact (pings_dl z [] _ 1 s5 Hz2 Hs5 Hno)|].
  split; [intros j Hj; apply (pings_handlers z [] _ 1 s5 Hz2 Hs5); intros pk pc [H|[]]; congruence|].
  split. { intros m. split; [destruct (pings_base z [] _ 1 s5 Hz2 Hs5 m) as (_ & _ & E); unfold hung; unfold dl in E; injection E as _ _ _ E; rewrite E; reflexivity|].
    eapply job_able; [exact ex_runtime|exact (run_reach _ _ _ _ _ _ _ Hr5 Hf m)|apply (pings_base z [] _ 1 s5 Hz2 Hs5 m)|exact (Hjob m)|discriminate]. }
  split. { pose proof (run_inv _ _ _ _ _ _ _ _ ex_runtime Hr5 Hf 0) as HI. destruct (i_jobs _ _ _ _ HI _ _ _ (Hjob 0)) as [_ Hj]. apply evs_in. eapply jok_hd. exact Hj. }
  split; [exact PP_asks|].
  intros m. pose proof (run_inv _ _ _ _ _ _ _ _ ex_runtime Hr5 Hf m) as HI. destruct (i_jobs _ _ _ _ HI _ _ _ (Hjob m)) as [_ Hj]. split.
  - intros He. apply evs_in in He. eapply jok_noend; eassumption.
  - eapply jok_silent. exact Hj.
Qed.
