(** SystemProofs.v -- invariants of the whole process. *)
From Coq Require Import Permutation.
From Verif Require Import Base GoLib Bencode BencodeSpec BencodeProofs BencodePf Types Node RouteTable Middleware Krpc KrpcSpec KrpcProofs KrpcPf Dht DhtSpec DhtPf Conc ConcSpec ConcProofs ConcPf BytesPool Sha1 PeerWire Fetch FetchPf FetchTorrent FetchTorrentSpec FetchTorrentPf Udp System SystemSpec.
Local Open Scope list_scope.

Lemma core_conc e me cap c c' : core_step e me cap c c' -> conc_step e me cap c c'.
Proof. intros [k l1 i pk pc l2 w' pc' v H1 H2|l1 i pk l2 H]; [eapply ks_job; eassumption|eapply ks_end; eassumption]. Qed.

(** The packets in the core. *)
Lemma started_app a b : started (a ++ b) = started a ++ started b.
Proof. apply flat_map_app. Qed.
Lemma job_step_nostart e me cap w pk pc w' pc' v i : job_step e me cap w pk pc w' pc' v -> started (map (pair i) v) = [].
Proof. intros []; reflexivity. Qed.
Lemma core_started e me cap c c' : core_step e me cap c c' -> started (k_log c') = started (k_log c).
Proof.
  intros [k l1 i pk pc l2 w' pc' v H1 H2|l1 i pk l2 H]; cbn [k_log]; rewrite started_app.
  - rewrite (job_step_nostart _ _ _ _ _ _ _ _ _ i H2). apply app_nil_r.
  - apply app_nil_r.
Qed.
Lemma core_taken e me cap c c' : core_step e me cap c c' -> k_taken c' = k_taken c.
Proof. intros []; reflexivity. Qed.
Lemma core_jobs e me cap c c' : core_step e me cap c c' -> length (k_jobs c') <= length (k_jobs c).
Proof. intros [k l1 i pk pc l2 w' pc' v H1 H2|l1 i pk l2 H]; cbn [k_jobs]; rewrite ?H1, ?H, !app_length; cbn; lia. Qed.

Lemma started_in pk log : In pk (started log) <-> exists i, In (i, EvStart pk) log.
Proof.
  unfold started. rewrite in_flat_map. split.
  - intros ([i v] & Hin & Hv). destruct v; cbn in Hv; try contradiction. destruct Hv as [<-|[]]. exists i. exact Hin.
  - intros (i & H). exists (i, EvStart pk). split; [exact H|left; reflexivity].
Qed.

Lemma filter_split {A} (f : A -> bool) l1 x l2 : length (filter f (l1 ++ x :: l2)) = length (filter f (l1 ++ l2)) + (if f x then 1 else 0).
Proof. rewrite !filter_app, !app_length. cbn [filter]. destruct (f x); cbn; lia. Qed.

(** *** bounds *)
Record bounds (z : sizes) (s : sys) : Prop := {
  bd_q : length (y_q s) <= RecvChanLen; bd_pool : length (y_pool s) <= z_krpc z; bd_jobs : length (k_jobs (y_core s)) <= z_krpc z;
  bd_fpool : length (y_fpool s) <= z_fetch z; bd_busy : busy s <= z_fetch z }.

Definition of_handler (u : frun) : Prop := exists fe p h dial, u_f u = fetchHandler fe p h dial (u_os u) (u_x u) /\ t_res (u_f u) <> FStop OutOfMemory.

Lemma handler_stops_no_ops e p h dial o x : (exists r, t_res (fetchHandler e p h dial o x) = FStop r) -> t_ops (fetchHandler e p h dial o x) = [].
Proof.
  unfold fetchHandler. destruct (bind _ _) as [[ih a]| |]; [|intros [r H]; discriminate H..].
  destruct (snd (FetchMetaData e p h (dial a) LocalPeerId ih)); intros [r H]; try discriminate H; reflexivity.
Qed.

(** *** the step-by-step invariant *)
Record sinv (z : sizes) (d0 : disk) (s : sys) : Prop := {
  si_in : started (k_log (y_core s)) ++ y_pool s ++ opt (y_listen s) ++ y_q s ++ opt (y_recv s) = y_read s;
  si_out : exists handed, k_taken (y_core s) = handed ++ y_fpool s ++ opt (y_fetch s) /\ Permutation handed (y_loads s ++ map u_x (y_runs s));
  si_bounds : bounds z s;
  si_runs : Forall of_handler (y_runs s);
  si_left : forall u, In u (y_runs s) -> exists pre, t_ops (u_f u) = pre ++ u_left u;
  si_stuck : forall u, In u (y_runs s) -> (exists r, t_res (u_f u) = FStop r) -> u_busy u = true /\ u_left u = [];
  si_disk : y_disk s = fs_run (y_ops s) d0;
  si_ops : forall more r, interleaved (map u_left (y_runs s) ++ more) r -> interleaved (map (fun u => t_ops (u_f u)) (y_runs s) ++ more) (y_ops s ++ r);
  si_op : forall op, In op (y_ops s) -> exists u, In u (y_runs s) /\ In op (t_ops (u_f u)) }.

Lemma core_reach e me local hosts z d0 s : sys_reach e me local hosts z d0 s -> conc_reach e me local hosts (z_ann z) (y_core s).
Proof.
  intros H. induction H as [w0 w Hi Hb|s s' H IH Hst]; [eapply kr_start; eassumption|].
  destruct Hst; cbn [set_in set_out kill y_core]; try exact IH.
  - eapply kr_step; [exact IH|]. apply ks_begin.
  - eapply kr_step; [exact IH|]. apply core_conc. eassumption.
  - eapply kr_step; [exact IH|]. apply ks_take. assumption.
Qed.

Lemma forall_mid {A} (P : A -> Prop) l1 x y l2 : Forall P (l1 ++ x :: l2) -> (P x -> P y) -> Forall P (l1 ++ y :: l2).
Proof. intros H Hxy. apply Forall_app in H as [H1 H2]. apply Forall_app. split; [exact H1|]. inversion H2; subst. constructor; auto. Qed.
Lemma in_mid {A} (a : A) l1 x l2 : In a (l1 ++ x :: l2) -> a = x \/ In a (l1 ++ l2).
Proof. rewrite !in_app_iff. cbn. intuition. Qed.
Lemma mid_in {A} (a : A) l1 x l2 : a = x \/ In a (l1 ++ l2) -> In a (l1 ++ x :: l2).
Proof. rewrite !in_app_iff. cbn. intuition. Qed.

Ltac sysred := cbn [set_in set_out kill y_dead y_recv y_q y_listen y_pool y_core y_fetch y_fpool y_loads y_runs y_disk y_read y_ops core_begin core_take k_log k_jobs k_taken k_next k_world].
Ltac sysredin H := cbn [set_in set_out kill y_dead y_recv y_q y_listen y_pool y_core y_fetch y_fpool y_loads y_runs y_disk y_read y_ops core_begin core_take k_log k_jobs k_taken k_next k_world] in H.

Lemma sinv_init z d0 w : sinv z d0 (sys_init {| k_world := w; k_jobs := []; k_next := 0; k_taken := []; k_log := [] |} d0).
Proof.
  split; unfold sys_init; sysred; try solve [constructor | intros; contradiction | reflexivity].
  - exists []. split; [reflexivity|constructor].
  - split; cbn; lia.
  - intros more r H. exact H.
Qed.

(** A step that leaves the downloads alone. *)
Lemma sinv_front e me z d0 s s' : sinv z d0 s -> sys_step e me z s s' ->
  y_runs s' = y_runs s -> y_disk s' = y_disk s -> y_ops s' = y_ops s ->
  (started (k_log (y_core s')) ++ y_pool s' ++ opt (y_listen s') ++ y_q s' ++ opt (y_recv s') = y_read s') ->
  (exists handed, k_taken (y_core s') = handed ++ y_fpool s' ++ opt (y_fetch s') /\ Permutation handed (y_loads s' ++ map u_x (y_runs s'))) ->
  bounds z s' -> sinv z d0 s'.
Proof.
  intros [H1 H2 H3 H4 H5 H6 H7 H8 H9] _ E1 E2 E3 G1 G2 G3. split; rewrite ?E2, ?E3; try assumption; rewrite ?E1; assumption.
Qed.

Lemma opt_app {A} (a : A) l : opt (Some a) ++ l = a :: l. Proof. reflexivity. Qed.

Lemma sinv_step e me z d0 s s' : sinv z d0 s -> sys_step e me z s s' -> sinv z d0 s'.
Proof.
  intros HI Hst. pose proof HI as [H1 H2 H3 H4 H5 H6 H7 H8 H9]. pose proof Hst as Hst0.
  destruct H3 as [B1 B2 B3 B4 B5]. unfold busy in B5.
  destruct Hst as [d Ha Hr|pk Ha Hr Hl|pk q Ha Hr Hq|pk Ha Hr Hl|pk p Ha Hp Hl|c Ha Hc|x q Ha Hf Hq|x Ha Hf Hl|x p Ha Hp Hl|l1 x l2 fe p h dial o r Ha Hld Er Hno|l1 x l2 fe p h dial o Ha Hld Ho|l1 u l2 op ops Ha Hru Hlf|l1 u l2 Ha Hru Hlf Hb Hok].
  - apply (sinv_front e me z d0 s _ HI Hst0); sysred; try reflexivity; [|exact H2|split; unfold busy; sysred; assumption].
    rewrite <- H1, Hr. cbn [opt app]. rewrite ?app_nil_r, <- ?app_assoc, ?app_nil_r. reflexivity.
  - apply (sinv_front e me z d0 s _ HI Hst0); sysred; try reflexivity; [|exact H2|split; unfold busy; sysred; rewrite ?app_length; cbn; lia].
    rewrite <- H1, Hr. cbn [opt app]. rewrite ?app_nil_r, <- ?app_assoc, ?app_nil_r. reflexivity.
  - apply (sinv_front e me z d0 s _ HI Hst0); sysred; try reflexivity; [|exact H2|split; unfold busy; sysred; try assumption; rewrite Hq in B1; cbn in B1; lia].
    rewrite <- H1, Hr, Hq. cbn [opt app]. rewrite <- ?app_assoc. reflexivity.
  - apply (sinv_front e me z d0 s _ HI Hst0); sysred; try reflexivity; [|exact H2|split; unfold busy; sysred; rewrite ?app_length; cbn; lia].
    rewrite <- H1, Hr. cbn [opt app]. rewrite ?app_nil_r, <- ?app_assoc, ?app_nil_r. reflexivity.
  - apply (sinv_front e me z d0 s _ HI Hst0); sysred; try reflexivity; [|exact H2|split; unfold busy; sysred; rewrite ?app_length; rewrite Hp in B2; cbn in *; lia].
    rewrite <- H1, Hp, started_app. cbn [started flat_map snd app]. rewrite <- !app_assoc. reflexivity.
  - apply (sinv_front e me z d0 s _ HI Hst0); sysred; try reflexivity.
    + rewrite (core_started _ _ _ _ _ Hc). exact H1.
    + rewrite (core_taken _ _ _ _ _ Hc). exact H2.
    + pose proof (core_jobs _ _ _ _ _ Hc). split; unfold busy; sysred; lia.
  - apply (sinv_front e me z d0 s _ HI Hst0); sysred; try reflexivity; [exact H1| |split; unfold busy; sysred; assumption].
    destruct H2 as (hd & E & P). exists hd. rewrite E, Hf. cbn [opt]. rewrite app_nil_r, app_assoc. split; [reflexivity|exact P].
  - apply (sinv_front e me z d0 s _ HI Hst0); sysred; try reflexivity; [exact H1| |split; unfold busy; sysred; rewrite ?app_length; cbn; lia].
    destruct H2 as (hd & E & P). exists hd. rewrite E, Hf. cbn [opt]. rewrite app_nil_r. split; [reflexivity|exact P].
  - apply (sinv_front e me z d0 s _ HI Hst0); sysred; try reflexivity; [exact H1| |split; unfold busy in *; sysred; rewrite ?app_length; rewrite Hp in B4; cbn in *; lia].
    destruct H2 as (hd & E & P). exists (hd ++ [x]). rewrite E, Hp. split; [rewrite <- app_assoc; reflexivity|].
    rewrite <- app_assoc. cbn [app]. etransitivity; [apply Permutation_app_comm|]. cbn [app]. apply Permutation_cons_app. exact P.
  - split; sysred; try assumption.
    + destruct H2 as (hd & E & P). exists hd. split; [exact E|]. etransitivity; [exact P|]. rewrite Hld, map_app. cbn [map u_x].
      rewrite app_assoc. etransitivity; [|apply Permutation_cons_append]. rewrite <- !app_assoc. cbn [app]. symmetry. apply Permutation_middle.
    + split; unfold busy; sysred; try assumption. rewrite Hld, app_length in B5. rewrite filter_app, !app_length. cbn [filter u_busy length] in *. lia.
    + apply Forall_app. split; [exact H4|]. constructor; [|constructor]. exists fe, p, h, dial. split; assumption.
    + intros u Hu. apply in_app_iff in Hu. destruct Hu as [Hu|[<-|[]]]; [auto|]. exists []. reflexivity.
    + intros u Hu He. apply in_app_iff in Hu. destruct Hu as [Hu|[<-|[]]]; [auto|]. cbn [u_busy u_left u_f] in *. split; [reflexivity|]. rewrite Er. apply handler_stops_no_ops. rewrite <- Er. exact He.
    + intros more r0 Hi. rewrite !map_app in *. cbn [map u_left u_f] in *. rewrite <- !app_assoc in *. apply H8. exact Hi.
    + intros op Hop. destruct (H9 op Hop) as (u & Hu & Hin). exists u. split; [apply in_app_iff; left; exact Hu|exact Hin].
  - split; sysred; try assumption. split; unfold busy; sysred; assumption.
  - set (u' := {| u_x := u_x u; u_os := u_os u; u_f := u_f u; u_left := ops; u_busy := u_busy u |}).
    assert (Hold : forall v, In v (l1 ++ u' :: l2) -> v = u' \/ In v (y_runs s)).
    { intros v Hv. apply in_mid in Hv. destruct Hv as [->|Hv]; [left; reflexivity|right]. rewrite Hru. apply mid_in. right. exact Hv. }
    assert (Hu : In u (y_runs s)) by (rewrite Hru; apply mid_in; left; reflexivity).
    split; sysred; try assumption.
    + destruct H2 as (hd & E & P). exists hd. split; [exact E|]. rewrite Hru, map_app in P. rewrite map_app. exact P.
    + split; unfold busy; sysred; try assumption. rewrite Hru, filter_split in B5. rewrite filter_split. exact B5.
    + rewrite Hru in H4. eapply forall_mid; [exact H4|]. intros (fe & p & h & dial & E & N). exists fe, p, h, dial. split; assumption.
    + intros v Hv. destruct (Hold v Hv) as [->|Hv']; [|auto]. destruct (H5 u Hu) as (pre & E). exists (pre ++ [op]). cbn [u_f u_left u']. rewrite E, Hlf, <- app_assoc. reflexivity.
    + intros v Hv He. destruct (Hold v Hv) as [->|Hv']; [|auto]. cbn [u_f u_busy u_left u'] in *. destruct (H6 u Hu He) as [_ D]. rewrite Hlf in D. discriminate D.
    + rewrite H7. unfold fs_run. rewrite fold_left_app. reflexivity.
    + intros more r Hi. rewrite <- app_assoc. cbn [app]. rewrite Hru in H8. rewrite !map_app in *. cbn [map u_left u_f u'] in *. rewrite <- !app_assoc in *. cbn [app] in *.
      specialize (H8 more (op :: r)). rewrite <- !app_assoc in H8. cbn [app] in H8. apply H8. rewrite Hlf. apply il_step. exact Hi.
    + intros op' Hin. apply in_app_iff in Hin. destruct Hin as [Hin|[<-|[]]].
      * destruct (H9 op' Hin) as (v & Hv & Hop). rewrite Hru in Hv. apply in_mid in Hv. destruct Hv as [->|Hv].
        -- exists u'. split; [apply mid_in; left; reflexivity|exact Hop].
        -- exists v. split; [apply mid_in; right; exact Hv|exact Hop].
      * exists u'. split; [apply mid_in; left; reflexivity|]. destruct (H5 u Hu) as (pre & E). cbn [u_f u']. rewrite E, Hlf. apply in_app_iff. right. left. reflexivity.
  - set (u' := {| u_x := u_x u; u_os := u_os u; u_f := u_f u; u_left := []; u_busy := false |}).
    assert (Hold : forall v, In v (l1 ++ u' :: l2) -> v = u' \/ In v (y_runs s)).
    { intros v Hv. apply in_mid in Hv. destruct Hv as [->|Hv]; [left; reflexivity|right]. rewrite Hru. apply mid_in. right. exact Hv. }
    assert (Hu : In u (y_runs s)) by (rewrite Hru; apply mid_in; left; reflexivity).
    split; sysred; try assumption.
    + destruct H2 as (hd & E & P). exists hd. split; [exact E|]. rewrite Hru, map_app in P. rewrite map_app. exact P.
    + split; unfold busy; sysred; try assumption. rewrite Hru, filter_split in B5. rewrite filter_split. rewrite Hb in B5. cbn [u_busy u']. lia.
    + rewrite Hru in H4. eapply forall_mid; [exact H4|]. intros (fe & p & h & dial & E & N). exists fe, p, h, dial. split; assumption.
    + intros v Hv. destruct (Hold v Hv) as [->|Hv']; [|auto]. destruct (H5 u Hu) as (pre & E). exists pre. cbn [u_f u_left u']. rewrite E, Hlf. reflexivity.
    + intros v Hv He. destruct (Hold v Hv) as [->|Hv']; [|auto]. cbn [u_f u_busy u_left u'] in *. destruct He as [r He]. rewrite Hok in He. discriminate He.
    + intros more r Hi. rewrite Hru in H8. rewrite !map_app in *. cbn [map u_left u_f u'] in *. apply H8. rewrite Hlf. exact Hi.
    + intros op' Hin. destruct (H9 op' Hin) as (v & Hv & Hop). rewrite Hru in Hv. apply in_mid in Hv. destruct Hv as [->|Hv].
      * exists u'. split; [apply mid_in; left; reflexivity|exact Hop].
      * exists v. split; [apply mid_in; right; exact Hv|exact Hop].
Qed.

Lemma sys_inv e me local hosts z d0 s : sys_reach e me local hosts z d0 s -> sinv z d0 s.
Proof. intros H. induction H as [w0 w _ _|s s' _ IH Hst]; [apply sinv_init|eapply sinv_step; eassumption]. Qed.

(** Where an announcement comes from. *)
Lemma taken_from e uf me local hosts z d0 s x : runtime_ok e uf -> sys_reach e me local hosts z d0 s -> In x (k_taken (y_core s)) ->
  exists pk, In pk (y_read s) /\ announcement pk x.
Proof.
  intros Hrt Hr Hx. pose proof (core_reach _ _ _ _ _ _ _ Hr) as Hc. pose proof (sys_inv _ _ _ _ _ _ _ Hr) as HI.
  destruct (C87_queue_fifo_pf _ _ _ _ _ _ _ Hrt Hc) as [F _].
  assert (Hin : In x (enqueued_in (map snd (k_log (y_core s))))) by (rewrite F; apply in_app_iff; left; exact Hx).
  unfold enqueued_in in Hin. apply in_flat_map in Hin. destruct Hin as (v & Hv & Hxv). destruct v as [p0|y|g|n0 b0|t0|g| ]; cbn in Hxv; try contradiction. destruct Hxv as [->|[]].
  apply in_map_iff in Hv. destruct Hv as ([i v] & Ev & Hlog). cbn in Ev. subst v.
  pose proof (conc_inv _ _ _ _ _ _ _ Hrt Hc) as Hinv.
  assert (Hlt : i < k_next (y_core s)).
  { destruct (Nat.lt_ge_cases i (k_next (y_core s))) as [H|H]; [exact H|]. apply evs_in in Hlog. rewrite (i_fresh _ _ _ _ Hinv i H) in Hlog. elim Hlog. }
  assert (Hst : exists pk, In (i, EvStart pk) (k_log (y_core s))).
  { destruct (i_known _ _ _ _ Hinv i Hlt) as [(pk & pc & Hj)|(pk & l & E & Hj)].
    - destruct (i_jobs _ _ _ _ Hinv _ _ _ Hj) as [_ Hjok]. exists pk. apply evs_in. eapply jok_hd. exact Hjok.
    - exists pk. apply evs_in. rewrite E. apply in_app_iff. left. eapply jok_hd. exact Hj. }
  destruct Hst as (pk & Hst). exists pk. split.
  - rewrite <- (si_in _ _ _ HI). apply in_app_iff. left. apply started_in. exists i. exact Hst.
  - destruct (C87_announcements_pf _ _ _ _ _ _ _ _ _ Hrt Hc Hst) as [[E|(x' & Ha & E)] _].
    + assert (In x (enqueued_in (evs i (k_log (y_core s))))) as H; [|rewrite E in H; elim H].
      unfold enqueued_in. apply in_flat_map. exists (EvEnq x). split; [apply evs_in; exact Hlog|left; reflexivity].
    + assert (In x (enqueued_in (evs i (k_log (y_core s))))) as H.
      { unfold enqueued_in. apply in_flat_map. exists (EvEnq x). split; [apply evs_in; exact Hlog|left; reflexivity]. }
      rewrite E in H. destruct H as [<-|[]]. exact Ha.
Qed.

Lemma run_from e uf me local hosts z d0 s u : runtime_ok e uf -> sys_reach e me local hosts z d0 s -> In u (y_runs s) ->
  exists pk, In pk (y_read s) /\ announcement pk (u_x u).
Proof.
  intros Hrt Hr Hu. eapply taken_from; [exact Hrt|exact Hr|]. destruct (si_out _ _ _ (sys_inv _ _ _ _ _ _ _ Hr)) as (hd & E & P).
  rewrite E. apply in_app_iff. left. eapply Permutation_in; [symmetry; exact P|]. apply in_app_iff. right. apply in_map. exact Hu.
Qed.
