(** SystemPf.v -- proofs of C96-C98: the whole process. *)
From Coq Require Import Permutation.
From Verif Require Import Base GoLib Bencode BencodeSpec BencodeProofs BencodePf Types Node RouteTable Middleware Krpc KrpcSpec KrpcProofs KrpcPf Dht DhtSpec DhtPf Conc ConcSpec ConcProofs ConcPf BytesPool Sha1 PeerWire Fetch FetchSpec FetchPf FetchTorrent FetchTorrentSpec FetchTorrentPf Udp System SystemSpec SystemProofs SystemLive.
Local Open Scope list_scope.

(** ** C96 *)

(** C96: whatever the whole process does, its handlers, node table, request table and announcement queue
    behave as the concurrent crawler of C86-C93. *)
Lemma C96_refines_crawler_pf : forall e me local hosts z d0 s, sys_reach e me local hosts z d0 s -> conc_reach e me local hosts (z_ann z) (y_core s).
Proof. exact core_reach. Qed.

(** C96: no packet is lost, duplicated or reordered between the socket and the start of its handler: the
    packets read from the socket are, in order, those whose handlers were started, those in the work
    pool, the one Listen holds, those in the packet queue and the one the reader holds. *)
Lemma C96_packets_in_order_pf : forall e me local hosts z d0 s, sys_reach e me local hosts z d0 s ->
  y_read s = started (k_log (y_core s)) ++ y_pool s ++ opt (y_listen s) ++ y_q s ++ opt (y_recv s).
Proof. intros e me local hosts z d0 s H. symmetry. exact (si_in _ _ _ (sys_inv _ _ _ _ _ _ _ H)). Qed.

(** C96: the reader takes the first 1024 bytes of a datagram and its source: nothing longer is ever read, and a reader
    that waits reads whatever datagram arrives. *)
Lemma C96_reads_1024_bytes_pf : forall e me local hosts z d0 s, sys_reach e me local hosts z d0 s ->
  (forall pk, In pk (y_read s) -> length (p_bytes pk) <= 1024) /\
  (y_dead s = false -> y_recv s = None -> forall d, exists s' pk, sys_step e me z s s' /\ y_read s' = y_read s ++ [pk] /\
     p_addr pk = dg_from d /\ p_bytes pk = firstn 1024 (dg_bytes d)).
Proof.
  intros e me local hosts z d0 s Hr. split.
  - induction Hr as [w0 w Hi Hb|s s' Hr IH Hs]; [intros pk []|]. destruct Hs; cbn [set_in set_out kill y_read]; try exact IH.
    intros pk Hin. apply in_app_iff in Hin. destruct Hin as [Hin|[<-|[]]]; [apply IH; exact Hin|]. cbn [cut p_bytes]. rewrite firstn_length. apply Nat.le_min_l.
  - intros Hd Hn d. eexists _, _. split; [apply (ys_read e me z s d Hd Hn)|]. cbn [set_in y_read cut p_addr p_bytes]. auto.
Qed.

(** C96: nor is an announcement: those the fetch loop took from the queue are those handed to a worker,
    followed in order by those in the fetch pool and the one the loop holds; the workers download, or
    have downloaded, exactly those handed to them. *)
Lemma C96_announcements_handed_on_pf : forall e me local hosts z d0 s, sys_reach e me local hosts z d0 s ->
  exists handed, k_taken (y_core s) = handed ++ y_fpool s ++ opt (y_fetch s) /\ Permutation handed (y_loads s ++ map u_x (y_runs s)).
Proof. intros e me local hosts z d0 s H. exact (si_out _ _ _ (sys_inv _ _ _ _ _ _ _ H)). Qed.

(** C96: memory: the packets and announcements waiting or being worked on are bounded by the configured sizes. *)
Lemma C96_bounded_pf : forall e uf me local hosts z d0 s, runtime_ok e uf -> sys_reach e me local hosts z d0 s ->
  length (y_q s) <= 100 /\ length (y_pool s) <= z_krpc z /\ length (k_jobs (y_core s)) <= z_krpc z /\
  length (a_queue (w_app (k_world (y_core s)))) <= z_ann z /\ length (y_fpool s) <= z_fetch z /\
  length (y_loads s) + length (filter u_busy (y_runs s)) <= z_fetch z.
Proof.
  intros e uf me local hosts z d0 s Hrt H. destruct (si_bounds _ _ _ (sys_inv _ _ _ _ _ _ _ H)) as [B1 B2 B3 B4 B5].
  destruct (C87_queue_fifo_pf _ _ _ _ _ _ _ Hrt (core_reach _ _ _ _ _ _ _ H)) as [_ B6]. unfold busy, RecvChanLen in *. auto 10.
Qed.

(** Regrouping a history by job. *)
Lemma evs_cons j v log i : evs i ((j, v) :: log) = (if Nat.eqb j i then [v] else []) ++ evs i log.
Proof. unfold evs. cbn [filter fst]. destruct (Nat.eqb j i); reflexivity. Qed.
Lemma by_job_at {X} (f : ev -> list X) v log j : forall n a, a <= j < a + n ->
  Permutation (flat_map (fun i => flat_map f (evs i ((j, v) :: log))) (seq a n)) (f v ++ flat_map (fun i => flat_map f (evs i log)) (seq a n)).
Proof.
  assert (Hskip : forall n a, (j < a \/ a + n <= j) -> flat_map (fun i => flat_map f (evs i ((j, v) :: log))) (seq a n) = flat_map (fun i => flat_map f (evs i log)) (seq a n)).
  { induction n as [|n IH]; intros a Ha; [reflexivity|]. cbn [seq flat_map]. rewrite IH by lia. rewrite evs_cons. destruct (Nat.eqb_spec j a); [lia|reflexivity]. }
  induction n as [|n IH]; intros a Ha; [lia|]. cbn [seq flat_map]. rewrite evs_cons. destruct (Nat.eqb_spec j a) as [->|Hn].
  - rewrite Hskip by lia. cbn [app flat_map]. rewrite <- app_assoc. reflexivity.
  - cbn [app]. rewrite IH by lia. rewrite !app_assoc. apply Permutation_app_tail. apply Permutation_app_comm.
Qed.
Lemma by_job {X} (f : ev -> list X) log n : (forall p, In p log -> fst p < n) ->
  Permutation (flat_map f (map snd log)) (flat_map (fun i => flat_map f (evs i log)) (seq 0 n)).
Proof.
  induction log as [|[j v] log IH]; intros Hn.
  - cbn. induction (seq 0 n) as [|a l IHl]; [constructor|exact IHl].
  - rewrite by_job_at by (specialize (Hn (j, v) (or_introl eq_refl)); cbn in Hn; lia). cbn [map snd flat_map]. apply Permutation_app_head. apply IH.
    intros p Hp. apply Hn. right. exact Hp.
Qed.
Lemma started_snd log : started log = flat_map (fun v => match v with EvStart pk => [pk] | _ => [] end) (map snd log).
Proof. induction log as [|[i v] log IH]; [reflexivity|]. cbn [map snd flat_map started]. rewrite <- IH. reflexivity. Qed.

Lemma jok_one_start me pk pc l : jok me pk pc l -> exists r, l = EvStart pk :: r /\ flat_map (fun v => match v with EvStart p => [p] | _ => [] end) r = [].
Proof.
  intros H. destruct H; try (eexists; split; [reflexivity|reflexivity]). exists l. split; [reflexivity|].
  clear - H2. induction l as [|v l IH]; [reflexivity|]. cbn in H2. apply andb_true_iff in H2 as [Hv Hl]. destruct v; try discriminate Hv; cbn; auto.
Qed.

Lemma forall2_perm {X Y} (R : X -> Y -> Prop) xs ys : Forall2 R xs ys -> forall ys', Permutation ys ys' -> exists xs', Permutation xs xs' /\ Forall2 R xs' ys'.
Proof.
  intros HF ys' HP. revert xs HF. induction HP as [|y l l' HP IH|x y l|l l1 l2 HP1 IH1 HP2 IH2]; intros xs HF.
  - inversion HF; subst. exists []. split; constructor.
  - inversion HF as [|x0 ? xs0 ? Hh Ht]; subst. destruct (IH _ Ht) as (xs' & P & F). exists (x0 :: xs'). split; [apply perm_skip; exact P|constructor; assumption].
  - inversion HF as [|x0 ? xs0 ? Hh Ht]; subst. inversion Ht as [|x1 ? xs1 ? Hh1 Ht1]; subst. exists (x1 :: x0 :: xs1). split; [apply perm_swap|]. repeat constructor; assumption.
  - destruct (IH1 _ HF) as (xs1 & P1 & F1). destruct (IH2 _ F1) as (xs2 & P2 & F2). exists xs2. split; [etransitivity; eassumption|exact F2].
Qed.

(** C96: every download is caused by an announcement packet of its own: the packets read can be arranged
    so that the first of them announce, one by one, what the workers download or have downloaded, what
    waits for a worker, and what waits in the announcement queue. *)
Lemma C96_one_download_per_announcement_pf : forall e uf me local hosts z d0 s, runtime_ok e uf -> sys_reach e me local hosts z d0 s ->
  exists pks rest, Permutation (y_read s) (pks ++ rest) /\
    Forall2 announcement pks (y_loads s ++ map u_x (y_runs s) ++ y_fpool s ++ opt (y_fetch s) ++ a_queue (w_app (k_world (y_core s)))).
Proof.
  intros e uf me local hosts z d0 s Hrt Hr. pose proof (core_reach _ _ _ _ _ _ _ Hr) as Hc. pose proof (sys_inv _ _ _ _ _ _ _ Hr) as HI.
  pose proof (conc_inv _ _ _ _ _ _ _ Hrt Hc) as Hinv. set (log := k_log (y_core s)) in *. set (n := k_next (y_core s)) in *.
  assert (Hlt : forall p, In p log -> fst p < n).
  { intros [i v] Hin. cbn. destruct (Nat.lt_ge_cases i n) as [H|H]; [exact H|]. apply evs_in in Hin. unfold log in Hin. rewrite (i_fresh _ _ _ _ Hinv i H) in Hin. elim Hin. }
  assert (Hjob : forall i, i < n -> exists pk, flat_map (fun v => match v with EvStart p => [p] | _ => [] end) (evs i log) = [pk] /\ (enqueued_in (evs i log) = [] \/ exists x, announcement pk x /\ enqueued_in (evs i log) = [x])).
  { intros i Hi. assert (Hex : exists pk l t, evs i log = EvStart pk :: l ++ t /\ flat_map (fun v => match v with EvStart p => [p] | _ => [] end) (l ++ t) = []).
    { destruct (i_known _ _ _ _ Hinv i Hi) as [(pk & pc & Hj)|(pk & l & E & Hj)].
      - destruct (i_jobs _ _ _ _ Hinv _ _ _ Hj) as [_ Hjok]. destruct (jok_one_start _ _ _ _ Hjok) as (r & E & Hs). exists pk, r, []. rewrite app_nil_r. split; [exact E|exact Hs].
      - destruct (jok_one_start _ _ _ _ Hj) as (r & E' & Hs). exists pk, r, [EvEnd]. unfold log. rewrite E, E'. split; [reflexivity|]. rewrite flat_map_app, Hs. reflexivity. }
    destruct Hex as (pk & l & t & E & Hs). exists pk. rewrite E at 1. cbn [flat_map]. rewrite Hs. split; [reflexivity|].
    assert (Hin : In (i, EvStart pk) log) by (apply evs_in; rewrite E; left; reflexivity).
    exact (proj1 (C87_announcements_pf _ _ _ _ _ _ _ _ _ Hrt Hc Hin)). }
  assert (Hall : forall k a, a + k <= n -> exists pks rest, Permutation (flat_map (fun i => flat_map (fun v => match v with EvStart p => [p] | _ => [] end) (evs i log)) (seq a k)) (pks ++ rest) /\
     Forall2 announcement pks (flat_map (fun i => enqueued_in (evs i log)) (seq a k))).
  { induction k as [|k IH]; intros a Ha; [exists [], []; split; constructor|]. cbn [seq flat_map]. destruct (IH (S a) ltac:(lia)) as (pks & rest & P & F).
    destruct (Hjob a ltac:(lia)) as (pk & E1 & [E2|(x & Hx & E2)]); rewrite E1, E2; cbn [app].
    - exists pks, (pk :: rest). split; [apply Permutation_cons_app; exact P|exact F].
    - exists (pk :: pks), rest. split; [apply perm_skip; exact P|constructor; assumption]. }
  destruct (Hall n 0 ltac:(lia)) as (pks & rest & P & F). pose proof (by_job (fun v => match v with EvEnq x => [x] | _ => [] end) log n Hlt) as PE.
  fold enqueued_in in PE. destruct (C87_queue_fifo_pf _ _ _ _ _ _ _ Hrt Hc) as [Q _]. fold log in Q. unfold enqueued_in in Q. rewrite Q in PE.
  destruct (si_out _ _ _ HI) as (hd & E & PH). rewrite E in PE.
  assert (PT : Permutation (flat_map (fun i => enqueued_in (evs i log)) (seq 0 n)) (y_loads s ++ map u_x (y_runs s) ++ y_fpool s ++ opt (y_fetch s) ++ a_queue (w_app (k_world (y_core s))))).
  { etransitivity; [symmetry; exact PE|]. rewrite <- !app_assoc. rewrite (app_assoc (y_loads s)). apply Permutation_app_tail. exact PH. }
  destruct (forall2_perm _ _ _ F _ PT) as (pks' & P' & F').
  exists pks', (rest ++ y_pool s ++ opt (y_listen s) ++ y_q s ++ opt (y_recv s)). split; [|exact F'].
  rewrite <- (si_in _ _ _ HI). fold log. rewrite (app_assoc pks' rest). apply Permutation_app_tail. rewrite started_snd.
  etransitivity; [apply (by_job _ log n Hlt)|]. etransitivity; [exact P|]. apply Permutation_app_tail. exact P'.
Qed.

(** ** C97 *)

(** C97: for every configuration, every sequence of datagrams, every schedule and every behaviour of peers
    and file system: a file that differs from its initial state is torrent/<hex>.torrent of the SHA-1 of
    data a peer delivered, and a packet read from the socket announced that SHA-1 as its info hash. *)
Lemma C97_files_were_announced_pf : forall e uf me local hosts z d0 s q, runtime_ok e uf -> sys_reach e me local hosts z d0 s ->
  y_disk s q <> d0 q ->
  exists d pk tx a, q = file_of (sha1 d) /\ In pk (y_read s) /\ proper_query (p_bytes pk) tx "announce_peer" a /\ field a "info_hash" (VStr (sha1 d)) /\
    exists u, In u (y_runs s) /\ t_data (u_f u) = Some d.
Proof.
  intros e uf me local hosts z d0 s q Hrt Hr Hq. pose proof (sys_inv _ _ _ _ _ _ _ Hr) as HI.
  destruct (Exists_dec (fun o => op_path o = q) (y_ops s) (fun o => bytes_eq_dec (op_path o) q)) as [He|He].
  - apply Exists_exists in He as (op & Hin & <-). destruct (si_op _ _ _ HI op Hin) as (u & Hu & Hop).
    pose proof (si_runs _ _ _ HI) as HR. rewrite Forall_forall in HR. destruct (HR u Hu) as (fe & p & h & dial & E & _).
    destruct (run_from _ _ _ _ _ _ _ _ u Hrt Hr Hu) as (pk & Hpk & Ha).
    destruct (handler_cases fe p h dial (u_os u) (u_x u)) as [[_ H]|(d & H1 & H2 & H3)]; rewrite <- E in *; [rewrite H in Hop; elim Hop|].
    destruct Ha as (tx & a & ih & port & Hp & Hih & _ & Ex). exists d, pk, tx, a.
    pose proof (flush_paths (u_os u) (hex (sha1 d)) d) as Hf. rewrite Forall_forall in Hf. rewrite H3 in Hop. rewrite (Hf op Hop), file_of_path.
    split; [reflexivity|]. split; [exact Hpk|]. split; [exact Hp|]. rewrite Ex in H2. cbn [fst rq_body dict_of] in H2. split; [exact H2|]. exists u. auto.
  - contradiction Hq. rewrite (si_disk _ _ _ HI). apply fs_run_other. apply Forall_forall. intros op Hin E. apply He. apply Exists_exists. exists op. split; assumption.
Qed.

(** C97: whenever no file is being written, the file system did not fail and no two downloads are a SHA-1
    collision, every file that changed holds data whose SHA-1 is its name, and the data of every
    successful download is on disk. *)
Lemma C97_files_are_complete_pf : forall e me local hosts z d0 s, sys_reach e me local hosts z d0 s ->
  (forall u, In u (y_runs s) -> u_left u = [] /\ os_ok (u_os u)) ->
  (forall u1 u2 d1 d2, In u1 (y_runs s) -> In u2 (y_runs s) -> t_data (u_f u1) = Some d1 -> t_data (u_f u2) = Some d2 -> sha1 d1 = sha1 d2 -> d1 = d2) ->
  (forall q, y_disk s q <> d0 q -> exists d, q = file_of (sha1 d) /\ y_disk s q = Some d) /\
  (forall u d, In u (y_runs s) -> t_data (u_f u) = Some d -> y_disk s (file_of (sha1 d)) = Some d).
Proof.
  intros e me local hosts z d0 s Hr Hdone Hcol. pose proof (sys_inv _ _ _ _ _ _ _ Hr) as HI.
  assert (Hil : interleaved (map t_ops (map u_f (y_runs s))) (y_ops s)).
  { pose proof (si_ops _ _ _ HI [] []) as H. rewrite !app_nil_r in H. rewrite map_map. apply H. apply il_done. apply Forall_map, Forall_forall. intros u Hu. apply Hdone. exact Hu. }
  destruct (C81_concurrent_downloads_pf (map u_f (y_runs s)) (y_ops s) d0) as [H1 H2]; [| |exact Hil|].
  - intros r Hin. apply in_map_iff in Hin. destruct Hin as (u & <- & Hu). pose proof (si_runs _ _ _ HI) as HR. rewrite Forall_forall in HR.
    destruct (HR u Hu) as (fe & p & h & dial & E & _). exists fe, p, h, dial, (u_os u), (u_x u). split; [apply Hdone; exact Hu|exact E].
  - intros r1 r2 d1 d2 Hin1 Hin2. apply in_map_iff in Hin1. destruct Hin1 as (u1 & <- & Hu1). apply in_map_iff in Hin2. destruct Hin2 as (u2 & <- & Hu2). eapply Hcol; eassumption.
  - rewrite (si_disk _ _ _ HI). split; [exact H2|]. intros u d Hu Hd. apply (H1 (u_f u) d); [apply in_map; exact Hu|exact Hd].
Qed.

(** C97: the crawler opens TCP connections only to addresses that announcement packets it read point to. *)
Lemma C97_dials_were_announced_pf : forall e uf me local hosts z d0 s u a, runtime_ok e uf -> sys_reach e me local hosts z d0 s ->
  In u (y_runs s) -> t_dial (u_f u) = Some a -> exists pk, In pk (y_read s) /\ target pk a.
Proof.
  intros e uf me local hosts z d0 s u a Hrt Hr Hu Hd. pose proof (sys_inv _ _ _ _ _ _ _ Hr) as HI.
  pose proof (si_runs _ _ _ HI) as HR. rewrite Forall_forall in HR. destruct (HR u Hu) as (fe & p & h & dial & E & _).
  destruct (run_from _ _ _ _ _ _ _ _ u Hrt Hr Hu) as (pk & Hpk & tx & b & ih & port & Hp & Hih & Hpo & Ex). exists pk. split; [exact Hpk|].
  rewrite E in Hd. apply C65_what_is_dialled_pf in Hd. destruct Hd as [Hpa _]. rewrite Ex in Hpa. unfold parseFetchAddr in Hpa. cbn [fst snd rq_body dict_of] in Hpa.
  rewrite (proj2 (field_int _ _ _) Hpo) in Hpa. cbn [bind] in Hpa. unfold Exist in Hpa. destruct (dget b (B "implied_port")) as [v|] eqn:Ev; cbn [bind] in Hpa.
  - destruct (GetInteger b (B "implied_port")) as [k| |] eqn:Ek; cbn [bind] in Hpa; try discriminate. apply field_int in Ek. injection Hpa as <-.
    destruct (Z.ltb_spec 0 k) as [Hlt|Hge].
    + eapply tg_implied; eassumption.
    + eapply tg_port; [exact Hp|exact Hpo|]. intros k' Hk'. unfold field in *. assert (k' = k) by congruence. lia.
  - injection Hpa as <-. eapply tg_port; [exact Hp|exact Hpo|]. intros k' Hk'. unfold field in *. congruence.
Qed.

(** ** C98 *)

(** C98: from every point of every execution the crawler can finish all work it has taken on without
    further input, unless as many downloads hang as there are fetch workers: then every packet read so
    far has been handled, every announcement downloaded or given up, every file written. *)
Lemma C98_can_finish_pf : forall e uf me local hosts z d0 s, runtime_ok e uf -> sys_reach e me local hosts z d0 s -> 0 < z_krpc z -> 0 < z_ann z ->
  y_dead s = false -> length (hung s) < z_fetch z ->
  exists s', sys_steps e me z s s' /\ y_read s' = y_read s /\ y_dead s' = false /\ length (hung s') = length (hung s) /\ idle s'.
Proof.
  intros e uf me local hosts z d0 s Hrt Hr Hz1 Hz2 Hd Hh. destruct (drains _ _ _ _ _ _ _ _ Hrt Hr Hz1 Hz2 Hd Hh) as (s' & Hs & (C1 & C2 & C3) & Hi).
  exists s'. auto.
Qed.

(** C98: a download that hangs never gives its worker back. *)
Lemma C98_hung_forever_pf : forall e me local hosts z d0 s s' u, sys_reach e me local hosts z d0 s -> sys_steps e me z s s' -> In u (hung s) -> In u (hung s').
Proof.
  intros e me local hosts z d0 s s' u Hr Hs. induction Hs as [|s s1 s2 Hs IH Hst]; intros Hu; [exact Hu|].
  specialize (IH Hr Hu). pose proof (sys_inv _ _ _ _ _ _ _ (ss_reach _ _ _ _ _ _ _ _ Hr Hs)) as HI. unfold hung in *. apply filter_In in IH as [Hin Hk]. apply filter_In. split; [|exact Hk].
  assert (Hf : exists r, t_res (u_f u) = FStop r). { unfold stuck in Hk. apply andb_true_iff in Hk as [_ Hk]. destruct (t_res (u_f u)); try discriminate Hk. eexists. reflexivity. }
  destruct (si_stuck _ _ _ HI u Hin Hf) as [Hb Hl].
  destruct Hst as [d Ha Hr'|pk Ha Hr' Hl'|pk q Ha Hr' Hq|pk Ha Hr' Hl'|pk p Ha Hp Hl'|c Ha Hc|x q Ha Hf' Hq|x Ha Hf' Hl'|x p Ha Hp Hl'|l1 x l2 fe p h dial o r Ha Hld Er Hno|l1 x l2 fe p h dial o Ha Hld Ho|l1 v l2 op ops Ha Hru Hlf|l1 v l2 Ha Hru Hlf Hbv Hok]; sysred; try exact Hin.
  - apply in_app_iff. left. exact Hin.
  - rewrite Hru in Hin. apply in_mid in Hin. destruct Hin as [->|Hin]; [congruence|]. apply mid_in. right. exact Hin.
  - rewrite Hru in Hin. apply in_mid in Hin. destruct Hin as [->|Hin]; [destruct Hf as [r Hf]; congruence|]. apply mid_in. right. exact Hin.
Qed.

(** An announcement naming a peer that, once connected, stops reading. *)
Definition ann_dgram (ih : bytes) : dgram :=
  {| dg_from := peer0; dg_bytes := B "d1:ad2:id20:iiiiiiiiiiiiiiiiiiii9:info_hash20:" ++ ih ++ B "4:porti6881ee1:q13:announce_peer1:t2:aa1:y1:qe" |}.
Definition attack : dgram := ann_dgram (sha1 meta1).
Lemma attack_announces : announcement (cut attack) (announce0 (sha1 meta1) [], peer0).
Proof.
  eexists _, _, _, _. split; [|split; [|split; [|reflexivity]]].
  - eexists _, _. split; [eexists; vm_compute; reflexivity|]. repeat (split; [vm_compute; reflexivity|]). vm_compute. reflexivity.
  - vm_compute. reflexivity.
  - vm_compute. reflexivity.
Qed.
Definition stall : fenv :=
  {| e_intf := fun _ x => x; e_exp := fun _ => false; e_write := fun n => if n =? 0 then WOk else WBlock; e_mem := fun _ => true; e_ford := fun _ d => d; e_fold := fun _ _ => false |}.
Definition is_stopped (r : fetched) : bool := match t_res r with FStop BlockedWrite => true | _ => false end.
Lemma attack_hangs : exists fe p h dial, t_res (fetchHandler fe p h dial os0 (announce0 (sha1 meta1) [], peer0)) = FStop BlockedWrite.
Proof.
  exists stall, pool0, heap0, dial0. assert (H : is_stopped (fetchHandler stall pool0 heap0 dial0 os0 (announce0 (sha1 meta1) [], peer0)) = true) by (vm_compute; reflexivity).
  unfold is_stopped in H. destruct (t_res _) as [| | |[]]; try discriminate H. reflexivity.
Qed.

(** C98 is false without the exception: whatever the sizes, the configuration and the history, a fixed
    number of copies of one announcement datagram, naming a peer that stops reading, blocks the whole
    process: nothing can ever happen again, the crawler does not even read packets any more. *)
Lemma C98_never_stalls_refuted_pf : forall e uf me local hosts z d0 s, runtime_ok e uf -> sys_reach e me local hosts z d0 s -> 0 < z_krpc z -> 0 < z_ann z ->
  y_dead s = false -> length (hung s) < z_fetch z ->
  exists s', sys_steps e me z s s' /\ y_dead s' = false /\
    y_read s' = y_read s ++ repeat (cut attack) (2 * z_fetch z - length (hung s) + z_ann z + 2 * z_krpc z + 103) /\
    forall s'', ~ sys_step e me z s' s''.
Proof.
  intros e uf me local hosts z d0 s Hrt Hr Hz1 Hz2 Hd Hh. destruct (drains _ _ _ _ _ _ _ _ Hrt Hr Hz1 Hz2 Hd Hh) as (s1 & Hs1 & (C1 & C2 & C3) & Hi).
  pose proof (idle_shape z attack (announce0 (sha1 meta1) [], peer0) s1 C1 Hi ltac:(lia)) as H0.
  destruct (fill_all e uf me z attack _ Hrt attack_announces attack_hangs (conj Hz1 Hz2) s1 (length (hung s1)) ltac:(lia) H0) as (s2 & [M1 M2] & H2).
  exists s2. split; [eapply ss_trans; eassumption|]. split; [exact (sh_alive _ _ _ _ _ _ _ _ _ _ _ _ H2)|]. split; [rewrite M2, C3, C2; reflexivity|].
  intros s'' Hst. exact (full_stuck _ _ _ _ _ (conj Hz1 Hz2) _ _ H2 Hst).
Qed.

(** C98: the process dies only through a download that runs out of memory; nothing happens after that. *)
Lemma C98_only_memory_kills_pf : forall e me local hosts z d0 s, sys_reach e me local hosts z d0 s -> y_dead s = true ->
  (exists x fe p h dial o, In x (y_loads s) /\ t_res (fetchHandler fe p h dial o x) = FStop OutOfMemory) /\ forall s', ~ sys_step e me z s s'.
Proof.
  intros e me local hosts z d0 s Hr Hd. split.
  - destruct Hr as [w0 w H1 H2|s s' Hr Hst]; [discriminate Hd|].
    destruct Hst as [d Ha Hr'|pk Ha Hr' Hl'|pk q Ha Hr' Hq|pk Ha Hr' Hl'|pk p Ha Hp Hl'|c Ha Hc|x q Ha Hf' Hq|x Ha Hf' Hl'|x p Ha Hp Hl'|l1 x l2 fe p h dial o r Ha Hld Er Hno|l1 x l2 fe p h dial o Ha Hld Ho|l1 v l2 op ops Ha Hru Hlf|l1 v l2 Ha Hru Hlf Hbv Hok]; cbn [y_dead set_in set_out] in Hd; try congruence.
    exists x, fe, p, h, dial, o. split; [|exact Ho]. cbn [y_loads kill]. rewrite Hld. apply in_app_iff. right. left. reflexivity.
  - intros s' Hst. destruct Hst; congruence.
Qed.

(** The same announcement, when the peer it names promises 2^46 bytes of metadata to a machine with 16 GiB. *)
Definition greedy : fenv :=
  {| e_intf := fun _ x => x; e_exp := fun _ => false; e_write := fun _ => WOk; e_mem := fun n => (n <=? 2 ^ 34)%Z; e_ford := fun _ d => d; e_fold := fun _ _ => false |}.
Definition huge : bytes -> option (list bytes) := fun _ => Some [hs0; frame (ext_of (B "70368744177664"))].
Lemma attack_kills : t_res (fetchHandler greedy pool0 heap0 huge os0 (announce0 (sha1 meta1) [], peer0)) = FStop OutOfMemory.
Proof.
  assert (H : match t_res (fetchHandler greedy pool0 heap0 huge os0 (announce0 (sha1 meta1) [], peer0)) with FStop OutOfMemory => true | _ => false end = true) by (vm_compute; reflexivity).
  destruct (t_res _) as [| | |[]]; try discriminate H. reflexivity.
Qed.

(** C98 is false of a machine with finite memory: whatever the sizes, the configuration and the history, a
    single datagram, naming a peer that promises a huge torrent, can end the process. *)
Lemma C98_one_datagram_kills_refuted_pf : forall e uf me local hosts z d0 s, runtime_ok e uf -> sys_reach e me local hosts z d0 s -> 0 < z_krpc z -> 0 < z_ann z ->
  y_dead s = false -> length (hung s) < z_fetch z ->
  exists s', sys_steps e me z s s' /\ y_read s' = y_read s ++ [cut attack] /\ y_dead s' = true /\ forall s'', ~ sys_step e me z s' s''.
Proof.
  intros e uf me local hosts z d0 s Hrt Hr Hz1 Hz2 Hd Hh. destruct (drains _ _ _ _ _ _ _ _ Hrt Hr Hz1 Hz2 Hd Hh) as (s1 & Hs1 & (C1 & C2 & C3) & Hi).
  pose proof (idle_shape z attack (announce0 (sha1 meta1) [], peer0) s1 C1 Hi ltac:(lia)) as H0.
  destruct (push_f e uf me z attack _ Hrt attack_announces attack_hangs (conj Hz1 Hz2) s1 (length (hung s1)) 0 ltac:(lia) H0) as (s2 & [M2 R2] & H2).
  destruct H2. set (X := (announce0 (sha1 meta1) [], peer0)) in *.
  assert (Hb : busy s2 < z_fetch z) by (unfold busy; rewrite sh_loads, sh_hung; cbn [length]; lia).
  pose proof (ys_fbegin e me z s2 X [] sh_alive sh_fpool Hb) as Hst3.
  match type of Hst3 with sys_step _ _ _ _ ?x => set (s3 := x) in Hst3 end.
  assert (Hl3 : y_loads s3 = [] ++ X :: []) by (unfold s3; cbn [y_loads set_out]; rewrite sh_loads; reflexivity).
  pose proof (ys_oom e me z s3 [] X [] greedy pool0 heap0 huge os0 sh_alive Hl3 attack_kills) as Hst4.
  exists (kill s3). split; [|split; [|split; [reflexivity|]]].
  - eapply yss_step; [|exact Hst4]. eapply yss_step; [|exact Hst3]. eapply ss_trans; eassumption.
  - unfold s3. cbn [y_read kill set_out]. rewrite R2, C3. reflexivity.
  - intros s'' Hst. assert (Hk : y_dead (kill s3) = true) by reflexivity. destruct Hst; congruence.
Qed.

(** A whole run: an announcement arrives, is answered, and its file is downloaded and written. *)
Definition ex_sizes : sizes := {| z_krpc := 1; z_ann := 1; z_fetch := 1 |}.
Definition ex_sys0 : sys := sys_init ex_conc0 (fun _ => None).
Lemma ex_sys0_ok : sys_reach (fun _ => ex_env) ex_me (mkaddr [] 6881) [ex_addr 1] ex_sizes (fun _ => None) ex_sys0.
Proof. eapply yr_start; [exact ex_crawler_ok|reflexivity]. Qed.
Lemma ex_sys0_idle : idle ex_sys0 /\ hung ex_sys0 = [].
Proof. split; [|reflexivity]. split; try reflexivity. intros u []. Qed.

Lemma forall2_len {X Y} (R : X -> Y -> Prop) xs ys : Forall2 R xs ys -> length xs = length ys.
Proof. intros H. induction H; cbn; congruence. Qed.
Lemma ex_downloaded : exists s u, sys_reach (fun _ => ex_env) ex_me (mkaddr [] 6881) [ex_addr 1] ex_sizes (fun _ => None) s /\ y_dead s = false /\ hung s = [] /\
  y_read s = [cut attack] /\ y_runs s = [u] /\ u_left u = [] /\ u_os u = os0 /\ u_f u = run0 /\ u_busy u = false /\ y_disk s = fs_run (t_ops run0) (fun _ => None).
Proof.
  pose proof (idle_shape ex_sizes attack (announce0 (sha1 meta1) [], peer0) ex_sys0 eq_refl (proj1 ex_sys0_idle) (Nat.le_0_l _)) as H0.
  rewrite (proj2 ex_sys0_idle) in H0.
  destruct (push_f (fun _ => ex_env) (fun _ _ => false) ex_me ex_sizes attack _ ex_runtime attack_announces attack_hangs (conj Nat.lt_0_1 Nat.lt_0_1) ex_sys0 0 0 Nat.lt_0_1 H0) as (s1 & [M1 R1] & H1).
  pose proof (ss_reach _ _ _ _ _ _ _ _ ex_sys0_ok M1) as Hr1.
  assert (Hrun1 : y_runs s1 = []).
  { pose proof (si_out _ _ _ (sys_inv _ _ _ _ _ _ _ Hr1)) as (hd & E & Pm). rewrite (sh_fpool _ _ _ _ _ _ _ _ _ _ _ _ H1) in E.
    destruct (C96_one_download_per_announcement_pf _ _ _ _ _ _ _ _ ex_runtime Hr1) as (pks & rest & Pk & F). rewrite R1 in Pk. apply Permutation_length in Pk. apply forall2_len in F.
    rewrite !app_length, map_length, (sh_fpool _ _ _ _ _ _ _ _ _ _ _ _ H1) in F. rewrite !app_length in Pk. cbn in Pk, F. destruct (y_runs s1); [reflexivity|cbn in F; lia]. }
  assert (Hops1 : y_ops s1 = []).
  { pose proof (si_op _ _ _ (sys_inv _ _ _ _ _ _ _ Hr1)) as H. destruct (y_ops s1) as [|op l]; [reflexivity|]. destruct (H op (or_introl eq_refl)) as (u & Hu & _). rewrite Hrun1 in Hu. elim Hu. }
  pose proof (si_disk _ _ _ (sys_inv _ _ _ _ _ _ _ Hr1)) as Hd1. rewrite Hops1 in Hd1. cbn [fs_run fold_left] in Hd1.
  destruct H1. set (X := (announce0 (sha1 meta1) [], peer0)) in *.
  assert (Hres : t_res run0 = FOk tt).
  { assert (H : match t_res run0 with FOk tt => true | _ => false end = true) by (vm_compute; reflexivity). destruct (t_res run0) as [[]| | |]; try discriminate H. reflexivity. }
  assert (Hwrite : forall ops s, sys_reach (fun _ => ex_env) ex_me (mkaddr [] 6881) [ex_addr 1] ex_sizes (fun _ => None) s -> y_dead s = false ->
     y_runs s = [{| u_x := X; u_os := os0; u_f := run0; u_left := ops; u_busy := true |}] ->
     exists s', sys_reach (fun _ => ex_env) ex_me (mkaddr [] 6881) [ex_addr 1] ex_sizes (fun _ => None) s' /\ y_dead s' = false /\ y_read s' = y_read s /\
       y_runs s' = [{| u_x := X; u_os := os0; u_f := run0; u_left := []; u_busy := true |}] /\ y_disk s' = fs_run ops (y_disk s)).
  { induction ops as [|op ops IH]; intros s Hr Hd Hru.
    - exists s. split; [exact Hr|]. split; [exact Hd|]. split; [reflexivity|]. split; [exact Hru|reflexivity].
    - pose proof (ys_op (fun _ => ex_env) ex_me ex_sizes s [] _ [] op ops Hd Hru eq_refl) as Hst.
      match type of Hst with sys_step _ _ _ _ ?s1 => set (s2 := s1) in Hst end.
      destruct (IH s2 (yr_step _ _ _ _ _ _ _ _ Hr Hst) Hd eq_refl) as (s' & R' & D' & E' & U' & K'). exists s'. split; [exact R'|]. split; [exact D'|]. split; [exact E'|]. split; [exact U'|]. exact K'. }
  pose proof (ys_fbegin (fun _ => ex_env) ex_me ex_sizes s1 X [] sh_alive sh_fpool) as Hst2. unfold busy in Hst2. rewrite sh_loads, Hrun1 in Hst2. specialize (Hst2 Nat.lt_0_1).
  match type of Hst2 with sys_step _ _ _ _ ?x => set (s2 := x) in Hst2 end.
  pose proof (yr_step _ _ _ _ _ _ _ _ Hr1 Hst2) as Hr2.
  pose proof (ys_load (fun _ => ex_env) ex_me ex_sizes s2 [] X [] calm0 pool0 heap0 dial0 os0 run0 sh_alive eq_refl eq_refl ltac:(rewrite Hres; discriminate)) as Hst3.
  match type of Hst3 with sys_step _ _ _ _ ?x => set (s3 := x) in Hst3 end.
  pose proof (yr_step _ _ _ _ _ _ _ _ Hr2 Hst3) as Hr3.
  destruct (Hwrite (t_ops run0) s3 Hr3 sh_alive eq_refl) as (s4 & Hr4 & D4 & R4 & U4 & K4).
  pose proof (ys_fend (fun _ => ex_env) ex_me ex_sizes s4 [] _ [] D4 U4 eq_refl eq_refl Hres) as Hst5.
  match type of Hst5 with sys_step _ _ _ _ ?x => set (s5 := x) in Hst5 end.
  exists s5, {| u_x := X; u_os := os0; u_f := run0; u_left := []; u_busy := false |}. split; [exact (yr_step _ _ _ _ _ _ _ _ Hr4 Hst5)|].
  split; [exact D4|]. split; [reflexivity|]. split; [unfold s5; sysred; rewrite R4; unfold s3, s2; sysred; rewrite R1; reflexivity|].
  split; [reflexivity|]. split; [reflexivity|]. split; [reflexivity|]. split; [reflexivity|]. split; [reflexivity|].
  unfold s5. sysred. rewrite K4. unfold s3, s2. sysred. rewrite Hd1. reflexivity.
Qed.

(** C97: the hypotheses are met: after that run the file named by the announced info hash holds the data. *)
Lemma C97_example_pf : exists s, sys_reach (fun _ => ex_env) ex_me (mkaddr [] 6881) [ex_addr 1] ex_sizes (fun _ => None) s /\ y_read s = [cut attack] /\
  (forall u, In u (y_runs s) -> u_left u = [] /\ os_ok (u_os u)) /\ y_disk s (file_of (sha1 meta1)) = Some meta1 /\
  exists u, In u (y_runs s) /\ t_dial (u_f u) = Some (B "10.0.0.7:6881").
Proof.
  destruct ex_downloaded as (s & u & Hr & _ & _ & Hrd & Hru & Hl & Ho & Hf & _ & Hk). exists s. split; [exact Hr|]. split; [exact Hrd|].
  assert (Hok : os_ok os0) by (split; reflexivity). split; [intros v Hv; rewrite Hru in Hv; destruct Hv as [<-|[]]; rewrite Ho; auto|]. split.
  - rewrite Hk. apply C62_download_is_stored_pf; [exact Hok|exact (proj2 run0_data)].
  - exists u. split; [rewrite Hru; left; reflexivity|]. rewrite Hf. exact (proj1 run0_data).
Qed.

(** C98: the hypotheses are met by that state, and the process can be blocked from there. *)
Lemma C98_example_pf : exists s s', sys_reach (fun _ => ex_env) ex_me (mkaddr [] 6881) [ex_addr 1] ex_sizes (fun _ => None) s /\ y_dead s = false /\ length (hung s) < z_fetch ex_sizes /\
  sys_steps (fun _ => ex_env) ex_me ex_sizes s s' /\ length (y_read s') = 109 /\ forall s'', ~ sys_step (fun _ => ex_env) ex_me ex_sizes s' s''.
Proof.
  destruct ex_downloaded as (s & u & Hr & Hd & Hh & Hrd & _). exists s.
  assert (Hlt : length (hung s) < z_fetch ex_sizes) by (rewrite Hh; exact Nat.lt_0_1).
  destruct (C98_never_stalls_refuted_pf _ _ _ _ _ _ _ _ ex_runtime Hr Nat.lt_0_1 Nat.lt_0_1 Hd Hlt) as (s' & Hs & _ & R & Hno). exists s'.
  split; [exact Hr|]. split; [exact Hd|]. split; [exact Hlt|]. split; [exact Hs|]. split; [|exact Hno]. rewrite R, Hrd, app_length, repeat_length, Hh. reflexivity.
Qed.

(** C96: a run in which one announcement packet is read, handled and its torrent downloaded and stored. *)
Lemma C96_example_pf : exists s u, runtime_ok (fun _ => ex_env) (fun _ _ => false) /\
  sys_reach (fun _ => ex_env) ex_me (mkaddr [] 6881) [ex_addr 1] ex_sizes (fun _ => None) s /\ y_dead s = false /\ y_read s = [cut attack] /\ y_runs s = [u] /\ u_f u = run0.
Proof.
  destruct ex_downloaded as (s & u & Hr & Hd & _ & Hrd & Hru & _ & _ & Hf & _). exists s, u.
  split; [exact ex_runtime|]. split; [exact Hr|]. split; [exact Hd|]. split; [exact Hrd|]. split; [exact Hru|exact Hf].
Qed.
