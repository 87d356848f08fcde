(** TracePf.v -- proofs of C131: every download can be traced in the info-hash log. *)
From Verif Require Import Base GoLib Bencode BencodeSpec BencodeProofs BencodePf Types Node RouteTable Middleware Krpc KrpcSpec KrpcProofs KrpcPf Dht DhtSpec DhtPf Conc ConcSpec ConcProofs ConcPf BytesPool Sha1 PeerWire Fetch FetchSpec FetchPf
  FetchTorrent FetchTorrentSpec FetchTorrentPf Udp System SystemSpec SystemProofs SystemLive SystemPf ZapLog ZapLogSpec InfoLog InfoLogSpec InfoLogPf LogFiles LogFilesSpec LogFilesProofs LogFilesPf InfoFilesSpec InfoFilesPf.
From Coq Require Import Permutation.
Local Open Scope list_scope.

(** C131: the log can be added to every execution of the whole process: each state of the process is reached with a log. *)
Lemma C131_every_run_has_a_log_pf : forall e os me local hosts z d0 y, sys_reach e me local hosts z d0 y ->
  exists s, lreach e os me local hosts (z_ann z) s /\ l_conc s = y_core y.
Proof. intros e os me local hosts z d0 y Hr. apply C108_same_runs_pf. eapply C96_refines_crawler_pf. exact Hr. Qed.

Lemma handled_read e me local hosts z d0 y i pk : sys_reach e me local hosts z d0 y -> In (i, EvStart pk) (k_log (y_core y)) -> In pk (y_read y).
Proof.
  intros Hr Hin. rewrite (C96_packets_in_order_pf _ _ _ _ _ _ _ Hr). apply in_app_iff. left. unfold started. apply in_flat_map. exists (i, EvStart pk). split; [exact Hin|left; reflexivity].
Qed.

(** The announcement behind a download is logged. *)
Lemma run_logged e uf os me local hosts z d0 y s u : runtime_ok e uf -> orders_ok os -> sys_reach e me local hosts z d0 y -> lreach e os me local hosts (z_ann z) s -> l_conc s = y_core y ->
  In u (y_runs y) -> exists i now en pk ih p, In (i, now, en) (l_recs s) /\ In pk (y_read y) /\ record_of pk ih (Some p) en /\ snd (u_x u) = p_addr pk /\
    field (dict_of (rq_body (fst (u_x u)))) "info_hash" (VStr ih) /\ field (dict_of (rq_body (fst (u_x u)))) "port" (VInt p).
Proof.
  intros Hrt Ho Hr Hl Ec Hu. destruct (C96_announcements_handed_on_pf _ _ _ _ _ _ _ Hr) as (handed & Hh & Hp).
  assert (Hin : In (u_x u) (k_taken (l_conc s) ++ a_queue (w_app (k_world (l_conc s))))).
  { apply in_app_iff. left. rewrite Ec, Hh. apply in_app_iff. left. eapply Permutation_in; [apply Permutation_sym; exact Hp|]. apply in_app_iff. right. apply in_map. exact Hu. }
  destruct (u_x u) as [req addr]. destruct (proj2 (C108_logged_first_pf _ _ _ _ _ _ _ _ Hrt Ho Hl) _ _ Hin) as (i & now & en & pk & ih & p & H1 & H2 & H3 & H4 & H5 & H6).
  exists i, now, en, pk, ih, p. split; [exact H1|]. split; [|auto]. rewrite Ec in H2. eapply handled_read; [exact Hr|exact (proj1 H2)].
Qed.

(** C131: in every execution, every file that differs from its initial state is named after an info hash for which the log holds an announce_peer line: the line
    of a packet read from the socket that announced this info hash. *)
Lemma C131_files_are_logged_pf : forall e uf os me local hosts z d0 y s q, runtime_ok e uf -> orders_ok os -> sys_reach e me local hosts z d0 y ->
  lreach e os me local hosts (z_ann z) s -> l_conc s = y_core y -> y_disk y q <> d0 q ->
  exists d i now en pk p, q = file_of (sha1 d) /\ In (i, now, en) (l_recs s) /\ In pk (y_read y) /\ record_of pk (sha1 d) (Some p) en.
Proof.
  intros e uf os me local hosts z d0 y s q Hrt Ho Hr Hl Ec Hq. pose proof (sys_inv _ _ _ _ _ _ _ Hr) as HI.
  destruct (Exists_dec (fun o => op_path o = q) (y_ops y) (fun o => bytes_eq_dec (op_path o) q)) as [He|He].
  - apply Exists_exists in He as (op & Hin & <-). destruct (si_op _ _ _ HI op Hin) as (u & Hu & Hop).
    pose proof (si_runs _ _ _ HI) as HR. rewrite Forall_forall in HR. destruct (HR u Hu) as (fe & p & h & dial & E & _).
    destruct (run_logged _ _ _ _ _ _ _ _ _ _ u Hrt Ho Hr Hl Ec Hu) as (i & now & en & pk & ih & po & H1 & H2 & H3 & H4 & H5 & H6).
    destruct (handler_cases fe p h dial (u_os u) (u_x u)) as [[_ H]|(d & D1 & D2 & D3)]; rewrite <- E in *; [rewrite H in Hop; elim Hop|].
    pose proof (flush_paths (u_os u) (hex (sha1 d)) d) as Hf. rewrite Forall_forall in Hf. rewrite D3 in Hop.
    exists d, i, now, en, pk, po. rewrite (Hf op Hop), file_of_path. split; [reflexivity|]. split; [exact H1|]. split; [exact H2|].
    assert (ih = sha1 d) by (unfold field in H5, D2; congruence). subst ih. exact H3.
  - contradiction Hq. rewrite (si_disk _ _ _ HI). apply fs_run_other. apply Forall_forall. intros op Hin E. apply He. apply Exists_exists. exists op. split; assumption.
Qed.

(** C131: every TCP address the crawler dialled can be read off an announce_peer line of the log: it is the address the line names, or the host of that address with the
    port the line names. *)
Lemma C131_dials_are_logged_pf : forall e uf os me local hosts z d0 y s u a, runtime_ok e uf -> orders_ok os -> sys_reach e me local hosts z d0 y ->
  lreach e os me local hosts (z_ann z) s -> l_conc s = y_core y -> In u (y_runs y) -> t_dial (u_f u) = Some a ->
  exists i now en pk ih p, In (i, now, en) (l_recs s) /\ In pk (y_read y) /\ record_of pk ih (Some p) en /\
    (a = addr_string (p_addr pk) \/ a = ip_string (ip (p_addr pk)) ++ B ":" ++ itoa p).
Proof.
  intros e uf os me local hosts z d0 y s u a Hrt Ho Hr Hl Ec Hu Hd. pose proof (sys_inv _ _ _ _ _ _ _ Hr) as HI.
  pose proof (si_runs _ _ _ HI) as HR. rewrite Forall_forall in HR. destruct (HR u Hu) as (fe & p & h & dial & E & _).
  destruct (run_logged _ _ _ _ _ _ _ _ _ _ u Hrt Ho Hr Hl Ec Hu) as (i & now & en & pk & ih & po & H1 & H2 & H3 & H4 & H5 & H6).
  exists i, now, en, pk, ih, po. split; [exact H1|]. split; [exact H2|]. split; [exact H3|].
  rewrite E in Hd. apply C65_what_is_dialled_pf in Hd. destruct Hd as [Hpa _]. unfold parseFetchAddr in Hpa. rewrite H4 in Hpa.
  rewrite (proj2 (field_int _ _ _) H6) in Hpa. cbn [bind] in Hpa. unfold Exist in Hpa.
  destruct (dget (dict_of (rq_body (fst (u_x u)))) (B "implied_port")) as [v|]; cbn [bind] in Hpa.
  - destruct (GetInteger (dict_of (rq_body (fst (u_x u)))) (B "implied_port")) as [k| |]; cbn [bind] in Hpa; try discriminate. injection Hpa as <-. destruct (0 <? k)%Z; auto.
  - injection Hpa as <-. auto.
Qed.

(** Jobs that queued an announcement, in the order of the history. *)
Definition enq_jobs (log : list (nat * ev)) : list nat := flat_map (fun p => match snd p with EvEnq _ => [fst p] | _ => [] end) log.
Lemma enq_jobs_len log : length (enq_jobs log) = length (enqueued_in (map snd log)).
Proof. unfold enq_jobs, enqueued_in. induction log as [|[i v] log IH]; [reflexivity|]. cbn [flat_map map snd]. rewrite !app_length, IH. destruct v; reflexivity. Qed.
Lemma enq_jobs_count log i : count_occ Nat.eq_dec (enq_jobs log) i = length (enqueued_in (evs i log)).
Proof.
  unfold enq_jobs, enqueued_in, evs. induction log as [|[j v] log IH]; [reflexivity|]. cbn [flat_map filter fst snd]. rewrite count_occ_app, IH. destruct (Nat.eqb_spec j i) as [->|Hn].
  - cbn [map flat_map snd]. rewrite app_length. destruct v; cbn [count_occ length]; try reflexivity. destruct (Nat.eq_dec i i); [reflexivity|contradiction].
  - destruct v; cbn [count_occ]; try reflexivity. destruct (Nat.eq_dec j i); [contradiction|reflexivity].
Qed.

(** C131: nothing is downloaded twice for one line: at every moment there are at most as many downloads, begun or finished, as announce_peer lines in the log. *)
Lemma C131_no_more_downloads_than_lines_pf : forall e uf os me local hosts z d0 y s, runtime_ok e uf -> orders_ok os -> sys_reach e me local hosts z d0 y ->
  lreach e os me local hosts (z_ann z) s -> l_conc s = y_core y ->
  length (y_runs y) + length (y_loads y) <= length (filter (fun r => beq (ze_msg (snd r)) (B "announce_peer")) (l_recs s)).
Proof.
  intros e uf os me local hosts z d0 y s Hrt Ho Hr Hl Ec. pose proof (C96_refines_crawler_pf _ _ _ _ _ _ _ Hr) as Hc. pose proof (conc_inv _ _ _ _ _ _ _ Hrt Hc) as HI.
  assert (H1 : length (y_runs y) + length (y_loads y) <= length (enq_jobs (k_log (y_core y)))).
  { rewrite enq_jobs_len, (proj1 (C87_queue_fifo_pf _ _ _ _ _ _ _ Hrt Hc)). destruct (C96_announcements_handed_on_pf _ _ _ _ _ _ _ Hr) as (handed & Hh & Hp). apply Permutation_length in Hp.
    rewrite app_length, map_length in Hp. rewrite Hh, !app_length. lia. }
  apply Nat.le_trans with (1 := H1). rewrite <- (map_length rec_job (filter _ _)). apply NoDup_incl_length.
  - apply (NoDup_count_occ Nat.eq_dec). intros i. rewrite enq_jobs_count. destruct (enqueued_in (evs i (k_log (y_core y)))) as [|x l] eqn:E; [cbn [length]; lia|].
    assert (Hin : In x (enqueued_in (evs i (k_log (y_core y))))) by (rewrite E; left; reflexivity). unfold enqueued_in in Hin. apply in_flat_map in Hin. destruct Hin as (v & Hv & _).
    apply evs_in in Hv. destruct (job_handled _ _ _ _ _ _ HI Hv) as (pk & Hst & _). destruct (C87_announcements_pf _ _ _ _ _ _ _ i pk Hrt Hc Hst) as [[Ha|(x' & _ & Ha)] _]; rewrite Ha in E; [discriminate|].
    injection E as _ <-. cbn [length]. lia.
  - intros i Hi. unfold enq_jobs in Hi. apply in_flat_map in Hi. destruct Hi as ([j v] & Hv & Hi). destruct v as [|x| | | | |]; try (elim Hi; fail). destruct Hi as [<-|[]]. cbn [fst].
    destruct (job_handled _ _ _ _ _ _ HI Hv) as (pk & Hst & Hh). destruct (C87_announcements_pf _ _ _ _ _ _ _ j pk Hrt Hc Hst) as [[Ha|(x' & Hx' & Ha)] _].
    + assert (Hin : In x (enqueued_in (evs j (k_log (y_core y))))). { unfold enqueued_in. apply in_flat_map. exists (EvEnq x). split; [apply evs_in; exact Hv|left; reflexivity]. } rewrite Ha in Hin. elim Hin.
    + destruct (announcement_seeks _ _ Hx') as (ih & p & Hsk & _). destruct (C108_log_is_exact_pf _ _ _ _ _ _ _ _ Hrt Ho Hl) as (_ & _ & _ & H4). rewrite Ec in H4.
      destruct (H4 _ _ _ _ Hh Hsk) as (now & en & Hin & Hrec). apply in_map_iff. exists (j, now, en). split; [reflexivity|]. apply filter_In. split; [exact Hin|]. inversion Hrec; subst. reflexivity.
Qed.

(** A logged line is in a file while nothing was removed (as in C130). *)
Lemma line_on_disk (recs : list (nat * bytes * zentry)) tr f i now en : lj_run zap_rotation tr f -> steady tr -> lines tr = map rec_line recs -> length (closed tr) <= 3 ->
  (forall x now, In x (closed tr) -> In (LMill now) tr -> (now <= fst x + 28 * 24 * 3600 * 1000)%N) -> In (i, now, en) recs ->
  exists file pre post, (file = text (j_cur f) \/ In file (map snd (j_old f))) /\ file = pre ++ line now en ++ post.
Proof.
  intros Hj Hst Hl Hc Hage Hin.
  assert (Hp : In (line now en) (lines tr)). { rewrite Hl. apply in_map_iff. exists (i, now, en). split; [reflexivity|exact Hin]. }
  destruct (C130_files_pf _ _ _ Hj Hst) as (E & Ecur & _ & _). rewrite E in Hp. apply in_app_iff in Hp. destruct Hp as [Hp|Hp].
  - apply in_concat in Hp. destruct Hp as (l & Hl1 & Hl2). apply in_map_iff in Hl1. destruct Hl1 as (x & <- & Hx).
    pose proof (C130_recent_kept_pf _ _ _ [] (closed tr) Hj Hst eq_refl Hc Hage x Hx) as Hold.
    apply in_split in Hl2. destruct Hl2 as (l1 & l2 & El). exists (concat (snd x)), (concat l1), (concat l2). split; [right; apply in_map_iff; eexists; split; [|exact Hold]; reflexivity|].
    rewrite El, concat_app. reflexivity.
  - apply in_split in Hp. destruct Hp as (l1 & l2 & El). exists (text (j_cur f)), (concat l1), (concat l2). split; [left; reflexivity|]. rewrite Ecur, El, concat_app. reflexivity.
Qed.

(** C131: while the log was rotated at most three times and no backup grew too old, that line is on the disk in one piece, in the log file or in a backup. *)
Lemma C131_found_on_disk_pf : forall e uf os me local hosts z d0 y s tr f q, runtime_ok e uf -> orders_ok os -> sys_reach e me local hosts z d0 y ->
  lreach e os me local hosts (z_ann z) s -> l_conc s = y_core y ->
  lj_run zap_rotation tr f -> steady tr -> lines tr = map rec_line (l_recs s) -> length (closed tr) <= 3 ->
  (forall x now, In x (closed tr) -> In (LMill now) tr -> (now <= fst x + 28 * 24 * 3600 * 1000)%N) ->
  y_disk y q <> d0 q ->
  exists d pk p now en file pre post, q = file_of (sha1 d) /\ In pk (y_read y) /\ record_of pk (sha1 d) (Some p) en /\
    (file = text (j_cur f) \/ In file (map snd (j_old f))) /\ file = pre ++ line now en ++ post.
Proof.
  intros e uf os me local hosts z d0 y s tr f q Hrt Ho Hr Hl Ec Hj Hst Hln Hc Hage Hq.
  destruct (C131_files_are_logged_pf _ _ _ _ _ _ _ _ _ _ _ Hrt Ho Hr Hl Ec Hq) as (d & i & now & en & pk & p & Eq & Hin & Hpk & Hrec).
  destruct (line_on_disk _ _ _ _ _ _ Hj Hst Hln Hc Hage Hin) as (file & pre & post & Hf & E). exists d, pk, p, now, en, file, pre, post. auto.
Qed.

(** A log with short time stamps. *)
Lemma short_log e os me local hosts cap c : conc_reach e me local hosts cap c -> exists s, lreach e os me local hosts cap s /\ l_conc s = c /\ Forall (fun r => snd (fst r) = B "0") (l_recs s).
Proof.
  induction 1 as [w0 w Hi Hb|c c' Hr (s & Hs & <- & Hf) Hst]; [eexists; split; [eapply lr_start; eassumption|split; [reflexivity|constructor]]|].
  destruct Hst as [pk|k l1 i pk pc l2 w' pc' v Hsplit Hstep|l1 i pk l2 Hsplit|x q Hq].
  - eexists; split; [eapply lr_step; [exact Hs|eapply ls_begin]|split; [reflexivity|exact Hf]].
  - assert (Hd : pc = JStart \/ pc <> JStart) by (destruct pc; (left; reflexivity) || (right; discriminate)). destruct Hd as [->|Hd].
    + eexists; split; [eapply lr_step; [exact Hs|eapply ls_start with (k := k) (now := B "0"); [exact Hsplit|repeat constructor|exact Hstep]]|split; [reflexivity|]].
      cbn [l_recs]. apply Forall_app. split; [exact Hf|]. apply Forall_map, Forall_forall. reflexivity.
    + eexists; split; [eapply lr_step; [exact Hs|eapply ls_job; [exact Hsplit|exact Hd|exact Hstep]]|split; [reflexivity|exact Hf]].
  - eexists; split; [eapply lr_step; [exact Hs|eapply ls_end; exact Hsplit]|split; [reflexivity|exact Hf]].
  - eexists; split; [eapply lr_step; [exact Hs|eapply ls_take; exact Hq]|split; [reflexivity|exact Hf]].
Qed.

Lemma starts_len log : length (flat_map (fun p : nat * ev => match snd p with EvStart _ => [fst p] | _ => [] end) log) = length (started log).
Proof. unfold started. induction log as [|[i v] log IH]; [reflexivity|]. cbn [flat_map snd]. rewrite !app_length, IH. destruct v; reflexivity. Qed.

(** The log has at most as many lines as packets were read. *)
Lemma recs_len e uf os me local hosts z d0 y s : runtime_ok e uf -> orders_ok os -> sys_reach e me local hosts z d0 y -> lreach e os me local hosts (z_ann z) s -> l_conc s = y_core y ->
  length (l_recs s) <= length (y_read y).
Proof.
  intros Hrt Ho Hr Hl Ec. destruct (C108_log_is_exact_pf _ _ _ _ _ _ _ _ Hrt Ho Hl) as (_ & Hnd & Hs & _).
  rewrite (C96_packets_in_order_pf _ _ _ _ _ _ _ Hr), app_length, <- starts_len, <- (map_length rec_job). apply Nat.le_trans with (2 := Nat.le_add_r _ _). apply NoDup_incl_length; [exact Hnd|].
  intros j Hj. apply in_map_iff in Hj. destruct Hj as ([[i now] en] & <- & Hin). destruct (Hs _ _ _ Hin) as (_ & pk & _ & _ & [Hh _] & _). rewrite Ec in Hh.
  apply in_flat_map. exists (i, EvStart pk). split; [exact Hh|left; reflexivity].
Qed.

(** C131: the hypotheses are met: in an execution in which a torrent is downloaded and stored there is a log, it holds its announcement and nothing else, and there is a file of the log. *)
Lemma C131_example_pf : forall os, orders_ok os -> exists y s tr f, runtime_ok (fun _ => ex_env) (fun _ _ => false) /\
  sys_reach (fun _ => ex_env) ex_me (mkaddr [] 6881) [ex_addr 1] ex_sizes (fun _ => None) y /\ lreach (fun _ => ex_env) os ex_me (mkaddr [] 6881) [ex_addr 1] (z_ann ex_sizes) s /\ l_conc s = y_core y /\
  lj_run zap_rotation tr f /\ steady tr /\ lines tr = map rec_line (l_recs s) /\ closed tr = [] /\
  y_disk y (file_of (sha1 meta1)) = Some meta1 /\ (exists u, In u (y_runs y) /\ t_dial (u_f u) = Some (B "10.0.0.7:6881")) /\
  exists i now en p, l_recs s = [(i, now, en)] /\ record_of (cut attack) (sha1 meta1) (Some p) en.
Proof.
  intros os Ho. destruct C97_example_pf as (y & Hr & Hrd & Hdone & Hdisk & u & Hu & Hd). exists y.
  destruct (short_log _ os _ _ _ _ _ (C96_refines_crawler_pf _ _ _ _ _ _ _ Hr)) as (s & Hl & Ec & Hnow). exists s.
  assert (Hrecs : exists i now en p, l_recs s = [(i, now, en)] /\ record_of (cut attack) (sha1 meta1) (Some p) en).
  { pose proof (recs_len _ _ _ _ _ _ _ _ _ _ ex_runtime Ho Hr Hl Ec) as L. rewrite Hrd in L.
    destruct (run_logged _ _ _ _ _ _ _ _ _ _ u ex_runtime Ho Hr Hl Ec Hu) as (i & now & en & pk & ih & p & H1 & H2 & H3 & _).
    rewrite Hrd in H2. destruct H2 as [<-|[]]. exists i, now, en, p. split.
    - destruct (l_recs s) as [|r [|r' l]]; [elim H1|destruct H1 as [->|[]]; reflexivity|cbn [length] in L; lia].
    - destruct attack_announces as (tx & a & ih' & p' & Hq & Hi & Hp & E). pose proof (f_equal (fun x => dget (dict_of (rq_body (fst x))) (B "info_hash")) E) as Ei. cbn [fst rq_body dict_of] in Ei. unfold field in Hi. rewrite Hi in Ei.
      assert (ih = ih').
      { inversion H3 as [|tx2 a2 ih2 p2 fs Hq2 Hi2 Hp2 Hpm]; subst. destruct (C108_readable_pf _ _ _ _ _ _ _ _ _ ex_runtime Ho Hl Hl) as [_ Hrb].
        - intros j pk Hj. assert (Hj' : In (j, EvStart pk) (k_log (y_core y))) by (rewrite <- Ec; tauto). apply (handled_read _ _ _ _ _ _ _ _ _ Hr) in Hj'. rewrite Hrd in Hj'. destruct Hj' as [<-|[]]. constructor.
        - destruct Hq2 as (d2 & id2 & (n2 & Hd2) & _ & _ & _ & Ha2 & _). destruct Hq as (d1 & id1 & (n1 & Hd1) & _ & _ & _ & Ha1 & _).
          unfold field in *. congruence. }
      subst ih'. assert (ih = sha1 meta1). { enough (Some (VStr (sha1 meta1)) = Some (VStr ih)) by congruence. rewrite <- Ei. vm_compute. reflexivity. }
      subst ih. exact H3. }
  destruct Hrecs as (i & now & en & p & Er & Hrec).
  assert (Hfit : (blen (concat (map rec_line (l_recs s))) <= lj_max zap_rotation)%N).
  { rewrite Er. cbn [map concat]. rewrite app_nil_r. unfold rec_line. cbn [fst snd]. eapply (C130_info_lines_fit_pf _ _ _ _ _ _ _ _ ex_runtime Ho Hl).
    - split.
      + intros j pk Hj. rewrite Ec in Hj. apply (handled_read _ _ _ _ _ _ _ _ _ Hr) in Hj. rewrite Hrd in Hj. destruct Hj as [<-|[]]. split; vm_compute; discriminate.
      + intros j now' en' Hj. rewrite Forall_forall in Hnow. specialize (Hnow _ Hj). cbn [fst snd] in Hnow. subst now'. vm_compute. discriminate.
    - rewrite Er. left. reflexivity. }
  destruct (C130_info_example_pf _ Hfit) as (tr & f & T1 & T2 & T3 & T4 & _). exists tr, f.
  split; [exact ex_runtime|]. split; [exact Hr|]. split; [exact Hl|]. split; [exact Ec|]. split; [exact T1|]. split; [exact T2|]. split; [exact T3|]. split; [exact T4|]. split; [exact Hdisk|].
  split; [exists u; split; assumption|]. exists i, now, en, p. split; assumption.
Qed.
