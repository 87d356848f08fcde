(** NetCrawlProofs.v -- lemmas for C132. *)
From Verif Require Import Base GoLib Bencode BencodeSpec BencodeProofs BencodePf Types Node RouteTable RouteTableProofs Middleware Krpc KrpcSpec KrpcProofs KrpcPf Dht DhtSpec DhtPf Conc ConcSpec ConcProofs ConcPf SizeProofs AmplifySpec AmplifyPf
  BytesPool PeerWire Fetch FetchTorrent FetchTorrentSpec Udp System SystemSpec SystemProofs SystemPf InfoLogSpec InfoLogPf TracePf NetCrawl NetCrawlSpec.
Local Open Scope list_scope.

(** What travels in such a network. *)
Definition is_ask (b : bytes) : Prop := exists tx id, length b = 94 /\ length tx = 4 /\ length id = 20 /\ carries b (boot_query tx id).
Definition is_ans (b : bytes) : Prop := exists tx id, length b = 58 /\ length tx = 4 /\ length id = 20 /\ carries b (empty_answer tx id).
Definition tame (b : bytes) : Prop := is_ask b \/ is_ans b.

Lemma ask_proper b : is_ask b -> exists tx a, proper_query b tx "find_node" a /\ length tx = 4.
Proof.
  intros (tx & id & Hl & Ht & Hi & Hc). destruct (small_fits b) as [Hf _]; [lia|].
  destruct (carried_query b tx "find_node" _ id Hf Hc) as (a & Ha); [nodup|reflexivity|exact Hi|]. eauto.
Qed.
Lemma ans_dict b : is_ans b -> exists d body, packet_dict b d /\ field d "y" (VStr (B "r")) /\ field d "r" (VDict body) /\ field body "nodes" (VStr []).
Proof.
  intros (tx & id & Hl & Ht & Hi & Hc). destruct (small_fits b) as [Hf _]; [lia|]. destruct (proj2 Hc Hf) as (r & E & Hd).
  assert (Hk : NoDup (map fst (empty_answer tx id))) by (unfold empty_answer, ok_reply; nodup).
  destruct (deq_dget_dict _ r (B "r") _ Hk Hd eq_refl) as (body & Eb & Hdb). exists r, body.
  split; [exists (length b); exact E|]. split; [eapply deq_dget_str; [exact Hk|exact Hd|reflexivity]|]. split; [exact Eb|].
  eapply deq_dget_str; [|exact Hdb|reflexivity]. nodup.
Qed.
Lemma ans_noask pk tx q : is_ans (p_bytes pk) -> ~ asks pk tx q.
Proof. intros Ha (d & [n Hd] & Hy & _). destruct (ans_dict _ Ha) as (d' & b & [n' Hd'] & Hy' & _). rewrite Hd in Hd'. injection Hd' as <- _. unfold field in *. rewrite Hy in Hy'. discriminate Hy'. Qed.
Lemma tame_lists pk tx ns : tame (p_bytes pk) -> lists_nodes pk tx ns -> ns = [].
Proof.
  intros [Ha|Ha] Hl.
  - destruct (ask_proper _ Ha) as (t & a & Hp & _). elim (lists_noask _ _ _ _ _ Hl (proper_asks _ _ _ _ Hp)).
  - destruct (ans_dict _ Ha) as (d' & b' & [n' Hd'] & _ & Hr' & Hn'). destruct Hl as (d & b & id & nodes & [n Hd] & _ & _ & Hr & _ & Hn & Hp).
    rewrite Hd in Hd'. injection Hd' as <- _. unfold field in *. rewrite Hr in Hr'. injection Hr' as <-. rewrite Hn in Hn'. injection Hn' as ->. vm_compute in Hp. congruence.
Qed.
Lemma tame_announce pk x : tame (p_bytes pk) -> ~ announcement pk x.
Proof.
  intros [Ha|Ha] Hx.
  - destruct (ask_proper _ Ha) as (t & a & Hp & _). destruct Hx as (tx & a' & ih & po & Hp' & _). destruct (proper_det _ _ _ _ _ _ _ Hp Hp') as (_ & E & _). discriminate E.
  - destruct (announcement_asks _ _ Hx) as (tx & q & Hq). exact (ans_noask _ _ _ Ha Hq).
Qed.
Lemma tame_owed me pk d : tame (p_bytes pk) -> owed me pk d -> is_ask (p_bytes pk) /\ exists tx a, proper_query (p_bytes pk) tx "find_node" a /\ length tx = 4 /\ d = empty_answer tx me.
Proof.
  intros Ht Ho. destruct Ht as [Ha|Ha]; [split; [exact Ha|]|destruct (owed_asks _ _ _ Ho) as (tx & q & Hq); elim (ans_noask _ _ _ Ha Hq)].
  destruct (ask_proper _ Ha) as (tx & a & Hp & Hl). exists tx, a. split; [exact Hp|]. split; [exact Hl|]. destruct Ho as [tx' q' a' body Hp' Han|tx' q' msg Hask _ Hn].
  - destruct (proper_det _ _ _ _ _ _ _ Hp Hp') as (<- & <- & <-). inversion Han. reflexivity.
  - elim (Hn _ _ _ _ Hp (as_find _ _ _)).
Qed.
Lemma ans_size b tx me : length me = 20 -> length tx = 4 -> carries b (empty_answer tx me) -> length b = 58.
Proof.
  intros Hme Htx Hc. apply carries_size in Hc. unfold empty_answer in Hc. sz Hc. rewrite Hme, Htx in Hc. change (ssize 4) with 6 in Hc. change (ssize 20) with 23 in Hc. change (ssize (length [])) with 2 in Hc. exact Hc.
Qed.

Lemma boots_ask me tx hosts gs : length me = 20 -> boot_sent me tx hosts gs -> forall g, In g gs -> is_ask (g_bytes g).
Proof.
  intros Hme Hb. induction Hb as [tx|tx h hs g' gs Hto Hca Hb IH]; intros g Hin; [elim Hin|]. destruct Hin as [->|Hin]; [|exact (IH _ Hin)].
  eexists _, me. split; [eapply query_size; [exact Hme|apply txid_len|exact Hca]|]. split; [apply txid_len|]. split; [exact Hme|exact Hca].
Qed.

(** ** One process that reads nothing but such packets *)
Section Proc.
Context (e : nat -> env) (uf : N -> N -> bool) (me : bytes) (local : udpaddr) (hosts : list udpaddr) (z : sizes) (d0 : disk) (s : sys).
Context (Hrt : runtime_ok e uf) (Hme : length me = 20) (Hr : sys_reach e me local hosts z d0 s) (Htame : forall pk, In pk (y_read s) -> tame (p_bytes pk)).

Let Hc : conc_reach e me local hosts (z_ann z) (y_core s) := core_reach _ _ _ _ _ _ _ Hr.

Lemma job_tame i v : In (i, v) (k_log (y_core s)) -> exists pk, In (i, EvStart pk) (k_log (y_core s)) /\ In pk (y_read s) /\ tame (p_bytes pk).
Proof.
  intros Hin. destruct (job_handled _ _ _ _ _ _ (conc_inv _ _ _ _ _ _ _ Hrt Hc) Hin) as (pk & Hs & _). exists pk. pose proof (handled_read _ _ _ _ _ _ _ _ _ Hr Hs). auto.
Qed.

Lemma proc_events i v : In (i, v) (k_log (y_core s)) -> match v with EvEnq _ | EvAdd _ _ | EvDraw _ | EvQuery _ => False | _ => True end.
Proof.
  intros Hin. destruct (job_tame _ _ Hin) as (pk & Hs & _ & Ht). pose proof (proj1 (evs_in _ _ _) Hin) as Hv.
  destruct (C87_announcements_pf _ _ _ _ _ _ _ i pk Hrt Hc Hs) as [Hq _].
  pose proof (C89_node_lists_any_schedule_pf _ _ _ _ _ _ _ i pk Hrt Hc Hs) as Hn. cbn zeta in Hn.
  assert (Hnone : tried_in (evs i (k_log (y_core s))) = [] /\ drawn_in (evs i (k_log (y_core s))) = [] /\ queries_in (evs i (k_log (y_core s))) = []).
  { destruct Hn as [H|(tx & ns & rest & acc & more & txs & late & H1 & H2 & H3 & H4 & H5 & H6 & H7 & _)]; [exact H|].
    pose proof (tame_lists _ _ _ Ht H1) as ->. apply app_eq_nil in H2. destruct H2 as [H2 _]. apply map_eq_nil in H2. split; [exact H2|].
    unfold accepted_in in H3. rewrite H2 in H3. cbn [filter map] in H3. symmetry in H3. apply app_eq_nil in H3. destruct H3 as [-> ->]. inversion H7; subst; [|destruct ns; discriminate].
    destruct late; [|exfalso; cbn [length] in H6; clear - H6; lia]. rewrite H5. auto. }
  destruct Hnone as (N1 & N2 & N3). destruct v as [p|x|g|n b|tx|g|]; try exact I.
  - destruct Hq as [Hq|(x' & Hx & _)]; [|exact (tame_announce _ _ Ht Hx)].
    assert (Hi : In x (enqueued_in (evs i (k_log (y_core s))))) by (unfold enqueued_in; apply in_flat_map; exists (EvEnq x); split; [exact Hv|left; reflexivity]). rewrite Hq in Hi. elim Hi.
  - assert (Hi : In (n, b) (tried_in (evs i (k_log (y_core s))))) by (unfold tried_in; apply in_flat_map; exists (EvAdd n b); split; [exact Hv|left; reflexivity]). rewrite N1 in Hi. elim Hi.
  - assert (Hi : In tx (drawn_in (evs i (k_log (y_core s))))) by (unfold drawn_in; apply in_flat_map; exists (EvDraw tx); split; [exact Hv|left; reflexivity]). rewrite N2 in Hi. elim Hi.
  - assert (Hi : In g (queries_in (evs i (k_log (y_core s))))) by (unfold queries_in; apply in_flat_map; exists (EvQuery g); split; [exact Hv|left; reflexivity]). rewrite N3 in Hi. elim Hi.
Qed.

Lemma proc_reply i g : In (i, EvReply g) (k_log (y_core s)) ->
  exists pk tx a, In (i, EvStart pk) (k_log (y_core s)) /\ In pk (y_read s) /\ is_ask (p_bytes pk) /\ proper_query (p_bytes pk) tx "find_node" a /\ length tx = 4 /\
    g_to g = p_addr pk /\ carries (g_bytes g) (empty_answer tx me).
Proof.
  intros Hin. destruct (job_tame _ _ Hin) as (pk & Hs & Hrd & Ht). pose proof (proj1 (evs_in _ _ _) Hin) as Hv.
  destruct (C86_replies_any_schedule_pf _ _ _ _ _ _ _ i pk Hrt Hc Hs) as (H1 & _).
  destruct (H1 g) as (Hto & d & Ho & Hca); [unfold replies_in; apply in_flat_map; exists (EvReply g); split; [exact Hv|left; reflexivity]|].
  destruct (tame_owed _ _ _ Ht Ho) as (Ha & tx & a & Hp & Hl & ->). exists pk, tx, a. auto 10.
Qed.

Lemma proc_log_sent : sent_in (map snd (k_log (y_core s))) = replies_in (map snd (k_log (y_core s))).
Proof.
  pose proof proc_events as H. induction (k_log (y_core s)) as [|[i v] l IH]; [reflexivity|]. cbn [map snd].
  assert (IH' : sent_in (map snd l) = replies_in (map snd l)) by (apply IH; intros j w Hj; apply (H j w); right; exact Hj).
  pose proof (H i v (or_introl eq_refl)) as Hv. unfold sent_in, replies_in in *. cbn [flat_map]. rewrite IH'. destruct v; try reflexivity. elim Hv.
Qed.

Lemma proc_sent_tame g : In g (sent_by s) -> tame (g_bytes g).
Proof.
  destruct (C93_all_datagrams_pf _ _ _ _ _ _ _ Hrt Hc) as (gs & Hb & E). unfold sent_by. rewrite E. intros Hin. apply in_app_iff in Hin. destruct Hin as [Hin|Hin].
  - left. eapply boots_ask; eassumption.
  - right. rewrite proc_log_sent in Hin. unfold replies_in in Hin. apply in_flat_map in Hin. destruct Hin as (v & Hv & Hg). apply in_map_iff in Hv. destruct Hv as ([i v'] & <- & Hv). cbn [snd] in Hg.
    destruct v'; try (elim Hg; fail). destruct Hg as [->|[]]. destruct (proc_reply _ _ Hv) as (pk & tx & a & _ & _ & _ & _ & Hl & _ & Hca). exists tx, me. split; [eapply ans_size; eassumption|auto].
Qed.

Lemma proc_queue : k_taken (y_core s) = [] /\ a_queue (w_app (k_world (y_core s))) = [].
Proof.
  destruct (C87_queue_fifo_pf _ _ _ _ _ _ _ Hrt Hc) as [E _].
  assert (H : enqueued_in (map snd (k_log (y_core s))) = []).
  { destruct (enqueued_in (map snd (k_log (y_core s)))) as [|x l] eqn:El; [reflexivity|]. assert (Hin : In x (enqueued_in (map snd (k_log (y_core s))))) by (rewrite El; left; reflexivity).
    unfold enqueued_in in Hin. apply in_flat_map in Hin. destruct Hin as (v & Hv & Hx). apply in_map_iff in Hv. destruct Hv as ([i v'] & <- & Hv). cbn [snd] in Hx. pose proof (proc_events _ _ Hv) as He. destruct v'; solve [elim Hx|elim He]. }
  rewrite H in E. symmetry in E. apply app_eq_nil in E. exact E.
Qed.

Lemma proc_table n : In n (stored (a_rt (w_app (k_world (y_core s))))) <-> n = {| nid := me; naddr := local |}.
Proof.
  destruct (C90_table_any_schedule_pf _ _ _ _ _ _ _ Hrt Hc) as (_ & _ & Hself & Hall). split; [|intros ->; exact Hself].
  intros Hin. destruct (Hall n Hin) as [H|(i & pk & tx & ns & _ & Ha & _)]; [exact H|]. elim (proc_events _ _ Ha).
Qed.

Lemma proc_fetch : y_fetch s = None /\ y_fpool s = [] /\ y_loads s = [] /\ y_runs s = [] /\ y_ops s = [] /\ (forall q, y_disk s q = d0 q).
Proof.
  destruct (C96_announcements_handed_on_pf _ _ _ _ _ _ _ Hr) as (handed & Hh & Hp). rewrite (proj1 proc_queue) in Hh. symmetry in Hh. apply app_eq_nil in Hh. destruct Hh as [-> Hh].
  apply app_eq_nil in Hh. destruct Hh as [H1 H2]. apply Permutation_nil in Hp. apply app_eq_nil in Hp. destruct Hp as [H3 H4]. apply map_eq_nil in H4.
  pose proof (sys_inv _ _ _ _ _ _ _ Hr) as HI.
  assert (H5 : y_ops s = []). { destruct (y_ops s) as [|o l] eqn:E; [reflexivity|]. destruct (si_op _ _ _ HI o) as (u & Hu & _); [rewrite E; left; reflexivity|]. rewrite H4 in Hu. elim Hu. }
  split; [destruct (y_fetch s); [discriminate H2|reflexivity]|]. repeat split; try assumption. intros q. rewrite (si_disk _ _ _ HI), H5. reflexivity.
Qed.

(** Replies are at most as many as queries read. *)
Definition reply_jobs (log : list (nat * ev)) : list nat := flat_map (fun p => match snd p with EvReply _ => [fst p] | _ => [] end) log.
Definition ask_jobs (log : list (nat * ev)) : list nat := flat_map (fun p => match snd p with EvStart pk => if length (p_bytes pk) =? 94 then [fst p] else [] | _ => [] end) log.
Lemma reply_jobs_len log : length (reply_jobs log) = length (replies_in (map snd log)).
Proof. unfold reply_jobs, replies_in. induction log as [|[i v] log IH]; [reflexivity|]. cbn [flat_map map snd]. rewrite !app_length, IH. destruct v; reflexivity. Qed.
Lemma reply_jobs_count log i : count_occ Nat.eq_dec (reply_jobs log) i = length (replies_in (evs i log)).
Proof.
  unfold reply_jobs, replies_in, evs. induction log as [|[j v] log IH]; [reflexivity|]. cbn [flat_map filter fst snd]. rewrite count_occ_app, IH. destruct (Nat.eqb_spec j i) as [->|Hn].
  - cbn [map flat_map snd]. rewrite app_length. destruct v; cbn [count_occ length]; try reflexivity. destruct (Nat.eq_dec i i); [reflexivity|contradiction].
  - destruct v; cbn [count_occ]; try reflexivity. destruct (Nat.eq_dec j i); [contradiction|reflexivity].
Qed.
Lemma ask_jobs_len log : length (ask_jobs log) = length (filter (fun b => length b =? 94) (map p_bytes (started log))).
Proof.
  unfold ask_jobs, started. induction log as [|[i v] log IH]; [reflexivity|]. cbn [flat_map snd]. rewrite map_app, filter_app, !app_length, IH. f_equal. destruct v; try reflexivity.
  cbn [map filter fst]. destruct (length (p_bytes pk) =? 94); reflexivity.
Qed.

Lemma proc_replies : length (replies_in (map snd (k_log (y_core s)))) <= length (filter (fun b => length b =? 94) (map p_bytes (y_read s))).
Proof.
  rewrite (C96_packets_in_order_pf _ _ _ _ _ _ _ Hr), map_app, filter_app, app_length, <- ask_jobs_len, <- reply_jobs_len. apply Nat.le_trans with (2 := Nat.le_add_r _ _). apply NoDup_incl_length.
  - apply (NoDup_count_occ Nat.eq_dec). intros i. rewrite reply_jobs_count. destruct (replies_in (evs i (k_log (y_core s)))) as [|g l] eqn:E; [cbn [length]; clear; lia|].
    assert (Hin : In g (replies_in (evs i (k_log (y_core s))))) by (rewrite E; left; reflexivity). unfold replies_in in Hin. apply in_flat_map in Hin. destruct Hin as (v & Hv & _). apply evs_in in Hv.
    destruct (job_tame _ _ Hv) as (pk & Hs & _). destruct (C86_replies_any_schedule_pf _ _ _ _ _ _ _ i pk Hrt Hc Hs) as (_ & H2 & _). cbn zeta in H2. rewrite E in H2. exact H2.
  - intros i Hi. unfold reply_jobs in Hi. apply in_flat_map in Hi. destruct Hi as ([j v] & Hv & Hi). cbn [snd fst] in Hi. destruct v; try (elim Hi; fail). destruct Hi as [<-|[]].
    destruct (proc_reply _ _ Hv) as (pk & tx & a & Hs & _ & (t & id & Hl & _) & _). unfold ask_jobs. apply in_flat_map. exists (j, EvStart pk). split; [exact Hs|]. cbn [snd fst]. rewrite Hl. left. reflexivity.
Qed.
End Proc.
