(** QuietPf.v -- proofs of C122. *)
From Coq Require Import Permutation.
From Verif Require Import Base GoLib Bencode BencodeSpec BencodeProofs BencodePf Types Node NodePf RouteTable Middleware Krpc KrpcSpec KrpcProofs KrpcPf Dht DhtSpec DhtPf Conc ConcSpec ConcProofs ConcPf BytesPool Sha1 PeerWire Fetch FetchSpec FetchPf FetchTorrent FetchTorrentSpec FetchTorrentPf Udp System SystemSpec SystemProofs SystemLive SystemPf QuietSpec.
Local Open Scope list_scope.

(** ** A measure *)
Definition body_nodes (b : gdict) : nat := match GetString (dict_of b) (B "nodes") with Ok n => length n / 26 | _ => 0 end.
Definition jm (pk : packet) (pc : jpc) : nat :=
  match pc with
  | JStart => 9 + 4 * (length (p_bytes pk) / 26)
  | JEnq _ _ => 8
  | JReply _ => 2
  | JLook _ b => 3 + 4 * body_nodes b
  | JAdd ns => 2 + 4 * length ns
  | JDraw _ ns => 5 + 4 * length ns
  | JPut _ ns _ => 4 + 4 * length ns
  | JQuery _ ns _ => 3 + 4 * length ns
  | JEnd => 1
  end.
Definition jobs_m (l : list (nat * packet * jpc)) : nat := list_sum (map (fun x => jm (snd (fst x)) (snd x)) l).
Definition pks_m (k : nat) (l : list packet) : nat := list_sum (map (fun pk => k + 4 * (length (p_bytes pk) / 26)) l).
Definition mu (s : sys) : nat :=
  pks_m 13 (opt (y_recv s)) + pks_m 12 (y_q s) + pks_m 11 (opt (y_listen s)) + pks_m 10 (y_pool s) + jobs_m (k_jobs (y_core s)) +
  5 * length (a_queue (w_app (k_world (y_core s)))) + 4 * length (opt (y_fetch s)) + 3 * length (y_fpool s) + 2 * length (y_loads s) + length (filter u_busy (y_runs s)) +
  (if y_dead s then 0 else 1).
Definition left_m (s : sys) : nat := list_sum (map (fun u => length (u_left u)) (y_runs s)).

Lemma pks_app k a b : pks_m k (a ++ b) = pks_m k a + pks_m k b.
Proof. unfold pks_m. rewrite map_app, list_sum_app. reflexivity. Qed.
Lemma pks_cons k pk l : pks_m k (pk :: l) = k + 4 * (length (p_bytes pk) / 26) + pks_m k l.
Proof. reflexivity. Qed.
Lemma jobs_app a b : jobs_m (a ++ b) = jobs_m a + jobs_m b.
Proof. unfold jobs_m. rewrite map_app, list_sum_app. reflexivity. Qed.
Lemma jobs_cons i pk pc l : jobs_m ((i, pk, pc) :: l) = jm pk pc + jobs_m l.
Proof. reflexivity. Qed.

(** Packets are short. *)
Definition short (pk : packet) : Prop := length (p_bytes pk) <= 1024.
Definition pending (s : sys) : list packet := opt (y_recv s) ++ y_q s ++ opt (y_listen s) ++ y_pool s ++ map (fun x => snd (fst x)) (k_jobs (y_core s)).
Lemma cut_short d : short (cut d).
Proof. unfold short. cbn [cut p_bytes]. rewrite firstn_length. apply Nat.le_min_l. Qed.
Ltac fall := repeat match goal with
  | H : Forall _ (_ ++ _) |- _ => apply Forall_app in H; destruct H
  | H : Forall _ (_ :: _) |- _ => inversion_clear H
  | |- Forall _ (_ ++ _) => apply Forall_app; split
  | |- Forall _ (_ :: _) => constructor
  | |- Forall _ [] => constructor
  end; try assumption.
Lemma pending_step e me z s s' : sys_step e me z s s' -> Forall short (pending s) -> Forall short (pending s').
Proof.
  intros Hst HF. unfold pending in *.
  destruct Hst as [d Ha Hr|pk Ha Hr Hl|pk q Ha Hn Hq|pk Ha Hn Hl|pk p Ha Hp Hl|c Ha Hc|x q Ha Hf Hq|x Ha Hf Hl|x p Ha Hp Hl|l1 x l2 fe p h dial o r Ha Hld Er Hno|l1 x l2 fe p h dial o Ha Hld Ho|l1 v l2 op ops Ha Hru Hlf|l1 v l2 Ha Hru Hlf Hbv Hok]; sysred; try exact HF.
  - rewrite Hr in HF. cbn [opt app] in *. constructor; [apply cut_short|exact HF].
  - rewrite Hr in HF. cbn [opt app] in *. fall.
  - rewrite Hn, Hq in HF. cbn [opt app] in *. fall.
  - rewrite Hn in HF. cbn [opt app] in *. fall.
  - rewrite Hp in HF. cbn [opt app] in *. rewrite map_app. cbn [map fst snd]. fall.
  - apply Forall_app in HF as [H1 HF]. apply Forall_app in HF as [H2 HF]. apply Forall_app in HF as [H3 HF]. apply Forall_app in HF as [H4 HF].
    do 4 (apply Forall_app; split; [assumption|]).
    destruct Hc as [k l1 i pk pc l2 w' pc' evs Hj Hs|l1 i pk l2 Hj]; cbn [k_jobs]; rewrite Hj in HF; rewrite !map_app in *; cbn [map fst snd] in *; fall.
Qed.
Lemma pending_reach e me local hosts z d0 s : sys_reach e me local hosts z d0 s -> Forall short (pending s).
Proof. induction 1 as [w0 w H1 H2|s s' Hr IH Hst]; [constructor|eapply pending_step; eassumption]. Qed.

(** The first step of a handler. *)
Lemma start_pc_m e me pk : short pk -> jm pk (start_pc e me pk) < jm pk JStart.
Proof.
  intros Hsh. unfold start_pc. destruct (DecodeDictNoLimit (p_bytes pk)) as [[dict n]| |] eqn:Ed; try (cbn [jm]; lia).
  destruct (negb _); [cbn [jm]; lia|]. destruct (GetString dict (B "y")) as [y| |]; try (cbn [jm]; lia).
  destruct (beq y (B "q")).
  - unfold start_query. match goal with |- context [match ?x with Ok _ => _ | Err _ => _ | Panic _ => _ end] => destruct x as [[tx q]| |] end; try (cbn [jm]; lia).
    destruct (query_pc e me (p_addr pk) dict tx q) as [pc| |p] eqn:Eq; try (cbn [jm]; lia); [|destruct p; cbn [jm]; lia].
    unfold query_pc in Eq. destruct (ContainsString _ _ _) as [ok| |]; cbn [bind] in Eq; try discriminate Eq. destruct (negb ok); [injection Eq as <-; cbn [jm]; lia|].
    destruct (GetDict dict (B "a")) as [body| |]; cbn [bind] in Eq; try discriminate Eq. destruct (GetString (dict_of body) (B "id")) as [sid| |]; cbn [bind] in Eq; try discriminate Eq.
    destruct (negb _); [injection Eq as <-; cbn [jm]; lia|]. destruct (crawler_router q) as [h|]; [|injection Eq as <-; cbn [jm]; lia].
    unfold request_pc in Eq. cbn [rq_body rq_tx] in Eq. destruct h; try (injection Eq as <-; cbn [jm]; lia);
      repeat match type of Eq with context [bind ?x _] => destruct x; cbn [bind] in Eq; try discriminate Eq end; injection Eq as <-; cbn [jm]; lia.
  - destruct (beq y (B "r")); [|cbn [jm]; lia]. destruct (bind _ _) as [[t b]| |] eqn:Eb; try (cbn [jm]; lia). cbn [jm].
    assert (Hb : GetDict dict (B "r") = Ok b).
    { destruct (GetString dict (B "t")); cbn [bind] in Eb; try discriminate Eb. destruct (GetDict dict (B "r")) as [b'| |]; cbn [bind] in Eb; try discriminate Eb.
      destruct (GetString (dict_of b') (B "id")); cbn [bind] in Eb; try discriminate Eb. injection Eb as _ ->. reflexivity. }
    enough (body_nodes b <= length (p_bytes pk) / 26) by lia.
    unfold body_nodes. destruct (GetString (dict_of b) (B "nodes")) as [ns| |] eqn:En; try lia. apply Nat.div_le_mono; [discriminate|].
    assert (Hf : fits (p_bytes pk)) by (unfold fits, short in *; unfold max_int; lia).
    apply DecodeDictNoLimit_iff in Ed; [|exact Hf]. destruct Ed as (_ & rest & u & Hx & _).
    assert (Hdg : forall d k s, GetString d k = Ok s -> dget d k = Some (VStr s)).
    { intros d k s. unfold GetString, GetVal. destruct (dget d k) as [v|]; cbn [bind]; [|discriminate]. destruct v; unfold PanicBizErr; intros H; congruence. }
    apply Hdg in En. unfold GetDict, GetVal in Hb. destruct (dget dict (B "r")) as [v|] eqn:Er; cbn [bind] in Hb; [|discriminate Hb].
    destruct v; unfold PanicBizErr in Hb; try discriminate Hb; injection Hb as <-; cbn [dict_of] in En; [|discriminate En].
    assert (Ho : occurs ns (VDict dict)). { eapply dget_occurs; [exact Er|]. eapply dget_occurs; [exact En|]. constructor. }
    pose proof (proj1 (occurs_short ns) _ _ _ _ Hx Ho). lia.
Qed.

Lemma look_pc_m pk found b : jm pk (look_pc found b) < 3 + 4 * body_nodes b.
Proof.
  unfold look_pc. destruct found as [req|]; [|cbn [jm]; lia]. destruct (rq_handler req) as [[]|]; try (cbn [jm]; lia). destruct (beq _ _); [|cbn [jm]; lia].
  unfold body_nodes. destruct (GetString (dict_of b) (B "id")); cbn [bind]; try (cbn [jm]; lia). destruct (GetString (dict_of b) (B "nodes")) as [n| |]; cbn [bind]; try (cbn [jm]; lia).
  destruct (C21_parse_node_info_total_pf n) as (ns & -> & Hl & _). cbn [jm]. lia.
Qed.

Lemma job_m e me cap w pk pc w' pc' evs : short pk -> job_step e me cap w pk pc w' pc' evs ->
  jm pk pc' + 5 * length (a_queue (w_app w')) < jm pk pc + 5 * length (a_queue (w_app w)).
Proof.
  intros Hsh Hs. destruct Hs as [|x r Hq|r bs Hb|r Hb|tx body| |n ns rt' Ha|n ns rt' er Ha|n ns p Ha|n ns|n ns tx|n ns tx bs Hb|n ns tx x Hb|n ns tx p Hb];
    cbn [set_app w_app a_queue send fst draw_tx]; rewrite ?app_length; try (cbn [jm length]; lia).
  - pose proof (start_pc_m e me pk Hsh). lia.
  - pose proof (look_pc_m pk (w_reqs w tx) body). cbn [jm]. lia.
Qed.

Lemma busy_split l1 v l2 : length (filter u_busy (l1 ++ v :: l2)) = length (filter u_busy (l1 ++ l2)) + (if u_busy v then 1 else 0).
Proof. apply filter_split. Qed.
Lemma left_split l1 v l2 : list_sum (map (fun u => length (u_left u)) (l1 ++ v :: l2)) = length (u_left v) + list_sum (map (fun u => length (u_left u)) (l1 ++ l2)).
Proof. rewrite !map_app, !list_sum_app. cbn [map]. change (list_sum (length (u_left v) :: map (fun u => length (u_left u)) l2)) with (length (u_left v) + list_sum (map (fun u => length (u_left u)) l2)). lia. Qed.

(** Every step costs, except that a packet arrives with what it needs; a file operation costs one of the operations left. *)
Lemma mu_step e me z s s' : Forall short (pending s) -> sys_step e me z s s' ->
  (exists d, y_read s' = y_read s ++ [cut d] /\ y_ops s' = y_ops s /\ mu s' + 1 = mu s + cost (cut d)) \/
  (y_read s' = y_read s /\ y_ops s' = y_ops s /\ mu s' < mu s) \/
  (y_read s' = y_read s /\ length (y_ops s') = S (length (y_ops s)) /\ mu s' = mu s /\ left_m s' < left_m s).
Proof.
  intros HF Hst. unfold pending in HF.
  destruct Hst as [d Ha Hr|pk Ha Hr Hl|pk q Ha Hn Hq|pk Ha Hn Hl|pk p Ha Hp Hl|c Ha Hc|x q Ha Hf Hq|x Ha Hf Hl|x p Ha Hp Hl|l1 x l2 fe p h dial o r Ha Hld Er Hno|l1 x l2 fe p h dial o Ha Hld Ho|l1 v l2 op ops Ha Hru Hlf|l1 v l2 Ha Hru Hlf Hbv Hok]; unfold mu, left_m; sysred.
  - left. exists d. split; [reflexivity|]. split; [reflexivity|]. rewrite Hr. cbn [opt]. rewrite pks_cons. unfold cost. change (pks_m 13 []) with 0. lia.
  - right; left. split; [reflexivity|]. split; [reflexivity|]. rewrite Hr, pks_app. cbn [opt]. rewrite !pks_cons. change (pks_m 13 []) with 0. change (pks_m 12 []) with 0. lia.
  - right; left. split; [reflexivity|]. split; [reflexivity|]. rewrite Hn, Hq. cbn [opt]. rewrite !pks_cons. change (pks_m 11 []) with 0. lia.
  - right; left. split; [reflexivity|]. split; [reflexivity|]. rewrite Hn, pks_app. cbn [opt]. rewrite !pks_cons. change (pks_m 11 []) with 0. change (pks_m 10 []) with 0. lia.
  - right; left. split; [reflexivity|]. split; [reflexivity|]. rewrite Hp, jobs_app, jobs_cons, pks_cons. change (jobs_m []) with 0. cbn [jm]. lia.
  - right; left. split; [reflexivity|]. split; [reflexivity|]. do 4 apply Forall_app in HF as [_ HF].
    destruct Hc as [k l1 i pk pc l2 w' pc' evs Hj Hs|l1 i pk l2 Hj]; cbn [k_jobs k_world]; rewrite Hj in *; rewrite !jobs_app, !jobs_cons.
    + rewrite map_app in HF. apply Forall_app in HF as [_ HF]. inversion_clear HF as [|? ? Hsh _]. cbn [fst snd] in Hsh. pose proof (job_m _ _ _ _ _ _ _ _ _ Hsh Hs). lia.
    + cbn [jm]. lia.
  - right; left. split; [reflexivity|]. split; [reflexivity|]. rewrite Hf. cbn [opt set_app w_app a_queue]. rewrite Hq. cbn [length]. lia.
  - right; left. split; [reflexivity|]. split; [reflexivity|]. rewrite Hf, app_length. cbn [opt length]. lia.
  - right; left. split; [reflexivity|]. split; [reflexivity|]. rewrite Hp, app_length. cbn [length]. lia.
  - right; left. split; [reflexivity|]. split; [reflexivity|]. rewrite Hld, filter_app, !app_length. cbn [filter u_busy length]. lia.
  - right; left. split; [reflexivity|]. split; [reflexivity|]. rewrite Ha. lia.
  - right; right. split; [reflexivity|]. split; [rewrite app_length; cbn [length]; lia|]. rewrite Hru, !busy_split, !left_split. cbn [u_busy u_left]. rewrite Hlf. cbn [length]. split; lia.
  - right; left. split; [reflexivity|]. split; [reflexivity|]. rewrite Hru, !busy_split. cbn [u_busy]. rewrite Hbv. lia.
Qed.

Lemma runs_steps e me z n s s' : runs e me z n s s' -> sys_steps e me z s s'.
Proof. induction 1; [constructor|econstructor; eassumption]. Qed.
Lemma cost_short pk : short pk -> cost pk <= 170.
Proof. unfold short, cost. intros H. pose proof (Nat.div_le_mono _ _ 26 ltac:(discriminate) H) as H1. change (1024 / 26) with 39 in H1. lia. Qed.
Lemma reads_short e me local hosts z d0 s : sys_reach e me local hosts z d0 s -> Forall short (y_read s).
Proof. intros Hr. apply Forall_forall. intros pk Hin. exact (proj1 (C96_reads_1024_bytes_pf _ _ _ _ _ _ _ Hr) pk Hin). Qed.

(** C122: the work is linear in the input: whatever the schedule and whatever the peers do, a process that has read
    some packets has taken at most 14 steps for each of them, 4 for each node they can list, one for each file
    operation, and the one that killed it; that is at most 170 steps for a packet besides the file operations. *)
Lemma C122_work_is_linear_pf : forall e uf me local hosts z d0 w0 w n s, runtime_ok e uf ->
  crawler_init me local = Ok w0 -> boot e me hosts w0 = Ok w ->
  runs e me z n (sys_init {| k_world := w; k_jobs := []; k_next := 0; k_taken := []; k_log := [] |} d0) s ->
  n <= list_sum (map cost (y_read s)) + length (y_ops s) + (if y_dead s then 1 else 0) /\ list_sum (map cost (y_read s)) <= 170 * length (y_read s).
Proof.
  intros e uf me local hosts z d0 w0 w n s Hrt Hi Hb Hrun.
  pose proof (yr_start e me local hosts z d0 w0 w Hi Hb) as Hr0. set (s0 := sys_init _ d0) in *.
  assert (Hm0 : mu s0 = 1).
  { destruct (C87_queue_fifo_pf _ _ _ _ _ _ _ Hrt (core_reach _ _ _ _ _ _ _ Hr0)) as [Hq _]. cbn [s0 sys_init y_core k_log k_taken k_world] in Hq. cbn in Hq.
    unfold mu, s0, sys_init. sysred. rewrite <- Hq. reflexivity. }
  split.
  - enough (H : n + mu s <= 1 + list_sum (map cost (y_read s)) + length (y_ops s) /\ (if y_dead s then 0 else 1) <= mu s) by (destruct (y_dead s); lia).
    split; [|unfold mu; lia]. remember s0 as s1 eqn:E1. induction Hrun as [s1|n s1 s2 s3 Hrun IH Hst]; subst.
    + rewrite Hm0. cbn. lia.
    + specialize (IH eq_refl Hr0 Hm0). pose proof (ss_reach _ _ _ _ _ _ _ _ Hr0 (runs_steps _ _ _ _ _ _ Hrun)) as Hr2.
      destruct (mu_step e me z s2 s3 (pending_reach _ _ _ _ _ _ _ Hr2) Hst) as [(d & -> & -> & H)|[(-> & -> & H)|(-> & H1 & H2 & _)]]; [|lia|lia].
      rewrite map_app, list_sum_app. cbn [map list_sum fold_right]. unfold list_sum in *. lia.
  - pose proof (reads_short _ _ _ _ _ _ _ (ss_reach _ _ _ _ _ _ _ _ Hr0 (runs_steps _ _ _ _ _ _ Hrun))) as HF.
    induction HF as [|pk l H HF IH]; [reflexivity|]. pose proof (cost_short pk H). cbn [map length]. change (list_sum (cost pk :: map cost l)) with (cost pk + list_sum (map cost l)). lia.
Qed.

(** *** rest *)
Lemma read_cases e me local hosts z d0 s s' : sys_reach e me local hosts z d0 s -> sys_step e me z s s' -> y_read s' = y_read s \/ length (y_read s') = S (length (y_read s)).
Proof.
  intros Hr Hst. destruct (mu_step e me z s s' (pending_reach _ _ _ _ _ _ _ Hr) Hst) as [(d & -> & _)|[(-> & _)|(-> & _)]]; auto.
  right. rewrite app_length. cbn. lia.
Qed.

(** Induction over quiet executions. *)
Lemma quiet_ind e me local hosts z d0 (Q : sys -> Prop) :
  (forall s, sys_reach e me local hosts z d0 s -> (forall s', quiet e me z s s' -> Q s') -> Q s) -> forall s, sys_reach e me local hosts z d0 s -> Q s.
Proof.
  intros HQ. enough (H : forall m k s, mu s <= m -> left_m s <= k -> sys_reach e me local hosts z d0 s -> Q s) by (intros s; apply (H (mu s) (left_m s)); lia).
  induction m as [m IHm] using lt_wf_ind. induction k as [k IHk] using lt_wf_ind. intros s Hm Hk Hr. apply HQ; [exact Hr|]. intros s' [Hst Hrd].
  pose proof (yr_step _ _ _ _ _ _ _ _ Hr Hst) as Hr'.
  destruct (mu_step e me z s s' (pending_reach _ _ _ _ _ _ _ Hr) Hst) as [(d & E & _)|[(_ & _ & H)|(_ & _ & H & H2)]].
  - exfalso. rewrite E in Hrd. apply (f_equal (@length packet)) in Hrd. rewrite app_length in Hrd. cbn in Hrd. lia.
  - eapply (IHm (mu s')); [lia|lia|reflexivity|exact Hr'].
  - eapply (IHk (left_m s')); [lia|lia|lia|exact Hr'].
Qed.

(** C122: no spinning: a process that never stops reads packets again and again. *)
Lemma C122_no_spinning_pf : forall e me local hosts z d0 t, sys_reach e me local hosts z d0 (t 0) -> forever e me z t ->
  forall n, exists m d, n <= m /\ y_read (t (S m)) = y_read (t m) ++ [cut d].
Proof.
  intros e me local hosts z d0 t Hr0 Ht n.
  assert (Hr : forall k, sys_reach e me local hosts z d0 (t k)) by (induction k as [|k IH]; [exact Hr0|eapply yr_step; [exact IH|apply Ht]]).
  enough (H : forall s, sys_reach e me local hosts z d0 s -> forall k, n <= k -> t k = s -> exists m d, n <= m /\ y_read (t (S m)) = y_read (t m) ++ [cut d]) by (eapply (H (t n)); [apply Hr| |reflexivity]; lia).
  intros s Hs. revert s Hs. apply (quiet_ind e me local hosts z d0 (fun s => forall k, n <= k -> t k = s -> exists m d, n <= m /\ y_read (t (S m)) = y_read (t m) ++ [cut d])).
  intros s Hs IH k Hk <-. destruct (mu_step e me z _ _ (pending_reach _ _ _ _ _ _ _ (Hr k)) (Ht k)) as [(d & E & _)|H].
  - exists k, d. auto.
  - eapply (IH (t (S k))); [|constructor; exact Hk|reflexivity]. split; [apply Ht|]. destruct H as [(H & _)|(H & _)]; exact H.
Qed.

Lemma first_step e me z s s' : sys_steps e me z s s' -> s = s' \/ exists s1, sys_step e me z s s1 /\ sys_steps e me z s1 s'.
Proof.
  induction 1 as [|s s1 s2 H IH Hst]; [left; reflexivity|]. right. destruct IH as [->|(s0 & H0 & H1)].
  - exists s2. split; [exact Hst|constructor].
  - exists s0. split; [exact H0|econstructor; eassumption].
Qed.
Lemma reads_grow e me local hosts z d0 s s' : sys_reach e me local hosts z d0 s -> sys_steps e me z s s' -> length (y_read s) <= length (y_read s').
Proof.
  intros Hr H. induction H as [|s s1 s2 H IH Hst]; [lia|]. specialize (IH Hr). destruct (read_cases e me local hosts z d0 s1 s2 (ss_reach _ _ _ _ _ _ _ _ Hr H) Hst) as [E|E]; rewrite E; lia.
Qed.

(** C122: it rests only when everything is done: in a state where nothing but reading a packet is possible, all
    packets have been handled, all announcements downloaded or given up, all files written - unless as many
    downloads hang as there are fetch workers, or the process is dead. *)
Lemma C122_rests_when_done_pf : forall e uf me local hosts z d0 s, runtime_ok e uf -> sys_reach e me local hosts z d0 s -> 0 < z_krpc z -> 0 < z_ann z ->
  (forall s', ~ quiet e me z s s') -> y_dead s = true \/ z_fetch z <= length (hung s) \/ idle s.
Proof.
  intros e uf me local hosts z d0 s Hrt Hr Hz1 Hz2 Hno. destruct (y_dead s) eqn:Hd; [auto|]. destruct (Nat.le_gt_cases (z_fetch z) (length (hung s))) as [H|Hh]; [auto|]. right; right.
  destruct (drains _ _ _ _ _ _ _ _ Hrt Hr Hz1 Hz2 Hd Hh) as (s' & Hs & (_ & _ & R) & Hi). destruct (first_step _ _ _ _ _ Hs) as [<-|(s1 & H1 & H2)]; [exact Hi|]. exfalso. apply (Hno s1). split; [exact H1|].
  pose proof (reads_grow _ _ _ _ _ _ _ _ (yr_step _ _ _ _ _ _ _ _ Hr H1) H2) as Hl. destruct (read_cases e me local hosts z d0 s s1 Hr H1) as [E|E]; [exact E|]. rewrite R in Hl. lia.
Qed.

(** C122: it comes to rest: once no more packets arrive, every execution - whatever the schedule, whatever the peers
    do - finishes all the work after finitely many steps, or the process dies, or as many downloads hang as there
    are fetch workers. *)
Lemma C122_comes_to_rest_pf : forall e uf me local hosts z d0 s, runtime_ok e uf -> sys_reach e me local hosts z d0 s -> 0 < z_krpc z -> 0 < z_ann z ->
  settles e me z (fun s' => idle s' \/ y_dead s' = true \/ z_fetch z <= length (hung s')) s.
Proof.
  intros e uf me local hosts z d0 s Hrt Hr Hz1 Hz2. revert s Hr. apply quiet_ind. intros s Hr IH.
  destruct (y_dead s) eqn:Hd; [apply st_now; auto|]. destruct (Nat.le_gt_cases (z_fetch z) (length (hung s))) as [H|Hh]; [apply st_now; auto|].
  destruct (drains _ _ _ _ _ _ _ _ Hrt Hr Hz1 Hz2 Hd Hh) as (s' & Hs & (_ & _ & R) & Hi). destruct (first_step _ _ _ _ _ Hs) as [<-|(s1 & H1 & H2)]; [apply st_now; auto|].
  apply (st_later _ _ _ _ _ s1); [|exact IH]. split; [exact H1|].
  pose proof (reads_grow _ _ _ _ _ _ _ _ (yr_step _ _ _ _ _ _ _ _ Hr H1) H2) as Hl. destruct (read_cases e me local hosts z d0 s s1 Hr H1) as [E|E]; [exact E|]. rewrite R in Hl. lia.
Qed.

(** C122: every packet gets its handler: in a process that never stops, each packet that has been read is sooner or
    later taken up by a worker, whatever the schedule - no fairness is needed. *)
Lemma C122_every_packet_taken_up_pf : forall e uf me local hosts z d0 t, runtime_ok e uf -> sys_reach e me local hosts z d0 (t 0) -> forever e me z t ->
  forall n k pk, nth_error (y_read (t n)) k = Some pk -> exists m, nth_error (started (k_log (y_core (t m)))) k = Some pk.
Proof.
  intros e uf me local hosts z d0 t Hrt Hr0 Ht n k pk Hk.
  assert (Hr : forall k, sys_reach e me local hosts z d0 (t k)) by (induction k0 as [|k0 IH]; [exact Hr0|eapply yr_step; [exact IH|apply Ht]]).
  assert (Hmono : forall a b, a <= b -> exists r, y_read (t b) = y_read (t a) ++ r).
  { intros a b Hab. induction Hab as [|b Hab IH]; [exists []; rewrite app_nil_r; reflexivity|]. destruct IH as [r IH].
    destruct (mu_step e me z _ _ (pending_reach _ _ _ _ _ _ _ (Hr b)) (Ht b)) as [(d & -> & _)|[(-> & _)|(-> & _)]]; [|eauto|eauto]. rewrite IH, <- app_assoc. eauto. }
  assert (Hmany : forall j, exists m, n <= m /\ length (y_read (t n)) + j <= length (y_read (t m))).
  { induction j as [|j (m & Hm & IH)]; [exists n; lia|]. destruct (C122_no_spinning_pf e me local hosts z d0 t Hr0 Ht m) as (m' & d & Hm' & E). exists (S m'). split; [lia|].
    rewrite E, app_length. cbn [length]. destruct (Hmono m m' Hm') as [r ->]. rewrite app_length. lia. }
  destruct (Hmany (102 + z_krpc z)) as (m & Hm & Hl). exists m.
  pose proof (C96_packets_in_order_pf _ _ _ _ _ _ _ (Hr m)) as E. destruct (C96_bounded_pf _ _ _ _ _ _ _ _ Hrt (Hr m)) as (B1 & B2 & _).
  destruct (Hmono n m Hm) as [r Er]. assert (Hkm : nth_error (y_read (t m)) k = Some pk) by (rewrite Er, nth_error_app1; [exact Hk|apply nth_error_Some; congruence]).
  assert (Hkl : k < length (y_read (t n))) by (apply nth_error_Some; congruence).
  rewrite <- Hkm, E. symmetry. apply nth_error_app1. rewrite E in Hl. rewrite !app_length in Hl. destruct (y_listen (t m)), (y_recv (t m)); cbn [opt length] in Hl; lia.
Qed.

Lemma log_grows e me z s s' : sys_step e me z s s' -> exists l, k_log (y_core s') = k_log (y_core s) ++ l.
Proof.
  intros Hst. destruct Hst as [d Ha Hr|pk Ha Hr Hl|pk q Ha Hn Hq|pk Ha Hn Hl|pk p Ha Hp Hl|c Ha Hc|x q Ha Hf Hq|x Ha Hf Hl|x p Ha Hp Hl|l1 x l2 fe p h dial o r Ha Hld Er Hno|l1 x l2 fe p h dial o Ha Hld Ho|l1 v l2 op ops Ha Hru Hlf|l1 v l2 Ha Hru Hlf Hbv Hok]; sysred;
    try (exists []; rewrite app_nil_r; reflexivity); [eexists; reflexivity|]. destruct Hc; cbn [k_log]; eexists; reflexivity.
Qed.

(** C122: every announcement gets its download: in a process that is given announcements again and again, each of them is sooner
    or later handed to a fetch worker, whatever the schedule. *)
Lemma C122_every_announcement_taken_up_pf : forall e uf me local hosts z d0 t, runtime_ok e uf -> sys_reach e me local hosts z d0 (t 0) -> forever e me z t ->
  (forall b, exists m, b <= length (enqueued_in (map snd (k_log (y_core (t m)))))) ->
  forall n x, In x (enqueued_in (map snd (k_log (y_core (t n))))) -> exists m, In x (y_loads (t m) ++ map u_x (y_runs (t m))).
Proof.
  intros e uf me local hosts z d0 t Hrt Hr0 Ht Hmany n x Hx.
  assert (Hr : forall k, sys_reach e me local hosts z d0 (t k)) by (induction k as [|k IH]; [exact Hr0|eapply yr_step; [exact IH|apply Ht]]).
  assert (Hmono : forall a b, a <= b -> exists r, enqueued_in (map snd (k_log (y_core (t b)))) = enqueued_in (map snd (k_log (y_core (t a)))) ++ r).
  { intros a b Hab. induction Hab as [|b Hab IH]; [exists []; rewrite app_nil_r; reflexivity|]. destruct IH as [r IH]. destruct (log_grows _ _ _ _ _ (Ht b)) as [l ->].
    rewrite map_app, enqueued_app, IH, <- app_assoc. eauto. }
  set (E := fun k => enqueued_in (map snd (k_log (y_core (t k))))) in *.
  destruct (Hmany (length (E n) + z_ann z + z_fetch z + 1)) as (m & Hm). fold (E m) in Hm.
  assert (Hnm : n <= m). { destruct (Nat.le_gt_cases n m) as [H|H]; [exact H|]. destruct (Hmono m n ltac:(lia)) as [r Er]. fold (E m) (E n) in Er. rewrite Er, app_length in Hm. lia. }
  exists m. destruct (Hmono n m Hnm) as [r Er]. fold (E m) (E n) in Er.
  destruct (C87_queue_fifo_pf _ _ _ _ _ _ _ Hrt (core_reach _ _ _ _ _ _ _ (Hr m))) as [Hq Hqb]. fold (E m) in Hq.
  destruct (C96_announcements_handed_on_pf _ _ _ _ _ _ _ (Hr m)) as (handed & Hh & Hperm). destruct (C96_bounded_pf _ _ _ _ _ _ _ _ Hrt (Hr m)) as (_ & _ & _ & _ & Hfp & _).
  apply (Permutation_in _ Hperm). fold (E n) in Hx.
  assert (Heq : E n ++ r = handed ++ (y_fpool (t m) ++ opt (y_fetch (t m)) ++ a_queue (w_app (k_world (y_core (t m)))))) by (rewrite <- Er, Hq, Hh, <- !app_assoc; reflexivity).
  assert (Hle : length (E n) <= length handed).
  { apply (f_equal (@length ann)) in Heq. rewrite <- Er in Heq. rewrite !app_length in Heq. destruct (y_fetch (t m)); cbn [opt length] in Heq; lia. }
  apply In_nth_error in Hx as [k Hk]. assert (Hkl : k < length (E n)) by (apply nth_error_Some; congruence).
  apply (nth_error_In _ k). assert (Hkh : k < length handed) by lia.
  pose proof (nth_error_app1 (E n) r Hkl) as H1. rewrite Heq, (nth_error_app1 handed _ Hkh) in H1. rewrite H1. exact Hk.
Qed.

(** The hypotheses are met: a process that reads empty datagrams forever, one after the other. *)
Definition junk : dgram := {| dg_from := peer0; dg_bytes := [] |}.
Definition next (s : sys) : sys :=
  match y_recv s with
  | Some pk => set_in s None (y_q s ++ [pk]) (y_listen s) (y_pool s) (y_core s) (y_read s)
  | None => match y_q s with
    | pk :: q => set_in s (y_recv s) q (Some pk) (y_pool s) (y_core s) (y_read s)
    | [] => match y_listen s with
      | Some pk => set_in s (y_recv s) (y_q s) None (y_pool s ++ [pk]) (y_core s) (y_read s)
      | None => match y_pool s with
        | pk :: p => set_in s (y_recv s) (y_q s) (y_listen s) p (core_begin (y_core s) pk) (y_read s)
        | [] => match k_jobs (y_core s) with
          | (i, pk, JStart) :: l => set_in s (y_recv s) (y_q s) (y_listen s) (y_pool s)
              {| k_world := k_world (y_core s); k_jobs := [] ++ (i, pk, JEnd) :: l; k_next := k_next (y_core s); k_taken := k_taken (y_core s); k_log := k_log (y_core s) ++ map (pair i) [] |} (y_read s)
          | (i, pk, _) :: l => set_in s (y_recv s) (y_q s) (y_listen s) (y_pool s)
              {| k_world := k_world (y_core s); k_jobs := [] ++ l; k_next := k_next (y_core s); k_taken := k_taken (y_core s); k_log := k_log (y_core s) ++ [(i, EvEnd)] |} (y_read s)
          | [] => set_in s (Some (cut junk)) (y_q s) (y_listen s) (y_pool s) (y_core s) (y_read s ++ [cut junk])
          end
        end
      end
    end
  end.
Inductive phase (s : sys) : Prop :=
| ph_recv : y_recv s = Some (cut junk) -> y_q s = [] -> y_listen s = None -> y_pool s = [] -> k_jobs (y_core s) = [] -> phase s
| ph_q : y_recv s = None -> y_q s = [cut junk] -> y_listen s = None -> y_pool s = [] -> k_jobs (y_core s) = [] -> phase s
| ph_listen : y_recv s = None -> y_q s = [] -> y_listen s = Some (cut junk) -> y_pool s = [] -> k_jobs (y_core s) = [] -> phase s
| ph_pool : y_recv s = None -> y_q s = [] -> y_listen s = None -> y_pool s = [cut junk] -> k_jobs (y_core s) = [] -> phase s
| ph_start i : y_recv s = None -> y_q s = [] -> y_listen s = None -> y_pool s = [] -> k_jobs (y_core s) = [(i, cut junk, JStart)] -> phase s
| ph_end i : y_recv s = None -> y_q s = [] -> y_listen s = None -> y_pool s = [] -> k_jobs (y_core s) = [(i, cut junk, JEnd)] -> phase s
| ph_idle : y_recv s = None -> y_q s = [] -> y_listen s = None -> y_pool s = [] -> k_jobs (y_core s) = [] -> phase s.
Lemma next_ok e me z s : 0 < z_krpc z -> y_dead s = false -> phase s -> sys_step e me z s (next s) /\ y_dead (next s) = false /\ phase (next s).
Proof.
  intros Hz Hd Hp. unfold next. destruct Hp as [H1 H2 H3 H4 H5|H1 H2 H3 H4 H5|H1 H2 H3 H4 H5|H1 H2 H3 H4 H5|i H1 H2 H3 H4 H5|i H1 H2 H3 H4 H5|H1 H2 H3 H4 H5].
  - rewrite H1. split; [|split; [exact Hd|]].
    + apply ys_queue; [exact Hd|exact H1|rewrite H2; unfold RecvChanLen; cbn; lia].
    + apply ph_q; sysred; rewrite ?H2; auto.
  - rewrite H1, H2. split; [|split; [exact Hd|]].
    + pose proof (ys_listen e me z s _ _ Hd H3 H2) as H. rewrite H1 in H. exact H.
    + apply ph_listen; sysred; auto.
  - rewrite H1, H2, H3. split; [|split; [exact Hd|]].
    + pose proof (ys_submit e me z s _ Hd H3) as H. rewrite H1, H2 in H. apply H. rewrite H4. exact Hz.
    + apply ph_pool; sysred; rewrite ?H4; auto.
  - rewrite H1, H2, H3, H4. split; [|split; [exact Hd|]].
    + pose proof (ys_begin e me z s _ _ Hd H4) as H. rewrite H1, H2, H3 in H. apply H. rewrite H5. exact Hz.
    + eapply ph_start; sysred; rewrite ?H5; reflexivity.
  - rewrite H1, H2, H3, H4, H5. split; [|split; [exact Hd|]].
    + pose proof (ys_core e me z s _ Hd (co_job e me (z_ann z) (y_core s) 0 [] i (cut junk) JStart [] _ _ _ H5 (js_start (e 0) me (z_ann z) (k_world (y_core s)) (cut junk)))) as H.
      rewrite H1, H2, H3, H4 in H. exact H.
    + eapply ph_end; sysred; reflexivity.
  - rewrite H1, H2, H3, H4, H5. split; [|split; [exact Hd|]].
    + pose proof (ys_core e me z s _ Hd (co_end e me (z_ann z) (y_core s) [] i (cut junk) [] H5)) as H. rewrite H1, H2, H3, H4 in H. exact H.
    + apply ph_idle; sysred; reflexivity.
  - rewrite H1, H2, H3, H4, H5. split; [|split; [exact Hd|]].
    + pose proof (ys_read e me z s junk Hd H1) as H. rewrite H2, H3, H4 in H. exact H.
    + apply ph_recv; sysred; auto.
Qed.
Lemma C122_example_pf : exists t, sys_reach (fun _ => ex_env) ex_me (mkaddr [] 6881) [ex_addr 1] ex_sizes (fun _ => None) (t 0) /\ forever (fun _ => ex_env) ex_me ex_sizes t /\
  runtime_ok (fun _ => ex_env) (fun _ _ => false) /\ runs (fun _ => ex_env) ex_me ex_sizes 14 (t 0) (t 14) /\ y_read (t 14) = [cut junk; cut junk] /\ y_ops (t 14) = [] /\ cost (cut junk) = 14 /\
  idle (t 14).
Proof.
  exists (fix t n := match n with 0 => ex_sys0 | S n => next (t n) end). set (t := fix t n := match n with 0 => ex_sys0 | S n => next (t n) end).
  assert (Ha : forall n, y_dead (t n) = false /\ phase (t n)).
  { induction n as [|n [IH1 IH2]]; [split; [reflexivity|apply ph_idle; reflexivity]|]. destruct (next_ok (fun _ => ex_env) ex_me ex_sizes (t n) Nat.lt_0_1 IH1 IH2) as (_ & H1 & H2). split; assumption. }
  assert (Hf : forever (fun _ => ex_env) ex_me ex_sizes t) by (intros n; destruct (Ha n) as [H1 H2]; exact (proj1 (next_ok (fun _ => ex_env) ex_me ex_sizes (t n) Nat.lt_0_1 H1 H2))).
  split; [exact ex_sys0_ok|]. split; [exact Hf|]. split; [exact ex_runtime|]. 
  assert (Hn : forall n, runs (fun _ => ex_env) ex_me ex_sizes n (t 0) (t n)) by (induction n as [|n IH]; [constructor|exact (rn_step _ _ _ n _ _ _ IH (Hf n))]).
  split; [exact (Hn 14)|].
  split; [vm_compute; reflexivity|]. split; [vm_compute; reflexivity|]. split; [vm_compute; reflexivity|]. split; try (vm_compute; reflexivity). intros u Hu. exact (False_ind _ Hu).
Qed.
