(** NetCrawlPf.v -- proofs of C132: a network that consists of crawlers only. *)
From Verif Require Import Base GoLib Bencode BencodeSpec BencodeProofs BencodePf Types Node RouteTable RouteTableProofs Middleware Krpc KrpcSpec KrpcProofs KrpcPf Dht DhtSpec DhtPf Conc ConcSpec ConcProofs ConcPf SizeProofs AmplifySpec AmplifyPf
  BytesPool PeerWire Fetch FetchTorrent FetchTorrentSpec Udp System SystemSpec SystemProofs SystemPf ZapLog InfoLog InfoLogSpec InfoLogPf TracePf NetCrawl NetCrawlSpec NetCrawlProofs.
Local Open Scope list_scope.

(** Every process is an execution of the whole crawler, and reads nothing but bootstrap queries and empty answers. *)
Definition proc_ok (x : proc * sys) : Prop :=
  sys_reach (n_e (fst x)) (n_me (fst x)) (n_local (fst x)) (n_hosts (fst x)) (n_z (fst x)) (n_disk (fst x)) (snd x) /\ forall pk, In pk (y_read (snd x)) -> tame (p_bytes pk).

Lemma net_ok_back l1 p s s' l2 : net_ok (l1 ++ (p, s') :: l2) -> net_ok (l1 ++ (p, s) :: l2).
Proof.
  intros H q t Hin. apply in_app_iff in Hin. destruct Hin as [Hin|[E|Hin]].
  - apply (H q t). apply in_app_iff. auto.
  - injection E as <- <-. apply (H p s'). apply in_elt.
  - apply (H q t). apply in_app_iff. right. right. exact Hin.
Qed.
Lemma forall_update {X} (P : X -> Prop) l1 x y l2 : (forall z, In z (l1 ++ x :: l2) -> P z) -> P y -> forall z, In z (l1 ++ y :: l2) -> P z.
Proof. intros H Hy z Hz. apply in_app_iff in Hz. destruct Hz as [Hz|[<-|Hz]]; [|exact Hy|]; apply H, in_app_iff; [left|right; right]; exact Hz. Qed.

Lemma net_inv n : net_reach n -> net_ok n -> forall x, In x n -> proc_ok x.
Proof.
  induction 1 as [n H0|n n' Hr IH Hst]; intros Hok.
  - intros [p s] Hin. destruct (H0 p s Hin) as (w0 & w & Hi & Hb & ->). split; [eapply yr_start; eassumption|intros pk []].
  - destruct Hst as [l1 p s l2 s' E Hs Hrd|l1 p s l2 s' q t g from E Hq Hg Hs Hrd]; subst n.
    + pose proof (net_ok_back _ _ _ _ _ Hok : net_ok (l1 ++ (p, s) :: l2)) as Hok'. specialize (IH Hok'). apply forall_update with (1 := IH).
      destruct (IH _ (in_elt _ _ _)) as [H1 H2]. split; cbn [fst snd] in *; [eapply yr_step; eassumption|]. rewrite Hrd. exact H2.
    + pose proof (net_ok_back _ _ _ _ _ Hok : net_ok (l1 ++ (p, s) :: l2)) as Hok'. specialize (IH Hok'). apply forall_update with (1 := IH).
      destruct (IH _ (in_elt _ _ _)) as [H1 H2]. split; cbn [fst snd] in *; [eapply yr_step; eassumption|]. rewrite Hrd. intros pk Hpk. apply in_app_iff in Hpk. destruct Hpk as [Hpk|[<-|[]]]; [exact (H2 _ Hpk)|].
      destruct (Hok' _ _ Hq) as [(uf & Hrt) Hme]. destruct (IH _ Hq) as [Q1 Q2]. cbn [fst snd] in *. pose proof (proc_sent_tame _ _ _ _ _ _ _ _ Hrt Hme Q1 Q2 _ Hg) as Ht. cbn [cut p_bytes dg_bytes].
      rewrite (proj2 (small_fits (g_bytes g) ltac:(destruct Ht as [(? & ? & Hl & _)|(? & ? & Hl & _)]; rewrite Hl; lia))). exact Ht.
Qed.

(** C132: in a network that consists of crawlers only nobody learns anything, whoever bootstraps from whom and whatever the network does to the datagrams: at every moment
    the routing table of each crawler holds the crawler itself and nothing else, no announcement was ever queued, no download ever begun, and no file has changed. *)
Lemma C132_crawlers_learn_nothing_pf : forall n p s, net_reach n -> net_ok n -> In (p, s) n ->
  (forall x, In x (stored (a_rt (w_app (k_world (y_core s))))) <-> x = {| nid := n_me p; naddr := n_local p |}) /\
  k_taken (y_core s) = [] /\ a_queue (w_app (k_world (y_core s))) = [] /\ y_fetch s = None /\ y_fpool s = [] /\ y_loads s = [] /\ y_runs s = [] /\
  forall q, y_disk s q = n_disk p q.
Proof.
  intros n p s Hn Hok Hin. destruct (Hok _ _ Hin) as [(uf & Hrt) Hme]. destruct (net_inv _ Hn Hok _ Hin) as [Hr Ht]. cbn [fst snd] in *.
  destruct (proc_queue _ _ _ _ _ _ _ _ Hrt Hr Ht) as [Q1 Q2]. destruct (proc_fetch _ _ _ _ _ _ _ _ Hrt Hr Ht) as (F1 & F2 & F3 & F4 & _ & F6).
  split; [intros x; eapply proc_table; eassumption|]. auto 10.
Qed.

(** C132: and the info-hash log of each of them stays empty. *)
Lemma C132_nothing_is_logged_pf : forall n p s os l, net_reach n -> net_ok n -> In (p, s) n ->
  orders_ok os -> lreach (n_e p) os (n_me p) (n_local p) (n_hosts p) (z_ann (n_z p)) l -> l_conc l = y_core s -> l_recs l = [] /\ l_file l = [].
Proof.
  intros n p s os l Hn Hok Hin Ho Hl Ec. destruct (Hok _ _ Hin) as [(uf & Hrt) Hme]. destruct (net_inv _ Hn Hok _ Hin) as [Hr Ht]. cbn [fst snd] in *.
  destruct (C108_log_is_exact_pf _ _ _ _ _ _ _ _ Hrt Ho Hl) as (Hf & _ & Hs & _).
  assert (E : l_recs l = []).
  { destruct (l_recs l) as [|[[i now] en] rs]; [reflexivity|]. destruct (Hs i now en (or_introl eq_refl)) as (_ & pk & ih & po & [Hst _] & Hrec). rewrite Ec in Hst.
    pose proof (handled_read _ _ _ _ _ _ _ _ _ Hr Hst) as Hpk. destruct (Ht _ Hpk) as [Ha|Ha].
    - destruct (ask_proper _ Ha) as (tx & a & Hp & _). destruct Hrec as [tx' a' ? ? Hp'|tx' a' ? ? ? Hp']; destruct (proper_det _ _ _ _ _ _ _ Hp Hp') as (_ & E & _); discriminate E.
    - destruct Hrec as [tx' a' ? ? Hp'|tx' a' ? ? ? Hp']; elim (ans_noask _ _ _ Ha (proper_asks _ _ _ _ Hp')). }
  rewrite Hf, E. auto.
Qed.

(** C132: everything a crawler sends in such a network is one bootstrap query to each host it was configured with, and after that answers without nodes to find_node
    queries it has read, at most one for each packet read. *)
Lemma C132_what_is_sent_pf : forall n p s, net_reach n -> net_ok n -> In (p, s) n ->
  exists boots answers, sent_by s = boots ++ answers /\ boot_sent (n_me p) 1000 (n_hosts p) boots /\ length boots = length (n_hosts p) /\ length answers <= length (y_read s) /\
    forall g, In g answers -> exists pk tx a, In pk (y_read s) /\ proper_query (p_bytes pk) tx "find_node" a /\ g_to g = p_addr pk /\ carries (g_bytes g) (empty_answer tx (n_me p)).
Proof.
  intros n p s Hn Hok Hin. destruct (Hok _ _ Hin) as [(uf & Hrt) Hme]. destruct (net_inv _ Hn Hok _ Hin) as [Hr Ht]. cbn [fst snd] in *.
  destruct (C93_all_datagrams_pf _ _ _ _ _ _ _ Hrt (core_reach _ _ _ _ _ _ _ Hr)) as (gs & Hb & E). rewrite (proc_log_sent _ _ _ _ _ _ _ _ Hrt Hr Ht) in E.
  exists gs, (replies_in (map snd (k_log (y_core s)))). split; [exact E|]. split; [exact Hb|]. split; [clear - Hb; induction Hb; cbn [length]; congruence|]. split.
  - apply Nat.le_trans with (1 := proc_replies _ _ _ _ _ _ _ _ Hrt Hr Ht). apply Nat.le_trans with (1 := filter_len _ _). rewrite map_length. lia.
  - intros g Hg. unfold replies_in in Hg. apply in_flat_map in Hg. destruct Hg as (v & Hv & Hg). apply in_map_iff in Hv. destruct Hv as ([i v'] & <- & Hv). cbn [snd] in Hg.
    destruct v'; try (elim Hg; fail). destruct Hg as [->|[]]. destruct (proc_reply _ _ _ _ _ _ _ _ Hrt Hr Ht _ _ Hv) as (pk & tx & a & _ & H1 & _ & H2 & _ & H3 & H4). exists pk, tx, a. auto.
Qed.

(** Counting queries by their length. *)
Definition asks_in (l : list bytes) : nat := length (filter (fun b => length b =? 94) l).
Lemma asks_app l1 l2 : asks_in (l1 ++ l2) = asks_in l1 + asks_in l2.
Proof. unfold asks_in. rewrite filter_app, app_length. reflexivity. Qed.
Lemma asks_perm l1 l2 : Permutation l1 l2 -> asks_in l1 = asks_in l2.
Proof. unfold asks_in. induction 1; cbn [filter]; repeat match goal with |- context[if ?b then _ else _] => destruct b end; cbn [length]; lia. Qed.

Lemma proc_counts p s : (exists uf, runtime_ok (n_e p) uf) -> length (n_me p) = 20 -> proc_ok (p, s) ->
  asks_in (map g_bytes (sent_by s)) = length (n_hosts p) /\ length (sent_by s) <= length (n_hosts p) + asks_in (map p_bytes (y_read s)).
Proof.
  intros (uf & Hrt) Hme [Hr Ht]. cbn [fst snd] in *.
  destruct (C93_all_datagrams_pf _ _ _ _ _ _ _ Hrt (core_reach _ _ _ _ _ _ _ Hr)) as (gs & Hb & E). rewrite (proc_log_sent _ _ _ _ _ _ _ _ Hrt Hr Ht) in E.
  pose proof (proc_replies _ _ _ _ _ _ _ _ Hrt Hr Ht) as HR. unfold sent_by. rewrite E, map_app, asks_app, app_length.
  assert (Hl : length gs = length (n_hosts p)) by (clear - Hb; induction Hb; cbn [length]; congruence). split; [|unfold asks_in; lia].
  assert (A1 : asks_in (map g_bytes gs) = length gs).
  { pose proof (boots_ask _ _ _ _ Hme Hb) as Ha. clear - Ha. unfold asks_in. induction gs as [|g gs IH]; [reflexivity|]. cbn [map filter]. destruct (Ha g (or_introl eq_refl)) as (? & ? & Hg & _). rewrite Hg. cbn [Nat.eqb length].
    rewrite IH; [reflexivity|]. intros g' Hg'. apply Ha. right. exact Hg'. }
  assert (A2 : asks_in (map g_bytes (replies_in (map snd (k_log (y_core s))))) = 0).
  { unfold asks_in. clear HR. destruct (filter _ _) as [|b l] eqn:F; [reflexivity|]. assert (Hin : In b (filter (fun b => length b =? 94) (map g_bytes (replies_in (map snd (k_log (y_core s))))))) by (rewrite F; left; reflexivity).
    apply filter_In in Hin. destruct Hin as [Hin H94]. apply in_map_iff in Hin. destruct Hin as (g & <- & Hg). unfold replies_in in Hg. apply in_flat_map in Hg. destruct Hg as (v & Hv & Hg). apply in_map_iff in Hv. destruct Hv as ([i v'] & <- & Hv). cbn [snd] in Hg.
    destruct v'; try (elim Hg; fail). destruct Hg as [->|[]]. destruct (proc_reply _ _ _ _ _ _ _ _ Hrt Hr Ht _ _ Hv) as (pk & tx & a & _ & _ & _ & _ & H3 & _ & H4).
    rewrite (ans_size _ _ _ Hme H3 H4) in H94. discriminate H94. }
  rewrite A1, A2. lia.
Qed.

Lemma net_counts n : net_ok n -> (forall x, In x n -> proc_ok x) -> asks_in (all_sent n) = configured n /\ length (all_sent n) <= configured n + asks_in (all_read n).
Proof.
  induction n as [|[p s] n IH]; intros Hok Hall; [split; [reflexivity|cbn; lia]|].
  destruct IH as [I1 I2]; [intros q t Hq; apply (Hok q t); right; exact Hq|intros x Hx; apply Hall; right; exact Hx|].
  destruct (Hok p s (or_introl eq_refl)) as [Hrt Hme]. destruct (proc_counts p s Hrt Hme (Hall _ (or_introl eq_refl))) as [P1 P2].
  assert (C0 : configured ((p, s) :: n) = length (n_hosts p) + configured n) by reflexivity.
  assert (S0 : all_sent ((p, s) :: n) = map g_bytes (sent_by s) ++ all_sent n) by reflexivity.
  assert (R0 : all_read ((p, s) :: n) = map p_bytes (y_read s) ++ all_read n) by reflexivity.
  rewrite C0, S0, R0, !asks_app, app_length, map_length. lia.
Qed.

(** C132: a network that loses datagrams but does not duplicate them falls silent: however long it runs, the crawlers together send at most two datagrams for each host they
    were configured with. *)
Lemma C132_network_falls_silent_pf : forall n, net_reach n -> net_ok n -> no_duplicates n -> length (all_sent n) <= 2 * configured n /\ length (all_read n) <= 2 * configured n.
Proof.
  intros n Hn Hok (lost & Hp). destruct (net_counts _ Hok (net_inv _ Hn Hok)) as [H1 H2]. pose proof (asks_perm _ _ Hp) as H3. rewrite asks_app in H3.
  apply Permutation_length in Hp. rewrite app_length in Hp. lia.
Qed.

(** C132: so the claim "crawlers that bootstrap from one another find one another" is false: no crawler ever stores the node id of another one. *)
Lemma C132_crawlers_find_each_other_refuted_pf : ~ exists n p s q t x, net_reach n /\ net_ok n /\ In (p, s) n /\ In (q, t) n /\ n_me p <> n_me q /\
  In x (stored (a_rt (w_app (k_world (y_core s))))) /\ nid x = n_me q.
Proof.
  intros (n & p & s & q & t & x & Hn & Hok & Hp & Hq & Hne & Hx & E). apply (proj1 (C132_crawlers_learn_nothing_pf _ _ _ Hn Hok Hp)) in Hx. subst x. cbn [nid] in E. contradiction.
Qed.

(** ** Two crawlers *)
Inductive yact := YRead (d : dgram) | YQueue | YListen | YSubmit | YBegin | YJob | YEnd.
Definition ydo (p : proc) (s : sys) (a : yact) : option sys :=
  if y_dead s then None else
  match a with
  | YRead d => match y_recv s with None => Some (set_in s (Some (cut d)) (y_q s) (y_listen s) (y_pool s) (y_core s) (y_read s ++ [cut d])) | _ => None end
  | YQueue => match y_recv s with Some pk => if length (y_q s) <? RecvChanLen then Some (set_in s None (y_q s ++ [pk]) (y_listen s) (y_pool s) (y_core s) (y_read s)) else None | None => None end
  | YListen => match y_listen s, y_q s with None, pk :: q => Some (set_in s (y_recv s) q (Some pk) (y_pool s) (y_core s) (y_read s)) | _, _ => None end
  | YSubmit => match y_listen s with Some pk => if length (y_pool s) <? z_krpc (n_z p) then Some (set_in s (y_recv s) (y_q s) None (y_pool s ++ [pk]) (y_core s) (y_read s)) else None | None => None end
  | YBegin => match y_pool s with pk :: l => if length (k_jobs (y_core s)) <? z_krpc (n_z p) then Some (set_in s (y_recv s) (y_q s) (y_listen s) l (core_begin (y_core s) pk) (y_read s)) else None | [] => None end
  | YJob => match k_jobs (y_core s) with
            | (i, pk, pc) :: l2 => match job_fun (n_e p 0) (n_me p) (z_ann (n_z p)) (k_world (y_core s)) pk pc with
              | Some (w', pc', v) => Some (set_in s (y_recv s) (y_q s) (y_listen s) (y_pool s)
                  {| k_world := w'; k_jobs := (i, pk, pc') :: l2; k_next := k_next (y_core s); k_taken := k_taken (y_core s); k_log := k_log (y_core s) ++ map (pair i) v |} (y_read s))
              | None => None end
            | [] => None end
  | YEnd => match k_jobs (y_core s) with
            | (i, pk, JEnd) :: l2 => Some (set_in s (y_recv s) (y_q s) (y_listen s) (y_pool s)
                {| k_world := k_world (y_core s); k_jobs := l2; k_next := k_next (y_core s); k_taken := k_taken (y_core s); k_log := k_log (y_core s) ++ [(i, EvEnd)] |} (y_read s))
            | _ => None end
  end.
Lemma ydo_ok p s a s' : ydo p s a = Some s' -> sys_step (n_e p) (n_me p) (n_z p) s s' /\ y_read s' = y_read s ++ match a with YRead d => [cut d] | _ => [] end.
Proof.
  unfold ydo. destruct (y_dead s) eqn:Ed; [discriminate|]. destruct a; intros H; rewrite ?app_nil_r.
  - destruct (y_recv s) eqn:E; [discriminate|]. injection H as <-. split; [apply ys_read; assumption|reflexivity].
  - destruct (y_recv s) as [pk|] eqn:E; [|discriminate]. destruct (Nat.ltb_spec (length (y_q s)) RecvChanLen); [|discriminate]. injection H as <-. split; [apply ys_queue; assumption|reflexivity].
  - destruct (y_listen s) as [|] eqn:E; [discriminate|]. destruct (y_q s) as [|pk q] eqn:Eq; [discriminate|]. injection H as <-. split; [apply ys_listen; assumption|reflexivity].
  - destruct (y_listen s) as [pk|] eqn:E; [|discriminate]. destruct (Nat.ltb_spec (length (y_pool s)) (z_krpc (n_z p))); [|discriminate]. injection H as <-. split; [apply ys_submit; assumption|reflexivity].
  - destruct (y_pool s) as [|pk l] eqn:E; [discriminate|]. destruct (Nat.ltb_spec (length (k_jobs (y_core s))) (z_krpc (n_z p))); [|discriminate]. injection H as <-. split; [apply ys_begin; assumption|reflexivity].
  - destruct (k_jobs (y_core s)) as [|[[i pk] pc] l2] eqn:E; [discriminate|]. destruct (job_fun _ _ _ _ _ _) as [[[w' pc'] v]|] eqn:F; [|discriminate]. injection H as <-. split; [|reflexivity].
    apply ys_core; [exact Ed|]. eapply (co_job _ _ _ _ 0 []); [exact E|apply job_fun_ok; exact F].
  - destruct (k_jobs (y_core s)) as [|[[i pk] []] l2] eqn:E; try discriminate. injection H as <-. split; [|reflexivity]. apply ys_core; [exact Ed|]. eapply (co_end _ _ _ _ []). exact E.
Qed.

(** The two processes, and what one of them does: an action of its own, or the delivery of the first datagram of the other. *)
Definition one_read : list yact := [YQueue; YListen; YSubmit; YBegin; YJob; YJob; YEnd].
Fixpoint yall (p : proc) (s : sys) (l : list yact) : option sys := match l with [] => Some s | a :: l => match a with YRead _ => None | _ => match ydo p s a with Some s' => yall p s' l | None => None end end end.

Lemma yall_left p q t l : forall s s', net_reach [(p, s); (q, t)] -> yall p s l = Some s' -> net_reach [(p, s'); (q, t)].
Proof.
  induction l as [|a l IH]; intros s s' Hn H; cbn [yall] in H; [injection H as <-; exact Hn|]. assert (Ha : exists s1, ydo p s a = Some s1 /\ yall p s1 l = Some s' /\ match a with YRead d => [cut d] | _ => [] end = []).
  { destruct a; try discriminate H; destruct (ydo p s _) as [s1|] eqn:E; try discriminate H; exists s1; auto. }
  destruct Ha as (s1 & E & H1 & Er). destruct (ydo_ok _ _ _ _ E) as [Hst Hrd]. rewrite Er, app_nil_r in Hrd. apply (IH s1); [|exact H1]. eapply nr_step; [exact Hn|]. apply (nt_own _ [] p s [(q, t)] s1 eq_refl Hst Hrd).
Qed.
Lemma yall_right p q t l : forall s s', net_reach [(q, t); (p, s)] -> yall p s l = Some s' -> net_reach [(q, t); (p, s')].
Proof.
  induction l as [|a l IH]; intros s s' Hn H; cbn [yall] in H; [injection H as <-; exact Hn|]. assert (Ha : exists s1, ydo p s a = Some s1 /\ yall p s1 l = Some s' /\ match a with YRead d => [cut d] | _ => [] end = []).
  { destruct a; try discriminate H; destruct (ydo p s _) as [s1|] eqn:E; try discriminate H; exists s1; auto. }
  destruct Ha as (s1 & E & H1 & Er). destruct (ydo_ok _ _ _ _ E) as [Hst Hrd]. rewrite Er, app_nil_r in Hrd. apply (IH s1); [|exact H1]. eapply nr_step; [exact Hn|]. apply (nt_own _ [(q, t)] p s [] s1 eq_refl Hst Hrd).
Qed.

Definition two_a : proc := {| n_e := fun _ => ex_env; n_me := ex_me; n_local := mkaddr [] 6881; n_hosts := [ex_addr 1]; n_z := ex_sizes; n_disk := fun _ => None |}.
Definition two_b : proc := {| n_e := fun _ => ex_env; n_me := B "nnnnnnnnnnnnnnnnnnnn"; n_local := mkaddr [] 6881; n_hosts := []; n_z := ex_sizes; n_disk := fun _ => None |}.
Definition first_sys (p : proc) : option sys :=
  match crawler_init (n_me p) (n_local p) with
  | Ok w0 => match boot (n_e p) (n_me p) (n_hosts p) w0 with Ok w => Some (sys_init {| k_world := w; k_jobs := []; k_next := 0; k_taken := []; k_log := [] |} (n_disk p)) | _ => None end
  | _ => None end.
Lemma first_ok p s : first_sys p = Some s -> started_proc p s.
Proof.
  unfold first_sys, started_proc. destruct (crawler_init _ _) as [w0| |]; try discriminate. destruct (boot _ _ _ _) as [w| |] eqn:E; try discriminate. intros H. injection H as <-. eauto.
Qed.

(** The query of [a] reaches [b], which answers; the answer reaches [a]. *)
Definition two_run : option (sys * sys) :=
  match first_sys two_a, first_sys two_b with
  | Some a, Some b => match sent_by a with
    | g :: _ => match ydo two_b b (YRead {| dg_from := ex_addr 2; dg_bytes := g_bytes g |}) with
      | Some b1 => match yall two_b b1 one_read with
        | Some b2 => match sent_by b2 with
          | g' :: _ => match ydo two_a a (YRead {| dg_from := ex_addr 1; dg_bytes := g_bytes g' |}) with
            | Some a1 => match yall two_a a1 [YQueue; YListen; YSubmit; YBegin; YJob; YJob; YJob; YEnd] with Some a2 => Some (a2, b2) | None => None end
            | None => None end
          | [] => None end
        | None => None end
      | None => None end
    | [] => None end
  | _, _ => None end.
Lemma two_run_ok a b : two_run = Some (a, b) -> net_reach [(two_a, a); (two_b, b)].
Proof.
  unfold two_run. destruct (first_sys two_a) as [a0|] eqn:Ea; [|discriminate]. destruct (first_sys two_b) as [b0|] eqn:Eb; [|discriminate].
  assert (H0 : net_reach [(two_a, a0); (two_b, b0)]). { apply nr_start. intros p s [E|[E|[]]]; injection E as <- <-; apply first_ok; assumption. }
  destruct (sent_by a0) as [|g gs] eqn:Eg; [discriminate|]. destruct (ydo two_b b0 _) as [b1|] eqn:E1; [|discriminate]. destruct (ydo_ok _ _ _ _ E1) as [S1 R1].
  assert (H1 : net_reach [(two_a, a0); (two_b, b1)]).
  { eapply nr_step; [exact H0|]. eapply (nt_deliver _ [(two_a, a0)] two_b b0 [] b1 two_a a0 g (ex_addr 2)); [reflexivity|left; reflexivity|rewrite Eg; left; reflexivity|exact S1|exact R1]. }
  destruct (yall two_b b1 _) as [b2|] eqn:E2; [|discriminate]. pose proof (yall_right _ _ _ _ _ _ H1 E2) as H2.
  destruct (sent_by b2) as [|g' gs'] eqn:Eg'; [discriminate|]. destruct (ydo two_a a0 _) as [a1|] eqn:E3; [|discriminate]. destruct (ydo_ok _ _ _ _ E3) as [S3 R3].
  assert (H3 : net_reach [(two_a, a1); (two_b, b2)]).
  { eapply nr_step; [exact H2|]. eapply (nt_deliver _ [] two_a a0 [(two_b, b2)] a1 two_b b2 g' (ex_addr 1)); [reflexivity|right; left; reflexivity|rewrite Eg'; left; reflexivity|exact S3|exact R3]. }
  destruct (yall two_a a1 _) as [a2|] eqn:E4; [|discriminate]. intros H. injection H as <- <-. eapply yall_left; eassumption.
Qed.

(** What is checked about the final states. *)
Definition two_check (a b : sys) : bool :=
  match map g_bytes (sent_by a), map g_bytes (sent_by b), map p_bytes (y_read a), map p_bytes (y_read b) with
  | [x], [y], [x'], [y'] => beq x y' && beq y x' | _, _, _, _ => false end &&
  match k_jobs (y_core a), k_jobs (y_core b), k_log (y_core a), k_log (y_core b) with
  | [], [], [(i, EvStart _); (j, EvEnd)], [_; (_, EvReply _); _] => i =? j | _, _, _, _ => false end.
Lemma two_run_check : match two_run with Some (a, b) => two_check a b | None => false end = true.
Proof. vm_compute. reflexivity. Qed.

(** C132: the hypotheses are met: two crawlers, the first bootstraps from the second; its query arrives and is answered, the answer arrives and is handled; no datagram
    was lost or duplicated, and the bound on the number of datagrams is reached. *)
Lemma C132_example_pf : exists p a q b, net_reach [(p, a); (q, b)] /\ net_ok [(p, a); (q, b)] /\ n_me p <> n_me q /\ no_duplicates [(p, a); (q, b)] /\ length (all_sent [(p, a); (q, b)]) = 2 /\ configured [(p, a); (q, b)] = 1 /\ length (y_read a) = 1 /\ length (y_read b) = 1 /\ k_jobs (y_core a) = [] /\ k_jobs (y_core b) = [] /\ (exists i pk, In (i, EvStart pk) (k_log (y_core a)) /\ In (i, EvEnd) (k_log (y_core a))) /\ exists i g, In (i, EvReply g) (k_log (y_core b)).
Proof.
  pose proof two_run_check as H. destruct two_run as [[a b]|] eqn:E; [|discriminate]. pose proof (two_run_ok _ _ E) as Hn. clear E. exists two_a, a, two_b, b. split; [exact Hn|].
  split. { intros p s [E|[E|[]]]; injection E as <- <-; (split; [exists (fun _ _ => false); exact ex_runtime|reflexivity]). }
  split; [discriminate|]. unfold two_check in H. unfold no_duplicates, all_sent, all_read, configured. cbn [flat_map snd fst map]. rewrite !app_nil_r.
  destruct (map g_bytes (sent_by a)) as [|x [|]] eqn:Sa; try discriminate. destruct (map g_bytes (sent_by b)) as [|y [|]] eqn:Sb; try discriminate.
  destruct (map p_bytes (y_read a)) as [|x' [|]] eqn:Ra; try discriminate. destruct (map p_bytes (y_read b)) as [|y' [|]] eqn:Rb; try discriminate.
  apply andb_prop in H. destruct H as [H1 H2]. apply andb_prop in H1. destruct H1 as [H1 H1']. apply beq_eq in H1, H1'. subst x' y'.
  apply (f_equal (@length bytes)) in Ra, Rb. rewrite map_length in Ra, Rb.
  destruct (k_jobs (y_core a)); [|discriminate]. destruct (k_jobs (y_core b)); [|discriminate].
  split; [exists []; cbn [app]; apply perm_swap|]. split; [reflexivity|]. split; [reflexivity|]. split; [exact Ra|]. split; [exact Rb|]. split; [reflexivity|]. split; [reflexivity|].
  split.
  - destruct (k_log (y_core a)) as [|[i []] [|[j []] []]]; try discriminate. destruct (k_log (y_core b)) as [|? [|[? []] [|? []]]]; try discriminate.
    apply Nat.eqb_eq in H2. subst j. eexists i, _. split; [left; reflexivity|right; left; reflexivity].
  - destruct (k_log (y_core a)) as [|[i []] [|[j []] []]]; try discriminate. destruct (k_log (y_core b)) as [|? [|[i2 []] [|? []]]]; try discriminate.
    eexists i2, _. right. left. reflexivity.
Qed.
