(** ConcPf.v -- the properties of the concurrent crawler. *)
From Verif Require Import Base GoLib Bencode BencodeSpec BencodeProofs BencodePf Types TypesPf Node NodePf RouteTable RouteTableProofs RouteTablePf Middleware MiddlewarePf Krpc KrpcSpec KrpcProofs KrpcPf Dht DhtSpec DhtProofs DhtPf Conc ConcSpec ConcProofs.
Local Open Scope list_scope.

Lemma owed_asks me pk d : owed me pk d -> exists tx q, asks pk tx q.
Proof. intros [tx q a body Hp _|tx q msg Ha _ _]; [exists tx, (B q); eapply proper_asks; exact Hp|eauto]. Qed.
Lemma announcement_asks pk x : announcement pk x -> exists tx q, asks pk tx q.
Proof. intros (tx & a & ih & po & Hp & _). eexists _, _. eapply proper_asks. exact Hp. Qed.

Lemma jok_replies me pk pc l : jok me pk pc l ->
  (forall g, In g (replies_in l) -> g_to g = p_addr pk /\ exists d, owed me pk d /\ carries (g_bytes g) d) /\
  length (replies_in l) <= 1 /\
  ((forall tx q, ~ asks pk tx q) -> replies_in l = []) /\
  (pc = JEnd -> (exists tx q, asks pk tx q) -> length (replies_in l) = 1).
Proof.
  intros Hj. assert (Hone : forall d bs, owed me pk d -> carries bs d ->
    (forall g, In g [{| g_bytes := bs; g_to := p_addr pk |}] -> g_to g = p_addr pk /\ exists d, owed me pk d /\ carries (g_bytes g) d)).
  { intros d bs Ho Hc g [<-|[]]. split; [reflexivity|]. exists d. auto. }
  destruct Hj as [|pc Hc|x r d Ha Hw Ho|tx q d bs Hask Hna Ho Hc|x d bs Ha Ho Hc|pc l tx ns rest acc txs Hna Hl Htr Hin Hask Hnp];
    cbn [replies_in flat_map app length].
  - repeat split; try easy; try lia.
  - repeat split; try easy; try lia. intros -> (tx & q & Hask). inversion Hc as [E Hn|? ? ? ? E|? ? ? E|? ? ? ? E]; try discriminate E. elim (Hn _ _ Hask).
  - repeat split; try easy; try lia.
  - repeat split; try lia. 1,2: eapply Hone; eassumption. intros Hn. elim (Hn _ _ Hask).
  - repeat split; try lia. 1,2: eapply Hone; eassumption. intros Hn. destruct (announcement_asks _ _ Ha) as (tx & q & Hq). elim (Hn _ _ Hq).
  - pose proof (inner_replies _ Hin) as Hre. unfold replies_in in Hre. rewrite Hre. cbn. split; [easy|]. split; [lia|]. split; [easy|].
    intros _ (t & q & Hq). elim (Hna _ _ Hq).
Qed.

Lemma replies_end l : replies_in (l ++ [EvEnd]) = replies_in l.
Proof. rewrite replies_app, app_nil_r. reflexivity. Qed.

(** C86: however the goroutines are interleaved, handling a packet sends at most one reply; it goes to
    the source of the packet and carries what the packet is owed: the answer of BEP-5 to a proper
    query, an error 203 with the same transaction id to any other packet that asks something.
    Packets that are no queries get no reply.  A handled query has been answered when its handler is
    done. *)
Lemma C86_replies_any_schedule_pf : forall e uf me local hosts cap s i pk, runtime_ok e uf -> conc_reach e me local hosts cap s ->
  In (i, EvStart pk) (k_log s) ->
  let sent := replies_in (evs i (k_log s)) in
  (forall g, In g sent -> g_to g = p_addr pk /\ exists d, owed me pk d /\ carries (g_bytes g) d) /\
  length sent <= 1 /\
  ((forall tx q, ~ asks pk tx q) -> sent = []) /\
  (In (i, EvEnd) (k_log s) -> (exists tx q, asks pk tx q) -> length sent = 1).
Proof.
  intros e uf me local hosts cap s i pk Hrt Hr Hin sent. pose proof (conc_inv _ _ _ _ _ _ _ Hrt Hr) as HI.
  destruct (job_facts _ _ _ _ _ _ HI Hin) as [(pc & _ & Hj & Hne)|(l & E & Hj & _)].
  - destruct (jok_replies _ _ _ _ Hj) as (H1 & H2 & H3 & H4). repeat split; try apply H1; try assumption. intros He. contradiction.
  - unfold sent. rewrite E, replies_end. destruct (jok_replies _ _ _ _ Hj) as (H1 & H2 & H3 & H4). repeat split; try apply H1; try assumption. intros _. apply H4. reflexivity.
Qed.

(** C86: a handler is started once per packet, and ends at most once. *)
Lemma C86_one_packet_per_handler_pf : forall e uf me local hosts cap s i, runtime_ok e uf -> conc_reach e me local hosts cap s ->
  (evs i (k_log s) = [] \/ exists pk l, evs i (k_log s) = EvStart pk :: l /\ (forall p, ~ In (EvStart p) l) /\ (forall l1 l2, l = l1 ++ EvEnd :: l2 -> l2 = [] /\ ~ In EvEnd l1)).
Proof.
  intros e uf me local hosts cap s i Hrt Hr. pose proof (conc_inv _ _ _ _ _ _ _ Hrt Hr) as [_ _ Hjobs Hknown Hfresh].
  destruct (Nat.lt_ge_cases i (k_next s)) as [Hlt|Hge]; [right|left; apply Hfresh; exact Hge].
  assert (Hcase : forall pk pc l, jok me pk pc l -> exists l', l = EvStart pk :: l' /\ (forall p, ~ In (EvStart p) l') /\ ~ In EvEnd l').
  { intros pk pc l Hj. pose proof (jok_noend _ _ _ _ Hj) as Hne. destruct Hj; eexists; split; try reflexivity; (split; [|intros H'; apply Hne; right; exact H']);
      intros p H'; cbn in H'; repeat (destruct H' as [H'|H']; try discriminate H'); try contradiction. elim (inner_nostart _ _ ltac:(eassumption) H'). }
  destruct (Hknown i Hlt) as [(pk & pc & Hj)|(pk & l & E & Hj)].
  - destruct (Hjobs _ _ _ Hj) as [_ Hk]. destruct (Hcase _ _ _ Hk) as (l' & E & Hs & He). exists pk, l'. split; [exact E|]. split; [exact Hs|].
    intros l1 l2 ->. elim He. apply in_elt.
  - destruct (Hcase _ _ _ Hj) as (l' & -> & Hs & He). exists pk, (l' ++ [EvEnd]). split; [rewrite E; reflexivity|]. split.
    + intros p Hp. apply in_app_iff in Hp. destruct Hp as [Hp|[D|[]]]; [exact (Hs p Hp)|discriminate D].
    + intros l1 l2 El. destruct l2 as [|x l2 _] using rev_ind.
      * apply (app_inj_tail l' l1 EvEnd EvEnd) in El. destruct El as [<- _]. auto.
      * exfalso. rewrite app_comm_cons, app_assoc in El. apply app_inj_tail in El. destruct El as [-> _]. apply He. apply in_elt.
Qed.

(** ** C87: the queue *)
Lemma jok_enq me pk pc l : jok me pk pc l ->
  (enqueued_in l = [] \/ exists x, announcement pk x /\ enqueued_in l = [x]) /\
  (forall x, announcement pk x -> replies_in l <> [] \/ pc = JEnd -> enqueued_in l = [x]).
Proof.
  intros Hj. destruct Hj as [|pc Hc|x r d Ha Hw Ho|tx q d bs Hask Hna Ho Hc|x d bs Ha Ho Hc|pc l tx ns rest acc txs Hna Hl Htr Hin Hask Hnp].
  - split; [auto|]. intros x Hx [H|H]; [elim H; reflexivity|discriminate].
  - split; [auto|]. intros x Hx [H|H]; [elim H; reflexivity|]. subst pc. inversion Hc as [E Hn|? ? ? ? E|? ? ? E|? ? ? ? E]; try discriminate E.
    destruct (announcement_asks _ _ Hx) as (tx & q & Hq). elim (Hn _ _ Hq).
  - split; [right; exists x; auto|]. intros y Hy _. rewrite (announcement_inj _ _ _ Hy Ha). reflexivity.
  - split; [auto|]. intros y Hy. elim (Hna _ Hy).
  - split; [right; exists x; auto|]. intros y Hy _. rewrite (announcement_inj _ _ _ Hy Ha). reflexivity.
  - change (enqueued_in (EvStart pk :: l)) with (enqueued_in l). rewrite (inner_enqueued _ Hin). split; [auto|].
    intros x Hx. destruct (announcement_asks _ _ Hx) as (t & q & Hq). elim (Hna _ _ Hq).
Qed.

Lemma job_step_queue e me cap w pk pc w' pc' v : job_step e me cap w pk pc w' pc' v ->
  a_queue (w_app w') = a_queue (w_app w) ++ enqueued_in v /\ (length (a_queue (w_app w)) <= cap -> length (a_queue (w_app w')) <= cap).
Proof.
  intros Hs. inversion Hs; subst; cbn [enqueued_in flat_map app send fst set_app draw_tx w_app a_queue]; rewrite ?app_nil_r; auto.
  split; [reflexivity|]. intros _. rewrite app_length. cbn. lia.
Qed.
Lemma snd_pair {X Y} (i : X) (l : list Y) : map snd (map (pair i) l) = l.
Proof. rewrite map_map. cbn. apply map_id. Qed.

(** C87: in every schedule the announcements put into the queue are, in that order, those taken by the
    fetcher followed by those still waiting; the queue never holds more than its capacity. *)
Lemma C87_queue_fifo_pf : forall e uf me local hosts cap s, runtime_ok e uf -> conc_reach e me local hosts cap s ->
  enqueued_in (map snd (k_log s)) = k_taken s ++ a_queue (w_app (k_world s)) /\ length (a_queue (w_app (k_world s))) <= cap.
Proof.
  intros e uf me local hosts cap s Hrt Hr. induction Hr as [w0 w Hi Hb|s s' Hr IH Hst].
  - cbn. unfold crawler_init in Hi. destruct (NewRouteTable _ _ _) as [t|x|p] eqn:Et; cbn [bind] in Hi; try discriminate. injection Hi as <-.
    destruct (boot_ok e me uf hosts (fun k => proj2 (Hrt k)) _ _ Hb) as (_ & _ & H3 & _). rewrite H3. cbn. split; [reflexivity|lia].
  - destruct IH as [H1 H2]. destruct Hst as [pk|k l1 i pk pc l2 w' pc' v Hsplit Hstep|l1 i pk l2 Hsplit|x q Hq]; cbn [k_world k_log k_taken].
    + rewrite map_app, enqueued_app. cbn [map snd]. change (enqueued_in [_]) with (@nil (request hid * udpaddr)). rewrite app_nil_r. auto.
    + destruct (job_step_queue _ _ _ _ _ _ _ _ _ Hstep) as [E Hc]. rewrite map_app, enqueued_app, snd_pair, H1. rewrite E at 1. rewrite app_assoc. auto.
    + rewrite map_app, enqueued_app. cbn [map snd]. change (enqueued_in [_]) with (@nil (request hid * udpaddr)). rewrite app_nil_r. auto.
    + cbn [set_app w_app a_queue]. rewrite Hq in *. rewrite H1, <- app_assoc. split; [reflexivity|]. cbn in H2. lia.
Qed.

(** C87: a handler puts at most the announcement of its own packet into the queue; before an announcement
    is confirmed to its sender, and when its handler is done, it has been put there. *)
Lemma C87_announcements_pf : forall e uf me local hosts cap s i pk, runtime_ok e uf -> conc_reach e me local hosts cap s ->
  In (i, EvStart pk) (k_log s) ->
  let l := evs i (k_log s) in
  (enqueued_in l = [] \/ exists x, announcement pk x /\ enqueued_in l = [x]) /\
  (forall x, announcement pk x -> replies_in l <> [] \/ In (i, EvEnd) (k_log s) -> enqueued_in l = [x]).
Proof.
  intros e uf me local hosts cap s i pk Hrt Hr Hin l. pose proof (conc_inv _ _ _ _ _ _ _ Hrt Hr) as HI.
  destruct (job_facts _ _ _ _ _ _ HI Hin) as [(pc & _ & Hj & Hne)|(l' & E & Hj & He)].
  - destruct (jok_enq _ _ _ _ Hj) as [H1 H2]. split; [exact H1|]. intros x Hx [H|H]; [apply H2; auto|contradiction].
  - unfold l. rewrite E, enqueued_app, app_nil_r. destruct (jok_enq _ _ _ _ Hj) as [H1 H2]. split; [exact H1|]. intros x Hx _. apply H2; auto.
Qed.

(** ** C88: transaction ids and the request table *)
Definition nth_id (hosts : list udpaddr) (k : nat) : bytes := txid_string ((1000 + N.of_nat (length hosts) + N.of_nat k) mod 65536).

Lemma fold_next_hosts (hosts : list udpaddr) : forall t, (t < 65536)%N -> fold_left (fun t _ => nextVal t) hosts t = ((t + N.of_nat (length hosts)) mod 65536)%N.
Proof.
  induction hosts as [|h l IH]; intros t Ht; cbn [fold_left length].
  - rewrite N.add_0_r, N.mod_small by exact Ht. reflexivity.
  - rewrite IH by (unfold nextVal; apply N.mod_lt; discriminate). unfold nextVal. rewrite N.add_mod_idemp_l by discriminate. f_equal. lia.
Qed.

Lemma job_step_tx e me cap w pk pc w' pc' v : job_step e me cap w pk pc w' pc' v ->
  (drawn_in v = [] /\ a_tx (w_app w') = a_tx (w_app w)) \/ (a_tx (w_app w') = nextVal (a_tx (w_app w)) /\ drawn_in v = [txid_string (a_tx (w_app w'))]).
Proof. intros Hs. inversion Hs; subst; cbn [drawn_in flat_map app send fst set_app draw_tx w_app a_tx]; auto. Qed.

Lemma conc_tx e uf me local hosts cap s : runtime_ok e uf -> conc_reach e me local hosts cap s ->
  let dr := drawn_in (map snd (k_log s)) in
  a_tx (w_app (k_world s)) = ((1000 + N.of_nat (length hosts) + N.of_nat (length dr)) mod 65536)%N /\ dr = map (nth_id hosts) (seq 1 (length dr)).
Proof.
  intros Hrt Hr. induction Hr as [w0 w Hi Hb|s s' Hr IH Hst]; cbv zeta in *.
  - cbn. unfold crawler_init in Hi. destruct (NewRouteTable _ _ _) as [t|x|p] eqn:Et; cbn [bind] in Hi; try discriminate. injection Hi as <-.
    destruct (boot_ok e me uf hosts (fun k => proj2 (Hrt k)) _ _ Hb) as (_ & _ & _ & H4 & _). rewrite H4. cbn [w_app a_tx]. rewrite fold_next_hosts by reflexivity. rewrite N.add_0_r. auto.
  - destruct IH as [H1 H2]. destruct Hst as [pk|k l1 i pk pc l2 w' pc' v Hsplit Hstep|l1 i pk l2 Hsplit|x q Hq]; cbn [k_world k_log].
    + rewrite map_app, drawn_app. cbn [map snd]. change (drawn_in [_]) with (@nil bytes). rewrite app_nil_r. auto.
    + rewrite map_app, drawn_app, snd_pair. destruct (job_step_tx _ _ _ _ _ _ _ _ _ Hstep) as [[E1 E2]|[E1 E2]].
      * rewrite E1, app_nil_r, E2. auto.
      * rewrite E2, app_length. cbn [length]. assert (E3 : a_tx (w_app w') = ((1000 + N.of_nat (length hosts) + N.of_nat (length (drawn_in (map snd (k_log s))) + 1)) mod 65536)%N).
        { rewrite E1, H1. unfold nextVal. rewrite N.add_mod_idemp_l by discriminate. f_equal. lia. }
        split; [exact E3|]. rewrite Nat.add_1_r, seq_S, map_app, <- H2. cbn [map Nat.add]. f_equal. unfold nth_id. rewrite E3, Nat.add_1_r. reflexivity.
    + rewrite map_app, drawn_app. cbn [map snd]. change (drawn_in [_]) with (@nil bytes). rewrite app_nil_r. auto.
    + auto.
Qed.

Lemma nth_id_inj hosts a b : nth_id hosts a = nth_id hosts b -> (N.of_nat a mod 65536 = N.of_nat b mod 65536)%N.
Proof.
  intros E. apply txid_string_inj in E; [|apply N.mod_lt; discriminate..].
  set (c := (1000 + N.of_nat (length hosts))%N) in *.
  assert (Hz : forall x, (Z.of_N (N.of_nat x mod 65536) = (Z.of_N ((c + N.of_nat x) mod 65536) - Z.of_N c) mod 65536)%Z).
  { intros x. rewrite !N2Z.inj_mod, N2Z.inj_add by discriminate. change (Z.of_N 65536) with 65536%Z. rewrite Zminus_mod_idemp_l. f_equal. lia. }
  apply N2Z.inj. rewrite !Hz, E. reflexivity.
Qed.

(** C88: the transaction ids of the queries are given out one by one, whatever the schedule: the k-th id
    drawn (in the order of the history) is the k-th id after those of the bootstrap queries, so two ids
    can only be equal if at least 65535 others were drawn in between. *)
Lemma C88_ids_any_schedule_pf : forall e uf me local hosts cap s, runtime_ok e uf -> conc_reach e me local hosts cap s ->
  let ids := drawn_in (map snd (k_log s)) in
  ids = map (fun k => txid_string ((1000 + N.of_nat (length hosts) + N.of_nat k) mod 65536)) (seq 1 (length ids)) /\
  forall i j x, i < j -> nth_error ids i = Some x -> nth_error ids j = Some x -> (N.of_nat i + 65536 <= N.of_nat j)%N.
Proof.
  intros e uf me local hosts cap s Hrt Hr ids. destruct (conc_tx e uf me local hosts cap s Hrt Hr) as [_ H]. fold ids in H. split; [exact H|].
  intros i j x Hij Hi Hj.
  assert (Hn : forall k y, nth_error ids k = Some y -> y = nth_id hosts (S k)).
  { intros k y Hk. assert (Hlt : k < length ids) by (apply nth_error_Some; congruence). rewrite H in Hk. rewrite nth_error_map in Hk.
    assert (Es : nth_error (seq 1 (length ids)) k = Some (S k)).
    { rewrite (nth_error_nth' _ 0) by (rewrite seq_length; exact Hlt). rewrite seq_nth by exact Hlt. reflexivity. }
    rewrite Es in Hk. cbn [option_map] in Hk. injection Hk as <-. reflexivity. }
  pose proof (Hn _ _ Hi) as E1. pose proof (Hn _ _ Hj) as E2. rewrite E1 in E2. apply nth_id_inj in E2.
  pose proof (N.div_mod (N.of_nat (S i)) 65536 ltac:(discriminate)) as D1. pose proof (N.div_mod (N.of_nat (S j)) 65536 ltac:(discriminate)) as D2. rewrite E2 in D1.
  assert ((N.of_nat (S i) / 65536 < N.of_nat (S j) / 65536)%N). { apply N.lt_nge. intros Hge. nia. } nia.
Qed.

Lemma job_step_mono e me cap w pk pc w' pc' v tx : job_step e me cap w pk pc w' pc' v -> w_reqs w tx <> None -> w_reqs w' tx <> None.
Proof.
  intros Hs Hn. inversion Hs; subst; cbn [send fst set_app draw_tx w_reqs]; auto. unfold mput. destruct (beq tx tx0); [discriminate|exact Hn].
Qed.

(** Every running and finished query of the history is registered. *)
Definition is_id (tx : bytes) : Prop := exists v, (v < 65536)%N /\ tx = txid_string v.
Record reg (me : bytes) (s : conc) : Prop := {
  g_query : forall i pk n ns tx, In (i, pk, JQuery n ns tx) (k_jobs s) -> w_reqs (k_world s) tx <> None /\ In tx (drawn_in (evs i (k_log s)));
  g_put : forall i pk n ns tx, In (i, pk, JPut n ns tx) (k_jobs s) -> is_id tx /\ In tx (drawn_in (evs i (k_log s)));
  g_sent : forall i g, In (i, EvQuery g) (k_log s) -> exists tx, In tx (drawn_in (evs i (k_log s))) /\ w_reqs (k_world s) tx <> None /\
     carries (g_bytes g) (query_msg tx "find_node"%string [(B "id", VStr me); (B "target", VStr me)]);
  g_keys : forall tx, w_reqs (k_world s) tx <> None -> is_id tx }.

Lemma boot_keys e me hosts : forall w w', boot e me hosts w = Ok w' -> (forall tx, w_reqs w tx <> None -> is_id tx) -> forall tx, w_reqs w' tx <> None -> is_id tx.
Proof.
  induction hosts as [|h t IH]; intros w w'; cbn [boot]; intros E Hk.
  - injection E as <-. exact Hk.
  - unfold BootStrap in E. set (m := WithFindNodeMsg _ _ _ _) in E.
    assert (Hq : w_reqs (fst (Query (e (length (w_sent w))) (draw_tx w) h m)) = mput (w_reqs w) (rq_tx m) m).
    { unfold Query. destruct (encode_now _ _ _); reflexivity. }
    destruct (Query (e (length (w_sent w))) (draw_tx w) h m) as [w1 r]. cbn [fst] in Hq.
    assert (E' : boot e me t w1 = Ok w'). { destruct r as [[]|x|p]; cbn [bind] in E; try discriminate E. exact E. }
    refine (IH _ _ E' _). intros tx. rewrite Hq. unfold mput. destruct (beq tx (rq_tx m)) eqn:Eb; [|apply Hk]. apply beq_eq in Eb. intros _. subst tx.
    eexists. split; [|reflexivity]. unfold draw_tx. cbn. unfold nextVal. apply N.mod_lt. discriminate.
Qed.

Lemma drawn_mono i a b x : In x (drawn_in (evs i a)) -> In x (drawn_in (evs i (a ++ b))).
Proof. rewrite evs_app, drawn_app. intros H. apply in_app_iff. auto. Qed.

Lemma conc_reg e uf me local hosts cap s : runtime_ok e uf -> conc_reach e me local hosts cap s -> reg me s.
Proof.
  intros Hrt Hr. induction Hr as [w0 w Hi Hb|s s' Hr IH Hst].
  - split; cbn [k_world k_jobs k_log]; try (intros; contradiction).
    unfold crawler_init in Hi. destruct (NewRouteTable _ _ _) as [t|x|p] eqn:Et; cbn [bind] in Hi; try discriminate. injection Hi as <-.
    intros tx. refine (boot_keys _ _ _ _ _ Hb _ tx). intros t0 H. elim H. reflexivity.
  - destruct IH as [G1 G2 G3 G4]. destruct Hst as [pk|k l1 i pk pc l2 w' pc' v Hsplit Hstep|l1 i pk l2 Hsplit|x q Hq]; split; cbn [k_world k_jobs k_log]; try exact G4.
    + intros j pk' n ns tx Hin. apply in_app_iff in Hin. destruct Hin as [Hin|[E|[]]]; [|discriminate E]. destruct (G1 _ _ _ _ _ Hin). split; [assumption|apply drawn_mono; assumption].
    + intros j pk' n ns tx Hin. apply in_app_iff in Hin. destruct Hin as [Hin|[E|[]]]; [|discriminate E]. destruct (G2 _ _ _ _ _ Hin). split; [assumption|apply drawn_mono; assumption].
    + intros j g Hin. apply in_app_iff in Hin. destruct Hin as [Hin|[E|[]]]; [|discriminate E]. destruct (G3 _ _ Hin) as (tx & ? & ? & ?). exists tx. split; [apply drawn_mono; assumption|auto].
    + intros j pk' n ns tx Hin. assert (Hcase : (j, pk', JQuery n ns tx) = (i, pk, pc') \/ In (j, pk', JQuery n ns tx) (k_jobs s)).
      { rewrite Hsplit. apply in_app_iff in Hin. destruct Hin as [Hin|[E|Hin]]; [right; apply in_app_iff; auto|left; auto|right; apply in_app_iff; cbn; auto]. }
      destruct Hcase as [E|Hin'].
      * injection E as -> -> <-. inversion Hstep; subst. { pose proof (start_cases (e k) me pk) as Hc. match goal with H : _ = start_pc _ _ _ |- _ => rewrite <- H in Hc | H : start_pc _ _ _ = _ |- _ => rewrite H in Hc end. inversion Hc; discriminate. }
        { exfalso. match goal with H : look_pc _ _ = _ |- _ => revert H end. unfold look_pc. repeat (match goal with |- context[match ?x with _ => _ end] => destruct x end; try discriminate). }
        cbn [w_reqs]. unfold mput. rewrite beq_refl. split; [discriminate|]. apply drawn_mono. eapply G2. rewrite Hsplit. apply in_elt.
      * destruct (G1 _ _ _ _ _ Hin'). split; [eapply job_step_mono; eassumption|apply drawn_mono; assumption].
    + intros j pk' n ns tx Hin. assert (Hcase : (j, pk', JPut n ns tx) = (i, pk, pc') \/ In (j, pk', JPut n ns tx) (k_jobs s)).
      { rewrite Hsplit. apply in_app_iff in Hin. destruct Hin as [Hin|[E|Hin]]; [right; apply in_app_iff; auto|left; auto|right; apply in_app_iff; cbn; auto]. }
      destruct Hcase as [E|Hin'].
      * injection E as -> -> <-. inversion Hstep; subst. { pose proof (start_cases (e k) me pk) as Hc. match goal with H : _ = start_pc _ _ _ |- _ => rewrite <- H in Hc | H : start_pc _ _ _ = _ |- _ => rewrite H in Hc end. inversion Hc; discriminate. }
        { exfalso. match goal with H : look_pc _ _ = _ |- _ => revert H end. unfold look_pc. repeat (match goal with |- context[match ?x with _ => _ end] => destruct x end; try discriminate). }
        split; [eexists; split; [|reflexivity]; cbn; unfold nextVal; apply N.mod_lt; discriminate|]. rewrite evs_app, evs_pair, drawn_app. apply in_app_iff. right. left. reflexivity.
      * destruct (G2 _ _ _ _ _ Hin'). split; [assumption|apply drawn_mono; assumption].
    + intros j g Hin. apply in_app_iff in Hin. destruct Hin as [Hin|Hin].
      * destruct (G3 _ _ Hin) as (tx & ? & ? & ?). exists tx. split; [apply drawn_mono; assumption|]. split; [eapply job_step_mono; eassumption|assumption].
      * apply in_map_iff in Hin. destruct Hin as (v0 & E & Hv). injection E as -> ->. inversion Hstep; subst; cbn in Hv; try contradiction; (destruct Hv as [E|[]]; try discriminate E).
        injection E as <-. match goal with H : k_jobs s = l1 ++ (j, pk, JQuery ?n ?ns ?tx) :: l2 |- _ => destruct (G1 j pk n ns tx) as [Hr1 Hr2]; [rewrite H; apply in_elt|]; exists tx; split; [apply drawn_mono; exact Hr2|] end.
        split; [exact Hr1|]. destruct (find_encodes (e k) me (k_world s) tx (proj1 (Hrt k))) as (bs' & E1 & E2). cbn [g_bytes]. assert (bs = bs') as -> by congruence. exact E2.
    + intros tx. inversion Hstep; subst; cbn [send fst set_app draw_tx w_reqs]; try apply G4. unfold mput. destruct (beq tx tx0) eqn:Eb; [|apply G4].
      apply beq_eq in Eb. subst tx0. intros _. eapply G2. rewrite Hsplit. apply in_elt.
    + intros j pk' n ns tx Hin. assert (Hin' : In (j, pk', JQuery n ns tx) (k_jobs s)) by (rewrite Hsplit; apply in_app_iff; apply in_app_iff in Hin; cbn; tauto).
      destruct (G1 _ _ _ _ _ Hin'). split; [assumption|apply drawn_mono; assumption].
    + intros j pk' n ns tx Hin. assert (Hin' : In (j, pk', JPut n ns tx) (k_jobs s)) by (rewrite Hsplit; apply in_app_iff; apply in_app_iff in Hin; cbn; tauto).
      destruct (G2 _ _ _ _ _ Hin'). split; [assumption|apply drawn_mono; assumption].
    + intros j g Hin. apply in_app_iff in Hin. destruct Hin as [Hin|[E|[]]]; [|discriminate E]. destruct (G3 _ _ Hin) as (tx & ? & ? & ?). exists tx. split; [apply drawn_mono; assumption|auto].
    + exact G1.
    + exact G2.
    + exact G3.
Qed.

(** C88: a query is in the request table before its datagram is sent and stays there, so that in no
    schedule its response is taken for an unknown one; the entry found is the query itself.  The table
    never holds more than 65536 requests. *)
Lemma C88_registered_before_sent_pf : forall e uf me local hosts cap s, runtime_ok e uf -> conc_reach e me local hosts cap s ->
  (forall i g, In (i, EvQuery g) (k_log s) -> exists tx, In tx (drawn_in (evs i (k_log s))) /\
     carries (g_bytes g) (query_msg tx "find_node" [(B "id", VStr me); (B "target", VStr me)]) /\
     w_reqs (k_world s) tx = Some (WithFindNodeMsg tx me me (Some HGenericResp))) /\
  (forall tx req, w_reqs (k_world s) tx = Some req -> req = WithFindNodeMsg tx me me (Some HGenericResp)) /\
  exists keys, length keys <= 256 * 256 /\ forall tx, w_reqs (k_world s) tx <> None -> In tx keys.
Proof.
  intros e uf me local hosts cap s Hrt Hr. pose proof (conc_inv _ _ _ _ _ _ _ Hrt Hr) as HI. pose proof (conc_reg _ _ _ _ _ _ _ Hrt Hr) as [_ _ G3 G4].
  destruct (i_shared _ _ _ _ HI) as [Ht _]. split; [|split].
  - intros i g Hin. destruct (G3 _ _ Hin) as (tx & H1 & H2 & H3). exists tx. split; [exact H1|]. split; [exact H3|].
    destruct (w_reqs (k_world s) tx) as [r|] eqn:E; [|contradiction]. rewrite (Ht _ _ E). reflexivity.
  - exact Ht.
  - exists (map (fun p => txid_string (N.of_nat (fst p) * 256 + N.of_nat (snd p))) (list_prod (seq 0 256) (seq 0 256))). split.
    + rewrite map_length, prod_length, !seq_length. apply le_n.
    + intros tx Hn. destruct (G4 tx Hn) as (v & Hv & ->). apply in_map_iff. exists (N.to_nat (v / 256), N.to_nat (v mod 256)). cbn [fst snd]. split.
      * rewrite !N2Nat.id. f_equal. rewrite (N.div_mod v 256) at 3 by discriminate. lia.
      * assert ((v / 256 < 256)%N) by (apply N.div_lt_upper_bound; [discriminate|exact Hv]). assert ((v mod 256 < 256)%N) by (apply N.mod_lt; discriminate).
        apply in_prod; apply in_seq; lia.
Qed.

(** ** C89: node lists *)
Lemma lists_det pk tx ns tx' ns' : lists_nodes pk tx ns -> lists_nodes pk tx' ns' -> tx = tx' /\ ns = ns'.
Proof.
  intros (d & b & id & nodes & [n Hd] & _ & Ht & Hr & _ & Hn & Hp) (d' & b' & id' & nodes' & [n' Hd'] & _ & Ht' & Hr' & _ & Hn' & Hp').
  rewrite Hd in Hd'. injection Hd' as <- _. unfold field in *. rewrite Ht in Ht'. injection Ht' as <-. rewrite Hr in Hr'. injection Hr' as <-. rewrite Hn in Hn'. injection Hn' as <-.
  rewrite Hp in Hp'. injection Hp' as <-. auto.
Qed.
Lemma lists_noask pk tx ns t q : lists_nodes pk tx ns -> ~ asks pk t q.
Proof.
  intros (d & b & id & nodes & [n Hd] & Hy & _) (d' & [n' Hd'] & Hy' & _). rewrite Hd in Hd'. injection Hd' as <- _. unfold field in *. rewrite Hy in Hy'. discriminate.
Qed.

Definition all_asked (me : bytes) (l : list ev) : Prop := asked me (accepted_in l) (drawn_in l) (queries_in l).

Lemma jok_nodes me pk pc l : jok me pk pc l ->
  (tried_in l = [] /\ drawn_in l = [] /\ queries_in l = []) \/
  (exists tx ns rest acc more txs late, lists_nodes pk tx ns /\ map fst (tried_in l) ++ rest = ns /\ accepted_in l = acc ++ more /\ length more <= 1 /\
     drawn_in l = txs ++ late /\ length late <= length more /\ asked me acc txs (queries_in l) /\ (pc = JEnd -> rest = [] /\ more = [] /\ late = [])).
Proof.
  intros Hj. destruct Hj as [|pc Hc|x r d Ha Hw Ho|tx q d bs Hask Hna Ho Hc|x d bs Ha Ho Hc|pc l tx ns rest acc txs Hna Hl Htr Hin Hask Hnp]; try (left; repeat split; reflexivity).
  right. change (tried_in (EvStart pk :: l)) with (tried_in l). change (drawn_in (EvStart pk :: l)) with (drawn_in l). change (queries_in (EvStart pk :: l)) with (queries_in l).
  change (accepted_in (EvStart pk :: l)) with (accepted_in l).
  destruct Hnp as [E1 E2|E0 E1 E2|n E1 E2|n t E1 E2|n t E1 E2].
  - exists tx, ns, rest, acc, [], txs, []. rewrite !app_nil_r. repeat split; auto; discriminate.
  - exists tx, ns, rest, acc, [], txs, []. rewrite !app_nil_r. repeat split; auto.
  - exists tx, ns, rest, acc, [n], txs, []. rewrite !app_nil_r. repeat split; cbn; auto; discriminate.
  - exists tx, ns, rest, acc, [n], txs, [t]. repeat split; cbn; auto; discriminate.
  - exists tx, ns, rest, acc, [n], txs, [t]. repeat split; cbn; auto; discriminate.
Qed.

(** C89: a handler adds nodes to the routing table and queries nodes only for a find_node response, and
    then works through the nodes of that response from the first to the last: it sends one find_node
    query, to the node's address and with a transaction id drawn for it, to each node the table accepted
    (at most the last one accepted is still to be queried).  When the handler is done it has tried all
    nodes of the response or none, and every accepted node has been queried. *)
Lemma C89_node_lists_any_schedule_pf : forall e uf me local hosts cap s i pk, runtime_ok e uf -> conc_reach e me local hosts cap s ->
  In (i, EvStart pk) (k_log s) ->
  let l := evs i (k_log s) in
  (tried_in l = [] /\ drawn_in l = [] /\ queries_in l = []) \/
  (exists tx ns rest acc more txs late, lists_nodes pk tx ns /\ map fst (tried_in l) ++ rest = ns /\
     accepted_in l = acc ++ more /\ length more <= 1 /\ drawn_in l = txs ++ late /\ length late <= length more /\ asked me acc txs (queries_in l) /\
     (In (i, EvEnd) (k_log s) -> rest = [] /\ more = [] /\ late = [])).
Proof.
  intros e uf me local hosts cap s i pk Hrt Hr Hin l. pose proof (conc_inv _ _ _ _ _ _ _ Hrt Hr) as HI.
  destruct (job_facts _ _ _ _ _ _ HI Hin) as [(pc & _ & Hj & Hne)|(l' & E & Hj & He)].
  - destruct (jok_nodes _ _ _ _ Hj) as [H|(tx & ns & rest & acc & more & txs & late & H1 & H2 & H3 & H4 & H5 & H6 & H7 & _)]; [left; exact H|right].
    exists tx, ns, rest, acc, more, txs, late. repeat split; auto; contradiction.
  - unfold l. rewrite E, tried_app, drawn_app, queries_app, accepted_app. change (tried_in [EvEnd]) with (@nil (ninfo * bool)). change (drawn_in [EvEnd]) with (@nil bytes).
    change (queries_in [EvEnd]) with (@nil datagram). change (accepted_in [EvEnd]) with (@nil ninfo). rewrite !(app_nil_r (tried_in l')), !(app_nil_r (drawn_in l')), !(app_nil_r (queries_in l')), !(app_nil_r (accepted_in l')).
    destruct (jok_nodes _ _ _ _ Hj) as [H|(tx & ns & rest & acc & more & txs & late & H1 & H2 & H3 & H4 & H5 & H6 & H7 & H8)]; [left; exact H|right].
    exists tx, ns, rest, acc, more, txs, late. repeat split; auto; apply H8; reflexivity.
Qed.

(** *** whether the transaction id is known *)
Lemma jok_end_lists me pk l tx ns : jok me pk JEnd l -> lists_nodes pk tx ns -> l = [EvStart pk] \/ map fst (tried_in l) = ns.
Proof.
  intros Hj Hl. inversion Hj as [|pc Hc|x r d Ha Hw Ho|t q d bs Hask Hna Ho Hc|x d bs Ha Ho Hc|pc l0 t ns0 rest acc txs Hna Hl' Htr Hin Hask Hnp]; subst; auto.
  - elim (lists_noask _ _ _ _ _ Hl Hask).
  - destruct (announcement_asks _ _ Ha) as (t & q & Hq). elim (lists_noask _ _ _ _ _ Hl Hq).
  - right. inversion Hnp; subst. destruct (lists_det _ _ _ _ _ Hl Hl') as [_ ->]. change (tried_in (EvStart pk :: l0)) with (tried_in l0). rewrite app_nil_r. reflexivity.
Qed.

Lemma start_lists e me pk tx ns : lists_nodes pk tx ns -> exists body, start_pc e me pk = JLook tx (Some body) /\ exists d id, packet_dict (p_bytes pk) d /\ field d "y" (VStr (B "r")) /\
    field d "t" (VStr tx) /\ field d "r" (VDict body) /\ field body "id" (VStr id).
Proof.
  intros Hl. pose proof (start_cases e me pk) as Hc. destruct Hl as (d & b & id & nodes & Hd & Hy & Ht & Hr & Hi & Hn & Hp).
  exists b. split; [|exists d, id; auto 10]. destruct Hd as [n Hd]. unfold start_pc. rewrite Hd. unfold field in *. unfold Exist. rewrite Hy. cbn [negb].
  unfold GetString at 1, GetVal at 1. rewrite Hy. cbn [bind]. change (beq (B "r") (B "q")) with false. rewrite beq_refl.
  unfold GetString at 1, GetVal at 1. rewrite Ht. cbn [bind]. unfold GetDict, GetVal. rewrite Hr. cbn [bind dict_of]. unfold GetString, GetVal. rewrite Hi. reflexivity.
Qed.

Lemma look_lists me w tx body pk ns : table_ok me w -> lists_nodes pk tx ns -> (exists d id, packet_dict (p_bytes pk) d /\ field d "y" (VStr (B "r")) /\
    field d "t" (VStr tx) /\ field d "r" (VDict body) /\ field body "id" (VStr id)) -> w_reqs w tx <> None -> look_pc (w_reqs w tx) (Some body) = JAdd ns.
Proof.
  intros Ht Hl (d & id & Hd & Hy & Htx & Hr & Hi) Hn.
  destruct (look_cases me w tx body pk d id Ht (fun t q => lists_noask _ _ _ t q Hl) Hd Hy Htx Hr Hi) as [[_ [E|E]]|(ns' & _ & E & Hl')]; [contradiction|elim (E _ _ Hl)|].
  rewrite E. destruct (lists_det _ _ _ _ _ Hl Hl') as [_ ->]. reflexivity.
Qed.

Lemma jok_look me pk tx b l : jok me pk (JLook tx b) l -> l = [EvStart pk] /\ exists body d id, b = Some body /\ packet_dict (p_bytes pk) d /\ field d "y" (VStr (B "r")) /\
    field d "t" (VStr tx) /\ field d "r" (VDict body) /\ field body "id" (VStr id).
Proof.
  intros Hj. inversion Hj as [|pc Hc| | | |pc l0 t ns0 rest acc txs Hna Hl' Htr Hin Hask Hnp]; subst; [|inversion Hnp].
  split; [reflexivity|]. inversion Hc as [E|? ? ? ? E|? ? ? E|t body d id E Hna Hd Hy Htx Hr Hid]; try discriminate E. injection E as -> ->. exists body, d, id. auto 10.
Qed.

(** If the id is registered, a job cannot stop before it has tried all nodes. *)
Lemma reply_asks me pk r l : jok me pk (JReply r) l -> exists tx q, asks pk tx q.
Proof.
  intros Hj. inversion Hj as [|? Hc|? ? ? Ha| | |? l0 t ns0 rest acc txs ? ? ? ? ? Hnp]; subst.
  - inversion Hc as [E1|? ? ? ? E1 Hask|? ? ? E1|? ? ? ? E1]; try discriminate E1. eauto.
  - eapply announcement_asks. eassumption.
  - inversion Hnp.
Qed.
Lemma step_to_end uf host e me cap w pk pc w' l v tx ns : env_ok e -> e_uf e = uf -> shared_ok uf me host w -> jok me pk pc l -> job_step e me cap w pk pc w' JEnd v ->
  lists_nodes pk tx ns -> w_reqs w tx <> None -> map fst (tried_in (l ++ v)) = ns.
Proof.
  intros He Hu Hsh Hj Hs Hl Hn. inversion Hs; subst.
  - destruct (start_lists e me pk tx ns Hl) as (body & E1 & _). congruence.
  - destruct (reply_asks _ _ _ _ Hj) as (t & q & Hq). elim (lists_noask _ _ _ _ _ Hl Hq).
  - destruct (reply_asks _ _ _ _ Hj) as (t & q & Hq). elim (lists_noask _ _ _ _ _ Hl Hq).
  - destruct (jok_look _ _ _ _ _ Hj) as (_ & b & d & id & -> & Hd & Hy & Htx & Hr & Hi).
    assert (tx0 = tx). { destruct Hl as (d' & b' & id' & nodes & Hd' & _ & Htx' & _). destruct Hd as [n Hd], Hd' as [n' Hd']. rewrite Hd in Hd'. injection Hd' as <- _. unfold field in *. congruence. }
    subst tx0. pose proof (look_lists me w' tx b pk ns (proj1 Hsh) Hl ltac:(exists d, id; auto 10) Hn) as E. congruence.
  - inversion Hj as [|? Hc| | | |? l0 t ns0 rest acc txs Hna Hl' Htr Hin Hask Hnp]; subst; [inversion Hc; discriminate|].
    inversion Hnp; subst. destruct (lists_det _ _ _ _ _ Hl Hl') as [_ ->]. rewrite !app_nil_r. reflexivity.
  - exfalso. destruct Hsh as [_ Hrt]. destruct (C31_total_pf (e_uf e) host 8 160) as (_ & _ & HT). destruct (HT _ Hrt) as (HA & _). destruct (HA n) as (t' & e0 & E & _). congruence.
  - exfalso. destruct (find_encodes e me w' tx0 He) as (bs' & E1 & _). congruence.
Qed.

Lemma steps_reach e me local hosts cap s s' : conc_reach e me local hosts cap s -> conc_steps e me cap s s' -> conc_reach e me local hosts cap s'.
Proof. intros Hr Hs. induction Hs as [|s s' s'' Hs IH Hst]; [exact Hr|]. eapply kr_step; [apply IH; exact Hr|exact Hst]. Qed.
Lemma steps_mono e me cap s s' tx : conc_steps e me cap s s' -> w_reqs (k_world s) tx <> None -> w_reqs (k_world s') tx <> None.
Proof.
  intros Hs Hn. induction Hs as [|s s' s'' Hs IH Hst]; [exact Hn|]. specialize (IH Hn).
  destruct Hst as [pk|k l1 i pk pc l2 w' pc' v Hsplit Hstep|l1 i pk l2 Hsplit|x q Hq]; cbn [k_world set_app w_reqs]; auto. eapply job_step_mono; eassumption.
Qed.

Lemma known_inv e uf me local hosts cap s s' tx ns : runtime_ok e uf -> conc_reach e me local hosts cap s -> w_reqs (k_world s) tx <> None -> conc_steps e me cap s s' ->
  k_next s <= k_next s' /\
  (forall i pk, In (i, pk, JEnd) (k_jobs s') -> k_next s <= i -> lists_nodes pk tx ns -> map fst (tried_in (evs i (k_log s'))) = ns) /\
  (forall i pk, In (i, EvStart pk) (k_log s') -> In (i, EvEnd) (k_log s') -> k_next s <= i -> lists_nodes pk tx ns -> map fst (tried_in (evs i (k_log s'))) = ns).
Proof.
  intros Hrt Hr Hn Hs. pose proof (conc_inv _ _ _ _ _ _ _ Hrt Hr) as HI0. induction Hs as [s|s s1 s2 Hs IH Hst].
  - split; [lia|]. split.
    + intros i pk Hin Hi. destruct (i_jobs _ _ _ _ HI0 _ _ _ Hin). lia.
    + intros i pk Hin _ Hi. apply evs_in in Hin. rewrite (i_fresh _ _ _ _ HI0 i Hi) in Hin. elim Hin.
  - specialize (IH Hr Hn HI0). destruct IH as (IH0 & IH1 & IH2). pose proof (steps_reach _ _ _ _ _ _ _ Hr Hs) as Hr1. pose proof (conc_inv _ _ _ _ _ _ _ Hrt Hr1) as HI.
    pose proof (steps_mono _ _ _ _ _ tx Hs Hn) as Hn1.
    destruct Hst as [pk|k l1 i pk pc l2 w' pc' v Hsplit Hstep|l1 i pk l2 Hsplit|x q Hq]; cbn [k_next k_jobs k_log].
    + split; [lia|]. split.
      * intros j pk' Hin Hj Hl. apply in_app_iff in Hin. destruct Hin as [Hin|[E|[]]]; [|discriminate E]. destruct (i_jobs _ _ _ _ HI _ _ _ Hin) as [Hlt _].
        rewrite evs_app, evs_one_ne, app_nil_r by lia. eapply IH1; eassumption.
      * intros j pk' H1 H2 Hj Hl. apply in_app_iff in H2. destruct H2 as [H2|[E|[]]]; [|discriminate E].
        assert (j <> k_next s1). { intros ->. apply evs_in in H2. rewrite (i_fresh _ _ _ _ HI _ (le_n _)) in H2. elim H2. }
        apply in_app_iff in H1. destruct H1 as [H1|[E|[]]]; [|injection E as E1 E2; congruence]. rewrite evs_app, evs_one_ne, app_nil_r by congruence. eapply IH2; eassumption.
    + split; [exact IH0|]. assert (Hi : In (i, pk, pc) (k_jobs s1)) by (rewrite Hsplit; apply in_elt). destruct (i_jobs _ _ _ _ HI _ _ _ Hi) as [Hlt Hj]. split.
      * intros j pk' Hin Hge Hl. pose proof (i_nodup _ _ _ _ HI) as Hnd. rewrite Hsplit, nums_split in Hnd. apply NoDup_remove_2 in Hnd.
        assert (Hcase : (j = i /\ pk' = pk /\ JEnd = pc') \/ (j <> i /\ In (j, pk', JEnd) (k_jobs s1))).
        { apply in_app_iff in Hin. destruct Hin as [Hin|[E|Hin]].
          - right. split; [|rewrite Hsplit; apply in_app_iff; auto]. intros ->. apply Hnd. apply in_app_iff. left. eapply in_num. exact Hin.
          - injection E as -> -> ->. auto.
          - right. split; [|rewrite Hsplit; apply in_app_iff; cbn; auto]. intros ->. apply Hnd. apply in_app_iff. right. eapply in_num. exact Hin. }
        destruct Hcase as [(-> & -> & <-)|(Hne & Hin')].
        -- rewrite evs_app, evs_pair. eapply step_to_end; [apply Hrt|apply Hrt|exact (i_shared _ _ _ _ HI)|exact Hj|exact Hstep|exact Hl|exact Hn1].
        -- rewrite evs_app, evs_pair_ne, app_nil_r by congruence. eapply IH1; eassumption.
      * intros j pk' H1 H2 Hge Hl. assert (Hev : forall v0, In v0 v -> v0 <> EvEnd /\ forall p, v0 <> EvStart p).
        { inversion Hstep; subst; cbn; intros v0 Hv; try contradiction; destruct Hv as [<-|[]]; split; try intros ?; discriminate. }
        apply in_app_iff in H1. apply in_app_iff in H2.
        destruct H1 as [H1|H1]; [|apply in_map_iff in H1; destruct H1 as (v0 & E & Hv); injection E as -> ->; destruct (Hev _ Hv) as [_ D]; elim (D pk'); reflexivity].
        destruct H2 as [H2|H2]; [|apply in_map_iff in H2; destruct H2 as (v0 & E & Hv); injection E as -> ->; destruct (Hev _ Hv) as [D _]; elim D; reflexivity].
        assert (j <> i). { intros ->. apply evs_in in H2. eapply jok_noend; eassumption. }
        rewrite evs_app, evs_pair_ne, app_nil_r by congruence. eapply IH2; eassumption.
    + split; [exact IH0|]. assert (Hi : In (i, pk, JEnd) (k_jobs s1)) by (rewrite Hsplit; apply in_elt). destruct (i_jobs _ _ _ _ HI _ _ _ Hi) as [Hlt Hj].
      assert (Hd : forall j, evs j [(i, EvEnd)] = [] \/ evs j [(i, EvEnd)] = [EvEnd]).
      { intros j. destruct (Nat.eq_dec i j) as [->|Hne]; [right; apply evs_one|left; apply evs_one_ne; exact Hne]. }
      assert (Htr : forall j, tried_in (evs j (k_log s1 ++ [(i, EvEnd)])) = tried_in (evs j (k_log s1))).
      { intros j. rewrite evs_app, tried_app. destruct (Hd j) as [-> | ->]; apply app_nil_r. }
      split.
      * intros j pk' Hin Hge Hl. rewrite Htr. eapply IH1; [|exact Hge|exact Hl]. rewrite Hsplit. apply in_app_iff in Hin. apply in_app_iff. cbn. tauto.
      * intros j pk' H1 H2 Hge Hl. rewrite Htr. apply in_app_iff in H1. destruct H1 as [H1|[E|[]]]; [|discriminate E].
        apply in_app_iff in H2. destruct H2 as [H2|[E|[]]]; [eapply IH2; eassumption|]. injection E as <-. apply evs_in in H1. rewrite <- (jok_start _ _ _ _ _ Hj H1) in *. eapply IH1; eassumption.
    + auto.
Qed.

(** C89: if the transaction id of a find_node response is that of a query sent before its handler
    starts, the handler tries to add every node of the response, in order. *)
Lemma C89_known_response_pf : forall e uf me local hosts cap s s' i pk tx ns, runtime_ok e uf -> conc_reach e me local hosts cap s ->
  w_reqs (k_world s) tx <> None -> conc_steps e me cap s s' ->
  (forall p, ~ In (i, EvStart p) (k_log s)) -> In (i, EvStart pk) (k_log s') -> In (i, EvEnd) (k_log s') -> lists_nodes pk tx ns ->
  map fst (tried_in (evs i (k_log s'))) = ns.
Proof.
  intros e uf me local hosts cap s s' i pk tx ns Hrt Hr Hn Hs Hnew Hst Hen Hl.
  destruct (known_inv _ _ _ _ _ _ _ _ tx ns Hrt Hr Hn Hs) as (_ & _ & H). eapply H; try eassumption.
  destruct (Nat.le_gt_cases (k_next s) i) as [Hle|Hlt]; [exact Hle|exfalso]. pose proof (conc_inv _ _ _ _ _ _ _ Hrt Hr) as HI.
  destruct (i_known _ _ _ _ HI i Hlt) as [(pk' & pc & Hin)|(pk' & l & E & Hj)].
  - destruct (i_jobs _ _ _ _ HI _ _ _ Hin) as [_ Hj]. apply (Hnew pk'). apply evs_in. eapply jok_hd. exact Hj.
  - apply (Hnew pk'). apply evs_in. rewrite E. apply in_app_iff. left. eapply jok_hd. exact Hj.
Qed.

(** *** unknown ids *)
Definition in_nodes (pc : jpc) : Prop := match pc with JAdd _ | JDraw _ _ | JPut _ _ _ | JQuery _ _ _ => True | _ => False end.
Lemma unknown_inv e uf me local hosts cap s : runtime_ok e uf -> conc_reach e me local hosts cap s ->
  (forall i pk pc tx ns, In (i, pk, pc) (k_jobs s) -> in_nodes pc -> lists_nodes pk tx ns -> w_reqs (k_world s) tx <> None) /\
  (forall i pk tx ns, In (i, EvStart pk) (k_log s) -> lists_nodes pk tx ns -> tried_in (evs i (k_log s)) <> [] -> w_reqs (k_world s) tx <> None).
Proof.
  intros Hrt Hr. induction Hr as [w0 w Hi Hb|s s' Hr IH Hst]; [split; intros; contradiction|].
  destruct IH as [IH1 IH2]. pose proof (conc_inv _ _ _ _ _ _ _ Hrt Hr) as HI.
  destruct Hst as [pk|k l1 i pk pc l2 w' pc' v Hsplit Hstep|l1 i pk l2 Hsplit|x q Hq]; cbn [k_jobs k_log k_world].
  - split.
    + intros j pk' pc tx ns Hin Hnp. apply in_app_iff in Hin. destruct Hin as [Hin|[E|[]]]; [eapply IH1; eassumption|]. injection E as <- <- <-. elim Hnp.
    + intros j pk' tx ns Hin Hl Htr. destruct (Nat.eq_dec j (k_next s)) as [->|Hne].
      * rewrite evs_app, (i_fresh _ _ _ _ HI _ (le_n _)), evs_one in Htr. elim Htr. reflexivity.
      * rewrite evs_app, evs_one_ne, app_nil_r in Htr by congruence. apply in_app_iff in Hin. destruct Hin as [Hin|[E|[]]]; [eapply IH2; eassumption|]. injection E as <- <-. contradiction.
  - assert (Hi : In (i, pk, pc) (k_jobs s)) by (rewrite Hsplit; apply in_elt). destruct (i_jobs _ _ _ _ HI _ _ _ Hi) as [Hlt Hj].
    assert (Hkey : forall tx ns, lists_nodes pk tx ns -> in_nodes pc' \/ tried_in v <> [] -> w_reqs (k_world s) tx <> None).
    { intros tx ns Hl Hor. inversion Hstep; subst; cbn in Hor; try (destruct Hor as [[]|Hor]; now elim Hor); try (eapply IH1; [exact Hi|exact I|exact Hl]).
      - destruct Hor as [Hor|Hor]; [|now elim Hor]. pose proof (start_cases (e k) me pk) as Hc. destruct Hc as [E|? ? ? ? E|? ? ? E|? ? ? ? E]; rewrite E in Hor; elim Hor.
      - destruct Hor as [Hor|Hor]; [|now elim Hor]. destruct (jok_look _ _ _ _ _ Hj) as (_ & b & d & id & -> & Hd & Hy & Htx & Hr' & Hi').
        assert (tx0 = tx). { destruct Hl as (d' & b' & id' & nodes & Hd' & _ & Htx' & _). destruct Hd as [n Hd], Hd' as [n' Hd']. rewrite Hd in Hd'. injection Hd' as <- _. unfold field in *. congruence. }
        subst tx0. intros E. unfold look_pc in Hor. rewrite E in Hor. exact Hor. }
    split.
    + intros j pk' pc0 tx ns Hin Hnp Hl. eapply job_step_mono; [exact Hstep|].
      apply in_app_iff in Hin. destruct Hin as [Hin|[E|Hin]].
      * eapply IH1; [rewrite Hsplit; apply in_app_iff; left; exact Hin|exact Hnp|exact Hl].
      * injection E as <- <- <-. eapply Hkey; eauto.
      * eapply IH1; [rewrite Hsplit; apply in_app_iff; right; right; exact Hin|exact Hnp|exact Hl].
    + intros j pk' tx ns Hin Hl Htr. eapply job_step_mono; [exact Hstep|].
      assert (Hev : forall v0, In v0 v -> forall p, v0 <> EvStart p).
      { inversion Hstep; subst; cbn; intros v0 Hv; try contradiction; destruct Hv as [<-|[]]; intros ?; discriminate. }
      apply in_app_iff in Hin. destruct Hin as [Hin|Hin]; [|apply in_map_iff in Hin; destruct Hin as (v0 & E & Hv); injection E as -> ->; elim (Hev _ Hv pk'); reflexivity].
      destruct (Nat.eq_dec i j) as [->|Hne].
      * rewrite evs_app, evs_pair, tried_app in Htr. pose proof (proj1 (evs_in _ _ _) Hin) as Hin'. pose proof (jok_start _ _ _ _ _ Hj Hin') as ->.
        destruct (tried_in (evs j (k_log s))) as [|y t0] eqn:Et.
        -- cbn in Htr. eapply Hkey; eauto.
        -- eapply IH2; [exact Hin|exact Hl|]. rewrite Et. discriminate.
      * rewrite evs_app, evs_pair_ne, app_nil_r in Htr by congruence. eapply IH2; eassumption.
  - split.
    + intros j pk' pc tx ns Hin. apply (IH1 j pk'). rewrite Hsplit. apply in_app_iff in Hin. apply in_app_iff. cbn. tauto.
    + intros j pk' tx ns Hin Hl Htr. apply in_app_iff in Hin. destruct Hin as [Hin|[E|[]]]; [|discriminate E]. eapply IH2; [exact Hin|exact Hl|].
      rewrite evs_app, tried_app in Htr. destruct (Nat.eq_dec i j) as [->|Hne].
      * rewrite evs_one in Htr. change (tried_in [EvEnd]) with (@nil (ninfo * bool)) in Htr. rewrite app_nil_r in Htr. exact Htr.
      * rewrite evs_one_ne in Htr by exact Hne. change (tried_in []) with (@nil (ninfo * bool)) in Htr. rewrite app_nil_r in Htr. exact Htr.
  - split; [exact IH1|exact IH2].
Qed.

(** C89: a response whose transaction id belongs to no query sent so far adds and queries nothing. *)
Lemma C89_unknown_response_pf : forall e uf me local hosts cap s i pk tx ns, runtime_ok e uf -> conc_reach e me local hosts cap s ->
  In (i, EvStart pk) (k_log s) -> lists_nodes pk tx ns -> w_reqs (k_world s) tx = None ->
  tried_in (evs i (k_log s)) = [] /\ drawn_in (evs i (k_log s)) = [] /\ queries_in (evs i (k_log s)) = [].
Proof.
  intros e uf me local hosts cap s i pk tx ns Hrt Hr Hin Hl Hn. destruct (unknown_inv _ _ _ _ _ _ _ Hrt Hr) as [_ H].
  assert (Ht : tried_in (evs i (k_log s)) = []). { destruct (tried_in (evs i (k_log s))) eqn:E; [reflexivity|]. elim (H i pk tx ns Hin Hl ltac:(congruence) Hn). }
  destruct (C89_node_lists_any_schedule_pf _ _ _ _ _ _ _ _ _ Hrt Hr Hin) as [H'|(tx' & ns' & rest & acc & more & txs & late & _ & _ & H3 & _ & H5 & H6 & H7 & _)]; [exact H'|].
  split; [exact Ht|]. unfold accepted_in in H3. rewrite Ht in H3. cbn in H3. symmetry in H3. apply app_eq_nil in H3. destruct H3 as [-> ->]. cbn in H6.
  destruct late; [|cbn in H6; lia]. rewrite app_nil_r in H5. inversion H7 as [E1 E2 E3|ns0 txs0 gs n tx0 g ? ? ? E1 E2 E3]; [rewrite H5; auto|]. destruct ns0; discriminate.
Qed.

(** ** C90: the routing table *)
Lemma job_step_rt e me cap w pk pc w' pc' v : job_step e me cap w pk pc w' pc' v ->
  (a_rt (w_app w') = a_rt (w_app w)) \/ (exists n ns er, pc = JAdd (n :: ns) /\ AddNode (e_uf e) (a_rt (w_app w)) n = Ok (a_rt (w_app w'), er) /\ v = [EvAdd n (match er with None => true | Some _ => false end)]).
Proof. intros Hs. inversion Hs; subst; cbn [send fst set_app draw_tx w_app a_rt]; auto; right; eexists _, _, _; eauto. Qed.

(** C90: in every schedule the routing table is one built by adding nodes one after the other, so all
    properties of such tables hold; it holds at most 8 nodes in each of 161 buckets, always the local
    node, and otherwise only nodes accepted from find_node responses to queries of the crawler. *)
Lemma C90_table_any_schedule_pf : forall e uf me local hosts cap s, runtime_ok e uf -> conc_reach e me local hosts cap s ->
  let t := a_rt (w_app (k_world s)) in let self := {| nid := me; naddr := local |} in
  rt_reach uf self 8 160 t /\ (Z.of_nat (length (stored t)) <= 8 * 161)%Z /\ In self (stored t) /\
  forall n, In n (stored t) -> n = self \/ exists i pk tx ns, In (i, EvStart pk) (k_log s) /\ In (i, EvAdd n true) (k_log s) /\
    lists_nodes pk tx ns /\ In n ns /\ w_reqs (k_world s) tx <> None.
Proof.
  intros e uf me local hosts cap s Hrt Hr t self. pose proof (conc_inv _ _ _ _ _ _ _ Hrt Hr) as HI. destruct (i_shared _ _ _ _ HI) as [_ Hreach]. fold t self in Hreach.
  destruct (C25_table_bounded_pf _ _ _ _ _ Hreach) as (_ & _ & _ & Hlen). destruct (C26_no_eviction_pf _ _ _ _ _ Hreach) as [_ Hself].
  split; [exact Hreach|]. split; [exact Hlen|]. split; [apply Hself; lia|].
  assert (Hst : forall n, In n (stored t) -> n = self \/ exists i, In (i, EvAdd n true) (k_log s)).
  { clear - Hrt Hr. subst t self. induction Hr as [w0 w Hi Hb|s s' Hr IH Hst].
    - unfold crawler_init in Hi. destruct (NewRouteTable _ _ _) as [t|x|p] eqn:Et; cbn [bind] in Hi; try discriminate. injection Hi as <-.
      destruct (boot_ok e me uf hosts (fun k => proj2 (Hrt k)) _ _ Hb) as (_ & H2 & _). cbn [k_world k_log]. rewrite H2. cbn [w_app a_rt]. intros n Hn. left.
      unfold NewRouteTable in Et. cbn in Et. injection Et as <-. unfold stored in Hn. cbn in Hn. destruct Hn as [Hn|[]]. auto.
    - assert (Hmono : forall n, (n = {| nid := me; naddr := local |} \/ exists i, In (i, EvAdd n true) (k_log s)) -> forall x, n = {| nid := me; naddr := local |} \/ exists i, In (i, EvAdd n true) (k_log s ++ x)).
      { intros n [H|(i & H)] x; [auto|right]. exists i. apply in_app_iff. auto. }
      destruct Hst as [pk|k l1 i pk pc l2 w' pc' v Hsplit Hstep|l1 i pk l2 Hsplit|x q Hq]; cbn [k_world k_log]; try (intros n Hn; apply Hmono, IH, Hn).
      + intros n Hn. destruct (job_step_rt _ _ _ _ _ _ _ _ _ Hstep) as [E|(m & ns & er & _ & E & ->)].
        * rewrite E in Hn. apply Hmono, IH, Hn.
        * pose proof (conc_inv _ _ _ _ _ _ _ Hrt Hr) as HI. destruct (i_shared _ _ _ _ HI) as [_ Hreach].
          destruct (Hrt k) as [_ Hu]. rewrite Hu in E.
          destruct (C27_add_result_pf _ _ _ _ _ _ _ _ Hreach E) as (Herr & _). destruct er as [er|].
          -- rewrite Herr in Hn by discriminate. apply Hmono, IH, Hn.
          -- destruct (C26_no_eviction_pf _ _ _ _ _ Hreach) as [Hstep' _]. destruct (Hstep' _ _ _ E) as [P|P].
             ++ apply Hmono, IH. eapply Permutation_in; [exact P|exact Hn].
             ++ pose proof (Permutation_in _ P Hn) as [<-|Hn']; [|apply Hmono, IH, Hn']. right. exists i. apply in_app_iff. right. left. reflexivity.
      + exact IH. }
  intros n Hn. destruct (Hst n Hn) as [H|(i & Hi)]; [auto|right].
  assert (Hlt : i < k_next s). { destruct (Nat.lt_ge_cases i (k_next s)); [assumption|]. apply evs_in in Hi. rewrite (i_fresh _ _ _ _ HI) in Hi by assumption. elim Hi. }
  assert (Hpk : exists pk, In (i, EvStart pk) (k_log s)).
  { destruct (i_known _ _ _ _ HI i Hlt) as [(pk & pc & Hin)|(pk & l & E & Hj)].
    - destruct (i_jobs _ _ _ _ HI _ _ _ Hin) as [_ Hj]. exists pk. apply evs_in. eapply jok_hd. exact Hj.
    - exists pk. apply evs_in. rewrite E. apply in_app_iff. left. eapply jok_hd. exact Hj. }
  destruct Hpk as (pk & Hpk).
  assert (Htr : In (n, true) (tried_in (evs i (k_log s)))).
  { unfold tried_in. apply in_flat_map. exists (EvAdd n true). split; [apply evs_in; exact Hi|left; reflexivity]. }
  destruct (C89_node_lists_any_schedule_pf _ _ _ _ _ _ _ _ _ Hrt Hr Hpk) as [(E & _)|(tx & ns & rest & acc & more & txs & late & Hl & Hns & _)].
  - rewrite E in Htr. elim Htr.
  - exists i, pk, tx, ns. split; [exact Hpk|]. split; [exact Hi|]. split; [exact Hl|]. split.
    + rewrite <- Hns. apply in_app_iff. left. apply in_map_iff. exists (n, true). auto.
    + destruct (unknown_inv _ _ _ _ _ _ _ Hrt Hr) as [_ H]. eapply H; [exact Hpk|exact Hl|]. intros E. rewrite E in Htr. elim Htr.
Qed.

(** ** Running one job alone *)
Inductive job_run (e : env) (me : bytes) (cap : nat) (pk : packet) : cworld -> jpc -> cworld -> jpc -> list ev -> Prop :=
| jr_refl w pc : job_run e me cap pk w pc w pc []
| jr_step w pc w1 pc1 v1 w2 pc2 v2 : job_step e me cap w pk pc w1 pc1 v1 -> job_run e me cap pk w1 pc1 w2 pc2 v2 -> job_run e me cap pk w pc w2 pc2 (v1 ++ v2).
Lemma jr_one e me cap pk w pc w' pc' v : job_step e me cap w pk pc w' pc' v -> job_run e me cap pk w pc w' pc' v.
Proof. intros H. rewrite <- (app_nil_r v). eapply jr_step; [exact H|constructor]. Qed.

Lemma steps_cons e me cap s s1 s2 : conc_step e me cap s s1 -> conc_steps e me cap s1 s2 -> conc_steps e me cap s s2.
Proof. intros H1 H2. induction H2 as [|s1 s2 s3 H2 IH H3]; [eapply kst_step; [constructor|exact H1]|]. eapply kst_step; [apply IH; exact H1|exact H3]. Qed.
Lemma run_steps e k me cap pk w pc w' pc' v : job_run (e k) me cap pk w pc w' pc' v -> forall s l1 i l2, k_world s = w -> k_jobs s = l1 ++ (i, pk, pc) :: l2 ->
  conc_steps e me cap s {| k_world := w'; k_jobs := l1 ++ (i, pk, pc') :: l2; k_next := k_next s; k_taken := k_taken s; k_log := k_log s ++ map (pair i) v |}.
Proof.
  intros Hr. induction Hr as [w pc|w pc w1 pc1 v1 w2 pc2 v2 Hs Hr IH]; intros s l1 i l2 Hw Hj.
  - cbn [map]. rewrite app_nil_r, <- Hj, <- Hw. destruct s. constructor.
  - eapply steps_cons; [eapply ks_job with (k := k); [exact Hj|rewrite Hw; exact Hs]|].
    specialize (IH {| k_world := w1; k_jobs := l1 ++ (i, pk, pc1) :: l2; k_next := k_next s; k_taken := k_taken s; k_log := k_log s ++ map (pair i) v1 |} l1 i l2 eq_refl eq_refl).
    cbn [k_next k_taken k_log] in IH. rewrite <- app_assoc, <- map_app in IH. exact IH.
Qed.

(** The loop of the response handler, run alone, is the sequential one. *)
Lemma find_run e me cap pk host (He : env_ok e) ns : forall nx (c : ctx cworld response),
  rt_reach (e_uf e) host 8 160 (a_rt (w_app (c_world c))) ->
  exists w' v, exec nx (findNodeRespHandler e me ns) c = Some ({| c_index := c_index c; c_resp := c_resp c; c_world := w'; c_started := c_started c; c_writes := c_writes c |}, None) /\
    job_run e me cap pk (c_world c) (JAdd ns) w' JEnd v.
Proof.
  induction ns as [|n ns IH]; intros nx c Hr.
  - exists (c_world c), []. cbn [findNodeRespHandler exec]. split; [destruct c; reflexivity|]. apply jr_one. constructor.
  - destruct (C31_total_pf (e_uf e) host 8 160) as (_ & _ & Htot). destruct (Htot _ Hr) as (Hadd & _). destruct (Hadd n) as (t1 & er & Ea & Hr1 & _).
    cbn [findNodeRespHandler exec]. rewrite Ea.
    set (w1 := set_app (c_world c) {| a_rt := t1; a_tx := a_tx (w_app (c_world c)); a_queue := a_queue (w_app (c_world c)) |}).
    assert (Ew1 : add_node e (c_world c) n = w1) by (unfold add_node; rewrite Ea; reflexivity).
    destruct er as [er|]; cbn [exec c_world c_index c_resp c_started c_writes]; rewrite Ew1.
    + destruct (IH nx {| c_index := c_index c; c_resp := c_resp c; c_world := w1; c_started := c_started c; c_writes := c_writes c |} Hr1) as (w' & v & E & Hrun).
      exists w', (EvAdd n false :: v). split; [exact E|]. eapply (jr_step _ _ _ _ _ _ _ _ [EvAdd n false]); [eapply js_add_err; exact Ea|exact Hrun].
    + set (tx1 := txid_string (a_tx (w_app (draw_tx w1)))).
      set (wp := {| w_app := w_app (draw_tx w1); w_reqs := mput (w_reqs (draw_tx w1)) tx1 (find_msg me tx1); w_sent := w_sent (draw_tx w1); w_queries := w_queries (draw_tx w1) ++ [find_msg me tx1] |}).
      destruct (find_encodes e me wp tx1 He) as (bs & Eb & _).
      assert (Eq : query_node e me w1 n = (fst (send e wp bs (naddr n)), if e_sok e (length (w_sent wp)) then Ok tt else Err EIO)).
      { unfold query_node, Query. fold tx1. change (WithFindNodeMsg tx1 me me (Some HGenericResp)) with (find_msg me tx1). change (rq_tx (find_msg me tx1)) with tx1. fold wp. rewrite Eb. reflexivity. }
      assert (Hnp : match snd (query_node e me w1 n) with Panic p => PAct (fun w => fst (query_node e me w n)) (PPanic p) | _ => PAct (fun w => fst (query_node e me w n)) (findNodeRespHandler e me ns) end = PAct (fun w => fst (query_node e me w n)) (findNodeRespHandler e me ns)).
      { rewrite Eq. cbn [snd]. destruct (e_sok _ _); reflexivity. }
      rewrite Hnp. cbn [exec c_world c_index c_resp c_started c_writes]. rewrite Eq. cbn [fst].
      set (w2 := fst (send e wp bs (naddr n))).
      destruct (IH nx {| c_index := c_index c; c_resp := c_resp c; c_world := w2; c_started := c_started c; c_writes := c_writes c |} Hr1) as (w' & v & E & Hrun).
      exists w'. eexists. split; [exact E|]. eapply jr_step; [eapply js_add; exact Ea|]. eapply jr_step; [apply js_draw|]. eapply jr_step; [apply js_put|]. eapply jr_step; [apply js_query; exact Eb|]. exact Hrun.
Qed.

Lemma job_runs_out uf host e me cap w pk pc l : env_ok e -> e_uf e = uf -> shared_ok uf me host w -> jok me pk pc l ->
  (forall x, announcement pk x -> enqueued_in l = [] -> length (a_queue (w_app w)) < cap) -> exists w' v, job_run e me cap pk w pc w' JEnd v.
Proof.
  intros He Hu Hsh Hj Hroom.
  assert (Hadd : forall w0 ns, shared_ok uf me host w0 -> exists w' v, job_run e me cap pk w0 (JAdd ns) w' JEnd v).
  { intros w0 ns [_ Hrt]. rewrite <- Hu in Hrt. destruct (find_run e me cap pk host He ns (fun c => None) (NewReqContext None w0) Hrt) as (w' & v & _ & H). exists w', v. exact H. }
  assert (Hcons : forall w0 pc0 w1 pc1 v1, job_step e me cap w0 pk pc0 w1 pc1 v1 -> (exists w' v, job_run e me cap pk w1 pc1 w' JEnd v) -> exists w' v, job_run e me cap pk w0 pc0 w' JEnd v).
  { intros w0 pc0 w1 pc1 v1 Hs (w' & v & H). eexists _, _. eapply jr_step; eassumption. }
  assert (Hreply : forall w0 r d, wire r d -> exists w' v, job_run e me cap pk w0 (JReply r) w' JEnd v).
  { intros w0 r d Hw. destruct (wire_sends e w0 r d He Hw) as (bs & E & _). eexists _, _. apply jr_one. apply js_reply. exact E. }
  assert (Hquery : forall w0 n ns tx, shared_ok uf me host w0 -> exists w' v, job_run e me cap pk w0 (JQuery n ns tx) w' JEnd v).
  { intros w0 n ns tx Hsh0. destruct (find_encodes e me w0 tx He) as (bs & Eb & _). pose proof (js_query e me cap w0 pk n ns tx bs Eb) as Hs.
    eapply Hcons; [exact Hs|]. apply Hadd. eapply job_step_shared; eassumption. }
  assert (Hput : forall w0 n ns tx, shared_ok uf me host w0 -> exists w' v, job_run e me cap pk w0 (JPut n ns tx) w' JEnd v).
  { intros w0 n ns tx Hsh0. pose proof (js_put e me cap w0 pk n ns tx) as Hs. eapply Hcons; [exact Hs|]. apply Hquery. eapply job_step_shared; eassumption. }
  assert (Hdraw : forall w0 n ns, shared_ok uf me host w0 -> exists w' v, job_run e me cap pk w0 (JDraw n ns) w' JEnd v).
  { intros w0 n ns Hsh0. pose proof (js_draw e me cap w0 pk n ns) as Hs. eapply Hcons; [exact Hs|]. apply Hput. eapply job_step_shared; eassumption. }
  assert (Hcase : forall pc0, start_case me pk pc0 -> enqueued_in l = [] -> exists w' v, job_run e me cap pk w pc0 w' JEnd v).
  { intros pc0 Hc Hl. inversion Hc as [-> _|r d tx q -> _ _ Hw _|x r d -> Ha Hw _|tx b d id -> Hna Hd Hy Htx Hr Hid].
    - eexists _, _. constructor.
    - eapply Hreply. exact Hw.
    - eapply Hcons; [apply js_enq; eapply Hroom; eassumption|]. eapply Hreply. exact Hw.
    - eapply Hcons; [apply js_look|]. destruct (look_cases me w tx b pk d id (proj1 Hsh) Hna Hd Hy Htx Hr Hid) as [[-> _]|(ns & _ & -> & _)]; [eexists _, _; constructor|apply Hadd; exact Hsh]. }
  inversion Hj as [|? Hc|x r d Ha Hw| | |? l0 tx ns0 rest acc txs Hna Hl Htr Hin Hask Hnp]; subst pc l.
  - eapply Hcons; [apply js_start|]. apply Hcase; [apply start_cases|reflexivity].
  - apply Hcase; [assumption|reflexivity].
  - eapply Hreply. exact Hw.
  - eexists _, _. constructor.
  - eexists _, _. constructor.
  - inversion Hnp; subst; auto. eexists _, _. constructor.
Qed.

Lemma steps_log e me cap s s' : conc_steps e me cap s s' -> exists more, k_log s' = k_log s ++ more.
Proof.
  intros Hs. induction Hs as [s|s s1 s2 Hs [m IH] Hst]; [exists []; symmetry; apply app_nil_r|].
  destruct Hst; cbn [k_log]; rewrite IH; [exists (m ++ [(k_next s1, EvStart pk)])|exists (m ++ map (pair i) evs)|exists (m ++ [(i, EvEnd)])|exists m]; rewrite ?app_assoc; reflexivity.
Qed.

(** C91: a handler never waits for another one: from any point of any schedule, a handler that is not
    yet done can run to its end on its own, except an announcement that finds the queue full. *)
Lemma C91_handlers_finish_alone_pf : forall e uf me local hosts cap s i pk, runtime_ok e uf -> conc_reach e me local hosts cap s ->
  In (i, EvStart pk) (k_log s) -> ~ In (i, EvEnd) (k_log s) ->
  (length (a_queue (w_app (k_world s))) < cap \/ (forall x, ~ announcement pk x) \/ enqueued_in (evs i (k_log s)) <> []) ->
  exists s', conc_steps e me cap s s' /\ In (i, EvEnd) (k_log s') /\ k_next s' = k_next s /\ k_taken s' = k_taken s /\
    (forall j, j <> i -> evs j (k_log s') = evs j (k_log s)).
Proof.
  intros e uf me local hosts cap s i pk Hrt Hr Hin Hne Hroom. pose proof (conc_inv _ _ _ _ _ _ _ Hrt Hr) as HI.
  destruct (job_facts _ _ _ _ _ _ HI Hin) as [(pc & Hjob & Hj & _)|(l' & E & Hj & He)]; [|contradiction].
  destruct (job_runs_out uf _ (e 0) me cap (k_world s) pk pc _ (proj1 (Hrt 0)) (proj2 (Hrt 0)) (i_shared _ _ _ _ HI) Hj) as (w' & v & Hrun).
  { intros x Hx He. destruct Hroom as [H|[H|H]]; [exact H|elim (H x Hx)|contradiction]. }
  destruct (in_split _ _ Hjob) as (l1 & l2 & Hsplit).
  pose proof (run_steps e 0 me cap pk _ _ _ _ _ Hrun s l1 i l2 eq_refl Hsplit) as Hsteps.
  eexists. split; [eapply kst_step; [exact Hsteps|eapply ks_end; reflexivity]|]. cbn [k_log k_next k_taken k_jobs].
  split; [apply in_app_iff; right; left; reflexivity|]. split; [reflexivity|]. split; [reflexivity|].
  intros j Hji. rewrite !evs_app, evs_pair_ne, evs_one_ne, !app_nil_r by congruence. reflexivity.
Qed.

(** C91: and that one cannot go on until the fetcher takes something out of the queue. *)
Lemma C91_full_queue_blocks_pf : forall e uf me local hosts cap s s' i pk x, runtime_ok e uf -> conc_reach e me local hosts cap s ->
  In (i, EvStart pk) (k_log s) -> announcement pk x -> enqueued_in (evs i (k_log s)) = [] -> length (a_queue (w_app (k_world s))) = cap ->
  conc_steps e me cap s s' -> k_taken s' = k_taken s ->
  enqueued_in (evs i (k_log s')) = [] /\ replies_in (evs i (k_log s')) = [] /\ ~ In (i, EvEnd) (k_log s').
Proof.
  intros e uf me local hosts cap s s' i pk x Hrt Hr Hin Hx Hnone Hfull Hsteps Htaken.
  pose proof (steps_reach _ _ _ _ _ _ _ Hr Hsteps) as Hr'.
  destruct (C87_queue_fifo_pf _ _ _ _ _ _ _ Hrt Hr) as [F1 _]. destruct (C87_queue_fifo_pf _ _ _ _ _ _ _ Hrt Hr') as [F2 Hcap].
  destruct (steps_log _ _ _ _ _ Hsteps) as (more & Elog).
  assert (Henq : enqueued_in (map snd more) = []).
  { rewrite Elog, map_app, enqueued_app, F1, Htaken, <- app_assoc in F2. apply app_inv_head in F2. rewrite <- F2, app_length in Hcap.
    destruct (enqueued_in (map snd more)); [reflexivity|cbn in Hcap; lia]. }
  assert (He : enqueued_in (evs i (k_log s')) = []).
  { rewrite Elog, evs_app, enqueued_app, Hnone. cbn [app]. unfold enqueued_in in *. destruct (flat_map _ (evs i more)) as [|y t] eqn:E; [reflexivity|exfalso].
    assert (Hy : In y (flat_map (fun v => match v with EvEnq x => [x] | _ => [] end) (evs i more))) by (rewrite E; left; reflexivity).
    apply in_flat_map in Hy. destruct Hy as (v & Hv & Hy). apply evs_in in Hv.
    assert (In y (flat_map (fun v => match v with EvEnq x => [x] | _ => [] end) (map snd more))) as Hbad; [|rewrite Henq in Hbad; elim Hbad].
    apply in_flat_map. exists v. split; [|exact Hy]. apply in_map_iff. exists (i, v). auto. }
  assert (Hin' : In (i, EvStart pk) (k_log s')) by (rewrite Elog; apply in_app_iff; auto).
  destruct (C87_announcements_pf _ _ _ _ _ _ _ _ _ Hrt Hr' Hin') as [_ H]. specialize (H x Hx).
  split; [exact He|]. split.
  - destruct (replies_in (evs i (k_log s'))) eqn:E; [reflexivity|]. exfalso. rewrite He in H. assert (D : @nil (request hid * udpaddr) = [x]) by (apply H; left; intros D; discriminate D). discriminate D.
  - intros Hend. rewrite He in H. assert (D : @nil (request hid * udpaddr) = [x]) by (apply H; right; exact Hend). discriminate D.
Qed.

(** ** C92: one packet at a time *)
Lemma router_agree e0 s q : Run_server e0 = Ok s -> s_router s q = crawler_router q /\ s_reqchain s = [] /\ s_respchain s = [].
Proof.
  intros Hs. destruct (run_server_ok e0) as (s' & E & R1 & R2 & R3 & R4 & R5 & Rc & Rrc). rewrite Hs in E. injection E as <-. split; [|auto].
  destruct (crawler_router q) as [h|] eqn:Er.
  - destruct (router_cases q h Er) as [[-> ->]|[[-> ->]|[[-> ->]|[-> ->]]]]; assumption.
  - apply R5. exact (router_none q Er ""%string (or_intror I)).
Qed.

Lemma handler_agree e me w h req addr s : s_reqchain s = [] -> h <> HGenericResp ->
  match request_pc me h req addr with
  | Ok (JReply r) => doRequestHandle (crawler_code e me) s w req h addr = (w, Ok (Some r))
  | Ok (JEnq x r) => doRequestHandle (crawler_code e me) s w req h addr = (set_app w {| a_rt := a_rt (w_app w); a_tx := a_tx (w_app w); a_queue := a_queue (w_app w) ++ [x] |}, Ok (Some r))
  | Panic p => doRequestHandle (crawler_code e me) s w req h addr = (w, Panic p)
  | _ => False
  end.
Proof.
  intros Hc Hh. unfold doRequestHandle. rewrite Hc. cbn [app map]. destruct h; cbn [request_pc crawler_code]; try contradiction.
  - apply run_write.
  - apply run_write.
  - unfold getPeersHandler. destruct (getstring_cases (dict_of (rq_body req)) (B "info_hash")) as [(ih & _ & ->)|(_ & m & ->)]; cbn [bind]; [apply run_write|apply run_panic].
  - unfold announcePeerHandler. destruct (getstring_cases (dict_of (rq_body req)) (B "info_hash")) as [(ih & _ & ->)|(_ & m & ->)]; cbn [bind]; [|apply run_panic].
    destruct (getint_cases (dict_of (rq_body req)) (B "port")) as [(po & _ & ->)|(_ & m & ->)]; cbn [bind]; [apply run_write_act|apply run_panic].
Qed.

Lemma query_agree e me s0 e0 w addr d : Run_server e0 = Ok s0 ->
  match start_query e me addr d with
  | JReply r => requestHandle e (crawler_code e me) s0 w addr d = (w, Ok (Some r))
  | JEnq x r => requestHandle e (crawler_code e me) s0 w addr d = (set_app w {| a_rt := a_rt (w_app w); a_tx := a_tx (w_app w); a_queue := a_queue (w_app w) ++ [x] |}, Ok (Some r))
  | JEnd => exists r, requestHandle e (crawler_code e me) s0 w addr d = (w, r) /\ forall x, r <> Ok x
  | _ => False
  end.
Proof.
  intros Hs. unfold start_query, requestHandle.
  destruct (getstring_cases d (B "t")) as [(tx & E1 & E2)|(Hn & m & E2)]; rewrite E2; cbn [bind]; [|eexists; split; [reflexivity|discriminate]].
  destruct (getstring_cases d (B "q")) as [(q & E3 & E4)|(Hn & m & E4)]; rewrite E4; cbn [bind]; [|eexists; split; [reflexivity|discriminate]].
  unfold query_pc, requestHandle_body. destruct (contains_supported (e_uf e) q) as [[-> _]|[-> _]]; cbn [bind negb]; [|reflexivity].
  unfold GetDict, GetVal. destruct (dget d (B "a")) as [v|] eqn:Ea; cbn [bind]; [|reflexivity].
  destruct v as [z|x|l|a| | | |k]; cbn [bind dict_of]; try reflexivity.
  match goal with |- context[GetString ?dd (B "id")] => destruct (getstring_cases dd (B "id")) as [(id & Ei & Eg)|(Hn & m & Eg)]; rewrite Eg; cbn [bind]; [|reflexivity] end.
  destruct (length id =? 20); cbn [negb]; [|reflexivity].
  destruct (router_agree e0 s0 q Hs) as (-> & Hc & _); destruct (crawler_router q) as [h|] eqn:Er; [|reflexivity].
  assert (Hh : h <> HGenericResp) by (destruct (router_cases q h Er) as [[_ ->]|[[_ ->]|[[_ ->]|[_ ->]]]]; discriminate).
  match goal with |- context[request_pc me h ?r addr] => pose proof (handler_agree e me w h r addr s0 Hc Hh) as Ha; destruct (request_pc me h r addr) as [pc|x0|p] end; try contradiction.
  try (destruct pc; try contradiction; rewrite Ha; reflexivity).
  rewrite Ha; destruct p; try reflexivity; eexists; split; try reflexivity; discriminate.
Qed.

Lemma recv_run e uf me host cap e0 s0 w pk : env_ok e -> e_uf e = uf -> Run_server e0 = Ok s0 -> shared_ok uf me host w -> length (a_queue (w_app w)) < cap ->
  exists v, job_run e me cap pk w JStart (o_world (recv e me s0 w pk)) JEnd v.
Proof.
  intros He Hu Hs Hsh Hroom.
  assert (Hgoal : exists v, job_run e me cap pk w (start_pc e me pk) (fst (fst (recv_body e (crawler_code e me) s0 w (p_addr pk) (p_bytes pk)))) JEnd v).
  2: { destruct Hgoal as (v & Hv). exists ([] ++ v). eapply jr_step; [apply js_start|]. unfold recv, recvPacketHandle.
       destruct (recv_body e (crawler_code e me) s0 w (p_addr pk) (p_bytes pk)) as [[w' l] [r|x|p]]; exact Hv. }
  pose proof (start_cases e me pk) as Hcase. revert Hcase.
  unfold start_pc, recv_body. destruct (DecodeDictNoLimit (p_bytes pk)) as [[d n]|x|p] eqn:Hd; intros Hcase; [|exists []; constructor|exists []; constructor].
  destruct (negb (Exist d (B "y"))); [exists []; constructor|].
  destruct (GetString d (B "y")) as [y|x|p]; [|exists []; constructor|exists []; constructor].
  destruct (beq y (B "q")) eqn:Eq.
  - pose proof (query_agree e me s0 e0 w (p_addr pk) d Hs) as Ha. destruct (start_query e me (p_addr pk) d) as [|x r|r| | | | | |]; try contradiction.
    + rewrite Ha. inversion Hcase as [E|? ? ? ? E|x' r' dd E Han Hw Ho|? ? ? ? E]; try discriminate E. injection E as <- <-. destruct Hw as (Ew & G1 & G2). rewrite Ew.
      set (w' := set_app w _). destruct (encode_now_ok e He w' _ G1 G2) as (bs & Eb & _). rewrite Eb. cbn [send fst].
      eexists. eapply jr_step; [apply js_enq; exact Hroom|]. apply jr_one. apply (js_reply e me cap w' pk r bs). unfold reply_bytes. rewrite Ew, Eb. reflexivity.
    + rewrite Ha. inversion Hcase as [E|r' dd tx q E _ _ Hw Ho|? ? ? E|? ? ? ? E]; try discriminate E. injection E as <-. destruct Hw as (Ew & G1 & G2). rewrite Ew.
      destruct (encode_now_ok e He w _ G1 G2) as (bs & Eb & _). rewrite Eb. cbn [send fst].
      eexists. apply jr_one. apply (js_reply e me cap w pk r bs). unfold reply_bytes. rewrite Ew, Eb. reflexivity.
    + destruct Ha as (r & -> & Hr). exists []. destruct r as [o|x|p]; [elim (Hr o); reflexivity|constructor|constructor].
  - destruct (beq y (B "r")) eqn:Er.
    + unfold responseHandle. destruct (do t <- GetString d (B "t"); _) as [[t b]|x|p]; [|exists []; constructor|exists []; constructor].
      inversion Hcase as [E|? ? ? ? E|? ? ? E|tx body d' id E Hna Hd' Hy Htx Hrr Hid]; try discriminate E. injection E as -> ->.
      match goal with |- exists v, job_run _ _ _ _ _ _ ?w' _ v =>
        assert (Hx : exists v, job_run e me cap pk w (look_pc (w_reqs w tx) (Some body)) w' JEnd v); [|destruct Hx as (v & Hv); exists ([] ++ v); eapply jr_step; [apply js_look|exact Hv]] end.
      unfold look_pc. destruct (w_reqs w tx) as [req|] eqn:Ereq; [|exists []; constructor].
      rewrite (proj1 Hsh _ _ Ereq). unfold doResponseHandle. cbn [rq_handler find_msg WithFindNodeMsg rq_type dict_of]. rewrite beq_refl.
      destruct (router_agree e0 s0 [] Hs) as (_ & _ & ->). cbn [map app]. unfold field in *.
      unfold run_chain, Middleware.Next. cbn [length loop incr NewReqContext c_index nth_error Nat.sub c_resp c_world c_started c_writes app].
      cbn [crawler_code]. unfold genericRespHandler. cbn [exec c_resp c_world]. unfold NodeId. cbn [WithResponse rs_body dict_of rq_type]. 
      assert (Egi : GetString body (B "id") = Ok id). { destruct (getstring_cases body (B "id")) as [(i & E1 & E2)|(Hn & _)]; [congruence|elim (Hn id Hid)]. }
      rewrite Egi. cbn [bind]. rewrite beq_refl.
      destruct (getstring_cases body (B "nodes")) as [(nodes & E3 & E4)|(Hn & m & E4)]; rewrite E4; cbn [bind exec].
      * destruct (C21_parse_node_info_total_pf nodes) as (ns & Ens & _). rewrite Ens.
        match goal with |- context[exec ?nx (findNodeRespHandler e me ns) ?c1] =>
          destruct (find_run e me cap pk host He ns nx c1) as (w' & v & Ex & Hrun); [cbn [c_world]; rewrite Hu; exact (proj2 Hsh)|]; rewrite Ex end.
        cbn [loop incr c_index nth_error Nat.sub c_world fst]. exists v. exact Hrun.
      * exists []. constructor.
    + exists []. destruct (beq y (B "e")); constructor.
Qed.

(** C92: handling one packet without interference has the effect of the sequential handler: starting a
    handler, running it to its end alone and ending it leads to the very state (request table, routing
    table, queue, datagrams sent) computed by handling the packet in one step, so that what holds of the
    sequential crawler holds of every schedule that handles one packet at a time. *)
Lemma C92_one_at_a_time_pf : forall e uf me local hosts cap srv e0 s k pk, runtime_ok e uf -> Run_server e0 = Ok srv ->
  conc_reach e me local hosts cap s -> length (a_queue (w_app (k_world s))) < cap ->
  exists l, conc_steps e me cap s
    {| k_world := o_world (recv (e k) me srv (k_world s) pk); k_jobs := k_jobs s; k_next := S (k_next s); k_taken := k_taken s;
       k_log := k_log s ++ map (pair (k_next s)) (EvStart pk :: l ++ [EvEnd]) |}.
Proof.
  intros e uf me local hosts cap srv e0 s k pk Hrt Hs Hr Hroom. pose proof (conc_inv _ _ _ _ _ _ _ Hrt Hr) as HI.
  destruct (recv_run (e k) uf me _ cap e0 srv (k_world s) pk (proj1 (Hrt k)) (proj2 (Hrt k)) Hs (i_shared _ _ _ _ HI) Hroom) as (v & Hrun).
  exists v. eapply steps_cons; [apply ks_begin|]. 
  pose proof (run_steps e k me cap pk _ _ _ _ _ Hrun {| k_world := k_world s; k_jobs := k_jobs s ++ [(k_next s, pk, JStart)]; k_next := S (k_next s); k_taken := k_taken s; k_log := k_log s ++ [(k_next s, EvStart pk)] |} (k_jobs s) (k_next s) [] eq_refl eq_refl) as Hsteps.
  cbn [k_next k_taken k_log] in Hsteps.
  assert (Hend := ks_end e me cap {| k_world := o_world (recv (e k) me srv (k_world s) pk); k_jobs := k_jobs s ++ [(k_next s, pk, JEnd)]; k_next := S (k_next s); k_taken := k_taken s;
     k_log := (k_log s ++ [(k_next s, EvStart pk)]) ++ map (pair (k_next s)) v |} (k_jobs s) (k_next s) pk [] eq_refl). cbn [k_world k_next k_taken k_log] in Hend.
  pose proof (kst_step _ _ _ _ _ _ Hsteps Hend) as H. rewrite app_nil_r in H. cbn [map]. rewrite map_app. cbn [map].
  rewrite <- !app_assoc in H. cbn [app] in H. exact H.
Qed.

(** ** C93: what is sent *)
Lemma dset_in d k v kx : In kx (dset d k v) -> kx = (k, v) \/ In kx d.
Proof.
  induction d as [|[k' v'] d IH]; cbn [dset].
  - intros [H|[]]. auto.
  - destruct (beq k' k) eqn:E.
    + apply beq_eq in E. subst k'. intros [H|H]; [auto|right; right; exact H].
    + intros [H|H]; [right; left; exact H|]. destruct (IH H) as [H'|H']; [auto|right; right; exact H'].
Qed.
Lemma mkdict_in ps : forall acc kx, In kx (mkdict acc ps) -> In kx acc \/ In kx ps.
Proof.
  induction ps as [|p ps IH]; intros acc kx Hin; cbn [mkdict fold_left] in Hin; [auto|].
  destruct (IH _ _ Hin) as [H|H]; [|right; right; exact H]. destruct (dset_in _ _ _ _ H) as [H'|H']; [|auto]. right. left. rewrite H'. destruct p; reflexivity.
Qed.
Lemma occurs_short s :
  (forall inp v rest u, xitem inp v rest u -> occurs s v -> length s + length rest < length inp) /\
  (forall inp l rest u, xitems inp l rest u -> forall v, In v l -> occurs s v -> length s + length rest <= length inp) /\
  (forall inp ps rest u, xpairs inp ps rest u -> forall k v, In (k, v) ps -> occurs s v -> length s + length rest <= length inp).
Proof.
  destruct x_consumed as (C1 & C2 & C3).
  assert (L2 : forall inp l rest u, xitems inp l rest u -> length rest <= length inp).
  { intros inp l rest u H. destruct (C2 _ _ _ _ H) as [[c ->] _]. rewrite app_length. lia. }
  assert (L3 : forall inp l rest u, xpairs inp l rest u -> length rest <= length inp).
  { intros inp l rest u H. destruct (C3 _ _ _ _ H) as [[c ->] _]. rewrite app_length. lia. }
  apply xitem_mutind.
  - intros body rest z _ H. inversion H.
  - intros ds s0 rest _ _ _ H. inversion H; subst. rewrite app_length. cbn [length]. rewrite app_length. lia.
  - intros inp l rest u _ IH H. inversion H; subst. specialize (IH _ ltac:(eassumption) ltac:(eassumption)). cbn [length]. lia.
  - intros inp ps rest u _ IH H. inversion H as [| |? k v Hin Ho]; subst. destruct (mkdict_in _ _ _ Hin) as [[]|Hin']. specialize (IH _ _ Hin' Ho). cbn [length]. lia.
  - intros rest v [].
  - intros v [].
  - intros inp v mid u l rest u' H1 IH1 H2 IH2 v0 [<-|Hin] Ho.
    + specialize (IH1 Ho). pose proof (L2 _ _ _ _ H2). lia.
    + specialize (IH2 _ Hin Ho). destruct (C1 _ _ _ _ H1) as [_ Hl]. lia.
  - intros rest k v [].
  - intros k v [].
  - intros inp k mid v mid' u ps rest u' H0 IH0 H1 IH1 H2 IH2 k0 v0 [E|Hin] Ho; destruct (C1 _ _ _ _ H0) as [_ Hl0]; destruct (C1 _ _ _ _ H1) as [_ Hl1].
    + injection E as <- <-. specialize (IH1 Ho). pose proof (L3 _ _ _ _ H2). lia.
    + specialize (IH2 _ _ Hin Ho). lia.
Qed.
Lemma dget_occurs d k v s : dget d k = Some v -> occurs s v -> occurs s (VDict d).
Proof.
  intros H Ho. assert (exists k', In (k', v) d) as (k' & Hin).
  { induction d as [|[k' v'] d IH]; cbn [dget] in H; [discriminate|]. destruct (beq k' k); [injection H as <-; exists k'; left; reflexivity|]. destruct (IH H) as (k2 & Hk). exists k2. right. exact Hk. }
  econstructor; eassumption.
Qed.

Lemma lists_short pk tx ns : fits (p_bytes pk) -> lists_nodes pk tx ns -> 26 * length ns < length (p_bytes pk).
Proof.
  intros Hf (d & b & id & nodes & [n Hd] & _ & _ & Hr & _ & Hn & Hp). apply DecodeDictNoLimit_iff in Hd; [|exact Hf]. destruct Hd as (_ & rest & u & Hx & _).
  destruct (C21_parse_node_info_total_pf nodes) as (ns' & E & Hlen & _). rewrite Hp in E. injection E as <-.
  assert (Ho : occurs nodes (VDict d)). { eapply dget_occurs; [exact Hr|]. eapply dget_occurs; [exact Hn|]. constructor. }
  pose proof (proj1 (occurs_short nodes) _ _ _ _ Hx Ho) as Hs. rewrite Hlen. pose proof (Nat.mul_div_le (length nodes) 26 ltac:(discriminate)). lia.
Qed.
Lemma asked_lens me ns txs gs : asked me ns txs gs -> length gs = length ns /\ length txs = length ns.
Proof. induction 1 as [|ns txs gs n tx g H [IH1 IH2]]; [auto|]. rewrite !app_length. cbn. lia. Qed.

Lemma filter_le {X} (f : X -> bool) l : length (filter f l) <= length l.
Proof. induction l as [|x l IH]; cbn; [lia|]. destruct (f x); cbn; lia. Qed.

Lemma jok_sent me pk pc l : jok me pk pc l -> (length (sent_in l) <= 1 /\ queries_in l = []) \/
  (replies_in l = [] /\ sent_in l = queries_in l /\ exists tx ns, lists_nodes pk tx ns /\ length (queries_in l) <= length ns /\
     forall g, In g (queries_in l) -> exists n, In n ns /\ g_to g = naddr n).
Proof.
  intros Hj. destruct Hj as [|pc Hc|x r d Ha Hw Ho|tx q d bs Hask Hna Ho Hc|x d bs Ha Ho Hc|pc l tx ns rest acc txs Hna Hl Htr Hin Hask Hnp];
    try (left; cbn; split; [lia|reflexivity]).
  right. change (replies_in (EvStart pk :: l)) with (replies_in l). change (sent_in (EvStart pk :: l)) with (sent_in l). change (queries_in (EvStart pk :: l)) with (queries_in l).
  split; [apply inner_replies; exact Hin|]. split; [apply inner_sent; exact Hin|]. exists tx, ns. split; [exact Hl|].
  assert (Hsub : forall n, In n acc -> In n (accepted_in l)).
  { intros n Hn. destruct Hnp as [E1 E2|E0 E1 E2|m E1 E2|m t E1 E2|m t E1 E2]; rewrite E1; [exact Hn|exact Hn|apply in_app_iff; auto..]. }
  assert (Hlen : length acc <= length (accepted_in l)).
  { destruct Hnp as [E1 E2|E0 E1 E2|m E1 E2|m t E1 E2|m t E1 E2]; rewrite E1; [lia|lia|rewrite app_length; lia..]. }
  assert (Hacc : forall n, In n (accepted_in l) -> In n ns).
  { intros n Hn. rewrite <- Htr. apply in_app_iff. left. unfold accepted_in in Hn. apply in_map_iff in Hn. destruct Hn as (p & E & Hp). apply filter_In in Hp. apply in_map_iff. exists p. tauto. }
  destruct (asked_lens _ _ _ _ Hask) as [L1 _]. split.
  - rewrite L1. etransitivity; [exact Hlen|]. unfold accepted_in. rewrite map_length. etransitivity; [apply filter_le|]. rewrite <- Htr, app_length, map_length. lia.
  - assert (Hg : forall a t gs, asked me a t gs -> forall g, In g gs -> exists n, In n a /\ g_to g = naddr n).
    { intros a t gs H. induction H as [|ns0 txs0 gs n tx0 g H IH Hto Hcar]; intros g0 Hg0; [elim Hg0|].
      apply in_app_iff in Hg0. destruct Hg0 as [Hg0|[<-|[]]]; [destruct (IH _ Hg0) as (n0 & H1 & H2); exists n0; split; [apply in_app_iff; auto|exact H2]|].
      exists n. split; [apply in_app_iff; right; left; reflexivity|exact Hto]. }
    intros g Hgin. destruct (Hg _ _ _ Hask g Hgin) as (n & H1 & H2). exists n. auto.
Qed.

(** C93: no amplification beyond the node lists: whatever the schedule, a handled packet makes the crawler
    send one datagram (its reply) or less than one per 26 bytes of the packet (queries to nodes it lists),
    never both, and only to the source of the packet or to nodes the packet lists.  In particular at most
    39 datagrams for a packet of 1024 bytes. *)
Lemma C93_bounded_reaction_pf : forall e uf me local hosts cap s i pk, runtime_ok e uf -> conc_reach e me local hosts cap s ->
  In (i, EvStart pk) (k_log s) -> fits (p_bytes pk) ->
  let sent := sent_in (evs i (k_log s)) in
  (length sent <= 1 \/ 26 * length sent < length (p_bytes pk)) /\ (length (p_bytes pk) <= 1024 -> length sent <= 39) /\
  forall g, In g sent -> g_to g = p_addr pk \/ exists tx ns n, lists_nodes pk tx ns /\ In n ns /\ g_to g = naddr n.
Proof.
  intros e uf me local hosts cap s i pk Hrt Hr Hin Hf sent. pose proof (conc_inv _ _ _ _ _ _ _ Hrt Hr) as HI.
  assert (Hj : exists pc l, jok me pk pc l /\ sent = sent_in l).
  { destruct (job_facts _ _ _ _ _ _ HI Hin) as [(pc & _ & Hj & _)|(l' & E & Hj & He)]; [eexists _, _; split; [exact Hj|reflexivity]|].
    exists JEnd, l'. split; [exact Hj|]. unfold sent. rewrite E, sent_app, app_nil_r. reflexivity. }
  destruct Hj as (pc & l & Hj & ->). destruct (jok_replies _ _ _ _ Hj) as (Hrep & _).
  destruct (jok_sent _ _ _ _ Hj) as [[H1 Hq]|(Hre & Heq & tx & ns & Hl & Hlen & Hto)].
  - split; [auto|]. split; [lia|]. intros g Hg. left. apply (Hrep g). unfold sent_in in Hg. apply in_flat_map in Hg. destruct Hg as (v & Hv & Hg).
    destruct v; try (elim Hg; fail); (destruct Hg as [Eg|[]]); subst.
    + refine (proj2 (in_flat_map _ _ _) (ex_intro _ (EvReply g) (conj Hv _))). left. reflexivity.
    + exfalso. assert (Hbad : In g (queries_in l)) by (refine (proj2 (in_flat_map _ _ _) (ex_intro _ (EvQuery g) (conj Hv _))); left; reflexivity). rewrite Hq in Hbad. elim Hbad.
  - rewrite Heq. pose proof (lists_short _ _ _ Hf Hl) as Hs. split; [right; nia|]. split; [intros; nia|].
    intros g Hg. right. destruct (Hto g Hg) as (n & H1 & H2). exists tx, ns, n. auto.
Qed.

Lemma boot_sent_ok e me uf hosts : runtime_ok e uf -> forall w w', boot e me hosts w = Ok w' ->
  exists gs, w_sent w' = w_sent w ++ gs /\ boot_sent me (a_tx (w_app w)) hosts gs.
Proof.
  intros Hrt. induction hosts as [|h t IH]; intros w w'; cbn [boot]; intros E.
  - injection E as <-. exists []. rewrite app_nil_r. split; [reflexivity|constructor].
  - unfold BootStrap in E. set (tx1 := txid_string (a_tx (w_app (draw_tx w)))) in E. set (ee := e (length (w_sent w))) in E.
    destruct (Query_ok (draw_tx w) ee h tx1 "find_node" [(B "id", VStr me); (B "target", VStr me)] (Some HGenericResp) (proj1 (Hrt _)) ltac:(idsok)) as (b & s0 & Q1 & Q2 & _ & _ & Q3 & Q4 & _).
    change (WithFindNodeMsg tx1 me me (Some HGenericResp)) with {| rq_tx := tx1; rq_type := B "find_node"; rq_body := Some [(B "id", VStr me); (B "target", VStr me)]; rq_handler := Some HGenericResp |} in E.
    destruct (Query ee (draw_tx w) h _) as [w1 r]. cbn [fst snd] in *.
    assert (E' : boot e me t w1 = Ok w'). { destruct r as [[]|x|p]; cbn [bind] in E; try discriminate E. exact E. }
    destruct (IH _ _ E') as (gs & H1 & H2). eexists (_ :: gs). split; [rewrite H1, Q1, <- app_assoc; reflexivity|].
    rewrite Q4 in H2. econstructor; [reflexivity|exact Q2|exact H2].
Qed.
Lemma job_step_sent e me cap w pk pc w' pc' v : job_step e me cap w pk pc w' pc' v -> w_sent w' = w_sent w ++ sent_in v.
Proof. intros Hs. inversion Hs; subst; cbn [sent_in flat_map app send fst set_app draw_tx w_sent]; rewrite ?app_nil_r; reflexivity. Qed.

(** C93: the datagrams sent are those of the bootstrap, one find_node query per host with consecutive
    transaction ids, followed by what the handlers sent, in the order of the history; nothing else. *)
Lemma C93_all_datagrams_pf : forall e uf me local hosts cap s, runtime_ok e uf -> conc_reach e me local hosts cap s ->
  exists gs, boot_sent me 1000 hosts gs /\ w_sent (k_world s) = gs ++ sent_in (map snd (k_log s)).
Proof.
  intros e uf me local hosts cap s Hrt Hr. induction Hr as [w0 w Hi Hb|s s' Hr IH Hst].
  - unfold crawler_init in Hi. destruct (NewRouteTable _ _ _) as [t|x|p] eqn:Et; cbn [bind] in Hi; try discriminate. injection Hi as <-.
    destruct (boot_sent_ok e me uf hosts Hrt _ _ Hb) as (gs & H1 & H2). exists gs. cbn [k_world k_log]. split; [exact H2|]. rewrite H1. cbn. rewrite app_nil_r. reflexivity.
  - destruct IH as (gs & H1 & H2). exists gs. split; [exact H1|].
    destruct Hst as [pk|k l1 i pk pc l2 w' pc' v Hsplit Hstep|l1 i pk l2 Hsplit|x q Hq]; cbn [k_world k_log].
    + rewrite map_app, sent_app, app_assoc, <- H2. cbn [map snd]. change (sent_in [_]) with (@nil datagram). rewrite app_nil_r. reflexivity.
    + rewrite map_app, sent_app, app_assoc, <- H2, snd_pair. eapply job_step_sent. exact Hstep.
    + rewrite map_app, sent_app, app_assoc, <- H2. cbn [map snd]. change (sent_in [_]) with (@nil datagram). rewrite app_nil_r. reflexivity.
    + exact H2.
Qed.

(** ** Concrete schedules *)
(** An executable scheduler, only used to exhibit reachable states. *)
Inductive act := ABegin (pk : packet) | AJob (i : nat) | AEnd (i : nat) | ATake.
Definition job_fun (e : env) (me : bytes) (cap : nat) (w : cworld) (pk : packet) (pc : jpc) : option (cworld * jpc * list ev) :=
  match pc with
  | JStart => Some (w, start_pc e me pk, [])
  | JEnq x r => if length (a_queue (w_app w)) <? cap then
      Some (set_app w {| a_rt := a_rt (w_app w); a_tx := a_tx (w_app w); a_queue := a_queue (w_app w) ++ [x] |}, JReply r, [EvEnq x]) else None
  | JReply r => match reply_bytes e w r with
      | Some bs => Some (fst (send e w bs (p_addr pk)), JEnd, [EvReply {| g_bytes := bs; g_to := p_addr pk |}]) | None => Some (w, JEnd, []) end
  | JLook tx body => Some (w, look_pc (w_reqs w tx) body, [])
  | JAdd [] => Some (w, JEnd, [])
  | JAdd (n :: ns) => match AddNode (e_uf e) (a_rt (w_app w)) n with
      | Ok (rt', None) => Some (set_app w {| a_rt := rt'; a_tx := a_tx (w_app w); a_queue := a_queue (w_app w) |}, JDraw n ns, [EvAdd n true])
      | Ok (rt', Some _) => Some (set_app w {| a_rt := rt'; a_tx := a_tx (w_app w); a_queue := a_queue (w_app w) |}, JAdd ns, [EvAdd n false])
      | Err _ => None
      | Panic _ => Some (w, JEnd, []) end
  | JDraw n ns => Some (draw_tx w, JPut n ns (txid_string (a_tx (w_app (draw_tx w)))), [EvDraw (txid_string (a_tx (w_app (draw_tx w))))])
  | JPut n ns tx => Some ({| w_app := w_app w; w_reqs := mput (w_reqs w) tx (find_msg me tx); w_sent := w_sent w; w_queries := w_queries w ++ [find_msg me tx] |}, JQuery n ns tx, [])
  | JQuery n ns tx => match encode_now e w (req_RawData (find_msg me tx)) with
      | Ok bs => Some (fst (send e w bs (naddr n)), JAdd ns, [EvQuery {| g_bytes := bs; g_to := naddr n |}])
      | Err _ => Some (w, JAdd ns, [])
      | Panic _ => Some (w, JEnd, []) end
  | JEnd => None
  end.
Lemma job_fun_ok e me cap w pk pc w' pc' v : job_fun e me cap w pk pc = Some (w', pc', v) -> job_step e me cap w pk pc w' pc' v.
Proof.
  destruct pc as [|x r|r|tx body|[|n ns]|n ns|n ns tx|n ns tx|]; cbn [job_fun]; intros H.
  - injection H as <- <- <-. constructor.
  - destruct (_ <? cap) eqn:E; [|discriminate]. injection H as <- <- <-. constructor. apply Nat.ltb_lt. exact E.
  - destruct (reply_bytes e w r) eqn:E; injection H as <- <- <-; constructor; exact E.
  - injection H as <- <- <-. constructor.
  - injection H as <- <- <-. constructor.
  - destruct (AddNode _ _ _) as [[rt' [er|]]|x|p] eqn:E; [| |discriminate|]; injection H as <- <- <-; econstructor; exact E.
  - injection H as <- <- <-. constructor.
  - injection H as <- <- <-. constructor.
  - destruct (encode_now _ _ _) as [bs|x|p] eqn:E; injection H as <- <- <-; econstructor; exact E.
  - discriminate.
Qed.
Fixpoint cut {X} (n : nat) (l : list X) : option (list X * X * list X) :=
  match l, n with
  | [], _ => None
  | x :: t, 0 => Some ([], x, t)
  | x :: t, S n' => match cut n' t with Some (a, y, b) => Some (x :: a, y, b) | None => None end
  end.
Lemma cut_ok {X} (l : list X) : forall n a y b, cut n l = Some (a, y, b) -> l = a ++ y :: b.
Proof.
  induction l as [|x t IH]; intros n a y b H; [destruct n; discriminate H|]. destruct n as [|n]; cbn [cut] in H; [injection H as <- <- <-; reflexivity|].
  destruct (cut n t) as [[[a' y'] b']|] eqn:E; [|discriminate]. injection H as <- <- <-. rewrite (IH _ _ _ _ E). reflexivity.
Qed.
Definition exec (e : nat -> env) (me : bytes) (cap : nat) (s : conc) (a : act) : option conc :=
  match a with
  | ABegin pk => Some {| k_world := k_world s; k_jobs := k_jobs s ++ [(k_next s, pk, JStart)]; k_next := S (k_next s); k_taken := k_taken s; k_log := k_log s ++ [(k_next s, EvStart pk)] |}
  | AJob n => match cut n (k_jobs s) with
      | Some (l1, (i, pk, pc), l2) => match job_fun (e 0) me cap (k_world s) pk pc with
          | Some (w', pc', v) => Some {| k_world := w'; k_jobs := l1 ++ (i, pk, pc') :: l2; k_next := k_next s; k_taken := k_taken s; k_log := k_log s ++ map (pair i) v |}
          | None => None end
      | None => None end
  | AEnd n => match cut n (k_jobs s) with
      | Some (l1, (i, pk, JEnd), l2) => Some {| k_world := k_world s; k_jobs := l1 ++ l2; k_next := k_next s; k_taken := k_taken s; k_log := k_log s ++ [(i, EvEnd)] |}
      | _ => None end
  | ATake => match a_queue (w_app (k_world s)) with
      | x :: q => Some {| k_world := set_app (k_world s) {| a_rt := a_rt (w_app (k_world s)); a_tx := a_tx (w_app (k_world s)); a_queue := q |};
         k_jobs := k_jobs s; k_next := k_next s; k_taken := k_taken s ++ [x]; k_log := k_log s |}
      | [] => None end
  end.
Fixpoint execs (e : nat -> env) (me : bytes) (cap : nat) (s : conc) (l : list act) : option conc :=
  match l with [] => Some s | a :: t => match exec e me cap s a with Some s' => execs e me cap s' t | None => None end end.
Lemma exec_ok e me cap s a s' : exec e me cap s a = Some s' -> conc_step e me cap s s'.
Proof.
  destruct a as [pk|n|n|]; cbn [exec]; intros H.
  - injection H as <-. constructor.
  - destruct (cut n (k_jobs s)) as [[[l1 [[i pk] pc]] l2]|] eqn:E; [|discriminate]. destruct (job_fun _ _ _ _ _ _) as [[[w' pc'] v]|] eqn:F; [|discriminate].
    injection H as <-. eapply ks_job; [eapply cut_ok; exact E|apply job_fun_ok; exact F].
  - destruct (cut n (k_jobs s)) as [[[l1 [[i pk] pc]] l2]|] eqn:E; [|discriminate]. destruct pc; try discriminate. injection H as <-. eapply ks_end. eapply cut_ok. exact E.
  - destruct (a_queue (w_app (k_world s))) as [|x q] eqn:E; [discriminate|]. injection H as <-. eapply ks_take. exact E.
Qed.
Lemma execs_steps e me cap l : forall s s', execs e me cap s l = Some s' -> conc_steps e me cap s s'.
Proof.
  induction l as [|a t IH]; intros s s' H; cbn [execs] in H; [injection H as <-; constructor|].
  destruct (exec e me cap s a) as [s1|] eqn:E; [|discriminate]. eapply steps_cons; [eapply exec_ok; exact E|apply IH; exact H].
Qed.
Definition ex_conc0 : conc := {| k_world := match boot (fun _ => ex_env) ex_me [ex_addr 1] ex_crawler with Ok w => w | _ => ex_crawler end; k_jobs := []; k_next := 0; k_taken := []; k_log := [] |}.
Lemma ex_conc0_ok cap : conc_reach (fun _ => ex_env) ex_me (mkaddr [] 6881) [ex_addr 1] cap ex_conc0.
Proof. eapply kr_start; [exact ex_crawler_ok|]. reflexivity. Qed.
Lemma execs_reach cap l s' : execs (fun _ => ex_env) ex_me cap ex_conc0 l = Some s' -> conc_reach (fun _ => ex_env) ex_me (mkaddr [] 6881) [ex_addr 1] cap s'.
Proof. intros H. eapply steps_reach; [apply ex_conc0_ok|eapply execs_steps; exact H]. Qed.
Definition ex_run cap l : conc := match execs (fun _ => ex_env) ex_me cap ex_conc0 l with Some s => s | None => ex_conc0 end.
Lemma ex_run_reach cap l : conc_reach (fun _ => ex_env) ex_me (mkaddr [] 6881) [ex_addr 1] cap (ex_run cap l).
Proof. unfold ex_run. destruct (execs _ _ _ _ _) eqn:E; [eapply execs_reach; exact E|apply ex_conc0_ok]. Qed.

(** Two handlers interleaved at every access: one answers an announcement, one follows a node list
    of two nodes, and a third one asks for something in between. *)
Definition ex_ann := ex_pk 2 "d1:ad2:id20:aaaaaaaaaaaaaaaaaaaa9:info_hash2:ih4:porti7ee1:q13:announce_peer1:t2:aa1:y1:qe".
Definition ex_list := ex_pk 1 "d1:t4:03e91:y1:r1:rd2:id1:z5:nodes52:aaaaaaaaaaaaaaaaaaaa123456aaaaaaaaaaaaaaaaaaab123456ee".
Definition ex_vote := ex_pk 3 "d1:t2:vv1:y1:q1:q4:vote1:ad2:id20:aaaaaaaaaaaaaaaaaaaaee".
Definition ex_sched : list act :=
  [ABegin ex_ann; ABegin ex_list; AJob 1; AJob 0; AJob 1; AJob 1; AJob 0; AJob 1; ABegin ex_vote; AJob 1; AJob 2; AJob 0; AJob 1; AEnd 0; AJob 0; AJob 1; AJob 0; AJob 0; AJob 0; AEnd 1; AJob 0; ATake; AEnd 0].
Lemma ex_runtime : runtime_ok (fun _ => ex_env) (fun _ _ => false).
Proof. intros k. split; [apply ex_env_ok|reflexivity]. Qed.

(** The hypotheses of C86 are met: the schedule above is an execution; all three handlers are done, two
    of them replied. *)
Lemma C86_example_pf : exists s, runtime_ok (fun _ => ex_env) (fun _ _ => false) /\ conc_reach (fun _ => ex_env) ex_me (mkaddr [] 6881) [ex_addr 1] 1 s /\
  (In (0, EvStart ex_ann) (k_log s) /\ In (1, EvStart ex_list) (k_log s) /\ In (2, EvStart ex_vote) (k_log s)) /\
  (In (0, EvEnd) (k_log s) /\ In (1, EvEnd) (k_log s) /\ In (2, EvEnd) (k_log s)) /\
  asks ex_ann (B "aa") (B "announce_peer") /\ asks ex_vote (B "vv") (B "vote") /\
  map g_bytes (replies_in (evs 0 (k_log s))) = [B "d1:t2:aa1:y1:r1:rd2:id20:mmmmmmmmmmmmmmmmmmmmee"] /\
  replies_in (evs 1 (k_log s)) = [] /\
  map g_bytes (replies_in (evs 2 (k_log s))) = [B "d1:t2:vv1:y1:e1:eli203e32:donnot support <vote> query typeee"].
Proof.
  exists (ex_run 1 ex_sched). split; [exact ex_runtime|]. split; [apply ex_run_reach|].
  split; [vm_compute; tauto|]. split; [vm_compute; tauto|].
  split; [eexists; split; [eexists; vm_compute; reflexivity|vm_compute; repeat split]|].
  split; [eexists; split; [eexists; vm_compute; reflexivity|vm_compute; repeat split]|].
  vm_compute. repeat split.
Qed.

(** The hypotheses of C87 and C91 are met: in the same schedule the announcement is queued and taken; in
    another one, with room for one announcement, a second one waits. *)
Lemma C87_example_pf : exists s x, conc_reach (fun _ => ex_env) ex_me (mkaddr [] 6881) [ex_addr 1] 1 s /\ announcement ex_ann x /\
  In (0, EvStart ex_ann) (k_log s) /\ enqueued_in (evs 0 (k_log s)) = [x] /\ k_taken s = [x].
Proof.
  exists (ex_run 1 ex_sched). eexists. split; [apply ex_run_reach|]. split.
  - eexists _, _, _, _. split; [|split; [|split; [|reflexivity]]].
    + eexists _, _. split; [eexists; vm_compute; reflexivity|]. repeat (split; [vm_compute; reflexivity|]). reflexivity.
    + reflexivity.
    + reflexivity.
  - split; [vm_compute; tauto|]. vm_compute. split; reflexivity.
Qed.
Lemma C91_example_pf : exists s x, conc_reach (fun _ => ex_env) ex_me (mkaddr [] 6881) [ex_addr 1] 1 s /\ announcement ex_ann x /\
  In (1, EvStart ex_ann) (k_log s) /\ ~ In (1, EvEnd) (k_log s) /\ enqueued_in (evs 1 (k_log s)) = [] /\ length (a_queue (w_app (k_world s))) = 1.
Proof.
  exists (ex_run 1 [ABegin ex_ann; AJob 0; AJob 0; ABegin ex_ann; AJob 1]). destruct C87_example_pf as (_ & x & _ & Hx & _). exists x.
  split; [apply ex_run_reach|]. split; [exact Hx|]. split; [vm_compute; tauto|]. split; [vm_compute; intuition discriminate|]. vm_compute. split; reflexivity.
Qed.

(** The hypotheses of C88, C89, C90 and C93 are met: handler 1 of the schedule adds two nodes, draws two ids
    (the bootstrap took 03e9) and sends two queries; a response with an unknown id does nothing. *)
Lemma C89_example_pf : exists s ns, conc_reach (fun _ => ex_env) ex_me (mkaddr [] 6881) [ex_addr 1] 1 s /\ In (1, EvStart ex_list) (k_log s) /\
  w_reqs (k_world ex_conc0) (B "03e9") <> None /\ conc_steps (fun _ => ex_env) ex_me 1 ex_conc0 s /\ lists_nodes ex_list (B "03e9") ns /\
  In (1, EvEnd) (k_log s) /\ length ns = 2 /\ tried_in (evs 1 (k_log s)) = map (fun n => (n, true)) ns /\
  drawn_in (map snd (k_log s)) = [B "03ea"; B "03eb"] /\ length (queries_in (evs 1 (k_log s))) = 2 /\ length (stored (a_rt (w_app (k_world s)))) = 3.
Proof.
  exists (ex_run 1 ex_sched), [{| nid := B "aaaaaaaaaaaaaaaaaaaa"; naddr := mkaddr (B "1234") 13622 |}; {| nid := B "aaaaaaaaaaaaaaaaaaab"; naddr := mkaddr (B "1234") 13622 |}].
  split; [apply ex_run_reach|]. split; [vm_compute; tauto|]. split; [vm_compute; discriminate|].
  split. { unfold ex_run. destruct (execs _ _ _ _ _) as [s'|] eqn:E; [eapply execs_steps; exact E|constructor]. }
  split. { eexists _, _, _, _. split; [eexists; vm_compute; reflexivity|]. repeat (split; [vm_compute; reflexivity|]). vm_compute. reflexivity. }
  split; [vm_compute; tauto|]. vm_compute. repeat split.
Qed.
Lemma C89_unknown_example_pf : exists s pk ns, conc_reach (fun _ => ex_env) ex_me (mkaddr [] 6881) [ex_addr 1] 1 s /\ In (0, EvStart pk) (k_log s) /\
  lists_nodes pk (B "zz") ns /\ length ns = 1 /\ w_reqs (k_world s) (B "zz") = None /\ In (0, EvEnd) (k_log s).
Proof.
  set (pk := ex_pk 1 "d1:t2:zz1:y1:r1:rd2:id1:z5:nodes26:aaaaaaaaaaaaaaaaaaaa123456ee").
  exists (ex_run 1 [ABegin pk; AJob 0; AJob 0; AEnd 0]), pk, [{| nid := B "aaaaaaaaaaaaaaaaaaaa"; naddr := mkaddr (B "1234") 13622 |}].
  split; [apply ex_run_reach|]. split; [vm_compute; tauto|].
  split. { eexists _, _, _, _. split; [eexists; vm_compute; reflexivity|]. repeat (split; [vm_compute; reflexivity|]). vm_compute. reflexivity. }
  split; [reflexivity|]. split; [vm_compute; reflexivity|]. vm_compute. tauto.
Qed.
Lemma C92_example_pf : exists s srv, Run_server ex_env = Ok srv /\ conc_reach (fun _ => ex_env) ex_me (mkaddr [] 6881) [ex_addr 1] 1 s /\
  length (a_queue (w_app (k_world s))) < 1 /\ length (k_log s) = 15.
Proof. exists (ex_run 1 ex_sched), ex_srv. split; [exact ex_srv_ok|]. split; [apply ex_run_reach|]. vm_compute. split; [lia|reflexivity]. Qed.
Lemma C93_example_pf : exists s, conc_reach (fun _ => ex_env) ex_me (mkaddr [] 6881) [ex_addr 1] 1 s /\ In (1, EvStart ex_list) (k_log s) /\
  fits (p_bytes ex_list) /\ map g_to (sent_in (evs 1 (k_log s))) = [mkaddr (B "1234") 13622; mkaddr (B "1234") 13622] /\
  map g_to (w_sent (k_world s)) = [ex_addr 1; ex_addr 2; mkaddr (B "1234") 13622; ex_addr 3; mkaddr (B "1234") 13622].
Proof.
  exists (ex_run 1 ex_sched). split; [apply ex_run_reach|]. split; [vm_compute; tauto|]. split; [vm_compute; discriminate|].
  split; vm_compute; reflexivity.
Qed.

(** C88, C90: in the schedule of C86 two ids are drawn after the one of the bootstrap query, three
    requests are in the table, and the routing table has grown from one node to three. *)
Lemma C88_example_pf : exists s, runtime_ok (fun _ => ex_env) (fun _ _ => false) /\ conc_reach (fun _ => ex_env) ex_me (mkaddr [] 6881) [ex_addr 1] 1 s /\
  drawn_in (map snd (k_log s)) = [B "03ea"; B "03eb"] /\ length (queries_in (evs 1 (k_log s))) = 2 /\
  forallb (fun t => match w_reqs (k_world s) (B t) with Some _ => true | None => false end) ["03e9"; "03ea"; "03eb"]%string = true /\ w_reqs (k_world s) (B "03ec") = None.
Proof. exists (ex_run 1 ex_sched). split; [exact ex_runtime|]. split; [apply ex_run_reach|]. split; [vm_compute; reflexivity|]. split; [vm_compute; reflexivity|]. split; vm_compute; reflexivity. Qed.
Lemma C90_example_pf : exists s, runtime_ok (fun _ => ex_env) (fun _ _ => false) /\ conc_reach (fun _ => ex_env) ex_me (mkaddr [] 6881) [ex_addr 1] 1 s /\
  length (stored (a_rt (w_app (k_world ex_conc0)))) = 1 /\ length (stored (a_rt (w_app (k_world s)))) = 3.
Proof. exists (ex_run 1 ex_sched). split; [exact ex_runtime|]. split; [apply ex_run_reach|]. split; vm_compute; reflexivity. Qed.
