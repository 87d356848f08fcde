(** UdpPf.v -- proofs of C75, C76 (receive pipeline) and C82 (Close). *)
From Verif Require Import Base Node BytesPool BytesPoolPf Udp UdpSpec UdpProofs.
Local Open Scope list_scope.

Lemma in_pooled p w y : In y (chan_of (p_chans p) w) -> In y (pooled p).
Proof.
  unfold pooled. generalize (p_chans p). intros l. induction l as [|[a b] l IH]; cbn [chan_of map snd concat]; [intros []|].
  destruct (a =? w)%Z; intros Hy; apply in_app_iff; auto.
Qed.

(** C75: in every schedule the buffers being received into, queued, held by the dispatcher or used by
    a handler are pairwise distinct memory and none of them is in the pool; a running handler's packet
    still shows the bytes it copied; and the packets copied by handlers are, up to order and with
    multiplicity, among the first 1024 bytes of the datagrams read - nothing is handled twice,
    overwritten or invented. *)
Lemma C75_distinct_buffers_pf : forall h tr s, udp_run h tr s ->
  (forall i j x y, nth_error (in_flight s) i = Some x -> nth_error (in_flight s) j = Some y -> i <> j -> disjoint_bufs x y) /\
  (forall x w y, In x (in_flight s) -> In y (chan_of (p_chans (u_pool s)) w) -> disjoint_bufs x y) /\
  (forall p str, In (WvBody p str) (u_work s) -> h_read (u_heap s) (k_buf p) = str) /\
  (exists rest, Permutation (map trunc1024 (reads tr)) (parses tr ++ rest)).
Proof.
  intros h tr s Hr. destruct (uinv_run _ _ _ Hr) as [Ip [IN IF] Il Io Iq Is Ic Id]. unfold disjoint_bufs. split; [|split; [|split]].
  - intros i j x y Hx Hy Hij E. unfold bufs in IN. rewrite map_app in IN. apply nodup_app_l in IN.
    rewrite NoDup_nth_error in IN. apply Hij, IN.
    + rewrite map_length. apply nth_error_Some. congruence.
    + rewrite !nth_error_map, Hx, Hy. cbn. congruence.
  - intros x w y Hx Hy E. apply in_pooled in Hy. unfold bufs in IN. rewrite map_app in IN.
    apply in_split in Hx as (l1 & l2 & Hx). rewrite Hx in IN. rewrite map_app in IN. cbn [map] in IN. rewrite <- app_assoc in IN. cbn [app] in IN.
    apply NoDup_remove_2 in IN. apply IN. rewrite !in_app_iff. right. right. rewrite E. apply in_map. exact Hy.
  - intros p str Hin. symmetry. auto.
  - rewrite Io. eexists. rewrite Iq at 1. rewrite <- app_assoc. reflexivity.
Qed.

(** C75, conservation: whenever nothing is waiting any more, every datagram read has been handed to
    exactly one handler run. *)
Lemma C75_each_packet_once_pf : forall h tr s, udp_run h tr s ->
  u_q s = [] -> (forall p, u_recv s <> RvSend p) -> u_listen s = LvTake -> (forall p, ~ In (WvStart p) (u_work s)) ->
  Permutation (map trunc1024 (reads tr)) (parses tr) /\ dones tr + length (u_work s) = length (parses tr).
Proof.
  intros h tr s Hr Hq Hrv Hl Hw. destruct (uinv_run _ _ _ Hr) as [Ip [IN IF] Il Io Iq Is Ic Id].
  assert (Es : start_pkts s = []).
  { unfold start_pkts. revert Hw. generalize (u_work s). intros l. induction l as [|[p|p str] l IH]; intros Hw; cbn [flat_map start_of app]; [reflexivity| |].
    - exfalso. apply (Hw p). left. reflexivity.
    - apply IH. intros q Hin. apply (Hw q). right. exact Hin. }
  assert (Eb : bodies s = length (u_work s)).
  { unfold bodies. revert Hw. generalize (u_work s). intros l. induction l as [|[p|p str] l IH]; intros Hw; cbn [filter is_body length]; [reflexivity| |].
    - exfalso. apply (Hw p). left. reflexivity.
    - f_equal. apply IH. intros q Hin. apply (Hw q). right. exact Hin. }
  rewrite Es in Iq. unfold recv_pkts, listen_pkts in *. rewrite Hq in Io. rewrite Hl in Iq. split; [|rewrite Eb in Id; exact Id].
  destruct (u_recv s) as [| | |p|]; cbn [map app] in Io, Iq; rewrite ?app_nil_r in *; try (rewrite Io; exact Iq).
  exfalso. exact (Hrv p eq_refl).
Qed.

(** C76: what the dispatcher takes is, in arrival order and without gaps, the first 1024 bytes (or all
    bytes of a shorter datagram) of the datagrams read; at most 100 packets are queued, so the receive
    loop is never more than 101 packets ahead. *)
Lemma C76_in_order_pf : forall h tr s, udp_run h tr s ->
  (exists ahead, map trunc1024 (reads tr) = takes tr ++ ahead /\ (length ahead <= 101)%nat) /\
  (length (u_q s) <= 100)%nat /\
  (forall a bs, In (ETake a bs) tr -> (length bs <= 1024)%nat).
Proof.
  intros h tr s Hr. destruct (uinv_run _ _ _ Hr) as [Ip [IN IF] Il Io Iq Is Ic Id]. split; [|split; [exact Ic|]].
  - eexists. split; [exact Io|]. rewrite map_length, app_length. unfold recv_pkts, RecvChanLen in *. destruct (u_recv s); cbn [length]; lia.
  - intros a bs Hin. assert (Ht : In (a, bs) (map trunc1024 (reads tr))).
    { rewrite Io. apply in_app_iff. left. unfold takes. apply in_flat_map. exists (ETake a bs). split; [exact Hin|left; reflexivity]. }
    apply in_map_iff in Ht as (d & Ed & _). unfold trunc1024 in Ed. apply pair_equal_spec in Ed as [_ <-]. rewrite firstn_length. lia.
Qed.

Lemma get_fresh p h : chan_of (p_chans p) RecvPacketLen = [] ->
  GetBySize p h RecvPacketLen = Ok (p, fst (h_alloc h RecvPacketLen), snd (h_alloc h RecvPacketLen)).
Proof. intros E. unfold GetBySize. rewrite E. reflexivity. Qed.

Ltac nx R t := eapply ur_step in R; [|t]; cbn [u_set_recv u_set_work u_set_close StartUdpServer u_pool u_heap u_recv u_q u_listen u_work u_closed u_sock u_lock u_closers app k_addr k_buf] in R.

(** Non-vacuity: any two datagrams can be read and both be in the hands of handlers at once. *)
Lemma C75_example_pf : forall h d1 d2, exists tr s, udp_run h tr s /\ reads tr = [d1; d2] /\ length (u_work s) = 2 /\
  Permutation (map trunc1024 [d1; d2]) (parses tr).
Proof.
  intros h d1 d2.
  set (h1 := fst (h_alloc h RecvPacketLen)). set (b1 := snd (h_alloc h RecvPacketLen)).
  destruct (read_into h1 b1 (dg_bytes d1)) as [h2 n1] eqn:E1.
  set (h3 := fst (h_alloc h2 RecvPacketLen)). set (b2 := snd (h_alloc h2 RecvPacketLen)).
  destruct (read_into h3 b2 (dg_bytes d2)) as [h4 n2] eqn:E2.
  assert (H : exists tr s, udp_run h tr s /\ reads tr = [d1; d2] /\ length (u_work s) = 2 /\ u_q s = [] /\ u_recv s = RvTop /\ u_listen s = LvTake /\ (forall p, ~ In (WvStart p) (u_work s))).
  { pose proof (ur_nil h) as R.
    nx R ltac:(apply us_top; reflexivity).
    nx R ltac:(apply us_get; [reflexivity|apply get_fresh; reflexivity]). fold h1 b1 in R.
    nx R ltac:(eapply us_read; [reflexivity|reflexivity|exact E1]).
    nx R ltac:(eapply us_send; [reflexivity|cbn; unfold RecvChanLen; lia]).
    nx R ltac:(apply us_top; reflexivity).
    nx R ltac:(apply us_get; [reflexivity|apply get_fresh; reflexivity]). fold h3 b2 in R.
    nx R ltac:(eapply us_read; [reflexivity|reflexivity|exact E2]).
    nx R ltac:(eapply us_send; [reflexivity|cbn; unfold RecvChanLen; lia]).
    nx R ltac:(eapply us_take; reflexivity).
    nx R ltac:(eapply us_submit; reflexivity).
    nx R ltac:(eapply us_take; reflexivity).
    nx R ltac:(eapply us_submit; reflexivity).
    nx R ltac:(eapply (us_parse _ []); reflexivity).
    nx R ltac:(eapply (us_parse _ [_]); reflexivity).
    eexists _, _. split; [exact R|].
    cbn [reads flat_map app u_set_work u_work u_q u_recv u_set_recv u_listen length]. split; [reflexivity|]. split; [reflexivity|].
    split; [reflexivity|]. split; [reflexivity|]. split; [reflexivity|]. intros p [H|[H|[]]]; discriminate H. }
  destruct H as (tr & s & Hr & Hrd & Hlen & Hq & Hrv & Hl & Hw). exists tr, s. split; [exact Hr|]. split; [exact Hrd|]. split; [exact Hlen|].
  rewrite <- Hrd. eapply C75_each_packet_once_pf; try eassumption. intros p. congruence.
Qed.

(** ** Close *)
Definition holds (k : kvpc) : bool := match k with KvLock => false | _ => true end.
Definition rets (b : uev -> bool) (tr : list uev) : nat := length (filter b tr).
Definition is_ret (e : uev) : bool := match e with ECloseRet _ => true | _ => false end.
Definition is_ret_ok (e : uev) : bool := match e with ECloseRet true => true | _ => false end.
Arguments rets : simpl never.
Lemma rets_app b t1 t2 : rets b (t1 ++ t2) = rets b t1 + rets b t2.
Proof. unfold rets. rewrite filter_app, app_length. reflexivity. Qed.

Record kinv (tr : list uev) (s : udp) : Prop := {
  ki_lock : length (filter holds (u_closers s)) = if u_lock s then 1 else 0;
  ki_sock : u_sock s = false -> u_closed s = true;
  ki_conn : In KvConn (u_closers s) -> u_closed s = true;
  ki_ret : u_sock s = false <-> (0 < rets is_ret tr)%nat;
  ki_ok : rets is_ret_ok tr = if u_sock s then 0 else 1 }.

Lemma holds_mid l1 k l2 : length (filter holds (l1 ++ k :: l2)) = length (filter holds (l1 ++ l2)) + (if holds k then 1 else 0).
Proof. rewrite !filter_app, !app_length. cbn [filter]. destruct (holds k); cbn [length]; lia. Qed.

Lemma kinv_step tr s e s' : kinv tr s -> udp_step s e s' -> kinv (tr ++ [e]) s'.
Proof.
  intros [K1 K2 K3 K4 K5] Hs.
  assert (Hq : is_ret e = false -> u_closers s' = u_closers s -> u_lock s' = u_lock s -> u_sock s' = u_sock s -> u_closed s' = u_closed s -> kinv (tr ++ [e]) s').
  { intros He E1 E2 E3 E4. assert (He2 : is_ret_ok e = false) by (destruct e as [| | | | | | | |[]|]; try reflexivity; discriminate).
    constructor; rewrite ?rets_app, ?E1, ?E2, ?E3, ?E4; unfold rets in *; cbn [filter length]; rewrite ?He, ?He2; cbn [length]; rewrite ?Nat.add_0_r; assumption. }
  destruct Hs as [Er Ec|Er Ec|p h b Er Eg|b d h n Er Ek Ei|b Er|p Er Hl|p q El Eq|p El|l1 p l2 Ew|l1 p str l2 Ew|Ec|Ec|l1 l2 Ek El|l1 l2 Ek|l1 l2 Ek];
    try (apply Hq; reflexivity); clear Hq.
  - constructor; cbn [u_set_close u_closers u_lock u_sock u_closed]; rewrite ?rets_app, ?filter_app, ?app_length; cbn; rewrite ?Nat.add_0_r; auto.
    intros Hin. apply in_app_iff in Hin as [Hin|[Hin|[]]]; [auto|discriminate].
  - rewrite Ek in *. constructor; cbn [u_set_close u_closers u_lock u_sock u_closed]; rewrite ?rets_app; cbn; rewrite ?Nat.add_0_r; auto.
    + rewrite holds_mid in *. rewrite El in K1. cbn [holds] in *. lia.
    + intros Hin. apply K3. apply in_app_iff in Hin as [Hin|[Hin|Hin]]; [apply in_app_iff; auto|discriminate|apply in_app_iff; right; right; exact Hin].
  - rewrite Ek in *. constructor; cbn [u_set_close u_closers u_lock u_sock u_closed]; rewrite ?rets_app; cbn; rewrite ?Nat.add_0_r; auto. rewrite holds_mid in *. exact K1.
  - rewrite Ek in *. assert (Hc : u_closed s = true) by (apply K3; apply in_app_iff; right; left; reflexivity).
    constructor; cbn [u_set_close u_closers u_lock u_sock u_closed]; rewrite ?rets_app; auto.
    + rewrite holds_mid in K1. cbn [holds] in K1. destruct (u_lock s); lia.
    + split; [|reflexivity]. intros _. unfold rets. cbn. lia.
    + rewrite K5. destruct (u_sock s); reflexivity.
Qed.
Lemma kinv_run h tr s : udp_run h tr s -> kinv tr s.
Proof.
  induction 1 as [|tr s e s' Hr IH Hs]; [|eapply kinv_step; eassumption].
  constructor; cbn; try discriminate; try reflexivity; [intros []|]. split; [discriminate|]. unfold rets. cbn. lia.
Qed.

(** Splitting a run. *)
Inductive usteps : udp -> list uev -> udp -> Prop :=
| uss_nil s : usteps s [] s
| uss_step s tr s1 e s' : usteps s tr s1 -> udp_step s1 e s' -> usteps s (tr ++ [e]) s'.
Lemma run_split h t2 : forall t1 s, udp_run h (t1 ++ t2) s -> exists s1, udp_run h t1 s1 /\ usteps s1 t2 s.
Proof.
  induction t2 as [|e t2 IH] using rev_ind; intros t1 s Hr.
  - rewrite app_nil_r in Hr. exists s. split; [exact Hr|constructor].
  - rewrite app_assoc in Hr. inversion Hr as [E|tr s0 e' s' Hr0 Hs E]; [destruct (t1 ++ t2); discriminate|].
    apply app_inj_tail in E as [-> ->]. destruct (IH _ _ Hr0) as (s1 & H1 & H2). exists s1. split; [exact H1|]. econstructor; eassumption.
Qed.

Definition can_err (s : udp) : nat := match u_recv s with RvGet | RvRead _ => 1 | _ => 0 end.
Lemma closed_steps s t s' : usteps s t s' -> u_closed s = true -> u_sock s = false ->
  u_closed s' = true /\ u_sock s' = false /\ reads t = [] /\ (read_errs t + can_err s' <= can_err s)%nat /\ (recv_left s' <= recv_left s)%nat /\
  ~ In ECloseCall t.
Proof.
  induction 1 as [s|s tr s1 e s' Hr IH Hs]; intros Hc Hk.
  - split; [exact Hc|]. split; [exact Hk|]. split; [reflexivity|]. split; [cbn; lia|]. split; [lia|]. intros [].
  - destruct (IH Hc Hk) as (I1 & I2 & I3 & I4 & I5 & I6). unfold read_errs in *. rewrite filter_app, app_length, reads_app, I3.
    unfold can_err, recv_left in *.
    destruct Hs as [Er Ec|Er Ec|p h b Er Eg|b d h n Er Ek Ei|b Er|p Er Hl|p q El Eq|p El|l1 p l2 Ew|l1 p str l2 Ew|Ec|Ec|l1 l2 Ek El|l1 l2 Ek|l1 l2 Ek];
      cbn [filter length u_set_recv u_set_work u_set_close u_recv u_closed u_sock app reads flat_map] in *; rewrite ?Er in *; try congruence;
      (split; [assumption || reflexivity|]); (split; [assumption || reflexivity|]); (split; [reflexivity|]); (split; [lia|]); (split; [lia|]);
      rewrite in_app_iff; intros [Hin|[Hin|[]]]; try (exact (I6 Hin)); discriminate Hin.
Qed.

(** C82: once a Close call that closed the socket has returned, no datagram is ever read again, the
    receive goroutine fails at most one more read and needs at most three more steps to end, and
    every later Close call returns nil at once; of all Close calls that reach the socket exactly the
    first returns nil. *)
Lemma C82_close_stops_reception_pf : forall h t1 ok t2 s, udp_run h (t1 ++ ECloseRet ok :: t2) s ->
  reads t2 = [] /\ (read_errs t2 <= 1)%nat /\ (recv_left s <= 3)%nat /\ ~ In ECloseCall t2 /\
  (ok = true <-> forall b, ~ In (ECloseRet b) t1).
Proof.
  intros h t1 ok t2 s Hr. change (ECloseRet ok :: t2) with ([ECloseRet ok] ++ t2) in Hr. rewrite app_assoc in Hr.
  destruct (run_split _ _ _ _ Hr) as (s1 & H1 & H2). pose proof (kinv_run _ _ _ H1) as [K1 K2 K3 K4 K5].
  assert (Hk : u_sock s1 = false) by (apply K4; rewrite rets_app; unfold rets; cbn; lia).
  destruct (closed_steps _ _ _ H2 (K2 Hk) Hk) as (I1 & I2 & I3 & I4 & I5 & I6).
  split; [exact I3|]. split; [unfold can_err in I4; destruct (u_recv s1); lia|].
  split; [unfold recv_left in *; destruct (u_recv s); lia|]. split; [exact I6|].
  inversion H1 as [E|tr s0 e' s' Hr0 Hs E]; [destruct t1; discriminate|]. apply app_inj_tail in E as [-> ->].
  pose proof (kinv_run _ _ _ Hr0) as [J1 J2 J3 J4 J5]. inversion Hs; subst.
  assert (Hno : u_sock s0 = true <-> rets is_ret t1 = 0).
  { destruct (u_sock s0) eqn:Es; [split; [intros _|reflexivity]|split; [discriminate|]].
    - destruct (rets is_ret t1) eqn:Ez; [reflexivity|]. exfalso. assert (true = false) by (apply J4; lia). discriminate.
    - intros Ez. assert (0 < rets is_ret t1)%nat by (apply J4; reflexivity). lia. }
  rewrite Hno. unfold rets. split.
  - intros Ez b Hin. assert (Hf : In (ECloseRet b) (filter is_ret t1)) by (apply filter_In; auto). destruct (filter is_ret t1); [contradiction|discriminate].
  - intros Hn. destruct (filter is_ret t1) as [|e l] eqn:Ef; [reflexivity|]. exfalso.
    assert (Hin : In e (filter is_ret t1)) by (rewrite Ef; left; reflexivity). apply filter_In in Hin as [Hin He]. destruct e; try discriminate. exact (Hn _ Hin).
Qed.

Lemma cls_mid (f : kvpc -> nat) l1 k l2 : list_sum (map f (l1 ++ k :: l2)) = f k + list_sum (map f (l1 ++ l2)).
Proof. rewrite !map_app, !list_sum_app. cbn [map]. change (list_sum (f k :: map f l2)) with (f k + list_sum (map f l2)). lia. Qed.

(** C82, progress: a Close call in progress can always make a step (the lock is never lost), and after
    the closed flag is set the receive goroutine can always go on towards its end unless the queue is full. *)
Lemma C82_close_progress_pf : forall h tr s, udp_run h tr s ->
  (u_closers s <> [] -> exists e s', udp_step s e s' /\ (close_left s' < close_left s)%nat) /\
  (u_closed s = true -> u_recv s <> RvGone -> (length (u_q s) < 100)%nat -> exists e s', udp_step s e s' /\ (recv_left s' < recv_left s)%nat).
Proof.
  intros h tr s Hr. pose proof (kinv_run _ _ _ Hr) as [K1 K2 K3 K4 K5]. split.
  - intros Hne. destruct (u_lock s) eqn:El.
    + destruct (filter holds (u_closers s)) as [|k l] eqn:Ef; [discriminate|].
      assert (Hin : In k (u_closers s) /\ holds k = true) by (apply filter_In; rewrite Ef; left; reflexivity). destruct Hin as [Hin Hh].
      apply in_split in Hin as (l1 & l2 & E). destruct k; [discriminate| |].
      * eexists _, _. split; [eapply us_store; exact E|]. unfold close_left. cbn [u_set_close u_closers]. rewrite E. rewrite !cls_mid. lia.
      * eexists _, _. split; [eapply us_conn; exact E|]. unfold close_left. cbn [u_set_close u_closers]. rewrite E. rewrite !cls_mid. lia.
    + destruct (u_closers s) as [|k l] eqn:Ec; [contradiction|]. destruct k; [|cbn in K1; lia|cbn in K1; lia].
      eexists _, _. split; [eapply (us_lock _ []); [exact Ec|exact El]|]. unfold close_left. cbn [u_set_close u_closers]. rewrite Ec. cbn. lia.
  - intros Hc Hg Hq. unfold recv_left. destruct (u_recv s) as [| |b|p|] eqn:Er.
    + eexists _, _. split; [apply us_end; assumption|]. cbn. lia.
    + pose proof (uinv_run _ _ _ Hr) as [Ip _ _ _ _ _ _ _].
      assert (HG : exists p h b, GetBySize (u_pool s) (u_heap s) RecvPacketLen = Ok (p, h, b)).
      { unfold GetBySize. change (RecvPacketLen <? 0)%Z with false. destruct (chan_of (p_chans (u_pool s)) RecvPacketLen); [|eauto]. destruct (h_alloc (u_heap s) RecvPacketLen). eauto. }
      destruct HG as (p & h' & b & EG). eexists _, _. split; [eapply us_get; [exact Er|exact EG]|]. cbn. lia.
    + eexists _, _. split; [eapply us_readerr; exact Er|]. cbn. lia.
    + eexists _, _. split; [eapply us_send; [exact Er|exact Hq]|]. cbn. lia.
    + contradiction.
Qed.

Lemma close_call_dec tr : In ECloseCall tr \/ ~ In ECloseCall tr.
Proof.
  induction tr as [|e tr [IH|IH]]; [right; intros []|left; right; exact IH|].
  destruct e; try (left; left; reflexivity); right; intros [H|H]; try discriminate H; auto.
Qed.

(** Before any Close call: the flag is clear, the socket open, nobody is closing and the loop runs. *)
Lemma open_inv h tr s : udp_run h tr s -> ~ In ECloseCall tr ->
  u_closed s = false /\ u_sock s = true /\ u_closers s = [] /\ u_recv s <> RvGone.
Proof.
  induction 1 as [|tr s e s' Hr IH Hs]; intros Hn; [repeat split; discriminate|].
  destruct IH as (I1 & I2 & I3 & I4); [intros H; apply Hn; apply in_app_iff; auto|].
  assert (He : e <> ECloseCall) by (intros ->; apply Hn, in_app_iff; right; left; reflexivity).
  inversion Hs; subst; cbn [u_set_recv u_set_work u_set_close u_closed u_sock u_closers u_recv]; try congruence;
    try (rewrite I3 in *; match goal with H : [] = ?l ++ _ :: _ |- _ => destruct l; discriminate H end);
    (split; [assumption|]; split; [assumption|]; split; [assumption|]; congruence).
Qed.

(** C82: only Close ends the reception: the receive goroutine ends only after a Close call was made, and
    as long as none was, whatever happened before (failed reads, a full queue), any next datagram can
    still be read. *)
Lemma C82_only_close_stops_pf : forall h tr s, udp_run h tr s ->
  (forall t1 t2, tr = t1 ++ ELoopEnd :: t2 -> In ECloseCall t1) /\
  (~ In ECloseCall tr -> forall d, exists t2 s2, udp_run h (tr ++ t2 ++ [ERead d]) s2 /\ reads t2 = []).
Proof.
  intros h tr s Hr. split.
  - intros t1 t2 ->. change (ELoopEnd :: t2) with ([ELoopEnd] ++ t2) in Hr. rewrite app_assoc in Hr.
    destruct (run_split _ _ _ _ Hr) as (s1 & H1 & _). inversion H1 as [E|tr0 s0 e' s' Hr0 Hs E]; [destruct t1; discriminate|].
    apply app_inj_tail in E as [-> ->]. inversion Hs; subst.
    destruct (close_call_dec t1) as [Hin|Hin]; [exact Hin|].
    destruct (open_inv _ _ _ Hr0 Hin). congruence.
  - intros Hn d.
    assert (Hrd : forall tr s b, udp_run h tr s -> ~ In ECloseCall tr -> u_recv s = RvRead b -> exists s2, udp_run h (tr ++ [ERead d]) s2).
    { intros tr0 s0 b H0 Hn0 E. destruct (open_inv _ _ _ H0 Hn0) as (_ & Hk & _).
      destruct (read_into (u_heap s0) b (dg_bytes d)) as [h' n] eqn:Er. eexists. eapply ur_step; [exact H0|]. eapply us_read; eassumption. }
    assert (Hget : forall tr s, udp_run h tr s -> ~ In ECloseCall tr -> u_recv s = RvGet -> exists s2, udp_run h (tr ++ [ETau] ++ [ERead d]) s2).
    { intros tr0 s0 H0 Hn0 E.
      assert (HG : exists p h' b, GetBySize (u_pool s0) (u_heap s0) RecvPacketLen = Ok (p, h', b)).
      { unfold GetBySize. change (RecvPacketLen <? 0)%Z with false. destruct (chan_of (p_chans (u_pool s0)) RecvPacketLen); [|eauto]. destruct (h_alloc (u_heap s0) RecvPacketLen). eauto. }
      destruct HG as (p & h' & b & EG). rewrite app_assoc. eapply (Hrd (tr0 ++ [ETau]) _ b); [eapply ur_step; [exact H0|eapply us_get; eassumption]| |reflexivity].
      rewrite in_app_iff. intros [H|[H|[]]]; [auto|discriminate]. }
    assert (Htop : forall tr s, udp_run h tr s -> ~ In ECloseCall tr -> u_recv s = RvTop -> exists s2, udp_run h (tr ++ [ETau; ETau] ++ [ERead d]) s2).
    { intros tr0 s0 H0 Hn0 E. destruct (open_inv _ _ _ H0 Hn0) as (Hc & _).
      change ([ETau; ETau] ++ [ERead d]) with ([ETau] ++ [ETau] ++ [ERead d]). rewrite app_assoc.
      eapply Hget; [eapply ur_step; [exact H0|apply us_top; assumption]| |reflexivity].
      rewrite in_app_iff. intros [H|[H|[]]]; [auto|discriminate]. }
    assert (Hsend : forall tr s p, udp_run h tr s -> ~ In ECloseCall tr -> u_recv s = RvSend p -> (length (u_q s) < RecvChanLen)%nat ->
      exists s2, udp_run h (tr ++ [ETau; ETau; ETau] ++ [ERead d]) s2).
    { intros tr0 s0 p H0 Hn0 E Hl.
      change ([ETau; ETau; ETau] ++ [ERead d]) with ([ETau] ++ [ETau; ETau] ++ [ERead d]). rewrite app_assoc.
      eapply Htop; [eapply ur_step; [exact H0|eapply us_send; eassumption]| |reflexivity].
      rewrite in_app_iff. intros [H|[H|[]]]; [auto|discriminate]. }
    destruct (open_inv _ _ _ Hr Hn) as (Hc & Hk & _ & Hg). destruct (u_recv s) as [| |b|p|] eqn:Er.
    + destruct (Htop _ _ Hr Hn Er) as (s2 & H). exists [ETau; ETau], s2. auto.
    + destruct (Hget _ _ Hr Hn Er) as (s2 & H). exists [ETau], s2. auto.
    + destruct (Hrd _ _ _ Hr Hn Er) as (s2 & H). exists [], s2. auto.
    + destruct (Nat.ltb_spec (length (u_q s)) RecvChanLen) as [Hl|Hl].
      * destruct (Hsend _ _ _ Hr Hn Er Hl) as (s2 & H). exists [ETau; ETau; ETau], s2. auto.
      * pose proof (ui_cap _ _ (uinv_run _ _ _ Hr)) as Hcap.
        assert (Htake : forall tr s p, udp_run h tr s -> ~ In ECloseCall tr -> u_recv s = RvSend p -> u_listen s = LvTake -> (RecvChanLen <= length (u_q s))%nat ->
          exists a bs s2, udp_run h (tr ++ [ETake a bs; ETau; ETau; ETau] ++ [ERead d]) s2).
        { intros tr0 s0 p0 H0 Hn0 E0 El0 Hq0. pose proof (ui_cap _ _ (uinv_run _ _ _ H0)) as Hcap0.
          destruct (u_q s0) as [|q0 q] eqn:Eq; [cbn in Hq0; unfold RecvChanLen in Hq0; lia|].
          exists (k_addr q0), (h_read (u_heap s0) (k_buf q0)).
          match goal with |- exists s2, udp_run h (tr0 ++ [?x; ETau; ETau; ETau] ++ _) s2 => change ([x; ETau; ETau; ETau] ++ [ERead d]) with ([x] ++ [ETau; ETau; ETau] ++ [ERead d]) end.
          rewrite app_assoc. eapply Hsend; [eapply ur_step; [exact H0|eapply us_take; eassumption]| |cbn; exact E0|].
          - rewrite in_app_iff. intros [H|[H|[]]]; [auto|discriminate].
          - cbn [u_set_work u_q]. cbn [length] in *. unfold RecvChanLen in *. lia. }
        destruct (u_listen s) as [|p'] eqn:El.
        -- destruct (Htake _ _ _ Hr Hn Er El Hl) as (a & bs & s2 & H). exists [ETake a bs; ETau; ETau; ETau], s2. auto.
        -- destruct (Htake (tr ++ [ETau]) _ p (ur_step _ _ _ _ _ Hr (us_submit _ _ El))) as (a & bs & s2 & H);
             [rewrite in_app_iff; intros [X|[X|[]]]; [auto|discriminate]|exact Er|reflexivity|exact Hl|].
           exists (ETau :: [ETake a bs; ETau; ETau; ETau]), s2. rewrite <- app_assoc in H. auto.
    + congruence.
Qed.

Lemma flag_steps s t s' : usteps s t s' -> u_closed s = true ->
  u_closed s' = true /\ (length (reads t) + read_errs t + can_err s' <= can_err s)%nat /\ (recv_left s' <= recv_left s)%nat /\ ~ In ECloseCall t.
Proof.
  induction 1 as [s|s tr s1 e s' Hr IH Hs]; intros Hc.
  - split; [exact Hc|]. split; [cbn; lia|]. split; [lia|]. intros [].
  - destruct (IH Hc) as (I1 & I4 & I5 & I6). unfold read_errs in *. rewrite filter_app, reads_app, !app_length.
    unfold can_err, recv_left in *.
    destruct Hs as [Er Ec|Er Ec|p h b Er Eg|b d h n Er Ek Ei|b Er|p Er Hl|p q El Eq|p El|l1 p l2 Ew|l1 p str l2 Ew|Ec|Ec|l1 l2 Ek El|l1 l2 Ek|l1 l2 Ek];
      cbn [filter length u_set_recv u_set_work u_set_close u_recv u_closed u_sock app reads flat_map] in *; rewrite ?Er in *; try congruence;
      (split; [assumption || reflexivity|]); (split; [lia|]); (split; [lia|]);
      rewrite in_app_iff; intros [Hin|[Hin|[]]]; try (exact (I6 Hin)); discriminate Hin.
Qed.
(** C82: a Close call that returns at once because another one has set the flag: that other call was made before;
    from then on at most one more read is made, and every later call returns at once too. *)
Lemma C82_early_return_pf : forall h t1 t2 s, udp_run h (t1 ++ ECloseSeen :: t2) s ->
  In ECloseCall t1 /\ (length (reads t2) + read_errs t2 <= 1)%nat /\ ~ In ECloseCall t2.
Proof.
  intros h t1 t2 s Hr. change (ECloseSeen :: t2) with ([ECloseSeen] ++ t2) in Hr. rewrite app_assoc in Hr.
  destruct (run_split _ _ _ _ Hr) as (s1 & H1 & H2).
  inversion H1 as [E|tr s0 e' s' Hr0 Hs E]; [destruct t1; discriminate|]. apply app_inj_tail in E as [-> ->].
  inversion Hs as [| | | | | | | | | |Hc| | | |]; subst. destruct (flag_steps _ _ _ H2 Hc) as (_ & I4 & I5 & I6).
  split; [destruct (close_call_dec t1) as [Hin|Hin]; [exact Hin|destruct (open_inv _ _ _ Hr0 Hin); congruence]|].
  split; [unfold can_err in I4; destruct (u_recv s1); lia|exact I6].
Qed.

(** C82, the guarantee does not extend to a Close call that returns because another one is running: it
    can return nil while the socket is still open and datagrams are still read. *)
Lemma C82_early_return_refuted_pf : forall h d, exists t1 t2 s, udp_run h (t1 ++ ECloseSeen :: t2) s /\ reads t2 = [d].
Proof.
  intros h d. destruct (read_into (fst (h_alloc h RecvPacketLen)) (snd (h_alloc h RecvPacketLen)) (dg_bytes d)) as [h2 n1] eqn:E1.
  exists [ETau; ETau; ECloseCall; ETau; ETau], [ERead d].
  eexists. split; [|reflexivity].
  change ([ETau; ETau; ECloseCall; ETau; ETau] ++ [ECloseSeen; ERead d]) with (((((((([] ++ [ETau]) ++ [ETau]) ++ [ECloseCall]) ++ [ETau]) ++ [ETau]) ++ [ECloseSeen]) ++ [ERead d])).
  eapply ur_step. eapply ur_step. eapply ur_step. eapply ur_step. eapply ur_step. eapply ur_step. eapply ur_step. apply ur_nil.
  apply us_top; reflexivity.
  apply us_get; [reflexivity|apply get_fresh; reflexivity].
  apply us_close_call; reflexivity.
  apply (us_lock _ [] []); reflexivity.
  apply (us_store _ [] []); reflexivity.
  apply us_close_seen; reflexivity.
  eapply us_read; [reflexivity|reflexivity|exact E1].
Qed.

(** Non-vacuity of C82: two concurrent Close calls; the first returns nil, the second an error. *)
Lemma C82_example_pf : forall h, exists t1 t2 s, udp_run h (t1 ++ ECloseRet true :: t2) s /\ In (ECloseRet false) t2 /\ u_recv s = RvGone.
Proof.
  intros h. exists [ECloseCall; ECloseCall; ETau; ETau], [ETau; ETau; ECloseRet false; ELoopEnd].
  eexists. split; [|split; [right; right; left; reflexivity|]].
  change ([ECloseCall; ECloseCall; ETau; ETau] ++ ECloseRet true :: [ETau; ETau; ECloseRet false; ELoopEnd])
    with ((((((((([] ++ [ECloseCall]) ++ [ECloseCall]) ++ [ETau]) ++ [ETau]) ++ [ECloseRet true]) ++ [ETau]) ++ [ETau]) ++ [ECloseRet false]) ++ [ELoopEnd]).
  eapply ur_step. eapply ur_step. eapply ur_step. eapply ur_step. eapply ur_step. eapply ur_step. eapply ur_step. eapply ur_step. eapply ur_step. apply ur_nil.
  apply us_close_call; reflexivity.
  apply us_close_call; reflexivity.
  apply (us_lock _ [] [KvLock]); reflexivity.
  apply (us_store _ [] [KvLock]); reflexivity.
  apply (us_conn (u_set_close _ true true true [KvConn; KvLock]) [] [KvLock]); reflexivity.
  apply (us_lock _ [] []); reflexivity.
  apply (us_store _ [] []); reflexivity.
  apply (us_conn (u_set_close _ true false true [KvConn]) [] []); reflexivity.
  apply us_end; reflexivity.
  reflexivity.
Qed.

(** C76: any two datagrams can be read while only the first has been taken. *)
Lemma C76_example_pf : forall h d1 d2, exists tr s, udp_run h tr s /\ reads tr = [d1; d2] /\ length (takes tr) = 1 /\ length (u_q s) = 1.
Proof.
  intros h d1 d2.
  set (h1 := fst (h_alloc h RecvPacketLen)). set (b1 := snd (h_alloc h RecvPacketLen)).
  destruct (read_into h1 b1 (dg_bytes d1)) as [h2 n1] eqn:E1.
  set (h3 := fst (h_alloc h2 RecvPacketLen)). set (b2 := snd (h_alloc h2 RecvPacketLen)).
  destruct (read_into h3 b2 (dg_bytes d2)) as [h4 n2] eqn:E2.
  pose proof (ur_nil h) as R.
  nx R ltac:(apply us_top; reflexivity).
  nx R ltac:(apply us_get; [reflexivity|apply get_fresh; reflexivity]). fold h1 b1 in R.
  nx R ltac:(eapply us_read; [reflexivity|reflexivity|exact E1]).
  nx R ltac:(eapply us_send; [reflexivity|cbn; unfold RecvChanLen; lia]).
  nx R ltac:(apply us_top; reflexivity).
  nx R ltac:(apply us_get; [reflexivity|apply get_fresh; reflexivity]). fold h3 b2 in R.
  nx R ltac:(eapply us_read; [reflexivity|reflexivity|exact E2]).
  nx R ltac:(eapply us_send; [reflexivity|cbn; unfold RecvChanLen; lia]).
  nx R ltac:(eapply us_take; reflexivity).
  eexists _, _. split; [exact R|]. split; [reflexivity|]. split; reflexivity.
Qed.
