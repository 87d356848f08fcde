(** RecvLogPf.v -- proofs of C137 (what the receiving goroutines print). *)
From Verif Require Import Base GoLib Bencode Types Logger Node ConsoleLog BytesPool Udp UdpSpec UdpProofs UdpPf RecvLog RecvLogSpec.
Local Open Scope list_scope.

Definition opt {A} (o : option A) : list A := match o with Some x => [x] | None => [] end.
Record rinv (tr : list uev) (g : rlog) : Prop := {
  ri_udp : uinv tr (g_udp g);
  ri_recv : map received_line (map trunc1024 (reads tr)) = filter is_received (g_out g) ++ filter is_received (opt (g_rline g));
  ri_take : map taken_line (takes tr) = filter is_taken (g_out g) ++ opt (g_lline g);
  ri_fail : read_errs tr = length (filter is_failed (g_out g)) + length (filter is_failed (opt (g_rline g)));
  ri_rp : forall en, g_rline g = Some en -> is_taken en = false /\ (is_received en = true -> exists p, u_recv (g_udp g) = RvSend p);
  ri_lp : forall en, g_lline g = Some en -> is_received en = false /\ is_failed en = false /\ is_taken en = true /\ exists p, u_listen (g_udp g) = LvSubmit p }.

Lemma read_errs_app a b : read_errs (a ++ b) = read_errs a + read_errs b.
Proof. unfold read_errs. rewrite filter_app, app_length. reflexivity. Qed.
Lemma rinv_step tr g es g' : rinv tr g -> rl_step g es g' -> rinv (tr ++ es) g'.
Proof.
  intros [Iu Ir It If Irp Ilp] Hs. destruct Hs as [t e s' Hu Hr Hl|en E|en E|en E1 E2 E3].
  - pose proof (uinv_step _ _ _ _ Iu Hu) as Iu'. pose proof (ui_order _ _ Iu') as Io'. pose proof (ui_order _ _ Iu) as Io.
    assert (N1 : u_recv s' <> u_recv (g_udp g) -> g_rline g = None) by (destruct (g_rline g); [intros N; exfalso; apply N, Hr; discriminate|reflexivity]).
    assert (N2 : u_listen s' <> u_listen (g_udp g) -> g_lline g = None) by (destruct (g_lline g); [intros N; exfalso; apply N, Hl; discriminate|reflexivity]).
    assert (KR : (forall d, e <> ERead d) -> reads (tr ++ [e]) = reads tr) by (intros Hn; rewrite reads_app; destruct e; cbn; rewrite ?app_nil_r; try reflexivity; destruct (Hn d eq_refl)).
    assert (KT : (forall a b, e <> ETake a b) -> takes (tr ++ [e]) = takes tr) by (intros Hn; rewrite takes_app; destruct e; cbn; rewrite ?app_nil_r; try reflexivity; destruct (Hn a bs eq_refl)).
    assert (KE : e <> EReadErr -> read_errs (tr ++ [e]) = read_errs tr) by (intros Hn; rewrite read_errs_app; unfold read_errs at 2; destruct e; cbn; try lia; congruence).
    assert (Plain : (forall d, e <> ERead d) -> (forall a b, e <> ETake a b) -> e <> EReadErr ->
      rinv (tr ++ [e]) {| g_udp := s'; g_rline := recv_says t e s' (g_rline g); g_lline := listen_says e s' (g_lline g); g_out := g_out g |}).
    { intros A1 A2 A3. assert (R1 : recv_says t e s' (g_rline g) = g_rline g) by (unfold recv_says; destruct e; try reflexivity; [destruct (A1 d eq_refl)|congruence]).
      assert (R2 : listen_says e s' (g_lline g) = g_lline g) by (unfold listen_says; destruct e; try reflexivity; destruct (A2 a bs eq_refl)).
      rewrite R1, R2. constructor; cbn [g_udp g_rline g_lline g_out]; rewrite ?KR, ?KT, ?KE by assumption; try assumption.
      - intros en En. destruct (Irp en En) as [H1 H2]. split; [exact H1|]. intros Hi. rewrite Hr by congruence. auto.
      - intros en En. rewrite Hl by congruence. auto. }
    destruct Hu as [Er Ec|Er Ec|p h b Er Eg|b d h n Er Ek Ei|b Er|p Er Hq|p q El Eq|p El|l1 p l2 Ew|l1 p str l2 Ew|Ec|Ec|l1 l2 Ek El|l1 l2 Ek|l1 l2 Ek]; try (apply Plain; intros; discriminate).
    + (* read *)
      cbn [u_set_recv u_recv u_heap u_listen recv_says listen_says] in *. rewrite (N1 ltac:(rewrite Er; discriminate)) in *. cbn [opt filter] in *.
      set (p := {| k_addr := dg_from d; k_buf := reslice b n |}) in *. cbn [app] in *.
      assert (Ed : trunc1024 d = shown h p).
      { rewrite takes_app, reads_app, map_app in Io'. cbn [takes reads flat_map app map] in Io'. unfold recv_pkts in Io'. cbn [u_recv u_q u_set_recv u_heap] in Io'.
        rewrite app_nil_r, map_app, app_assoc in Io'. apply app_inj_tail in Io'. apply Io'. }
      constructor; cbn [g_udp g_rline g_lline g_out opt]; [exact Iu'| | | | |].
      * rewrite reads_app, !map_app, Ir, app_nil_r. cbn [reads flat_map app map filter]. rewrite Ed. reflexivity.
      * rewrite KT by discriminate. exact It.
      * rewrite KE by discriminate. exact If.
      * intros en En. injection En as <-. split; [reflexivity|]. intros _. exists p. reflexivity.
      * exact Ilp.
    + (* read error *)
      cbn [u_set_recv u_recv u_heap u_listen recv_says listen_says] in *. rewrite (N1 ltac:(rewrite Er; discriminate)) in *. cbn [opt filter app length] in *.
      constructor; cbn [g_udp g_rline g_lline g_out opt]; [exact Iu'| | | | |].
      * rewrite KR by discriminate. exact Ir.
      * rewrite KT by discriminate. exact It.
      * rewrite read_errs_app, If. cbn. lia.
      * intros en En. injection En as <-. split; [reflexivity|]. intros Hi. discriminate Hi.
      * exact Ilp.
    + (* take *)
      cbn [u_set_work u_recv u_heap u_listen recv_says listen_says] in *. rewrite (N2 ltac:(rewrite El; discriminate)) in *. cbn [opt app] in *.
      constructor; cbn [g_udp g_rline g_lline g_out opt]; [exact Iu'| | | | |].
      * rewrite KR by discriminate. exact Ir.
      * rewrite takes_app, map_app, It, app_nil_r. reflexivity.
      * rewrite KE by discriminate. exact If.
      * exact Irp.
      * intros en En. injection En as <-. repeat (split; [reflexivity|]). exists p. reflexivity.
  - rewrite app_nil_r. rewrite E in *. destruct (Irp _ eq_refl) as [H1 H2]. constructor; cbn [g_udp g_rline g_lline g_out opt]; rewrite ?filter_app; cbn [filter] in *; try assumption.
    + rewrite Ir. cbn [opt filter]. rewrite app_nil_r. reflexivity.
    + rewrite It, H1, app_nil_r. reflexivity.
    + rewrite If, app_length. cbn [opt filter length]. lia.
    + intros en' En'. discriminate.
  - rewrite app_nil_r. rewrite E in *. destruct (Ilp _ eq_refl) as (H1 & H2 & H3 & H4). constructor; cbn [g_udp g_rline g_lline g_out opt]; rewrite ?filter_app; cbn [filter]; rewrite ?H1, ?H2, ?H3, ?app_nil_r; try assumption.
    intros en' En'. discriminate.
  - rewrite app_nil_r. constructor; cbn [g_udp g_rline g_lline g_out]; rewrite ?filter_app; cbn [filter]; rewrite ?E1, ?E2, ?E3, ?app_nil_r; assumption.
Qed.
Lemma rinv_run h tr g : rl_run h tr g -> rinv tr g.
Proof.
  induction 1 as [|tr g es g' Hr IH Hs]; [|eapply rinv_step; eassumption].
  constructor; cbn; try discriminate; try reflexivity. apply uinv_start.
Qed.
Lemma rl_udp_run h tr g : rl_run h tr g -> udp_run h tr (g_udp g).
Proof. induction 1 as [|tr g es g' Hr IH Hs]; [constructor|]. destruct Hs; cbn [g_udp]; rewrite ?app_nil_r; try assumption. econstructor; eassumption. Qed.

(** C137: in every execution the "<<< received Bytes" lines are those of the first n datagrams read, in order, and the "<<<rpc received" lines those of the first m of
    these, in order, with the sender and the number of bytes kept (at most 1024); at most one datagram read is without its line yet, m lags behind n by at most 102, and
    no more than m packets have been looked at by a handler.  Every failed read but possibly the last has its line.  With nothing left to print the lines are complete. *)
Lemma C137_receive_lines_pf : forall h tr g, rl_run h tr g -> exists n m,
  said_by "udp" "<<< received Bytes" (g_out g) = map received_line (firstn n (map trunc1024 (reads tr))) /\
  said_by "server" "<<<rpc received" (g_out g) = map taken_line (firstn m (map trunc1024 (reads tr))) /\
  length (parses tr) <= m /\ m <= n /\ n <= m + 102 /\ n <= length (reads tr) /\ length (reads tr) <= n + 1 /\
  length (said_by "udp" "<<< receive udp err" (g_out g)) <= read_errs tr /\ read_errs tr <= length (said_by "udp" "<<< receive udp err" (g_out g)) + 1 /\
  (g_rline g = None -> n = length (reads tr) /\ read_errs tr = length (said_by "udp" "<<< receive udp err" (g_out g))) /\
  (g_lline g = None -> m = length (takes tr)).
Proof.
  intros h tr g Hr. destruct (rinv_run _ _ _ Hr) as [Iu Ir It If Irp Ilp]. destruct Iu as [_ _ _ Io Iq _ Ic _].
  change (said_by "udp" "<<< received Bytes" (g_out g)) with (filter is_received (g_out g)).
  change (said_by "server" "<<<rpc received" (g_out g)) with (filter is_taken (g_out g)).
  change (said_by "udp" "<<< receive udp err" (g_out g)) with (filter is_failed (g_out g)).
  exists (length (filter is_received (g_out g))), (length (filter is_taken (g_out g))).
  pose proof (f_equal (@length _) Ir) as Lr. pose proof (f_equal (@length _) It) as Lt. pose proof (f_equal (@length _) Io) as Lo. pose proof (Permutation_length Iq) as Lp.
  rewrite ?map_length, ?app_length, ?map_length, ?app_length in *. unfold RecvChanLen in Ic.
  assert (Hrl : length (filter is_received (opt (g_rline g))) <= length (recv_pkts (g_udp g))).
  { destruct (g_rline g) as [en|] eqn:E; [|cbn; lia]. destruct (Irp en eq_refl) as [_ H]. cbn [opt filter]. destruct (is_received en); [|cbn; lia]. destruct (H eq_refl) as [p Hp]. unfold recv_pkts. rewrite Hp. cbn. lia. }
  assert (Hll : length (opt (g_lline g)) <= length (listen_pkts (g_udp g))).
  { destruct (g_lline g) as [en|] eqn:E; [|cbn; lia]. destruct (Ilp en eq_refl) as (_ & _ & _ & p & H). unfold listen_pkts. rewrite H. cbn. lia. }
  assert (Hr1 : length (recv_pkts (g_udp g)) <= 1) by (unfold recv_pkts; destruct (u_recv (g_udp g)); cbn; lia).
  assert (Hl1 : length (opt (g_lline g)) <= 1) by (destruct (g_lline g); cbn; lia).
  assert (Hf1 : length (filter is_failed (opt (g_rline g))) <= 1) by (destruct (g_rline g) as [en|]; cbn; [destruct (is_failed en); cbn|]; lia).
  split; [rewrite <- firstn_map, Ir, firstn_app, firstn_all, Nat.sub_diag; cbn [firstn]; symmetry; apply app_nil_r|].
  split; [rewrite Io, firstn_app, map_app; replace (length (filter is_taken (g_out g)) - length (takes tr)) with 0 by lia; cbn [firstn map]; rewrite app_nil_r, <- firstn_map, It, firstn_app, firstn_all, Nat.sub_diag; cbn [firstn]; symmetry; apply app_nil_r|].
  repeat (split; [lia|]). split.
  - intros E. rewrite E in *. cbn in *. lia.
  - intros E. rewrite E in *. cbn in *. lia.
Qed.

(** C137: every execution of the receiving goroutines is one with the lines, and with nothing left to print. *)
Lemma C137_covers_all_runs_pf : forall h tr s, udp_run h tr s -> exists g, rl_run h tr g /\ g_udp g = s /\ g_rline g = None /\ g_lline g = None.
Proof.
  intros h tr s. induction 1 as [|tr s e s' Hr (g & Hg & <- & E1 & E2) Hs]; [exists (rlog0 h); repeat split; constructor|].
  pose proof (rlr_step h _ _ _ _ Hg (rl_udp g [] e s' Hs ltac:(congruence) ltac:(congruence))) as H.
  set (g1 := {| g_udp := s'; g_rline := _; g_lline := _; g_out := _ |}) in H.
  assert (A : exists g2, rl_run h (tr ++ [e]) g2 /\ g_udp g2 = s' /\ g_rline g2 = None).
  { destruct (g_rline g1) as [en|] eqn:E; [|exists g1; auto]. eexists. split; [rewrite <- (app_nil_r (tr ++ [e])); eapply rlr_step; [exact H|apply (rl_recv _ en E)]|]. split; reflexivity. }
  destruct A as (g2 & H2 & U2 & R2). destruct (g_lline g2) as [en|] eqn:E; [|exists g2; auto].
  eexists. split; [rewrite <- (app_nil_r (tr ++ [e])); eapply rlr_step; [exact H2|apply (rl_listen _ en E)]|]. cbn. auto.
Qed.

(** C137: a concrete execution: two datagrams read, one taken, three lines. *)
Lemma C137_example_pf : forall h d1 d2, exists tr g, rl_run h tr g /\ reads tr = [d1; d2] /\
  said_by "udp" "<<< received Bytes" (g_out g) = [received_line (trunc1024 d1); received_line (trunc1024 d2)] /\ said_by "server" "<<<rpc received" (g_out g) = [taken_line (trunc1024 d1)].
Proof.
  intros h d1 d2. destruct (C76_example_pf h d1 d2) as (tr & s & Hr & Er & Et & _). destruct (C137_covers_all_runs_pf _ _ _ Hr) as (g & Hg & _ & G1 & G2).
  exists tr, g. split; [exact Hg|]. split; [exact Er|]. destruct (C137_receive_lines_pf _ _ _ Hg) as (n & m & -> & -> & _ & _ & _ & _ & _ & _ & _ & Hn & Hm).
  rewrite Er in *. rewrite Et in Hm. rewrite (proj1 (Hn G1)), (Hm G2). split; reflexivity.
Qed.

(** C137: the lines do not say what was received: contents and, beyond 1024 bytes, the size of a datagram are not in them. *)
Lemma C137_lines_tell_datagrams_refuted_pf : (forall a b b', length b = length b' -> received_line (a, b) = received_line (a, b') /\ taken_line (a, b) = taken_line (a, b')) /\
  (forall d d', dg_from d = dg_from d' -> 1024 <= length (dg_bytes d) -> 1024 <= length (dg_bytes d') -> received_line (trunc1024 d) = received_line (trunc1024 d')).
Proof.
  split.
  - intros a b b' E. unfold received_line, taken_line. cbn [fst snd]. rewrite E. split; reflexivity.
  - intros d d' E H1 H2. unfold received_line, trunc1024. cbn [fst snd]. rewrite E, !firstn_length, !Nat.min_l by assumption. reflexivity.
Qed.
