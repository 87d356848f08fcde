(** UdpProofs.v -- invariants of the receive pipeline. *)
From Verif Require Import Base Node BytesPool BytesPoolPf Udp UdpSpec.
Local Open Scope list_scope.

Definition shown (h : heap) (p : rpkt) : udpaddr * bytes := (k_addr p, h_read h (k_buf p)).
Definition recv_pkts (s : udp) : list rpkt := match u_recv s with RvSend p => [p] | _ => [] end.
Definition listen_pkts (s : udp) : list rpkt := match u_listen s with LvSubmit p => [p] | _ => [] end.
Definition start_of (w : wvpc) : list rpkt := match w with WvStart p => [p] | _ => [] end.
Definition start_pkts (s : udp) : list rpkt := flat_map start_of (u_work s).
Definition is_body (w : wvpc) : bool := match w with WvBody _ _ => true | _ => false end.
Definition bodies (s : udp) : nat := length (filter is_body (u_work s)).

Definition good (h : heap) (b : slc) : Prop :=
  (s_arr b < h_next h)%nat /\ s_off b = 0%Z /\ s_cap b = 1024%Z /\ length (h_data h (s_arr b)) = 1024%nat.

Definition bufs (s : udp) : list slc := in_flight s ++ pooled (u_pool s).
Definition bufs_ok (h : heap) (l : list slc) : Prop := NoDup (map s_arr l) /\ Forall (good h) l.

Lemma bufs_ok_perm h l l' : Permutation l l' -> bufs_ok h l -> bufs_ok h l'.
Proof.
  intros HP [H1 H2]. split.
  - eapply Permutation_NoDup; [apply Permutation_map; exact HP|exact H1].
  - eapply Permutation_Forall; eassumption.
Qed.
Lemma bufs_ok_tail h b l : bufs_ok h (b :: l) -> bufs_ok h l.
Proof. intros [H1 H2]. inversion H1; inversion H2; subst. split; assumption. Qed.
Lemma bufs_ok_replace h b b' l : s_arr b' = s_arr b -> good h b' -> bufs_ok h (b :: l) -> bufs_ok h (b' :: l).
Proof.
  intros Ha Hg [H1 H2]. inversion H2; subst. split; [|constructor; assumption]. cbn [map] in *. rewrite Ha. exact H1.
Qed.

Lemma set_other h a d l : (forall b, In b l -> s_arr b <> a) -> Forall (good h) l -> Forall (good (h_set h a d)) l.
Proof.
  intros Hn HF. rewrite Forall_forall in *. intros b Hb. destruct (HF b Hb) as (G1 & G2 & G3 & G4). unfold good. cbn.
  destruct (Nat.eqb_spec (s_arr b) a) as [E|E]; [exfalso; exact (Hn b Hb E)|]. auto.
Qed.
Lemma read_other h a d b : s_arr b <> a -> h_read (h_set h a d) b = h_read h b.
Proof. intros H. unfold h_read. cbn. destruct (Nat.eqb_spec (s_arr b) a); [contradiction|reflexivity]. Qed.
Lemma shown_other h a d l : (forall p, In p l -> s_arr (k_buf p) <> a) -> map (shown (h_set h a d)) l = map (shown h) l.
Proof. intros H. apply map_ext_in. intros p Hp. unfold shown. rewrite read_other; [reflexivity|auto]. Qed.

(** Reading into a whole buffer. *)
Lemma read_into_spec h b d h' n : good h b -> s_len b = 1024%Z -> read_into h b d = (h', n) ->
  n = Nat.min 1024 (length d) /\ (exists dd, h' = h_set h (s_arr b) dd /\ length dd = 1024%nat) /\
  h_read h' (reslice b n) = firstn 1024 d.
Proof.
  intros (G1 & G2 & G3 & G4) Hl E. unfold read_into in E. rewrite Hl, G2 in E. change (Z.to_nat 1024) with 1024%nat in E. change (Z.to_nat 0) with 0%nat in E.
  change (firstn 0 (h_data h (s_arr b))) with (@nil ascii) in E.
  assert (Ln : length (firstn 1024 d) = Nat.min 1024 (length d)) by apply firstn_length.
  remember (firstn 1024 d) as got eqn:Eg. cbn [app Nat.add] in E. injection E as <- <-.
  split; [exact Ln|]. split.
  - eexists. split; [reflexivity|]. rewrite app_length, skipn_length, G4, Ln. lia.
  - unfold h_read, reslice. cbn [s_arr s_off s_len]. rewrite G2. change (Z.to_nat 0) with 0%nat. cbn [skipn h_set h_data].
    rewrite Nat.eqb_refl, Nat2Z.id, firstn_app, Nat.sub_diag, firstn_all, firstn_O. apply app_nil_r.
Qed.
#[global] Arguments read_into : simpl never.

Record uinv (tr : list uev) (s : udp) : Prop := {
  ui_pool : pinv 10000 100 (u_pool s);
  ui_bufs : bufs_ok (u_heap s) (bufs s);
  ui_len : match u_recv s with RvRead b => s_len b = 1024%Z | _ => True end;
  ui_order : map trunc1024 (reads tr) = takes tr ++ map (shown (u_heap s)) (u_q s ++ recv_pkts s);
  ui_parse : Permutation (takes tr) (parses tr ++ map (shown (u_heap s)) (listen_pkts s ++ start_pkts s));
  ui_strs : forall p str, In (WvBody p str) (u_work s) -> str = h_read (u_heap s) (k_buf p);
  ui_cap : (length (u_q s) <= RecvChanLen)%nat;
  ui_dones : dones tr + bodies s = length (parses tr) }.

Lemma reads_app a b : reads (a ++ b) = reads a ++ reads b. Proof. apply flat_map_app. Qed.
Lemma takes_app a b : takes (a ++ b) = takes a ++ takes b. Proof. apply flat_map_app. Qed.
Lemma parses_app a b : parses (a ++ b) = parses a ++ parses b. Proof. apply flat_map_app. Qed.
Lemma dones_app a b : dones (a ++ b) = dones a + dones b. Proof. unfold dones. rewrite filter_app, app_length. reflexivity. Qed.

Lemma in_bufs_recv s b : In b (recv_bufs s) -> In b (bufs s).
Proof. intros H. unfold bufs, in_flight. rewrite !in_app_iff. auto. Qed.
Lemma in_bufs_q s p : In p (u_q s) -> In (k_buf p) (bufs s).
Proof. intros H. unfold bufs, in_flight. rewrite !in_app_iff. left. right. left. apply in_map. exact H. Qed.

(** All packets in flight other than the one the receive loop holds. *)
Definition rest_pkts (s : udp) : list rpkt := u_q s ++ listen_pkts s ++ map wpkt (u_work s).
Lemma rest_bufs s : map k_buf (u_q s) ++ listen_bufs s ++ work_bufs s = map k_buf (rest_pkts s).
Proof.
  unfold rest_pkts, listen_bufs, listen_pkts, work_bufs. rewrite !map_app, map_map. f_equal. f_equal. destruct (u_listen s); reflexivity.
Qed.
Lemma bufs_eq s : bufs s = recv_bufs s ++ map k_buf (rest_pkts s) ++ pooled (u_pool s).
Proof. unfold bufs, in_flight. rewrite <- app_assoc, rest_bufs. reflexivity. Qed.

Lemma start_in_rest s p : In p (start_pkts s) -> In p (rest_pkts s).
Proof.
  unfold start_pkts, rest_pkts. rewrite in_flat_map. intros (w & Hw & Hp). rewrite !in_app_iff. right. right. apply in_map_iff.
  exists w. split; [|exact Hw]. destruct w; cbn in Hp; [destruct Hp as [->|[]]; reflexivity|contradiction].
Qed.

Lemma uinv_start h : uinv [] (StartUdpServer h).
Proof.
  constructor; cbn; auto.
  - unfold pinv, krpcBytesPool. cbn [p_width p_max p_chans]. split; [reflexivity|]. split; [reflexivity|]. intros w. cbn [chan_of].
    destruct (100 =? w)%Z; cbn; (split; [constructor|lia]).
  - split; constructor.
  - intros p str [].
  - unfold RecvChanLen. lia.
Qed.

Ltac evs := rewrite ?reads_app, ?takes_app, ?parses_app, ?dones_app; cbn [reads takes parses dones flat_map filter length app]; rewrite ?app_nil_r, ?Nat.add_0_r.

Ltac ucbn := cbn [u_set_recv u_set_work u_set_close u_pool u_heap u_recv u_q u_listen u_work u_closed u_sock u_lock u_closers].
Ltac csimp := constructor; evs; rewrite ?bufs_eq in *; unfold recv_bufs, rest_pkts, recv_pkts, listen_pkts, start_pkts, bodies in *; ucbn.
Lemma uinv_step tr s e s' : uinv tr s -> udp_step s e s' -> uinv (tr ++ [e]) s'.
Proof.
  intros [Ip Ib Il Io Iq Is Ic Id] Hs.
  destruct Hs as [Er Ec|Er Ec|p h b Er Eg|b d h n Er Ek Ei|b Er|p Er Hl|p q El Eq|p El|l1 p l2 Ew|l1 p str l2 Ew|Ec|Ec|l1 l2 Ek El|l1 l2 Ek|l1 l2 Ek].
  - csimp; rewrite ?Er in *; cbn [app] in *; rewrite ?app_nil_r in *; auto.
  - csimp; rewrite ?Er in *; cbn [app] in *; rewrite ?app_nil_r in *; auto.
  - (* get *)
    pose proof (getbysize_pinv _ _ _ _ _ _ _ _ Ip Eg) as (Ip' & Lb & Cb).
    assert (Hfresh : (h = u_heap s /\ Permutation (pooled (u_pool s)) (b :: pooled p)) \/
                     (p = u_pool s /\ h_alloc (u_heap s) RecvPacketLen = (h, b))).
    { unfold GetBySize in Eg. destruct (chan_of (p_chans (u_pool s)) RecvPacketLen) as [|x r] eqn:Ech.
      - change (RecvPacketLen <? 0)%Z with false in Eg. cbv iota in Eg. destruct (h_alloc (u_heap s) RecvPacketLen) as [h1 b1] eqn:Ea. injection Eg as <- <- <-. right. auto.
      - injection Eg as <- <- <-. left. split; [reflexivity|]. unfold pooled. cbn [p_chans]. eapply chan_upd_perm_pop. exact Ech. }
    rewrite bufs_eq in Ib. unfold recv_bufs in Ib. rewrite Er in Ib. cbn [app] in Ib.
    destruct Hfresh as [[-> HP]|[-> Ea]].
    + constructor; evs; unfold recv_pkts, listen_pkts, start_pkts, bodies in *; ucbn; rewrite ?Er in *; rewrite ?app_nil_r in *; auto.
      rewrite bufs_eq. unfold recv_bufs, rest_pkts. ucbn; cbn [app]. eapply bufs_ok_perm; [|exact Ib]. unfold rest_pkts, listen_pkts.
      eapply Permutation_trans; [apply Permutation_app_head; exact HP|]. symmetry. apply Permutation_middle.
    + unfold h_alloc in Ea. apply pair_equal_spec in Ea as [<- <-]. change (Z.to_nat RecvPacketLen) with 1024%nat.
      assert (Hold : forall x, In x (map k_buf (rest_pkts s) ++ pooled (u_pool s)) -> (s_arr x < h_next (u_heap s))%nat).
      { intros x Hx. destruct Ib as [_ HF]. rewrite Forall_forall in HF. apply HF in Hx. apply Hx. }
      assert (Hsh : forall l, (forall x, In x l -> In x (rest_pkts s)) ->
                map (shown {| h_next := S (h_next (u_heap s)); h_data := fun a => if (a =? h_next (u_heap s))%nat then repeat (byte_of 0) 1024 else h_data (u_heap s) a |}) l = map (shown (u_heap s)) l).
      { intros l Hin. apply map_ext_in. intros x Hx. unfold shown, h_read. cbn [h_data].
        destruct (Nat.eqb_spec (s_arr (k_buf x)) (h_next (u_heap s))) as [E|E]; [|reflexivity].
        exfalso. specialize (Hold (k_buf x)). rewrite in_app_iff in Hold. specialize (Hold (or_introl (in_map _ _ _ (Hin x Hx)))). lia. }
      assert (Hst : forall p0 str, In (WvBody p0 str) (u_work s) -> h_read {| h_next := S (h_next (u_heap s)); h_data := fun a => if (a =? h_next (u_heap s))%nat then repeat (byte_of 0) 1024 else h_data (u_heap s) a |} (k_buf p0) = h_read (u_heap s) (k_buf p0)).
      { intros p0 str Hin. specialize (Hsh [p0]). cbn [map] in Hsh. assert (Hi : forall x, In x [p0] -> In x (rest_pkts s)).
        { intros x [<-|[]]. unfold rest_pkts. rewrite !in_app_iff. right. right. apply in_map_iff. exists (WvBody p0 str). auto. }
        specialize (Hsh Hi). unfold shown in Hsh. congruence. }
      constructor; evs; ucbn; unfold recv_pkts, listen_pkts, start_pkts, bodies in *;
        ucbn; rewrite ?Er in *; rewrite ?app_nil_r in *; auto.
      * rewrite bufs_eq. unfold recv_bufs, rest_pkts, listen_pkts. ucbn; cbn [app].
        destruct Ib as [I1 I2]. unfold rest_pkts, listen_pkts in *. split.
        -- cbn [map s_arr]. constructor; [|exact I1]. intros Hin. apply in_map_iff in Hin as (x & Ex & Hx). specialize (Hold x Hx). lia.
        -- constructor.
           ++ unfold good. cbn [s_arr s_off s_cap h_next h_data]. rewrite Nat.eqb_refl. split; [lia|]. split; [reflexivity|]. split; [reflexivity|]. apply repeat_length.
           ++ rewrite Forall_forall in *. intros x Hx. destruct (I2 x Hx) as (G1 & G2 & G3 & G4). unfold good. cbn [h_next h_data].
              destruct (Nat.eqb_spec (s_arr x) (h_next (u_heap s))); [lia|]. repeat split; try assumption. lia.
      * rewrite Hsh; [exact Io|]. intros x Hx. unfold rest_pkts. rewrite in_app_iff. auto.
      * rewrite Hsh; [exact Iq|]. intros x Hx. apply in_app_iff in Hx as [Hx|Hx]; [unfold rest_pkts, listen_pkts; rewrite !in_app_iff; auto|apply start_in_rest; exact Hx].
      * intros p0 str Hin. rewrite (Hst _ _ Hin). auto.
  - (* read *)
    rewrite bufs_eq in Ib. unfold recv_bufs in Ib. rewrite Er in Ib, Il. cbn [app] in Ib.
    assert (Hg : good (u_heap s) b) by (destruct Ib as [_ HF]; inversion HF; assumption).
    destruct (read_into_spec _ _ _ _ _ Hg Il Ei) as (Hn & (dd & -> & Ld) & Hr).
    assert (Hne : forall x, In x (map k_buf (rest_pkts s) ++ pooled (u_pool s)) -> s_arr x <> s_arr b).
    { intros x Hx E. destruct Ib as [HN _]. cbn [map] in HN. inversion HN; subst. apply H1. rewrite <- E. apply in_map. exact Hx. }
    assert (Hne' : forall x, In x (rest_pkts s) -> s_arr (k_buf x) <> s_arr b).
    { intros x Hx. apply Hne. apply in_app_iff. left. apply in_map. exact Hx. }
    constructor; evs; ucbn; unfold recv_pkts, listen_pkts, start_pkts, bodies in *;
      ucbn; rewrite ?Er in *; rewrite ?app_nil_r in *; auto.
    + rewrite bufs_eq. unfold recv_bufs, rest_pkts, listen_pkts. ucbn; cbn [app k_buf].
      destruct Ib as [I1 I2]. split; [exact I1|]. inversion I2; subst. constructor.
      * destruct Hg as (G1 & G2 & G3 & G4). unfold good, reslice. cbn. rewrite Nat.eqb_refl. auto.
      * apply set_other; assumption.
    + rewrite !map_app. cbn [map].
      rewrite shown_other; [|intros x Hx; apply Hne'; unfold rest_pkts; rewrite in_app_iff; auto]. rewrite app_assoc, <- Io.
      f_equal. unfold shown, trunc1024. cbn [k_addr k_buf]. rewrite Hr. reflexivity.
    + rewrite shown_other; [exact Iq|]. intros x Hx. apply Hne'. apply in_app_iff in Hx as [Hx|Hx]; [unfold rest_pkts, listen_pkts; rewrite !in_app_iff; auto|apply start_in_rest; exact Hx].
    + intros p0 str Hin. rewrite read_other; [auto|]. apply Hne'. unfold rest_pkts. rewrite !in_app_iff. right. right. apply in_map_iff. exists (WvBody p0 str). auto.
  - (* read error *)
    rewrite bufs_eq in Ib. unfold recv_bufs in Ib. rewrite Er in Ib. cbn [app] in Ib. apply bufs_ok_tail in Ib.
    csimp; rewrite ?Er in *; cbn [app] in *; rewrite ?app_nil_r in *; auto.
  - (* send *)
    constructor; evs; unfold recv_pkts, listen_pkts, start_pkts, bodies in *; ucbn; rewrite ?Er in *; rewrite ?app_nil_r in *; auto.
    + rewrite bufs_eq in *. unfold recv_bufs, rest_pkts in *. ucbn. rewrite Er in Ib. eapply bufs_ok_perm; [|exact Ib].
      unfold listen_pkts. rewrite !map_app. cbn [map app]. rewrite <- !app_assoc. cbn [app]. apply Permutation_middle.
    + rewrite app_length. cbn [length]. lia.
  - (* take *)
    constructor; evs; unfold recv_pkts, listen_pkts, start_pkts, bodies in *; ucbn; rewrite ?El, ?Eq in *; auto.
    + rewrite bufs_eq in *. unfold recv_bufs, rest_pkts, listen_pkts in *. ucbn. rewrite El, Eq in Ib. eapply bufs_ok_perm; [|exact Ib].
      rewrite !map_app. cbn [map app]. apply Permutation_app_head. rewrite <- !app_assoc. cbn [app]. apply Permutation_middle.
    + rewrite Io. cbn [map app]. rewrite <- app_assoc. reflexivity.
    + cbn [map app] in *. rewrite Iq. rewrite <- app_assoc. apply Permutation_app_head. symmetry. apply Permutation_cons_append.
    + cbn [length] in Ic. lia.
  - (* submit *)
    constructor; evs; unfold recv_pkts, listen_pkts, start_pkts, bodies in *; ucbn; rewrite ?El in *; auto.
    + rewrite bufs_eq in *. unfold recv_bufs, rest_pkts, listen_pkts in *. ucbn. rewrite El in Ib. eapply bufs_ok_perm; [|exact Ib].
      rewrite !map_app. cbn [map app wpkt]. apply Permutation_app_head. rewrite <- !app_assoc. apply Permutation_app_head. apply Permutation_middle.
    + rewrite flat_map_app. cbn [flat_map start_of app]. rewrite Iq. apply Permutation_app_head, Permutation_map. cbn [app]. apply Permutation_cons_append.
    + intros p0 str Hin. apply in_app_iff in Hin as [Hin|[Hin|[]]]; [auto|discriminate].
    + rewrite filter_app. cbn. rewrite app_nil_r. exact Id.
  - (* parse *)
    constructor; evs; unfold recv_pkts, listen_pkts, start_pkts, bodies in *; ucbn; rewrite ?Ew in *; auto.
    + rewrite bufs_eq in *. unfold recv_bufs, rest_pkts, listen_pkts in *. ucbn. rewrite Ew in Ib. rewrite !map_app in *. cbn [map wpkt] in *. exact Ib.
    + rewrite Iq. rewrite !flat_map_app. cbn [flat_map start_of app]. rewrite !map_app. cbn [map app].
      rewrite <- app_assoc. cbn [app]. apply Permutation_app_head. rewrite !app_assoc. symmetry. apply Permutation_middle.
    + intros p0 str Hin. apply in_app_iff in Hin as [Hin|[Hin|Hin]]; [|injection Hin as <- <-; reflexivity|]; apply Is, in_app_iff; [auto|right; right; exact Hin].
    + rewrite !filter_app in *. cbn [filter is_body] in *. rewrite !app_length in *. cbn [length app] in *. rewrite <- Id. cbn [filter]. lia.
  - (* done *)
    constructor; evs; unfold recv_pkts, listen_pkts, start_pkts, bodies in *; ucbn; rewrite ?Ew in *; auto.
    + apply put_pinv. exact Ip.
    + rewrite bufs_eq in *. unfold recv_bufs, rest_pkts, listen_pkts in *. ucbn. rewrite Ew in Ib.
      assert (Ib' : bufs_ok (u_heap s) (k_buf p :: (match u_recv s with RvRead b => [b] | RvSend p1 => [k_buf p1] | _ => [] end ++
          map k_buf (u_q s ++ match u_listen s with LvTake => [] | LvSubmit p0 => [p0] end ++ map wpkt (l1 ++ l2))) ++ pooled (u_pool s))).
      { eapply bufs_ok_perm; [|exact Ib]. rewrite !map_app. cbn [map wpkt]. rewrite <- !app_assoc. symmetry.
        cbn [app]. rewrite !app_assoc. eapply Permutation_trans; [|apply Permutation_middle]. apply perm_skip. rewrite <- !app_assoc. reflexivity. }
      rewrite !app_assoc. rewrite !app_assoc in Ib'.
      destruct (put_pooled (u_pool s) (k_buf p)) as [HP | ->].
      * eapply (bufs_ok_perm _ (full_slice (k_buf p) :: _ ++ pooled (u_pool s))).
        { eapply Permutation_trans; [apply Permutation_middle|]. apply Permutation_app_head. symmetry. exact HP. }
        eapply bufs_ok_replace; [| |exact Ib']; [reflexivity|]. destruct Ib' as [_ HF]. inversion HF; subst. exact H1.
      * apply bufs_ok_tail in Ib'. exact Ib'.
    + rewrite !flat_map_app in *. cbn [flat_map start_of app] in *. exact Iq.
    + intros p0 str0 Hin. apply Is. apply in_app_iff. apply in_app_iff in Hin as [Hin|Hin]; [auto|right; right; exact Hin].
    + rewrite !filter_app in *. cbn [filter is_body] in *. rewrite !app_length in *. cbn [length app] in *. lia.
  - constructor; evs; auto.
  - csimp; auto.
  - csimp; auto.
  - csimp; auto.
  - csimp; auto.
Qed.

Lemma uinv_run h tr s : udp_run h tr s -> uinv tr s.
Proof. induction 1 as [|tr s e s' Hr IH Hs]; [apply uinv_start|eapply uinv_step; eassumption]. Qed.
