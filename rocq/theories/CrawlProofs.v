(** CrawlProofs.v -- lemmas for C109. *)
From Verif Require Import Base GoLib Bencode BencodeSpec Types TypesPf Node NodePf RouteTable RouteTableProofs RouteTablePf ErrorsPf Middleware Krpc KrpcSpec Dht DhtSpec Conc ConcSpec ConcProofs ConcPf CrawlSpec.
Local Open Scope list_scope.

(** ** Address texts *)
Lemma split_char (c : byte) (a b x y : bytes) : ~ In c a -> ~ In c b -> a ++ c :: x = b ++ c :: y -> a = b /\ x = y.
Proof.
  revert b. induction a as [|d a IH]; intros [|d' b] Ha Hb E; cbn in E.
  - injection E as E. auto.
  - injection E as <- _. elim Hb. left. reflexivity.
  - injection E as -> _. elim Ha. left. reflexivity.
  - injection E as <- E. destruct (IH b) as [-> ->]; auto; intros H; [apply Ha|apply Hb]; right; exact H.
Qed.
Definition v4_text (a b c d : byte) : bytes :=
  utoa (bval a) ++ "."%char :: utoa (bval b) ++ "."%char :: utoa (bval c) ++ "."%char :: utoa (bval d).
Lemma v4_text_no_colon a b c d : existsb (fun x => Ascii.eqb x ":") (v4_text a b c d) = false.
Proof.
  unfold v4_text. assert (H : forall n, existsb (fun x => Ascii.eqb x ":") (utoa n) = false).
  { intros n. destruct (existsb _ _) eqn:E; [|reflexivity]. apply existsb_exists in E as (c0 & Hin & Hc). apply Ascii.eqb_eq in Hc. subst. elim (utoa_no ":" n eq_refl Hin). }
  repeat (rewrite existsb_app; cbn [existsb]). rewrite !H. reflexivity.
Qed.
Lemma v4_addr_text a b c d p : addr_string (mkaddr [a; b; c; d] p) = v4_text a b c d ++ ":"%char :: itoa p.
Proof.
  unfold addr_string, mkaddr. cbn [ip port zone]. change (ip_string [a; b; c; d]) with (join (B ".") (map (fun b => utoa (bval b)) [a; b; c; d])).
  assert (E : join (B ".") (map (fun b => utoa (bval b)) [a; b; c; d]) = v4_text a b c d). { unfold join, v4_text. cbn [map concat]. rewrite app_nil_r, <- ?app_assoc. reflexivity. }
  rewrite E. unfold JoinHostPort. rewrite v4_text_no_colon. reflexivity.
Qed.
Definition plain (c : byte) : Prop := (N_of_ascii c < 65)%N.
Lemma plain_lower s : Forall plain s -> map lower s = s.
Proof.
  induction 1 as [|c s Hc Hs IH]; [reflexivity|]. cbn [map]. rewrite IH. f_equal. unfold lower. unfold plain in Hc.
  destruct (N.leb_spec 65 (N_of_ascii c)); [lia|reflexivity].
Qed.
Lemma plain_ascii s : Forall plain s -> ascii_string s.
Proof. intros H. eapply Forall_impl; [|exact H]. unfold plain. intros c Hc. lia. Qed.
Lemma utoa_plain n : Forall plain (utoa n).
Proof.
  eapply Forall_impl; [|apply utoa_digits]. cbn beta. intros c H. unfold is_digit in H. unfold plain. apply andb_true_iff in H as [_ H]. apply N.leb_le in H. unfold bval in H. lia.
Qed.
Lemma itoa_plain z : Forall plain (itoa z).
Proof. unfold itoa. destruct (z <? 0)%Z; [constructor; [reflexivity|]|]; apply utoa_plain. Qed.
Lemma v4_plain a b c d : Forall plain (v4_text a b c d).
Proof. unfold v4_text. repeat (apply Forall_app; split; [apply utoa_plain|constructor; [reflexivity|]]). apply utoa_plain. Qed.
Lemma addr_plain a b c d p : Forall plain (v4_text a b c d ++ ":"%char :: itoa p).
Proof. apply Forall_app. split; [apply v4_plain|]. constructor; [reflexivity|apply itoa_plain]. Qed.
Lemma plain_fold uf s t : Forall plain s -> Forall plain t -> EqualFold uf s t = true -> s = t.
Proof.
  intros Hs Ht E. destruct (C17_equal_fold_pf uf s t) as (_ & _ & H). apply (H (plain_ascii _ Hs) (plain_ascii _ Ht)) in E. rewrite !plain_lower in E by assumption. exact E.
Qed.
Lemma v4_text_inj a b c d a' b' c' d' : v4_text a b c d = v4_text a' b' c' d' -> [a; b; c; d] = [a'; b'; c'; d'].
Proof.
  unfold v4_text. intros E.
  apply split_char in E as [E1 E]; [|apply utoa_no; reflexivity..]. apply split_char in E as [E2 E]; [|apply utoa_no; reflexivity..]. apply split_char in E as [E3 E4]; [|apply utoa_no; reflexivity..].
  apply utoa_inj, bval_inj in E1, E2, E3, E4. congruence.
Qed.
Lemma no_colon_v4 a b c d : ~ In ":"%char (v4_text a b c d).
Proof. intros H. pose proof (v4_text_no_colon a b c d) as E. assert (existsb (fun x => Ascii.eqb x ":") (v4_text a b c d) = true) by (apply existsb_exists; eexists; split; [exact H|reflexivity]). congruence. Qed.
Lemma compact_shape n : compact_node n -> exists a b c d p, naddr n = mkaddr [a; b; c; d] p.
Proof.
  destruct n as [i [a p z]]. intros (_ & H2 & _ & H4). cbn [naddr ip zone port] in *. subst z.
  destruct a as [|a [|b [|c [|d [|? ?]]]]]; try discriminate H2. exists a, b, c, d, p. reflexivity.
Qed.
(** Two nodes of responses that compare equal have the same address. *)
Lemma compact_equal_addr uf m n : compact_node m -> compact_node n -> Equals uf m n = true -> naddr m = naddr n.
Proof.
  intros Hm Hn E. destruct (compact_shape _ Hm) as (a & b & c & d & p & Em). destruct (compact_shape _ Hn) as (a' & b' & c' & d' & p' & En).
  unfold Equals in E. apply andb_true_iff in E as [_ E]. rewrite Em, En, !v4_addr_text in E.
  apply plain_fold in E; [|apply addr_plain..]. apply split_char in E as [E1 E2]; [|apply no_colon_v4..]. apply v4_text_inj in E1. apply itoa_inj in E2. congruence.
Qed.
(** The crawler's own entry compares equal to none of them. *)
Lemma compact_not_self uf me p n : compact_node n -> Equals uf {| nid := me; naddr := mkaddr [] p |} n = false.
Proof.
  intros Hn. destruct (Equals _ _ _) eqn:E; [exfalso|reflexivity]. destruct (compact_shape _ Hn) as (a & b & c & d & p' & En).
  unfold Equals in E. apply andb_true_iff in E as [_ E]. cbn [naddr] in E. rewrite En, v4_addr_text in E.
  change (addr_string (mkaddr [] p)) with (":"%char :: itoa p) in E. apply plain_fold in E; [|constructor; [reflexivity|apply itoa_plain]|apply addr_plain].
  change (":"%char :: itoa p) with ([] ++ ":"%char :: itoa p) in E. apply split_char in E as [E _]; [|intros []|apply no_colon_v4].
  unfold v4_text in E. destruct (utoa (bval a)); discriminate E.
Qed.

(** ** The history *)
Lemma started e uf me local hosts cap s i v : runtime_ok e uf -> conc_reach e me local hosts cap s -> In (i, v) (k_log s) -> exists pk, In (i, EvStart pk) (k_log s).
Proof.
  intros Hrt Hr Hi. pose proof (conc_inv _ _ _ _ _ _ _ Hrt Hr) as HI.
  assert (Hlt : i < k_next s). { destruct (Nat.lt_ge_cases i (k_next s)); [assumption|]. apply evs_in in Hi. rewrite (i_fresh _ _ _ _ HI) in Hi by assumption. elim Hi. }
  destruct (i_known _ _ _ _ HI i Hlt) as [(pk & pc & Hin)|(pk & l & E & Hj)].
  - destruct (i_jobs _ _ _ _ HI _ _ _ Hin) as [_ Hj]. exists pk. apply evs_in. eapply jok_hd. exact Hj.
  - exists pk. apply evs_in. rewrite E. apply in_app_iff. left. eapply jok_hd. exact Hj.
Qed.
Lemma tried_compact e uf me local hosts cap s i n b : runtime_ok e uf -> conc_reach e me local hosts cap s -> In (i, EvAdd n b) (k_log s) -> compact_node n.
Proof.
  intros Hrt Hr Hi. destruct (started _ _ _ _ _ _ _ _ _ Hrt Hr Hi) as (pk & Hpk).
  assert (Htr : In (n, b) (tried_in (evs i (k_log s)))).
  { unfold tried_in. apply in_flat_map. exists (EvAdd n b). split; [apply evs_in; exact Hi|left; reflexivity]. }
  destruct (C89_node_lists_any_schedule_pf _ _ _ _ _ _ _ _ _ Hrt Hr Hpk) as [(E & _)|(tx & ns & rest & acc & more & txs & late & Hl & Hns & _)]; [rewrite E in Htr; elim Htr|].
  destruct Hl as (d & body & id & nodes & _ & _ & _ & _ & _ & _ & Hp). destruct (C21_parse_node_info_total_pf nodes) as (ns' & Hp' & _ & HF & _).
  assert (ns' = ns) by congruence. subst ns'. rewrite Forall_forall in HF. apply HF. rewrite <- Hns. apply in_app_iff. left. apply in_map_iff. exists (n, b). auto.
Qed.
Lemma accepted_in_log log n : In n (accepted log) <-> exists i, In (i, EvAdd n true) log.
Proof.
  unfold accepted, accepted_in, tried_in. rewrite in_map_iff. split.
  - intros ([m b] & E & H). cbn in E. subst m. apply filter_In in H as [H Hb]. cbn in Hb. subst b. apply in_flat_map in H as (v & Hv & H).
    apply in_map_iff in Hv as ([i w] & E & Hv). cbn in E. subst w. destruct v; cbn in H; try contradiction. destruct H as [H|[]]. injection H as -> ->. eauto.
  - intros (i & H). exists (n, true). split; [reflexivity|]. apply filter_In. split; [|reflexivity]. apply in_flat_map. exists (EvAdd n true). split; [|left; reflexivity].
    apply in_map_iff. exists (i, EvAdd n true). auto.
Qed.
Lemma asked_to me ns txs gs : asked me ns txs gs -> forall g, In g gs -> exists n, In n ns /\ g_to g = naddr n.
Proof.
  induction 1 as [|ns txs gs n tx g Ha IH Hto _]; intros g' Hg; [elim Hg|]. apply in_app_iff in Hg as [Hg|[<-|[]]].
  - destruct (IH _ Hg) as (m & Hm & E). exists m. split; [apply in_app_iff; auto|exact E].
  - exists n. split; [apply in_app_iff; right; left; reflexivity|exact Hto].
Qed.
Lemma contacted_accepted e uf me local hosts cap s : runtime_ok e uf -> conc_reach e me local hosts cap s -> incl (contacted (k_log s)) (map naddr (accepted (k_log s))).
Proof.
  intros Hrt Hr a Ha. unfold contacted, queries_in in Ha. apply in_map_iff in Ha as (g & <- & Hg). apply in_flat_map in Hg as (v & Hv & Hg).
  destruct v as [pk|x|g'|n ok|tx|g'|]; cbn in Hg; try contradiction. destruct Hg as [->|[]]. apply in_map_iff in Hv as ([i w] & E & Hi). cbn in E. subst w.
  destruct (started _ _ _ _ _ _ _ _ _ Hrt Hr Hi) as (pk & Hpk).
  assert (Hq : In g (queries_in (evs i (k_log s)))).
  { unfold queries_in. apply in_flat_map. exists (EvQuery g). split; [apply evs_in; exact Hi|left; reflexivity]. }
  destruct (C89_node_lists_any_schedule_pf _ _ _ _ _ _ _ _ _ Hrt Hr Hpk) as [(_ & _ & E)|(tx & ns & rest & acc & more & txs & late & _ & _ & Hacc & _ & _ & _ & Hask & _)]; [rewrite E in Hq; elim Hq|].
  destruct (asked_to _ _ _ _ Hask _ Hq) as (n & Hn & ->). apply in_map. apply accepted_in_log. exists i. apply evs_in.
  assert (Hin : In n (accepted_in (evs i (k_log s)))) by (rewrite Hacc; apply in_app_iff; auto).
  unfold accepted_in, tried_in in Hin. apply in_map_iff in Hin as ([m b] & E & H). cbn in E. subst m. apply filter_In in H as [H Hb]. cbn in Hb. subst b.
  apply in_flat_map in H as (v & Hv & H). destruct v; cbn in H; try contradiction. destruct H as [H|[]]. injection H as -> ->. exact Hv.
Qed.

(** ** One step *)
Lemma accepted_app a b : accepted (a ++ b) = accepted a ++ accepted b.
Proof. unfold accepted. rewrite map_app. apply ConcProofs.accepted_app. Qed.
Lemma step_cases e uf me cap s s' : runtime_ok e uf -> conc_step e me cap s s' ->
  (table s' = table s /\ accepted (k_log s') = accepted (k_log s)) \/
  (exists i n er, AddNode uf (table s) n = Ok (table s', er) /\ k_log s' = k_log s ++ [(i, EvAdd n (match er with None => true | Some _ => false end))]).
Proof.
  intros Hrt Hst. unfold table. destruct Hst as [pk|k l1 i pk pc l2 w' pc' v Hsplit Hs|l1 i pk l2 Hsplit|x q Hq]; cbn [k_world k_log].
  - left. rewrite accepted_app. split; [reflexivity|apply app_nil_r].
  - destruct (Hrt k) as [_ Hu]. inversion Hs; subst; cbn [send fst set_app draw_tx w_app a_rt map]; rewrite ?app_nil_r;
      try (left; split; [reflexivity|rewrite ?accepted_app; rewrite ?app_nil_r; reflexivity]).
    + right. exists i, n, None. split; [assumption|reflexivity].
    + right. exists i, n, (Some er). split; [assumption|reflexivity].
  - left. rewrite accepted_app. split; [reflexivity|apply app_nil_r].
  - left. split; reflexivity.
Qed.

Lemma reach_covered e uf me p hosts cap s : runtime_ok e uf -> length me = 20 -> conc_reach e me (mkaddr [] p) hosts cap s ->
  exists al, incl (map naddr (accepted (k_log s))) al /\
    (S (length al) <= length (stored (table s)) \/ rlast (table s) = 160 /\ length al <= length (stored (table s))).
Proof.
  intros Hrt Hme Hr. induction Hr as [w0 w Hi Hb|s s' Hr IH Hst].
  - exists []. split; [intros a []|]. left. cbn [length].
    assert (Hr0 : conc_reach e me (mkaddr [] p) hosts cap {| k_world := w; k_jobs := []; k_next := 0; k_taken := []; k_log := [] |}) by (eapply kr_start; eassumption).
    destruct (C90_table_any_schedule_pf _ _ _ _ _ _ _ Hrt Hr0) as (_ & _ & Hin & _). unfold table. destruct (stored _); [elim Hin|cbn; lia].
  - assert (Hr' : conc_reach e me (mkaddr [] p) hosts cap s') by (eapply kr_step; eassumption).
    destruct IH as (al & Hal & Hlen). destruct (step_cases _ _ _ _ _ _ Hrt Hst) as [[Et Ea]|(i & n & er & Ea & El)].
    { exists al. rewrite Et, Ea. auto. }
    destruct (C90_table_any_schedule_pf _ _ _ _ _ _ _ Hrt Hr) as (Hreach & _ & _ & Hfrom). fold (table s) in Hreach, Hfrom.
    destruct (C27_add_result_pf _ _ _ _ _ _ _ _ Hreach Ea) as (Herr & _ & Hnil & _).
    rewrite El, accepted_app. destruct er as [er|].
    { rewrite (Herr ltac:(discriminate)). change (accepted [(i, EvAdd n false)]) with (@nil ninfo). rewrite app_nil_r. exists al. auto. }
    change (accepted [(i, EvAdd n true)]) with [n]. rewrite map_app. cbn [map].
    assert (Hn : compact_node n). { eapply tried_compact; [exact Hrt|exact Hr'|]. rewrite El. apply in_app_iff. right. left. reflexivity. }
    assert (Hup : forall al', incl (map naddr (accepted (k_log s))) al' -> In (naddr n) al' -> incl (map naddr (accepted (k_log s)) ++ [naddr n]) al').
    { intros al' H1 H2 a Ha. apply in_app_iff in Ha as [Ha|[<-|[]]]; auto. }
    assert (Hcov : forall m, In m (stored (table s)) -> Equals uf m n = true -> In (naddr n) al).
    { intros m Hm He. destruct (Hfrom m Hm) as [->|(j & pk & tx & ns & _ & Hj & _)]; [rewrite compact_not_self in He by exact Hn; discriminate|].
      assert (Hcm : compact_node m) by (eapply tried_compact; [exact Hrt|exact Hr|exact Hj]). rewrite <- (compact_equal_addr uf m n Hcm Hn He). apply Hal. apply in_map. apply accepted_in_log. eauto. }
    destruct (C31_total_pf uf {| nid := me; naddr := mkaddr [] p |} 8 160) as (_ & _ & Htot). destruct (Htot _ Hreach) as (Hmono & _). destruct (Hmono n) as (t2 & e2 & E2 & Hreach' & Hle). assert (t2 = table s') by congruence. subst t2. clear E2 e2 Hmono.
    destruct (C25_table_bounded_pf _ _ _ _ _ Hreach') as (_ & Hcap & _).
    destruct (C26_no_eviction_pf _ _ _ _ _ Hreach) as [Hperm _]. destruct (Hperm _ _ _ Ea) as [P|P]; pose proof (Permutation_length P) as Hl; cbn [length] in Hl.
    + (* nothing stored: an equal node was there, or it was dropped *)
      destruct (C27_dropped_only_when_full_pf uf {| nid := me; naddr := mkaddr [] p |} 8 160 (table s) n (table s') Hreach ltac:(lia) ltac:(cbn [nid]; rewrite Hme; lia) Ea) as [(m & Hm & He)|Hfull].
      * exists al. split; [apply Hup; [exact Hal|]; eapply Hcov; [eapply Permutation_in; [exact P|exact Hm]|exact He]|]. rewrite Hl. destruct Hlen as [H|[H1 H2]]; [left; exact H|right]. split; [lia|exact H2].
      * destruct (Htot _ Hreach') as (_ & _ & _ & Hf). rewrite Hf in Hfull. injection Hfull as Hfull. apply andb_true_iff in Hfull as [Hfull _]. apply Z.leb_le in Hfull.
        destruct (Hnil eq_refl) as [(m & Hm & He)|(Hlt & _ & _)].
        -- exists al. split; [apply Hup; [exact Hal|]; eapply Hcov; [|exact He]|].
           ++ eapply Permutation_in; [exact P|]. destruct (in_bucket_nodes uf (table s') m _ (reach_inv _ _ _ _ _ Hreach') Hm) as [H _]. exact H.
           ++ rewrite Hl. destruct Hlen as [H|[H1 H2]]; [left; exact H|right]. split; [lia|exact H2].
        -- destruct Hlen as [H|[H1 _]]; [|lia]. exists (naddr n :: al). split; [apply Hup; [apply incl_tl; exact Hal|left; reflexivity]|]. right. cbn [length]. lia.
    + exists (naddr n :: al). split; [apply Hup; [apply incl_tl; exact Hal|left; reflexivity]|]. cbn [length]. rewrite Hl. destruct Hlen as [H|[H1 H2]]; [left; lia|right]. lia.
Qed.

(** ** Exhausted distances *)
Lemma self_shares me p : shared_bits me {| nid := me; naddr := p |} = 8 * length me.
Proof.
  unfold shared_bits. cbn [nid]. assert (H : forall l, lcp l l = length l). { induction l as [|x l IH]; [reflexivity|]. cbn [lcp length]. rewrite Bool.eqb_reflx, IH. reflexivity. }
  rewrite H. unfold bits_of. induction me as [|c l IH]; [reflexivity|]. cbn [map concat length]. rewrite app_length, IH. change (length (byte_bits c)) with 8. lia.
Qed.
Lemma filter_len_le {X} (f g : X -> bool) l : (forall x, In x l -> f x = true -> g x = true) -> length (filter f l) <= length (filter g l).
Proof.
  induction l as [|x l IH]; intros H; [reflexivity|]. cbn [filter]. assert (IH' : length (filter f l) <= length (filter g l)) by (apply IH; intros y Hy; apply H; right; exact Hy).
  destruct (f x) eqn:E; [rewrite (H x (or_introl eq_refl) E); cbn; lia|destruct (g x); cbn; lia].
Qed.
Lemma home_filter uf t i : Inv uf t -> i <= rlast t -> filter (fun n => Nat.eqb (solveMaxPreLen t (nid n)) i) (stored t) = bucket_nodes t i.
Proof.
  intros HI Hi. unfold stored.
  assert (H : forall a n, a + n <= S (rlast t) -> filter (fun m => Nat.eqb (solveMaxPreLen t (nid m)) i) (concat (map (bucket_nodes t) (seq a n))) = if (a <=? i) && (i <? a + n) then bucket_nodes t i else []).
  { intros a n. revert a. induction n as [|n IH]; intros a Ha; cbn [seq map concat].
    - destruct (Nat.leb_spec a i), (Nat.ltb_spec i (a + 0)); cbn; try reflexivity; lia.
    - rewrite filter_app, IH by lia.
      assert (E : filter (fun m => Nat.eqb (solveMaxPreLen t (nid m)) i) (bucket_nodes t a) = if Nat.eqb a i then bucket_nodes t a else []).
      { destruct (inv_in _ _ HI a ltac:(lia)) as (b & Hb & _ & _ & Hbp & _). unfold bucket_nodes. rewrite Hb. clear - Hbp.
        induction Hbp as [|x l Hx Hl IHl]; [destruct (Nat.eqb a i); reflexivity|]. cbn [filter]. rewrite Hx, IHl. destruct (Nat.eqb a i); reflexivity. }
      rewrite E. destruct (Nat.eqb_spec a i) as [->|Hne].
      + destruct (Nat.leb_spec (S i) i); [lia|]. destruct (Nat.leb_spec i i), (Nat.ltb_spec i (i + S n)); try lia. cbn. apply app_nil_r.
      + cbn [app]. destruct (Nat.leb_spec (S a) i), (Nat.leb_spec a i), (Nat.ltb_spec i (S a + n)), (Nat.ltb_spec i (a + S n)); cbn; try reflexivity; lia. }
  rewrite H by lia. destruct (Nat.ltb_spec i (0 + S (rlast t))); [reflexivity|lia].
Qed.
Lemma held_bucket uf me p t i : rt_reach uf {| nid := me; naddr := p |} 8 160 t -> length me = 20 -> i < 160 ->
  length (filter (fun n => Nat.eqb (shared_bits me n) i) (stored t)) = 8 -> i < rlast t /\ length (bucket_nodes t i) = 8.
Proof.
  intros Hr Hme Hi H. pose proof (reach_inv _ _ _ _ _ Hr) as HI. set (host := {| nid := me; naddr := p |}) in *.
  assert (Hs : forall n, solveMaxPreLen t (nid n) = Nat.min (shared_bits me n) (rlast t)) by (intros n; exact (smpl_lcp uf host 8 160 t (nid n) Hr)).
  destruct (C25_table_bounded_pf _ _ _ _ _ Hr) as (Hb & _). change (Z.to_nat 8) with 8 in Hb.
  assert (Hlt : i < rlast t).
  { destruct (Nat.lt_ge_cases i (rlast t)) as [|Hge]; [assumption|exfalso]. destruct (C26_no_eviction_pf _ _ _ _ _ Hr) as [_ Hself]. specialize (Hself ltac:(lia)).
    pose proof (home_filter uf t (rlast t) HI (Nat.le_refl _)) as E. specialize (Hb (rlast t)). rewrite <- E in Hb.
    assert (Hsb : shared_bits me host = 160) by (unfold host; rewrite self_shares, Hme; reflexivity).
    destruct (in_split _ _ Hself) as (l1 & l2 & Es). rewrite Es in H, Hb. rewrite filter_app, app_length in H, Hb. cbn [filter] in H, Hb. rewrite Hs, Hsb in Hb.
    destruct (Nat.eqb_spec 160 i); [lia|]. assert (Hrl : Nat.min 160 (rlast t) = rlast t) by lia. rewrite Hsb in H. destruct (Nat.eqb_spec 160 i); [lia|].
    destruct (Nat.eqb_spec (Nat.min 160 (rlast t)) (rlast t)) as [_|]; [|lia]. cbn [length] in Hb.
    assert (Hf : forall l, length (filter (fun n => Nat.eqb (shared_bits me n) i) l) <= length (filter (fun n => Nat.eqb (solveMaxPreLen t (nid n)) (rlast t)) l)).
    { intros l. apply filter_len_le. intros x _ Hx. apply Nat.eqb_eq in Hx. rewrite Hs. apply Nat.eqb_eq. lia. }
    pose proof (Hf l1). pose proof (Hf l2). lia. }
  split; [exact Hlt|]. rewrite <- (home_filter uf t i HI ltac:(lia)). specialize (Hb i). rewrite <- (home_filter uf t i HI ltac:(lia)) in Hb.
  assert (length (filter (fun n => Nat.eqb (shared_bits me n) i) (stored t)) <= length (filter (fun n => Nat.eqb (solveMaxPreLen t (nid n)) i) (stored t))); [|lia].
  apply filter_len_le. intros x _ Hx. apply Nat.eqb_eq in Hx. rewrite Hs, Hx. apply Nat.eqb_eq. lia.
Qed.
(** A node sharing that many bits is refused, and the table stays. *)
Lemma full_refuses uf me p t n t' er : rt_reach uf {| nid := me; naddr := p |} 8 160 t -> AddNode uf t n = Ok (t', er) ->
  shared_bits me n < rlast t -> length (bucket_nodes t (shared_bits me n)) = 8 -> er <> None.
Proof.
  intros Hr Ea Hlt Hlen. destruct (C27_add_result_pf _ _ _ _ _ _ _ _ Hr Ea) as (_ & Hiff & _). apply Hiff. cbn [nid].
  change (lcp (bits_of (nid n)) (bits_of me)) with (shared_bits me n). rewrite Nat.min_l by lia. split; [lia|]. right. left. exact Hlt.
Qed.

(** ** Queries against accepted nodes *)
Definition asking (j : nat * packet * jpc) : bool := match snd j with JDraw _ _ | JPut _ _ _ | JQuery _ _ _ => true | _ => false end.
Lemma contacted_app a b : contacted (a ++ b) = contacted a ++ contacted b.
Proof. unfold contacted. rewrite map_app, queries_app, map_app. reflexivity. Qed.
Lemma queries_le_accepted e me local hosts cap s : conc_reach e me local hosts cap s ->
  length (contacted (k_log s)) + length (filter asking (k_jobs s)) <= length (accepted (k_log s)).
Proof.
  intros Hr. induction Hr as [w0 w Hi Hb|s s' Hr IH Hst]; [cbn; lia|].
  assert (Hf : forall l1 j l2, length (filter asking (l1 ++ j :: l2)) = length (filter asking (l1 ++ l2)) + (if asking j then 1 else 0)).
  { intros l1 j l2. rewrite !filter_app, !app_length. cbn [filter]. destruct (asking j); cbn [length]; lia. }
  destruct Hst as [pk|k l1 i pk pc l2 w' pc' v Hsplit Hs|l1 i pk l2 Hsplit|x q Hq]; cbn [k_log k_jobs].
  - rewrite accepted_app, contacted_app, filter_app, !app_length. cbn. lia.
  - rewrite accepted_app, contacted_app, !app_length. rewrite Hsplit in IH. rewrite Hf in IH |- *.
    assert (Hst0 : asking (i, pk, start_pc (e k) me pk) = false).
    { destruct (start_cases (e k) me pk) as [E|? ? ? ? E|? ? ? E|? ? ? ? E]; rewrite E; reflexivity. }
    assert (Hlk : forall o b, asking (i, pk, look_pc o b) = false).
    { intros o b. unfold look_pc. destruct o as [req|]; [|reflexivity]. destruct (rq_handler req) as [[]|]; try reflexivity. destruct (beq _ _); [|reflexivity]. destruct (bind _ _); reflexivity. }
    inversion Hs; subst; rewrite ?Hst0, ?Hlk; cbn [asking snd map] in *; try (change (accepted []) with (@nil ninfo); change (contacted []) with (@nil udpaddr); cbn [length]; lia); cbn; lia.
  - rewrite accepted_app, contacted_app, !app_length. rewrite Hsplit, Hf in IH. cbn in *. lia.
  - exact IH.
Qed.

(** ** A full table *)
Lemma concat_full {X} (f : nat -> list X) k n : (forall i, length (f i) <= k) -> forall a, length (concat (map f (seq a n))) = k * n -> forall i, a <= i < a + n -> length (f i) = k.
Proof.
  intros Hk. induction n as [|n IH]; intros a H i Hi; [lia|]. cbn [seq map concat] in H. rewrite app_length in H.
  pose proof (concat_len_bound f k n Hk (S a)) as Hb. pose proof (Hk a) as Ha.
  destruct (Nat.eq_dec i a) as [->|Hne]; [lia|]. apply (IH (S a)); lia.
Qed.
Lemma full_table uf host t : rt_reach uf host 8 160 t -> length (stored t) = 8 * 161 -> rlast t = 160 /\ forall i, i <= 160 -> length (bucket_nodes t i) = 8.
Proof.
  intros Hr H. destruct (C25_table_bounded_pf _ _ _ _ _ Hr) as (Hb & Hcap & _). change (Z.to_nat 8) with 8 in Hb.
  unfold stored in H. pose proof (concat_len_bound _ _ (S (rlast t)) Hb 0) as Hle. assert (E : rlast t = 160) by lia. split; [exact E|].
  intros i Hi. apply (concat_full (bucket_nodes t) 8 (S (rlast t)) Hb 0); [rewrite H, E; reflexivity|lia].
Qed.
Lemma full_refuses_all uf host t n t' er : rt_reach uf host 8 160 t -> length (stored t) = 8 * 161 -> AddNode uf t n = Ok (t', er) -> er <> None /\ t' = t.
Proof.
  intros Hr H Ea. destruct (full_table _ _ _ Hr H) as [El Hb]. destruct (C27_add_result_pf _ _ _ _ _ _ _ _ Hr Ea) as (Heq & Hiff & _).
  assert (He : er <> None). { apply Hiff. split; [rewrite Hb by lia; reflexivity|]. right. right. lia. }
  split; [exact He|apply Heq; exact He].
Qed.

(** ** Nodes that are in the table already *)
Definition known_node (t : rtable) (n : ninfo) : Prop := In n (bucket_nodes t (solveMaxPreLen t (nid n))) /\ length (bucket_nodes t (solveMaxPreLen t (nid n))) < 8.
Lemma add_known uf host t n : rt_reach uf host 8 160 t -> known_node t n -> AddNode uf t n = Ok (set_size t (rsize t + 1), None).
Proof.
  intros Hr [Hin Hlt]. pose proof (reach_inv _ _ _ _ _ Hr) as HI. destruct (reach_conf _ _ _ _ _ Hr) as (_ & Hk & _).
  set (h := solveMaxPreLen t (nid n)) in *. assert (Hh : h <= rlast t) by apply smpl_le. destruct (inv_in _ _ HI h Hh) as (b & Hb & Hcap & _).
  unfold bucket_nodes in Hin, Hlt. rewrite Hb in Hin, Hlt.
  assert (Hex : bExist uf b n = true). { unfold bExist. apply existsb_exists. exists n. split; [exact Hin|apply Equals_refl]. }
  assert (Hnf : bFull b = false). { unfold bFull, bSize. rewrite Hcap, Hk. change (Z.to_nat 8) with 8. apply Nat.leb_gt. exact Hlt. }
  unfold AddNode. fold h. destruct (Z.to_nat (rcapacity t - Z.of_nat (rlast t))); cbn [addNode]; unfold bget; rewrite Hb; cbn [bind]; rewrite Hex, Hnf; cbn [negb]; rewrite !andb_false_r; reflexivity.
Qed.
Lemma size_same t z : stored (set_size t z) = stored t /\ (forall n, known_node (set_size t z) n <-> known_node t n).
Proof. split; reflexivity. Qed.
Lemma known_run e me cap pk host (He : env_ok e) ns : forall w, rt_reach (e_uf e) host 8 160 (a_rt (w_app w)) -> Forall (known_node (a_rt (w_app w))) ns ->
  exists w' v, job_run e me cap pk w (JAdd ns) w' JEnd v /\ map g_to (queries_in v) = map naddr ns /\ accepted_in v = ns /\ length (drawn_in v) = length ns /\
    (forall tx, In tx (drawn_in v) -> w_reqs w' tx <> None) /\ (forall tx, w_reqs w tx <> None -> w_reqs w' tx <> None) /\
    stored (a_rt (w_app w')) = stored (a_rt (w_app w)) /\ (forall n, known_node (a_rt (w_app w)) n -> known_node (a_rt (w_app w')) n) /\ a_queue (w_app w') = a_queue (w_app w) /\ (forall p, ~ In (EvStart p) v).
Proof.
  induction ns as [|n ns IH]; intros w Hr Hk.
  - exists w, []. split; [apply jr_one; constructor|]. cbn. split; [reflexivity|]. split; [reflexivity|]. split; [reflexivity|]. split; [intros tx []|]. split; [auto|]. split; [reflexivity|]. split; [auto|]. split; [reflexivity|]. intros p [].
  - inversion Hk as [|? ? Hn Hns]; subst. pose proof (add_known _ _ _ _ Hr Hn) as Ea. set (t1 := set_size (a_rt (w_app w)) (rsize (a_rt (w_app w)) + 1)) in *.
    set (w1 := set_app w {| a_rt := t1; a_tx := a_tx (w_app w); a_queue := a_queue (w_app w) |}).
    set (tx1 := txid_string (a_tx (w_app (draw_tx w1)))).
    set (wp := {| w_app := w_app (draw_tx w1); w_reqs := mput (w_reqs (draw_tx w1)) tx1 (find_msg me tx1); w_sent := w_sent (draw_tx w1); w_queries := w_queries (draw_tx w1) ++ [find_msg me tx1] |}).
    destruct (find_encodes e me wp tx1 He) as (bs & Eb & _). set (w2 := fst (send e wp bs (naddr n))).
    assert (Hr1 : rt_reach (e_uf e) host 8 160 t1) by (eapply rtr_add; [exact Hr|exact Ea]).
    destruct (IH w2 Hr1) as (w' & v & Hrun & Hq & Ha & Hd & Hdk & Hm & Hst & Hkn & Hqu & Hns0).
    { eapply Forall_impl; [|exact Hns]. intros m Hm. exact Hm. }
    exists w', ([EvAdd n true] ++ [EvDraw tx1] ++ [] ++ [EvQuery {| g_bytes := bs; g_to := naddr n |}] ++ v).
    assert (Hmono : forall tx, w_reqs w tx <> None -> w_reqs w2 tx <> None).
    { intros tx Htx. unfold w2, wp. cbn [send fst w_reqs]. unfold mput. destruct (beq _ _); [discriminate|exact Htx]. }
    split. { eapply jr_step; [eapply js_add; exact Ea|]. eapply jr_step; [apply js_draw|]. eapply jr_step; [apply js_put|]. eapply jr_step; [apply js_query; exact Eb|]. exact Hrun. }
    change (queries_in ([EvAdd n true] ++ [EvDraw tx1] ++ [] ++ [EvQuery {| g_bytes := bs; g_to := naddr n |}] ++ v)) with ({| g_bytes := bs; g_to := naddr n |} :: queries_in v).
    change (accepted_in ([EvAdd n true] ++ [EvDraw tx1] ++ [] ++ [EvQuery {| g_bytes := bs; g_to := naddr n |}] ++ v)) with (n :: accepted_in v).
    change (drawn_in ([EvAdd n true] ++ [EvDraw tx1] ++ [] ++ [EvQuery {| g_bytes := bs; g_to := naddr n |}] ++ v)) with (tx1 :: drawn_in v).
    cbn [map length g_to]. rewrite Hq, Ha, Hd. split; [reflexivity|]. split; [reflexivity|]. split; [reflexivity|]. split.
    { intros tx [<-|Htx]; [|apply Hdk; exact Htx]. apply Hm. unfold w2, wp. cbn [send fst w_reqs]. unfold mput. rewrite beq_refl. discriminate. }
    split; [intros tx Htx; apply Hm, Hmono, Htx|]. split; [exact Hst|]. split; [intros m Hm0; apply Hkn; exact Hm0|]. split; [exact Hqu|]. intros p [E|[E|[E|Hp]]]; try discriminate E. elim (Hns0 _ Hp).
Qed.
(** A response to a query of the crawler that lists known nodes, handled without interruption. *)
Lemma known_answer e uf me local hosts cap s pk tx ns : runtime_ok e uf -> conc_reach e me local hosts cap s -> lists_nodes pk tx ns -> w_reqs (k_world s) tx <> None ->
  Forall (known_node (table s)) ns ->
  exists s' v, conc_steps e me cap s s' /\ k_next s' = S (k_next s) /\ k_jobs s' = k_jobs s /\ k_log s' = k_log s ++ map (pair (k_next s)) (EvStart pk :: v ++ [EvEnd]) /\
    map g_to (queries_in v) = map naddr ns /\ accepted_in v = ns /\ length (drawn_in v) = length ns /\
    (forall tx, In tx (drawn_in v) -> w_reqs (k_world s') tx <> None) /\ (forall tx, w_reqs (k_world s) tx <> None -> w_reqs (k_world s') tx <> None) /\
    stored (table s') = stored (table s) /\ (forall n, known_node (table s) n -> known_node (table s') n) /\ (forall p, ~ In (EvStart p) v).
Proof.
  intros Hrt Hr Hl Hn Hk. pose proof (conc_inv _ _ _ _ _ _ _ Hrt Hr) as HI. destruct (i_shared _ _ _ _ HI) as [Htab Hreach]. destruct (Hrt 0) as [He Hu]. rewrite <- Hu in Hreach.
  destruct (known_run (e 0) me cap pk _ He ns (k_world s) Hreach Hk) as (w' & v & Hrun & Hq & Ha & Hd & Hdk & Hm & Hst & Hkn & _ & Hns0).
  destruct (start_lists (e 0) me pk tx ns Hl) as (body & Es & Hb). pose proof (look_lists me (k_world s) tx body pk ns Htab Hl Hb Hn) as El.
  assert (Hrun' : job_run (e 0) me cap pk (k_world s) JStart w' JEnd v).
  { rewrite <- (app_nil_l v). eapply jr_step; [apply js_start|]. rewrite Es. rewrite <- (app_nil_l v). eapply jr_step; [apply js_look|]. rewrite El. exact Hrun. }
  set (s1 := {| k_world := k_world s; k_jobs := k_jobs s ++ [(k_next s, pk, JStart)]; k_next := S (k_next s); k_taken := k_taken s; k_log := k_log s ++ [(k_next s, EvStart pk)] |}).
  pose proof (run_steps e 0 me cap pk _ _ _ _ _ Hrun' s1 (k_jobs s) (k_next s) [] eq_refl eq_refl) as Hsteps.
  eexists _, v. split; [eapply kst_step; [eapply steps_cons; [apply (ks_begin e me cap s pk)|exact Hsteps]|eapply ks_end; reflexivity]|].
  cbn [k_next k_jobs k_log k_world s1]. unfold table. cbn [k_world]. rewrite app_nil_r. split; [reflexivity|]. split; [reflexivity|].
  split; [cbn [map]; rewrite map_app, <- !app_assoc; reflexivity|]. auto 11.
Qed.
