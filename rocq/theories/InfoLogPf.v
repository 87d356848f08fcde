(** InfoLogPf.v -- proofs of C108 (the info-hash log). *)
From Verif Require Import Base GoLib Bencode BencodeSpec BencodeProofs Types TypesPf Logger Node NodePf RouteTable Middleware Krpc KrpcSpec KrpcProofs KrpcPf Dht DhtSpec DhtProofs DhtPf Conc ConcSpec ConcProofs ConcPf
  FetchTorrentSpec FetchTorrentPf ZapLog ZapLogSpec ZapLogProofs ZapLogPf InfoLog InfoLogSpec InfoLogProofs.
From Coq Require Import Permutation.
Local Open Scope list_scope.

(** C108: in every schedule, the log file consists of one line for each handled packet that asks for or
    announces an info hash, naming its sender and that info hash, and of nothing else. *)
Lemma C108_log_is_exact_pf : forall e uf os me local hosts cap s, runtime_ok e uf -> orders_ok os -> lreach e os me local hosts cap s ->
  l_file s = concat (map rec_line (l_recs s)) /\ NoDup (map rec_job (l_recs s)) /\
  (forall i now en, In (i, now, en) (l_recs s) -> numeric now /\ exists pk ih po, handled (l_conc s) i pk /\ record_of pk ih po en) /\
  (forall i pk ih po, handled (l_conc s) i pk -> seeks pk ih po -> exists now en, In (i, now, en) (l_recs s) /\ record_of pk ih po en).
Proof. intros e uf os me local hosts cap s Hrt Ho Hr. destruct (lreach_inv _ _ _ _ _ _ _ _ Hrt Ho Hr) as [H1 H2 H3 H4]. auto. Qed.

(** C108: the runs with the log are the runs of the crawler. *)
Lemma C108_same_runs_pf : forall e os me local hosts cap c, conc_reach e me local hosts cap c <-> exists s, lreach e os me local hosts cap s /\ l_conc s = c.
Proof. intros e os me local hosts cap c. split; [apply conc_lreach|]. intros (s & Hs & <-). eapply lreach_conc. exact Hs. Qed.

(** C108: the file only grows, by at most one line at a time. *)
Lemma C108_append_only_pf : forall e os me cap s s', orders_ok os -> lstep e os me cap s s' ->
  l_file s' = l_file s \/ exists now en, numeric now /\ l_file s' = l_file s ++ line now en.
Proof.
  intros e os me cap s s' Ho Hst. destruct Hst as [k l1 i pk l2 w' pc' v now Hsplit Hnow Hstep|k l1 i pk pc l2 w' pc' v Hsplit Hne Hstep|pk|l1 i pk l2 Hsplit|x q Hq]; cbn [l_file]; auto.
  destruct (start_log_case (e k) (os k) pk (Ho k)) as [_|ih po en Hen]; cbn [map concat].
  - left. apply app_nil_r.
  - right. exists now, en. rewrite app_nil_r. auto.
Qed.

Lemma started_handled uf me host c i pk : ConcProofs.inv uf me host c -> In (i, EvStart pk) (k_log c) -> evs i (k_log c) <> [EvStart pk] -> handled c i pk.
Proof.
  intros HI Hin Hne. split; [exact Hin|]. intros pk' H. destruct (i_jobs _ _ _ _ HI _ _ _ H) as [_ Hj]. inversion Hj as [E1 E2|pc Hc E1 E2| | | |].
  - apply Hne. apply evs_in in Hin. rewrite <- E2 in Hin |- *. destruct Hin as [Hin|[]]. injection Hin as ->. reflexivity.
  - apply Hne. apply evs_in in Hin. rewrite <- E2 in Hin |- *. destruct Hin as [Hin|[]]. injection Hin as ->. reflexivity.
  - match goal with Hp : nodes_pc _ _ _ _ JStart |- _ => inversion Hp end.
Qed.

Lemma announcement_seeks pk x : announcement pk x -> exists ih p, seeks pk ih (Some p) /\ GetString (dict_of (rq_body (fst x))) (B "info_hash") = Ok ih /\ snd x = p_addr pk /\
  field (dict_of (rq_body (fst x))) "info_hash" (VStr ih) /\ field (dict_of (rq_body (fst x))) "port" (VInt p).
Proof.
  intros (tx & a & ih & p & Hp & Hi & Ho & ->). exists ih, p. split; [eexists; eapply ro_announce; [exact Hp|exact Hi|exact Ho|reflexivity]|]. cbn [fst snd rq_body dict_of].
  split; [|auto]. unfold GetString, GetVal. unfold field in Hi. rewrite Hi. reflexivity.
Qed.

(** Whatever a job did after its first step, it is past it. *)
Lemma job_handled uf me host c i v : ConcProofs.inv uf me host c -> In (i, v) (k_log c) ->
  exists pk, In (i, EvStart pk) (k_log c) /\ (match v with EvStart _ => True | _ => handled c i pk end).
Proof.
  intros HI Hin. pose proof (proj1 (evs_in _ _ _) Hin) as Hin'.
  assert (Hlt : i < k_next c). { destruct (Nat.lt_ge_cases i (k_next c)); [assumption|]. rewrite (i_fresh _ _ _ _ HI) in Hin' by assumption. elim Hin'. }
  assert (Hst : exists pk, In (i, EvStart pk) (k_log c)).
  { destruct (i_known _ _ _ _ HI i Hlt) as [(pk & pc & Hj)|(pk & l & E & Hj)]; exists pk; apply evs_in.
    - destruct (i_jobs _ _ _ _ HI _ _ _ Hj) as [_ Hjok]. eapply jok_hd. exact Hjok.
    - rewrite E. apply in_app_iff. left. eapply jok_hd. exact Hj. }
  destruct Hst as [pk Hst]. exists pk. split; [exact Hst|].
  assert (Hne : match v with EvStart _ => True | _ => evs i (k_log c) <> [EvStart pk] end).
  { destruct v; [exact I| | | | | |]; intros E; rewrite E in Hin'; destruct Hin' as [E'|[]]; discriminate E'. }
  destruct v; [exact I| | | | | |]; eapply started_handled; eassumption.
Qed.

(** C108: a query for or announcement of an info hash is in the log before it is answered; an announcement is in the log, with
    its info hash, port and sender, before the fetcher can see it: everything in or taken from the queue is in the log. *)
Lemma C108_logged_first_pf : forall e uf os me local hosts cap s, runtime_ok e uf -> orders_ok os -> lreach e os me local hosts cap s ->
  (forall i g, In (i, EvReply g) (k_log (l_conc s)) -> exists pk, In (i, EvStart pk) (k_log (l_conc s)) /\
     forall ih po, seeks pk ih po -> exists now en, In (i, now, en) (l_recs s) /\ record_of pk ih po en) /\
  (forall req addr, In (req, addr) (k_taken (l_conc s) ++ a_queue (w_app (k_world (l_conc s)))) ->
     exists i now en pk ih p, In (i, now, en) (l_recs s) /\ handled (l_conc s) i pk /\ record_of pk ih (Some p) en /\ addr = p_addr pk /\
       field (dict_of (rq_body req)) "info_hash" (VStr ih) /\ field (dict_of (rq_body req)) "port" (VInt p)).
Proof.
  intros e uf os me local hosts cap s Hrt Ho Hr. pose proof (lreach_conc _ _ _ _ _ _ _ Hr) as Hc. pose proof (conc_inv _ _ _ _ _ _ _ Hrt Hc) as HI.
  pose proof (lreach_inv _ _ _ _ _ _ _ _ Hrt Ho Hr) as [_ _ _ F4].
  pose proof (fun i v => job_handled _ _ _ _ i v HI) as Hjob.
  split.
  - intros i g Hin. destruct (Hjob _ _ Hin) as (pk & H1 & H2). exists pk. split; [exact H1|]. intros ih po Hs. eapply F4; eassumption.
  - intros req addr Hin. destruct (C87_queue_fifo_pf _ _ _ _ _ _ _ Hrt Hc) as [E _]. rewrite <- E in Hin.
    unfold enqueued_in in Hin. apply in_flat_map in Hin as (v & Hv & Hx). destruct v as [|x| | | | |]; try (elim Hx; fail). destruct Hx as [->|[]].
    apply in_map_iff in Hv as ([i v] & E1 & Hv). cbn [snd] in E1. subst v. destruct (Hjob _ _ Hv) as (pk & H1 & H2).
    destruct (C87_announcements_pf _ _ _ _ _ _ _ i pk Hrt Hc H1) as [Ha _].
    assert (Hen : In (req, addr) (enqueued_in (evs i (k_log (l_conc s))))). { unfold enqueued_in. apply in_flat_map. exists (EvEnq (req, addr)). split; [apply evs_in; exact Hv|left; reflexivity]. }
    destruct Ha as [Ha|(x & Hx & Ha)]; rewrite Ha in Hen; [elim Hen|]. destruct Hen as [->|[]].
    destruct (announcement_seeks _ _ Hx) as (ih & p & Hs & _ & Hsrc & Hf1 & Hf2). cbn [fst snd] in *. destruct (F4 i pk ih (Some p) H2 Hs) as (now & en & Hrec & Hro).
    exists i, now, en, pk, ih, p. auto 8.
Qed.

(** *** Reading the file *)
Lemma ascii_app a b : ascii a -> ascii b -> ascii (a ++ b). Proof. intros. apply Forall_app. auto. Qed.
Lemma ascii_B s : forallb (fun c => (bval c <? 128)%N) (B s) = true -> ascii (B s).
Proof. intros H. apply Forall_forall. intros c Hc. rewrite forallb_forall in H. specialize (H c Hc). apply N.ltb_lt. exact H. Qed.
Lemma ascii_hexdigit n : (n < 16)%N -> (bval (hexdigit n) < 128)%N.
Proof. intros H. unfold hexdigit. destruct (N.ltb_spec n 10); rewrite bval_byte_of by lia; lia. Qed.
Lemma ascii_hex s : ascii (hex s).
Proof.
  induction s as [|c s IH]; unfold hex; cbn [map concat]; [constructor|]. apply ascii_app; [|exact IH]. pose proof (bval_lt c).
  unfold hex_byte. constructor; [|constructor; [|constructor]]; apply ascii_hexdigit; [apply N.div_lt_upper_bound; lia|apply N.mod_lt; lia].
Qed.
Lemma ascii_digits s : Forall (fun c => is_digit c = true) s -> ascii s.
Proof. intros H. eapply Forall_impl; [|exact H]. intros c Hc. unfold is_digit in Hc. apply andb_true_iff in Hc as [_ Hc]. apply N.leb_le in Hc. lia. Qed.
Lemma ascii_utoa n : ascii (utoa n). Proof. apply ascii_digits, utoa_digits. Qed.
Lemma ascii_itoa z : ascii (itoa z).
Proof. unfold itoa. destruct (z <? 0)%Z; [constructor; [vm_compute; reflexivity|]|]; apply ascii_utoa. Qed.
Lemma ascii_concat l : Forall ascii l -> ascii (concat l).
Proof. induction 1; cbn [concat]; [constructor|apply ascii_app; assumption]. Qed.
Lemma ascii_join sep l : ascii sep -> Forall ascii l -> ascii (join sep l).
Proof.
  intros Hs Hl. destruct Hl as [|x l Hx Hl]; [constructor|]. cbn [join]. apply ascii_app; [exact Hx|]. apply ascii_concat. apply Forall_map.
  eapply Forall_impl; [|exact Hl]. intros y Hy. apply ascii_app; assumption.
Qed.
Lemma ascii_hexnum n : ascii (hexnum n).
Proof.
  unfold hexnum. generalize 4. intros f. revert n. induction f as [|f IH]; intros n; cbn [hex_groups_fuel]; [constructor|].
  apply ascii_app; [destruct (n <? 16)%N; [constructor|apply IH]|]. constructor; [|constructor]. apply ascii_hexdigit. apply N.mod_lt. lia.
Qed.
Lemma ascii_ip i : ascii (ip_string i).
Proof.
  unfold ip_string. destruct i as [|c i]; [apply ascii_B; reflexivity|]. set (l := c :: i).
  assert (H6 : ascii (if length l =? 16 then ip6_text l else B "?" ++ hex l)).
  { destruct (length l =? 16); [|apply ascii_app; [apply ascii_B; reflexivity|apply ascii_hex]].
    unfold ip6_text. destruct (best_run 0 (groups16 l) (0, 0)) as [e0 n].
    assert (Hm : forall g, Forall ascii (map hexnum g)) by (intros g; apply Forall_map, Forall_forall; intros; apply ascii_hexnum).
    assert (Hc : ascii (B ":")) by (apply ascii_B; reflexivity).
    destruct (n <=? 1); [apply ascii_join; auto|]. apply ascii_app; [apply ascii_join; auto|]. apply ascii_app; [apply ascii_B; reflexivity|apply ascii_join; auto]. }
  destruct (To4 l) as [|x p4]; [exact H6|]. apply ascii_join; [apply ascii_B; reflexivity|]. apply Forall_map, Forall_forall. intros. apply ascii_utoa.
Qed.
Lemma ascii_addr a : ascii (zone a) -> ascii (addr_string a).
Proof.
  intros Hz. unfold addr_string, JoinHostPort.
  assert (Hh : ascii (match zone a with [] => match ip a with [] => [] | _ :: _ => ip_string (ip a) end | b :: l => match ip a with [] => [] | _ :: _ => ip_string (ip a) end ++ B "%" ++ b :: l end)).
  { assert (Hi : ascii (match ip a with [] => [] | _ :: _ => ip_string (ip a) end)) by (destruct (ip a); [constructor|apply ascii_ip]).
    destruct (zone a); [exact Hi|]. apply ascii_app; [exact Hi|]. apply ascii_app; [apply ascii_B; reflexivity|exact Hz]. }
  destruct (existsb _ _); repeat (apply ascii_app); try exact Hh; try apply ascii_itoa; apply ascii_B; reflexivity.
Qed.

Lemma record_utf8 pk ih po en : ascii (zone (p_addr pk)) -> record_of pk ih po en -> utf8_entry en /\ exists m, ze_level en = zlevel m.
Proof.
  intros Hz H. pose proof (ascii_addr _ Hz) as Ha. pose proof (ascii_hex ih) as Hx. rewrite hex_hex_text in Hx.
  assert (HB : forall s, forallb (fun c => (bval c <? 128)%N) (B s) = true -> utf8 (B s)) by (intros s Hs; apply utf8_ascii, ascii_B, Hs).
  assert (Hp : forall fs fs', Permutation fs fs' -> Forall (fun f : bytes * jval => utf8 (fst f) /\ utf8_val (snd f)) fs' -> Forall (fun f : bytes * jval => utf8 (fst f) /\ utf8_val (snd f)) fs)
    by (intros fs fs' Hpm Hf; eapply Permutation_Forall; [apply Permutation_sym; exact Hpm|exact Hf]).
  destruct H as [tx a ih fs _ _ Hpm|tx a ih p fs _ _ _ Hpm]; (split; [split; cbn [ze_msg ze_fields]; [apply HB; reflexivity|]|exists MInfo; reflexivity]); (eapply Hp; [exact Hpm|]);
    repeat (apply Forall_cons; [cbn [fst snd utf8_val]; split; [apply HB; reflexivity|try exact I; apply utf8_ascii; assumption]|]); apply Forall_nil.
Qed.

(** Lines can be told apart in a file. *)
Lemma line_body now e : numeric now -> exists t, line now e = t ++ [byte_of 10] /\ Forall (fun b => control b = false) t.
Proof.
  intros Hn. exists (B "{" ++ quoted (B "level") ++ B ":" ++ quoted (level_text (ze_level e)) ++ B "," ++ quoted (B "ts") ++ B ":" ++ now ++
  B "," ++ quoted (B "msg") ++ B ":" ++ quoted (ze_msg e) ++ concat (map (fun f => B "," ++ field_text f) (ze_fields e)) ++ B "}"). split; [unfold line; rewrite <- !app_assoc; reflexivity|].
  repeat first [apply noctl_app | apply quoted_noctl | apply numeric_noctl; assumption | (apply B_noctl; reflexivity)].
  induction (ze_fields e) as [|[k v] l IH]; cbn [map concat]; [constructor|]. apply noctl_app; [|exact IH].
  unfold field_text. cbn [fst snd]. repeat first [apply noctl_app | apply quoted_noctl | (apply B_noctl; reflexivity)].
  destruct v; [apply quoted_noctl|apply itoa_noctl].
Qed.
Lemma lines_inj (l : list (nat * bytes * zentry)) : forall l', Forall (fun r => numeric (snd (fst r))) l -> Forall (fun r => numeric (snd (fst r))) l' ->
  concat (map rec_line l) = concat (map rec_line l') -> map rec_line l = map rec_line l'.
Proof.
  induction l as [|r l IH]; intros [|r' l'] Hl Hl' E; cbn [map concat] in *; [reflexivity| | |].
  - inversion Hl' as [|? ? Hn _]; subst. destruct (line_body _ (snd r') Hn) as (t & Et & _). unfold rec_line in E. rewrite Et in E. destruct t; discriminate.
  - inversion Hl as [|? ? Hn _]; subst. destruct (line_body _ (snd r) Hn) as (t & Et & _). unfold rec_line in E. rewrite Et in E. destruct t; discriminate.
  - inversion Hl as [|? ? Hn Hl0]; inversion Hl' as [|? ? Hn' Hl0']; subst. destruct (line_body _ (snd r) Hn) as (t & Et & Ht). destruct (line_body _ (snd r') Hn') as (t' & Et' & Ht').
    unfold rec_line in E at 1 3. rewrite Et, Et', <- !app_assoc in E. cbn [app] in E.
    apply (class_split (fun b => control b = false)) in E as (-> & _ & E); [|exact Ht|exact Ht'|vm_compute; discriminate|vm_compute; discriminate].
    rewrite (IH _ Hl0 Hl0' E). f_equal. unfold rec_line. rewrite Et, Et'. reflexivity.
Qed.

(** C108: the file can be read back: two runs that left the same file logged the same entries at the same times in the same order, and an
    entry tells the sender's address, the info hash and the announced port. *)
Lemma C108_readable_pf : forall e uf os me local hosts cap s s', runtime_ok e uf -> orders_ok os -> lreach e os me local hosts cap s -> lreach e os me local hosts cap s' ->
  (forall i pk, In (i, EvStart pk) (k_log (l_conc s)) \/ In (i, EvStart pk) (k_log (l_conc s')) -> ascii (zone (p_addr pk))) ->
  (l_file s = l_file s' -> map (fun r => (snd (fst r), snd r)) (l_recs s) = map (fun r => (snd (fst r), snd r)) (l_recs s')) /\
  (forall pk pk' ih ih' po po' en, record_of pk ih po en -> record_of pk' ih' po' en -> addr_string (p_addr pk) = addr_string (p_addr pk') /\ ih = ih' /\ po = po').
Proof.
  intros e uf os me local hosts cap s s' Hrt Ho Hr Hr' Hz. split.
  - intros E. pose proof (lreach_inv _ _ _ _ _ _ _ _ Hrt Ho Hr) as [F1 _ F3 _]. pose proof (lreach_inv _ _ _ _ _ _ _ _ Hrt Ho Hr') as [F1' _ F3' _].
    rewrite F1, F1' in E. apply lines_inj in E.
    + assert (Hall : Forall (fun r => numeric (snd (fst r)) /\ utf8_entry (snd r) /\ exists m, ze_level (snd r) = zlevel m) (l_recs s)).
      { apply Forall_forall. intros [[i now] en] Hin. destruct (F3 _ _ _ Hin) as (Hn & pk & ih & po & [Hk _] & Hro). cbn [fst snd]. split; [exact Hn|]. eapply record_utf8; [|exact Hro]. eapply Hz. left. exact Hk. }
      assert (Hall' : Forall (fun r => numeric (snd (fst r)) /\ utf8_entry (snd r) /\ exists m, ze_level (snd r) = zlevel m) (l_recs s')).
      { apply Forall_forall. intros [[i now] en] Hin. destruct (F3' _ _ _ Hin) as (Hn & pk & ih & po & [Hk _] & Hro). cbn [fst snd]. split; [exact Hn|]. eapply record_utf8; [|exact Hro]. eapply Hz. right. exact Hk. }
      revert E Hall'. generalize (l_recs s'). clear - Hall. induction Hall as [|r l (Hn & Hu & Hm) Hl IH]; intros [|r' l'] E Hall'; cbn [map] in *; [reflexivity|discriminate|discriminate|].
      pose proof (f_equal (hd []) E) as E1. pose proof (f_equal (@tl bytes) E) as E2. cbn [hd tl] in E1, E2. inversion Hall' as [|? ? (Hn' & Hu' & Hm') Hl']; subst. rewrite (IH _ E2 Hl').
      destruct (C107_lines_identify_entries_pf _ _ _ _ Hn Hn' Hm Hm' Hu Hu' E1) as [-> ->]. reflexivity.
    + apply Forall_forall. intros [[i now] en] Hin. apply (F3 _ _ _ Hin).
    + apply Forall_forall. intros [[i now] en] Hin. apply (F3' _ _ _ Hin).
  - assert (Hin : forall (fs l : list (bytes * jval)) x, Permutation fs l -> In x l -> In x fs) by (intros fs l x Hp Hx; eapply Permutation_in; [apply Permutation_sym; exact Hp|exact Hx]).
    assert (Hhex : forall a b, hex_text a = hex_text b -> a = b) by (intros a b Hab; rewrite <- !hex_hex_text in Hab; apply hex_inj; exact Hab).
    intros pk pk' ih ih' po po' en H H'. destruct H as [tx a ih fs _ _ Hp|tx a ih p fs _ _ _ Hp]; inversion H' as [tx' a' ih0 fs' _ _ Hp' E1 E2 E3|tx' a' ih0 p' fs' _ _ _ Hp' E1 E2 E3]; subst;
      pose proof (Permutation_trans (Permutation_sym Hp) Hp') as Hq.
    + pose proof (Permutation_in _ Hq (or_introl eq_refl)) as Ha. pose proof (Permutation_in _ Hq (or_intror (or_introl eq_refl))) as Hi.
      destruct Ha as [Ha|[Ha|[]]]; [|discriminate Ha]. destruct Hi as [Hi|[Hi|[]]]; [discriminate Hi|]. injection Ha as ->. injection Hi as Hi. auto.
    + pose proof (Permutation_in _ Hq (or_introl eq_refl)) as Ha. pose proof (Permutation_in _ Hq (or_intror (or_introl eq_refl))) as Hi. pose proof (Permutation_in _ Hq (or_intror (or_intror (or_introl eq_refl)))) as Ho'.
      destruct Ha as [Ha|[Ha|[Ha|[]]]]; try discriminate Ha. destruct Hi as [Hi|[Hi|[Hi|[]]]]; try discriminate Hi. destruct Ho' as [Ho'|[Ho'|[Ho'|[]]]]; try discriminate Ho'.
      injection Ha as ->. injection Hi as Hi. injection Ho' as ->. auto.
Qed.

(** C108: an example.  Two handlers announce and a third asks; all are in the log once they ran. *)
Definition ex_get := ex_pk 4 "d1:ad2:id20:aaaaaaaaaaaaaaaaaaaa9:info_hash3:abce1:q9:get_peers1:t2:gg1:y1:qe".
Lemma ex_ann_seeks : seeks ex_ann (B "ih") (Some 7%Z).
Proof.
  eexists. eapply ro_announce.
  - eexists _, _. split; [eexists; vm_compute; reflexivity|]. repeat (split; [vm_compute; reflexivity|]). reflexivity.
  - reflexivity.
  - reflexivity.
  - reflexivity.
Qed.
Lemma ex_get_seeks : seeks ex_get (B "abc") None.
Proof.
  eexists. eapply ro_get.
  - eexists _, _. split; [eexists; vm_compute; reflexivity|]. repeat (split; [vm_compute; reflexivity|]). reflexivity.
  - reflexivity.
  - reflexivity.
Qed.
Lemma C108_example_pf : forall os, orders_ok os -> exists s, runtime_ok (fun _ => ex_env) (fun _ _ => false) /\ lreach (fun _ => ex_env) os ex_me (mkaddr [] 6881) [ex_addr 1] 1 s /\
  (exists now en, In (0, now, en) (l_recs s) /\ record_of ex_ann (B "ih") (Some 7%Z) en) /\ (exists now en, In (1, now, en) (l_recs s) /\ record_of ex_get (B "abc") None en) /\
  (length (k_taken (l_conc s)) = 1) /\ (forall i pk, In (i, EvStart pk) (k_log (l_conc s)) -> ascii (zone (p_addr pk))).
Proof.
  intros os Ho. destruct (conc_lreach _ os _ _ _ _ _ (ex_run_reach 1 [ABegin ex_ann; ABegin ex_get; AJob 1; AJob 0; AJob 0; ATake])) as (s & Hs & E).
  exists s. split; [exact ex_runtime|]. split; [exact Hs|]. pose proof (lreach_inv _ _ _ _ _ _ _ _ ex_runtime Ho Hs) as [_ _ _ F4].
  split; [|split; [|split]].
  - apply F4; [|exact ex_ann_seeks]. rewrite E. split; [vm_compute; tauto|]. vm_compute. intros pk' H. repeat destruct H as [H|H]; try discriminate H; exact H.
  - apply F4; [|exact ex_get_seeks]. rewrite E. split; [vm_compute; tauto|]. vm_compute. intros pk' H. repeat destruct H as [H|H]; try discriminate H; exact H.
  - rewrite E. vm_compute. reflexivity.
  - rewrite E. intros i pk H. vm_compute in H. repeat destruct H as [H|H]; try discriminate H; try (injection H as _ <-; constructor). elim H.
Qed.

(** C108: what is logged is not checked: "every logged info hash has 20 bytes", "every logged port is a port" and "no info hash is logged
    twice for one sender" are false. *)
Definition ex_odd := ex_pk 2 "d1:ad2:id20:aaaaaaaaaaaaaaaaaaaa9:info_hash0:4:porti-70000ee1:q13:announce_peer1:t2:aa1:y1:qe".
Lemma ex_odd_seeks : seeks ex_odd [] (Some (-70000)%Z).
Proof.
  eexists. eapply ro_announce.
  - eexists _, _. split; [eexists; vm_compute; reflexivity|]. repeat (split; [vm_compute; reflexivity|]). reflexivity.
  - reflexivity.
  - reflexivity.
  - reflexivity.
Qed.
Lemma C108_unchecked_refuted_pf : forall os, orders_ok os -> exists s, lreach (fun _ => ex_env) os ex_me (mkaddr [] 6881) [ex_addr 1] 1 s /\
  (exists now now' en en', In (0, now, en) (l_recs s) /\ In (1, now', en') (l_recs s) /\
     In (B "infoHash", JStr []) (ze_fields en) /\ In (B "port", JInt (-70000)) (ze_fields en) /\ Permutation (ze_fields en) (ze_fields en') /\ ze_msg en = ze_msg en').
Proof.
  intros os Ho. destruct (conc_lreach _ os _ _ _ _ _ (ex_run_reach 1 [ABegin ex_odd; ABegin ex_odd; AJob 1; AJob 0])) as (s & Hs & E).
  exists s. split; [exact Hs|]. pose proof (lreach_inv _ _ _ _ _ _ _ _ ex_runtime Ho Hs) as [_ _ _ F4].
  destruct (F4 0 ex_odd [] (Some (-70000)%Z)) as (now & en & H1 & H2); [|exact ex_odd_seeks|].
  { rewrite E. split; [vm_compute; tauto|]. vm_compute. intros pk' H. repeat destruct H as [H|H]; try discriminate H; exact H. }
  destruct (F4 1 ex_odd [] (Some (-70000)%Z)) as (now' & en' & H1' & H2'); [|exact ex_odd_seeks|].
  { rewrite E. split; [vm_compute; tauto|]. vm_compute. intros pk' H. repeat destruct H as [H|H]; try discriminate H; exact H. }
  exists now, now', en, en'. split; [exact H1|]. split; [exact H1'|].
  inversion H2 as [|tx a ih p fs _ _ _ Hp E1 E2 E3]; subst. inversion H2' as [|tx' a' ih' p' fs' _ _ _ Hp' E1' E2' E3']; subst. cbn [ze_fields ze_msg].
  split; [eapply Permutation_in; [apply Permutation_sym; exact Hp|right; left; reflexivity]|].
  split; [eapply Permutation_in; [apply Permutation_sym; exact Hp|right; right; left; reflexivity]|].
  split; [eapply Permutation_trans; [exact Hp|apply Permutation_sym; exact Hp']|reflexivity].
Qed.

(** C108: that an announcement in the log reaches the fetcher's queue is false: while the queue is full it is logged but not queued. *)
Lemma C108_logged_not_queued_refuted_pf : forall os, orders_ok os -> exists s, lreach (fun _ => ex_env) os ex_me (mkaddr [] 6881) [ex_addr 1] 1 s /\
  (exists now en, In (1, now, en) (l_recs s) /\ record_of ex_ann (B "ih") (Some 7%Z) en) /\
  forall s', conc_steps (fun _ => ex_env) ex_me 1 (l_conc s) s' -> k_taken s' = k_taken (l_conc s) -> enqueued_in (evs 1 (k_log s')) = [].
Proof.
  intros os Ho. destruct (conc_lreach _ os _ _ _ _ _ (ex_run_reach 1 [ABegin ex_ann; AJob 0; AJob 0; ABegin ex_ann; AJob 1])) as (s & Hs & E).
  exists s. split; [exact Hs|]. pose proof (lreach_inv _ _ _ _ _ _ _ _ ex_runtime Ho Hs) as [_ _ _ F4]. split.
  - apply F4; [|exact ex_ann_seeks]. rewrite E. split; [vm_compute; tauto|]. vm_compute. intros pk' H. repeat destruct H as [H|H]; try discriminate H; exact H.
  - intros s' Hst Ht. destruct C87_example_pf as (_ & x & _ & Hx & _).
    apply (C91_full_queue_blocks_pf _ _ _ _ _ _ (l_conc s) s' 1 ex_ann x ex_runtime (lreach_conc _ _ _ _ _ _ _ Hs)); try assumption; rewrite E; [vm_compute; tauto|vm_compute; reflexivity|vm_compute; reflexivity].
Qed.
