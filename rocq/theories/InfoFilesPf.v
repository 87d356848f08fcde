(** InfoFilesPf.v -- proofs of C130, second part: the lines of the info-hash log in its files. *)
From Verif Require Import Base GoLib Bencode BencodeSpec BencodeProofs BencodePf CodecSpec CodecPf SizeProofs Types Node RouteTable Middleware Krpc KrpcSpec Dht DhtSpec Conc ConcSpec FetchTorrentSpec
  ZapLog ZapLogSpec InfoLog InfoLogSpec InfoLogPf LogFiles LogFilesSpec LogFilesProofs LogFilesPf InfoFilesSpec.
From Coq Require Import Lia ZifyBool ZifyN ZifyNat Permutation.
Local Open Scope list_scope.

Lemma dset_in d k v x : In x (dset d k v) -> x = (k, v) \/ In x d.
Proof.
  induction d as [|[k' v'] d IH]; cbn [dset]; [intros [<-|[]]; auto|]. destruct (beq k' k) eqn:E; intros [<-|H]; [| |auto|].
  - apply beq_eq in E. subst. auto.
  - right. right. exact H.
  - right. left. reflexivity.
  - destruct (IH H); [auto|right; right; assumption].
Qed.
Lemma mkdict_in ps : forall acc x, In x (mkdict acc ps) -> In x ps \/ In x acc.
Proof.
  induction ps as [|[k v] ps IH]; intros acc x H; cbn [mkdict] in *; [right; exact H|]. destruct (IH _ _ H) as [H1|H1]; [left; right; exact H1|].
  apply dset_in in H1. destruct H1 as [->|H1]; [left; left; reflexivity|right; exact H1].
Qed.
Lemma x_go :
  (forall inp v rest u, xitem inp v rest u -> go_value v) /\
  (forall inp l rest u, xitems inp l rest u -> forall v, In v l -> go_value v) /\
  (forall inp ps rest u, xpairs inp ps rest u -> forall k v, In (k, v) ps -> go_value v).
Proof.
  apply xitem_mutind.
  - intros body rest z H. constructor. apply H.
  - constructor.
  - intros inp l rest u _ IH. constructor. exact IH.
  - intros inp ps rest u _ IH. constructor; [apply mkdict_NoDup|]. intros k v H. apply mkdict_in in H. destruct H as [H|[]]. eapply IH. exact H.
  - intros rest v [].
  - intros v [].
  - intros inp v mid u l rest u' _ IH1 _ IH2 w [<-|H]; [exact IH1|apply IH2, H].
  - intros rest k v [].
  - intros k v [].
  - intros inp k mid v mid' u ps rest u' _ IH0 _ IH1 _ IH2 k' w [E|H]; [injection E as <- <-; exact IH1|eapply IH2, H].
Qed.

Lemma field_weight d k v : field d k v -> weight v < weight (VDict d).
Proof.
  unfold field. induction d as [|[k' v'] d IH]; [discriminate|]. cbn [dget]. cbn [weight fold_right fst snd] in *. destruct (beq k' (B k)); intros H; [injection H as <-; lia|].
  specialize (IH H). lia.
Qed.
Lemma field_go d k v : go_value (VDict d) -> field d k v -> go_value v.
Proof.
  intros Hg Hf. inversion Hg as [| | |d' _ H| | | |]; subst. assert (In (B k, v) d); [|eapply H; eassumption]. unfold field in Hf. clear - Hf.
  induction d as [|[k' v'] d IH]; [discriminate|]. cbn [dget] in Hf. destruct (beq k' (B k)) eqn:E; [injection Hf as <-; apply beq_eq in E; subst; left; reflexivity|right; apply IH, Hf].
Qed.
Lemma itoa_len z : is_int z -> length (itoa z) <= 20.
Proof.
  intros H. unfold is_int, min_int, max_int in H. unfold itoa. destruct (z <? 0)%Z eqn:E; cbn [length].
  - assert (length (utoa (Z.to_N (- z))) <= 19); [|lia]. apply utoa_len; [|lia]. change (10 ^ N.of_nat 19)%N with 10000000000000000000%N. lia.
  - assert (length (utoa (Z.to_N z)) <= 19); [|lia]. apply utoa_len; [|lia]. change (10 ^ N.of_nat 19)%N with 10000000000000000000%N. lia.
Qed.

Lemma esc_ascii_len c : length (esc_ascii c) <= 6.
Proof. unfold esc_ascii. repeat match goal with |- context[if ?b then _ else _] => destruct b end; try (cbn; lia). Qed.
Lemma esc_fuel_len f : forall s, length (esc_fuel f s) <= 6 * length s.
Proof.
  induction f as [|f IH]; intros s; [cbn [esc_fuel length]; lia|]. destruct s as [|c t]; [cbn; lia|]. cbn [esc_fuel]. destruct (bval c <? 128)%N.
  - rewrite app_length. pose proof (esc_ascii_len c). pose proof (IH t). cbn [length]. lia.
  - destruct (decode_rune (c :: t)) as [r n]. destruct ((r =? RuneError)%N && (n =? 1))%nat.
    + pose proof (IH t). cbn [length app B list_ascii_of_string]. lia.
    + rewrite app_length. pose proof (IH (skipn n (c :: t))). pose proof (firstn_skipn n (c :: t)) as E. apply (f_equal (@length byte)) in E. rewrite app_length in E. lia.
Qed.
Lemma quoted_len s : length (quoted s) <= 6 * length s + 2.
Proof. unfold quoted, json_escape. cbn [length]. rewrite app_length. cbn [length]. pose proof (esc_fuel_len (length s) s). lia. Qed.
Lemma hex_text_len s : length (hex_text s) = 2 * length s.
Proof. unfold hex_text. induction s as [|c s IH]; [reflexivity|]. cbn [flat_map app length]. rewrite IH. lia. Qed.

Definition flen (f : bytes * jval) : nat := 1 + length (field_text f).
Lemma fields_len fs : length (concat (map (fun f => B "," ++ field_text f) fs)) = fold_right (fun f n => flen f + n) 0 fs.
Proof. induction fs as [|f fs IH]; [reflexivity|]. cbn [map concat fold_right]. rewrite app_length, IH. unfold flen. cbn [length app B list_ascii_of_string]. lia. Qed.
Lemma fields_perm fs fs' : Permutation fs fs' -> fold_right (fun f n => flen f + n) 0 fs = fold_right (fun f n => flen f + n) 0 fs'.
Proof. induction 1; cbn [fold_right]; lia. Qed.

Lemma record_len pk ih po en now : fits (p_bytes pk) -> record_of pk ih po en ->
  length (line now en) <= 300 + length now + 6 * length (addr_string (p_addr pk)) + 12 * length (p_bytes pk).
Proof.
  intros Hf H.
  assert (Hih : forall tx q a, proper_query (p_bytes pk) tx q a -> field a "info_hash" (VStr ih) -> length ih <= length (p_bytes pk)).
  { intros tx q a (d & id & (n & Hd) & _ & _ & _ & Ha & _) Hi. apply (proj1 (C101_decoded_size_pf _ Hf)) in Hd. apply field_weight in Ha. apply field_weight in Hi. cbn [weight] in Hi, Ha, Hd. lia. }
  assert (Hpo : forall tx q a p, proper_query (p_bytes pk) tx q a -> field a "port" (VInt p) -> length (itoa p) <= 20).
  { intros tx q a p (d & id & (n & Hd) & _ & _ & _ & Ha & _) Hp. apply DecodeDictNoLimit_iff in Hd; [|exact Hf]. destruct Hd as (_ & rest & u & Hx & _). apply (proj1 x_go) in Hx.
    apply (field_go _ _ _ (field_go _ _ _ Hx Ha)) in Hp. inversion Hp; subst. apply itoa_len. assumption. }
  pose proof (quoted_len (addr_string (p_addr pk))) as Q1. pose proof (quoted_len (hex_text ih)) as Q2. rewrite hex_text_len in Q2.
  assert (Hl : length (line now en) = length now + length (quoted (ze_msg en)) + fold_right (fun f n => flen f + n) 0 (ze_fields en) + length (quoted (level_text (ze_level en))) + 24).
  { unfold line. rewrite !app_length, fields_len. change (length (quoted (B "level"))) with 7. change (length (quoted (B "ts"))) with 4. change (length (quoted (B "msg"))) with 5. cbn [length B list_ascii_of_string]. lia. }
  rewrite Hl. inversion H as [tx a ih' fs Hq Hi Hp|tx a ih' p fs Hq Hi Hport Hp]; subst; cbn [ze_msg ze_fields ze_level]; rewrite (fields_perm _ _ Hp); cbn [fold_right]; unfold flen, field_text; cbn [fst snd]; rewrite !app_length.
  - specialize (Hih _ _ _ Hq Hi). change (length (quoted (B "get_peer"))) with 10. change (length (quoted (level_text 0))) with 6. change (length (quoted (B "addr"))) with 6. change (length (quoted (B "infoHash"))) with 10. cbn [length B list_ascii_of_string]. lia.
  - specialize (Hih _ _ _ Hq Hi). specialize (Hpo _ _ _ _ Hq Hport). change (length (quoted (B "announce_peer"))) with 15. change (length (quoted (level_text 0))) with 6. change (length (quoted (B "addr"))) with 6. change (length (quoted (B "infoHash"))) with 10. change (length (quoted (B "port"))) with 6. cbn [length B list_ascii_of_string]. lia.
Qed.

(** C130: a line of the info-hash log is never refused: it is shorter than MaxSize - and not longer than the packet allows. *)
Lemma C130_info_lines_fit_pf : forall e uf os me local hosts cap s, runtime_ok e uf -> orders_ok os -> lreach e os me local hosts cap s -> modest s ->
  forall i now en, In (i, now, en) (l_recs s) -> (blen (line now en) <= lj_max zap_rotation)%N /\
    exists pk, handled (l_conc s) i pk /\ length (line now en) <= 300 + length now + 6 * length (addr_string (p_addr pk)) + 12 * length (p_bytes pk).
Proof.
  intros e uf os me local hosts cap s Hrt Ho Hr [Hm1 Hm2] i now en Hin. destruct (C108_log_is_exact_pf _ _ _ _ _ _ _ _ Hrt Ho Hr) as (_ & _ & H & _).
  destruct (H _ _ _ Hin) as (_ & pk & ih & po & Hh & Hrec). destruct (Hm1 i pk (proj1 Hh)) as [L1 L2]. pose proof (Hm2 _ _ _ Hin) as L3.
  assert (Hf : fits (p_bytes pk)) by (unfold fits, max_int; lia). pose proof (record_len pk ih po en now Hf Hrec) as L. split; [|exists pk; split; assumption].
  unfold blen. change (lj_max zap_rotation) with 524288000%N. lia.
Qed.

(** C130: as long as there were at most three rotations and no backup grew too old, every info hash the crawler was asked for or that was announced
    to it is on the disk, in one piece, in the log or in a backup. *)
Lemma C130_info_hashes_found_pf : forall e uf os me local hosts cap s tr f, runtime_ok e uf -> orders_ok os -> lreach e os me local hosts cap s ->
  lj_run zap_rotation tr f -> steady tr -> lines tr = map rec_line (l_recs s) -> length (closed tr) <= 3 ->
  (forall x now, In x (closed tr) -> In (LMill now) tr -> (now <= fst x + 28 * 24 * 3600 * 1000)%N) ->
  forall i pk ih po, handled (l_conc s) i pk -> seeks pk ih po -> exists now en file pre post, record_of pk ih po en /\
    (file = text (j_cur f) \/ In file (map snd (j_old f))) /\ file = pre ++ line now en ++ post.
Proof.
  intros e uf os me local hosts cap s tr f Hrt Ho Hr Hj Hst Hl Hc Hage i pk ih po Hh Hs. destruct (C108_log_is_exact_pf _ _ _ _ _ _ _ _ Hrt Ho Hr) as (_ & _ & _ & H).
  destruct (H _ _ _ _ Hh Hs) as (now & en & Hin & Hrec). exists now, en.
  assert (Hp : In (line now en) (lines tr)). { rewrite Hl. apply in_map_iff. exists (i, now, en). split; [reflexivity|exact Hin]. }
  destruct (C130_files_pf _ _ _ Hj Hst) as (E & Ecur & _ & _). rewrite E in Hp. apply in_app_iff in Hp. destruct Hp as [Hp|Hp].
  - apply in_concat in Hp. destruct Hp as (l & Hl1 & Hl2). apply in_map_iff in Hl1. destruct Hl1 as (x & <- & Hx).
    pose proof (C130_recent_kept_pf _ _ _ [] (closed tr) Hj Hst eq_refl Hc Hage x Hx) as Hold.
    apply in_split in Hl2. destruct Hl2 as (l1 & l2 & El). exists (concat (snd x)), (concat l1), (concat l2). split; [exact Hrec|]. split; [right; apply in_map_iff; eexists; split; [|exact Hold]; reflexivity|].
    rewrite El, concat_app. reflexivity.
  - apply in_split in Hp. destruct Hp as (l1 & l2 & El). exists (text (j_cur f)), (concat l1), (concat l2). split; [exact Hrec|]. split; [left; reflexivity|]. rewrite Ecur, El, concat_app. reflexivity.
Qed.

(** C130: the last theorem is not empty: whatever was logged, if it is not longer than a file altogether there is such a history, without any rotation. *)
Lemma C130_info_example_pf : forall ls, (blen (concat ls) <= lj_max zap_rotation)%N ->
  exists tr f, lj_run zap_rotation tr f /\ steady tr /\ lines tr = ls /\ closed tr = [] /\ (forall now, ~ In (LMill now) tr).
Proof.
  intros ls H.
  assert (G : exists tr f, lj_run zap_rotation tr f /\ steady tr /\ lines tr = ls /\ closed tr = [] /\ (forall now, ~ In (LMill now) tr) /\ j_pc f = PcIdle /\ (j_open f = None -> j_cur f = None)).
  { induction ls as [|p ls IH] using rev_ind.
    - exists [], lj0. split; [constructor|]. split; [intros [|a tr1] t tr2 E; discriminate|]. repeat split; auto.
    - rewrite concat_snoc, blen_app in H. destruct IH as (tr & f & Hr & Hst & Hl & Hc & Hm & Hp & Hop); [lia|].
      pose proof (jinv_run _ _ _ Hr) as V. assert (Ecur : text (j_cur f) = concat ls). { rewrite (v_cur _ _ _ V). f_equal. rewrite lines_stretches, Hc in Hl. exact Hl. }
      assert (W : forall tr2 f2 n, lj_run zap_rotation (tr ++ tr2) f2 -> steady (tr ++ tr2) -> lines (tr ++ tr2) = ls -> closed (tr ++ tr2) = [] -> (forall now, ~ In (LMill now) (tr ++ tr2)) ->
        j_pc f2 = PcReady p -> j_open f2 = Some n -> (n + blen p <= lj_max zap_rotation)%N ->
        exists tr f0, lj_run zap_rotation tr f0 /\ steady tr /\ lines tr = ls ++ [p] /\ closed tr = [] /\ (forall now, ~ In (LMill now) tr) /\ j_pc f0 = PcIdle /\ (j_open f0 = None -> j_cur f0 = None)).
      { intros tr2 f2 n R1 R2 R3 R4 R5 R6 R7 R8. exists ((tr ++ tr2) ++ [LWrite p]). eexists. split; [eapply ljr_step; [exact R1|eapply lj_write; eassumption]|]. split; [apply steady_snoc; [exact R2|exact I]|].
        split; [rewrite lines_snoc, R3; reflexivity|]. split; [rewrite closed_snoc; exact R4|]. split; [|split; [reflexivity|discriminate]].
        intros now Hn. apply in_app_iff in Hn. destruct Hn as [Hn|[Hn|[]]]; [apply (R5 now Hn)|discriminate]. }
      assert (Hadd : forall k, Forall (fun e => e = LTau) k -> steady (tr ++ k) /\ lines (tr ++ k) = ls /\ closed (tr ++ k) = [] /\ (forall now, ~ In (LMill now) (tr ++ k))).
      { intros k. induction k as [|e k IHk] using rev_ind; intros Hk; [rewrite app_nil_r; auto|]. apply Forall_app in Hk. destruct Hk as [Hk He]. inversion He; subst.
        specialize (IHk Hk). rewrite app_assoc, lines_snoc, closed_snoc. destruct IHk as (I1 & I2 & I3 & I4). split; [apply steady_snoc; [exact I1|exact I]|]. rewrite I2, app_nil_r. repeat split; auto.
        intros now Hn. apply in_app_iff in Hn. destruct Hn as [Hn|[Hn|[]]]; [apply (I4 now Hn)|discriminate]. }
      destruct (j_open f) as [n|] eqn:Eo.
      + destruct (Hadd [LTau] ltac:(repeat constructor)) as (I1 & I2 & I3 & I4). destruct (v_open _ _ _ V n Eo) as (c & Ec & ->). rewrite Ec in Ecur. simpl in Ecur. subst c.
        eapply (W [LTau]); [eapply ljr_step; [exact Hr|eapply (lj_begin_open _ _ p); [exact Hp|lia|exact Eo]]|exact I1|exact I2|exact I3|exact I4|reflexivity|exact Eo|exact H].
      + destruct (Hadd [LTau; LTau] ltac:(repeat constructor)) as (I1 & I2 & I3 & I4). 
        pose proof (lj_begin_closed zap_rotation f p Hp ltac:(lia) Eo) as S1. pose proof (ljr_step _ _ _ _ _ Hr S1) as R1.
        pose proof (ljr_step _ _ _ _ _ R1 (lj_open_missing zap_rotation (jset f (j_cur f) (j_old f) (PcOpening p) None true) p eq_refl (Hop eq_refl))) as R2. rewrite <- app_assoc in R2.
        eapply (W [LTau; LTau]); [exact R2|exact I1|exact I2|exact I3|exact I4|reflexivity|reflexivity|lia]. }
  destruct G as (tr & f & G1 & G2 & G3 & G4 & G5 & _). exists tr, f. auto.
Qed.
