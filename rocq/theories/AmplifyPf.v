(** AmplifyPf.v -- proofs of C104 (what replies contain and how long they are). *)
From Verif Require Import Base GoLib Bencode BencodeSpec BencodeProofs BencodePf Types TypesPf Node NodePf RouteTable RouteTablePf Middleware Krpc KrpcSpec KrpcProofs KrpcPf Dht DhtSpec DhtProofs DhtPf
  Conc ConcSpec ConcProofs ConcPf CodecSpec CodecPf SizeProofs AmplifySpec.
Local Open Scope list_scope.

Definition writes (pc : jpc) (r : response) : Prop := pc = JReply r \/ exists x, pc = JEnq x r.

Lemma lacks_none d k : dget d (B k) = None -> lacks d k.
Proof. intros H v Hv. unfold field in Hv. congruence. Qed.

Lemma reply_form e me pk r : writes (start_pc e me pk) r -> exists d, wire r d /\ reply_msg (e_uf e) (fun t => t = e_stack e) me pk d.
Proof.
  unfold start_pc. destruct (DecodeDictNoLimit (p_bytes pk)) as [[d n]|x|p] eqn:Hd; try (intros [H|[? H]]; discriminate H).
  unfold Exist. destruct (dget d (B "y")) as [v|] eqn:Ey; cbn [negb]; [|intros [H|[? H]]; discriminate H].
  unfold GetString at 1, GetVal at 1. rewrite Ey. cbn [bind]. destruct v as [z|y|l|a| | | |k]; try (intros [H|[? H]]; discriminate H).
  destruct (beq y (B "q")) eqn:E1.
  2: { destruct (beq y (B "r")); [|intros [H|[? H]]; discriminate H].
       match goal with |- writes (match ?m with _ => _ end) _ -> _ => destruct m as [[t b]|?|?] end; intros [H|[? H]]; discriminate H. }
  apply beq_eq in E1. subst y. unfold start_query.
  destruct (getstring_cases d (B "t")) as [(tx & Et & E2)|(_ & m & E2)]; rewrite E2; cbn [bind]; [|intros [H|[? H]]; discriminate H].
  destruct (getstring_cases d (B "q")) as [(q & Eq & E3)|(_ & m & E3)]; rewrite E3; cbn [bind]; [|intros [H|[? H]]; discriminate H].
  set (goal := exists d, wire r d /\ reply_msg (e_uf e) (fun t => t = e_stack e) me pk d).
  assert (Herr : forall m, refusal (e_uf e) (fun t => t = e_stack e) d q m -> m <> [] -> writes (JReply (WithParamErr tx m)) r -> goal).
  { intros m Hm Hne [H|[? H]]; [|discriminate H]. injection H as <-. exists (error_reply tx 203 m). split; [apply wire_err; exact Hne|].
    eapply rm_error; try eassumption. exists n. exact Hd. }
  unfold query_pc. destruct (contains_supported (e_uf e) q) as [[-> Hsup]|[-> Hsup]]; cbn [bind negb].
  2: { apply Herr; [constructor; exact Hsup|discriminate]. }
  assert (Hargs : forall m, bad_args d q m -> writes (JReply (WithParamErr tx (error_text e GenericErr (B m)))) r -> goal).
  { intros m Hm. apply Herr; [|apply error_text_ne]. apply (rf_args _ _ d q m); [exact Hsup|exact Hm|reflexivity]. }
  assert (Hok : forall q' a body, q = B q' -> proper_query (p_bytes pk) tx q' a -> answer me tx a q' body -> ids_ok body ->
    r = WithResponse tx (Some body) -> goal).
  { intros q' a body -> Hp Ha Hi ->. exists (ok_reply tx body). split; [apply wire_ok; exact Hi|]. econstructor; eassumption. }
  unfold GetDict, GetVal at 1. destruct (dget d (B "a")) as [v|] eqn:Ea; cbn [bind].
  2: { unfold PanicBizErr. apply (Hargs "cannot find a's val"%string). apply ba_no_a. apply lacks_none. exact Ea. }
  destruct v as [z|x|l|a| | | |k]; cbn [bind];
    try (unfold PanicBizErr; apply (Hargs "a's val cannot match type of Dict"%string); eapply ba_a; [exact Ea|]; intros a0 [H|[H _]]; unfold field in H; rewrite Ea in H; discriminate H).
  2: { (* a nil dictionary cannot be decoded *) cbn [dict_of]. unfold GetString, GetVal. cbn [dget bind]. unfold PanicBizErr. apply (Hargs "cannot find id's val"%string).
       apply (ba_no_id _ _ []); [right; auto|]. intros v H. discriminate H. }
  assert (Hga : arguments d a) by (left; exact Ea).
  assert (Hgs : forall k kk, k = B kk -> (dget a k = None -> bad_args d q (String.append "cannot find " (String.append kk "'s val"))) ->
      (forall v, dget a k = Some v -> (forall s, v <> VStr s) -> bad_args d q (String.append kk "'s val cannot match type of string")) ->
    forall (f : bytes -> res jpc), (forall s, dget a k = Some (VStr s) -> writes (match f s with Ok pc => pc | Panic (PBiz c m) => JReply (WithParamErr tx (error_text e c m)) | _ => JEnd end) r -> goal) ->
    writes (match (do s <- GetString a k; f s) with Ok pc => pc | Panic (PBiz c m) => JReply (WithParamErr tx (error_text e c m)) | _ => JEnd end) r -> goal).
  { intros k kk Ek I1 I2 f Hf. unfold GetString, GetVal.
    assert (Happ : forall a b, B (String.append a b) = B a ++ B b). { unfold B. clear. induction a as [|c a IH]; intros b; [reflexivity|]. cbn in *. f_equal. apply IH. }
    destruct (dget a k) as [v|] eqn:Ei; cbn [bind].
    - assert (E : k ++ B "'s val cannot match type of string" = B (String.append kk "'s val cannot match type of string")).
      { subst k. rewrite Happ. reflexivity. }
      destruct v as [z|s|l|b| | | |k0]; cbn [bind]; try (unfold PanicBizErr; rewrite E; apply Hargs; eapply I2; [reflexivity|discriminate]). apply Hf. reflexivity.
    - assert (E : B "cannot find " ++ k ++ B "'s val" = B (String.append "cannot find " (String.append kk "'s val"))).
      { subst k. rewrite !Happ. reflexivity. }
      unfold PanicBizErr. cbn [bind]. rewrite E. apply Hargs. apply I1. reflexivity. }
  cbn [dict_of]. eapply Hgs with (kk := "id"%string); [reflexivity| | |].
  { intros H. eapply ba_no_id; [exact Hga|apply lacks_none; exact H]. }
  { intros v H Hv. eapply ba_id; eassumption. }
  intros id Hid.
  destruct (length id =? 20) eqn:El; cbn [negb].
  2: { apply Nat.eqb_neq in El. apply Herr; [eapply rf_id; eassumption|discriminate]. }
  apply Nat.eqb_eq in El.
  assert (Hws : with_sender d a). { split; [exact Hga|]. exists id. auto. }
  assert (Hprop : forall q', q = B q' -> proper_query (p_bytes pk) tx q' a).
  { intros q' ->. exists d, id. unfold field. repeat split; auto. exists n. exact Hd. }
  destruct (crawler_router q) as [h|] eqn:Er.
  2: { apply Herr; [eapply rf_handler; [exact Hsup|exact Hws|]|discriminate]. intros H. cbn in H. unfold crawler_router in Er. destruct H as [<-|[<-|[<-|[<-|[]]]]]; discriminate Er. }
  destruct (router_cases q h Er) as [[-> ->]|[[-> ->]|[[-> ->]|[-> ->]]]]; cbn [request_pc rq_tx rq_body dict_of].
  - intros [H|[? H]]; [|discriminate H]. injection H as <-. eapply Hok; [reflexivity|apply Hprop; reflexivity|constructor|idsok|reflexivity].
  - intros [H|[? H]]; [|discriminate H]. injection H as <-. eapply Hok; [reflexivity|apply Hprop; reflexivity|constructor|idsok|reflexivity].
  - eapply Hgs with (kk := "info_hash"%string); [reflexivity| | |].
    { intros H. eapply ba_no_hash; [exact Hws|auto|apply lacks_none; exact H]. }
    { intros v H Hv. eapply ba_hash; eauto. }
    intros ih Hih.
    intros [H|[? H]]; [|discriminate H]. injection H as <-. eapply Hok; [reflexivity|apply Hprop; reflexivity|econstructor; exact Hih|idsok|reflexivity].
  - eapply Hgs with (kk := "info_hash"%string); [reflexivity| | |].
    { intros H. eapply ba_no_hash; [exact Hws|auto|apply lacks_none; exact H]. }
    { intros v H Hv. eapply ba_hash; eauto. }
    intros ih Hih.
    unfold GetInteger, GetVal. destruct (dget a (B "port")) as [v|] eqn:Ep; cbn [bind].
    2: { unfold PanicBizErr. apply (Hargs "cannot find port's val"%string). eapply ba_no_port; [exact Hws|reflexivity|exact Hih|apply lacks_none; exact Ep]. }
    destruct v as [z|s|l|b| | | |k0]; cbn [bind]; try (unfold PanicBizErr; apply (Hargs "port's val cannot match type of int"%string); eapply ba_port; [exact Hws|reflexivity|exact Hih|exact Ep|discriminate]).
    intros [H|[? H]]; [discriminate H|]. injection H as _ <-. eapply Hok; [reflexivity|apply Hprop; reflexivity|econstructor; eassumption|idsok|reflexivity].
Qed.

Lemma refusal_mono uf (P Q : bytes -> Prop) d q m : (forall t, P t -> Q t) -> refusal uf P d q m -> refusal uf Q d q m.
Proof. intros H [Hs|a id Hs Ha Hi Hl|a Hs Ha Hn|m' t Hs Hm Ht]; [apply rf_type|eapply rf_id|eapply rf_handler|apply rf_args]; eauto. Qed.
Lemma reply_msg_mono uf (P Q : bytes -> Prop) me pk d : (forall t, P t -> Q t) -> reply_msg uf P me pk d -> reply_msg uf Q me pk d.
Proof. intros H [tx q a body Hp Ha|d' tx q msg Hd Hy Ht Hq Hr]; [econstructor; eassumption|eapply rm_error; try eassumption]. eapply refusal_mono; eassumption. Qed.

(** The text of a stack trace. *)
Definition traces (e : nat -> env) (t : bytes) : Prop := exists k, t = e_stack (e k).

Lemma look_no_write (f : option (request hid)) body r : ~ writes (look_pc f body) r.
Proof.
  unfold look_pc. intros [H|[x H]]; revert H; destruct f as [q|]; try discriminate; destruct (rq_handler q) as [[]|]; try discriminate;
    destruct (beq _ _); try discriminate; match goal with |- match ?m with _ => _ end = _ -> _ => destruct m; discriminate end.
Qed.

Lemma job_step_writes e me cap w pk pc w' pc' v r : job_step e me cap w pk pc w' pc' v -> writes pc' r -> writes (start_pc e me pk) r \/ writes pc r.
Proof.
  intros Hs Hw. inversion Hs; subst; clear Hs; try (destruct Hw as [H0|[? H0]]; discriminate H0); auto.
  - right. destruct Hw as [H0|[? H0]]; [|discriminate H0]. injection H0 as ->. right. eexists. reflexivity.
  - elim (look_no_write _ _ _ Hw).
Qed.
Lemma job_step_reply e me cap w pk pc w' pc' v g : job_step e me cap w pk pc w' pc' v -> In (EvReply g) v ->
  exists r, pc = JReply r /\ reply_bytes e w r = Some (g_bytes g).
Proof. intros Hs Hin. inversion Hs; subst; cbn in Hin; try contradiction; destruct Hin as [H0|Hin]; try contradiction; try discriminate H0. injection H0 as <-. eexists. split; [reflexivity|]. assumption. Qed.

Lemma reply_inv e uf me local hosts cap s : runtime_ok e uf -> conc_reach e me local hosts cap s ->
  (forall i pk pc r, In (i, pk, pc) (k_jobs s) -> writes pc r -> exists k, writes (start_pc (e k) me pk) r) /\
  (forall i pk g, In (i, EvStart pk) (k_log s) -> In (i, EvReply g) (k_log s) -> exists d, carries (g_bytes g) d /\ reply_msg uf (traces e) me pk d).
Proof.
  intros Hrt Hr. induction Hr as [w0 w Hi Hb|s s' Hr IH Hst]; [split; intros; contradiction|].
  destruct IH as [IH1 IH2]. pose proof (conc_inv _ _ _ _ _ _ _ Hrt Hr) as HI.
  assert (HI' := conc_inv _ _ _ _ _ _ _ Hrt (kr_step _ _ _ _ _ _ _ Hr Hst)).
  destruct Hst as [pk|k l1 i pk pc l2 w' pc' v Hsplit Hstep|l1 i pk l2 Hsplit|x q Hq]; cbn [k_world k_log k_jobs].
  - split.
    + intros i p pc r Hin Hw. apply in_app_iff in Hin. destruct Hin as [Hin|[E|[]]]; [eapply IH1; eassumption|]. injection E as <- <- <-. destruct Hw as [H|[? H]]; discriminate H.
    + intros i p g H1 H2. apply in_app_iff in H1, H2. destruct H2 as [H2|[E|[]]]; [|discriminate E]. destruct H1 as [H1|[E|[]]]; [eapply IH2; eassumption|].
      injection E as <- <-. exfalso. apply evs_in in H2. rewrite (i_fresh _ _ _ _ HI _ (le_n _)) in H2. destruct H2.
  - assert (Hjob : In (i, pk, pc) (k_jobs s)) by (rewrite Hsplit; apply in_elt).
    split.
    + intros j p pc0 r Hin Hw. apply in_app_iff in Hin. destruct Hin as [Hin|[E|Hin]].
      * eapply IH1; [|exact Hw]. rewrite Hsplit. apply in_app_iff. left. exact Hin.
      * injection E as <- <- <-. destruct (job_step_writes _ _ _ _ _ _ _ _ _ _ Hstep Hw) as [H|H]; [exists k; exact H|eapply IH1; eassumption].
      * eapply IH1; [|exact Hw]. rewrite Hsplit. apply in_app_iff. right. right. exact Hin.
    + intros j p g H1 H2. destruct (i_jobs _ _ _ _ HI _ _ _ Hjob) as [_ Hj].
      assert (Hnew : forall p', ~ In (EvStart p') v). { intros p' H. inversion Hstep; subst; cbn in H; intuition discriminate. }
      apply in_app_iff in H1. destruct H1 as [H1|H1]. 2: { apply in_map_iff in H1. destruct H1 as (y & E & Hy). injection E as <- ->. elim (Hnew _ Hy). }
      apply in_app_iff in H2. destruct H2 as [H2|H2]; [eapply IH2; eassumption|]. apply in_map_iff in H2. destruct H2 as (y & E & Hy). injection E as <- ->.
      apply evs_in in H1. rewrite (jok_start _ _ _ _ _ Hj H1) in *. destruct (job_step_reply _ _ _ _ _ _ _ _ _ _ Hstep Hy) as (r & -> & Eb).
      destruct (IH1 _ _ _ r Hjob (or_introl eq_refl)) as (k' & Hw). destruct (reply_form _ _ _ _ Hw) as (d & Hd & Hm).
      destruct (wire_sends (e k) (k_world s) r d (proj1 (Hrt k)) Hd) as (bs & E1 & E2). exists d. split; [congruence|]. rewrite <- (proj2 (Hrt k')). eapply reply_msg_mono; [|exact Hm]. intros t ->. exists k'. reflexivity.
  - split.
    + intros j p pc r Hin Hw. eapply IH1; [|exact Hw]. rewrite Hsplit. apply in_app_iff in Hin. apply in_app_iff. destruct Hin as [Hin|Hin]; [left; exact Hin|right; right; exact Hin].
    + intros j p g H1 H2. apply in_app_iff in H1, H2. destruct H1 as [H1|[E|[]]]; [|discriminate E]. destruct H2 as [H2|[E|[]]]; [|discriminate E]. eapply IH2; eassumption.
  - split; assumption.
Qed.

(** C104: every reply carries the BEP-5 answer to the packet, or error 203 with the text of the reason. *)
Lemma C104_reply_content_pf : forall e uf me local hosts cap s i pk g, runtime_ok e uf -> conc_reach e me local hosts cap s ->
  In (i, EvStart pk) (k_log s) -> In (i, EvReply g) (k_log s) -> exists d, carries (g_bytes g) d /\ reply_msg uf (traces e) me pk d.
Proof. intros e uf me local hosts cap s i pk g Hrt Hr H1 H2. eapply (proj2 (reply_inv _ _ _ _ _ _ _ Hrt Hr)); eassumption. Qed.

(** ** Sizes *)
Lemma fits_10000 b : (Z.of_nat (length b) < 10000)%Z -> fits b.
Proof. unfold fits, max_int. lia. Qed.
Lemma dget_in d k v : dget d k = Some v -> In (k, v) d.
Proof. induction d as [|[k' v'] d IH]; cbn; [discriminate|]. destruct (beq k' k) eqn:E; [|auto]. apply beq_eq in E. subst. intros H. injection H as ->. auto. Qed.

Lemma asks_weight pk tx q : (Z.of_nat (length (p_bytes pk)) < 10000)%Z -> asks pk tx q -> length tx + length q + 17 <= length (p_bytes pk).
Proof.
  intros Hl (d & [n Hd] & Hy & Ht & Hq). destruct (C101_decoded_size_pf _ (fits_10000 _ Hl)) as (H & _). destruct (H _ _ Hd) as [Hw _].
  unfold field in *. assert (S (eweight [(B "y", VStr (B "q")); (B "t", VStr tx); (B "q", VStr q)]) <= weight (VDict d)).
  { apply fields_weight; [|intros x [<-|[<-|[<-|[]]]]; apply dget_in; assumption].
    repeat (constructor; [cbn; intuition discriminate|]). constructor. }
  pose proof (Nat.le_trans _ _ _ H0 Hw) as H1. clear H0. rename H1 into H0.
  unfold eweight in H0. cbn [fold_right fst snd weight] in H0. change (length (B "y")) with 1 in H0. change (length (B "t")) with 1 in H0. change (length (B "q")) with 1 in H0. lia.
Qed.
Lemma proper_weight pkt tx q a : (Z.of_nat (length pkt) < 10000)%Z -> proper_query pkt tx q a -> length tx + length (B q) + 19 + weight (VDict a) <= length pkt /\ 27 <= weight (VDict a).
Proof.
  intros Hl (d & id & [n Hd] & Hy & Ht & Hq & Ha & Hid & Hlen). destruct (C101_decoded_size_pf _ (fits_10000 _ Hl)) as (H & _). destruct (H _ _ Hd) as [Hw _].
  unfold field in *. split.
  - assert (S (eweight [(B "y", VStr (B "q")); (B "t", VStr tx); (B "q", VStr (B q)); (B "a", VDict a)]) <= weight (VDict d)).
    { apply fields_weight; [|intros x [<-|[<-|[<-|[<-|[]]]]]; apply dget_in; assumption].
      repeat (constructor; [cbn; intuition discriminate|]). constructor. }
    unfold eweight in H0. cbn [fold_right fst snd] in H0. change (weight (VStr tx)) with (length tx + 2) in H0. change (weight (VStr (B q))) with (length (B q) + 2) in H0.
    change (weight (VStr (B "q"))) with 3 in H0.
    change (length (B "y")) with 1 in H0. change (length (B "t")) with 1 in H0. change (length (B "q")) with 1 in H0. change (length (B "a")) with 1 in H0. lia.
  - assert (H0 : S (eweight [(B "id", VStr id)]) <= weight (VDict a)).
    { apply fields_weight; [|intros x [<-|[]]; apply dget_in; assumption]. constructor; [auto|constructor]. }
    revert H0. generalize (weight (VDict a)). intros wa H0. unfold eweight in H0. cbn [fold_right fst snd weight] in H0. rewrite Hlen in H0. change (length (B "id")) with 2 in H0. lia.
Qed.

Ltac sz H := unfold ok_reply, error_reply, query_msg, esize in H; cbn [fold_right fst snd wsize] in H;
  repeat match type of H with context[ssize (length (B ?x))] => let n := eval vm_compute in (ssize (length (B x))) in change (ssize (length (B x))) with n in H end;
  repeat match type of H with context[length (itoa ?z)] => let n := eval vm_compute in (length (itoa z)) in change (length (itoa z)) with n in H end.

Lemma answer_size b me tx q a body pkt : (Z.of_nat (length pkt) < 10000)%Z -> length me = 20 -> proper_query pkt tx q a -> answer me tx a q body -> carries b (ok_reply tx body) ->
  length b <= 2 * length pkt /\ (q <> "get_peers"%string -> length b <= length pkt + 2).
Proof.
  intros Hl Hme Hp Ha Hc. apply carries_size in Hc. destruct (proper_weight _ _ _ _ Hl Hp) as [H1 H2].
  assert (Hs : ssize (length tx) <= length tx + 5) by (apply ssize_small; lia).
  assert (Hm : ssize 20 = 23) by reflexivity.
  destruct Ha as [| |ih Hih|ih po Hih Hpo]; sz Hc; rewrite Hme, ?Hm in Hc; rewrite Hc; clear Hc.
  - change (length (B "ping")) with 4 in H1. split; [lia|]. intros _. lia.
  - change (length (B "find_node")) with 9 in H1. split; [|intros _]; change (ssize (length [])) with 2; lia.
  - change (length (B "get_peers")) with 9 in H1. split; [|intros E; elim E; reflexivity].
    assert (H0 : S (eweight [(B "info_hash", VStr ih)]) <= weight (VDict a)).
    { apply fields_weight; [|intros x [<-|[]]; apply dget_in; assumption]. constructor; [auto|constructor]. }
    change (ssize (length [])) with 2. lia.
  - change (length (B "announce_peer")) with 13 in H1. split; [lia|]. intros _. lia.
Qed.

Lemma bad_args_len d q m : bad_args d q m -> length (B m) <= 50.
Proof. intros H. destruct H; vm_compute; lia. Qed.

Lemma ssize_small5 n : (Z.of_nat n < 100000)%Z -> ssize n <= n + 6.
Proof.
  intros H. unfold ssize. assert (length (utoa (N.of_nat n)) <= 5); [|lia]. apply utoa_len; [|lia].
  change (10 ^ N.of_nat 5)%N with 100000%N. lia.
Qed.
Lemma error_size b uf d tx q msg pk (stack : bytes -> Prop) L : (Z.of_nat (length (p_bytes pk)) < 10000)%Z -> asks pk tx q -> refusal uf stack d q msg -> carries b (error_reply tx 203 msg) ->
  (forall t, stack t -> length t <= L) -> (Z.of_nat L + 100 <= max_int)%Z -> length b <= length (p_bytes pk) + 100 + L.
Proof.
  intros Hl Ha Hr Hc HL Hmax. apply carries_size in Hc. pose proof (asks_weight _ _ _ Hl Ha) as H1.
  assert (Hs : ssize (length tx) <= length tx + 5) by (apply ssize_small; lia).
  sz Hc. rewrite Hc. clear Hc. destruct Hr as [Hs'|a id Hs' Ha' Hi Hl'|a Hs' Ha' Hn|m t Hs' Hm Ht].
  - assert (length (B "donnot support <" ++ q ++ B "> query type") = length q + 28) as E by (rewrite !app_length; change (length (B "donnot support <")) with 16; change (length (B "> query type")) with 12; lia).
    rewrite E. assert (ssize (length q + 28) <= length q + 28 + 6) by (apply ssize_small5; lia). lia.
  - change (ssize (length (B "id format err"))) with 16. lia.
  - change (ssize (length (B "cannot handle not match handler"))) with 34. lia.
  - pose proof (bad_args_len _ _ _ Hm) as Hb. specialize (HL _ Ht).
    assert (length (B "201: " ++ B m ++ [byte_of 13; byte_of 10] ++ B "stacks:" ++ [byte_of 13; byte_of 10] ++ t) = length (B m) + length t + 16) as E.
    { rewrite !app_length. change (length (B "201: ")) with 5. change (length (B "stacks:")) with 7. cbn [length]. lia. }
    rewrite E. assert (ssize (length (B m) + length t + 16) <= length (B m) + length t + 16 + 20) by (apply ssize_fits; lia). lia.
Qed.

(** C104: the size of replies.  For packets of less than 10000 bytes (the receive buffer holds 1024) the answer to a
    get_peers query is at most twice as long as the query, every other answer at most 2 bytes longer than the
    query, and an error reply at most 100 bytes longer than the query and a stack trace together. *)
Lemma C104_reply_size_pf : forall e uf me local hosts cap s i pk g L, runtime_ok e uf -> conc_reach e me local hosts cap s -> length me = 20 ->
  (forall k, length (e_stack (e k)) <= L) -> (Z.of_nat L + 100 <= max_int)%Z ->
  In (i, EvStart pk) (k_log s) -> In (i, EvReply g) (k_log s) -> (Z.of_nat (length (p_bytes pk)) < 10000)%Z ->
  (exists tx q a body, proper_query (p_bytes pk) tx q a /\ carries (g_bytes g) (ok_reply tx body) /\
     length (g_bytes g) <= 2 * length (p_bytes pk) /\ (q <> "get_peers"%string -> length (g_bytes g) <= length (p_bytes pk) + 2)) \/
  (exists tx msg, carries (g_bytes g) (error_reply tx 203 msg) /\ length (g_bytes g) <= length (p_bytes pk) + 100 + L).
Proof.
  intros e uf me local hosts cap s i pk g L Hrt Hr Hme HL Hmax H1 H2 Hl.
  destruct (C104_reply_content_pf _ _ _ _ _ _ _ _ _ _ Hrt Hr H1 H2) as (d & Hc & Hd). destruct Hd as [tx q a body Hp Ha|d tx q msg Hd Hy Ht Hq Hm].
  - left. exists tx, q, a, body. split; [exact Hp|]. split; [exact Hc|]. eapply answer_size; eassumption.
  - right. exists tx, msg. split; [exact Hc|]. eapply error_size; try eassumption; [exists d; auto|]. intros t [k ->]. apply HL.
Qed.

Lemma query_size b tx me : length me = 20 -> length tx = 4 -> carries b (query_msg tx "find_node" [(B "id", VStr me); (B "target", VStr me)]) -> length b = 94.
Proof.
  intros Hme Htx Hc. apply carries_size in Hc. sz Hc. rewrite Hme, Htx in Hc. change (ssize 4) with 6 in Hc. change (ssize 20) with 23 in Hc. exact Hc.
Qed.
Lemma txid_len v : length (txid_string v) = 4.
Proof. unfold txid_string. rewrite hex_length. reflexivity. Qed.
Lemma drawn_len e uf me local hosts cap s i tx : runtime_ok e uf -> conc_reach e me local hosts cap s -> In tx (drawn_in (evs i (k_log s))) -> length tx = 4.
Proof.
  intros Hrt Hr Hin. destruct (C88_ids_any_schedule_pf _ _ _ _ _ _ _ Hrt Hr) as [E _].
  assert (Hi : In tx (drawn_in (map snd (k_log s)))).
  { unfold drawn_in in *. apply in_flat_map in Hin. destruct Hin as (v & Hv & Htx). apply in_flat_map. exists v. split; [|exact Htx]. apply evs_in in Hv.
    apply in_map_iff. exists (i, v). auto. }
  rewrite E in Hi. apply in_map_iff in Hi. destruct Hi as (k & <- & _). apply txid_len.
Qed.

(** C104: every query the crawler sends, bootstrap queries included, is a datagram of 94 bytes. *)
Lemma C104_query_size_pf : forall e uf me local hosts cap s, runtime_ok e uf -> conc_reach e me local hosts cap s -> length me = 20 ->
  (forall i g, In (i, EvQuery g) (k_log s) -> length (g_bytes g) = 94) /\
  exists gs, w_sent (k_world s) = gs ++ sent_in (map snd (k_log s)) /\ length gs = length hosts /\ forall g, In g gs -> length (g_bytes g) = 94.
Proof.
  intros e uf me local hosts cap s Hrt Hr Hme. split.
  - intros i g Hin. destruct (proj1 (C88_registered_before_sent_pf _ _ _ _ _ _ _ Hrt Hr) _ _ Hin) as (tx & Htx & Hc & _).
    eapply query_size; [exact Hme| |exact Hc]. eapply drawn_len; eassumption.
  - destruct (C93_all_datagrams_pf _ _ _ _ _ _ _ Hrt Hr) as (gs & Hb & E). exists gs. split; [exact E|]. clear - Hb Hme.
    induction Hb as [tx|tx h hs g gs Hto Hc Hb IH]; [split; [reflexivity|intros g []]|]. destruct IH as [IH1 IH2]. split; [cbn; congruence|].
    intros g' [<-|Hin]; [|auto]. eapply query_size; [exact Hme|apply txid_len|exact Hc].
Qed.

Lemma filter_len {X} (f : X -> bool) l : length (filter f l) <= length l.
Proof. induction l as [|x l IH]; cbn; [lia|]. destruct (f x); cbn; lia. Qed.
Lemma bytes_cons g l : bytes_in (g :: l) = length (g_bytes g) + bytes_in l.
Proof. reflexivity. Qed.
Lemma bytes_const l n : (forall g, In g l -> length (g_bytes g) = n) -> bytes_in l = length l * n.
Proof. induction l as [|g l IH]; intros H; [reflexivity|]. rewrite bytes_cons, (H g (or_introl eq_refl)), IH; [cbn [length]; lia|]. intros g' Hg. apply H. right. exact Hg. Qed.
Lemma asked_len me ns txs gs : asked me ns txs gs -> length gs = length ns.
Proof. induction 1; [reflexivity|]. rewrite !app_length, IHasked. reflexivity. Qed.
Lemma bytes_split l : bytes_in (sent_in l) = bytes_in (replies_in l) + bytes_in (queries_in l).
Proof.
  induction l as [|v l IH]; [reflexivity|]. destruct v; try exact IH.
  - change (sent_in (EvReply g :: l)) with (g :: sent_in l). change (replies_in (EvReply g :: l)) with (g :: replies_in l). change (queries_in (EvReply g :: l)) with (queries_in l). rewrite !bytes_cons, IH. lia.
  - change (sent_in (EvQuery g :: l)) with (g :: sent_in l). change (replies_in (EvQuery g :: l)) with (replies_in l). change (queries_in (EvQuery g :: l)) with (g :: queries_in l). rewrite !bytes_cons, IH. lia.
Qed.
Lemma in_replies g l : In g (replies_in l) -> In (EvReply g) l.
Proof. unfold replies_in. intros H. apply in_flat_map in H. destruct H as ([] & Hv & Hin); cbn in Hin; try contradiction. destruct Hin as [->|[]]. exact Hv. Qed.
Lemma in_queries g l : In g (queries_in l) -> In (EvQuery g) l.
Proof. unfold queries_in. intros H. apply in_flat_map in H. destruct H as ([] & Hv & Hin); cbn in Hin; try contradiction. destruct Hin as [->|[]]. exact Hv. Qed.

Lemma nodes_weight pk tx ns : (Z.of_nat (length (p_bytes pk)) < 10000)%Z -> lists_nodes pk tx ns -> 26 * length ns + 20 <= length (p_bytes pk).
Proof.
  intros Hl (d & body & id & nodes & [n Hd] & Hy & Ht & Hr & Hid & Hn & Hp). destruct (C101_decoded_size_pf _ (fits_10000 _ Hl)) as (H & _). destruct (H _ _ Hd) as [Hw _].
  destruct (C21_parse_node_info_total_pf nodes) as (ns' & Ens & Hlen & _). rewrite Ens in Hp. injection Hp as ->.
  assert (26 * length ns <= length nodes) by (rewrite Hlen; apply Nat.mul_div_le; lia).
  unfold field in *.
  assert (H1 : S (eweight [(B "r", VDict body)]) <= weight (VDict d)).
  { apply fields_weight; [|intros x [<-|[]]; apply dget_in; assumption]. constructor; [auto|constructor]. }
  assert (H2 : S (eweight [(B "id", VStr id); (B "nodes", VStr nodes)]) <= weight (VDict body)).
  { apply fields_weight; [|intros x [<-|[<-|[]]]; apply dget_in; assumption]. constructor; [intros [E|[]]; discriminate E|]. constructor; [auto|constructor]. }
  unfold eweight in H1 at 1. cbn [fold_right fst snd] in H1. change (length (B "r")) with 1 in H1.
  unfold eweight in H2 at 1. cbn [fold_right fst snd] in H2. change (weight (VStr id)) with (length id + 2) in H2. change (weight (VStr nodes)) with (length nodes + 2) in H2.
  change (length (B "id")) with 2 in H2. change (length (B "nodes")) with 5 in H2. lia.
Qed.

(** C104: in all, the handler of a packet of less than 10000 bytes sends at most four times as many bytes as it got, plus 100, plus a
    stack trace. *)
Lemma C104_total_bytes_pf : forall e uf me local hosts cap s i pk L, runtime_ok e uf -> conc_reach e me local hosts cap s -> length me = 20 ->
  (forall k, length (e_stack (e k)) <= L) -> (Z.of_nat L + 100 <= max_int)%Z ->
  In (i, EvStart pk) (k_log s) -> (Z.of_nat (length (p_bytes pk)) < 10000)%Z ->
  bytes_in (sent_in (evs i (k_log s))) <= 4 * length (p_bytes pk) + 100 + L /\
  ((forall tx q, ~ asks pk tx q) -> bytes_in (sent_in (evs i (k_log s))) <= 4 * length (p_bytes pk)).
Proof.
  intros e uf me local hosts cap s i pk L Hrt Hr Hme HL Hmax Hin Hl.
  destruct (C86_replies_any_schedule_pf _ _ _ _ _ _ _ _ _ Hrt Hr Hin) as (_ & Hone & Hno & _).
  pose proof (C104_query_size_pf _ _ _ _ _ _ _ Hrt Hr Hme) as [Hq _].
  assert (HQ : bytes_in (queries_in (evs i (k_log s))) = length (queries_in (evs i (k_log s))) * 94).
  { apply bytes_const. intros g Hg. apply (Hq i). apply evs_in. apply in_queries. exact Hg. }
  assert (HR : bytes_in (replies_in (evs i (k_log s))) <= 2 * length (p_bytes pk) + 100 + L).
  { assert (Hb : forall g, In g (replies_in (evs i (k_log s))) -> length (g_bytes g) <= 2 * length (p_bytes pk) + 100 + L).
    { intros g Hg. apply in_replies in Hg. apply evs_in in Hg. destruct (C104_reply_size_pf _ _ _ _ _ _ _ _ _ _ _ Hrt Hr Hme HL Hmax Hin Hg Hl) as [(tx & q & a & body & _ & _ & H & _)|(tx & msg & _ & H)]; lia. }
    destruct (replies_in (evs i (k_log s))) as [|g [|g' l]]; [cbn; lia| |cbn in Hone; lia]. unfold bytes_in. cbn. rewrite Nat.add_0_r. apply Hb. left. reflexivity. }
  rewrite bytes_split, HQ.
  destruct (C89_node_lists_any_schedule_pf _ _ _ _ _ _ _ _ _ Hrt Hr Hin) as [(_ & _ & Eq)|(tx & ns & rest & acc & more & txs & late & Hls & H1 & H2 & _ & _ & _ & H3 & _)].
  - rewrite Eq. cbn [length]. split; [lia|]. intros Hna. rewrite (Hno Hna). unfold bytes_in. cbn. lia.
  - assert (Hna : forall t q, ~ asks pk t q).
    { intros t q (d' & [n' Hd'] & Hy' & _). destruct Hls as (d & body & id & nodes & [n Hd] & Hy & _). rewrite Hd in Hd'. injection Hd' as <- _. unfold field in *. rewrite Hy in Hy'. discriminate Hy'. }
    rewrite (Hno Hna). change (bytes_in []) with 0. rewrite Nat.add_0_l.
    assert (Hacc : length (queries_in (evs i (k_log s))) <= length ns).
    { rewrite (asked_len _ _ _ _ H3). rewrite <- H1, app_length, map_length. transitivity (length (accepted_in (evs i (k_log s)))); [rewrite H2, app_length; lia|].
      unfold accepted_in. rewrite map_length. pose proof (filter_len snd (tried_in (evs i (k_log s)))). lia. }
    pose proof (nodes_weight _ _ _ Hl Hls). split; [lia|]. intros _. lia.
Qed.

Lemma can_ask e uf me local hosts cap s pk tx q : runtime_ok e uf -> conc_reach e me local hosts cap s -> (forall x, ~ announcement pk x) -> asks pk tx q ->
  exists s' i g, conc_steps e me cap s s' /\ conc_reach e me local hosts cap s' /\ In (i, EvStart pk) (k_log s') /\ In (i, EvReply g) (k_log s') /\ g_to g = p_addr pk.
Proof.
  intros Hrt Hr Hna Hask.
  pose proof (ks_begin e me cap s pk) as Hb. set (s1 := {| k_world := _; k_jobs := _; k_next := _; k_taken := _; k_log := _ |}) in Hb.
  assert (Hr1 : conc_reach e me local hosts cap s1) by (eapply kr_step; eassumption).
  assert (Hin1 : In (k_next s, EvStart pk) (k_log s1)) by (apply in_app_iff; right; left; reflexivity).
  destruct (C91_handlers_finish_alone_pf _ _ _ _ _ _ _ _ _ Hrt Hr1 Hin1) as (s' & Hst & Hend & Hmon & _ & _).
  { intros H. pose proof (conc_inv _ _ _ _ _ _ _ Hrt Hr) as HI. apply in_app_iff in H. destruct H as [H|[H|[]]]; [|discriminate H].
    apply evs_in in H. rewrite (i_fresh _ _ _ _ HI _ (le_n _)) in H. destruct H. }
  { right. left. exact Hna. }
  assert (Hr' : conc_reach e me local hosts cap s') by (eapply steps_reach; eassumption).
  assert (Hin' : In (k_next s, EvStart pk) (k_log s')). { destruct (steps_log _ _ _ _ _ Hst) as (more & ->). apply in_app_iff. left. exact Hin1. }
  destruct (C86_replies_any_schedule_pf _ _ _ _ _ _ _ _ _ Hrt Hr' Hin') as (Hto & _ & _ & Hone).
  specialize (Hone Hend (ex_intro _ tx (ex_intro _ q Hask))). destruct (replies_in (evs (k_next s) (k_log s'))) as [|g l] eqn:Eg; [discriminate Hone|].
  assert (Hg : In (k_next s, EvReply g) (k_log s')). { apply evs_in. apply in_replies. rewrite Eg. left. reflexivity. }
  exists s', (k_next s), g. split; [clear - Hst Hb; induction Hst as [|s2 s3 s4 _ IH Hs]; [eapply kst_step; [constructor|exact Hb]|eapply kst_step; [exact (IH Hb)|exact Hs]]|].
  split; [exact Hr'|]. split; [exact Hin'|]. split; [exact Hg|]. apply Hto. left. reflexivity.
Qed.

(** C104 refuted for "replies disclose nothing of the crawler's internals": whatever the state, a 24-byte datagram without
    arguments is answered with the text of the goroutine's stack trace. *)
Lemma C104_discloses_stack_refuted_pf : forall e uf me local hosts cap s addr, runtime_ok e uf -> conc_reach e me local hosts cap s ->
  exists pk s' i g k, p_addr pk = addr /\ length (p_bytes pk) = 24 /\ conc_steps e me cap s s' /\ In (i, EvStart pk) (k_log s') /\ In (i, EvReply g) (k_log s') /\
    g_to g = addr /\ carries (g_bytes g) (error_reply (B "aa") 203 (B "201: cannot find a's val" ++ [byte_of 13; byte_of 10] ++ B "stacks:" ++ [byte_of 13; byte_of 10] ++ e_stack (e k))).
Proof.
  intros e uf me local hosts cap s addr Hrt Hr.
  set (pk := {| p_addr := addr; p_bytes := B "d1:q4:ping1:t2:aa1:y1:qe"; p_buf := 0 |}).
  assert (Hdec : forall d, packet_dict (p_bytes pk) d -> d = [(B "q", VStr (B "ping")); (B "t", VStr (B "aa")); (B "y", VStr (B "q"))]).
  { intros d [n H]. vm_compute in H. injection H as <- _. reflexivity. }
  destruct (can_ask _ _ _ _ _ _ _ pk (B "aa") (B "ping") Hrt Hr) as (s' & i & g & Hst & Hr' & Hin' & Hg & Hto).
  { intros x (tx & a & ih & port & (d & id & Hd & _ & _ & _ & Ha & _) & _). rewrite (Hdec _ Hd) in Ha. discriminate Ha. }
  { eexists. split; [eexists; vm_compute; reflexivity|]. repeat split. }
  destruct (C104_reply_content_pf _ _ _ _ _ _ _ _ _ _ Hrt Hr' Hin' Hg) as (d & Hc & Hm).
  assert (Hd : exists k, d = error_reply (B "aa") 203 (B "201: cannot find a's val" ++ [byte_of 13; byte_of 10] ++ B "stacks:" ++ [byte_of 13; byte_of 10] ++ e_stack (e k))).
  { destruct Hm as [tx q a body (d & id & Hd & _ & _ & _ & Ha & _) _|d tx q msg Hd Hy Ht Hq Hrf]; [rewrite (Hdec _ Hd) in Ha; discriminate Ha|].
    rewrite (Hdec _ Hd) in *. clear Hd d. unfold field in Ht, Hq. cbn in Ht, Hq. injection Ht as <-. injection Hq as <-.
    assert (Hna : forall a, ~ arguments [(B "q", VStr (B "ping")); (B "t", VStr (B "aa")); (B "y", VStr (B "q"))] a) by (intros a [H|[H _]]; discriminate H).
    assert (Hs : supported uf (B "ping")). { exists (B "ping"). split; [left; reflexivity|apply EqualFold_refl]. }
    destruct Hrf as [Hs'|a id Hs' Ha' Hi Hl'|a Hs' [Ha' _] Hn|m t Hs' Hm [k ->]]; [contradiction|elim (Hna _ Ha')|elim (Hna _ Ha')|].
    exists k. destruct Hm as [Hl|v Hv _|a Ha _|a v Ha _ _|a [Ha _] _ _|a v [Ha _] _ _ _|a ih [Ha _] _ _ _|a ih v [Ha _] _ _ _]; try elim (Hna _ Ha); [|discriminate Hv]. reflexivity. }
  destruct Hd as (k & ->). exists pk, s', i, g, k. auto 10.
Qed.

(** C104 refuted for "replies fit the 1024-byte buffers the crawler itself receives with": the transaction id is sent back twice. *)
Definition ex_long : packet := {| p_addr := ex_addr 2; p_bytes := B "d1:ad2:id20:aaaaaaaaaaaaaaaaaaaa9:info_hash2:ihe1:q9:get_peers1:t600:" ++ repeat "x"%char 600 ++ B "1:y1:qe"; p_buf := 0 |}.
Lemma C104_reply_exceeds_buffer_refuted_pf : forall e uf me local hosts cap s, runtime_ok e uf -> conc_reach e me local hosts cap s -> length me = 20 ->
  exists pk s' i g, length (p_bytes pk) = 676 /\ conc_steps e me cap s s' /\ In (i, EvStart pk) (k_log s') /\ In (i, EvReply g) (k_log s') /\ length (g_bytes g) = 1267.
Proof.
  intros e uf me local hosts cap s Hrt Hr Hme.
  set (tx := repeat "x"%char 600). set (a := [(B "id", VStr (B "aaaaaaaaaaaaaaaaaaaa")); (B "info_hash", VStr (B "ih"))]).
  set (dd := [(B "a", VDict a); (B "q", VStr (B "get_peers")); (B "t", VStr tx); (B "y", VStr (B "q"))]).
  assert (Hd : packet_dict (p_bytes ex_long) dd). { exists 676. vm_compute. reflexivity. }
  assert (Hdec : forall d, packet_dict (p_bytes ex_long) d -> d = dd).
  { intros d [n H]. destruct Hd as [n' Hd]. rewrite Hd in H. injection H as <- _. reflexivity. }
  destruct (can_ask _ _ _ _ _ _ _ ex_long tx (B "get_peers") Hrt Hr) as (s' & i & g & Hst & Hr' & Hin' & Hg & Hto).
  { intros x (t & a' & ih & port & (d & id & Hd' & _ & _ & Hq & _) & _). rewrite (Hdec _ Hd') in Hq. discriminate Hq. }
  { exists dd. split; [exact Hd|]. repeat split. }
  exists ex_long, s', i, g. split; [vm_compute; reflexivity|]. split; [exact Hst|]. split; [exact Hin'|]. split; [exact Hg|].
  destruct (C104_reply_content_pf _ _ _ _ _ _ _ _ _ _ Hrt Hr' Hin' Hg) as (d & Hc & Hm).
  assert (Hs : supported uf (B "get_peers")). { exists (B "get_peers"). split; [cbn; tauto|apply EqualFold_refl]. }
  destruct Hm as [t q a' body (d & id & Hd' & _ & Ht & Hq & Ha & _) Hans|d t q msg Hd' Hy Ht Hq Hrf]; rewrite (Hdec _ Hd') in *; unfold field in *; cbn in Ht, Hq; injection Ht as <-; injection Hq as Hq.
  - assert (q = "get_peers"%string) as ->. { inversion Hans; subst q; try discriminate Hq; reflexivity. }
    inversion Hans; subst. apply carries_size in Hc. sz Hc. rewrite Hme in Hc. rewrite Hc. vm_compute. reflexivity.
  - exfalso. subst q.
    assert (Haa : forall a', arguments dd a' -> a' = a). { intros a' [H|[H _]]; [injection H as <-; reflexivity|discriminate H]. }
    destruct Hrf as [Hs'|a' id Hs' Ha' Hi Hl'|a' Hs' [Ha' _] Hn|m t Hs' Hm _]; [contradiction| | |].
    + rewrite (Haa _ Ha') in Hi. injection Hi as <-. apply Hl'. reflexivity.
    + apply Hn. cbn. tauto.
    + destruct Hm as [Hl|v Hv Hno|a' Ha Hl|a' v Ha Hv Hno|a' [Ha _] _ Hl|a' v [Ha _] _ Hv Hno|a' ih [Ha _] E _ _|a' ih v [Ha _] E _ _ _]; try discriminate E; try rewrite (Haa _ Ha) in *.
      * eapply Hl. reflexivity.
      * apply (Hno a). left. reflexivity.
      * eapply Hl. reflexivity.
      * injection Hv as <-. eapply Hno. reflexivity.
      * eapply Hl. reflexivity.
      * injection Hv as <-. eapply Hno. reflexivity.
Qed.

(** Non-vacuity: an announcement of 90 bytes is answered with 47, a node list of 91 bytes leads to 188. *)
Lemma C104_example_pf : exists s, runtime_ok (fun _ => ex_env) (fun _ _ => false) /\ conc_reach (fun _ => ex_env) ex_me (mkaddr [] 6881) [ex_addr 1] 1 s /\ length ex_me = 20 /\
  In (0, EvStart ex_ann) (k_log s) /\ bytes_in (replies_in (evs 0 (k_log s))) = 47 /\ length (p_bytes ex_ann) = 90 /\
  In (1, EvStart ex_list) (k_log s) /\ bytes_in (sent_in (evs 1 (k_log s))) = 188 /\ length (p_bytes ex_list) = 91.
Proof.
  exists (ex_run 1 ex_sched). split; [exact ex_runtime|]. split; [apply ex_run_reach|]. split; [reflexivity|].
  split; [vm_compute; tauto|]. split; [vm_compute; reflexivity|]. split; [vm_compute; reflexivity|]. split; [vm_compute; tauto|]. split; vm_compute; reflexivity.
Qed.
