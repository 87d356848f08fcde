(** CrowdProofs.v -- lemmas for C116: in a crowd, every download is a download among others (C112). *)
From Verif Require Import Base GoLib Bencode BencodeSpec BencodeProofs BencodePf Types TypesPf Krpc KrpcProofs BytesPool BytesPoolPf Sha1 PeerWire PeerWirePf Fetch FetchSpec FetchProofs FetchPf SessionSpec SessionProofs SessionRun ShareSpec ShareProofs Crowd CrowdSim CrowdOk.
From Verif Require Import BytesPool.
Local Open Scope list_scope.

Definition helds (l : list dl) : list slc := flat_map d_held l.
Definition bigs (l : list dl) : nat := fold_right (fun d n => d_big d + n) 0 l.
Lemma helds_app a b : helds (a ++ b) = helds a ++ helds b. Proof. apply flat_map_app. Qed.
Lemma bigs_app a b : bigs (a ++ b) = bigs a + bigs b.
Proof. unfold bigs. induction a as [|d a IH]; [reflexivity|]. cbn [app fold_right]. rewrite IH. lia. Qed.
Lemma helds_mid a d b : Permutation (helds (a ++ d :: b)) (d_held d ++ helds (a ++ b)).
Proof.
  rewrite !helds_app. change (helds (d :: b)) with (d_held d ++ helds b). rewrite !app_assoc. apply Permutation_app_tail, Permutation_app_comm.
Qed.
Lemma bigs_mid a d b : bigs (a ++ d :: b) = d_big d + bigs (a ++ b).
Proof. rewrite !bigs_app. change (bigs (d :: b)) with (d_big d + bigs b). lia. Qed.

(** Two pools that differ at most in the private entry. *)
Definition peq (p q : pool) : Prop :=
  chan_of (p_chans p) 4 = chan_of (p_chans q) 4 /\ chan_of (p_chans p) 32768 = chan_of (p_chans q) 32768 /\ p_max p = p_max q.
Lemma peq_refl p : peq p p. Proof. repeat split. Qed.
Lemma peq_set p q l : peq p q -> peq (set_theirs p l) q.
Proof. intros (H1 & H2 & H3). unfold peq. rewrite !chan_set by lia. auto. Qed.
Lemma peq_get p q h (big : bool) p' h' b : peq p q -> GetBySize q h (if big then 32768 else 4) = Ok (p', h', b) ->
  exists p1, GetBySize p h (if big then 32768 else 4) = Ok (p1, h', b) /\ peq p1 p' /\ theirs p1 = theirs p.
Proof.
  intros (H1 & H2 & H3). unfold GetBySize. destruct big.
  - rewrite H2. destruct (chan_of (p_chans q) 32768) as [|x l] eqn:E.
    + cbn [Z.ltb Z.compare]. destruct (h_alloc h 32768) as [h1 c]. intros X. injection X as <- <- <-. exists p. split; [reflexivity|]. split; [|reflexivity]. split; [congruence|]. split; [congruence|exact H3].
    + intros X. injection X as <- <- <-. eexists. split; [reflexivity|]. unfold peq, theirs. cbn [p_chans p_max]. rewrite !chan_of_upd by reflexivity. cbn [Z.eqb Pos.eqb]. rewrite ?E, ?H1, ?H2, ?H3, ?E. auto.
  - rewrite H1. destruct (chan_of (p_chans q) 4) as [|x l] eqn:E.
    + cbn [Z.ltb Z.compare]. destruct (h_alloc h 4) as [h1 c]. intros X. injection X as <- <- <-. exists p. split; [reflexivity|]. split; [|reflexivity]. split; [congruence|]. split; [congruence|exact H3].
    + intros X. injection X as <- <- <-. eexists. split; [reflexivity|]. unfold peq, theirs. cbn [p_chans p_max]. rewrite !chan_of_upd by reflexivity. cbn [Z.eqb Pos.eqb]. rewrite ?E, ?H1, ?H2, ?H3, ?E. auto.
Qed.
Lemma peq_put p q b : peq p q -> (s_cap b = 4 \/ s_cap b = 32768)%Z -> peq (Put p b) (Put q b) /\ theirs (Put p b) = theirs p.
Proof.
  intros (H1 & H2 & H3) Hc. unfold Put. assert (E : chan_of (p_chans p) (s_cap b) = chan_of (p_chans q) (s_cap b)) by (destruct Hc as [->| ->]; assumption).
  rewrite E, H3. destruct (_ <? _); [|repeat split; auto]. unfold peq, theirs. cbn [p_chans p_max]. rewrite !chan_of_upd by reflexivity. rewrite E, H1, H2.
  destruct Hc as [->| ->]; cbn; auto.
Qed.
Lemma put_full p b b' : full_slice b = full_slice b' -> Put p b = Put p b'.
Proof. intros E. unfold Put. rewrite E. apply (f_equal s_cap) in E. cbn [full_slice s_cap] in E. rewrite E. reflexivity. Qed.

(** The buffers known to a download begin with the bytes it read into them. *)
Definition knows (h : heap) (W : hand) : Prop := Forall (fun x => firstn (length (snd x)) (skipn (Z.to_nat (s_off (fst x))) (h_data h (s_arr (fst x)))) = snd x) W.
Definition framed (peer : option (list bytes)) (n : nat) : Prop :=
  exists hs bodies, peer = Some (hs :: map frame bodies) /\ length hs <= 68 /\ Forall (fun m => (N.of_nat (length m) < 2 ^ 32)%N) bodies /\ n = spoken bodies.
Definition hands (h : heap) (d : dl) : Prop :=
  exists m W, map fst W = d_held d /\ knows h W /\ okp m W (d_now d) whatever.
Definition thrifty (h : heap) (d : dl) : Prop :=
  forall n, framed (d_peer d) n -> exists m W, map fst W = d_held d /\ knows h W /\ okp m W (d_now d) whatever /\ d_big d + m = n.

Lemma knows_other h h' W : knows h W -> (forall a, In a (arrs (map fst W)) -> h_data h' a = h_data h a) -> knows h' W.
Proof.
  intros H Hd. apply Forall_forall. intros x Hx. unfold knows in H. rewrite Forall_forall in H. rewrite Hd; [apply H, Hx|]. unfold arrs. rewrite map_map. apply in_map_iff. eauto.
Qed.
Lemma hands_other h h' d : hands h d -> (forall a, In a (arrs (d_held d)) -> h_data h' a = h_data h a) -> hands h' d.
Proof. intros (m & W & E & K & O) Hd. exists m, W. split; [exact E|]. split; [|exact O]. eapply knows_other; [exact K|]. rewrite E. exact Hd. Qed.
Lemma thrifty_other h h' d : thrifty h d -> (forall a, In a (arrs (d_held d)) -> h_data h' a = h_data h a) -> thrifty h' d.
Proof. intros H Hd n Hn. destruct (H n Hn) as (m & W & E & K & O & B). exists m, W. split; [exact E|]. split; [|split; [exact O|exact B]]. eapply knows_other; [exact K|]. rewrite E. exact Hd. Qed.

Lemma knows_show h W b : knows h W -> sees W b (h_read h b).
Proof.
  destruct W as [|[b' d] W]; [intros _; exact I|]. intros H. apply Forall_cons_iff in H as [H _]. cbn [fst snd sees] in *. intros Ea Eo. rewrite Ea, Eo in H.
  unfold h_read. rewrite firstn_firstn, Nat.min_comm, <- firstn_firstn, H. reflexivity.
Qed.

(** What an advancing download does, seen from outside: a few steps of "the others". *)
Record moved (P : pool) (H : heap) (d : dl) (P' : pool) (H' : heap) (d' : dl) (X : list slc) : Prop := {
  mv_core : core P' H' 0 (d_held d' ++ X) []; mv_lens : lens P';
  mv_big : length (chan_of (p_chans P) 32768) + d_big d <= length (chan_of (p_chans P') 32768) + d_big d';
  mv_heap : forall a, In a (arrs X) -> h_data H' a = h_data H a;
  mv_args : d_env d' = d_env d /\ d_peer d' = d_peer d /\ d_id d' = d_id d /\ d_hash d' = d_hash d;
  mv_acts : forall p1 O, peq p1 P -> Permutation (theirs p1) (d_held d ++ O) -> exists acts p1',
    fold_left other_step acts (p1, H) = (p1', H') /\ peq p1' P' /\ Permutation (theirs p1') (d_held d' ++ O) /\ d_big d + takes acts = d_big d' }.

Lemma in_core_lt P H X a : core P H 0 X [] -> In a (arrs X) -> a < h_next H.
Proof. intros C Ha. apply in_map_iff in Ha as (b & <- & Hb). eapply core_owned; [exact C|exact Hb]. Qed.

Lemma moved_still P H d X k : core P H 0 (d_held d ++ X) [] -> lens P -> moved P H d P H (set_now d (d_held d) (d_big d) k) X.
Proof.
  intros C L. constructor; cbn [set_now d_held d_big d_env d_peer d_id d_hash]; auto.
  intros p1 O Hp HO. exists [], p1. cbn. split; [reflexivity|]. split; [exact Hp|]. split; [exact HO|lia].
Qed.

Lemma moved_get P H d X (big : bool) P' H' b k : core P H 0 (d_held d ++ X) [] -> lens P -> GetBySize P H (if big then 32768 else 4) = Ok (P', H', b) ->
  moved P H d P' H' (set_now d (b :: d_held d) (if big then S (d_big d) else d_big d) k) X.
Proof.
  intros C L E. destruct (core_get0 P H _ big C) as (P2 & H2 & b2 & E2 & U2 & C2 & T2 & [O1 O2]). rewrite E in E2. injection E2 as <- <- <-.
  constructor; cbn [set_now d_held d_big d_env d_peer d_id d_hash].
  - exact C2.
  - eapply lens_get; eassumption.
  - unfold GetBySize in E. destruct big.
    + destruct (chan_of (p_chans P) 32768) as [|x l] eqn:Ec.
      * cbn [Z.ltb Z.compare] in E. destruct (h_alloc H 32768). injection E as <- _ _. cbn [length]. lia.
      * injection E as <- _ _. cbn [p_chans]. rewrite chan_of_upd by reflexivity. cbn [Z.eqb Pos.eqb]. rewrite Ec. cbn [tl length]. lia.
    + destruct (chan_of (p_chans P) 4) as [|x l] eqn:Ec.
      * cbn [Z.ltb Z.compare] in E. destruct (h_alloc H 4). injection E as <- _ _. lia.
      * injection E as <- _ _. cbn [p_chans]. rewrite chan_of_upd by reflexivity. cbn [Z.eqb Pos.eqb]. lia.
  - intros a Ha. apply O2; [|auto]. eapply in_core_lt; [exact C|]. unfold arrs in *. rewrite map_app, in_app_iff. auto.
  - repeat split.
  - intros p1 O Hp HO. destruct (peq_get _ _ _ _ _ _ _ Hp E) as (p2 & E2 & Hp2 & T2').
    exists [OGet big], (set_theirs p2 (theirs p2 ++ [b])). cbn [fold_left other_step]. rewrite E2. split; [reflexivity|]. split; [apply peq_set, Hp2|].
    rewrite theirs_set, T2'. split; [|destruct big; cbn; lia]. rewrite HO. cbn [app]. symmetry. apply Permutation_cons_append.
Qed.

Lemma perm_nth {A} (x : A) l l' : Permutation l (x :: l') -> exists i, nth_error l i = Some x /\ Permutation (firstn i l ++ skipn (S i) l) l'.
Proof.
  intros Hp. assert (Hin : In x l) by (eapply Permutation_in; [symmetry; exact Hp|left; reflexivity]).
  apply in_split in Hin as (l1 & l2 & ->). exists (length l1). split; [rewrite nth_error_app2, Nat.sub_diag by lia; reflexivity|].
  rewrite firstn_app, firstn_all, Nat.sub_diag. cbn [firstn]. rewrite app_nil_r. replace (S (length l1)) with (length l1 + 1) by lia.
  rewrite skipn_add, skipn_len_app. cbn [skipn]. eapply Permutation_cons_inv. rewrite Permutation_middle. exact Hp.
Qed.

Lemma filter_all {A} (f : A -> bool) l : (forall x, In x l -> f x = true) -> filter f l = l.
Proof. intros H. induction l as [|x l IH]; [reflexivity|]. cbn [filter]. rewrite H by (left; reflexivity). f_equal. apply IH. intros y Hy. apply H. right. exact Hy. Qed.
Lemma filter_head P H n b0 rest X b : core P H n ((b0 :: rest) ++ X) [] -> s_arr b0 = s_arr b -> filter (fun x => negb (s_arr x =? s_arr b)) (b0 :: rest) = rest.
Proof.
  intros C E. cbn [filter]. rewrite E, Nat.eqb_refl. cbn [negb]. apply filter_all. intros x Hx. destruct (Nat.eqb_spec (s_arr x) (s_arr b)) as [Ex|]; [|reflexivity]. exfalso.
  pose proof (co_nd _ _ _ _ _ C) as Hn. unfold arrs in Hn. cbn [app map] in Hn. inversion Hn as [|y l Hy _]. apply Hy. rewrite E, <- Ex. apply in_map. apply in_app_iff. left. apply in_app_iff. auto.
Qed.

Lemma moved_put P H d X b0 rest b k : core P H 0 (d_held d ++ X) [] -> lens P -> d_held d = b0 :: rest -> full_slice b0 = full_slice b ->
  moved P H d (Put P b) H (set_now d rest (d_big d) k) X.
Proof.
  intros C L Eh Ef. rewrite Eh in C. cbn [app] in C. rewrite <- (put_full P b0 b Ef).
  assert (Hc : (s_cap b0 = 4 \/ s_cap b0 = 32768)%Z).
  { pose proof (co_X _ _ _ _ _ C) as HX. apply Forall_cons_iff in HX as [(w & Hw & _ & Ew) _]. rewrite Ew. exact Hw. }
  destruct (core_put P H 0 (rest ++ X) [] b0 C) as [C1 T1].
  constructor; cbn [set_now d_held d_big d_env d_peer d_id d_hash].
  - destruct C1 as [G1 G2 G3 G4 G5 G6]. constructor; auto. intros a [].
  - apply lens_put, L.
  - unfold Put. destruct (_ <? _); [|lia]. cbn [p_chans]. rewrite chan_of_upd by reflexivity. destruct (s_cap b0 =? 32768)%Z eqn:E32; [apply Z.eqb_eq in E32; rewrite E32, app_length|]; lia.
  - auto.
  - repeat split.
  - intros p1 O Hp HO. rewrite Eh in HO. cbn [app] in HO. destruct (perm_nth _ _ _ HO) as (i & Ei & Hr).
    exists [OPut i], (Put (set_theirs p1 (firstn i (theirs p1) ++ skipn (S i) (theirs p1))) b0). cbn [fold_left other_step]. rewrite Ei. split; [reflexivity|].
    destruct (peq_put _ _ b0 (peq_set _ _ (firstn i (theirs p1) ++ skipn (S i) (theirs p1)) Hp) Hc) as [Q1 Q2]. split; [exact Q1|]. rewrite Q2, theirs_set. split; [exact Hr|cbn; lia].
Qed.

Lemma moved_read P H d X b rest x k : core P H 0 (d_held d ++ X) [] -> lens P -> d_held d = b :: rest -> (Z.of_nat (length x) <= s_cap b)%Z ->
  moved P H d P (h_write H b x) (set_now d (d_held d) (d_big d) k) X.
Proof.
  intros C L Eh Hx. assert (Hin : In b (d_held d ++ X)) by (rewrite Eh; left; reflexivity).
  destruct (core_write P H 0 _ [] b x C Hin Hx) as [C1 [O1 O2]].
  constructor; cbn [set_now d_held d_big d_env d_peer d_id d_hash].
  - exact C1.
  - exact L.
  - lia.
  - intros a Ha. apply O2.
    + eapply in_core_lt; [exact C|]. unfold arrs in *. rewrite map_app, in_app_iff. auto.
    + intros <-. pose proof (co_nd _ _ _ _ _ C) as Hn. rewrite Eh in Hn. unfold arrs in *. cbn [app map] in Hn. inversion Hn as [|y l Hy _]. apply Hy.
      rewrite !map_app, !in_app_iff. auto.
  - repeat split.
  - intros p1 O Hp HO. pose proof HO as HO'. rewrite Eh in HO'. cbn [app] in HO'. destruct (perm_nth _ _ _ HO') as (i & Ei & _).
    exists [OWrite i x], p1. cbn [fold_left other_step]. rewrite Ei. destruct (Z.leb_spec (Z.of_nat (length x)) (s_cap b)); [|lia].
    split; [reflexivity|]. split; [exact Hp|]. split; [exact HO|cbn; lia].
Qed.

(** The heap after a read into the buffer in hand. *)
Lemma knows_write h b x W X P : core P h 0 (b :: map fst W ++ X) [] -> (Z.of_nat (length x) <= s_cap b)%Z -> knows h W -> knows (h_write h b x) ((b, x) :: W).
Proof.
  intros C Hx K. constructor.
  - cbn [fst snd]. pose proof (co_X _ _ _ _ _ C) as HX. apply Forall_cons_iff in HX as [(w & Hw & (_ & U2 & U3 & U4 & U5) & Ew) _]. cbn [full_slice s_cap s_off s_arr s_len] in *.
    rewrite h_write_arr, Nat.eqb_refl. rewrite skipn_app, skipn_all2 by (rewrite firstn_length; lia). cbn [app].
    rewrite firstn_length, Nat.min_l by lia. rewrite Nat.sub_diag. cbn [skipn]. rewrite firstn_app, Nat.sub_diag, firstn_all. cbn [firstn]. apply app_nil_r.
  - eapply knows_other; [exact K|]. intros a Ha. rewrite h_write_arr. destruct (Nat.eqb_spec a (s_arr b)) as [->|]; [|reflexivity]. exfalso.
    pose proof (co_nd _ _ _ _ _ C) as Hn. unfold arrs in *. cbn [app map] in Hn. inversion Hn as [|y l Hy _]. apply Hy. rewrite !map_app, !in_app_iff. auto.
Qed.

(** One advance. *)
Definition next_hand (H' : heap) (d d' : dl) (m : nat) : Prop := exists m' W', map fst W' = d_held d' /\ knows H' W' /\ okp m' W' (d_now d') whatever /\ d_big d + m = d_big d' + m'.
Lemma advance_moved P H d P' H' d' X m W : core P H 0 (d_held d ++ X) [] -> lens P -> map fst W = d_held d -> knows H W -> okp m W (d_now d) whatever ->
  advance P H d = (P', H', d') -> moved P H d P' H' d' X /\ next_hand H' d d' m.
Proof.
  intros C L EW K Ok E. unfold advance in E. destruct (d_now d) as [s r|big k|b k|b x k|k|b k|b k] eqn:En; cbn [okp] in Ok.
  - injection E as <- <- <-. split.
    + replace d with (set_now d (d_held d) (d_big d) (d_now d)) at 2 by (destruct d; reflexivity). apply moved_still; assumption.
    + exists m, W. rewrite En. auto.
  - destruct Ok as (m' & -> & Ok). destruct (core_get0 P H _ big C) as (P2 & H2 & b2 & E2 & U2 & C2 & T2 & [O1 O2]). rewrite E2 in E. apply pair_equal_spec in E as [E <-]. apply pair_equal_spec in E as [<- <-].
    split; [apply (moved_get P H d X big); assumption|]. exists m', ((b2, []) :: W). cbn [set_now d_held d_big d_now map fst]. split; [rewrite EW; reflexivity|].
    split; [|split; [apply Ok; apply U2|destruct big; lia]]. constructor; [reflexivity|]. eapply knows_other; [exact K|]. intros a Ha. apply O2; [|auto].
    eapply in_core_lt; [exact C|]. rewrite EW in Ha. unfold arrs in *. rewrite map_app, in_app_iff. auto.
  - destruct W as [|[b0 y] W]; [destruct Ok|]. destruct Ok as [Ef Ok]. cbn [map fst] in EW. symmetry in EW. apply pair_equal_spec in E as [E <-]. apply pair_equal_spec in E as [<- <-].
    pose proof C as C'. rewrite EW in C'. rewrite EW, (filter_head _ _ _ _ _ _ _ C') by (apply (f_equal s_arr) in Ef; exact Ef).
    split; [eapply moved_put; eassumption|]. exists m, W. cbn [set_now d_held d_big d_now]. split; [reflexivity|]. apply Forall_cons_iff in K as [_ K]. auto.
  - destruct W as [|[b0 y] W]; [destruct Ok|]. destruct Ok as (-> & Hx & Ok). cbn [map fst] in EW. symmetry in EW. apply pair_equal_spec in E as [E <-]. apply pair_equal_spec in E as [<- <-].
    split; [eapply moved_read; eassumption|]. exists m, ((b, x) :: W). cbn [set_now d_held d_big d_now map fst]. split; [auto|]. split; [|auto].
    apply Forall_cons_iff in K as [_ K]. eapply knows_write; [|exact Hx|exact K]. rewrite EW in C. exact C.
  - apply pair_equal_spec in E as [E <-]. apply pair_equal_spec in E as [<- <-]. split; [apply moved_still; assumption|]. exists m, W. cbn [set_now d_held d_big d_now]. auto.
  - destruct Ok as [_ Ok]. apply pair_equal_spec in E as [E <-]. apply pair_equal_spec in E as [<- <-]. split; [apply moved_still; assumption|]. exists m, W. cbn [set_now d_held d_big d_now].
    split; [exact EW|]. split; [exact K|]. split; [apply Ok, knows_show, K|reflexivity].
  - apply pair_equal_spec in E as [E <-]. apply pair_equal_spec in E as [<- <-]. split; [apply moved_still; assumption|]. exists m, W. cbn [set_now d_held d_big d_now]. auto.
Qed.

(** * A download as seen by itself *)
Definition all_takes (hist : list (list oact)) : nat := fold_right (fun l n => takes l + n) 0 hist.
Lemma takes_app a b : takes (a ++ b) = takes a + takes b.
Proof. unfold takes. rewrite filter_app, app_length. reflexivity. Qed.
Lemma all_takes_snoc hist l : all_takes (hist ++ [l]) = all_takes hist + takes l.
Proof. unfold all_takes. induction hist as [|x hist IH]; cbn [app fold_right]; [lia|]. rewrite IH. lia. Qed.

Definition proj (P : pool) (H : heap) (O : list slc) (nb L0 : nat) (d : dl) : Prop :=
  exists p0 h0 hist cur p h p1 base,
    sound_shared p0 h0 /\
    (forall e acts, sharing e acts -> (forall t, t < length hist -> acts t = nth t hist []) ->
       run e (c_fetch (d_env d) (d_peer d) (d_id d) (d_hash d)) 0 p0 h0 = run e (d_now d) (length hist) p h) /\
    fold_left other_step cur (p, h) = (p1, H) /\ peq p1 P /\ Permutation (theirs p1) O /\
    (forall a, In a (arrs (d_held d)) -> h_data h a = h_data H a) /\
    all_takes hist + takes cur + base = nb /\ L0 <= base + length (chan_of (p_chans p0) 32768).

(** Another download advances. *)
Lemma proj_other P H d2 P' H' d2' X O nb L0 d : moved P H d2 P' H' d2' X -> incl (d_held d) X ->
  proj P H (d_held d2 ++ O) (d_big d2 + nb) L0 d -> proj P' H' (d_held d2' ++ O) (d_big d2' + nb) L0 d.
Proof.
  intros [M1 M2 M3 M4 M5 M6] HX (p0 & h0 & hist & cur & p & h & p1 & base & A1 & A2 & A3 & A4 & A5 & A6 & A7 & A8).
  destruct (M6 p1 O A4 A5) as (acts & p2 & B1 & B2 & B3 & B4).
  exists p0, h0, hist, (cur ++ acts), p, h, p2, base. split; [exact A1|]. split; [exact A2|]. split; [rewrite fold_left_app, A3; exact B1|]. split; [exact B2|]. split; [exact B3|].
  split; [|rewrite takes_app; lia]. intros a Ha. rewrite A6 by exact Ha. symmetry. apply M4. unfold arrs in *. apply in_map_iff in Ha as (b & <- & Hb). apply in_map. apply HX, Hb.
Qed.

(** It advances itself. *)
Lemma proj_self P H d P' H' d' X O nb L0 : core P H 0 (d_held d ++ X) [] -> hands H d -> advance P H d = (P', H', d') -> proj P H O nb L0 d -> proj P' H' O nb L0 d'.
Proof.
  intros C (m & W & EW & K & Ok) E (p0 & h0 & hist & cur & p & h & p1 & base & A1 & A2 & A3 & A4 & A5 & A6 & A7 & A8).
  assert (Key : forall q g t' held big, (forall e acts, sharing e acts -> acts (length hist) = cur -> run e (d_now d) (length hist) p h = run e t' (S (length hist)) q H') ->
     d' = set_now d held big t' -> peq q P' -> Permutation (theirs q) O -> proj P' H' O nb L0 (set_now d held g t')).
  { intros q g t' held big Hrun -> Hq HO. exists p0, h0, (hist ++ [cur]), [], q, H', q, base. split; [exact A1|]. split; [|split; [reflexivity|split; [exact Hq|split; [exact HO|split; [auto|rewrite all_takes_snoc; cbn [takes filter length]; lia]]]]].
    intros e acts Hs Ht. cbn [set_now d_env d_peer d_id d_hash d_now]. rewrite app_length, Nat.add_1_r in *. cbn [length] in *. rewrite (A2 e acts Hs).
    - apply (Hrun e acts Hs). rewrite Ht by lia. rewrite app_nth2, Nat.sub_diag by lia. reflexivity.
    - intros t Hlt. rewrite Ht by lia. apply app_nth1. exact Hlt. }
  unfold advance in E. destruct (d_now d) as [s r|big k|b k|b x k|k|b k|b k] eqn:En; cbn [okp] in Ok.
  - apply pair_equal_spec in E as [E <-]. apply pair_equal_spec in E as [<- <-]. exists p0, h0, hist, cur, p, h, p1, base. rewrite En. auto 10.
  - destruct (core_get0 P H _ big C) as (P2 & H2 & b2 & E2 & _). rewrite E2 in E. apply pair_equal_spec in E as [E <-]. apply pair_equal_spec in E as [<- <-].
    destruct (peq_get _ _ _ _ _ _ _ A4 E2) as (p2 & E3 & Q1 & Q2). eapply (Key p2); [|reflexivity|exact Q1|rewrite Q2; exact A5].
    intros e acts Hs Hc. cbn [run]. rewrite Hs, Hc, A3, E3. reflexivity.
  - destruct W as [|[b0 y] W]; [destruct Ok|]. destruct Ok as [Ef Ok]. apply pair_equal_spec in E as [E <-]. apply pair_equal_spec in E as [<- <-].
    assert (Hc : (s_cap b = 4 \/ s_cap b = 32768)%Z).
    { pose proof (co_X _ _ _ _ _ C) as HX. rewrite <- EW in HX. cbn [map fst app] in HX. apply Forall_cons_iff in HX as [(w & Hw & _ & Ew) _]. apply (f_equal s_cap) in Ef. cbn [full_slice s_cap] in Ef. rewrite <- Ef, Ew. exact Hw. }
    destruct (peq_put _ _ b A4 Hc) as [Q1 Q2]. eapply (Key (Put p1 b)); [|reflexivity|exact Q1|rewrite Q2; exact A5].
    intros e acts Hs Hc'. cbn [run]. rewrite Hs, Hc', A3. reflexivity.
  - apply pair_equal_spec in E as [E <-]. apply pair_equal_spec in E as [<- <-]. eapply (Key p1); [|reflexivity|exact A4|exact A5].
    intros e acts Hs Hc'. cbn [run]. rewrite Hs, Hc', A3. reflexivity.
  - apply pair_equal_spec in E as [E <-]. apply pair_equal_spec in E as [<- <-]. eapply (Key p1); [|reflexivity|exact A4|exact A5].
    intros e acts Hs Hc'. cbn [run]. rewrite Hs, Hc', A3. reflexivity.
  - apply pair_equal_spec in E as [E <-]. apply pair_equal_spec in E as [<- <-]. destruct Ok as [Hb Ok].
    exists p0, h0, hist, cur, p, h, p1, base. cbn [set_now d_env d_peer d_id d_hash d_now d_held]. split; [exact A1|]. split; [|auto 10].
    intros e acts Hs Ht. rewrite (A2 e acts Hs Ht). cbn [run]. replace (h_read h b) with (h_read H b); [reflexivity|]. unfold h_read. rewrite <- A6; [reflexivity|].
    destruct W as [|[b0 y] W]; [destruct Hb|]. rewrite <- EW, <- Hb. left. reflexivity.
  - apply pair_equal_spec in E as [E <-]. apply pair_equal_spec in E as [<- <-]. eapply (Key p1); [|reflexivity|exact A4|exact A5].
    intros e acts Hs Hc'. cbn [run]. rewrite Hs, Hc', A3. reflexivity.
Qed.

Lemma sound_core P H X : core P H 0 X [] -> lens P -> sound_shared (set_theirs P X) H.
Proof.
  intros [G1 G2 G3 G4 _ _] (L1 & L2 & L3). unfold sound_shared, sound_pool. rewrite !chan_set, theirs_set by lia. cbn [set_theirs p_max].
  split; [|split; [|exact G4]].
  - split; [exact L1|]. split; [exact G1|]. split; [exact L2|]. split; [exact G2|]. split; [exact L3|]. unfold arrs in G4. rewrite map_app in G4. apply nodup_tail in G4. exact G4.
  - eapply Forall_impl; [|exact G3]. intros b (w & [->| ->] & Hb & _); auto.
Qed.
Lemma proj_begin P H X L0 nb e peer i j : core P H 0 X [] -> lens P -> L0 <= nb + length (chan_of (p_chans P) 32768) -> proj P H X nb L0 (begin e peer i j).
Proof.
  intros C L HL. exists (set_theirs P X), H, [], [], (set_theirs P X), H, (set_theirs P X), nb.
  split; [apply sound_core; assumption|]. split; [reflexivity|]. split; [reflexivity|]. split; [apply peq_set, peq_refl|]. split; [rewrite theirs_set; reflexivity|].
  split; [auto|]. split; [reflexivity|]. rewrite chan_set by lia. exact HL.
Qed.
Lemma proj_perm P H O O' nb L0 d : Permutation O O' -> proj P H O nb L0 d -> proj P H O' nb L0 d.
Proof. intros Hp (p0 & h0 & hist & cur & p & h & p1 & base & A1 & A2 & A3 & A4 & A5 & A6). exists p0, h0, hist, cur, p, h, p1, base. rewrite <- Hp. auto 10. Qed.

(** * The crowd *)
(** [L i] is what is known about the i-th download, [L0] holds for those that begin from now on. *)
Record inv (L0 : nat) (L : nat -> nat) (c : crowd) : Prop := {
  iv_le : forall i, L i <= L0; iv_core : core (c_pool c) (c_heap c) 0 (helds (c_dls c)) []; iv_lens : lens (c_pool c);
  iv_big : L0 <= bigs (c_dls c) + length (chan_of (p_chans (c_pool c)) 32768);
  iv_each : forall l1 d l2, c_dls c = l1 ++ d :: l2 -> hands (c_heap c) d /\ thrifty (c_heap c) d /\ proj (c_pool c) (c_heap c) (helds (l1 ++ l2)) (bigs (l1 ++ l2)) (L (length l1)) d }.

Lemma inv_init P H : sound_pool P H -> inv (length (chan_of (p_chans P) 32768)) (fun _ => length (chan_of (p_chans P) 32768)) {| c_pool := P; c_heap := H; c_dls := [] |}.
Proof.
  intros (H1 & H2 & H3 & H4 & H5 & H6). constructor; cbn [c_pool c_heap c_dls helds flat_map bigs fold_right]; [lia| | |lia|intros [|x l1] d l2 E; discriminate].
  - constructor; cbn [app]; auto; [intros a []|lia].
  - split; [exact H1|]. auto.
Qed.

Lemma hands_begin h e peer i j : hands h (begin e peer i j).
Proof. destruct (ok_fetch e peer i j) as (m & Hm). exists m, []. split; [reflexivity|]. split; [constructor|exact Hm]. Qed.
Lemma thrifty_begin h e peer i j : thrifty h (begin e peer i j).
Proof.
  intros n (hs & bodies & Ep & Hh & Hl & ->). exists (spoken bodies), []. split; [reflexivity|]. split; [constructor|]. split; [|reflexivity].
  cbn [begin d_now d_peer] in *. subst peer. apply ok_fetch_framed; assumption.
Qed.

(** An element of a list with one place changed. *)
Lemma two_places {A} (l1 l2 k1 k2 : list A) d d' : l1 ++ d :: l2 = k1 ++ d' :: k2 ->
  (l1 = k1 /\ d = d' /\ l2 = k2) \/ (exists m, l1 = k1 ++ d' :: m /\ k2 = m ++ d :: l2) \/ (exists m, k1 = l1 ++ d :: m /\ l2 = m ++ d' :: k2).
Proof.
  revert k1. induction l1 as [|x l1 IH]; intros [|y k1] E; cbn [app] in E; injection E as E1 E2.
  - left. auto.
  - right. right. exists k1. subst. auto.
  - right. left. exists l1. subst. auto.
  - subst y. destruct (IH _ E2) as [(-> & -> & ->)|[(m & -> & ->)|(m & -> & ->)]]; [left; auto|right; left; exists m; auto|right; right; exists m; auto].
Qed.

Lemma inv_step L0 L c c' : inv L0 L c -> cstep c c' -> inv L0 L c'.
Proof.
  intros I S. destruct S as [p h l e peer i j|p h l1 d l2 p' h' d' E]; destruct I as [I0 I1 I2 I3 I4]; cbn [c_pool c_heap c_dls] in *.
  - constructor; cbn [c_pool c_heap c_dls].
    + exact I0.
    + rewrite helds_app. cbn. rewrite app_nil_r. exact I1.
    + exact I2.
    + rewrite bigs_app. cbn. lia.
    + intros k1 d k2 E. change (l ++ [begin e peer i j]) with (l ++ begin e peer i j :: []) in E. destruct (two_places _ _ _ _ _ _ E) as [(<- & <- & <-)|[(m & -> & ->)|(m & -> & E')]].
      * rewrite app_nil_r. split; [apply hands_begin|]. split; [apply thrifty_begin|]. apply proj_begin; [assumption..|]. specialize (I0 (length l)). lia.
      * destruct (I4 k1 d m eq_refl) as (J1 & J2 & J3). split; [exact J1|]. split; [exact J2|]. rewrite app_assoc, helds_app, bigs_app. cbn. rewrite app_nil_r, Nat.add_0_r. exact J3.
      * destruct m; discriminate.
  - destruct (I4 l1 d l2 eq_refl) as (J1 & J2 & J3).
    assert (C : core p h 0 (d_held d ++ helds (l1 ++ l2)) []) by (eapply core_perm; [apply helds_mid|exact I1]).
    assert (Mv : moved p h d p' h' d' (helds (l1 ++ l2)) /\ hands h' d').
    { destruct J1 as (m & W & EW & K & Ok). destruct (advance_moved _ _ _ _ _ _ _ _ _ C I2 EW K Ok E) as [Mv (m' & W' & B1 & B2 & B3 & _)]. split; [exact Mv|]. exists m', W'. auto. }
    destruct Mv as [Mv Hn]. pose proof (mv_args _ _ _ _ _ _ _ Mv) as (_ & Ep & _).
    assert (Ht : thrifty h' d').
    { intros n Hf. rewrite Ep in Hf. destruct (J2 n Hf) as (m & W & EW & K & Ok & Hb). destruct (advance_moved _ _ _ _ _ _ _ _ _ C I2 EW K Ok E) as [_ (m' & W' & B1 & B2 & B3 & B4)].
      exists m', W'. split; [exact B1|]. split; [exact B2|]. split; [exact B3|lia]. }
    constructor; cbn [c_pool c_heap c_dls].
    + exact I0.
    + eapply core_perm; [symmetry; apply helds_mid|]. apply Mv.
    + apply Mv.
    + rewrite bigs_mid in *. pose proof (mv_big _ _ _ _ _ _ _ Mv). lia.
    + intros k1 x k2 Ex.
      assert (Oth : forall k1' k2', length k1' = length k1 -> l1 ++ d :: l2 = k1' ++ x :: k2' -> (exists q1 q2, k1' ++ k2' = q1 ++ d :: q2 /\ k1 ++ k2 = q1 ++ d' :: q2) -> In x (l1 ++ l2) ->
        hands h' x /\ thrifty h' x /\ proj p' h' (helds (k1 ++ k2)) (bigs (k1 ++ k2)) (L (length k1)) x).
      { intros k1' k2' Elen Eo (q1 & q2 & Eq & Eq') Hin. destruct (I4 _ _ _ Eo) as (X1 & X2 & X3).
        assert (Hsub : incl (d_held x) (helds (l1 ++ l2))) by (intros b Hb; apply in_flat_map; eauto).
        assert (Hd : forall a, In a (arrs (d_held x)) -> h_data h' a = h_data h a).
        { intros a Ha. apply (mv_heap _ _ _ _ _ _ _ Mv). unfold arrs in *. apply in_map_iff in Ha as (b & <- & Hb). apply in_map. apply Hsub, Hb. }
        split; [eapply hands_other; eassumption|]. split; [eapply thrifty_other; eassumption|].
        rewrite Elen, Eq, bigs_mid in X3. rewrite Eq', bigs_mid. eapply proj_perm; [symmetry; apply helds_mid|].
        eapply proj_other; [exact Mv|exact Hsub|]. eapply proj_perm; [apply helds_mid|exact X3]. }
      destruct (two_places _ _ _ _ _ _ Ex) as [(<- & <- & <-)|[(m & El & Er)|(m & El & Er)]].
      * split; [exact Hn|]. split; [exact Ht|]. eapply proj_self; eassumption.
      * subst l1 k2. apply (Oth k1 (m ++ d :: l2)); [reflexivity|rewrite <- app_assoc; reflexivity|exists (k1 ++ m), l2; rewrite !app_assoc; auto|].
        apply in_app_iff. left. apply in_app_iff. right. left. reflexivity.
      * subst k1 l2. apply (Oth (l1 ++ d :: m) k2); [rewrite !app_length; reflexivity|rewrite <- app_assoc; reflexivity|exists l1, (m ++ k2); rewrite <- !app_assoc; auto|].
        apply in_app_iff. right. apply in_app_iff. right. left. reflexivity.
Qed.
Lemma inv_steps L0 L c c' : csteps c c' -> inv L0 L c -> inv L0 L c'.
Proof. intros S I. induction S as [c|c c' c'' S IH St]; [exact I|]. eapply inv_step; [apply IH, I|exact St]. Qed.
Lemma proj_less P H O nb L0 L1 d : L1 <= L0 -> proj P H O nb L0 d -> proj P H O nb L1 d.
Proof. intros Hl (p0 & h0 & hist & cur & p & h & p1 & base & A1 & A2 & A3 & A4 & A5 & A6 & A7 & A8). exists p0, h0, hist, cur, p, h, p1, base. repeat (split; [assumption|]). lia. Qed.
(** From any moment on. *)
Lemma inv_now L0 L c : inv L0 L c ->
  inv (bigs (c_dls c) + length (chan_of (p_chans (c_pool c)) 32768)) (fun i => if i <? length (c_dls c) then 0 else bigs (c_dls c) + length (chan_of (p_chans (c_pool c)) 32768)) c.
Proof.
  intros [I0 I1 I2 I3 I4]. constructor; auto.
  - intros i. destruct (i <? _); lia.
  - intros l1 d l2 E. destruct (I4 _ _ _ E) as (J1 & J2 & J3). split; [exact J1|]. split; [exact J2|].
    replace (length l1 <? length (c_dls c)) with true by (symmetry; apply Nat.ltb_lt; rewrite E, app_length; cbn; lia). eapply proj_less; [|exact J3]. lia.
Qed.

(** * Results *)
Definition with_acts (e : fenv) (acts : nat -> list oact) : fenv :=
  {| e_intf := fun t x => fold_left other_step (acts t) x; e_exp := e_exp e; e_write := e_write e; e_mem := e_mem e; e_ford := e_ford e; e_fold := e_fold e |}.

Lemma c_fetch_env e acts peer i j : c_fetch (with_acts e acts) peer i j = c_fetch e peer i j.
Proof. reflexivity. Qed.
