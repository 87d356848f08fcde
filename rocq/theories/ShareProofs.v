(** ShareProofs.v -- lemmas for C112: a download among others that share the pool. *)
From Verif Require Import Base GoLib Bencode BencodeSpec BencodeProofs BencodePf Types TypesPf Krpc KrpcProofs BytesPool BytesPoolPf Sha1 PeerWire PeerWirePf Fetch FetchSpec FetchProofs FetchPf CodecPf SessionSpec SessionProofs SessionRun ShareSpec.
From Verif Require Import BytesPool.
Local Open Scope list_scope.

(** The pool as seen by everybody: [X] are the buffers somebody holds, at least [n] of the big buffers in
    the queue lie before every one whose contents matter, and the arrays of [S] are those contents. *)
Definition ubuf (h : heap) (b : slc) : Prop := exists w, (w = 4 \/ w = 32768)%Z /\ usable h w (full_slice b) /\ s_cap b = w.
Record core (p : pool) (h : heap) (n : nat) (X S : list slc) : Prop := {
  co_q4 : Forall (usable h 4) (chan_of (p_chans p) 4);
  co_q32 : Forall (usable h 32768) (chan_of (p_chans p) 32768);
  co_X : Forall (ubuf h) X;
  co_nd : NoDup (arrs (X ++ chan_of (p_chans p) 4 ++ chan_of (p_chans p) 32768));
  co_S : forall a, In a (arrs S) -> a < h_next h /\ ~ In a (arrs (X ++ chan_of (p_chans p) 4 ++ firstn n (chan_of (p_chans p) 32768)));
  co_n : n <= length (chan_of (p_chans p) 32768) }.

Lemma ubuf_lt h b : ubuf h b -> s_arr b < h_next h.
Proof. intros (w & _ & (_ & _ & _ & H & _) & _). exact H. Qed.
Lemma ubuf_data h h' b : ubuf h b -> h_next h <= h_next h' -> length (h_data h (s_arr b)) <= length (h_data h' (s_arr b)) -> ubuf h' b.
Proof. intros (w & Hw & H & Hc) H1 H2. exists w. split; [exact Hw|]. split; [|exact Hc]. eapply usable_data; [exact H|exact H1|exact H2]. Qed.
Lemma usable_ubuf h w b : (w = 4 \/ w = 32768)%Z -> usable h w b -> ubuf h b.
Proof. intros Hw H. exists w. split; [exact Hw|]. rewrite (full_slice_usable _ _ _ H). split; [exact H|apply H]. Qed.

Lemma core_perm p h n X Y S : Permutation X Y -> core p h n X S -> core p h n Y S.
Proof.
  intros P [H1 H2 H3 H4 H5 H6]. constructor; auto.
  - rewrite Forall_forall in *. intros b Hb. apply H3. eapply Permutation_in; [symmetry; exact P|exact Hb].
  - eapply Permutation_NoDup; [|exact H4]. apply Permutation_map, Permutation_app_tail. exact P.
  - intros a Ha. destruct (H5 a Ha) as [H7 H8]. split; [exact H7|]. intros Hin. apply H8. eapply Permutation_in; [|exact Hin].
    apply Permutation_map, Permutation_app_tail. symmetry. exact P.
Qed.
Lemma firstn_in {A} (x : A) n l : In x (firstn n l) -> In x l.
Proof. intros H. rewrite <- (firstn_skipn n l). apply in_app_iff. auto. Qed.
Lemma firstn_le_in {A} (x : A) n m l : n <= m -> In x (firstn n l) -> In x (firstn m l).
Proof. intros H Hin. replace (firstn n l) with (firstn n (firstn m l)) in Hin by (rewrite firstn_firstn; f_equal; lia). eapply firstn_in. exact Hin. Qed.
Lemma core_less p h n m X S : m <= n -> core p h n X S -> core p h m X S.
Proof.
  intros Hm [H1 H2 H3 H4 H5 H6]. constructor; auto; [|lia].
  intros a Ha. destruct (H5 a Ha) as [H7 H8]. split; [exact H7|]. intros Hin. apply H8.
  unfold arrs in *. rewrite !map_app, !in_app_iff in *. destruct Hin as [Hin|[Hin|Hin]]; auto.
  right. right. rewrite <- firstn_map in *. eapply firstn_le_in; eassumption.
Qed.
Lemma nodup_tail {A} (l l' : list A) : NoDup (l ++ l') -> NoDup l'.
Proof. induction l as [|x l IH]; [auto|]. cbn [app]. intros H. inversion H. auto. Qed.
Lemma core_drop p h n X Y S : core p h n (X ++ Y) S -> core p h n Y S.
Proof.
  intros [H1 H2 H3 H4 H5 H6]. apply Forall_app in H3 as [_ H3]. constructor; auto.
  - rewrite <- app_assoc in H4. unfold arrs in *. rewrite map_app in H4. apply nodup_tail in H4. exact H4.
  - intros a Ha. destruct (H5 a Ha) as [H7 H8]. split; [exact H7|]. intros Hin. apply H8. rewrite <- app_assoc. unfold arrs in *. rewrite map_app, in_app_iff. auto.
Qed.

(** Membership in joined lists. *)
Ltac arr_in := unfold arrs; cbn [plus firstn]; repeat (progress (cbn [map app In full_slice s_arr]) || rewrite map_app || rewrite in_app_iff); tauto.

(** The private entry does not matter. *)
Lemma chan_set p l w : (w <> -1)%Z -> chan_of (p_chans (set_theirs p l)) w = chan_of (p_chans p) w.
Proof. intros H. cbn [set_theirs p_chans]. rewrite chan_of_upd by reflexivity. destruct (Z.eqb_spec (-1) w); [congruence|reflexivity]. Qed.
Lemma theirs_set p l : theirs (set_theirs p l) = l.
Proof. unfold theirs. cbn [set_theirs p_chans]. rewrite chan_of_upd by reflexivity. reflexivity. Qed.
Lemma core_set p h n X S l : core p h n X S -> core (set_theirs p l) h n X S.
Proof. intros [H1 H2 H3 H4 H5 H6]. constructor; rewrite ?chan_set by lia; auto. Qed.

(** Nothing that existed changes, except perhaps the array [b]. *)
Definition others_same (h h' : heap) (b : nat -> Prop) : Prop :=
  h_next h <= h_next h' /\ forall a, a < h_next h -> ~ b a -> h_data h' a = h_data h a.

Lemma core_heap p h h' n X S : core p h n X S -> h_next h <= h_next h' ->
  (forall a, a < h_next h -> length (h_data h a) <= length (h_data h' a)) -> core p h' n X S.
Proof.
  intros [H1 H2 H3 H4 H5 H6] Hn Hd. constructor; auto.
  - eapply Forall_impl; [|exact H1]. intros b Hb. eapply usable_data; [exact Hb|exact Hn|apply Hd, Hb].
  - eapply Forall_impl; [|exact H2]. intros b Hb. eapply usable_data; [exact Hb|exact Hn|apply Hd, Hb].
  - eapply Forall_impl; [|exact H3]. intros b Hb. eapply ubuf_data; [exact Hb|exact Hn|apply Hd, ubuf_lt, Hb].
  - intros a Ha. destruct (H5 a Ha) as [H7 H8]. split; [lia|exact H8].
Qed.

Lemma core_get p h n X S (big : bool) : core p h (if big then 1 + n else n) X S ->
  exists p1 h1 b, GetBySize p h (if big then 32768 else 4) = Ok (p1, h1, b) /\ usable h1 (if big then 32768 else 4) b /\
    core p1 h1 n (b :: X) S /\ theirs p1 = theirs p /\ others_same h h1 (fun _ => False).
Proof.
  intros [H1 H2 H3 H4 H5 H6]. unfold GetBySize.
  destruct big.
  - destruct (chan_of (p_chans p) 32768) as [|b r] eqn:Ec; [cbn [length] in H6; lia|].
    apply Forall_cons_iff in H2 as [Ub H2]. eexists _, h, b. split; [reflexivity|]. split; [exact Ub|].
    assert (C4 : chan_of (chan_upd (p_chans p) 32768 (tl (A:=slc))) 4 = chan_of (p_chans p) 4) by (rewrite chan_of_upd by reflexivity; reflexivity).
    assert (C32 : chan_of (chan_upd (p_chans p) 32768 (tl (A:=slc))) 32768 = r) by (rewrite chan_of_upd by reflexivity; cbn [Z.eqb Pos.eqb]; rewrite Ec; reflexivity).
    split; [|split; [unfold theirs; cbn [p_chans]; rewrite chan_of_upd by reflexivity; reflexivity|split; [lia|auto]]].
    constructor; cbn [p_chans]; rewrite ?C4, ?C32; auto.
    + constructor; [|exact H3]. eapply usable_ubuf; [right; reflexivity|exact Ub].
    + eapply Permutation_NoDup; [|exact H4]. unfold arrs. rewrite !map_app. cbn [map app]. rewrite ?map_app. rewrite !app_assoc. symmetry. apply Permutation_middle.
    + intros a Ha. destruct (H5 a Ha) as [H7 H8]. split; [exact H7|]. intros Hin. apply H8. revert Hin. arr_in.
    + cbn [length] in H6. lia.
  - destruct (chan_of (p_chans p) 4) as [|b r] eqn:Ec.
    + change (4 <? 0)%Z with false. cbv iota. destruct (h_alloc h 4) as [h1 b] eqn:Ea. unfold h_alloc in Ea. injection Ea as <- <-.
      eexists p, _, _. split; [reflexivity|]. set (h1 := {| h_next := _; h_data := _ |}).
      assert (Hold : forall a, a < h_next h -> h_data h1 a = h_data h a).
      { intros a Ha. cbn [h1 h_data]. destruct (Nat.eqb_spec a (h_next h)); [lia|reflexivity]. }
      assert (U : usable h1 4 {| s_arr := h_next h; s_off := 0; s_len := 4; s_cap := 4 |}).
      { repeat split; cbn; try lia. rewrite Nat.eqb_refl. cbn. lia. }
      split; [exact U|]. split; [|split; [reflexivity|split; [cbn; lia|intros a Ha _; apply Hold, Ha]]].
      assert (C : core p h1 n X S).
      { apply (core_heap p h); [constructor; rewrite ?Ec; auto|cbn; lia|]. intros a Ha. rewrite Hold by exact Ha. lia. }
      destruct C as [D1 D2 D3 D4 D5 D6]. rewrite Ec in *. constructor; rewrite ?Ec; auto.
      * constructor; [|exact D3]. eapply usable_ubuf; [left; reflexivity|exact U].
      * cbn [app] in *. unfold arrs in *. cbn [map s_arr]. constructor; [|exact D4]. rewrite map_app, in_app_iff, !in_map_iff. rewrite Forall_forall in H3, H2.
        intros [(x & E & Hx)|(x & E & Hx)]; [apply H3, ubuf_lt in Hx; lia|]. apply H2 in Hx. destruct Hx as (_ & _ & _ & Hx & _). lia.
      * intros a Ha. destruct (H5 a Ha) as [H7 H8]. split; [cbn; lia|]. intros Hin. unfold arrs in Hin. cbn [map app] in Hin.
        destruct Hin as [Hin|Hin]; [cbn [s_arr] in Hin; lia|apply H8, Hin].
    + apply Forall_cons_iff in H1 as [Ub H1]. eexists _, h, b. split; [reflexivity|]. split; [exact Ub|].
      assert (C4 : chan_of (chan_upd (p_chans p) 4 (tl (A:=slc))) 4 = r) by (rewrite chan_of_upd by reflexivity; cbn [Z.eqb Pos.eqb]; rewrite Ec; reflexivity).
      assert (C32 : chan_of (chan_upd (p_chans p) 4 (tl (A:=slc))) 32768 = chan_of (p_chans p) 32768) by (rewrite chan_of_upd by reflexivity; reflexivity).
      split; [|split; [unfold theirs; cbn [p_chans]; rewrite chan_of_upd by reflexivity; reflexivity|split; [lia|auto]]].
      constructor; cbn [p_chans]; rewrite ?C4, ?C32; auto.
      * constructor; [|exact H3]. eapply usable_ubuf; [left; reflexivity|exact Ub].
      * eapply Permutation_NoDup; [|exact H4]. unfold arrs. cbn [app map]. rewrite !map_app. cbn [map app]. rewrite ?map_app. symmetry. apply Permutation_middle.
      * intros a Ha. destruct (H5 a Ha) as [H7 H8]. split; [exact H7|]. intros Hin. apply H8. revert Hin. arr_in.
Qed.

Lemma core_put p h n X S b : core p h n (b :: X) S ->
  core (Put p b) h n X (if (s_cap b =? 32768)%Z then full_slice b :: S else S) /\ theirs (Put p b) = theirs p.
Proof.
  intros [H1 H2 H3 H4 H5 H6]. apply Forall_cons_iff in H3 as [(w & Hw & Ub & Ec) H3]. unfold Put. rewrite Ec.
  assert (Hnb : NoDup (arrs (X ++ chan_of (p_chans p) 4 ++ chan_of (p_chans p) 32768)) /\ ~ In (s_arr b) (arrs (X ++ chan_of (p_chans p) 4 ++ chan_of (p_chans p) 32768))).
  { cbn [app] in H4. unfold arrs in *. cbn [map] in H4. inversion H4. auto. }
  destruct Hnb as [Hnd Hnb].
  assert (Hsame : core p h n X (if (w =? 32768)%Z then full_slice b :: S else S)).
  { constructor; auto. intros a Ha. assert (Hin : a = s_arr b \/ In a (arrs S)) by (destruct (w =? 32768)%Z; [destruct Ha as [<-|Ha]; [left; reflexivity|auto]|auto]).
    destruct Hin as [->|Hin].
    - split; [apply Ub|]. intros Hin. apply Hnb. unfold arrs in *. rewrite !map_app, !in_app_iff in *. destruct Hin as [Hin|[Hin|Hin]]; auto.
      right. right. rewrite <- firstn_map in Hin. eapply firstn_in. exact Hin.
    - destruct (H5 a Hin) as [H7 H8]. split; [exact H7|]. intros Hin'. apply H8. right. exact Hin'. }
  destruct (length (chan_of (p_chans p) w) <? p_max p); [|split; [exact Hsame|reflexivity]].
  split; [|unfold theirs; cbn [p_chans]; rewrite chan_of_upd by reflexivity; destruct Hw as [->| ->]; reflexivity].
  destruct Hsame as [G1 G2 G3 G4 G5 G6]. destruct Hw as [->| ->]; cbn [Z.eqb Pos.eqb] in *.
  - constructor; cbn [p_chans]; rewrite ?chan_of_upd by reflexivity; cbn [Z.eqb Pos.eqb]; auto.
    + apply Forall_app. split; [exact H1|]. constructor; [exact Ub|constructor].
    + eapply Permutation_NoDup; [|exact H4]. unfold arrs. cbn [app map]. rewrite !map_app. cbn [map full_slice s_arr]. rewrite <- !app_assoc. cbn [app].
      rewrite !app_assoc. apply Permutation_middle.
    + intros a Ha. destruct (H5 a Ha) as [H7 H8]. split; [exact H7|]. intros Hin. apply H8. revert Hin. arr_in.
  - constructor; cbn [p_chans]; rewrite ?chan_of_upd by reflexivity; cbn [Z.eqb Pos.eqb]; auto.
    + apply Forall_app. split; [exact H2|]. constructor; [exact Ub|constructor].
    + eapply Permutation_NoDup; [|exact H4]. unfold arrs. cbn [app map]. rewrite !map_app. cbn [map full_slice s_arr].
      rewrite !app_assoc. apply Permutation_cons_append.
    + intros a Ha. destruct (G5 a Ha) as [H7 H8]. split; [exact H7|]. rewrite firstn_app. replace (n - length _) with 0 by lia. cbn [firstn]. rewrite app_nil_r. exact H8.
    + rewrite app_length. lia.
Qed.

Lemma core_write p h n X S b d : core p h n X S -> In b X -> (Z.of_nat (length d) <= s_cap b)%Z ->
  core p (h_write h b d) n X S /\ others_same h (h_write h b d) (eq (s_arr b)).
Proof.
  intros C Hin Hd. assert (Ub : ubuf h b) by (pose proof (co_X _ _ _ _ _ C) as H; rewrite Forall_forall in H; apply H, Hin).
  destruct Ub as (w & Hw & (U1 & U2 & U3 & U4 & U5) & Ec). cbn [full_slice s_off s_arr s_len s_cap] in *.
  assert (Hfit : Z.to_nat (s_off b) + length d <= length (h_data h (s_arr b))) by lia.
  split.
  - apply (core_heap p h); [exact C|cbn; lia|]. intros a _. rewrite h_write_len by exact Hfit. lia.
  - split; [cbn; lia|]. intros a _ Ha. rewrite h_write_arr. destruct (Nat.eqb_spec a (s_arr b)); [congruence|reflexivity].
Qed.

(** * The others *)
Definition mine_same (X S : list slc) (h h' : heap) : Prop :=
  h_next h <= h_next h' /\ forall a, In a (arrs X) \/ In a (arrs S) -> h_data h' a = h_data h a.
Lemma mine_refl X S h : mine_same X S h h. Proof. split; auto. Qed.
Lemma mine_trans X S h1 h2 h3 : mine_same X S h1 h2 -> mine_same X S h2 h3 -> mine_same X S h1 h3.
Proof. intros [A1 A2] [B1 B2]. split; [lia|]. intros a Ha. rewrite B2, A2 by exact Ha. reflexivity. Qed.

Lemma core_owned p h n X S b : core p h n X S -> In b X -> s_arr b < h_next h.
Proof. intros C Hin. apply ubuf_lt. pose proof (co_X _ _ _ _ _ C) as H. rewrite Forall_forall in H. apply H, Hin. Qed.

Lemma step_shared p h held S n a : core p h (takes [a] + n) (held ++ theirs p) S ->
  forall p' h', other_step (p, h) a = (p', h') -> core p' h' n (held ++ theirs p') S /\ mine_same held S h h'.
Proof.
  intros C p' h' E. destruct a as [big|i|i d]; cbn [other_step] in E.
  - destruct (core_get p h n (held ++ theirs p) S big) as (p1 & h1 & b & E1 & U1 & C1 & T1 & [O1 O2]).
    { destruct big; exact C. }
    rewrite E1 in E. injection E as <- <-. rewrite theirs_set, T1. split.
    + apply core_set. eapply core_perm; [|exact C1]. rewrite app_assoc. apply Permutation_cons_append.
    + split; [exact O1|]. intros a Ha. apply O2; [|auto]. destruct Ha as [Ha|Ha]; [|apply (co_S _ _ _ _ _ C), Ha].
      apply in_map_iff in Ha as (x & <- & Hx). eapply core_owned; [exact C|]. apply in_app_iff. auto.
  - cbn [takes filter length plus] in C. destruct (nth_error (theirs p) i) as [b|] eqn:Ei; [|injection E as <- <-; split; [exact C|apply mine_refl]].
    apply pair_equal_spec in E as [<- <-]. apply nth_error_split in Ei as (l1 & l2 & El & Hl).
    assert (Erest : firstn i (theirs p) ++ skipn (Datatypes.S i) (theirs p) = l1 ++ l2).
    { rewrite El, <- Hl. rewrite firstn_app, firstn_all, Nat.sub_diag. cbn [firstn]. rewrite app_nil_r. f_equal.
      replace (Datatypes.S (length l1)) with (length l1 + 1) by lia. rewrite skipn_add, skipn_len_app. reflexivity. }
    rewrite Erest. set (p1 := set_theirs p (l1 ++ l2)).
    assert (C1 : core p1 h n (b :: held ++ l1 ++ l2) S).
    { apply core_set. eapply core_perm; [|exact C]. rewrite El, !app_assoc. symmetry. apply Permutation_middle. }
    destruct (core_put p1 h n _ S b C1) as [C2 T2]. rewrite T2. unfold p1 at 2. rewrite theirs_set.
    split; [|apply mine_refl]. destruct C2 as [G1 G2 G3 G4 G5 G6]. constructor; auto. intros x Hx. apply G5. destruct (s_cap b =? 32768)%Z; [right|]; exact Hx.
  - cbn [takes filter length plus] in C. destruct (nth_error (theirs p) i) as [b|] eqn:Ei; [|injection E as <- <-; split; [exact C|apply mine_refl]].
    destruct (Z.leb_spec (Z.of_nat (length d)) (s_cap b)) as [Hd|Hd]; [|injection E as <- <-; split; [exact C|apply mine_refl]].
    apply pair_equal_spec in E as [<- <-]. apply nth_error_In in Ei.
    destruct (core_write p h n (held ++ theirs p) S b d C) as [C1 [O1 O2]]; [apply in_app_iff; auto|exact Hd|].
    split; [exact C1|]. split; [exact O1|]. intros x Hx. apply O2.
    + destruct Hx as [Hx|Hx]; [|apply (co_S _ _ _ _ _ C), Hx]. apply in_map_iff in Hx as (y & <- & Hy). eapply core_owned; [exact C|]. apply in_app_iff. auto.
    + intros <-. destruct Hx as [Hx|Hx].
      * pose proof (co_nd _ _ _ _ _ C) as Hnd. unfold arrs in Hnd. rewrite <- app_assoc, map_app in Hnd. apply in_split in Hx as (u & v & Eu). fold (arrs held) in Hnd. rewrite Eu in Hnd.
        rewrite <- app_assoc in Hnd. cbn [app] in Hnd. apply NoDup_remove_2 in Hnd. apply Hnd. rewrite !in_app_iff. right. right. rewrite map_app, in_app_iff. left. apply in_map. exact Ei.
      * apply (co_S _ _ _ _ _ C) in Hx as [_ Hx]. apply Hx. unfold arrs. rewrite !map_app, !in_app_iff. left. right. apply in_map. exact Ei.
Qed.

Lemma takes_cons a l : takes (a :: l) = takes [a] + takes l.
Proof. unfold takes. cbn [filter]. destruct a as [[|]| |]; reflexivity. Qed.

Lemma steps_shared held S n l : forall p h, core p h (takes l + n) (held ++ theirs p) S ->
  forall p' h', fold_left other_step l (p, h) = (p', h') -> core p' h' n (held ++ theirs p') S /\ mine_same held S h h'.
Proof.
  induction l as [|a l IH]; intros p h C p' h' E; cbn [fold_left] in E.
  - injection E as <- <-. split; [exact C|apply mine_refl].
  - destruct (other_step (p, h) a) as [p1 h1] eqn:E1. rewrite takes_cons, <- Nat.add_assoc in C.
    destruct (step_shared _ _ _ _ _ _ C _ _ E1) as [C1 M1]. destruct (IH _ _ C1 _ _ E) as [C2 M2]. split; [exact C2|]. eapply mine_trans; eassumption.
Qed.

(** At most k big buffers are taken by the others from access t on. *)
Definition quiet (acts : nat -> list oact) (t k : nat) : Prop := forall m, taken acts m <= taken acts t + k.

Lemma taken_le acts t m : t <= m -> taken acts t <= taken acts m.
Proof. intros H. induction H; cbn [taken]; lia. Qed.

(** This download holds [held], needs [m] more big buffers, and the data in [S] must survive. *)
Record sh (e : fenv) (acts : nat -> list oact) (st : fstate) (m : nat) (held S : list slc) : Prop := {
  sh_intf : sharing e acts;
  sh_core : exists k, quiet acts (f_tick st) k /\ core (f_pool st) (f_heap st) (k + m) (held ++ theirs (f_pool st)) S }.

Lemma tick_shared e acts st m held S : sh e acts st m held S ->
  exists s1, interfere e st = (s1, FOk tt) /\ sh e acts s1 m held S /\ mine_same held S (f_heap st) (f_heap s1) /\
    f_script s1 = f_script st /\ f_trace s1 = f_trace st /\ samep st s1.
Proof.
  intros [Hi (k & Hk & C)]. unfold interfere. rewrite Hi. destruct (fold_left other_step (acts (f_tick st)) (f_pool st, f_heap st)) as [p h] eqn:E.
  assert (Ht : takes (acts (f_tick st)) <= k) by (specialize (Hk (Datatypes.S (f_tick st))); cbn [taken] in Hk; lia).
  replace (k + m) with (takes (acts (f_tick st)) + (k - takes (acts (f_tick st)) + m)) in C by lia.
  destruct (steps_shared _ _ _ _ _ _ C _ _ E) as [C1 M1].
  eexists. split; [reflexivity|]. cbn [f_heap f_script f_trace]. split; [|split; [exact M1|repeat split]].
  constructor; [exact Hi|]. cbn [f_tick f_pool f_heap]. exists (k - takes (acts (f_tick st))). split; [|exact C1].
  intros j. specialize (Hk j). cbn [taken]. lia.
Qed.

Lemma get_shared e acts st m held S (big : bool) : sh e acts st (if big then 1 + m else m) held S ->
  exists s1 b, m_get e (if big then 32768 else 4) st = (s1, FOk b) /\ usable (f_heap s1) (if big then 32768 else 4) b /\
    sh e acts s1 m (b :: held) S /\ mine_same held S (f_heap st) (f_heap s1) /\ f_script s1 = f_script st /\ f_trace s1 = f_trace st /\ samep st s1.
Proof.
  intros H. destruct (tick_shared _ _ _ _ _ _ H) as (s0 & E0 & [Hi (k & Hk & C)] & M0 & S0 & T0 & P0).
  unfold m_get, mbind. rewrite E0.
  destruct (core_get (f_pool s0) (f_heap s0) (k + m) (held ++ theirs (f_pool s0)) S big) as (p1 & h1 & b & E1 & U1 & C1 & T1 & [O1 O2]).
  { destruct big; [|exact C]. replace (1 + (k + m)) with (k + (1 + m)) by lia. exact C. }
  rewrite E1. eexists _, b. split; [reflexivity|]. cbn [set_ph f_heap f_script f_trace f_pool]. split; [exact U1|].
  split; [|split; [|split; [exact S0|split; [exact T0|exact P0]]]].
  - constructor; [exact Hi|]. exists k. cbn [set_ph f_tick f_pool f_heap]. split; [exact Hk|]. rewrite T1. exact C1.
  - eapply mine_trans; [exact M0|]. split; [exact O1|]. intros a Ha. apply O2; [|auto]. destruct Ha as [Ha|Ha]; [|apply (co_S _ _ _ _ _ C), Ha].
    apply in_map_iff in Ha as (x & <- & Hx). eapply core_owned; [exact C|]. apply in_app_iff. auto.
Qed.

Lemma put_shared e acts st m held S b : sh e acts st m (b :: held) S ->
  exists s1, m_put e b st = (s1, FOk tt) /\ sh e acts s1 m held (if (s_cap b =? 32768)%Z then full_slice b :: S else S) /\
    mine_same (b :: held) S (f_heap st) (f_heap s1) /\ f_script s1 = f_script st /\ f_trace s1 = f_trace st /\ samep st s1.
Proof.
  intros H. destruct (tick_shared _ _ _ _ _ _ H) as (s0 & E0 & [Hi (k & Hk & C)] & M0 & S0 & T0 & P0).
  unfold m_put, mbind. rewrite E0. destruct (core_put (f_pool s0) (f_heap s0) (k + m) (held ++ theirs (f_pool s0)) S b C) as [C1 T1].
  eexists. split; [reflexivity|]. cbn [set_ph f_heap f_script f_trace]. split; [|split; [exact M0|split; [exact S0|split; [exact T0|exact P0]]]].
  constructor; [exact Hi|]. exists k. cbn [set_ph f_tick f_pool f_heap]. split; [exact Hk|]. rewrite T1. exact C1.
Qed.

Lemma read_shared e acts st m held S w b seg rest : sh e acts st m (b :: held) S -> (w = 4 \/ w = 32768)%Z -> usable (f_heap st) w b -> f_script st = seg :: rest ->
  exists s1 h0, m_read e b st = (s1, FOk (length (firstn (Z.to_nat w) seg))) /\
    f_script s1 = (match skipn (Z.to_nat w) seg with [] => rest | l => l :: rest end) /\
    usable h0 w b /\ f_heap s1 = h_write h0 b (firstn (Z.to_nat w) seg) /\ usable (f_heap s1) w b /\
    sh e acts s1 m (b :: held) S /\ mine_same held S (f_heap st) (f_heap s1) /\ samep st s1.
Proof.
  intros H Hw U Hsc. destruct (tick_shared _ _ _ _ _ _ H) as (s0 & E0 & [Hi (k & Hk & C)] & M0 & S0 & T0 & P0).
  unfold m_read, mbind. rewrite E0. unfold m_recv. assert (Ul : s_len b = w) by apply U. assert (Uc : s_cap b = w) by apply U. rewrite Ul, S0, Hsc.
  destruct (Nat.eqb_spec (Z.to_nat w) 0); [lia|]. cbn beta iota.
  set (d := firstn (Z.to_nat w) seg). assert (Hd : length d <= Z.to_nat w) by (unfold d; rewrite firstn_length; lia).
  assert (U0 : usable (f_heap s0) w b).
  { destruct M0 as [M1 M2]. eapply usable_data; [exact U|exact M1|]. rewrite M2; [lia|left; left; reflexivity]. }
  destruct (core_write (f_pool s0) (f_heap s0) (k + m) ((b :: held) ++ theirs (f_pool s0)) S b d C) as [C1 [O1 O2]]; [left; reflexivity|lia|].
  eexists _, (f_heap s0). split; [reflexivity|]. cbn [set_ph set_io f_script f_heap]. split; [destruct (skipn (Z.to_nat w) seg); reflexivity|].
  split; [exact U0|]. split; [reflexivity|]. split.
  { eapply usable_data; [exact U0|exact O1|]. destruct U0 as (_ & _ & U3 & U4 & U5). rewrite h_write_len by lia. lia. }
  split; [|split].
  - constructor; [exact Hi|]. exists k. cbn [set_ph set_io f_tick f_pool f_heap]. split; [exact Hk|exact C1].
  - eapply mine_trans; [split; [apply M0|]; intros a Ha; apply M0; destruct Ha as [Ha|Ha]; [left; right; exact Ha|right; exact Ha]|].
    split; [exact O1|]. intros a Ha. apply O2.
    + destruct Ha as [Ha|Ha]; [|apply (co_S _ _ _ _ _ C), Ha]. apply in_map_iff in Ha as (x & <- & Hx). eapply core_owned; [exact C|]. cbn [app]. right. apply in_app_iff. auto.
    + intros <-. destruct Ha as [Ha|Ha].
      * pose proof (co_nd _ _ _ _ _ C) as Hnd. unfold arrs in Hnd. cbn [app map] in Hnd. inversion Hnd as [|x l Hn _]. apply Hn. rewrite !map_app, !in_app_iff. left. left. exact Ha.
      * apply (co_S _ _ _ _ _ C) in Ha as [_ Ha]. apply Ha. left. reflexivity.
  - destruct P0 as (P1 & P2 & P3). repeat split; assumption.
Qed.

(** Parts that move with the buffers. *)
Lemma sh_drop e acts st m b held S : sh e acts st m (b :: held) S -> sh e acts st m held S.
Proof.
  intros [Hi (k & Hk & C)]. constructor; [exact Hi|]. exists k. split; [exact Hk|]. apply (core_drop _ _ _ [b]). exact C.
Qed.
Lemma sh_same e acts st st' m held S : f_tick st' = f_tick st -> f_pool st' = f_pool st -> f_heap st' = f_heap st -> sh e acts st m held S -> sh e acts st' m held S.
Proof. intros E1 E2 E3 [Hi (k & Hk & C)]. constructor; [exact Hi|]. exists k. rewrite E1, E2, E3. auto. Qed.
Lemma sh_reslice e acts st m b b' held S : s_arr b' = s_arr b -> s_off b' = s_off b -> s_cap b' = s_cap b -> sh e acts st m (b :: held) S -> sh e acts st m (b' :: held) S.
Proof.
  intros Ea Eo Ec [Hi (k & Hk & C)]. constructor; [exact Hi|]. exists k. split; [exact Hk|]. destruct C as [H1 H2 H3 H4 H5 H6]. cbn [app] in *. constructor; auto.
  - apply Forall_cons_iff in H3 as [(w & Hw & U & Hc) H3]. constructor; [|exact H3]. exists w. split; [exact Hw|]. unfold full_slice in *. rewrite Ea, Eo, Ec. split; [exact U|exact Hc].
  - cbn [app] in *. unfold arrs in *. cbn [map] in *. rewrite Ea. exact H4.
  - intros a Ha. specialize (H5 a Ha). cbn [app] in *. unfold arrs in *. cbn [map] in *. rewrite Ea. exact H5.
Qed.

(** Data that must survive does. *)
Definition data_same (S : list slc) (h h' : heap) : Prop := forall a, In a (arrs S) -> h_data h' a = h_data h a.
Lemma mine_data X S h h' : mine_same X S h h' -> data_same S h h'.
Proof. intros [_ H] a Ha. apply H. auto. Qed.
Lemma data_trans S h1 h2 h3 : data_same S h1 h2 -> data_same S h2 h3 -> data_same S h1 h3.
Proof. intros A C a Ha. rewrite C, A by exact Ha. reflexivity. Qed.

(** Reading the length prefix of a message. *)
Lemma prefix_shared e acts st m S n body rest : sh e acts st m [] S -> f_script st = (be32 n ++ body) :: rest -> (N.of_nat n < 2 ^ 32)%N ->
  exists s2 pre, readBytesByPrefixLenMsg e st =
      (if (N.of_nat n =? 0)%N then ret None else
       let* _ := m_put e pre in
       if (Z.to_N maxReadLength <? N.of_nat n)%N then lift (Err (ENew (B "read input toolarge"))) else
       let* buf := m_get e maxReadLength in
       let* k := m_read e buf in
       ret (Some {| s_arr := s_arr buf; s_off := s_off buf; s_len := Z.of_nat k; s_cap := s_cap buf |})) s2 /\
    s_cap pre = 4%Z /\ sh e acts s2 m [pre] S /\ f_script s2 = (match body with [] => rest | _ => body :: rest end) /\ samep st s2 /\ data_same S (f_heap st) (f_heap s2).
Proof.
  intros H Hsc Hn. unfold readBytesByPrefixLenMsg.
  destruct (get_shared e acts st m [] S false H) as (s1 & pre & E1 & U1 & H1 & M1 & S1 & T1 & P1). cbv iota in E1, U1.
  change PrefixLen with 4%Z. unfold mbind at 1. rewrite E1. rewrite Hsc in S1.
  destruct (read_shared e acts s1 m [] S 4 pre _ _ H1 (or_introl eq_refl) U1 S1) as (s2 & h0 & E2 & S2 & U0 & H2 & U2 & Sh2 & M2 & P2).
  unfold mbind at 1. rewrite E2. unfold mbind at 1. cbn [m_show].
  change (Z.to_nat 4) with (length (be32 n)) in S2, H2. rewrite skipn_len_app in S2. rewrite firstn_app, firstn_all, Nat.sub_diag in H2. cbn [firstn] in H2. rewrite app_nil_r in H2.
  assert (R2 : h_read (f_heap s2) pre = be32 n) by (rewrite H2; apply (h_read_w _ _ 4); [lia|exact U0|reflexivity]).
  unfold mbind at 1. rewrite R2. unfold lift at 1. rewrite <- (app_nil_r (be32 n)), Uint32_be32 by exact Hn.
  exists s2, pre. split; [reflexivity|]. split; [apply U1|]. split; [exact Sh2|]. split; [destruct body; exact S2|]. split; [eapply samep_trans; eassumption|].
  eapply data_trans; [eapply mine_data; exact M1|eapply mine_data; exact M2].
Qed.

Lemma readBytes_shared e acts st m S body rest : sh e acts st (1 + m) [] S -> f_script st = frame body :: rest ->
  1 <= length body -> length body <= Z.to_nat 32768 ->
  exists s1 b, readBytesByPrefixLenMsg e st = (s1, FOk (Some b)) /\ h_read (f_heap s1) b = body /\
    s_len b = Z.of_nat (length body) /\ (0 <= s_off b)%Z /\ s_cap b = 32768%Z /\ sh e acts s1 m [b] S /\
    f_script s1 = rest /\ samep st s1 /\ data_same S (f_heap st) (f_heap s1).
Proof.
  intros H Hsc Hb1 Hb2. destruct (prefix_shared e acts st (1 + m) S (length body) body rest H Hsc ltac:(lia)) as (s2 & pre & E2 & Uc & Sh2 & S2 & P2 & D2).
  rewrite E2. destruct (N.eqb_spec (N.of_nat (length body)) 0); [lia|].
  destruct (put_shared e acts s2 (1 + m) [] S pre Sh2) as (s3 & E3 & Sh3 & M3 & S3 & T3 & P3). rewrite Uc in Sh3. cbn [Z.eqb Pos.eqb] in Sh3.
  unfold mbind at 1. rewrite E3. change (Z.to_N maxReadLength) with 32768%N. destruct (N.ltb_spec 32768 (N.of_nat (length body))); [lia|].
  destruct (get_shared e acts s3 m [] S true Sh3) as (s4 & buf & E4 & U4 & Sh4 & M4 & S4 & T4 & P4). cbv iota in E4, U4.
  unfold mbind at 1. change maxReadLength with 32768%Z. rewrite E4.
  assert (S4' : f_script s4 = body :: rest) by (rewrite S4, S3, S2; destruct body; [cbn in Hb1; lia|reflexivity]).
  destruct (read_shared e acts s4 m [] S 32768 buf _ _ Sh4 (or_intror eq_refl) U4 S4') as (s5 & h0 & E5 & S5 & U0 & H5 & U5 & Sh5 & M5 & P5).
  unfold mbind at 1. rewrite E5. rewrite firstn_all2 in * by lia. rewrite skipn_all2 in S5 by lia.
  eexists s5, _. split; [reflexivity|]. cbn [s_len s_off s_cap]. split; [|split; [reflexivity|split; [apply U4|split; [apply U4|split; [|split; [exact S5|split]]]]]].
  - rewrite H5. apply h_write_read. destruct U0 as (_ & _ & _ & _ & U6). lia.
  - eapply sh_reslice; [..|exact Sh5]; reflexivity.
  - eapply samep_trans; [exact P2|]. eapply samep_trans; [exact P3|]. eapply samep_trans; [exact P4|exact P5].
  - eapply data_trans; [exact D2|]. eapply data_trans; [eapply mine_data; exact M3|]. eapply data_trans; [eapply mine_data; exact M4|eapply mine_data; exact M5].
Qed.

Lemma readBytes_empty e acts st m S rest : sh e acts st m [] S -> f_script st = frame [] :: rest ->
  exists s1, readBytesByPrefixLenMsg e st = (s1, FOk None) /\ sh e acts s1 m [] S /\ f_script s1 = rest /\ samep st s1 /\ data_same S (f_heap st) (f_heap s1).
Proof.
  intros H Hsc. destruct (prefix_shared e acts st m S 0 [] rest H Hsc ltac:(lia)) as (s2 & pre & E2 & Uc & Sh2 & S2 & P2 & D2).
  rewrite E2. cbn [N.of_nat N.eqb]. exists s2. split; [reflexivity|]. split; [eapply sh_drop; exact Sh2|]. auto.
Qed.

Lemma readBytes_long e acts st m S body rest : sh e acts st m [] S -> f_script st = frame body :: rest ->
  Z.to_nat 32768 < length body -> (N.of_nat (length body) < 2 ^ 32)%N -> exists s1 x, readBytesByPrefixLenMsg e st = (s1, FErr x).
Proof.
  intros H Hsc Hb1 Hb2. destruct (prefix_shared e acts st m S (length body) body rest H Hsc Hb2) as (s2 & pre & E2 & Uc & Sh2 & _).
  rewrite E2. destruct (N.eqb_spec (N.of_nat (length body)) 0); [lia|].
  destruct (put_shared e acts s2 m [] S pre Sh2) as (s3 & E3 & _). unfold mbind at 1. rewrite E3. change (Z.to_N maxReadLength) with 32768%N.
  destruct (N.ltb_spec 32768 (N.of_nat (length body))); [|lia]. eexists s3, _. reflexivity.
Qed.

Lemma readBytes_none e acts st m S : sh e acts st m [] S -> f_script st = [] -> exists s1 x, readBytesByPrefixLenMsg e st = (s1, FErr x).
Proof.
  intros H Hsc. unfold readBytesByPrefixLenMsg, mbind at 1.
  destruct (get_shared e acts st m [] S false H) as (s1 & pre & E1 & U1 & H1 & M1 & S1 & T1 & P1). cbv iota in E1, U1. change PrefixLen with 4%Z. rewrite E1.
  unfold mbind at 1, m_read, mbind at 1. destruct (tick_shared _ _ _ _ _ _ H1) as (s3 & E3 & _ & _ & S3 & _). rewrite E3.
  unfold mbind at 1, m_recv. destruct U1 as (Ul & _). rewrite Ul. change (Z.to_nat 4 =? 0) with false. cbv iota. rewrite S3, S1, Hsc. eexists _, _. reflexivity.
Qed.

Lemma handle_tick e b s s' r : handle_msg e b s = (s', r) -> f_tick s' = f_tick s.
Proof.
  assert (Hb : forall A C (m : M A) (k : A -> M C), (forall s s' r, m s = (s', r) -> f_tick s' = f_tick s) ->
    (forall a s s' r, k a s = (s', r) -> f_tick s' = f_tick s) -> forall s s' r, mbind m k s = (s', r) -> f_tick s' = f_tick s).
  { intros A C m k Hm Hk s0 s1 r0 E. unfold mbind in E. destruct (m s0) as [sa [a|x|p|x]] eqn:Ea; specialize (Hm _ _ _ Ea);
      [specialize (Hk a _ _ _ E); congruence|injection E as <- <-; exact Hm..]. }
  assert (Hl : forall A (x : res A) s s' r, lift x s = (s', r) -> f_tick s' = f_tick s) by (intros A x s0 s1 r0 E; injection E as <- _; auto).
  assert (Hr : forall A (x : A) s s' r, ret x s = (s', r) -> f_tick s' = f_tick s) by (intros A x s0 s1 r0 E; injection E as <- _; auto).
  assert (Hp : forall A x s s' r, @mpanic A x s = (s', r) -> f_tick s' = f_tick s) by (intros A x s0 s1 r0 E; injection E as <- _; auto).
  assert (Hk : forall a c s s' r, m_make e a c s = (s', r) -> f_tick s' = f_tick s).
  { intros a c s0 s1 r0 E. unfold m_make in E. destruct (_ || _); [injection E as <- _; auto|]. destruct (e_mem e (a * c)); injection E as <- _; auto. }
  assert (Hw : forall bs s s' r, m_write e bs s = (s', r) -> f_tick s' = f_tick s).
  { intros bs s0 s1 r0 E. unfold m_write in E. destruct (e_write e (length (f_trace s0))); injection E as <- _; auto. }
  assert (Hq : forall is s s' r, request_pieces e is s = (s', r) -> f_tick s' = f_tick s).
  { induction is as [|i t IH]; cbn [request_pieces]; [apply Hr|].
    apply Hb; [intros s0 s1 r0 E; injection E as <- _; auto|]. intros ord. apply Hb; [apply Hl|]. intros msg. apply Hb; [apply Hw|].
    intros [|]; [exact IH|apply Hp]. }
  revert s s' r. unfold handle_msg. apply Hb; [intros s0 s1 r0 E; injection E as <- _; auto|]. intros data.
  apply Hb; [apply Hl|]. intros ty. destruct (ty =? ExtendedPeerMsg)%N; [|apply Hr].
  unfold handleExtendedMsg. apply Hb; [apply Hl|]. intros id.
  destruct (bval id =? 0)%N; [|destruct (bval id =? 1)%N; [|apply Hr]].
  - unfold handle_ext_handshake. apply Hb; [apply Hl|]. intros dict.
    destruct (negb (Exist dict (B "metadata_size"))); [apply Hp|]. apply Hb; [apply Hl|]. intros sz.
    apply Hb; [intros s0 s1 r0 E; injection E as <- _; auto|]. intros _. cbv zeta.
    apply Hb; [apply Hk|]. intros _. apply Hb; [intros s0 s1 r0 E; injection E as <- _; auto|]. intros _.
    apply Hb; [apply Hk|]. intros _. apply Hb; [intros s0 s1 r0 E; injection E as <- _; auto|]. intros _. apply Hq.
  - unfold handle_piece. apply Hb; [apply Hl|]. intros m. destruct (negb (fm_type m =? ExData)%Z); [apply Hr|]. cbv zeta.
    intros s0 s1 r0 E. destruct (_ || _); [injection E as <- _; auto|]. destruct (_ <=? _)%Z; injection E as <- _; auto.
Qed.

Lemma linked_data s st st' S : linked s st S -> samep st st' -> data_same S (f_heap st) (f_heap st') -> linked s st' S.
Proof.
  intros [H1 H2 H3 H4] (P1 & P2 & P3) D. constructor; rewrite ?P1, ?P2, ?P3; auto.
  intros i p Hi. destruct (H4 i p Hi) as [(sl & E1 & E2 & E3)|H]; [left|right; exact H]. exists sl. split; [exact E1|]. split; [exact E2|].
  rewrite <- E3. unfold h_read. rewrite D by exact E2. reflexivity.
Qed.

Lemma step_shared_hear e acts st s m rest n S : calm e -> sh e acts st (cost m + n) [] S -> linked s st S ->
  f_script st = frame m :: rest -> length m <= Z.to_nat 32768 ->
  match hear s m with
  | None => exists st' x, readMetaDataHandler e st = (st', FPanic x) /\ wr st' = wr st
  | Some (s', asked) => exists st' S' msgs, readMetaDataHandler e st = (st', FOk tt) /\
      sh e acts st' n [] S' /\ linked s' st' S' /\ f_script st' = rest /\ wr st' = wr st ++ msgs /\ Forall2 (sent e) asked msgs
  end.
Proof.
  intros Hc H L Hsc Hl. destruct m as [|c t].
  - cbn [hear]. destruct (readBytes_empty e acts st n S rest H Hsc) as (s1 & E1 & H1 & S1 & P1 & D1).
    exists s1, S, []. unfold readMetaDataHandler. rewrite E1. split; [reflexivity|]. split; [exact H1|]. split; [eapply linked_data; eassumption|].
    split; [exact S1|]. split; [rewrite app_nil_r; eapply wr_reads; exact E1|constructor].
  - set (m := c :: t) in *. change (cost m) with 1 in H.
    destruct (readBytes_shared e acts st n S m rest H Hsc ltac:(cbn; lia) Hl) as (s1 & b & E1 & R1 & L1 & F1 & C1 & H1 & S1 & P1 & D1).
    pose proof (wr_reads _ _ _ _ E1) as W1. pose proof (linked_data _ _ _ _ L P1 D1) as L'. destruct L' as [Z1 Z2 Z3 Z4].
    pose proof (handle_hear e b s1 s m Hc R1 L1 F1 ltac:(discriminate) Z1 Z2 Z3) as HH. unfold readMetaDataHandler. rewrite E1. unfold with_put.
    destruct (hear s m) as [[s' asked]|].
    2: { destruct HH as (s2 & x & E2 & W2). rewrite E2. destruct (handle_quiet _ _ _ _ _ E2) as (G1 & G2 & G3). pose proof (handle_tick _ _ _ _ _ E2) as G4.
         destruct (put_shared e acts s2 n [] S b (sh_same _ _ _ _ _ _ _ G4 G1 G2 H1)) as (s3 & E3 & _ & _ & _ & T3 & _).
         rewrite C1. change (0 <? 32768)%Z with true. rewrite E3. cbn [fst]. exists s3, x. split; [reflexivity|]. unfold wr in *. congruence. }
    destruct HH as (s2 & msgs & E2 & A1 & A2 & A3 & A4 & A5 & A6). rewrite E2. destruct (handle_quiet _ _ _ _ _ E2) as (G1 & G2 & G3). pose proof (handle_tick _ _ _ _ _ E2) as G4.
    destruct (put_shared e acts s2 n [] S b (sh_same _ _ _ _ _ _ _ G4 G1 G2 H1)) as (s3 & E3 & H3 & [M31 M32] & S3 & T3 & (P31 & P32 & P33)).
    rewrite C1 in *. change (0 <? 32768)%Z with true. cbn [Z.eqb Pos.eqb] in H3. rewrite E3. cbn [fst].
    exists s3, (full_slice b :: S), msgs. split; [reflexivity|]. split; [exact H3|]. split.
    { constructor; [congruence|congruence|rewrite P31; exact A3|]. intros i p Hi. rewrite P31.
      destruct (A6 i p Hi) as [(sl & B1 & B2 & B3)|[B|[B1 B2]]].
      - left. exists sl. split; [exact B1|]. split; [left; rewrite B2; reflexivity|]. rewrite <- B3, <- G2. unfold h_read. rewrite M32; [reflexivity|]. left. left. symmetry. exact B2.
      - right. exact B.
      - rewrite B2. destruct (Z4 i p B1) as [(sl & D3 & D4 & D5)|D]; [left|right; exact D]. exists sl. split; [exact D3|]. split; [right; exact D4|].
        rewrite <- D5, <- G2. unfold h_read. rewrite M32; [reflexivity|]. right. exact D4. }
    split; [congruence|]. split; [unfold wr in *; congruence|exact A5].
Qed.

Lemma loop_shared e acts : calm e -> forall bodies s st S f,
  sh e acts st (spoken bodies) [] S -> linked s st S -> f_script st = map frame bodies -> length bodies < f ->
  Forall (fun m => (N.of_nat (length m) < 2 ^ 32)%N) bodies ->
  exists out asked st' r msgs, session s bodies out asked /\ readMetaDataLoop e f st = (st', r) /\ wr st' = wr st ++ msgs /\ Forall2 (sent e) asked msgs /\
    match out with None => exists x, r = FPanic x | Some s' => r = FOk tt /\ exists S' n, linked s' st' S' /\ sh e acts st' n [] S' end.
Proof.
  intros Hc. induction bodies as [|m t IH]; intros s st S f H L Hsc Hf Hbig;
    (destruct f as [|f]; [cbn in Hf; lia|]);
    (destruct (forallb filled (slots s)) eqn:Ecm;
      [exists (Some s), [], st, (FOk tt), []; split; [constructor; apply complete_iff; exact Ecm|];
       split; [apply loop_done; rewrite (completed_iff s) by apply L; exact Ecm|]; split; [rewrite app_nil_r; reflexivity|];
       split; [constructor|]; split; [reflexivity|]; eauto|]);
    (assert (Hnc : ~ complete s) by (rewrite complete_iff; congruence));
    (assert (Hst : CompledMetaData st = false) by (rewrite (completed_iff s) by apply L; exact Ecm));
    cbn [readMetaDataLoop]; rewrite Hst, (ca_exp e Hc); cbn [negb andb]; unfold mbind.
  - destruct (readBytes_none e acts st _ S H Hsc) as (st' & x & E). pose proof (wr_reads _ _ _ _ E) as W. unfold readMetaDataHandler. rewrite E.
    eexists None, [], st', _, []. split; [constructor; exact Hnc|]. split; [reflexivity|]. split; [rewrite app_nil_r; exact W|]. split; [constructor|]. eauto.
  - apply Forall_cons_iff in Hbig as [Hbm Hbig]. cbn [map] in Hsc. rewrite spoken_cons in H.
    destruct (Nat.le_gt_cases (length m) (Z.to_nat 32768)) as [Hl|Hl].
    2: { destruct (readBytes_long e acts st _ S m _ H Hsc Hl Hbm) as (st' & x & E). pose proof (wr_reads _ _ _ _ E) as W. unfold readMetaDataHandler. rewrite E.
         eexists None, [], st', _, []. split; [apply se_fail; auto|]. split; [reflexivity|]. split; [rewrite app_nil_r; exact W|]. split; [constructor|]. eauto. }
    pose proof (fits_small m Hl) as Hfit.
    pose proof (step_shared_hear e acts st s m _ (spoken t) S Hc H L Hsc Hl) as HS.
    destruct (hear s m) as [[s' asked]|] eqn:Eh.
    2: { destruct HS as (st' & x & E & W). rewrite E. exists None, [], st', (FPanic x), []. split.
         { apply se_fail; [exact Hnc|]. right. intros s' asked H'. apply hear_iff in H'; [congruence|exact Hfit]. }
         split; [reflexivity|]. split; [rewrite app_nil_r; exact W|]. split; [constructor|]. eauto. }
    destruct HS as (st1 & S' & msgs & E & H' & L' & Sc' & W & F). rewrite E.
    destruct (IH s' st1 S' f H' L' Sc' ltac:(cbn in Hf; lia) Hbig) as (out & more & st' & r & msgs' & H1 & H2 & H3 & H4 & H5).
    exists out, (asked ++ more), st', r, (msgs ++ msgs'). split; [apply (se_hear s m s' asked t out more); auto; apply hear_iff; assumption|].
    split; [exact H2|]. split; [rewrite H3, W, app_assoc; reflexivity|]. split; [apply Forall2_app; assumption|exact H5].
Qed.

Lemma merge_shared e acts s S m : complete s -> forall n j st acc, sh e acts st m [] S -> linked s st S -> j + n = length (slots s) ->
  exists st', merge e (seq j n) acc st = (st', FOk (acc ++ concat (map (fun x => match x with Some b => b | None => [] end) (skipn j (slots s))))) /\ f_trace st' = f_trace st.
Proof.
  intros Hcm. induction n as [|n IH]; intros j st acc H L Hj.
  - exists st. cbn [seq merge]. rewrite skipn_all2 by lia. cbn. rewrite app_nil_r. split; reflexivity.
  - cbn [seq merge]. unfold mbind at 1. destruct (tick_shared _ _ _ _ _ _ H) as (s1 & E1 & H1 & M1 & S1 & T1 & P1). rewrite E1.
    destruct (split_at (slots s) j ltac:(lia)) as (a & x & b & Es & Ea).
    assert (Hn : nth_error (slots s) j = Some x) by (rewrite Es, <- Ea, nth_error_app2, Nat.sub_diag by lia; reflexivity).
    assert (Esk : skipn j (slots s) = x :: skipn (Datatypes.S j) (slots s)).
    { rewrite Es, <- Ea. rewrite skipn_len_app. replace (Datatypes.S (length a)) with (length a + 1) by lia. rewrite skipn_add, skipn_len_app. reflexivity. }
    destruct x as [p|]; [|exfalso; apply (Hcm None); [apply nth_error_In in Hn; exact Hn|reflexivity]].
    assert (L1 : linked s s1 S) by (eapply linked_data; [exact L|exact P1|eapply mine_data; exact M1]).
    rewrite Esk. cbn [map concat]. destruct (lk_data _ _ _ L1 j p Hn) as [(sl & C1 & _ & C3)|[C1 C2]]; rewrite C1.
    + rewrite C3. destruct (IH (Datatypes.S j) s1 (acc ++ p) H1 L1 ltac:(lia)) as (st' & E & T). exists st'. rewrite E, <- app_assoc. split; [reflexivity|congruence].
    + subst p. destruct (IH (Datatypes.S j) s1 acc H1 L1 ltac:(lia)) as (st' & E & T). exists st'. rewrite E. split; [reflexivity|congruence].
Qed.

Lemma initial_tick e s : f_tick (fst (initialMessages e s)) = f_tick s.
Proof.
  unfold initialMessages, mbind, m_ord, lift, m_write. destruct (withExtendedhandShake _ _ _); [|reflexivity..].
  cbn [fst]. destruct (e_write e (length (f_trace s))); reflexivity.
Qed.

Theorem fetch_shared e acts k p h hs bodies peerId infoHash : sharing e acts -> (forall t, taken acts t <= k) ->
  calm e -> sane_folding (e_fold e) -> sound_shared p h -> length peerId = 20 -> length infoHash = 20 -> length hs <= 68 -> accepted hs ->
  Forall (fun m => (N.of_nat (length m) < 2 ^ 32)%N) bodies -> k + spoken bodies <= length (chan_of (p_chans p) 32768) ->
  exists s r out asked ext msgs, FetchMetaData e p h (Some (hs :: map frame bodies)) peerId infoHash = (s, r) /\
    session first_contact bodies out asked /\ verdict sha1 infoHash out r /\
    written (f_trace s) = our_handshake peerId infoHash :: ext :: msgs /\ our_ext_handshake ext /\ Forall2 is_request asked msgs.
Proof.
  intros Ha Hk Hc Hu (Hsp & Ht & Hnd) Hp Hi Hl Hacc Hbig Hroom. unfold FetchMetaData. set (s0 := NewPeerConn p h _).
  assert (H0 : sh e acts s0 (spoken bodies) [] []).
  { constructor; [exact Ha|]. exists k. split; [intros j; specialize (Hk j); cbn; lia|]. destruct Hsp as (_ & G1 & _ & G2 & _ & _). cbn [s0 NewPeerConn f_pool f_heap app].
    constructor; auto.
    - eapply Forall_impl; [|exact Ht]. intros b [Hb|Hb]; eexists; (split; [|split; [exact Hb|apply Hb]]); auto.
    - intros a []. }
  assert (E1 : exists s1, handshakePeer e peerId infoHash s0 = (s1, FOk tt) /\ f_script s1 = map frame bodies /\ samep s0 s1 /\ f_pool s1 = f_pool s0 /\ f_heap s1 = f_heap s0 /\
    f_tick s1 = 0 /\ wr s1 = [our_handshake peerId infoHash]).
  { rewrite (handshake_eq e _ _ _ Hp Hi), (ca_write e Hc). unfold after_handshake, s0. cbn [set_io f_script NewPeerConn].
    apply (accepted_iff (e_fold e)) in Hacc; [|exact Hu]. rewrite Hacc. rewrite skipn_all2 by (unfold handShakeLen; lia).
    eexists. split; [reflexivity|]. cbn [set_io f_script f_pool f_heap f_tick]. split; [reflexivity|]. split; [repeat split|]. split; [reflexivity|]. split; [reflexivity|]. split; reflexivity. }
  destruct E1 as (s1 & E1 & S1 & P1 & G1 & G1' & K1 & W1).
  destruct (initial_run e s1 Hc) as (s2 & E2 & S2 & P2 & G2 & G2' & wn & ext & WM & W2).
  assert (K2 : f_tick s2 = 0).
  { pose proof (initial_tick e s1) as K. rewrite E2 in K. cbn [fst] in K. congruence. }
  assert (P02 : samep s0 s2) by (eapply samep_trans; eassumption).
  assert (H2 : sh e acts s2 (spoken bodies) [] []) by (apply (sh_same e acts s0); [exact K2|congruence|congruence|exact H0]).
  rewrite S1 in S2.
  assert (L2 : linked first_contact s2 []).
  { destruct P02 as (Q1 & Q2 & Q3). constructor; [rewrite Q2; reflexivity|rewrite Q3; reflexivity|rewrite Q1; cbn; lia|].
    intros [|[|i]] q Hq; discriminate. }
  destruct (loop_shared e acts Hc bodies first_contact s2 [] (loop_fuel (f_script s2)) H2 L2 S2) as (out & asked & s3 & r3 & msgs & Hses & E3 & W3 & F3 & Hout).
  { unfold loop_fuel. fold (mu (f_script s2)). pose proof (mu_length (f_script s2)) as Hm. rewrite S2 in Hm at 1. rewrite map_length in Hm. lia. }
  { exact Hbig. }
  assert (Hreq : Forall2 is_request asked msgs).
  { assert (Hb : Forall (fun i => (Z.of_nat i <= max_int)%Z) asked).
    { clear - Hses. induction Hses as [s msgs Hd|s Hn|s m s' asked t out more Hn Hl Hh Hs IH|s m t Hn Hf]; try constructor. apply Forall_app. split; [|exact IH].
      inversion Hh as [| | |enc d u mm size k H1 H2 H3 H4 H5 H6| |]; subst; try constructor. apply Forall_forall. intros i Hin. apply in_seq in Hin. unfold max_int. lia. }
    clear - F3 Hb Hc. induction F3 as [|i m is ms H F IH]; [constructor|]. apply Forall_cons_iff in Hb as [Hb1 Hb]. constructor; [|apply IH; exact Hb].
    destruct H as (n & H). eapply request_is; [apply (ca_ord e Hc)|exact Hb1|exact H]. }
  assert (Hext : our_ext_handshake ext) by (eapply ext_is; [apply (ca_ord e Hc)|exact WM]).
  unfold fetch_body, mbind at 1. rewrite E1. unfold mbind at 1. rewrite E2. unfold mbind at 1. rewrite E3.
  assert (Wr3 : wr s3 = our_handshake peerId infoHash :: ext :: msgs) by (rewrite W3, W2, W1; reflexivity).
  assert (Wend : forall st, f_trace st = f_trace s3 -> written (f_trace (set_io st (f_script st) CClose)) = our_handshake peerId infoHash :: ext :: msgs).
  { intros st Et. cbn [set_io f_trace]. rewrite Et, written_app. fold (wr s3). rewrite Wr3. cbn. rewrite app_nil_r. reflexivity. }
  destruct out as [s'|].
  2: { destruct Hout as (x & ->). eexists _, _, None, asked, ext, msgs. split; [reflexivity|]. split; [exact Hses|]. split; [reflexivity|]. split; [apply Wend; reflexivity|]. auto. }
  destruct Hout as (-> & used & n3 & L3 & H3). pose proof (complete_session _ _ _ _ Hses) as Hcm.
  rewrite (completed_iff s') by apply L3. rewrite (proj1 (complete_iff s') Hcm). cbn [negb].
  unfold mbind at 1, m_make. rewrite (lk_size _ _ _ L3).
  destruct (Z.ltb_spec (announced s') 0) as [Hz|Hz]; cbn [orb].
  { eexists _, _, (Some s'), asked, ext, msgs. split; [reflexivity|]. split; [exact Hses|]. split; [split; [reflexivity|lia]|]. split; [apply Wend; reflexivity|]. auto. }
  destruct (Z.ltb_spec (2 ^ 48) (1 * announced s')) as [Hz'|Hz'].
  { eexists _, _, (Some s'), asked, ext, msgs. split; [reflexivity|]. split; [exact Hses|]. split; [split; [reflexivity|lia]|]. split; [apply Wend; reflexivity|]. auto. }
  rewrite (ca_mem e Hc). unfold mbind at 1. rewrite (lk_req _ _ _ L3), map_length.
  destruct (merge_shared e acts s' used n3 Hcm (length (slots s')) 0 s3 [] H3 L3 ltac:(lia)) as (s4 & E4 & T4). rewrite E4. cbn [app skipn]. fold (content s').
  unfold GenerateInfoHash. destruct (beq infoHash (sha1 (content s'))) eqn:Eb; cbn [negb].
  - apply beq_eq in Eb. eexists _, _, (Some s'), asked, ext, msgs. split; [reflexivity|]. split; [exact Hses|]. split; [|split; [apply Wend; exact T4|auto]].
    split; [lia|]. intros _. split; [reflexivity|]. intros H. congruence.
  - eexists _, _, (Some s'), asked, ext, msgs. split; [reflexivity|]. split; [exact Hses|]. split; [|split; [apply Wend; exact T4|auto]].
    split; [lia|]. intros _. split; [|reflexivity]. intros H. rewrite H, beq_refl in Eb. discriminate.
Qed.

(** * Whatever happens *)
Definition lens (p : pool) : Prop := p_max p = Z.to_nat 10000 /\ length (chan_of (p_chans p) 4) <= p_max p /\ length (chan_of (p_chans p) 32768) <= p_max p.
Lemma lens_set p l : lens p -> lens (set_theirs p l).
Proof. unfold lens. rewrite !chan_set by lia. auto. Qed.
Lemma lens_get p h w p1 h1 b : lens p -> GetBySize p h w = Ok (p1, h1, b) -> lens p1.
Proof.
  intros (H1 & H2 & H3). unfold GetBySize. destruct (chan_of (p_chans p) w) as [|b0 r] eqn:Ec.
  - destruct (w <? 0)%Z; [discriminate|]. cbn [h_alloc]. intros E. injection E as <- _ _. split; auto.
  - intros E. injection E as <- _ _. unfold lens. cbn [p_max p_chans]. rewrite !chan_of_upd by reflexivity. split; [exact H1|].
    split; [destruct (Z.eqb_spec w 4) as [->|]|destruct (Z.eqb_spec w 32768) as [->|]]; try assumption.
    + destruct (chan_of (p_chans p) 4); cbn [tl length] in *; lia.
    + destruct (chan_of (p_chans p) 32768); cbn [tl length] in *; lia.
Qed.
Lemma lens_put p b : lens p -> lens (Put p b).
Proof.
  intros (H1 & H2 & H3). unfold Put. destruct (Nat.ltb_spec (length (chan_of (p_chans p) (s_cap b))) (p_max p)) as [Hl|Hl]; [|split; auto].
  unfold lens. cbn [p_max p_chans]. rewrite !chan_of_upd by reflexivity. split; [exact H1|].
  split; [destruct (Z.eqb_spec (s_cap b) 4) as [E|]|destruct (Z.eqb_spec (s_cap b) 32768) as [E|]]; try assumption;
    rewrite app_length; cbn [length]; rewrite ?E in *; lia.
Qed.

(** Without data to preserve there is always a buffer. *)
Lemma core_get0 p h X (big : bool) : core p h 0 X [] ->
  exists p1 h1 b, GetBySize p h (if big then 32768 else 4) = Ok (p1, h1, b) /\ usable h1 (if big then 32768 else 4) b /\
    core p1 h1 0 (b :: X) [] /\ theirs p1 = theirs p /\ others_same h h1 (fun _ => False).
Proof.
  intros C. destruct big; [|apply (core_get p h 0 X [] false); exact C].
  destruct (chan_of (p_chans p) 32768) as [|b r] eqn:Ec.
  2: { apply (core_get p h 0 X [] true). destruct C as [H1 H2 H3 H4 H5 H6]. constructor; auto; [intros a []|rewrite Ec; cbn; lia]. }
  unfold GetBySize. rewrite Ec. change (32768 <? 0)%Z with false. cbv iota. destruct (h_alloc h 32768) as [h1 b] eqn:Ea. unfold h_alloc in Ea.
  apply pair_equal_spec in Ea as [<- <-]. eexists p, _, _. split; [reflexivity|]. set (h1 := {| h_next := _; h_data := _ |}).
  assert (Hold : forall a, a < h_next h -> h_data h1 a = h_data h a).
  { intros a Ha. cbn [h1 h_data]. destruct (Nat.eqb_spec a (h_next h)); [lia|reflexivity]. }
  assert (U : usable h1 32768 {| s_arr := h_next h; s_off := 0; s_len := 32768; s_cap := 32768 |}).
  { split; [reflexivity|]. split; [reflexivity|]. cbn [s_off s_arr h1 h_next h_data]. split; [lia|]. split; [lia|]. rewrite Nat.eqb_refl, repeat_length. lia. }
  split; [exact U|]. split; [|split; [reflexivity|split; [cbn; lia|intros a Ha _; apply Hold, Ha]]].
  assert (C1 : core p h1 0 X []).
  { apply (core_heap p h); [exact C|cbn; lia|]. intros a Ha. rewrite Hold by exact Ha. lia. }
  destruct C as [B1 B2 B3 B4 _ _]. destruct C1 as [D1 D2 D3 D4 D5 D6]. constructor; auto; [| |intros a []].
  - constructor; [|exact D3]. eapply usable_ubuf; [right; reflexivity|exact U].
  - cbn [app] in *. unfold arrs in *. cbn [map s_arr]. constructor; [|exact D4]. rewrite !map_app, !in_app_iff, !in_map_iff. rewrite Forall_forall in B1, B2, B3.
    intros [(x & E & Hx)|[(x & E & Hx)|(x & E & Hx)]]; [apply B3, ubuf_lt in Hx; lia|apply B1 in Hx|apply B2 in Hx]; destruct Hx as (_ & _ & _ & Hx & _); lia.
Qed.

(** The others only take buffers. *)
Definition only_takes (acts : nat -> list oact) : Prop := forall t a, In a (acts t) -> exists big, a = OGet big.
Definition undisturbed (x y : pool * heap) : Prop :=
  (exists l, theirs (fst y) = theirs (fst x) ++ l) /\ forall b, In b (theirs (fst x)) -> h_data (snd y) (s_arr b) = h_data (snd x) (s_arr b).
Lemma und_refl x : undisturbed x x.
Proof. split; [exists []; rewrite app_nil_r; reflexivity|auto]. Qed.
Lemma und_trans x y z : undisturbed x y -> undisturbed y z -> undisturbed x z.
Proof.
  intros [(l & A1) A2] [(l' & B1) B2]. split; [exists (l ++ l'); rewrite B1, A1, app_assoc; reflexivity|].
  intros b Hb. rewrite B2, A2; auto. rewrite A1. apply in_app_iff. auto.
Qed.

Record shx (e : fenv) (acts : nat -> list oact) (st : fstate) (held : list slc) : Prop := {
  sx_intf : sharing e acts; sx_lens : lens (f_pool st); sx_core : core (f_pool st) (f_heap st) 0 (held ++ theirs (f_pool st)) [] }.
Definition ph (s : fstate) : pool * heap := (f_pool s, f_heap s).

Lemma step_any a p h held p' h' : core p h 0 (held ++ theirs p) [] -> lens p -> other_step (p, h) a = (p', h') ->
  core p' h' 0 (held ++ theirs p') [] /\ lens p' /\ ((exists big, a = OGet big) -> undisturbed (p, h) (p', h')) /\
  h_next h <= h_next h' /\ forall b, In b held -> h_data h' (s_arr b) = h_data h (s_arr b).
Proof.
  intros C L E.
  assert (G : core p' h' 0 (held ++ theirs p') [] /\ mine_same held [] h h').
  { destruct a as [[|]|i|i d].
    - cbn [other_step] in E. destruct (core_get0 p h (held ++ theirs p) true C) as (p1 & h1 & b & E1 & U1 & C1 & T1 & [O1 O2]). cbv iota in E1.
      rewrite E1 in E. apply pair_equal_spec in E as [<- <-]. rewrite theirs_set, T1. split.
      + apply core_set. eapply core_perm; [|exact C1]. rewrite app_assoc. apply Permutation_cons_append.
      + split; [exact O1|]. intros x [Hx|[]]. apply O2; [|auto]. apply in_map_iff in Hx as (y & <- & Hy). eapply core_owned; [exact C|]. apply in_app_iff. auto.
    - exact (step_shared p h held [] 0 (OGet false) C _ _ E).
    - exact (step_shared p h held [] 0 (OPut i) C _ _ E).
    - exact (step_shared p h held [] 0 (OWrite i d) C _ _ E). }
  destruct G as [G1 [G2 G3]]. split; [exact G1|]. split; [|split; [|split; [exact G2|intros b Hb; apply G3; left; apply in_map; exact Hb]]].
  - destruct a as [big|i|i d]; cbn [other_step] in E.
    + destruct (GetBySize p h (if big then 32768 else 4)) as [[[p1 h1] b]| |] eqn:E1; apply pair_equal_spec in E as [<- _]; auto. apply lens_set. eapply lens_get; eassumption.
    + destruct (nth_error (theirs p) i) as [b|]; apply pair_equal_spec in E as [<- _]; [|exact L]. apply lens_put, lens_set, L.
    + destruct (nth_error (theirs p) i) as [b|]; [destruct (_ <=? _)%Z|]; apply pair_equal_spec in E as [<- _]; exact L.
  - intros (big & ->). cbn [other_step] in E. destruct (core_get0 p h (held ++ theirs p) big C) as (p1 & h1 & b & E1 & U1 & C1 & T1 & [O1 O2]).
    rewrite E1 in E. apply pair_equal_spec in E as [<- <-]. split; cbn [fst snd]; [rewrite theirs_set, T1; eauto|].
    intros x Hx. apply O2; [|auto]. eapply core_owned; [exact C|]. apply in_app_iff. auto.
Qed.

Lemma steps_any held l : forall p h p' h', core p h 0 (held ++ theirs p) [] -> lens p -> fold_left other_step l (p, h) = (p', h') ->
  core p' h' 0 (held ++ theirs p') [] /\ lens p' /\ ((forall a, In a l -> exists big, a = OGet big) -> undisturbed (p, h) (p', h')) /\
  h_next h <= h_next h' /\ forall b, In b held -> h_data h' (s_arr b) = h_data h (s_arr b).
Proof.
  induction l as [|a l IH]; intros p h p' h' C L E; cbn [fold_left] in E.
  - apply pair_equal_spec in E as [<- <-]. split; [exact C|]. split; [exact L|]. split; [intros _; apply und_refl|]. split; [lia|auto].
  - destruct (other_step (p, h) a) as [p1 h1] eqn:E1. destruct (step_any _ _ _ _ _ _ C L E1) as (C1 & L1 & U1 & N1 & D1).
    destruct (IH _ _ _ _ C1 L1 E) as (C2 & L2 & U2 & N2 & D2). split; [exact C2|]. split; [exact L2|].
    split; [intros Ht; eapply und_trans; [apply U1, Ht; left; reflexivity|apply U2; intros x Hx; apply Ht; right; exact Hx]|].
    split; [lia|]. intros b Hb. rewrite D2, D1 by exact Hb. reflexivity.
Qed.

Lemma shx_drop e acts st b held : shx e acts st (b :: held) -> shx e acts st held.
Proof. intros [Hi L C]. constructor; auto. apply (core_drop _ _ _ [b]). exact C. Qed.
Lemma shx_none e acts st held : shx e acts st held -> shx e acts st [].
Proof. intros [Hi L C]. constructor; auto. apply (core_drop _ _ _ held). exact C. Qed.

Lemma tick_any e acts st held : shx e acts st held -> exists s1, interfere e st = (s1, FOk tt) /\ shx e acts s1 held /\ (only_takes acts -> undisturbed (ph st) (ph s1)) /\
  f_script s1 = f_script st /\ h_next (f_heap st) <= h_next (f_heap s1) /\ forall b, In b held -> h_data (f_heap s1) (s_arr b) = h_data (f_heap st) (s_arr b).
Proof.
  intros [Hi L C]. unfold interfere. rewrite Hi. destruct (fold_left other_step (acts (f_tick st)) (f_pool st, f_heap st)) as [p h] eqn:E.
  destruct (steps_any _ _ _ _ _ _ C L E) as (C1 & L1 & U1 & N1 & D1). eexists. split; [reflexivity|]. split; [constructor; auto|].
  split; [intros Ho; apply U1; intros a Ha; eapply Ho; exact Ha|]. auto.
Qed.

Lemma get_any e acts st held (big : bool) : shx e acts st held ->
  exists s1 b, m_get e (if big then 32768 else 4) st = (s1, FOk b) /\ usable (f_heap s1) (if big then 32768 else 4) b /\ shx e acts s1 (b :: held) /\ (only_takes acts -> undisturbed (ph st) (ph s1)).
Proof.
  intros H. destruct (tick_any _ _ _ _ H) as (s0 & E0 & [Hi L C] & U0 & _). unfold m_get, mbind. rewrite E0.
  destruct (core_get0 _ _ _ big C) as (p1 & h1 & b & E1 & U1 & C1 & T1 & [O1 O2]). rewrite E1. eexists _, b. split; [reflexivity|]. cbn [set_ph f_heap]. split; [exact U1|].
  split; [constructor; cbn [set_ph f_pool f_heap]; auto; [eapply lens_get; eassumption|rewrite T1; exact C1]|].
  intros Ho. eapply und_trans; [apply U0, Ho|]. split; cbn [ph fst snd set_ph f_pool f_heap]; [exists []; rewrite T1, app_nil_r; reflexivity|].
  intros x Hx. apply O2; [|auto]. eapply core_owned; [exact C|]. apply in_app_iff. auto.
Qed.

Lemma put_any e acts st held b : shx e acts st (b :: held) -> exists s1, m_put e b st = (s1, FOk tt) /\ shx e acts s1 held /\ (only_takes acts -> undisturbed (ph st) (ph s1)).
Proof.
  intros H. destruct (tick_any _ _ _ _ H) as (s0 & E0 & [Hi L C] & U0 & _). unfold m_put, mbind. rewrite E0.
  destruct (core_put _ _ _ _ _ _ C) as [C1 T1]. eexists. split; [reflexivity|]. split.
  - constructor; cbn [set_ph f_pool f_heap]; auto; [apply lens_put, L|]. rewrite T1. destruct C1 as [G1 G2 G3 G4 G5 G6]. constructor; auto. intros a [].
  - intros Ho. eapply und_trans; [apply U0, Ho|]. split; cbn [ph fst snd set_ph f_pool f_heap]; [exists []; rewrite T1, app_nil_r; reflexivity|auto].
Qed.

Lemma read_any e acts st held b w st' r : shx e acts st (b :: held) -> (w = 4 \/ w = 32768)%Z -> usable (f_heap st) w b -> m_read e b st = (st', r) ->
  shx e acts st' (b :: held) /\ (only_takes acts -> undisturbed (ph st) (ph st')) /\ (forall p, r <> FPanic p) /\ (forall x, r <> FStop x).
Proof.
  intros H Hw U. destruct (tick_any _ _ _ _ H) as (s0 & E0 & [Hi L C] & U0 & S0 & N0 & D0). unfold m_read, mbind. rewrite E0.
  unfold m_recv. assert (Ul : s_len b = w) by apply U. assert (Uc : s_cap b = w) by apply U. rewrite Ul. destruct (Nat.eqb_spec (Z.to_nat w) 0); [lia|].
  destruct (f_script s0) as [|seg rest]; intros E; apply pair_equal_spec in E as [<- <-].
  - split; [constructor; auto|]. split; [exact U0|]. split; discriminate.
  - cbn [set_ph set_io f_pool f_heap]. set (d := firstn (Z.to_nat w) seg). assert (Hd : length d <= Z.to_nat w) by (unfold d; rewrite firstn_length; lia).
    destruct (core_write _ _ _ _ _ b d C) as [C1 [O1 O2]]; [left; reflexivity|lia|]. split; [constructor; auto|]. split; [|split; discriminate].
    intros Ho. eapply und_trans; [apply U0, Ho|]. split; cbn [ph fst snd set_ph set_io f_pool f_heap]; [exists []; rewrite app_nil_r; reflexivity|].
    intros x Hx. apply O2; [eapply core_owned; [exact C|]; cbn [app]; right; apply in_app_iff; auto|].
    intros Eq. pose proof (co_nd _ _ _ _ _ C) as Hnd. unfold arrs in Hnd. cbn [app map] in Hnd. inversion Hnd as [|y l Hn _]. apply Hn. rewrite Eq.
    rewrite <- app_assoc, !map_app, !in_app_iff. right. left. apply in_map. exact Hx.
Qed.

Lemma readBytes_fair e acts st st' r : shx e acts st [] -> readBytesByPrefixLenMsg e st = (st', r) ->
  shx e acts st' (match r with FOk (Some b) => [b] | _ => [] end) /\ (only_takes acts -> undisturbed (ph st) (ph st')).
Proof.
  intros H E. unfold readBytesByPrefixLenMsg in E. change PrefixLen with 4%Z in E. change maxReadLength with 32768%Z in E.
  destruct (get_any e acts st [] false H) as (s1 & pre & E1 & U1 & H1 & X1). cbv iota in E1, U1. unfold mbind at 1 in E. rewrite E1 in E.
  unfold mbind at 1 in E. destruct (m_read e pre s1) as [s2 r2] eqn:E2. destruct (read_any e acts s1 [] pre 4 s2 r2 H1 (or_introl eq_refl) U1 E2) as (H2 & X2 & N1 & N2).
  assert (X12 : only_takes acts -> undisturbed (ph st) (ph s2)) by (intros Ho; eapply und_trans; [apply X1, Ho|apply X2, Ho]).
  pose proof (shx_drop _ _ _ _ _ H2) as H2'.
  destruct r2 as [n2|x|x|x]; [|apply pair_equal_spec in E as [<- <-]; split; [exact H2'|exact X12]|destruct (N1 x eq_refl)|destruct (N2 x eq_refl)].
  unfold mbind at 1 in E. cbn [m_show] in E. unfold mbind at 1, lift at 1 in E.
  destruct (Uint32 (h_read (f_heap s2) pre)) as [k| |]; [|apply pair_equal_spec in E as [<- <-]; split; [exact H2'|exact X12]..].
  destruct (k =? 0)%N; [apply pair_equal_spec in E as [<- <-]; split; [exact H2'|exact X12]|].
  destruct (put_any e acts s2 [] pre H2) as (s3 & E3 & H3 & X3). unfold mbind at 1 in E. rewrite E3 in E.
  assert (X13 : only_takes acts -> undisturbed (ph st) (ph s3)) by (intros Ho; eapply und_trans; [apply X12, Ho|apply X3, Ho]).
  destruct (_ <? _)%N; [apply pair_equal_spec in E as [<- <-]; split; [exact H3|exact X13]|].
  destruct (get_any e acts s3 [] true H3) as (s4 & buf & E4 & U4 & H4 & X4). cbv iota in E4, U4. unfold mbind at 1 in E. rewrite E4 in E.
  assert (X14 : only_takes acts -> undisturbed (ph st) (ph s4)) by (intros Ho; eapply und_trans; [apply X13, Ho|apply X4, Ho]).
  unfold mbind at 1 in E. destruct (m_read e buf s4) as [s5 r5] eqn:E5. destruct (read_any e acts s4 [] buf 32768 s5 r5 H4 (or_intror eq_refl) U4 E5) as (H5 & X5 & N3 & N4).
  assert (X15 : only_takes acts -> undisturbed (ph st) (ph s5)) by (intros Ho; eapply und_trans; [apply X14, Ho|apply X5, Ho]).
  destruct r5 as [n5|x|x|x]; [|apply pair_equal_spec in E as [<- <-]; split; [eapply shx_drop; exact H5|exact X15]|destruct (N3 x eq_refl)|destruct (N4 x eq_refl)].
  apply pair_equal_spec in E as [<- <-]. split; [|exact X15]. destruct H5 as [Hi L C]. constructor; auto. cbn [app] in *.
  destruct C as [G1 G2 G3 G4 G5 G6]. constructor; auto. apply Forall_cons_iff in G3 as [G3 G3']. constructor; [exact G3|exact G3'].
Qed.

Lemma shx_same e acts st st' held : f_pool st' = f_pool st -> f_heap st' = f_heap st -> shx e acts st held -> shx e acts st' held.
Proof. intros E1 E2 [Hi L C]. constructor; auto; rewrite ?E1, ?E2; auto. Qed.

Lemma handler_fair e acts st st' r : shx e acts st [] -> readMetaDataHandler e st = (st', r) -> shx e acts st' [] /\ (only_takes acts -> undisturbed (ph st) (ph st')).
Proof.
  intros H E. unfold readMetaDataHandler in E. destruct (readBytesByPrefixLenMsg e st) as [s1 r1] eqn:E1. destruct (readBytes_fair _ _ _ _ _ H E1) as [H1 X1].
  destruct r1 as [[b|]|x|x|x]; try (apply pair_equal_spec in E as [<- <-]; split; assumption).
  unfold with_put in E. destruct (handle_msg e b s1) as [s2 r2] eqn:E2. destruct (handle_quiet _ _ _ _ _ E2) as (G1 & G2 & _).
  pose proof (shx_same _ _ _ _ _ G1 G2 H1) as H2. destruct (put_any e acts s2 [] b H2) as (s3 & E3 & H3 & X3). rewrite E3 in E. cbn [fst] in E.
  assert (Eph : ph s2 = ph s1) by (unfold ph; congruence). rewrite Eph in X3.
  assert (X13 : only_takes acts -> undisturbed (ph st) (ph s3)) by (intros Ho; eapply und_trans; [apply X1, Ho|apply X3, Ho]).
  assert (X12 : only_takes acts -> undisturbed (ph st) (ph s2)) by (rewrite Eph; exact X1).
  pose proof (shx_none _ _ _ _ H2) as H2'.
  destruct r2; (destruct (0 <? s_cap b)%Z; apply pair_equal_spec in E as [<- <-]; split; assumption) || (apply pair_equal_spec in E as [<- <-]; split; assumption).
Qed.

Lemma loop_fair e acts : forall f st st' r, shx e acts st [] -> readMetaDataLoop e f st = (st', r) -> shx e acts st' [] /\ (only_takes acts -> undisturbed (ph st) (ph st')).
Proof.
  induction f as [|f IH]; intros st st' r H E; cbn [readMetaDataLoop] in E.
  - apply pair_equal_spec in E as [<- <-]. split; [exact H|intros _; apply und_refl].
  - destruct (_ && _); [|apply pair_equal_spec in E as [<- <-]; split; [exact H|intros _; apply und_refl]].
    unfold mbind in E. destruct (readMetaDataHandler e st) as [s1 r1] eqn:E1. destruct (handler_fair _ _ _ _ _ H E1) as [H1 X1].
    destruct r1; try (apply pair_equal_spec in E as [<- <-]; split; assumption).
    destruct (IH _ _ _ H1 E) as [H2 X2]. split; [exact H2|]. intros Ho. eapply und_trans; [apply X1, Ho|apply X2, Ho].
Qed.

Lemma merge_fair e acts : forall is acc st st' r, shx e acts st [] -> merge e is acc st = (st', r) -> shx e acts st' [] /\ (only_takes acts -> undisturbed (ph st) (ph st')).
Proof.
  induction is as [|i t IH]; intros acc st st' r H E; cbn [merge] in E.
  - apply pair_equal_spec in E as [<- <-]. split; [exact H|intros _; apply und_refl].
  - unfold mbind in E. destruct (tick_any _ _ _ _ H) as (s1 & E1 & H1 & X1 & _). rewrite E1 in E.
    destruct (nth_error (f_meta s1) i) as [[b|]|]; [| |apply pair_equal_spec in E as [<- <-]; split; assumption];
      destruct (IH _ _ _ _ H1 E) as [H2 X2]; (split; [exact H2|]; intros Ho; eapply und_trans; [apply X1, Ho|apply X2, Ho]).
Qed.

Lemma shx_sound e acts st : shx e acts st [] -> sound_shared (f_pool st) (f_heap st).
Proof.
  intros [Hi (L1 & L2 & L3) [G1 G2 G3 G4 _ _]]. cbn [app] in *. split; [|split; [|exact G4]].
  - split; [exact L1|]. split; [exact G1|]. split; [exact L2|]. split; [exact G2|]. split; [exact L3|]. unfold arrs in G4. rewrite map_app in G4. apply nodup_tail in G4. exact G4.
  - eapply Forall_impl; [|exact G3]. intros b (w & [->| ->] & Hb & _); auto.
Qed.

Theorem fetch_fair e acts p h peer peerId infoHash s r : sharing e acts -> sound_shared p h -> FetchMetaData e p h peer peerId infoHash = (s, r) ->
  sound_shared (f_pool s) (f_heap s) /\ (only_takes acts -> undisturbed (p, h) (f_pool s, f_heap s)).
Proof.
  intros Ha Hs E. assert (H0 : forall sc, shx e acts (NewPeerConn p h sc) []).
  { intros sc. destruct Hs as ((G1 & G2 & G3 & G4 & G5 & _) & Ht & Hnd). constructor; [exact Ha|split; [exact G1|split; assumption]|]. cbn [NewPeerConn f_pool f_heap app].
    constructor; auto; [|intros a []|lia]. eapply Forall_impl; [|exact Ht]. intros b [Hb|Hb]; eexists; (split; [|split; [exact Hb|apply Hb]]); auto. }
  unfold FetchMetaData in E. destruct peer as [script|]; [|apply pair_equal_spec in E as [<- <-]; split; [eapply shx_sound, H0|intros _; apply und_refl]].
  destruct (fetch_body e peerId infoHash (NewPeerConn p h script)) as [s1 r1] eqn:E1.
  assert (G : shx e acts s1 [] /\ (only_takes acts -> undisturbed (ph (NewPeerConn p h script)) (ph s1))).
  { specialize (H0 script). set (s0 := NewPeerConn p h script) in *. clearbody s0. clear E Hs.
    assert (Q : forall A (m : M A) sa sb ra, (f_pool sb = f_pool sa /\ f_heap sb = f_heap sa) -> m sa = (sb, ra) -> shx e acts sa [] -> shx e acts sb [] /\ ph sb = ph sa).
    { intros A m sa sb ra [Q1 Q2] _ Hx. split; [eapply shx_same; eassumption|unfold ph; congruence]. }
    unfold fetch_body, mbind at 1 in E1. destruct (handshakePeer e peerId infoHash s0) as [s2 r2] eqn:E2.
    assert (G2 : f_pool s2 = f_pool s0 /\ f_heap s2 = f_heap s0).
    { revert E2. destruct (Nat.eq_dec (length peerId) 20) as [Hp|Hp]; [|rewrite handshake_bad_ids by auto; intros E; apply pair_equal_spec in E as [<- _]; auto].
      destruct (Nat.eq_dec (length infoHash) 20) as [Hi|Hi]; [|rewrite handshake_bad_ids by auto; intros E; apply pair_equal_spec in E as [<- _]; auto].
      rewrite (handshake_eq e _ _ _ Hp Hi). unfold after_handshake. destruct (e_write e (length (f_trace s0))); cbn [set_io f_script]; try destruct (f_script s0);
        intros E; apply pair_equal_spec in E as [<- _]; auto. }
    destruct (Q _ _ _ _ _ G2 E2 H0) as [H2 P2]. rewrite <- P2.
    destruct r2; try (apply pair_equal_spec in E1 as [<- _]; split; [exact H2|intros _; apply und_refl]).
    unfold mbind at 1 in E1. destruct (initialMessages e s2) as [s3 r3] eqn:E3.
    assert (G3 : f_pool s3 = f_pool s2 /\ f_heap s3 = f_heap s2).
    { revert E3. unfold initialMessages, mbind, m_ord, lift, m_write. destruct (withExtendedhandShake _ _ _); [|intros E; apply pair_equal_spec in E as [<- _]; auto..].
      destruct (e_write e (length (f_trace s2))); intros E; apply pair_equal_spec in E as [<- _]; auto. }
    destruct (Q _ _ _ _ _ G3 E3 H2) as [H3 P3]. rewrite <- P3.
    destruct r3; try (apply pair_equal_spec in E1 as [<- _]; split; [exact H3|intros _; apply und_refl]).
    unfold mbind at 1 in E1. destruct (readMetaDataLoop e (loop_fuel (f_script s3)) s3) as [s4 r4] eqn:E4. destruct (loop_fair _ _ _ _ _ _ H3 E4) as [H4 X4].
    destruct r4; try (apply pair_equal_spec in E1 as [<- _]; split; assumption).
    cbn beta in E1. destruct (negb (CompledMetaData s4)); [apply pair_equal_spec in E1 as [<- _]; split; assumption|].
    unfold mbind at 1 in E1. destruct (m_make e 1 (f_size s4) s4) as [s5 r5] eqn:E5.
    assert (s5 = s4) as -> by (unfold m_make in E5; destruct (_ || _); [|destruct (e_mem e _)]; apply pair_equal_spec in E5 as [<- _]; reflexivity).
    destruct r5; try (apply pair_equal_spec in E1 as [<- _]; split; assumption).
    unfold mbind at 1 in E1. destruct (merge e (seq 0 (length (f_req s4))) [] s4) as [s6 r6] eqn:E6. destruct (merge_fair _ _ _ _ _ _ _ H4 E6) as [H6 X6].
    assert (X46 : only_takes acts -> undisturbed (ph s3) (ph s6)) by (intros Ho; eapply und_trans; [apply X4, Ho|apply X6, Ho]).
    destruct r6; try (apply pair_equal_spec in E1 as [<- _]; split; assumption).
    destruct (negb _); apply pair_equal_spec in E1 as [<- _]; split; assumption. }
  destruct G as [G X]. assert (Es : f_pool s = f_pool s1 /\ f_heap s = f_heap s1) by (destruct r1; apply pair_equal_spec in E as [<- _]; auto).
  destruct Es as [Es1 Es2]. rewrite Es1, Es2. split; [eapply shx_sound; exact G|exact X].
Qed.
