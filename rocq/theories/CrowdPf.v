(** CrowdPf.v -- C116: any number of downloads at once. *)
From Verif Require Import Base GoLib Bencode BencodeSpec BencodeProofs BencodePf Types TypesPf Krpc KrpcProofs BytesPool BytesPoolPf Sha1 PeerWire PeerWirePf Fetch FetchSpec FetchProofs FetchPf SessionSpec SessionProofs SessionRun SessionPf ShareSpec ShareProofs SharePf Crowd CrowdSim CrowdOk CrowdProofs.
From Verif Require Import BytesPool.
Local Open Scope list_scope.

(** The crowd starts with a sound pool and no download. *)
Definition reached (p : pool) (h : heap) (c : crowd) : Prop := sound_pool p h /\ csteps {| c_pool := p; c_heap := h; c_dls := [] |} c.
Definition big_buffers (p : pool) : nat := length (chan_of (p_chans p) 32768).

(** The call is over: it ended with r, having done [ops] on its connection. *)
Definition ended (d : dl) (r : fres bytes) (ops : list connop) : Prop := exists s, d_now d = TDone s r /\ f_trace s = ops.

(** The same runtime and network, the others following [acts]. *)
Lemma with_acts_calm e acts : calm e -> calm (with_acts e acts).
Proof. intros [H1 H2 H3 H4]. constructor; assumption. Qed.

Lemma taken_nth hist t : taken (fun t => nth t hist []) t <= all_takes hist.
Proof.
  assert (H : forall t, taken (fun t => nth t hist []) t = all_takes (firstn t hist)).
  { induction t0 as [|n IH]; [reflexivity|]. cbn [taken]. rewrite IH. clear. revert n. induction hist as [|x l IH]; intros n; [destruct n; reflexivity|].
    destruct n as [|n]; cbn [nth firstn all_takes fold_right]; [lia|]. specialize (IH n). unfold all_takes in *. cbn [firstn fold_right] in *. lia. }
  rewrite H. unfold all_takes. revert t. clear. induction hist as [|x l IH]; intros [|t]; cbn [firstn fold_right]; try lia. specialize (IH t). lia.
Qed.

Lemma inv_reached p h c : reached p h c -> inv (length (chan_of (p_chans p) 32768)) (fun _ => length (chan_of (p_chans p) 32768)) c.
Proof. intros [Hs Hr]. eapply inv_steps; [exact Hr|apply inv_init, Hs]. Qed.

Lemma crowd_fetch p h c0 c l1 d l2 r ops : reached p h c0 -> csteps c0 c -> length (c_dls c0) <= length l1 -> c_dls c = l1 ++ d :: l2 -> ended d r ops ->
  exists acts k p0 h0 s, sharing (with_acts (d_env d) acts) acts /\ (forall t, taken acts t <= k) /\ sound_shared p0 h0 /\
    FetchMetaData (with_acts (d_env d) acts) p0 h0 (d_peer d) (d_id d) (d_hash d) = (s, r) /\ f_trace s = ops /\
    k + (bigs (c_dls c0) + big_buffers (c_pool c0)) <= bigs (l1 ++ l2) + big_buffers p0.
Proof.
  intros Hr Hc Hlen El (s0 & En & Et). pose proof (inv_steps _ _ _ _ Hc (inv_now _ _ _ (inv_reached _ _ _ Hr))) as I.
  destruct (iv_each _ _ _ I _ _ _ El) as (_ & _ & p0 & h0 & hist & cur & p1 & h1 & p2 & base & A1 & A2 & A3 & A4 & A5 & A6 & A7 & A8).
  cbv beta in A8. destruct (Nat.ltb_spec (length l1) (length (c_dls c0))); [lia|].
  set (acts := fun t => nth t (hist ++ [cur]) []).
  assert (Hsh : sharing (with_acts (d_env d) acts) acts) by (intros t x; reflexivity).
  exists acts, (all_takes hist + takes cur), p0, h0, (set_ph s0 p1 h1). split; [exact Hsh|]. split; [intros t; rewrite <- all_takes_snoc; apply taken_nth|]. split; [exact A1|].
  split; [|split; [exact Et|unfold big_buffers; lia]].
  rewrite <- run_fetch, c_fetch_env, (A2 _ acts Hsh); [rewrite En; reflexivity|]. intros t Ht. unfold acts. apply app_nth1. exact Ht.
Qed.

(** C116: in any interleaving of any number of downloads, each that is over went exactly like a single
    download (Fetch.v) from some sound state of the pool, the rest of the crowd playing the part of
    "the others" of C112; if it began when the crowd was at c0, k counts the big buffers the others
    took meanwhile. *)
Lemma C116_each_is_a_download_pf : forall p h c0 c l1 d l2 r ops,
  reached p h c0 -> csteps c0 c -> length (c_dls c0) <= length l1 -> c_dls c = l1 ++ d :: l2 -> ended d r ops ->
  exists e acts k p0 h0 s, sharing e acts /\ (forall t, taken acts t <= k) /\ sound_shared p0 h0 /\
    e_exp e = e_exp (d_env d) /\ e_write e = e_write (d_env d) /\ e_mem e = e_mem (d_env d) /\ e_ford e = e_ford (d_env d) /\ e_fold e = e_fold (d_env d) /\
    FetchMetaData e p0 h0 (d_peer d) (d_id d) (d_hash d) = (s, r) /\ f_trace s = ops /\
    k + bigs (c_dls c0) + big_buffers (c_pool c0) <= bigs (l1 ++ l2) + big_buffers p0.
Proof.
  intros p h c0 c l1 d l2 r ops Hr Hc Hlen El He. destruct (crowd_fetch p h c0 c l1 d l2 r ops Hr Hc Hlen El He) as (acts & k & p0 & h0 & s & H1 & H2 & H3 & H4 & H5 & H6).
  exists (with_acts (d_env d) acts), acts, k, p0, h0, s. rewrite <- Nat.add_assoc. auto 15.
Qed.

Lemma start_reached p h c : reached p h c -> reached p h {| c_pool := p; c_heap := h; c_dls := [] |}.
Proof. intros [H _]. split; [exact H|apply cs_refl]. Qed.

(** C116: whatever the peers send and however the downloads overlap, returned data has the requested
    SHA-1, a call that returns has closed its connection exactly once, last, and a call gets stuck only by
    its own Write or for want of memory. *)
Lemma C116_authentic_and_closed_pf : forall p h c d r ops, reached p h c -> In d (c_dls c) -> ended d r ops ->
  match r with
  | FOk x => sha1 x = d_hash d
  | FErr _ => True
  | FPanic _ => False
  | FStop BlockedWrite => exists n, e_write (d_env d) n = WBlock
  | FStop OutOfMemory => exists n, e_mem (d_env d) n = false
  | FStop OutOfFuel => False
  end /\
  (d_peer d <> None -> match r with FStop _ => True | _ => exists t, ops = t ++ [CClose] /\ ~ In CClose t end).
Proof.
  intros p h c d r ops Hr Hin He. apply in_split in Hin as (l1 & l2 & El). destruct (crowd_fetch p h _ c l1 d l2 r ops (start_reached _ _ _ Hr) (proj2 Hr) (Nat.le_0_l _) El He) as (acts & k & p0 & h0 & s & _ & _ & _ & E & Et & _).
  destruct (d_peer d) as [script|] eqn:Ep.
  - pose proof (C57_finishes_closed_pf _ _ _ _ _ _ _ _ E) as H. rewrite Et in H. split.
    + destruct r as [x|x|x|[]]; [eapply C56_authentic_pf; exact E|exact I|destruct H|exact H..].
    + intros _. destruct r as [x|x|x|x]; [exact H|exact H|destruct H|exact I].
  - cbn in E. apply pair_equal_spec in E as [_ <-]. split; [exact I|]. congruence.
Qed.

(** A peer that is accepted and whose messages come whole; [n] of them are not keep-alives. *)
Record plain (d : dl) (hs : bytes) (bodies : list bytes) : Prop := {
  pl_peer : d_peer d = Some (hs :: map frame bodies); pl_calm : calm (d_env d); pl_fold : sane_folding (e_fold (d_env d));
  pl_id : length (d_id d) = 20; pl_hash : length (d_hash d) = 20; pl_hs : length hs <= 68; pl_acc : accepted hs;
  pl_len : Forall (fun m => (N.of_nat (length m) < 2 ^ 32)%N) bodies }.

(** C116: a download begins when the crowd is at c0, or later.  If the big buffers the others take between c0
    and c and the messages this download receives together do not exceed the big buffers in the pool at
    c0, its outcome and everything it writes are decided by its own peer's messages alone. *)
Lemma C116_outcome_pf : forall p h c0 c l1 d l2 hs bodies r ops,
  reached p h c0 -> csteps c0 c -> length (c_dls c0) <= length l1 -> c_dls c = l1 ++ d :: l2 -> plain d hs bodies ->
  bigs (l1 ++ l2) - bigs (c_dls c0) + spoken bodies <= big_buffers (c_pool c0) -> ended d r ops ->
  exists out asked ext msgs, session first_contact bodies out asked /\ verdict sha1 (d_hash d) out r /\
    written ops = our_handshake (d_id d) (d_hash d) :: ext :: msgs /\ our_ext_handshake ext /\ Forall2 is_request asked msgs.
Proof.
  intros p h c0 c l1 d l2 hs bodies r ops Hr Hc Hlen El [P1 P2 P3 P4 P5 P6 P7 P8] Hn He.
  destruct (crowd_fetch p h c0 c l1 d l2 r ops Hr Hc Hlen El He) as (acts & k & p0 & h0 & s & H1 & H2 & H3 & H4 & H5 & H6). rewrite P1 in H4. unfold big_buffers in *.
  destruct (fetch_shared (with_acts (d_env d) acts) acts k p0 h0 hs bodies (d_id d) (d_hash d) H1 H2 (with_acts_calm _ _ P2) P3 H3 P4 P5 P6 P7 P8) as (s' & r' & out & asked & ext & msgs & E & G); [lia|].
  rewrite H4 in E. apply pair_equal_spec in E as [<- <-]. rewrite H5 in G. exists out, asked, ext, msgs. exact G.
Qed.

(** C116: a download takes no more big buffers than its peer sends messages that are not keep-alives. *)
Lemma C116_thrift_pf : forall p h c d hs bodies,
  reached p h c -> In d (c_dls c) -> d_peer d = Some (hs :: map frame bodies) -> length hs <= 68 -> Forall (fun m => (N.of_nat (length m) < 2 ^ 32)%N) bodies ->
  d_big d <= spoken bodies.
Proof.
  intros p h c d hs bodies Hr Hin Ep Hh Hl. pose proof (inv_reached _ _ _ Hr) as I. apply in_split in Hin as (l1 & l2 & El).
  destruct (iv_each _ _ _ I _ _ _ El) as (_ & Ht & _). destruct (Ht (spoken bodies)) as (m & W & _ & _ & _ & Hb); [exists hs, bodies; auto|]. lia.
Qed.

Lemma f2_len {A C} (R : A -> C -> Prop) l l' : Forall2 R l l' -> length l = length l'.
Proof. intros H. induction H; cbn; auto. Qed.
Lemma bigs_bound l ns : Forall2 (fun d n => d_big d <= n) l ns -> bigs l <= list_sum ns.
Proof. intros H. induction H as [|d n l ns H F IH]; [apply le_n|]. change (bigs (d :: l)) with (d_big d + bigs l). change (list_sum (n :: ns)) with (n + list_sum ns). lia. Qed.

(** C116: if every peer sends whole messages and all their messages together are no more than the big
    buffers in the pool at the start, every download that is over, in whatever order they advanced, has
    the outcome of its own session. *)
Lemma C116_enough_for_all_pf : forall p h c peers,
  reached p h c -> Forall2 (fun d x => plain d (fst x) (snd x)) (c_dls c) peers ->
  list_sum (map (fun x => spoken (snd x)) peers) <= big_buffers p ->
  forall i d hs bodies r ops, nth_error (c_dls c) i = Some d -> nth_error peers i = Some (hs, bodies) -> ended d r ops ->
  exists out asked ext msgs, session first_contact bodies out asked /\ verdict sha1 (d_hash d) out r /\
    written ops = our_handshake (d_id d) (d_hash d) :: ext :: msgs /\ our_ext_handshake ext /\ Forall2 is_request asked msgs.
Proof.
  intros p h c peers Hr HF Hsum i d hs bodies r ops Ei Ej He.
  apply nth_error_split in Ei as (l1 & l2 & El & Hl1). apply nth_error_split in Ej as (k1 & k2 & Ek & Hk1). rewrite El, Ek in HF.
  assert (HF' : Forall2 (fun d x => plain d (fst x) (snd x)) l1 k1 /\ plain d hs bodies /\ Forall2 (fun d x => plain d (fst x) (snd x)) l2 k2).
  { apply Forall2_app_inv_l in HF as (a & b & Fa & Fb & E). pose proof (f2_len _ _ _ Fa) as La. inversion Fb as [|x y l l' Hxy Hrest E1 E2]; subst b.
    assert (a = k1 /\ y = (hs, bodies) /\ l' = k2) as (-> & -> & ->).
    { assert (La' : length a = length k1) by lia. clear - E La'. revert k1 E La'. induction a as [|u a IH]; intros [|v k1] E L; try discriminate; cbn [app] in E; injection E as E1 E2; [subst; auto|].
      subst. destruct (IH k1 E2) as (-> & -> & ->); [cbn in L; lia|auto]. }
    auto. }
  destruct HF' as (F1 & Hp & F2). eapply (C116_outcome_pf p h {| c_pool := p; c_heap := h; c_dls := [] |}); [eapply start_reached; exact Hr|apply Hr|apply Nat.le_0_l|exact El|exact Hp| |exact He]. cbn [c_pool c_dls]. change (bigs []) with 0.
  assert (B : forall l k, (forall x, In x l -> In x (c_dls c)) -> Forall2 (fun d x => plain d (fst x) (snd x)) l k -> bigs l <= list_sum (map (fun x => spoken (snd x)) k)).
  { intros l k Hin F. apply bigs_bound. clear - F Hin Hr. induction F as [|x y l k Hxy F IH]; [constructor|]. constructor; [|apply IH; intros z Hz; apply Hin; right; exact Hz].
    destruct Hxy as [P1 P2 P3 P4 P5 P6 P7 P8]. eapply C116_thrift_pf; [exact Hr|apply Hin; left; reflexivity|exact P1|exact P6|exact P8]. }
  rewrite bigs_app. pose proof (B l1 k1 ltac:(intros x Hx; rewrite El; apply in_app_iff; auto) F1). pose proof (B l2 k2 ltac:(intros x Hx; rewrite El; apply in_app_iff; right; right; exact Hx) F2).
  rewrite Ek, map_app, list_sum_app in Hsum. cbn [map snd] in Hsum. change (list_sum (spoken bodies :: map (fun x => spoken (snd x)) k2)) with (spoken bodies + list_sum (map (fun x => spoken (snd x)) k2)) in Hsum. lia.
Qed.

Lemma frame_inj a b : frame a = frame b -> a = b.
Proof. intros H. apply (f_equal (skipn 4)) in H. exact H. Qed.
Lemma spoken_app a b : spoken (a ++ b) = spoken a + spoken b.
Proof. unfold spoken. rewrite filter_app, app_length. reflexivity. Qed.
Lemma carrying_spoken meta bs : forall ms, Forall (msg_ok meta) ms -> map frame bs = map wire ms -> carrying ms = spoken bs.
Proof.
  induction bs as [|x bs IH]; intros [|m ms] F E; try discriminate; [reflexivity|]. apply Forall_cons_iff in F as [Fm F]. cbn [map] in E. injection E as E1 E2. rewrite spoken_cons, <- (IH ms F E2). clear IH E2 F.
  destruct m as [|body|i body]; cbn [wire] in E1; cbn [carrying].
  - change (be32 0) with (frame []) in E1. apply frame_inj in E1. subst x. reflexivity.
  - apply frame_inj in E1. subst x. destruct Fm as [[(c & t & -> & _)|[(c & t & -> & _)|(d & enc & ty & i & -> & _)]] _]; reflexivity.
  - apply frame_inj in E1. subst x. destruct Fm as [(d & enc & total & -> & _) _]. reflexivity.
Qed.
Lemma map_split {A C} (f : A -> C) l : forall a b, map f l = a ++ b -> exists x y, l = x ++ y /\ map f x = a /\ map f y = b.
Proof.
  induction l as [|u l IH]; intros [|v a] b E; try discriminate.
  - exists [], []. auto.
  - exists [], (u :: l). auto.
  - cbn [map app] in E. injection E as <- E. destruct (IH a b E) as (x & y & -> & <- & <-). exists (u :: x), y. auto.
Qed.
Lemma honest_needs meta hs bodies during : honest meta (hs :: map frame bodies) during -> carrying during <= spoken bodies.
Proof.
  intros H. remember (hs :: map frame bodies) as script eqn:Es. destruct H as [hs' noise ext before during rest k G1 G2 G3 G4 _ _ _ _ _ _].
  injection Es as _ Es. symmetry in Es. apply map_split in Es as (b1 & b2 & -> & _ & Es). change (frame ext :: map wire before ++ map wire during ++ rest) with ([frame ext] ++ map wire before ++ map wire during ++ rest) in Es.
  apply map_split in Es as (b3 & b4 & -> & _ & Es). apply map_split in Es as (b5 & b6 & -> & _ & Es). apply map_split in Es as (b7 & b8 & -> & E7 & _).
  rewrite (carrying_spoken meta b7 during); [rewrite !spoken_app; lia| |exact E7]. apply Forall_app in G4 as [_ G4]. apply Forall_app in G4 as [_ G4]. exact G4.
Qed.

(** C116: under the same condition a download from an honest peer returns the metadata, whoever else is
    downloading what from whom. *)
Lemma C116_honest_peer_pf : forall p h c0 c l1 d l2 hs bodies meta during r ops,
  reached p h c0 -> csteps c0 c -> length (c_dls c0) <= length l1 -> c_dls c = l1 ++ d :: l2 -> plain d hs bodies ->
  honest meta (hs :: map frame bodies) during -> sha1 meta = d_hash d -> (Z.of_nat (length meta) <= 2 ^ 48)%Z ->
  bigs (l1 ++ l2) - bigs (c_dls c0) + spoken bodies <= big_buffers (c_pool c0) -> ended d r ops ->
  r = FOk meta.
Proof.
  intros p h c0 c l1 d l2 hs bodies meta during r ops Hr Hc Hlen El [P1 P2 P3 P4 P5 P6 P7 P8] Hh Hm Hl Hn He.
  destruct (crowd_fetch p h c0 c l1 d l2 r ops Hr Hc Hlen El He) as (acts & k & p0 & h0 & s & H1 & H2 & H3 & H4 & H5 & H6). rewrite P1 in H4. unfold big_buffers in *.
  set (e' := with_acts (d_env d) (fun _ => [])). assert (Ha : alone e') by (intros t x; reflexivity).
  pose proof (C112_as_if_alone_pf (with_acts (d_env d) acts) acts k e' p0 h0 p0 h0 hs bodies (d_id d) (d_hash d) H1 H2 Ha (with_acts_calm _ _ P2) (with_acts_calm _ _ P2) P3 P3 H3 (proj1 H3) P4 P5 P6 P7 P8 ltac:(lia) ltac:(lia)) as E.
  rewrite H4 in E. cbn [snd] in E. destruct (C59_enough_buffers_pf e' p0 h0 meta (hs :: map frame bodies) during (d_id d) (d_hash d) Ha (with_acts_calm _ _ P2) (proj1 H3) P4 Hm Hl Hh) as (s' & E').
  { pose proof (honest_needs _ _ _ _ Hh). lia. }
  rewrite E' in E. exact E.
Qed.

(** C116: at every moment the pool is sound and every buffer is in at most one place: with one download or in
    the pool. *)
Lemma C116_no_buffer_twice_pf : forall p h c, reached p h c -> sound_pool (c_pool c) (c_heap c) /\
  NoDup (map s_arr (flat_map d_held (c_dls c) ++ chan_of (p_chans (c_pool c)) 4 ++ chan_of (p_chans (c_pool c)) 32768)).
Proof.
  intros p h c Hr. destruct (inv_reached _ _ _ Hr) as [_ I1 I2 _ _]. pose proof (sound_core _ _ _ I1 I2) as (S1 & _ & _). split; [|apply I1].
  unfold sound_pool in *. rewrite !chan_set in S1 by lia. exact S1.
Qed.

(** C116: no access of one download changes a buffer another one holds. *)
Lemma C116_held_data_safe_pf : forall p h c l1 d l2 p' h' d', reached p h c -> c_dls c = l1 ++ d :: l2 ->
  advance (c_pool c) (c_heap c) d = (p', h', d') ->
  forall x b, In x (l1 ++ l2) -> In b (d_held x) -> h_read h' b = h_read (c_heap c) b.
Proof.
  intros p h c l1 d l2 p' h' d' Hr El E x b Hx Hb. destruct (inv_reached _ _ _ Hr) as [_ I1 I2 _ I4]. destruct (I4 _ _ _ El) as ((m & W & EW & K & Ok) & _).
  assert (C : core (c_pool c) (c_heap c) 0 (d_held d ++ helds (l1 ++ l2)) []) by (eapply core_perm; [apply helds_mid|]; rewrite <- El; exact I1).
  destruct (advance_moved _ _ _ _ _ _ _ _ _ C I2 EW K Ok E) as [Mv _]. unfold h_read. rewrite (mv_heap _ _ _ _ _ _ _ Mv); [reflexivity|].
  apply in_map. apply in_flat_map. eauto.
Qed.

Lemma csteps_trans a b c : csteps a b -> csteps b c -> csteps a c.
Proof. intros H1 H2. induction H2 as [|b c c' H IH S]; [exact H1|]. eapply cs_more; [apply IH, H1|exact S]. Qed.

(** C116: no download ever waits for another: from every state, one that is not over can run to its end by
    its own accesses alone, the others standing still. *)
Lemma C116_never_waits_pf : forall p h l1 d l2, exists p' h' d' r ops,
  csteps {| c_pool := p; c_heap := h; c_dls := l1 ++ d :: l2 |} {| c_pool := p'; c_heap := h'; c_dls := l1 ++ d' :: l2 |} /\ ended d' r ops /\ d_peer d' = d_peer d /\ d_hash d' = d_hash d.
Proof.
  intros p h l1 d l2. remember (d_now d) as t eqn:Et. revert p h d Et. induction t as [s r|big k IH|b k IH|b x k IH|k IH|b k IH|b k IH]; intros p h d Et.
  - exists p, h, d, r, (f_trace s). split; [apply cs_refl|]. split; [exists s; auto|auto].
  - assert (G : exists p1 h1 b, GetBySize p h (if big then 32768 else 4) = Ok (p1, h1, b)).
    { unfold GetBySize. destruct big; destruct (chan_of (p_chans p) _); eauto; cbn [Z.ltb Z.compare]; destruct (h_alloc h _); eauto. }
    destruct G as (p1 & h1 & b & G). destruct (IH b p1 h1 (set_now d (b :: d_held d) (if big then S (d_big d) else d_big d) (k b)) eq_refl) as (p' & h' & d' & r & ops & S & E & F).
    exists p', h', d', r, ops. split; [|split; [exact E|exact F]]. eapply csteps_trans; [eapply cs_more; [apply cs_refl|]|exact S]. constructor. unfold advance. rewrite <- Et, G. reflexivity.
  - edestruct (IH (Put p b) h (set_now d (filter (fun x => negb (s_arr x =? s_arr b)) (d_held d)) (d_big d) k) eq_refl) as (p' & h' & d' & r & ops & S & E & F).
    exists p', h', d', r, ops. split; [|split; [exact E|exact F]]. eapply csteps_trans; [eapply cs_more; [apply cs_refl|]|exact S]. constructor. unfold advance. rewrite <- Et. reflexivity.
  - edestruct (IH p (h_write h b x) (set_now d (d_held d) (d_big d) k) eq_refl) as (p' & h' & d' & r & ops & S & E & F).
    exists p', h', d', r, ops. split; [|split; [exact E|exact F]]. eapply csteps_trans; [eapply cs_more; [apply cs_refl|]|exact S]. constructor. unfold advance. rewrite <- Et. reflexivity.
  - edestruct (IH p h (set_now d (d_held d) (d_big d) k) eq_refl) as (p' & h' & d' & r & ops & S & E & F).
    exists p', h', d', r, ops. split; [|split; [exact E|exact F]]. eapply csteps_trans; [eapply cs_more; [apply cs_refl|]|exact S]. constructor. unfold advance. rewrite <- Et. reflexivity.
  - edestruct (IH (h_read h b) p h (set_now d (d_held d) (d_big d) (k (h_read h b))) eq_refl) as (p' & h' & d' & r & ops & S & E & F).
    exists p', h', d', r, ops. split; [|split; [exact E|exact F]]. eapply csteps_trans; [eapply cs_more; [apply cs_refl|]|exact S]. constructor. unfold advance. rewrite <- Et. reflexivity.
  - edestruct (IH (h_read h b) p h (set_now d (d_held d) (d_big d) (k (h_read h b))) eq_refl) as (p' & h' & d' & r & ops & S & E & F).
    exists p', h', d', r, ops. split; [|split; [exact E|exact F]]. eapply csteps_trans; [eapply cs_more; [apply cs_refl|]|exact S]. constructor. unfold advance. rewrite <- Et. reflexivity.
Qed.

(** * Examples *)
(** The i-th download advances. *)
Fixpoint at_nth (i : nat) (p : pool) (h : heap) (l : list dl) : pool * heap * list dl :=
  match l, i with
  | [], _ => (p, h, [])
  | d :: t, 0 => let '(p', h', d') := advance p h d in (p', h', d' :: t)
  | d :: t, S j => let '(p', h', t') := at_nth j p h t in (p', h', d :: t')
  end.
Definition play1 (c : crowd) (i : nat) : crowd :=
  let '(p, h, l) := at_nth i (c_pool c) (c_heap c) (c_dls c) in {| c_pool := p; c_heap := h; c_dls := l |}.
Definition play (schedule : list nat) (c : crowd) : crowd := fold_left play1 schedule c.

Lemma at_nth_step : forall l i p h p' h' l', at_nth i p h l = (p', h', l') ->
  (p' = p /\ h' = h /\ l' = l) \/ exists l1 d l2 d', l = l1 ++ d :: l2 /\ l' = l1 ++ d' :: l2 /\ advance p h d = (p', h', d').
Proof.
  induction l as [|d l IH]; intros i p h p' h' l' E.
  - destruct i; simpl in E; apply pair_equal_spec in E as [E <-]; apply pair_equal_spec in E as [<- <-]; auto.
  - destruct i as [|i]; simpl in E.
    + destruct (advance p h d) as [[p1 h1] d1] eqn:Ea. apply pair_equal_spec in E as [E <-]. apply pair_equal_spec in E as [<- <-]. right. exists [], d, l, d1. auto.
    + destruct (at_nth i p h l) as [[p1 h1] t1] eqn:Ea. apply pair_equal_spec in E as [E <-]. apply pair_equal_spec in E as [<- <-].
      destruct (IH _ _ _ _ _ _ Ea) as [(-> & -> & ->)|(l1 & d0 & l2 & d' & -> & -> & H)]; [auto|]. right. exists (d :: l1), d0, l2, d'. auto.
Qed.
Lemma play_steps sch : forall c, csteps c (play sch c).
Proof.
  induction sch as [|i sch IH]; intros c; [apply cs_refl|]. change (play (i :: sch) c) with (play sch (play1 c i)). eapply csteps_trans; [|apply IH].
  unfold play1. destruct (at_nth i (c_pool c) (c_heap c) (c_dls c)) as [[p' h'] l'] eqn:E. destruct c as [p h l]. cbn [c_pool c_heap c_dls] in E.
  destruct (at_nth_step _ _ _ _ _ _ _ E) as [(-> & -> & ->)|(l1 & d & l2 & d' & -> & -> & H)]; [apply cs_refl|]. eapply cs_more; [apply cs_refl|]. constructor. exact H.
Qed.
Lemma begin_steps p h (l : list dl) : (forall d, In d l -> exists e peer i j, d = begin e peer i j) -> csteps {| c_pool := p; c_heap := h; c_dls := [] |} {| c_pool := p; c_heap := h; c_dls := l |}.
Proof.
  induction l as [|d l IH] using rev_ind; intros H; [apply cs_refl|]. eapply cs_more; [apply IH; intros x Hx; apply H, in_app_iff; auto|].
  destruct (H d ltac:(apply in_app_iff; right; left; reflexivity)) as (e & peer & i & j & ->). constructor.
Qed.

Definition metaB : bytes := B "d4:name5:worlde".
Definition says (m : bytes) : list bytes := [data_of (B "0") (B "15") m].
Definition call (m : bytes) : dl := begin calm0 (Some (hs0 :: map frame (says m))) LocalPeerId (sha1 m).
Definition two (p : pool) (h : heap) : crowd := {| c_pool := p; c_heap := h; c_dls := [call meta1; call metaB] |}.

(** How each download of a crowd ended. *)
Definition how (d : dl) : option (option bytes) := match d_now d with TDone _ (FOk x) => Some (Some x) | TDone _ _ => Some None | _ => None end.
Definition err_text (d : dl) : bytes := match d_now d with TDone _ (FErr (ENew m)) => m | _ => [] end.

(** Both downloads receive their only message, turn by turn, then both join their piece. *)
Definition turns : list nat := flat_map (fun _ => [0; 1; 1; 0; 0; 1]) (seq 0 8).
(** The first receives its message and gives the buffer back, the second does everything, then the
    first joins its piece. *)
Definition overtaken : list nat := repeat 0 8 ++ repeat 1 20 ++ repeat 0 20.

Lemma plain_call m : length (sha1 m) = 20 -> accepted hs0 -> Forall (fun m => (N.of_nat (length m) < 2 ^ 32)%N) (says m) -> plain (call m) hs0 (says m).
Proof.
  intros H1 H2 H3. constructor; cbn [call begin d_peer d_env d_id d_hash]; auto.
  { constructor; try reflexivity. intros n x. apply deq_refl. } all: try (intros; reflexivity). all: try (vm_compute; lia).
Qed.

(** What the two calls returned. *)
Definition got (c : crowd) (i : nat) (x : bytes) : bool := match nth_error (c_dls c) i with Some d => match how d with Some (Some y) => beq y x | _ => false end | None => false end.
Definition failed (c : crowd) (i : nat) (m : bytes) : bool := match nth_error (c_dls c) i with Some d => beq (err_text d) m | None => false end.
Lemma got_spec c i x : got c i x = true -> exists d ops, nth_error (c_dls c) i = Some d /\ ended d (FOk x) ops.
Proof.
  unfold got, how. destruct (nth_error (c_dls c) i) as [d|]; [|discriminate]. destruct (d_now d) as [s [y|y|y|y]| | | | | |] eqn:E; try discriminate. intros H. apply beq_eq in H. subst y.
  exists d, (f_trace s). split; [reflexivity|]. exists s. auto.
Qed.
Lemma failed_spec c i m : m <> [] -> failed c i m = true -> exists d ops, nth_error (c_dls c) i = Some d /\ ended d (FErr (ENew m)) ops.
Proof.
  intros Hm. unfold failed, err_text. destruct (nth_error (c_dls c) i) as [d|]; [|discriminate]. destruct (d_now d) as [s [y|[]|y|y]| | | | | |] eqn:E; intros H; apply beq_eq in H; subst; try congruence.
  exists d, (f_trace s). split; [reflexivity|]. exists s. auto.
Qed.
Lemma two_reached p h sch : sound_pool p h -> reached p h (play sch (two p h)).
Proof.
  intros H. split; [exact H|]. eapply csteps_trans; [|apply play_steps]. apply begin_steps. intros d [<-|[<-|[]]]; eexists _, _, _, _; reflexivity.
Qed.

(** C116: the theorems apply: two downloads, turn by turn, on a pool of two big buffers, each with one message:
    both succeed. *)
Lemma C116_example_pf : reached pool2 heap2 (play turns (two pool2 heap2)) /\
  Forall2 (fun d x => plain d (fst x) (snd x)) (c_dls (two pool2 heap2)) [(hs0, says meta1); (hs0, says metaB)] /\
  spoken (says meta1) + spoken (says metaB) <= big_buffers pool2 /\
  (exists d ops, nth_error (c_dls (play turns (two pool2 heap2))) 0 = Some d /\ ended d (FOk meta1) ops) /\
  exists d ops, nth_error (c_dls (play turns (two pool2 heap2))) 1 = Some d /\ ended d (FOk metaB) ops.
Proof.
  split; [apply two_reached, pool2_sound|]. assert (A : accepted hs0) by (apply accepted_by; vm_compute; reflexivity).
  split; [constructor; [|constructor; [|constructor]]; (apply plain_call; [vm_compute; reflexivity|exact A|constructor; [vm_compute; reflexivity|constructor]])|].
  split; [apply Nat.leb_le; vm_compute; reflexivity|]. split; apply got_spec; vm_compute; reflexivity.
Qed.

(** C116: without enough buffers it is false: in a freshly started crawler - the pool is empty - two honest
    peers send one small message each; the second download gets the buffer in which the first has left its
    piece, and the first fails with a checksum error, although alone it succeeds. *)
Lemma C116_fresh_start_refuted_pf : reached pool0 heap0 (play overtaken (two pool0 heap0)) /\ big_buffers pool0 = 0 /\
  (exists d ops, nth_error (c_dls (play overtaken (two pool0 heap0))) 0 = Some d /\ ended d (FErr (ENew (B "check sum err"))) ops) /\
  (exists d ops, nth_error (c_dls (play overtaken (two pool0 heap0))) 1 = Some d /\ ended d (FOk metaB) ops) /\
  exists d ops, nth_error (c_dls (play (repeat 0 20) (two pool0 heap0))) 0 = Some d /\ ended d (FOk meta1) ops.
Proof.
  split; [apply two_reached, pool0_sound|]. split; [reflexivity|]. split; [apply failed_spec; [discriminate|vm_compute; reflexivity]|]. split; apply got_spec; vm_compute; reflexivity.
Qed.
