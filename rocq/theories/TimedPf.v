(** TimedPf.v -- C117: how long a download takes and which bytes count. *)
From Verif Require Import Base GoLib Bencode BencodeSpec BencodeProofs BencodePf Types TypesPf Krpc KrpcProofs BytesPool BytesPoolPf Sha1 PeerWire PeerWirePf Fetch FetchSpec FetchProofs FetchPf Timed TimedSim TimedSpec.
From Verif Require Import BytesPool.
Local Open Scope list_scope.

(** * The pieces the simulation needs *)
Lemma timely_recv w n : timely (t_recv w n).
Proof.
  intros s s' r E. unfold t_recv in E. cbv zeta in E. destruct (n =? 0); [apply pair_equal_spec in E as [<- _]; cbn; lia|].
  destruct (N.leb_spec read_deadline (t_now (pause w 0 s))) as [Hd|Hd]; [unfold t_fail in E; apply pair_equal_spec in E as [<- _]; cbn [set_f set_conn t_own t_now t_n pause] in *; lia|].
  cbn [pause t_now t_in] in *. destruct (t_in s) as [|[a seg] rest].
  - unfold t_fail in E. apply pair_equal_spec in E as [<- _]. cbn [set_f set_conn t_own t_now t_n pause]. destruct (w_end w); lia.
  - destruct (N.leb_spec read_deadline a); [unfold t_fail in E; apply pair_equal_spec in E as [<- _]; cbn [set_f set_conn t_own t_now t_n pause]; lia|].
    apply pair_equal_spec in E as [<- _]. cbn [set_f set_conn t_own t_now t_n pause]. lia.
Qed.

Definition Jw (w : tworld) (s : tstate) : Prop := (t_now s <= read_deadline + t_own s)%N /\ (t_own s <= delays (w_lag w) (w_dur w) (t_n s))%N.
Lemma Jw_pause w s d : (d <= w_dur w (t_n s))%N -> Jw w s -> Jw w (pause w d s).
Proof. intros Hd [H1 H2]. split; cbn [pause t_now t_own t_n delays]; lia. Qed.
Lemma Jw_recv w n s s' r : t_recv w n s = (s', r) -> Jw w s -> Jw w s'.
Proof.
  intros E HJ. pose proof (Jw_pause w s 0 (N.le_0_l _) HJ) as [H1 H2]. pose proof (timely_recv _ _ _ _ _ E) as T.
  assert (K : t_own s' = t_own (pause w 0 s) /\ t_n s' = t_n (pause w 0 s)).
  { unfold t_recv in E. cbv zeta in E. destruct (n =? 0); [apply pair_equal_spec in E as [<- _]; split; reflexivity|]. destruct (_ <=? _)%N; [unfold t_fail in E; apply pair_equal_spec in E as [<- _]; split; reflexivity|].
    destruct (t_in (pause w 0 s)) as [|[a seg] rest]; [|destruct (_ <=? _)%N]; unfold t_fail in E; apply pair_equal_spec in E as [<- _]; split; reflexivity. }
  destruct K as [K1 K2]. destruct HJ as [H3 H4]. split; [|rewrite K1, K2; exact H2]. lia.
Qed.

(** Any run: an initial part of what was heard. *)
Definition R1 (s : tstate) (sc : list bytes) : Prop := heard_part sc (t_in s) /\ ((read_deadline <= t_now s)%N -> sc = []).
Lemma recv_part w (bound : tstate -> Prop) (n : nat) : (forall s s', (t_own s <= t_own s')%N -> bound s' -> bound s) -> sim (Jw w) bound R1 (t_recv w n) (fun _ => m_recv n).
Proof.
  intros _. split; [apply timely_recv|]. intros s s' r E HJ HB. split; [eapply Jw_recv; eassumption|]. intros sc' [Hp Hd]. unfold t_recv in E. cbv zeta in E. cbn [pause t_now t_in] in E. unfold m_recv.
  destruct (n =? 0) eqn:En; [apply pair_equal_spec in E as [<- <-]; exists sc'; split; [split; [exact Hp|]; cbn [set_f t_now pause] in Hd; intros; apply Hd; lia|]; reflexivity|].
  assert (Nil : R1 s []) by (split; [apply hp_end|reflexivity]).
  destruct (N.leb_spec read_deadline (t_now s + (w_lag w (t_n s) + 0))) as [Hl|Hl].
  { unfold t_fail in E. apply pair_equal_spec in E as [<- <-]. rewrite Hd by (cbn [set_f set_conn t_now]; lia). exists []. split; [exact Nil|]. reflexivity. }
  assert (Early : forall sc, heard_part sc (t_in s) -> R1 s sc) by (intros sc Hs; split; [exact Hs|lia]).
  destruct (t_in s) as [|[a seg] rest] eqn:Ein.
  { unfold t_fail in E. apply pair_equal_spec in E as [<- <-]. cbn [set_f set_conn t_in pause] in Hp. rewrite Ein in Hp. inversion Hp. exists []. split; [exact Nil|]. reflexivity. }
  destruct (N.leb_spec read_deadline a) as [Ha|Ha].
  { unfold t_fail in E. apply pair_equal_spec in E as [<- <-]. rewrite Hd by (cbn [set_f set_conn t_now]; lia). exists []. split; [exact Nil|]. reflexivity. }
  apply pair_equal_spec in E as [<- <-]. cbn [set_f set_conn t_in t_now t_f pause] in *. change read_deadline with 1000%N in Ha.
  pose proof (firstn_skipn n seg) as Hseg. pose proof (firstn_length n seg) as Hfl. destruct (skipn n seg) as [|c left] eqn:El.
  - exists (seg :: sc'). split; [apply Early, hp_more; assumption|]. intros _. cbn [put_script f_script]. rewrite El. reflexivity.
  - assert (Hn : length (firstn n seg) = n). { rewrite Hfl. assert (L : length (skipn n seg) <> 0) by (rewrite El; discriminate). rewrite skipn_length in L. lia. }
    assert (Hf0 : firstn n seg <> []) by (intros Z; rewrite Z in Hn; cbn in Hn; subst n; discriminate En).
    inversion Hp as [l Hx Hy|at_ x y l Hat Hx Hy Hz|at_ x sc l Hat Hrec Hy Hz]; subst.
    + exists [firstn n seg]. split; [apply Early; rewrite <- Hseg at 2; apply hp_within; assumption|]. intros _. cbn [put_script f_script]. rewrite (skipn_all2 (firstn n seg)) by lia. rewrite firstn_firstn, Nat.min_id. reflexivity.
    + exists [firstn n seg ++ x]. split.
      * apply Early. rewrite <- Hseg at 2. match goal with H : x ++ _ = c :: left |- _ => rewrite <- H end. rewrite app_assoc. apply hp_within; [exact Hat|]. intros Z. apply app_eq_nil in Z as [Z _]. exact (Hf0 Z).
      * intros _. cbn [put_script f_script]. rewrite skipn_app, firstn_app, Hn, Nat.sub_diag, (skipn_all2 (firstn n seg)) by lia. cbn [skipn firstn app]. rewrite app_nil_r, firstn_firstn, Nat.min_id. destruct x as [|c0 x]; [congruence|]. reflexivity.
    + exists (seg :: sc). split; [apply Early, hp_more; assumption|]. intros _. cbn [put_script f_script]. rewrite El. reflexivity.
Qed.

Lemma heard_part_fuel sc l : heard_part sc l -> mu sc <= mu (map snd l).
Proof. intros H. induction H as [l|a x y l|a x sc l _ _ IH]; cbn [map snd mu fold_right]; [lia|rewrite app_length; lia|]. unfold mu in IH. lia. Qed.

Lemma fetch_part w p h script i j s r : t_fetch w p h script i j = (s, r) -> (t_now s <= read_deadline + t_own s)%N /\ (t_own s <= delays (w_lag w) (w_dur w) (t_n s))%N /\
  exists X sc s', ((t_own s < 9000)%N -> forall n, X n = false) /\ heard_part sc script /\ FetchMetaData (with_timer (w_env w) X) p h (Some sc) i j = (s', r) /\ f_trace s' = f_trace (t_f s).
Proof.
  intros E. set (bound := fun x => (t_own x <= t_own s)%N).
  assert (Bb : forall s s', (t_own s <= t_own s')%N -> bound s' -> bound s) by (unfold bound; intros; lia).
  destruct (sim_fetch w (Jw w) bound R1 Bb) with (p := p) (h := h) (script := script) (i := i) (j := j) (s := s) (r := r) as ([J1 J2] & _ & X & HX & sc & s' & [HR _] & F & T).
  - intros x f. reflexivity.
  - intros x f sc. reflexivity.
  - intros x d Hd HJ _. apply Jw_pause; assumption.
  - intros x d sc [H1 H2]. split; [exact H1|]. intros H3. apply H2. cbn [pause t_now]. lia.
  - intros n. apply recv_part, Bb.
  - intros x. exists []. split; [apply hp_end|reflexivity].
  - intros x sc [H _]. apply heard_part_fuel, H.
  - exact E.
  - split; cbn; lia.
  - apply N.le_refl.
  - split; [exact J1|]. split; [exact J2|]. exists X, sc, s'. split; [|auto]. intros Hlt. apply HX. intros x [Hx _] Hb. unfold bound in Hb. unfold IsReadLoopExpire, expireTime. apply N.leb_gt. change read_deadline with 1000%N in Hx. lia.
Qed.

(** The run that is not late: exactly what was heard. *)
Definition apart (delta : N) (l : list (N * bytes)) : Prop := forall a x, In (a, x) l -> (a + delta < 1000)%N \/ (1000 <= a)%N.
Definition J2 (delta : N) (w : tworld) (s : tstate) : Prop := Jw w s /\ apart delta (t_in s) /\ ((t_now s + delta < 1000 + t_own s)%N \/ heard (t_in s) = []).
Definition R2 (s : tstate) (sc : list bytes) : Prop := sc = heard (t_in s).
Lemma recv_exact w delta n : sim (J2 delta w) (fun s => (t_own s <= delta)%N) R2 (t_recv w n) (fun _ => m_recv n).
Proof.
  split; [apply timely_recv|]. intros s s' r E [HJ [Ha Hl]] HB. pose proof (Jw_recv _ _ _ _ _ E HJ) as HJ'. pose proof (timely_recv _ _ _ _ _ E) as T.
  assert (Ko : t_own s' = (t_own s + (w_lag w (t_n s) + 0))%N).
  { unfold t_recv in E. cbv zeta in E. destruct (n =? 0); [apply pair_equal_spec in E as [<- _]; reflexivity|]. destruct (_ <=? _)%N; [unfold t_fail in E; apply pair_equal_spec in E as [<- _]; reflexivity|].
    destruct (t_in (pause w 0 s)) as [|[a seg] rest]; [|destruct (_ <=? _)%N]; unfold t_fail in E; apply pair_equal_spec in E as [<- _]; reflexivity. }
  unfold t_recv in E. cbv zeta in E. cbn [pause t_now t_in] in E. unfold m_recv, R2.
  destruct (n =? 0) eqn:En.
  { apply pair_equal_spec in E as [<- <-]. split; [split; [exact HJ'|]; split; [exact Ha|]; destruct Hl as [Hl|Hl]; [left; cbn [set_f t_now t_own pause]; lia|right; exact Hl]|]. intros sc' ->. exists (heard (t_in s)). split; [reflexivity|]. reflexivity. }
  assert (Lost : forall now, heard (t_in s) = [] -> (set_f (set_conn (pause w 0 s) now (t_in (pause w 0 s))) (set_io (t_f (pause w 0 s)) (f_script (t_f (pause w 0 s))) (CRead n)), @FErr bytes EIO) = (s', r) ->
    J2 delta w s' /\ forall sc', sc' = heard (t_in s') -> exists sc, sc = heard (t_in s) /\ forall X : nat -> bool, match f_script (put_script (t_f s) sc) with [] => (set_io (put_script (t_f s) sc) [] (CRead n), FErr EIO) | seg :: rest => let left := skipn n seg in (set_io (put_script (t_f s) sc) (match left with [] => rest | _ => left :: rest end) (CRead n), FOk (firstn n seg)) end = (put_script (t_f s') sc', r)).
  { intros now Hh Ep. apply pair_equal_spec in Ep as [<- <-]. split; [split; [exact HJ'|]; split; [exact Ha|right; exact Hh]|]. intros sc' ->. exists (heard (t_in s)). split; [reflexivity|]. intros _. cbn [put_script f_script]. rewrite Hh. cbn [set_f set_conn t_in pause]. rewrite Hh. reflexivity. }
  destruct (N.leb_spec read_deadline (t_now s + (w_lag w (t_n s) + 0))) as [Hd|Hd].
  { eapply Lost; [|exact E]. destruct Hl as [Hl|Hl]; [|exact Hl]. unfold read_deadline in *. lia. }
  destruct (t_in s) as [|[a seg] rest] eqn:Ein.
  { eapply Lost; [reflexivity|]. unfold t_fail in E. exact E. }
  destruct (N.leb_spec read_deadline a) as [Hr|Hr].
  { eapply Lost; [|exact E]. cbn [heard]. unfold read_deadline in Hr. destruct (N.ltb_spec a 1000); [lia|reflexivity]. }
  unfold read_deadline in *. assert (Hlt : (a <? 1000)%N = true) by lia.
  assert (Hd1 : (t_now s + delta < 1000 + t_own s)%N) by (destruct Hl as [Hl|Hl]; [exact Hl|cbn [heard] in Hl; rewrite Hlt in Hl; discriminate]).
  assert (Ha1 : (a + delta < 1000)%N) by (destruct (Ha a seg ltac:(left; reflexivity)); [assumption|lia]).
  apply pair_equal_spec in E as [<- <-]. split.
  - split; [exact HJ'|]. split.
    + intros b x Hin. cbn [set_f set_conn t_in] in Hin. destruct (skipn n seg); [apply (Ha b x); right; exact Hin|]. destruct Hin as [Hin|Hin]; [injection Hin as <- _; left; exact Ha1|apply (Ha b x); right; exact Hin].
    + left. cbn [set_f set_conn t_now t_own pause]. lia.
  - intros sc' ->. exists (seg :: heard rest). split; [cbn [heard]; rewrite Hlt; reflexivity|]. intros _. cbn [put_script f_script set_f set_conn t_in]. destruct (skipn n seg) as [|c left]; [reflexivity|]. cbn [heard]. rewrite Hlt. reflexivity.
Qed.
Lemma heard_fuel l : mu (heard l) <= mu (map snd l).
Proof. unfold mu. induction l as [|[a x] l IH]; cbn [heard map snd fold_right]; [lia|]. destruct (a <? 1000)%N; cbn [fold_right]; lia. Qed.
Lemma fetch_exact w delta p h script i j s r : t_fetch w p h script i j = (s, r) -> (t_own s <= delta)%N -> (delta < 1000)%N -> apart delta script ->
  exists X s', (forall n, X n = false) /\ FetchMetaData (with_timer (w_env w) X) p h (Some (heard script)) i j = (s', r) /\ f_trace s' = f_trace (t_f s).
Proof.
  intros E Ho Hd Ha. set (bound := fun x => (t_own x <= delta)%N).
  assert (Bb : forall s s', (t_own s <= t_own s')%N -> bound s' -> bound s) by (unfold bound; intros; lia).
  destruct (sim_fetch w (J2 delta w) bound R2 Bb) with (p := p) (h := h) (script := script) (i := i) (j := j) (s := s) (r := r) as (_ & _ & X & HX & sc & s' & HR & F & T).
  - intros x f. reflexivity.
  - intros x f sc. reflexivity.
  - intros x d Hdd [H1 [H2 H3]] _. split; [apply Jw_pause; assumption|]. split; [exact H2|]. destruct H3 as [H3|H3]; [left; cbn [pause t_now t_own]; lia|right; exact H3].
  - intros x d sc H. exact H.
  - intros n. apply recv_exact.
  - intros x. eexists. reflexivity.
  - intros x sc ->. apply heard_fuel.
  - exact E.
  - split; [split; cbn; lia|]. split; [exact Ha|]. left. cbn. lia.
  - exact Ho.
  - unfold R2 in HR. cbn [t_in] in HR. subst sc. exists X, s'. split; [|auto]. apply HX. intros x [[Hx _] _] Hb. unfold bound in Hb. unfold IsReadLoopExpire, expireTime. apply N.leb_gt. change read_deadline with 1000%N in Hx. lia.
Qed.

(** * C117 *)
(** C117: a call that ends does so within 4 seconds (3 to connect, 1 to listen) plus the crawler's own
    delays - computing, being preempted, and its Writes -, whatever the peer does; a refused or silent
    peer costs at most 3 seconds. *)
Lemma C117_duration_pf : forall w dial p h script peerId infoHash delta t r ops,
  (forall n, delays (w_lag w) (w_dur w) n <= delta)%N ->
  timed_fetch w dial p h script peerId infoHash = (t, r, ops) ->
  (t <= 4000 + delta)%N /\ (match dial with Accepts t0 => t0 < 3000 | _ => False end \/ (t <= 3000 /\ ops = []))%N.
Proof.
  intros w dial p h script i j delta t r ops Hd E. unfold timed_fetch, dial_timeout in E. destruct dial as [t0|t0|].
  - destruct (N.ltb_spec t0 3000) as [Hlt|Hge].
    + destruct (t_fetch w p h script i j) as [s r'] eqn:Ef. apply pair_equal_spec in E as [E _]. apply pair_equal_spec in E as [<- _]. destruct (fetch_part _ _ _ _ _ _ _ _ Ef) as (H1 & H2 & _).
      specialize (Hd (t_n s)). unfold read_deadline in H1. split; [lia|left; exact Hlt].
    + apply pair_equal_spec in E as [E <-]. apply pair_equal_spec in E as [<- _]. split; [lia|right; split; [lia|reflexivity]].
  - apply pair_equal_spec in E as [E <-]. apply pair_equal_spec in E as [<- _]. split; [lia|right; split; [lia|reflexivity]].
  - apply pair_equal_spec in E as [E <-]. apply pair_equal_spec in E as [<- _]. split; [lia|right; split; [lia|reflexivity]].
Qed.

(** C117: every timed run is an untimed download (Fetch.v) fed with an initial part of what came within
    the first second; bytes that come later never count.  The 10 s limit plays no part unless the
    crawler's own delays add up to 9 s. *)
Lemma C117_only_the_first_second_pf : forall w t0 p h script peerId infoHash t r ops, (t0 < 3000)%N ->
  timed_fetch w (Accepts t0) p h script peerId infoHash = (t, r, ops) ->
  exists expired sc s, heard_part sc script /\ FetchMetaData (with_timer (w_env w) expired) p h (Some sc) peerId infoHash = (s, r) /\ f_trace s = ops /\
    ((forall n, delays (w_lag w) (w_dur w) n < 9000)%N -> forall n, expired n = false).
Proof.
  intros w t0 p h script i j t r ops Ht E. unfold timed_fetch, dial_timeout in E. destruct (N.ltb_spec t0 3000) as [_|]; [|lia].
  destruct (t_fetch w p h script i j) as [s r'] eqn:Ef. apply pair_equal_spec in E as [E <-]. apply pair_equal_spec in E as [_ <-]. destruct (fetch_part _ _ _ _ _ _ _ _ Ef) as (_ & H2 & X & sc & s' & HX & H3 & H4 & H5).
  exists X, sc, s'. split; [exact H3|]. split; [exact H4|]. split; [exact H5|]. intros Hd. apply HX. specialize (Hd (t_n s)). lia.
Qed.

(** C117: if the own delays add up to at most delta, and no run of bytes comes within the last delta milliseconds
    of the first second, the outcome and everything written are exactly those of the untimed download
    fed with all that came within the first second. *)
Lemma C117_exact_pf : forall w t0 p h script peerId infoHash delta t r ops, (t0 < 3000)%N ->
  (forall n, delays (w_lag w) (w_dur w) n <= delta)%N -> (delta < 1000)%N -> (forall a x, In (a, x) script -> a + delta < 1000 \/ 1000 <= a)%N ->
  timed_fetch w (Accepts t0) p h script peerId infoHash = (t, r, ops) ->
  exists expired s, (forall n, expired n = false) /\ FetchMetaData (with_timer (w_env w) expired) p h (Some (heard script)) peerId infoHash = (s, r) /\ f_trace s = ops.
Proof.
  intros w t0 p h script i j delta t r ops Ht Hd Hl Ha E. unfold timed_fetch, dial_timeout in E. destruct (N.ltb_spec t0 3000) as [_|]; [|lia].
  destruct (t_fetch w p h script i j) as [s r'] eqn:Ef. apply pair_equal_spec in E as [E <-]. apply pair_equal_spec in E as [_ <-]. destruct (fetch_part _ _ _ _ _ _ _ _ Ef) as (_ & H2 & _).
  apply (fetch_exact w delta p h script i j s r'); [exact Ef|specialize (Hd (t_n s)); lia|exact Hl|exact Ha].
Qed.

(** C117: returned data has the requested SHA-1 and a call that returns has closed its connection once, last -
    at whatever times things happen. *)
Lemma C117_authentic_and_closed_pf : forall w t0 p h script peerId infoHash t r ops, (t0 < 3000)%N ->
  timed_fetch w (Accepts t0) p h script peerId infoHash = (t, r, ops) ->
  match r with
  | FOk x => sha1 x = infoHash
  | FErr _ => True
  | FPanic _ => False
  | FStop BlockedWrite => exists n, e_write (w_env w) n = WBlock
  | FStop OutOfMemory => exists n, e_mem (w_env w) n = false
  | FStop OutOfFuel => False
  end /\
  match r with FStop _ => True | _ => exists o, ops = o ++ [CClose] /\ ~ In CClose o end.
Proof.
  intros w t0 p h script i j t r ops Ht E. destruct (C117_only_the_first_second_pf _ _ _ _ _ _ _ _ _ _ Ht E) as (X & sc & s & _ & F & <- & _).
  pose proof (C57_finishes_closed_pf _ _ _ _ _ _ _ _ F) as H. split.
  - destruct r as [x|x|x|[]]; [eapply C56_authentic_pf; exact F|exact I|exact H..].
  - destruct r as [x|x|x|x]; [exact H|exact H|destruct H|exact I].
Qed.

Lemma heard_all l : Forall (fun x => fst x < 1000)%N l -> heard l = map snd l.
Proof. intros H. induction H as [|[a x] l Ha F IH]; [reflexivity|]. cbn [heard map snd fst] in *. destruct (N.ltb_spec a 1000); [|lia]. f_equal. exact IH. Qed.

(** C117: an honest peer all of whose messages come in time is served. *)
Lemma C117_honest_in_time_pf : forall w t0 p h script meta during peerId infoHash delta t r ops, (t0 < 3000)%N ->
  (forall n, delays (w_lag w) (w_dur w) n <= delta)%N -> Forall (fun x => fst x + delta < 1000)%N script -> (delta < 1000)%N ->
  alone (w_env w) -> calm (w_env w) -> sound_pool p h -> length peerId = 20 -> sha1 meta = infoHash -> (Z.of_nat (length meta) <= 2 ^ 48)%Z ->
  honest meta (map snd script) during -> carrying during <= Nat.max 1 (length (chan_of (p_chans p) 32768)) ->
  timed_fetch w (Accepts t0) p h script peerId infoHash = (t, r, ops) -> r = FOk meta /\ (t < 4000 + delta)%N.
Proof.
  intros w t0 p h script meta during i j delta t r ops Ht Hd Hs Hl Ha Hc Hp Hi Hm Hz Hh Hn E.
  assert (Hs1 : Forall (fun x => fst x < 1000)%N script) by (eapply Forall_impl; [|exact Hs]; intros x Hx; cbv beta in Hx; lia).
  destruct (C117_exact_pf w t0 p h script i j delta t r ops Ht Hd Hl) as (X & s & HX & F & _); [|exact E|].
  { intros a x Hin. left. rewrite Forall_forall in Hs. apply (Hs _ Hin). }
  rewrite heard_all in F by exact Hs1. destruct (C59_enough_buffers_pf (with_timer (w_env w) X) p h meta (map snd script) during i j) as (s' & F'); try assumption.
  { destruct Hc as [c1 c2 c3 c4]. constructor; assumption. }
  rewrite F in F'. apply pair_equal_spec in F' as [_ ->]. split; [reflexivity|].
  unfold timed_fetch, dial_timeout in E. destruct (N.ltb_spec t0 3000) as [_|]; [|lia]. destruct (t_fetch w p h script i j) as [s1 r1] eqn:Ef. apply pair_equal_spec in E as [E _]. apply pair_equal_spec in E as [<- _].
  destruct (fetch_part _ _ _ _ _ _ _ _ Ef) as (H1 & H2 & _). specialize (Hd (t_n s1)). unfold read_deadline in H1. lia.
Qed.

(** * Concrete cases *)
Definition w1 : tworld := {| w_env := calm0; w_lag := fun n => if n =? 3 then 50%N else 0%N; w_dur := fun _ => 0%N; w_end := None |}.
Definition w0 (dur : nat -> N) : tworld := {| w_env := calm0; w_lag := fun _ => 0%N; w_dur := dur; w_end := None |}.
Definition at_times (ts : list N) (l : list bytes) : list (N * bytes) := combine ts l.
Lemma w1_delays n : (delays (w_lag w1) (w_dur w1) n <= 50)%N.
Proof.
  assert (H : forall m, delays (w_lag w1) (w_dur w1) m = if m <=? 3 then 0%N else 50%N); [|rewrite H; destruct (n <=? 3); lia].
  induction m as [|m IH]; [reflexivity|]. cbn [delays]. rewrite IH. cbn [w1 w_lag w_dur]. destruct (Nat.leb_spec m 3); destruct (Nat.eqb_spec m 3); destruct (Nat.leb_spec (S m) 3); lia.
Qed.
Lemma w0_delays n : delays (w_lag (w0 (fun _ => 0%N))) (w_dur (w0 (fun _ => 0%N))) n = 0%N.
Proof. induction n as [|n IH]; [reflexivity|]. cbn [delays]. rewrite IH. reflexivity. Qed.

Definition gives (x : N * fres bytes * list connop) (t : N) (res : option bytes) : bool :=
  (fst (fst x) =? t)%N && match snd (fst x), res with FOk a, Some b => beq a b | FErr _, None => true | _, _ => false end.
Lemma gives_ok x t b : gives x t (Some b) = true -> exists ops, x = (t, FOk b, ops).
Proof.
  destruct x as [[t' r] ops]. unfold gives. cbn [fst snd]. intros H. apply andb_true_iff in H as [H1 H2]. apply N.eqb_eq in H1 as ->. destruct r as [a|a|a|a]; try discriminate H2. apply beq_eq in H2 as ->. exists ops. reflexivity.
Qed.
Lemma gives_err x t : gives x t None = true -> exists e ops, x = (t, FErr e, ops).
Proof.
  destruct x as [[t' r] ops]. unfold gives. cbn [fst snd]. intros H. apply andb_true_iff in H as [H1 H2]. apply N.eqb_eq in H1 as ->. destruct r as [a|a|a|a]; try discriminate H2. exists a, ops. reflexivity.
Qed.

(** C117: a connection after 120 ms, the four messages of an honest peer after 100, 200, 300 and 400 ms
    more, an own delay of 50 ms: the metadata is there 520 ms after the call. *)
Lemma C117_example_pf :
  (forall n, delays (w_lag w1) (w_dur w1) n <= 50)%N /\ delays (w_lag w1) (w_dur w1) 4 = 50%N /\
  Forall (fun x => fst x + 50 < 1000)%N (at_times [100; 200; 300; 400]%N script1) /\ map snd (at_times [100; 200; 300; 400]%N script1) = script1 /\
  honest meta1 script1 [Piece 0 (data_of (B "0") (B "15") meta1)] /\ alone calm0 /\ calm calm0 /\ sound_pool pool0 heap0 /\
  exists ops, timed_fetch w1 (Accepts 120) pool0 heap0 (at_times [100; 200; 300; 400]%N script1) LocalPeerId (sha1 meta1) = (520%N, FOk meta1, ops).
Proof.
  split; [exact w1_delays|]. split; [reflexivity|]. split; [repeat constructor; reflexivity|]. split; [reflexivity|]. split; [exact honest1|]. split; [exact calm0_alone|]. split; [exact calm0_calm|]. split; [exact pool0_sound|].
  apply gives_ok. vm_compute. reflexivity.
Qed.

(** C117: the limit in force is 1 second for the whole conversation, not 10: an honest peer whose last message comes
    1200 ms after the connection was made is not served, though nobody else disturbs, no own
    delay occurs and the same messages in time are. *)
Lemma C117_slow_peer_refuted_pf :
  honest meta1 script1 [Piece 0 (data_of (B "0") (B "15") meta1)] /\ (forall n, delays (w_lag (w0 (fun _ => 0%N))) (w_dur (w0 (fun _ => 0%N))) n = 0%N) /\
  (exists x ops, timed_fetch (w0 (fun _ => 0%N)) (Accepts 120) pool0 heap0 (at_times [400; 800; 800; 1200]%N script1) LocalPeerId (sha1 meta1) = (1120%N, FErr x, ops)) /\
  (exists ops, timed_fetch (w0 (fun _ => 0%N)) (Accepts 120) pool0 heap0 (at_times [400; 800; 800; 950]%N script1) LocalPeerId (sha1 meta1) = (1070%N, FOk meta1, ops)).
Proof.
  split; [exact honest1|]. split; [exact w0_delays|]. split; [apply gives_err; vm_compute; reflexivity|apply gives_ok; vm_compute; reflexivity].
Qed.

(** C117: Writes have no deadline: one Write of any length d of at least a second delays the whole call by d, and the call then
    fails although everything the peer has to say is there. *)
Lemma C117_write_refuted_pf : forall d peerId infoHash, (1000 <= d)%N -> length peerId = 20 -> length infoHash = 20 ->
  exists dur, (forall n, dur n = 0 \/ (n = 1%nat /\ dur n = d))%N /\
  exists x ops, timed_fetch (w0 dur) (Accepts 0) pool0 heap0 (at_times [0; 0; 0; 0]%N script1) peerId infoHash = (d, FErr x, ops).
Proof.
  intros d i j Hd Hi Hj. exists (fun n => if n =? 1 then d else 0%N). split; [intros n; destruct (Nat.eqb_spec n 1); auto|].
  unfold timed_fetch, dial_timeout. change (0 <? 3000)%N with true. cbv iota.
  match goal with |- context [t_fetch ?w ?p ?h ?s ?i ?j] => assert (G : exists s' x, t_fetch w p h s i j = (s', FErr x) /\ t_now s' = d) end.
  { unfold t_fetch, t_body. destruct (withHandShakeMsg i j) as [msg|x|x] eqn:Em.
    - unfold t_handshakePeer, tbd, tl, lift. rewrite Em. cbn. unfold t_recv. cbn. destruct (N.leb_spec read_deadline (d + 0)) as [_|H]; [|unfold read_deadline in H; lia]. cbn. eexists. eexists. split; [reflexivity|]. cbn. lia.
    - unfold withHandShakeMsg, PeerIdLen, InfoHashLen in Em. rewrite Hi, Hj in Em. discriminate Em.
    - unfold withHandShakeMsg, PeerIdLen, InfoHashLen in Em. rewrite Hi, Hj in Em. discriminate Em. }
  destruct G as (s' & x & -> & <-). exists x, (f_trace (t_f s')). reflexivity.
Qed.
