(** TimedSim.v -- the timed download of Timed.v against the one of Fetch.v. *)
From Verif Require Import Base GoLib Bencode Types Krpc BytesPool Sha1 PeerWire PeerWirePf Fetch FetchSpec FetchProofs Timed.
Local Open Scope list_scope.

Definition put_script (s : fstate) (sc : list bytes) : fstate :=
  {| f_pool := f_pool s; f_heap := f_heap s; f_script := sc; f_tick := f_tick s; f_trace := f_trace s; f_meta := f_meta s; f_size := f_size s; f_req := f_req s |}.

(** An action that does not look at the script. *)
Definition unread {A} (m : M A) : Prop := forall s sc, m (put_script s sc) = (let (s', r) := m s in (put_script s' sc, r)).

Lemma unread_id {A} (g : fstate -> fres A) : (forall s sc, g (put_script s sc) = g s) -> unread (fun s => (s, g s)).
Proof. intros H s sc. rewrite H. reflexivity. Qed.
Lemma unread_bind {A C} (m : M A) (k : A -> M C) : unread m -> (forall a, unread (k a)) -> unread (mbind m k).
Proof. intros Hm Hk s sc. unfold mbind. rewrite Hm. destruct (m s) as [s1 [a|x|x|x]]; try reflexivity. apply Hk. Qed.
Lemma unread_lift {A} (r : res A) : unread (lift r). Proof. intros s sc. reflexivity. Qed.
Lemma unread_ret {A} (a : A) : unread (ret a). Proof. intros s sc. reflexivity. Qed.
Lemma unread_panic {A} x : unread (@mpanic A x). Proof. intros s sc. reflexivity. Qed.
Lemma unread_interfere e : unread (interfere e).
Proof. intros s sc. unfold interfere. cbn [put_script f_tick f_pool f_heap]. destruct (e_intf e (f_tick s) (f_pool s, f_heap s)). reflexivity. Qed.
Lemma unread_get e n : unread (m_get e n).
Proof. apply unread_bind; [apply unread_interfere|]. intros _ s sc. cbn [put_script f_pool f_heap]. destruct (GetBySize (f_pool s) (f_heap s) n) as [[[p h] b]| |]; reflexivity. Qed.
Lemma unread_put e b : unread (m_put e b).
Proof. apply unread_bind; [apply unread_interfere|]. intros _ s sc. reflexivity. Qed.
Lemma unread_show b : unread (m_show b). Proof. intros s sc. reflexivity. Qed.
Lemma unread_ord e : unread (m_ord e). Proof. intros s sc. reflexivity. Qed.
Lemma unread_make e a n : unread (m_make e a n).
Proof. intros s sc. unfold m_make. destruct (_ || _); [reflexivity|]. destruct (e_mem e _); reflexivity. Qed.
Lemma unread_write e bs : unread (m_write e bs).
Proof. intros s sc. unfold m_write. cbn [put_script f_trace]. destruct (e_write e _); reflexivity. Qed.
Lemma unread_piece b data : unread (handle_piece b data).
Proof.
  apply unread_bind; [apply unread_lift|]. intros m. destruct (negb _); [apply unread_ret|]. intros s sc. cbn [put_script f_meta f_req f_size].
  destruct (_ || _); [reflexivity|]. cbn zeta. destruct (_ <=? _)%Z; reflexivity.
Qed.
Lemma unread_merge e is : forall acc, unread (merge e is acc).
Proof.
  induction is as [|i t IH]; intros acc; cbn [merge]; [apply unread_ret|]. apply unread_bind; [apply unread_interfere|]. intros _ s sc. cbn [put_script f_meta f_heap].
  destruct (nth_error (f_meta s) i) as [[b|]|]; [apply IH|apply IH|reflexivity].
Qed.

(** The number of shared accesses only grows. *)
Definition ticks {A} (m : M A) : Prop := forall s s' r, m s = (s', r) -> f_tick s <= f_tick s'.
Lemma ticks_bind {A C} (m : M A) (k : A -> M C) : ticks m -> (forall a, ticks (k a)) -> ticks (mbind m k).
Proof.
  intros Hm Hk s s' r E. unfold mbind in E. destruct (m s) as [s1 [a|x|x|x]] eqn:E1; pose proof (Hm _ _ _ E1); try (apply pair_equal_spec in E as [<- _]; exact H).
  apply Hk in E. lia.
Qed.
Lemma ticks_interfere e : ticks (interfere e).
Proof. intros s s' r E. unfold interfere in E. destruct (e_intf e _ _). apply pair_equal_spec in E as [<- _]. cbn. lia. Qed.
Lemma ticks_id {A} (m : M A) : (forall s s' r, m s = (s', r) -> f_tick s' = f_tick s) -> ticks m.
Proof. intros H s s' r E. apply H in E. lia. Qed.
Lemma ticks_lift {A} (r : res A) : ticks (lift r). Proof. apply ticks_id. intros s s' x E. apply pair_equal_spec in E as [<- _]. reflexivity. Qed.
Lemma ticks_ret {A} (a : A) : ticks (ret a). Proof. apply ticks_id. intros s s' x E. apply pair_equal_spec in E as [<- _]. reflexivity. Qed.
Lemma ticks_panic {A} x : ticks (@mpanic A x). Proof. apply ticks_id. intros s s' y E. apply pair_equal_spec in E as [<- _]. reflexivity. Qed.
Lemma ticks_show b : ticks (m_show b). Proof. apply ticks_id. intros s s' x E. apply pair_equal_spec in E as [<- _]. reflexivity. Qed.
Lemma ticks_ord e : ticks (m_ord e). Proof. apply ticks_id. intros s s' x E. apply pair_equal_spec in E as [<- _]. reflexivity. Qed.
Lemma ticks_put e b : ticks (m_put e b).
Proof. apply ticks_bind; [apply ticks_interfere|]. intros _. apply ticks_id. intros s s' r E. apply pair_equal_spec in E as [<- _]. reflexivity. Qed.
Lemma ticks_get e n s s' r : m_get e n s = (s', r) -> f_tick s < f_tick s'.
Proof.
  unfold m_get, mbind, interfere. destruct (e_intf e _ _) as [p h]. cbn [f_pool f_heap]. destruct (GetBySize p h n) as [[[p' h'] b]| |]; intros E; apply pair_equal_spec in E as [<- _]; cbn; lia.
Qed.
Lemma ticks_recv n : ticks (m_recv n).
Proof. apply ticks_id. intros s s' r E. unfold m_recv in E. destruct (n =? 0); [apply pair_equal_spec in E as [<- _]; reflexivity|]. destruct (f_script s); apply pair_equal_spec in E as [<- _]; reflexivity. Qed.
Lemma ticks_read e b : ticks (m_read e b).
Proof. apply ticks_bind; [apply ticks_interfere|]. intros _. apply ticks_bind; [apply ticks_recv|]. intros d. apply ticks_id. intros s s' r E. apply pair_equal_spec in E as [<- _]. reflexivity. Qed.
Lemma ticks_write e bs : ticks (m_write e bs).
Proof. apply ticks_id. intros s s' r E. unfold m_write in E. destruct (e_write e _); apply pair_equal_spec in E as [<- _]; reflexivity. Qed.
Lemma ticks_make e a n : ticks (m_make e a n).
Proof. apply ticks_id. intros s s' r E. unfold m_make in E. destruct (_ || _); [|destruct (e_mem e _)]; apply pair_equal_spec in E as [<- _]; reflexivity. Qed.
Lemma ticks_requests e is : ticks (request_pieces e is).
Proof.
  induction is as [|i t IH]; cbn [request_pieces]; [apply ticks_ret|]. apply ticks_bind; [apply ticks_ord|]. intros ord. apply ticks_bind; [apply ticks_lift|]. intros msg.
  apply ticks_bind; [apply ticks_write|]. intros ok. destruct ok; [exact IH|apply ticks_panic].
Qed.
Lemma ticks_handle e b : ticks (handle_msg e b).
Proof.
  apply ticks_bind; [apply ticks_show|]. intros data. apply ticks_bind; [apply ticks_lift|]. intros ty. destruct (_ =? _)%N; [|apply ticks_ret].
  apply ticks_bind; [apply ticks_lift|]. intros id. destruct (_ =? 0)%N; [|destruct (_ =? 1)%N; [|apply ticks_ret]].
  - apply ticks_bind; [apply ticks_lift|]. intros dict. destruct (negb _); [apply ticks_panic|]. apply ticks_bind; [apply ticks_lift|]. intros z.
    apply ticks_bind; [apply ticks_id; intros s s' r E; apply pair_equal_spec in E as [<- _]; reflexivity|]. intros _. apply ticks_bind; [apply ticks_make|]. intros _.
    apply ticks_bind; [apply ticks_id; intros s s' r E; apply pair_equal_spec in E as [<- _]; reflexivity|]. intros _. apply ticks_bind; [apply ticks_make|]. intros _.
    apply ticks_bind; [apply ticks_id; intros s s' r E; apply pair_equal_spec in E as [<- _]; reflexivity|]. intros _. apply ticks_requests.
  - apply ticks_bind; [apply ticks_lift|]. intros m. destruct (negb _); [apply ticks_ret|]. apply ticks_id. intros s s' r E. cbn zeta in E.
    destruct (_ || _); [apply pair_equal_spec in E as [<- _]; reflexivity|]. destruct (_ <=? _)%Z; apply pair_equal_spec in E as [<- _]; reflexivity.
Qed.
Lemma ticks_readBytes e s s' r : readBytesByPrefixLenMsg e s = (s', r) -> f_tick s < f_tick s'.
Proof.
  unfold readBytesByPrefixLenMsg. unfold mbind at 1. destruct (m_get e PrefixLen s) as [s1 r1] eqn:E1. pose proof (ticks_get _ _ _ _ _ E1) as Hlt.
  destruct r1 as [pre|x|x|x]; intros E; try (apply pair_equal_spec in E as [<- _]; exact Hlt).
  enough (f_tick s1 <= f_tick s') by lia. revert s1 s' r E Hlt E1. intros s1 s' r E _ _.
  match type of E with ?m s1 = _ => assert (K : ticks m) end; [|exact (K _ _ _ E)].
  apply ticks_bind; [apply ticks_read|]. intros _. apply ticks_bind; [apply ticks_show|]. intros bs. apply ticks_bind; [apply ticks_lift|]. intros n. destruct (n =? 0)%N; [apply ticks_ret|].
  apply ticks_bind; [apply ticks_put|]. intros _. destruct (_ <? _)%N; [apply ticks_lift|]. apply ticks_bind; [intros a b c Eg; apply ticks_get in Eg; lia|]. intros buf.
  apply ticks_bind; [apply ticks_read|]. intros k. apply ticks_ret.
Qed.
Lemma ticks_handler e s s' r : readMetaDataHandler e s = (s', r) -> f_tick s < f_tick s'.
Proof.
  unfold readMetaDataHandler. destruct (readBytesByPrefixLenMsg e s) as [s1 r1] eqn:E1. pose proof (ticks_readBytes _ _ _ _ E1) as Hlt.
  destruct r1 as [[b|]|x|x|x]; intros E; try (apply pair_equal_spec in E as [<- _]; exact Hlt).
  unfold with_put in E. destruct (handle_msg e b s1) as [s2 r2] eqn:E2. pose proof (ticks_handle _ _ _ _ _ E2).
  destruct (m_put e b s2) as [s3 r3] eqn:E3. pose proof (ticks_put _ _ _ _ _ E3). cbn [fst] in E.
  destruct r2; [destruct (0 <? s_cap b)%Z ..|]; apply pair_equal_spec in E as [<- _]; lia.
Qed.

(** The same world with another timer. *)
Definition with_timer (e : fenv) (X : nat -> bool) : fenv :=
  {| e_intf := e_intf e; e_exp := X; e_write := e_write e; e_mem := e_mem e; e_ford := e_ford e; e_fold := e_fold e |}.

Lemma set_f_f s f : t_f (set_f s f) = f. Proof. reflexivity. Qed.

(** How long steps take: the clock and the own delays only grow, and what is not an own delay is waiting for
    the deadline. *)
Definition timely {A} (t : TM A) : Prop := forall s s' r, t s = (s', r) ->
  (t_own s <= t_own s' /\ t_now s <= t_now s' /\ t_now s' + t_own s <= N.max (t_now s) read_deadline + t_own s')%N /\ t_n s <= t_n s'.

Section Sim.
  Variable w : tworld.
  (** What is kept from step to step, what bounds the whole run, and how a script of Fetch.v describes what is
      still to come. *)
  Variable J bound : tstate -> Prop.
  Variable R : tstate -> list bytes -> Prop.
  Hypothesis bound_back : forall s s', (t_own s <= t_own s')%N -> bound s' -> bound s.
  Hypothesis J_f : forall s f, J (set_f s f) <-> J s.
  Hypothesis R_f : forall s f sc, R (set_f s f) sc <-> R s sc.
  Hypothesis J_pause : forall s d, (d <= w_dur w (t_n s))%N -> J s -> bound (pause w d s) -> J (pause w d s).
  Hypothesis R_pause : forall s d sc, R (pause w d s) sc -> R s sc.

  Definition sim {A} (t : TM A) (m : (nat -> bool) -> M A) : Prop := timely t /\ forall s s' r, t s = (s', r) -> J s -> bound s' ->
    J s' /\ forall sc', R s' sc' -> exists sc, R s sc /\ forall X, m X (put_script (t_f s) sc) = (put_script (t_f s') sc', r).

  Hypothesis H_recv : forall n, sim (t_recv w n) (fun _ => m_recv n).

  Lemma bound_f s f : bound (set_f s f) -> bound s.
  Proof. apply bound_back. apply N.le_refl. Qed.

  Lemma sim_ret {A} (a : A) : sim (tret a) (fun _ => ret a).
  Proof.
    split; [intros s s' r E; apply pair_equal_spec in E as [<- _]; lia|]. intros s s' r E HJ HB. apply pair_equal_spec in E as [<- <-]. split; [exact HJ|]. intros sc' HR. exists sc'. split; [exact HR|]. reflexivity.
  Qed.
  Lemma sim_bind {A C} (t : TM A) (m : (nat -> bool) -> M A) (k : A -> TM C) (j : A -> (nat -> bool) -> M C) :
    sim t m -> (forall a, sim (k a) (j a)) -> sim (tbd t k) (fun X => mbind (m X) (fun a => j a X)).
  Proof.
    intros [T1 H1] H2. split.
    - intros s s' r E. unfold tbd in E. destruct (t s) as [s1 r1] eqn:E1. pose proof (T1 _ _ _ E1) as Q. destruct r1 as [a|x|x|x]; try (apply pair_equal_spec in E as [<- _]; exact Q).
      pose proof (proj1 (H2 a) _ _ _ E). lia.
    - intros s s' r E HJ HB. unfold tbd in E. destruct (t s) as [s1 r1] eqn:E1. pose proof (T1 _ _ _ E1) as Q. destruct r1 as [a|x|x|x].
      + pose proof (proj1 (H2 a) _ _ _ E) as Q2. assert (B1 : bound s1) by (eapply bound_back; [apply Q2|exact HB]). destruct (H1 _ _ _ E1 HJ B1) as [J1 G1]. destruct (proj2 (H2 a) _ _ _ E J1 HB) as [J2 G2]. split; [exact J2|].
        intros sc' HR. destruct (G2 sc' HR) as (sc1 & R1 & F2). destruct (G1 sc1 R1) as (sc & R0 & F1). exists sc. split; [exact R0|]. intros X. unfold mbind. rewrite F1. apply F2.
      + apply pair_equal_spec in E as [<- <-]. destruct (H1 _ _ _ E1 HJ HB) as [J1 G1]. split; [exact J1|]. intros sc' HR. destruct (G1 sc' HR) as (sc & R0 & F1). exists sc. split; [exact R0|]. intros X. unfold mbind. rewrite F1. reflexivity.
      + apply pair_equal_spec in E as [<- <-]. destruct (H1 _ _ _ E1 HJ HB) as [J1 G1]. split; [exact J1|]. intros sc' HR. destruct (G1 sc' HR) as (sc & R0 & F1). exists sc. split; [exact R0|]. intros X. unfold mbind. rewrite F1. reflexivity.
      + apply pair_equal_spec in E as [<- <-]. destruct (H1 _ _ _ E1 HJ HB) as [J1 G1]. split; [exact J1|]. intros sc' HR. destruct (G1 sc' HR) as (sc & R0 & F1). exists sc. split; [exact R0|]. intros X. unfold mbind. rewrite F1. reflexivity.
  Qed.
  Lemma timely_tl {A} (m : M A) : timely (tl w m).
  Proof. intros s s' r E. unfold tl in E. destruct (m _) as [f x]. apply pair_equal_spec in E as [<- _]. cbn. lia. Qed.
  Lemma sim_tl {A} (m : M A) : unread m -> sim (tl w m) (fun _ => m).
  Proof.
    intros Hm. split; [apply timely_tl|]. intros s s' r E HJ HB. unfold tl in E. destruct (m (t_f (pause w 0 s))) as [f x] eqn:Em. apply pair_equal_spec in E as [<- <-].
    split; [apply J_f, J_pause; [apply N.le_0_l|exact HJ|eapply bound_f; exact HB]|]. intros sc' HR. exists sc'. split; [apply R_pause with (d := 0%N); apply R_f in HR; exact HR|]. intros _. rewrite Hm. change (t_f s) with (t_f (pause w 0 s)). rewrite Em. reflexivity.
  Qed.
  Lemma sim_write bs : sim (t_write w bs) (fun _ => m_write (w_env w) bs).
  Proof.
    split.
    - intros s s' r E. unfold t_write in E. cbv zeta in E. destruct (m_write _ _ _) as [f x]. apply pair_equal_spec in E as [<- _]. cbn. lia.
    - intros s s' r E HJ HB. unfold t_write in E. cbv zeta in E. destruct (m_write (te w) bs (t_f (pause w (w_dur w (t_n s)) s))) as [f x] eqn:Em. apply pair_equal_spec in E as [<- <-].
      split; [apply J_f, J_pause; [apply N.le_refl|exact HJ|eapply bound_f; exact HB]|]. intros sc' HR. exists sc'. split; [apply R_pause with (d := w_dur w (t_n s)); apply R_f in HR; exact HR|]. intros _. rewrite unread_write.
      unfold te in Em. change (t_f s) with (t_f (pause w (w_dur w (t_n s)) s)). rewrite Em. reflexivity.
  Qed.
  Lemma sim_ext {A} (t t' : TM A) (m m' : (nat -> bool) -> M A) : (forall s, t s = t' s) -> (forall X s, m X s = m' X s) -> sim t m -> sim t' m'.
  Proof.
    intros Ht Hm [T H]. split; [intros s s' r E; rewrite <- Ht in E; apply (T _ _ _ E)|]. intros s s' r E HJ HB. rewrite <- Ht in E. destruct (H _ _ _ E HJ HB) as [J1 G]. split; [exact J1|].
    intros sc' HR. destruct (G sc' HR) as (sc & R0 & F). exists sc. split; [exact R0|]. intros X. rewrite <- Hm. apply F.
  Qed.
  Notation E' := (w_env w).

  Lemma sim_read b : sim (t_read w b) (fun _ => m_read E' b).
  Proof.
    unfold t_read, m_read. apply (sim_bind (tl w (interfere (te w))) (fun _ => interfere E')); [apply sim_tl, unread_interfere|]. intros _.
    apply (sim_bind (t_recv w (Z.to_nat (s_len b))) (fun _ => m_recv (Z.to_nat (s_len b)))); [apply H_recv|]. intros d. apply (sim_tl (fun s => (set_ph s (f_pool s) (h_write (f_heap s) b d), FOk (length d)))). intros s sc. reflexivity.
  Qed.
  Lemma sim_readBytes : sim (t_readBytes w) (fun _ => readBytesByPrefixLenMsg E').
  Proof.
    unfold t_readBytes, readBytesByPrefixLenMsg.
    apply (sim_bind (tl w (m_get (te w) PrefixLen)) (fun _ => m_get E' PrefixLen)); [apply sim_tl, unread_get|]. intros pre.
    apply (sim_bind (t_read w pre) (fun _ => m_read E' pre)); [apply sim_read|]. intros _.
    apply (sim_bind (tl w (m_show pre)) (fun _ => m_show pre)); [apply sim_tl, unread_show|]. intros bs.
    apply (sim_bind (tl w (lift (Uint32 bs))) (fun _ => lift (Uint32 bs))); [apply sim_tl, unread_lift|]. intros n.
    destruct (n =? 0)%N; [apply (sim_ret (@None slc))|].
    apply (sim_bind (tl w (m_put (te w) pre)) (fun _ => m_put E' pre)); [apply sim_tl, unread_put|]. intros _.
    destruct (_ <? _)%N; [apply (sim_tl (lift _)), unread_lift|].
    apply (sim_bind (tl w (m_get (te w) maxReadLength)) (fun _ => m_get E' maxReadLength)); [apply sim_tl, unread_get|]. intros buf.
    apply (sim_bind (t_read w buf) (fun _ => m_read E' buf)); [apply sim_read|]. intros k. apply sim_ret.
  Qed.
  Lemma sim_requests is : sim (t_requests w is) (fun _ => request_pieces E' is).
  Proof.
    induction is as [|i t IH]; cbn [t_requests request_pieces]; [apply (sim_ret tt)|].
    apply (sim_bind (tl w (m_ord (te w))) (fun _ => m_ord E')); [apply sim_tl, unread_ord|]. intros ord.
    eapply (sim_bind (tl w (lift _)) (fun _ => lift _)); [apply sim_tl, unread_lift|]. intros msg.
    apply (sim_bind (t_write w msg) (fun _ => m_write E' msg)); [apply sim_write|]. intros ok. destruct ok; [exact IH|]. apply (sim_tl (mpanic _)), unread_panic.
  Qed.
  Lemma sim_handle b : sim (t_handle w b) (fun _ => handle_msg E' b).
  Proof.
    unfold t_handle, handle_msg.
    apply (sim_bind (tl w (m_show b)) (fun _ => m_show b)); [apply sim_tl, unread_show|]. intros data.
    eapply (sim_bind (tl w (lift _)) (fun _ => lift _)); [apply sim_tl, unread_lift|]. intros ty. destruct (_ =? _)%N; [|apply (sim_ret tt)].
    unfold t_ext_msg, handleExtendedMsg. eapply (sim_bind (tl w (lift _)) (fun _ => lift _)); [apply sim_tl, unread_lift|]. intros id. destruct (_ =? 0)%N; [|destruct (_ =? 1)%N; [apply (sim_tl (handle_piece b data)), unread_piece|apply (sim_ret tt)]].
    unfold t_ext_handshake, handle_ext_handshake. eapply (sim_bind (tl w (lift _)) (fun _ => lift _)); [apply sim_tl, unread_lift|]. intros dict. destruct (negb _); [apply (sim_tl (mpanic _)), unread_panic|].
    eapply (sim_bind (tl w (lift _)) (fun _ => lift _)); [apply sim_tl, unread_lift|]. intros z.
    eapply (sim_bind (tl w (fun s => (set_meta s (f_meta s) z (f_req s), FOk tt))) (fun _ => fun s => (set_meta s (f_meta s) z (f_req s), FOk tt))); [apply sim_tl; intros s sc; reflexivity|]. intros _. cbn zeta.
    apply (sim_bind (tl w (m_make (te w) 24 (piece_count z))) (fun _ => m_make E' 24 (piece_count z))); [apply sim_tl, unread_make|]. intros _.
    apply (sim_bind (tl w (fun s => (set_meta s (repeat None (Z.to_nat (piece_count z))) (f_size s) (f_req s), FOk tt))) (fun _ => fun s => (set_meta s (repeat None (Z.to_nat (piece_count z))) (f_size s) (f_req s), FOk tt))); [apply sim_tl; intros s sc; reflexivity|]. intros _.
    apply (sim_bind (tl w (m_make (te w) 1 (piece_count z))) (fun _ => m_make E' 1 (piece_count z))); [apply sim_tl, unread_make|]. intros _.
    apply (sim_bind (tl w (fun s => (set_meta s (f_meta s) (f_size s) (repeat false (Z.to_nat (piece_count z))), FOk tt))) (fun _ => fun s => (set_meta s (f_meta s) (f_size s) (repeat false (Z.to_nat (piece_count z))), FOk tt))); [apply sim_tl; intros s sc; reflexivity|]. intros _.
    apply sim_requests.
  Qed.
  Lemma sim_with_put b (t : TM unit) m : sim t (fun _ => m) -> sim (t_with_put w b t) (fun _ => with_put E' b m).
  Proof.
    intros [T H]. split.
    - intros s s' r E. unfold t_with_put in E. destruct (t s) as [s1 r1] eqn:E1. pose proof (T _ _ _ E1) as Q.
      destruct (tl w (m_put (te w) b) s1) as [s2 r2] eqn:E2. pose proof (timely_tl _ _ _ _ E2). cbn [fst] in E.
      destruct r1; [destruct (0 <? s_cap b)%Z ..|]; apply pair_equal_spec in E as [<- _]; try exact Q; lia.
    - intros s s' r E HJ HB. unfold t_with_put in E. destruct (t s) as [s1 r1] eqn:E1.
      destruct (tl w (m_put (te w) b) s1) as [s2 r2] eqn:E2. pose proof (timely_tl _ _ _ _ E2) as Q2. cbn [fst] in E.
      assert (K : forall (Hlt : (0 <? s_cap b)%Z = true), (forall x, r1 <> FStop x) -> (s2, r1) = (s', r) -> J s' /\ forall sc', R s' sc' -> exists sc, R s sc /\ forall X : nat -> bool, with_put E' b m (put_script (t_f s) sc) = (put_script (t_f s') sc', r)).
      { intros Hlt Hr Ep. apply pair_equal_spec in Ep as [<- <-]. assert (B1 : bound s1) by (eapply bound_back; [apply Q2|exact HB]). destruct (H _ _ _ E1 HJ B1) as [J1 G1].
        destruct (proj2 (sim_tl (m_put E' b) (unread_put _ _)) _ _ _ E2 J1 HB) as [J2 G2]. split; [exact J2|]. intros sc' HR. destruct (G2 sc' HR) as (sc1 & R1 & F2). destruct (G1 sc1 R1) as (sc & R0 & F1). exists sc. split; [exact R0|].
        intros X. unfold with_put. rewrite (F1 X), (F2 X), Hlt. destruct r1; try reflexivity. exfalso. eapply Hr. reflexivity. }
      assert (K2 : (0 <? s_cap b)%Z = false \/ (exists x, r1 = FStop x) -> (s1, r1) = (s', r) -> J s' /\ forall sc', R s' sc' -> exists sc, R s sc /\ forall X : nat -> bool, with_put E' b m (put_script (t_f s) sc) = (put_script (t_f s') sc', r)).
      { intros Hc Ep. apply pair_equal_spec in Ep as [<- <-]. destruct (H _ _ _ E1 HJ HB) as [J1 G1]. split; [exact J1|]. intros sc' HR. destruct (G1 sc' HR) as (sc & R0 & F1). exists sc. split; [exact R0|].
        intros X. unfold with_put. rewrite (F1 X). destruct r1; try reflexivity; (destruct Hc as [->|[y Hc]]; [reflexivity|discriminate]). }
      destruct r1; [destruct (0 <? s_cap b)%Z eqn:Eb ..|].
      all: try (apply (K eq_refl); [discriminate|exact E]). all: try (apply K2; [left; reflexivity|exact E]). apply K2; [right; eauto|exact E].
  Qed.
  Lemma sim_handler : sim (t_handler w) (fun _ => readMetaDataHandler E').
  Proof.
    destruct sim_readBytes as [T H]. split.
    - intros s s' r E. unfold t_handler in E. destruct (t_readBytes w s) as [s1 r1] eqn:E1. pose proof (T _ _ _ E1) as Q.
      destruct r1 as [[b|]|x|x|x]; try (apply pair_equal_spec in E as [<- _]; exact Q). pose proof (proj1 (sim_with_put b _ _ (sim_handle b)) _ _ _ E). lia.
    - intros s s' r E HJ HB. unfold t_handler in E. destruct (t_readBytes w s) as [s1 r1] eqn:E1.
      destruct r1 as [[b|]|x|x|x].
      + pose proof (proj1 (sim_with_put b _ _ (sim_handle b)) _ _ _ E) as Q. assert (B1 : bound s1) by (eapply bound_back; [apply Q|exact HB]). destruct (H _ _ _ E1 HJ B1) as [J1 G1].
        destruct (proj2 (sim_with_put b _ _ (sim_handle b)) _ _ _ E J1 HB) as [J2 G2]. split; [exact J2|]. intros sc' HR. destruct (G2 sc' HR) as (sc1 & R1 & F2). destruct (G1 sc1 R1) as (sc & R0 & F1). exists sc. split; [exact R0|].
        intros X. unfold readMetaDataHandler. rewrite (F1 X). apply (F2 X).
      + apply pair_equal_spec in E as [<- <-]. destruct (H _ _ _ E1 HJ HB) as [J1 G1]. split; [exact J1|]. intros sc' HR. destruct (G1 sc' HR) as (sc & R0 & F1). exists sc. split; [exact R0|]. intros X. unfold readMetaDataHandler. rewrite (F1 X). reflexivity.
      + apply pair_equal_spec in E as [<- <-]. destruct (H _ _ _ E1 HJ HB) as [J1 G1]. split; [exact J1|]. intros sc' HR. destruct (G1 sc' HR) as (sc & R0 & F1). exists sc. split; [exact R0|]. intros X. unfold readMetaDataHandler. rewrite (F1 X). reflexivity.
      + apply pair_equal_spec in E as [<- <-]. destruct (H _ _ _ E1 HJ HB) as [J1 G1]. split; [exact J1|]. intros sc' HR. destruct (G1 sc' HR) as (sc & R0 & F1). exists sc. split; [exact R0|]. intros X. unfold readMetaDataHandler. rewrite (F1 X). reflexivity.
      + apply pair_equal_spec in E as [<- <-]. destruct (H _ _ _ E1 HJ HB) as [J1 G1]. split; [exact J1|]. intros sc' HR. destruct (G1 sc' HR) as (sc & R0 & F1). exists sc. split; [exact R0|]. intros X. unfold readMetaDataHandler. rewrite (F1 X). reflexivity.
  Qed.
  Lemma sim_handshake i j : sim (t_handshakePeer w i j) (fun _ => handshakePeer E' i j).
  Proof.
    unfold t_handshakePeer, handshakePeer. eapply (sim_bind (tl w (lift _)) (fun _ => lift _)); [apply sim_tl, unread_lift|]. intros msg.
    apply (sim_bind (t_write w msg) (fun _ => m_write E' msg)); [apply sim_write|]. intros ok. destruct (negb ok); [apply (sim_tl (mpanic _)), unread_panic|].
    destruct (H_recv handShakeLen) as [T H].
    assert (S : forall d, sim (let! h := tl w (lift (parseHandShakeMsg (d ++ repeat (byte_of 0) (handShakeLen - length d)))) in
           if negb (EqualFold (e_fold (te w)) supportProtocolName (hs_protocol h)) then tl w (mpanic (B "get handshake not support bittoroute protocol")) else
           let! ext := tl w (lift (SupportExtended h)) in
           if negb ext then tl w (mpanic (B "get handshake not support extended protocol")) else tret tt)
      (fun _ => let* h := lift (parseHandShakeMsg (d ++ repeat (byte_of 0) (handShakeLen - length d))) in
           if negb (EqualFold (e_fold E') supportProtocolName (hs_protocol h)) then mpanic (B "get handshake not support bittoroute protocol") else
           let* ext := lift (SupportExtended h) in
           if negb ext then mpanic (B "get handshake not support extended protocol") else ret tt)).
    { intros d. eapply (sim_bind (tl w (lift _)) (fun _ => lift _)); [apply sim_tl, unread_lift|]. intros h. unfold te. destruct (negb _); [apply (sim_tl (mpanic _)), unread_panic|].
      eapply (sim_bind (tl w (lift _)) (fun _ => lift _)); [apply sim_tl, unread_lift|]. intros ext. destruct (negb ext); [apply (sim_tl (mpanic _)), unread_panic|apply (sim_ret tt)]. }
    split.
    - intros s s' r E. destruct (t_recv w handShakeLen s) as [s1 r1] eqn:E1. pose proof (T _ _ _ E1) as Q. destruct r1 as [d|x|x|x]; try (apply pair_equal_spec in E as [<- _]; exact Q).
      pose proof (proj1 (S d) _ _ _ E). lia.
    - intros s s' r E HJ HB. destruct (t_recv w handShakeLen s) as [s1 r1] eqn:E1. destruct r1 as [d|x|x|x].
      + pose proof (proj1 (S d) _ _ _ E) as Q. assert (B1 : bound s1) by (eapply bound_back; [apply Q|exact HB]). destruct (H _ _ _ E1 HJ B1) as [J1 G1]. destruct (proj2 (S d) _ _ _ E J1 HB) as [J2 G2]. split; [exact J2|].
        intros sc' HR. destruct (G2 sc' HR) as (sc1 & R1 & F2). destruct (G1 sc1 R1) as (sc & R0 & F1). exists sc. split; [exact R0|]. intros X. cbv beta. rewrite (F1 X). apply (F2 X).
      + apply pair_equal_spec in E as [<- <-]. destruct (H _ _ _ E1 HJ HB) as [J1 G1]. split; [exact J1|]. intros sc' HR. destruct (G1 sc' HR) as (sc & R0 & F1). exists sc. split; [exact R0|]. intros X. cbv beta. rewrite (F1 X). reflexivity.
      + apply pair_equal_spec in E as [<- <-]. destruct (H _ _ _ E1 HJ HB) as [J1 G1]. split; [exact J1|]. intros sc' HR. destruct (G1 sc' HR) as (sc & R0 & F1). exists sc. split; [exact R0|]. intros X. cbv beta. rewrite (F1 X). reflexivity.
      + apply pair_equal_spec in E as [<- <-]. destruct (H _ _ _ E1 HJ HB) as [J1 G1]. split; [exact J1|]. intros sc' HR. destruct (G1 sc' HR) as (sc & R0 & F1). exists sc. split; [exact R0|]. intros X. cbv beta. rewrite (F1 X). reflexivity.
  Qed.
  Lemma sim_initial : sim (t_initial w) (fun _ => initialMessages E').
  Proof.
    unfold t_initial, initialMessages. apply (sim_bind (tl w (m_ord (te w))) (fun _ => m_ord E')); [apply sim_tl, unread_ord|]. intros ord.
    eapply (sim_bind (tl w (lift _)) (fun _ => lift _)); [apply sim_tl, unread_lift|]. intros msg.
    apply (sim_bind (t_write w msg) (fun _ => m_write E' msg)); [apply sim_write|]. intros ok. destruct ok; [apply (sim_ret tt)|apply (sim_tl (mpanic _)), unread_panic].
  Qed.

  Hypothesis R_some : forall s, exists sc, R s sc.
  Lemma handler_strict s s1 r : t_handler w s = (s1, r) -> J s -> bound s1 -> f_tick (t_f s) < f_tick (t_f s1).
  Proof.
    intros E HJ HB. destruct (proj2 sim_handler _ _ _ E HJ HB) as [_ G]. destruct (R_some s1) as [sc' HR]. destruct (G sc' HR) as (sc & _ & F). specialize (F (fun _ => false)). apply ticks_handler in F. exact F.
  Qed.
  Lemma handler_timer X s : readMetaDataHandler (with_timer E' X) s = readMetaDataHandler E' s.
  Proof. reflexivity. Qed.

  Lemma timely_loop f : timely (t_loop w f).
  Proof.
    induction f as [|f IH]; intros s s' r E; cbn [t_loop] in E; [apply pair_equal_spec in E as [<- _]; lia|]. cbv zeta in E.
    destruct (_ && _); [|apply pair_equal_spec in E as [<- _]; cbn; lia]. unfold tbd in E. destruct (t_handler w (pause w 0 s)) as [s1 r1] eqn:E1. pose proof (proj1 sim_handler _ _ _ E1) as Q. cbn [pause t_own t_now t_n] in Q.
    destruct r1 as [u|x|x|x]; try (apply pair_equal_spec in E as [<- _]; lia). apply IH in E. lia.
  Qed.
  Lemma sim_loop f : forall s s' r, t_loop w f s = (s', r) -> J s -> bound s' ->
    J s' /\ exists X0, ((forall s, J s -> bound s -> IsReadLoopExpire s = false) -> forall n, X0 n = false) /\
      forall sc', R s' sc' -> exists sc, R s sc /\ forall X, (forall n, f_tick (t_f s) <= n -> X n = X0 n) ->
        readMetaDataLoop (with_timer E' X) f (put_script (t_f s) sc) = (put_script (t_f s') sc', r).
  Proof.
    induction f as [|f IH]; intros s s' r E HJ HB; cbn [t_loop] in E.
    - apply pair_equal_spec in E as [<- <-]. split; [exact HJ|]. exists (fun _ => false). split; [auto|]. intros sc' HR. exists sc'. split; [exact HR|]. reflexivity.
    - cbv zeta in E. set (sp := pause w 0 s) in *.
      assert (Hup : (t_own sp <= t_own s')%N).
      { destruct (_ && _); [|apply pair_equal_spec in E as [<- _]; apply N.le_refl]. unfold tbd in E. destruct (t_handler w sp) as [s1 r1] eqn:E1. pose proof (proj1 sim_handler _ _ _ E1) as Q.
        destruct r1 as [u|x|x|x]; try (apply pair_equal_spec in E as [<- _]; lia). apply timely_loop in E. lia. }
      assert (Bp : bound sp) by (eapply bound_back; [exact Hup|exact HB]).
      assert (Jp : J sp) by (apply J_pause; [apply N.le_0_l|assumption|assumption]). change (CompledMetaData (t_f sp)) with (CompledMetaData (t_f s)) in E.
      assert (Hex : (forall s, J s -> bound s -> IsReadLoopExpire s = false) -> IsReadLoopExpire sp = false) by (intros K; apply K; assumption).
      set (x0 := IsReadLoopExpire sp) in *. destruct (CompledMetaData (t_f s)) eqn:Ec; cbn [negb andb] in E.
      { apply pair_equal_spec in E as [<- <-]. split; [exact Jp|]. exists (fun _ => false). split; [auto|]. intros sc' HR. exists sc'. split; [eapply R_pause; exact HR|]. intros X _. cbn [readMetaDataLoop].
        change (CompledMetaData (put_script (t_f s) sc')) with (CompledMetaData (t_f s)). rewrite Ec. reflexivity. }
      destruct x0 eqn:Ex; cbn [negb] in E.
      { apply pair_equal_spec in E as [<- <-]. split; [exact Jp|]. exists (fun _ => true). split; [intros K; discriminate (Hex K)|]. intros sc' HR. exists sc'. split; [eapply R_pause; exact HR|]. intros X HX. cbn [readMetaDataLoop].
        change (CompledMetaData (put_script (t_f s) sc')) with (CompledMetaData (t_f s)). rewrite Ec. cbn [with_timer e_exp put_script f_tick]. rewrite HX by lia. reflexivity. }
      unfold tbd in E. destruct (t_handler w sp) as [s1 r1] eqn:E1.
      assert (Step : forall sc' sc, (forall X : nat -> bool, readMetaDataHandler E' (put_script (t_f sp) sc) = (put_script (t_f s1) sc', r1)) -> forall X : nat -> bool, X (f_tick (t_f s)) = false ->
        readMetaDataLoop (with_timer E' X) (S f) (put_script (t_f s) sc) = match r1 with FOk _ => readMetaDataLoop (with_timer E' X) f (put_script (t_f s1) sc') | FErr x => (put_script (t_f s1) sc', FErr x) | FPanic x => (put_script (t_f s1) sc', FPanic x) | FStop x => (put_script (t_f s1) sc', FStop x) end).
      { intros sc' sc F X HX. cbn [readMetaDataLoop]. change (CompledMetaData (put_script (t_f s) sc)) with (CompledMetaData (t_f s)). rewrite Ec. cbn [with_timer e_exp put_script f_tick]. rewrite HX. cbn [negb andb]. unfold mbind. rewrite handler_timer.
        change (put_script (t_f sp) sc) with (put_script (t_f s) sc) in F. match goal with |- context [readMetaDataHandler E' ?q] => change q with (put_script (t_f s) sc) end. rewrite (F X). destruct r1; reflexivity. }
      destruct r1 as [u|x|x|x].
      + pose proof (timely_loop _ _ _ _ E) as Q. assert (B1 : bound s1) by (eapply bound_back; [apply Q|exact HB]). destruct (proj2 sim_handler _ _ _ E1 Jp B1) as [J1 G1]. destruct (IH _ _ _ E J1 HB) as [J2 (X0 & HX0 & G2)]. split; [exact J2|].
        exists (fun n => if n <=? f_tick (t_f s) then false else X0 n). split; [intros K n; destruct (_ <=? _); [reflexivity|apply HX0, K]|].
        pose proof (handler_strict _ _ _ E1 Jp B1) as Hs. change (f_tick (t_f sp)) with (f_tick (t_f s)) in Hs.
        intros sc' HR. destruct (G2 sc' HR) as (sc1 & R1 & F2). destruct (G1 sc1 R1) as (sc & R0 & F1). exists sc. split; [eapply R_pause; exact R0|]. intros X HX. rewrite (Step sc1 sc F1) by (rewrite HX by lia; rewrite Nat.leb_refl; reflexivity).
        apply F2. intros n Hn. rewrite HX by lia. destruct (Nat.leb_spec n (f_tick (t_f s))); [lia|reflexivity].
      + apply pair_equal_spec in E as [<- <-]. destruct (proj2 sim_handler _ _ _ E1 Jp HB) as [J1 G1]. split; [exact J1|]. exists (fun _ => false). split; [auto|]. intros sc' HR. destruct (G1 sc' HR) as (sc & R0 & F1). exists sc. split; [eapply R_pause; exact R0|].
        intros X HX. apply (Step sc' sc F1). apply HX. lia.
      + apply pair_equal_spec in E as [<- <-]. destruct (proj2 sim_handler _ _ _ E1 Jp HB) as [J1 G1]. split; [exact J1|]. exists (fun _ => false). split; [auto|]. intros sc' HR. destruct (G1 sc' HR) as (sc & R0 & F1). exists sc. split; [eapply R_pause; exact R0|].
        intros X HX. apply (Step sc' sc F1). apply HX. lia.
      + apply pair_equal_spec in E as [<- <-]. destruct (proj2 sim_handler _ _ _ E1 Jp HB) as [J1 G1]. split; [exact J1|]. exists (fun _ => false). split; [auto|]. intros sc' HR. destruct (G1 sc' HR) as (sc & R0 & F1). exists sc. split; [eapply R_pause; exact R0|].
        intros X HX. apply (Step sc' sc F1). apply HX. lia.
  Qed.

  Hypothesis R_fuel : forall s sc, R s sc -> mu sc <= mu (map snd (t_in s)).

  (** The end of the call, after the loop. *)
  Definition t_finish (j : bytes) : TM bytes := fun s =>
    if negb (CompledMetaData (t_f s)) then (s, FErr (ENew (B "cannot completed download metadata"))) else
    (let! _ := tl w (m_make (te w) 1 (f_size (t_f s))) in
     let! result := tl w (merge (te w) (seq 0 (length (f_req (t_f s)))) []) in
     if negb (beq j (GenerateInfoHash result)) then tl w (lift (Err (ENew (B "check sum err")))) else tret result) s.
  Definition m_finish (j : bytes) : M bytes := fun s =>
    if negb (CompledMetaData s) then (s, FErr (ENew (B "cannot completed download metadata"))) else
    (let* _ := m_make E' 1 (f_size s) in
     let* result := merge E' (seq 0 (length (f_req s))) [] in
     if negb (beq j (GenerateInfoHash result)) then lift (Err (ENew (B "check sum err"))) else ret result) s.
  Lemma sim_finish j : sim (t_finish j) (fun _ => m_finish j).
  Proof.
    assert (S : forall z n, sim (let! _ := tl w (m_make (te w) 1 z) in let! result := tl w (merge (te w) (seq 0 n) []) in
      if negb (beq j (GenerateInfoHash result)) then tl w (lift (Err (ENew (B "check sum err")))) else tret result)
      (fun _ => let* _ := m_make E' 1 z in let* result := merge E' (seq 0 n) [] in if negb (beq j (GenerateInfoHash result)) then lift (Err (ENew (B "check sum err"))) else ret result)).
    { intros z n. apply (sim_bind (tl w (m_make (te w) 1 z)) (fun _ => m_make E' 1 z)); [apply sim_tl, unread_make|]. intros _.
      apply (sim_bind (tl w (merge (te w) (seq 0 n) [])) (fun _ => merge E' (seq 0 n) [])); [apply sim_tl, unread_merge|]. intros x. destruct (negb _); [apply (sim_tl (lift _)), unread_lift|apply sim_ret]. }
    split.
    - intros s s' r E. unfold t_finish in E. destruct (negb _); [apply pair_equal_spec in E as [<- _]; lia|]. exact (proj1 (S _ _) _ _ _ E).
    - intros s s' r E HJ HB. unfold t_finish in E. destruct (negb _) eqn:Ec.
      + apply pair_equal_spec in E as [<- <-]. split; [exact HJ|]. intros sc' HR. exists sc'. split; [exact HR|]. intros _. unfold m_finish. change (CompledMetaData (put_script (t_f s) sc')) with (CompledMetaData (t_f s)). rewrite Ec. reflexivity.
      + destruct (proj2 (S _ _) _ _ _ E HJ HB) as [J1 G]. split; [exact J1|]. intros sc' HR. destruct (G sc' HR) as (sc & R0 & F). exists sc. split; [exact R0|]. intros X. unfold m_finish. change (CompledMetaData (put_script (t_f s) sc)) with (CompledMetaData (t_f s)). rewrite Ec. apply (F X).
  Qed.

  Lemma loop_more e : forall f s s' r, readMetaDataLoop e f s = (s', r) -> r <> FStop OutOfFuel -> forall g, f <= g -> readMetaDataLoop e g s = (s', r).
  Proof.
    induction f as [|f IH]; intros s s' r E Hr g Hg; cbn [readMetaDataLoop] in E; [apply pair_equal_spec in E as [_ <-]; congruence|]. destruct g as [|g]; [lia|]. cbn [readMetaDataLoop].
    destruct (_ && _); [|exact E]. unfold mbind in *. destruct (readMetaDataHandler e s) as [s1 r1]. destruct r1 as [u|x|x|x]; try exact E. apply IH; [exact E|exact Hr|lia].
  Qed.
  Lemma loop_enough e s g : mu (f_script s) < g -> readMetaDataLoop e g s = readMetaDataLoop e (loop_fuel (f_script s)) s.
  Proof.
    intros Hg. destruct (readMetaDataLoop e (loop_fuel (f_script s)) s) as [s' r] eqn:E. eapply loop_more; [exact E| |unfold loop_fuel; change (fold_right _ 0 (f_script s)) with (mu (f_script s)); lia].
    intros ->. destruct (ok_loop e (fun _ => True) (fun _ => I) (fun _ _ _ => I) _ _ _ _ (le_n _) E) as (_ & _ & []).
  Qed.

  Lemma sim_body i j : timely (t_body w i j) /\ forall s s' r, t_body w i j s = (s', r) -> J s -> bound s' ->
    J s' /\ exists X, ((forall s, J s -> bound s -> IsReadLoopExpire s = false) -> forall n, X n = false) /\
      forall sc', R s' sc' -> exists sc, R s sc /\ fetch_body (with_timer E' X) i j (put_script (t_f s) sc) = (put_script (t_f s') sc', r).
  Proof.
    change (t_body w i j) with (let! _ := t_handshakePeer w i j in let! _ := t_initial w in let! _ := (fun s => t_loop w (loop_fuel (map snd (t_in s))) s) in t_finish j).
    set (rest := let! _ := (fun s => t_loop w (loop_fuel (map snd (t_in s))) s) in t_finish j).
    assert (Tr : timely rest).
    { intros s s' r E. unfold rest, tbd in E. destruct (t_loop w (loop_fuel (map snd (t_in s))) s) as [s1 r1] eqn:E1. pose proof (timely_loop _ _ _ _ E1) as Q.
      destruct r1 as [a|x|x|x]; try (apply pair_equal_spec in E as [<- _]; exact Q). pose proof (proj1 (sim_finish j) _ _ _ E). lia. }
    assert (S : forall s s' r, rest s = (s', r) -> J s -> bound s' -> J s' /\ exists X, ((forall s, J s -> bound s -> IsReadLoopExpire s = false) -> forall n, X n = false) /\
      forall sc', R s' sc' -> exists sc, R s sc /\ (let* _ := (fun s => readMetaDataLoop (with_timer E' X) (loop_fuel (f_script s)) s) in m_finish j) (put_script (t_f s) sc) = (put_script (t_f s') sc', r)).
    { intros s s' r E HJ HB. unfold rest, tbd in E. destruct (t_loop w (loop_fuel (map snd (t_in s))) s) as [s1 r1] eqn:E1.
      assert (L : forall X sc, R s sc -> readMetaDataLoop (with_timer E' X) (loop_fuel (map snd (t_in s))) (put_script (t_f s) sc) = readMetaDataLoop (with_timer E' X) (loop_fuel sc) (put_script (t_f s) sc)).
      { intros X sc HR. apply (loop_enough (with_timer E' X) (put_script (t_f s) sc)). cbn [put_script f_script]. apply R_fuel in HR. unfold loop_fuel. change (fold_right _ 0 (map snd (t_in s))) with (mu (map snd (t_in s))). lia. }
      destruct r1 as [a|x|x|x].
      - pose proof (proj1 (sim_finish j) _ _ _ E) as Q. assert (B1 : bound s1) by (eapply bound_back; [apply Q|exact HB]). destruct (sim_loop _ _ _ _ E1 HJ B1) as [J1 (X0 & HX0 & G1)]. destruct (proj2 (sim_finish j) _ _ _ E J1 HB) as [J2 G2]. split; [exact J2|].
        exists X0. split; [exact HX0|]. intros sc' HR. destruct (G2 sc' HR) as (sc1 & R1 & F2). destruct (G1 sc1 R1) as (sc & R0 & F1). exists sc. split; [exact R0|]. unfold mbind. cbn [put_script f_script]. fold (put_script (t_f s) sc). rewrite <- (L X0 sc R0), (F1 X0 ltac:(auto)). apply (F2 X0).
      - apply pair_equal_spec in E as [<- <-]. destruct (sim_loop _ _ _ _ E1 HJ HB) as [J1 (X0 & HX0 & G1)]. split; [exact J1|]. exists X0. split; [exact HX0|]. intros sc' HR. destruct (G1 sc' HR) as (sc & R0 & F1). exists sc. split; [exact R0|]. unfold mbind. cbn [put_script f_script]. fold (put_script (t_f s) sc). rewrite <- (L X0 sc R0), (F1 X0 ltac:(auto)). reflexivity.
      - apply pair_equal_spec in E as [<- <-]. destruct (sim_loop _ _ _ _ E1 HJ HB) as [J1 (X0 & HX0 & G1)]. split; [exact J1|]. exists X0. split; [exact HX0|]. intros sc' HR. destruct (G1 sc' HR) as (sc & R0 & F1). exists sc. split; [exact R0|]. unfold mbind. cbn [put_script f_script]. fold (put_script (t_f s) sc). rewrite <- (L X0 sc R0), (F1 X0 ltac:(auto)). reflexivity.
      - apply pair_equal_spec in E as [<- <-]. destruct (sim_loop _ _ _ _ E1 HJ HB) as [J1 (X0 & HX0 & G1)]. split; [exact J1|]. exists X0. split; [exact HX0|]. intros sc' HR. destruct (G1 sc' HR) as (sc & R0 & F1). exists sc. split; [exact R0|]. unfold mbind. cbn [put_script f_script]. fold (put_script (t_f s) sc). rewrite <- (L X0 sc R0), (F1 X0 ltac:(auto)). reflexivity. }
    (* one sim step in front keeps the statement *)
    assert (Front : forall (t : TM unit) (m : M unit) (k : TM bytes) (g : (nat -> bool) -> M bytes), sim t (fun _ => m) -> timely k ->
      (forall s s' r, k s = (s', r) -> J s -> bound s' -> J s' /\ exists X, ((forall s, J s -> bound s -> IsReadLoopExpire s = false) -> forall n, X n = false) /\ forall sc', R s' sc' -> exists sc, R s sc /\ g X (put_script (t_f s) sc) = (put_script (t_f s') sc', r)) ->
      timely (let! _ := t in k) /\
      (forall s s' r, (let! _ := t in k) s = (s', r) -> J s -> bound s' -> J s' /\ exists X, ((forall s, J s -> bound s -> IsReadLoopExpire s = false) -> forall n, X n = false) /\ forall sc', R s' sc' -> exists sc, R s sc /\ (let* _ := m in g X) (put_script (t_f s) sc) = (put_script (t_f s') sc', r))).
    { clear - bound_back. intros t m k g [T H] Tk Hk. split.
      - intros s s' r E. unfold tbd in E. destruct (t s) as [s1 r1] eqn:E1. pose proof (T _ _ _ E1) as Q. destruct r1 as [a|x|x|x]; try (apply pair_equal_spec in E as [<- _]; exact Q). pose proof (Tk _ _ _ E). lia.
      - intros s s' r E HJ HB. unfold tbd in E. destruct (t s) as [s1 r1] eqn:E1. destruct r1 as [a|x|x|x].
        + pose proof (Tk _ _ _ E) as Q. assert (B1 : bound s1) by (eapply bound_back; [apply Q|exact HB]). destruct (H _ _ _ E1 HJ B1) as [J1 G1]. destruct (Hk _ _ _ E J1 HB) as [J2 (X & HX & G2)]. split; [exact J2|]. exists X. split; [exact HX|].
          intros sc' HR. destruct (G2 sc' HR) as (sc1 & R1 & F2). destruct (G1 sc1 R1) as (sc & R0 & F1). exists sc. split; [exact R0|]. unfold mbind. rewrite (F1 X). exact F2.
        + apply pair_equal_spec in E as [<- <-]. destruct (H _ _ _ E1 HJ HB) as [J1 G1]. split; [exact J1|]. exists (fun _ => false). split; [auto|]. intros sc' HR. destruct (G1 sc' HR) as (sc & R0 & F1). exists sc. split; [exact R0|]. unfold mbind. rewrite (F1 (fun _ => false)). reflexivity.
        + apply pair_equal_spec in E as [<- <-]. destruct (H _ _ _ E1 HJ HB) as [J1 G1]. split; [exact J1|]. exists (fun _ => false). split; [auto|]. intros sc' HR. destruct (G1 sc' HR) as (sc & R0 & F1). exists sc. split; [exact R0|]. unfold mbind. rewrite (F1 (fun _ => false)). reflexivity.
        + apply pair_equal_spec in E as [<- <-]. destruct (H _ _ _ E1 HJ HB) as [J1 G1]. split; [exact J1|]. exists (fun _ => false). split; [auto|]. intros sc' HR. destruct (G1 sc' HR) as (sc & R0 & F1). exists sc. split; [exact R0|]. unfold mbind. rewrite (F1 (fun _ => false)). reflexivity. }
    destruct (Front (t_initial w) (initialMessages E') rest (fun X => let* _ := (fun s => readMetaDataLoop (with_timer E' X) (loop_fuel (f_script s)) s) in m_finish j) sim_initial Tr S) as [T1 S1].
    exact (Front (t_handshakePeer w i j) (handshakePeer E' i j) _ (fun X => let* _ := initialMessages E' in let* _ := (fun s => readMetaDataLoop (with_timer E' X) (loop_fuel (f_script s)) s) in m_finish j) (sim_handshake i j) T1 S1).
  Qed.

  (** The whole call. *)
  Lemma sim_fetch p h script i j s r : t_fetch w p h script i j = (s, r) ->
    let s0 := {| t_f := NewPeerConn p h []; t_now := 0; t_in := script; t_n := 0; t_own := 0 |} in
    J s0 -> bound s -> J s /\ (t_now s <= read_deadline + t_own s)%N /\
    exists X, ((forall s, J s -> bound s -> IsReadLoopExpire s = false) -> forall n, X n = false) /\
      exists sc s', R s0 sc /\ FetchMetaData (with_timer E' X) p h (Some sc) i j = (s', r) /\ f_trace s' = f_trace (t_f s).
  Proof.
    intros E s0 HJ HB. unfold t_fetch in E. fold s0 in E. destruct (t_body w i j s0) as [s1 r1] eqn:E1.
    assert (Es : t_own s = t_own s1 /\ t_now s = t_now s1) by (destruct r1; apply pair_equal_spec in E as [<- _]; split; reflexivity). destruct Es as [Eo En].
    destruct sim_body with (i := i) (j := j) as [T H]. pose proof (T _ _ _ E1) as Q. cbn [s0 t_own t_now t_n] in Q. split; [|split; [unfold read_deadline in *; lia|]].
    { assert (B1 : bound s1) by (eapply bound_back; [|exact HB]; rewrite Eo; apply N.le_refl). destruct (H _ _ _ E1 HJ B1) as [J1 _]. destruct r1; apply pair_equal_spec in E as [<- _]; try (apply J_f; exact J1); exact J1. }
    assert (B1 : bound s1) by (eapply bound_back; [|exact HB]; rewrite Eo; apply N.le_refl). destruct (H _ _ _ E1 HJ B1) as [_ (X & HX & G)]. exists X. split; [exact HX|].
    destruct (R_some s1) as [sc' HR]. destruct (G sc' HR) as (sc & R0 & F). exists sc. unfold FetchMetaData. change (NewPeerConn p h sc) with (put_script (t_f s0) sc). rewrite F.
    destruct r1 as [a|x|x|x]; apply pair_equal_spec in E as [<- <-]; eexists; (split; [exact R0|]); (split; [reflexivity|]); reflexivity.
  Qed.
End Sim.
