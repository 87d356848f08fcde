(** CrowdSim.v -- the trees of Crowd.v, run against an environment, are the downloads of Fetch.v. *)
From Verif Require Import Base GoLib Bencode Types Krpc BytesPool Sha1 PeerWire Fetch Crowd.
Local Open Scope list_scope.

Section Run.
  Variable e : fenv.
  (** The n-th access comes after what [e_intf e n] did. *)
  Fixpoint run {A} (t : tree A) (n : nat) (p : pool) (h : heap) : fstate * fres A :=
    match t with
    | TDone s r => (set_ph s p h, r)
    | TGet big k => let (p, h) := e_intf e n (p, h) in
        match GetBySize p h (if big then 32768 else 4) with Ok (p', h', b) => run (k b) (S n) p' h' | _ => run (k {| s_arr := 0; s_off := 0; s_len := 0; s_cap := 0 |}) (S n) p h end
    | TPut b k => let (p, h) := e_intf e n (p, h) in run k (S n) (Put p b) h
    | TRead b d k => let (p, h) := e_intf e n (p, h) in run k (S n) p (h_write h b d)
    | TWait k => let (p, h) := e_intf e n (p, h) in run k (S n) p h
    | TShow b k => run (k (h_read h b)) n p h
    | TLook b k => let (p, h) := e_intf e n (p, h) in run (k (h_read h b)) (S n) p h
    end.

  (** Every end of the call is reached with the right number of accesses. *)
  Fixpoint counts {A} (n : nat) (t : tree A) : Prop :=
    match t with
    | TDone s _ => f_tick s = n
    | TGet _ k => forall b, counts (S n) (k b)
    | TPut _ k | TRead _ _ k | TWait k => counts (S n) k
    | TShow _ k => forall x, counts n (k x)
    | TLook _ k => forall x, counts (S n) (k x)
    end.

  Definition sim {A} (t : T A) (m : M A) : Prop :=
    forall s, counts (f_tick s) (t s) /\ forall p h, run (t s) (f_tick s) p h = m (set_ph s p h).

  Lemma set_ph_twice s p h p' h' : set_ph (set_ph s p h) p' h' = set_ph s p' h'.
  Proof. reflexivity. Qed.
  Lemma set_ph_id s : set_ph s (f_pool s) (f_heap s) = s.
  Proof. destruct s. reflexivity. Qed.

  Lemma counts_bind {A C} (t : tree A) (k : fstate -> fres A -> tree C) n :
    counts n t -> (forall s r, counts (f_tick s) (k s r)) -> counts n (tbind t k).
  Proof.
    intros H Hk. revert n H. induction t as [s r|big f IH|b f IH|b d f IH|f IH|b f IH|b f IH]; intros n H; cbn [tbind counts] in *; auto.
    rewrite <- H. apply Hk.
  Qed.

  Lemma run_bind {A C} (t : tree A) (k : fstate -> fres A -> tree C) (m : fstate -> fres A -> fstate * fres C) n p h :
    counts n t -> (forall s r p h, run (k s r) (f_tick s) p h = m (set_ph s p h) r) ->
    run (tbind t k) n p h = let (s, r) := run t n p h in m s r.
  Proof.
    intros H Hk. revert n p h H. induction t as [s r|big f IH|b f IH|b d f IH|f IH|b f IH|b f IH]; intros n p h H; cbn [tbind counts run] in *.
    - rewrite <- H. apply Hk.
    - destruct (e_intf e n (p, h)) as [p1 h1]. destruct (GetBySize p1 h1 _) as [[[p2 h2] b]| |]; apply IH, H.
    - destruct (e_intf e n (p, h)) as [p1 h1]. apply IH, H.
    - destruct (e_intf e n (p, h)) as [p1 h1]. apply IH, H.
    - destruct (e_intf e n (p, h)) as [p1 h1]. apply IH, H.
    - apply IH, H.
    - destruct (e_intf e n (p, h)) as [p1 h1]. apply IH, H.
  Qed.

  Lemma sim_bind {A C} (t : T A) (m : M A) (k : fstate -> fres A -> tree C) (j : fstate -> fres A -> fstate * fres C) :
    sim t m -> (forall r, sim (fun s => k s r) (fun s => j s r)) -> sim (fun s => tbind (t s) k) (fun s => let (s', r) := m s in j s' r).
  Proof.
    intros Ht Hk s. destruct (Ht s) as [H1 H2]. split; [apply counts_bind; [exact H1|]; intros s' r; apply (Hk r s')|].
    intros p h. rewrite (run_bind _ _ j); [rewrite H2; reflexivity|exact H1|]. intros s' r p' h'. apply (proj2 (Hk r s')).
  Qed.
  Lemma sim_ext {A} (t : T A) (m m' : M A) : (forall s, m s = m' s) -> sim t m -> sim t m'.
  Proof. intros E H s. destruct (H s) as [H1 H2]. split; [exact H1|]. intros p h. rewrite H2. apply E. Qed.
  Lemma sim_done {A} (r : fres A) : sim (fun s => TDone s r) (fun s => (s, r)).
  Proof. intros s. split; reflexivity. Qed.
  Lemma sim_seq {A C} (t : T A) (m : M A) (k : A -> T C) (j : A -> M C) : sim t m -> (forall a, sim (k a) (j a)) -> sim (tseq t k) (mbind m j).
  Proof.
    intros Ht Hk. unfold tseq.
    eapply (sim_ext _ (fun s => let (s', r) := m s in match r with FOk a => j a s' | FErr x => (s', FErr x) | FPanic x => (s', FPanic x) | FStop x => (s', FStop x) end)).
    { intros s. unfold mbind. destruct (m s) as [s' [a|x|x|x]]; reflexivity. }
    apply (sim_bind t m _ (fun s' r => match r with FOk a => j a s' | FErr x => (s', FErr x) | FPanic x => (s', FPanic x) | FStop x => (s', FStop x) end)); [exact Ht|].
    intros [a|x|x|x]; [apply Hk|apply sim_done..].
  Qed.

  (** Parts that do not touch shared memory. *)
  Definition blind {A} (m : M A) : Prop := forall s, f_tick (fst (m s)) = f_tick s /\ forall p h, m (set_ph s p h) = (set_ph (fst (m s)) p h, snd (m s)).
  Lemma sim_local {A} (m : M A) : blind m -> sim (local m) m.
  Proof.
    intros Hb s. destruct (Hb s) as [H1 H2]. unfold local. destruct (m s) as [s' r] eqn:E. cbn [fst snd] in *. split; [exact H1|]. intros p h. cbn [run]. symmetry. apply H2.
  Qed.
  Lemma blind_ret {A} (a : A) : blind (ret a). Proof. intros s. split; reflexivity. Qed.
  Lemma blind_lift {A} (r : res A) : blind (lift r). Proof. intros s. split; reflexivity. Qed.
  Lemma blind_panic {A} x : blind (@mpanic A x). Proof. intros s. split; reflexivity. Qed.
  Lemma blind_bind {A C} (m : M A) (k : A -> M C) : blind m -> (forall a, blind (k a)) -> blind (mbind m k).
  Proof.
    intros Hm Hk s. destruct (Hm s) as [M1 M2]. unfold mbind. destruct (m s) as [s' r] eqn:E. cbn [fst snd] in *. split.
    - destruct r as [a|x|x|x]; cbn [fst]; [|exact M1..]. destruct (Hk a s') as [K1 _]. congruence.
    - intros p h. rewrite M2. destruct r as [a|x|x|x]; cbn [fst snd]; [|reflexivity..]. apply (proj2 (Hk a s')).
  Qed.
  Lemma blind_recv n : blind (m_recv n).
  Proof. intros s. unfold m_recv. cbn [set_ph f_script]. destruct (n =? 0); [split; reflexivity|]. destruct (f_script s) as [|seg rest]; split; reflexivity. Qed.
  Lemma blind_write bs : blind (m_write e bs).
  Proof. intros s. unfold m_write. cbn [set_ph f_trace f_script]. destruct (e_write e (length (f_trace s))); split; reflexivity. Qed.
  Lemma blind_ord : blind (m_ord e). Proof. intros s. split; reflexivity. Qed.
  Lemma blind_make a n : blind (m_make e a n).
  Proof. intros s. unfold m_make. destruct (_ || _); [split; reflexivity|]. destruct (e_mem e (a * n)); split; reflexivity. Qed.

  Lemma sim_get big : sim (t_get big) (m_get e (if big then 32768 else 4)).
  Proof.
    intros s. split; [intros b; reflexivity|]. intros p h. cbn [t_get run]. unfold m_get, mbind, interfere. cbn [set_ph f_tick f_pool f_heap].
    destruct (e_intf e (f_tick s) (p, h)) as [p1 h1]. cbn [f_pool f_heap]. unfold GetBySize.
    destruct (chan_of (p_chans p1) (if big then 32768 else 4)) as [|b r]; [|reflexivity].
    destruct big; cbn [Z.ltb Z.compare]; destruct (h_alloc h1 _) as [h2 b]; reflexivity.
  Qed.
  Lemma sim_put b : sim (t_put b) (m_put e b).
  Proof.
    intros s. split; [reflexivity|]. intros p h. cbn [t_put run]. unfold m_put, mbind, interfere. cbn [set_ph f_tick f_pool f_heap].
    destruct (e_intf e (f_tick s) (p, h)) as [p1 h1]. reflexivity.
  Qed.
  Lemma sim_show b : sim (t_show b) (m_show b).
  Proof. intros s. split; [intros x|intros p h]; reflexivity. Qed.
  Lemma sim_read b : sim (t_read b) (m_read e b).
  Proof.
    intros s. unfold t_read. destruct (blind_recv (Z.to_nat (s_len b)) (ticked s)) as [B1 B2].
    destruct (m_recv (Z.to_nat (s_len b)) (ticked s)) as [s' r] eqn:E. cbn [fst snd] in *. split; [destruct r; cbn [counts]; exact B1|].
    intros p h. unfold m_read, mbind, interfere. cbn [set_ph f_tick f_pool f_heap f_script f_trace f_meta f_size f_req].
    destruct r as [d|x|x|x]; cbn [run]; destruct (e_intf e (f_tick s) (p, h)) as [p1 h1];
      specialize (B2 p1 h1); unfold ticked, set_ph in B2; cbn [f_tick f_pool f_heap f_script f_trace f_meta f_size f_req] in B2; rewrite B2; reflexivity.
  Qed.

  Lemma sim_readBytes : sim c_readBytes (readBytesByPrefixLenMsg e).
  Proof.
    unfold c_readBytes, readBytesByPrefixLenMsg. change PrefixLen with (if false then 32768 else 4)%Z. change maxReadLength with (if true then 32768 else 4)%Z at 2.
    apply sim_seq; [apply (sim_get false)|]. intros pre. apply sim_seq; [apply sim_read|]. intros _. apply sim_seq; [apply sim_show|]. intros bs.
    apply sim_seq; [apply sim_local, blind_lift|]. intros n. destruct (n =? 0)%N; [apply sim_local, blind_ret|].
    apply sim_seq; [apply sim_put|]. intros _. destruct (_ <? _)%N; [apply sim_local, blind_lift|].
    apply sim_seq; [apply (sim_get true)|]. intros buf. apply sim_seq; [apply sim_read|]. intros k. apply sim_local, blind_ret.
  Qed.

  Lemma blind_requests is : blind (request_pieces e is).
  Proof.
    induction is as [|i t IH]; cbn [request_pieces]; [apply blind_ret|]. apply blind_bind; [apply blind_ord|]. intros ord.
    apply blind_bind; [apply blind_lift|]. intros msg. apply blind_bind; [apply blind_write|]. intros [|]; [exact IH|apply blind_panic].
  Qed.
  Lemma blind_on_data b data : blind (on_data e b data).
  Proof.
    unfold on_data. apply blind_bind; [apply blind_lift|]. intros ty. destruct (ty =? ExtendedPeerMsg)%N; [|apply blind_ret].
    unfold handleExtendedMsg. apply blind_bind; [apply blind_lift|]. intros id. destruct (bval id =? 0)%N; [|destruct (bval id =? 1)%N; [|apply blind_ret]].
    - unfold handle_ext_handshake. apply blind_bind; [apply blind_lift|]. intros dict. destruct (negb _); [apply blind_panic|].
      apply blind_bind; [apply blind_lift|]. intros sz. apply blind_bind; [intros s; split; reflexivity|]. intros _. cbv zeta.
      apply blind_bind; [apply blind_make|]. intros _. apply blind_bind; [intros s; split; reflexivity|]. intros _.
      apply blind_bind; [apply blind_make|]. intros _. apply blind_bind; [intros s; split; reflexivity|]. intros _. apply blind_requests.
    - unfold handle_piece. apply blind_bind; [apply blind_lift|]. intros m. destruct (negb _); [apply blind_ret|]. cbv zeta.
      intros s. cbn [set_ph f_meta f_req f_size]. destruct (_ || _); [split; reflexivity|]. destruct (_ <=? _)%Z; split; reflexivity.
  Qed.
  Lemma blind_handshake i j : blind (handshakePeer e i j).
  Proof.
    unfold handshakePeer. apply blind_bind; [apply blind_lift|]. intros msg. apply blind_bind; [apply blind_write|]. intros ok. destruct (negb ok); [apply blind_panic|].
    intros s. destruct (blind_recv handShakeLen s) as [B1 B2]. destruct (m_recv handShakeLen s) as [s1 [d|x|x|x]] eqn:E; cbn [fst snd] in *;
      try (split; [exact B1|]; intros p h; rewrite B2; reflexivity).
    set (m := mbind _ _). assert (Hm : blind m).
    { apply blind_bind; [apply blind_lift|]. intros hh. destruct (negb _); [apply blind_panic|]. apply blind_bind; [apply blind_lift|]. intros ext. destruct (negb ext); [apply blind_panic|apply blind_ret]. }
    destruct (Hm s1) as [M1 M2]. split; [congruence|]. intros p h. rewrite B2. apply M2.
  Qed.
  Lemma blind_initial : blind (initialMessages e).
  Proof.
    apply blind_bind; [apply blind_ord|]. intros ord. apply blind_bind; [apply blind_lift|]. intros msg. apply blind_bind; [apply blind_write|].
    intros [|]; [apply blind_ret|apply blind_panic].
  Qed.

  Lemma sim_handle b : sim (c_handle e b) (handle_msg e b).
  Proof. unfold c_handle, handle_msg. apply sim_seq; [apply sim_show|]. intros data. apply sim_local, blind_on_data. Qed.

  Lemma sim_tput b {A} (r : fres A) : sim (fun s => TPut b (TDone (ticked s) r)) (fun s => (fst (m_put e b s), r)).
  Proof.
    intros s. split; [reflexivity|]. intros p h. cbn [run]. unfold m_put, mbind, interfere. cbn [set_ph f_tick f_pool f_heap].
    destruct (e_intf e (f_tick s) (p, h)) as [p1 h1]. reflexivity.
  Qed.

  Lemma sim_with_put b t m : sim t m -> sim (c_with_put b t) (with_put e b m).
  Proof.
    intros H. unfold c_with_put.
    apply (sim_ext _ (fun s => let (s1, r) := m s in match r with FStop x => (s1, FStop x) | _ => if (0 <? s_cap b)%Z then (fst (m_put e b s1), r) else (s1, r) end)).
    { intros s. unfold with_put. destruct (m s) as [s1 [a|x|x|x]]; reflexivity. }
    apply (sim_bind t m _ (fun s1 r => match r with FStop x => (s1, FStop x) | _ => if (0 <? s_cap b)%Z then (fst (m_put e b s1), r) else (s1, r) end)); [exact H|].
    intros [a|x|x|x]; try (destruct (0 <? s_cap b)%Z; [apply sim_tput|apply sim_done]). apply sim_done.
  Qed.

  Lemma sim_handler : sim (c_handler e) (readMetaDataHandler e).
  Proof.
    unfold c_handler.
    apply (sim_ext _ (fun s => let (s1, r) := readBytesByPrefixLenMsg e s in match r with FOk None => (s1, FOk tt) | FOk (Some b) => with_put e b (handle_msg e b) s1
      | FErr _ => (s1, FPanic (PStr (B "read prefix length err"))) | FPanic p => (s1, FPanic p) | FStop x => (s1, FStop x) end)).
    { intros s. unfold readMetaDataHandler. destruct (readBytesByPrefixLenMsg e s) as [s1 [[b|]|x|x|x]]; reflexivity. }
    apply (sim_bind c_readBytes (readBytesByPrefixLenMsg e) _ (fun s1 r => match r with FOk None => (s1, FOk tt) | FOk (Some b) => with_put e b (handle_msg e b) s1
      | FErr _ => (s1, FPanic (PStr (B "read prefix length err"))) | FPanic p => (s1, FPanic p) | FStop x => (s1, FStop x) end)); [apply sim_readBytes|].
    intros [[b|]|x|x|x]; try apply sim_done. apply sim_with_put, sim_handle.
  Qed.

  Lemma sim_loop f : sim (c_loop e f) (readMetaDataLoop e f).
  Proof.
    induction f as [|f IH]; intros s; cbn [c_loop readMetaDataLoop]; [split; reflexivity|]. unfold CompledMetaData. cbn [set_ph f_req f_tick].
    destruct (negb (forallb _ _) && _) eqn:Eb.
    - destruct (sim_seq _ _ (fun _ => c_loop e f) (fun _ => readMetaDataLoop e f) sim_handler (fun _ => IH) s) as [H1 H2]. split; [exact H1|]. intros p h. try rewrite Eb. apply H2.
    - split; [reflexivity|]. intros p h. try rewrite Eb. reflexivity.
  Qed.

  Lemma sim_merge is : forall acc, sim (c_merge is acc) (merge e is acc).
  Proof.
    induction is as [|i t IH]; intros acc s; cbn [c_merge merge]; [split; reflexivity|].
    unfold mbind, interfere. cbn [set_ph f_tick f_pool f_heap f_script f_trace f_meta f_size f_req].
    destruct (nth_error (f_meta s) i) as [[b|]|] eqn:E.
    - split; [intros x; apply (IH (acc ++ x) (ticked s))|]. intros p h. cbn [run]. destruct (e_intf e (f_tick s) (p, h)) as [p1 h1]. cbn [f_meta f_heap]. rewrite E.
      apply (proj2 (IH (acc ++ h_read h1 b) (ticked s))).
    - split; [apply (IH acc (ticked s))|]. intros p h. cbn [run]. destruct (e_intf e (f_tick s) (p, h)) as [p1 h1]. cbn [f_meta f_heap]. rewrite E.
      apply (proj2 (IH acc (ticked s))).
    - split; [reflexivity|]. intros p h. cbn [run]. destruct (e_intf e (f_tick s) (p, h)) as [p1 h1]. cbn [f_meta f_heap]. rewrite E. reflexivity.
  Qed.

  Lemma sim_body i j : sim (c_body e i j) (fetch_body e i j).
  Proof.
    unfold c_body, fetch_body. apply sim_seq; [apply sim_local, blind_handshake|]. intros _. apply sim_seq; [apply sim_local, blind_initial|]. intros _.
    apply sim_seq; [intros s; apply (sim_loop (loop_fuel (f_script s)) s)|]. intros _ s. unfold CompledMetaData. cbn [set_ph f_req f_size].
    destruct (negb (forallb _ _)) eqn:Eb; [split; [reflexivity|]; intros p h; try rewrite Eb; reflexivity|].
    set (t := tseq _ _). set (m := mbind _ _). assert (H : sim t m).
    { apply sim_seq; [apply sim_local, blind_make|]. intros _. apply sim_seq; [apply sim_merge|]. intros res. destruct (beq j (GenerateInfoHash res)); cbn [negb]; apply sim_local; [apply blind_ret|apply blind_lift]. }
    destruct (H s) as [H1 H2]. split; [exact H1|]. intros p h. try rewrite Eb. apply H2.
  Qed.

  (** Run against an environment, the tree is the download. *)
  Theorem run_fetch peer i j p h : run (c_fetch e peer i j) 0 p h = FetchMetaData e p h peer i j.
  Proof.
    destruct peer as [script|]; [|reflexivity]. unfold c_fetch, FetchMetaData.
    pose proof (sim_bind _ _ (fun s r => match r with FStop x => TDone s (FStop x) | FPanic _ => TDone (set_io s (f_script s) CClose) (FErr (ENew (B "FetchMetaData err")))
      | _ => TDone (set_io s (f_script s) CClose) r end) (fun s r => match r with FStop x => (s, FStop x) | FPanic _ => (set_io s (f_script s) CClose, FErr (ENew (B "FetchMetaData err")))
      | _ => (set_io s (f_script s) CClose, r) end) (sim_body i j)) as H.
    assert (Hk : forall r : fres bytes, sim (fun s => match r with FStop x => TDone s (FStop x) | FPanic _ => TDone (set_io s (f_script s) CClose) (FErr (ENew (B "FetchMetaData err")))
      | _ => TDone (set_io s (f_script s) CClose) r end) (fun s => match r with FStop x => (s, FStop x) | FPanic _ => (set_io s (f_script s) CClose, FErr (ENew (B "FetchMetaData err")))
      | _ => (set_io s (f_script s) CClose, r) end)) by (intros [a|x|x|x] s; split; reflexivity).
    destruct (H Hk (NewPeerConn (fst nowhere) (snd nowhere) script)) as [_ H2]. exact (H2 p h).
  Qed.
End Run.
