(** FetchProofs.v -- lemmas about Fetch.v. *)
From Verif Require Import Base GoLib Bencode BencodeSpec BencodeProofs BencodePf Types TypesPf Krpc KrpcProofs BytesPool BytesPoolPf Sha1 PeerWire PeerWirePf Fetch FetchSpec.
Local Open Scope list_scope.

(** * Part 1: facts that hold in every environment *)

Definition mu (script : list bytes) : nat := fold_right (fun seg n => length seg + 1 + n) 0 script.

Definition explained (e : fenv) (x : stop) : Prop :=
  match x with
  | OutOfMemory => exists n, e_mem e n = false
  | BlockedWrite => exists n, e_write e n = WBlock
  | OutOfFuel => False
  end.

(** A step that appends only operations satisfying P, never adds input, and stops only for a reason. *)
Definition okstep (e : fenv) (P : connop -> Prop) {A} (m : M A) : Prop :=
  forall s s' r, m s = (s', r) ->
    (exists t, f_trace s' = f_trace s ++ t /\ Forall P t) /\ mu (f_script s') <= mu (f_script s) /\
    match r with FStop x => explained e x | _ => True end.

Lemma ok_id e P {A} (m : M A) : (forall s, exists r, m s = (s, r) /\ match r with FStop x => explained e x | _ => True end) -> okstep e P m.
Proof.
  intros H s s' r E. destruct (H s) as (r0 & E0 & Hr). rewrite E in E0. injection E0 as -> ->.
  split; [exists []; rewrite app_nil_r; auto|]. split; [lia|exact Hr].
Qed.

Lemma ok_lift e P {A} (x : res A) : okstep e P (lift x).
Proof. apply ok_id. intros s. unfold lift. eexists. split; [reflexivity|]. destruct x; exact I. Qed.
Lemma ok_ret e P {A} (x : A) : okstep e P (ret x).
Proof. apply ok_id. intros s. eexists. split; [reflexivity|exact I]. Qed.
Lemma ok_mpanic e P {A} x : okstep e P (@mpanic A x).
Proof. apply ok_id. intros s. eexists. split; [reflexivity|exact I]. Qed.
Lemma ok_make e P a b : okstep e P (m_make e a b).
Proof.
  apply ok_id. intros s. unfold m_make. destruct ((b <? 0)%Z || (2 ^ 48 <? a * b)%Z); [eexists; split; [reflexivity|exact I]|].
  destruct (e_mem e (a * b)) eqn:E; eexists; (split; [reflexivity|]); [exact I|]. exists (a * b)%Z. exact E.
Qed.
Lemma ok_show e P b : okstep e P (m_show b).
Proof. apply ok_id. intros s. eexists. split; [reflexivity|exact I]. Qed.
Lemma ok_ord e P : okstep e P (m_ord e).
Proof. apply ok_id. intros s. eexists. split; [reflexivity|exact I]. Qed.

Lemma ok_bind e P {A C} (m : M A) (k : A -> M C) : okstep e P m -> (forall a, okstep e P (k a)) -> okstep e P (mbind m k).
Proof.
  intros Hm Hk s s' r E. unfold mbind in E. destruct (m s) as [s1 r1] eqn:E1.
  destruct (Hm _ _ _ E1) as ((t1 & T1 & F1) & M1 & X1).
  destruct r1 as [a|x|p|x].
  - destruct (Hk a _ _ _ E) as ((t2 & T2 & F2) & M2 & X2). split; [|split; [lia|exact X2]].
    exists (t1 ++ t2). rewrite T2, T1, app_assoc. split; [reflexivity|]. apply Forall_app. auto.
  - injection E as <- <-. eauto 6.
  - injection E as <- <-. eauto 6.
  - injection E as <- <-. eauto 6.
Qed.

Lemma ok_interfere e P : okstep e P (interfere e).
Proof.
  intros s s' r E. unfold interfere in E. destruct (e_intf e (f_tick s) (f_pool s, f_heap s)) as [p h].
  injection E as <- <-. split; [exists []; rewrite app_nil_r; auto|]. split; [reflexivity|exact I].
Qed.

Lemma ok_quiet e P {A} (m : M A) : (forall s s' r, m s = (s', r) -> f_trace s' = f_trace s /\ f_script s' = f_script s /\ match r with FStop _ => False | _ => True end) -> okstep e P m.
Proof.
  intros H s s' r E. destruct (H _ _ _ E) as (T & S & X). rewrite T, S. split; [exists []; rewrite app_nil_r; auto|].
  split; [lia|]. destruct r; tauto.
Qed.

Lemma ok_get e P n : okstep e P (m_get e n).
Proof.
  apply ok_bind; [apply ok_interfere|]. intros _. apply ok_quiet. intros s s' r E.
  destruct (GetBySize (f_pool s) (f_heap s) n) as [[[p h] b]| |]; injection E as <- <-; repeat split.
Qed.
Lemma ok_put e P b : okstep e P (m_put e b).
Proof.
  apply ok_bind; [apply ok_interfere|]. intros _. apply ok_quiet. intros s s' r E. injection E as <- <-. repeat split.
Qed.

Lemma recv_spec want s s' r : m_recv want s = (s', r) ->
  f_trace s' = f_trace s ++ [CRead want] /\ mu (f_script s') <= mu (f_script s) /\
  (0 < want -> forall d, r = FOk d -> mu (f_script s') < mu (f_script s)) /\
  (exists d, r = FOk d) \/ f_trace s' = f_trace s ++ [CRead want] /\ mu (f_script s') <= mu (f_script s) /\ r = FErr EIO.
Proof.
  unfold m_recv. destruct (Nat.eqb_spec want 0) as [->|Hw].
  - intros E. injection E as <- <-. left. cbn [set_io f_trace f_script]. split; [reflexivity|]. split; [lia|]. split; [intros; lia|eauto].
  - destruct (f_script s) as [|seg rest] eqn:Es.
    + intros E. injection E as <- <-. right. cbn [set_io f_trace f_script]. split; [reflexivity|]. split; [cbn; lia|reflexivity].
    + intros E. injection E as <- <-. left. cbn [set_io f_trace f_script mu fold_right]. split; [reflexivity|].
      assert (Hlt : mu (match skipn want seg with [] => rest | _ => skipn want seg :: rest end) < length seg + 1 + mu rest).
      { destruct (skipn want seg) as [|x l] eqn:Ek; [unfold mu; lia|]. 
        assert (H : length (skipn want seg) = length seg - want) by apply skipn_length. rewrite Ek in H. unfold mu. cbn [fold_right].
        cbn [length] in *. lia. }
      unfold mu in *. split; [cbn [fold_right]; lia|]. split; [|eauto]. intros _ d _. cbn [fold_right]. lia.
Qed.

Lemma ok_recv e (P : connop -> Prop) want : P (CRead want) -> okstep e P (m_recv want).
Proof.
  intros HP s s' r E. destruct (recv_spec _ _ _ _ E) as [(T & S & X & d & ->)|(T & S & ->)]; split; try (split; [exact S|exact I]);
    exists [CRead want]; auto.
Qed.
Lemma ok_read e (P : connop -> Prop) b : (forall w, P (CRead w)) -> okstep e P (m_read e b).
Proof.
  intros HP. apply ok_bind; [apply ok_interfere|]. intros _. apply ok_bind; [apply ok_recv, HP|]. intros d.
  apply ok_quiet. intros s s' r E. injection E as <- <-. repeat split.
Qed.
Lemma ok_write e (P : connop -> Prop) bs : P (CWrite bs) -> okstep e P (m_write e bs).
Proof.
  intros HP s s' r E. unfold m_write in E. destruct (e_write e (length (f_trace s))) eqn:Ew; injection E as <- <-;
    (split; [exists [CWrite bs]; auto|]); (split; [apply le_n|]); cbn; eauto.
Qed.

Lemma ok_readBytes e (P : connop -> Prop) : (forall w, P (CRead w)) -> okstep e P (readBytesByPrefixLenMsg e).
Proof.
  intros HP. unfold readBytesByPrefixLenMsg. apply ok_bind; [apply ok_get|]. intros pre.
  apply ok_bind; [apply ok_read, HP|]. intros _. apply ok_bind; [apply ok_show|]. intros bs.
  apply ok_bind; [apply ok_lift|]. intros n. destruct (n =? 0)%N; [apply ok_ret|].
  apply ok_bind; [apply ok_put|]. intros _. destruct (Z.to_N maxReadLength <? n)%N; [apply ok_lift|].
  apply ok_bind; [apply ok_get|]. intros buf. apply ok_bind; [apply ok_read, HP|]. intros k. apply ok_ret.
Qed.

(** When a message was read at all, input was consumed. *)
Lemma readBytes_consumes e s s' b : readBytesByPrefixLenMsg e s = (s', FOk b) -> mu (f_script s') < mu (f_script s).
Proof.
  unfold readBytesByPrefixLenMsg, mbind at 1. intros E.
  destruct (m_get e PrefixLen s) as [s1 r1] eqn:E1. destruct (ok_get e (fun _ => True) _ _ _ _ E1) as (_ & M1 & _).
  destruct r1 as [pre|x|p|x]; try discriminate.
  unfold mbind at 1 in E. destruct (m_read e pre s1) as [s2 r2] eqn:E2.
  assert (M2 : mu (f_script s2) <= mu (f_script s1) /\ (0 < Z.to_nat (s_len pre) -> forall n, r2 = FOk n -> mu (f_script s2) < mu (f_script s1))).
  { unfold m_read, mbind in E2. destruct (interfere e s1) as [sa ra] eqn:Ea.
    destruct (ok_interfere e (fun _ => True) _ _ _ Ea) as (_ & Ma & _).
    destruct ra as [[]|x|p|x]; try (injection E2 as <- <-; split; [exact Ma|discriminate]).
    destruct (m_recv (Z.to_nat (s_len pre)) sa) as [sb rb] eqn:Eb.
    destruct (recv_spec _ _ _ _ Eb) as [(_ & Mb & Xb & d & ->)|(_ & Mb & ->)].
    - injection E2 as <- <-. cbn [set_ph f_script]. split; [lia|]. intros Hw n _. specialize (Xb Hw d eq_refl). lia.
    - injection E2 as <- <-. split; [lia|discriminate]. }
  destruct r2 as [n|x|p|x]; try discriminate.
  unfold mbind at 1 in E. cbn [m_show] in E. unfold mbind at 1 in E.
  destruct (lift (Uint32 (h_read (f_heap s2) pre)) s2) as [s3 r3] eqn:E3. unfold lift in E3.
  injection E3 as <- E3. destruct (Uint32 (h_read (f_heap s2) pre)) as [preLen| |] eqn:Eu; subst r3; try discriminate.
  assert (Hlen : 0 < Z.to_nat (s_len pre)).
  { unfold Uint32, h_read in Eu. destruct (Z.to_nat (s_len pre)); [discriminate|lia]. }
  destruct M2 as [_ M2]. specialize (M2 Hlen n eq_refl).
  cbn beta iota in E. destruct (preLen =? 0)%N.
  - injection E as <- <-. lia.
  - match type of E with ?m s2 = _ => assert (H : okstep e (fun _ => True) m) end.
    { apply ok_bind; [apply ok_put|]. intros _. destruct (Z.to_N maxReadLength <? preLen)%N; [apply ok_lift|].
      apply ok_bind; [apply ok_get|]. intros buf. apply ok_bind; [apply ok_read; intros; exact I|]. intros k. apply ok_ret. }
    destruct (H _ _ _ E) as (_ & M3 & _). lia.
Qed.

(** The three kinds of messages the crawler sends. *)
Definition sends (e : fenv) (i : nat) (bs : bytes) : Prop :=
  exists n, withExtendedFetchMetaMsg (e_ford e n) 1 ExRequest (Z.of_nat i) 0 [] = Ok bs.
Definition opP (e : fenv) (peerId infoHash : bytes) (c : connop) : Prop :=
  match c with
  | CClose => False
  | CRead _ => True
  | CWrite bs => withHandShakeMsg peerId infoHash = Ok bs \/
                 (exists n, withExtendedhandShake (e_ford e n) (Some [(B "ut_metadata", VInt 1)]) None = Ok bs) \/
                 exists i, sends e i bs
  end.

Lemma ok_requests e (P : connop -> Prop) is : (forall i bs, sends e i bs -> P (CWrite bs)) -> okstep e P (request_pieces e is).
Proof.
  intros HP. induction is as [|i t IH]; cbn [request_pieces]; [apply ok_ret|].
  intros s s' r E. unfold mbind at 1 in E. cbn [m_ord] in E. unfold mbind at 1 in E. unfold lift in E.
  destruct (withExtendedFetchMetaMsg (e_ford e (length (f_trace s))) 1 ExRequest (Z.of_nat i) 0 []) as [msg| |] eqn:Em.
  - revert s s' r E Em. intros s s' r E Em.
    assert (H : okstep e P (mbind (m_write e msg) (fun ok => if ok then request_pieces e t else mpanic (B "write request piece err")))).
    { apply ok_bind; [apply ok_write; apply (HP i); exists (length (f_trace s)); exact Em|]. intros [|]; [exact IH|apply ok_mpanic]. }
    exact (H _ _ _ E).
  - injection E as <- <-. split; [exists []; rewrite app_nil_r; auto|]. split; [lia|exact I].
  - injection E as <- <-. split; [exists []; rewrite app_nil_r; auto|]. split; [lia|exact I].
Qed.

Lemma ok_handle_msg e (P : connop -> Prop) b : (forall i bs, sends e i bs -> P (CWrite bs)) -> okstep e P (handle_msg e b).
Proof.
  intros HP. unfold handle_msg. apply ok_bind; [apply ok_show|]. intros data. apply ok_bind; [apply ok_lift|]. intros ty.
  destruct (ty =? ExtendedPeerMsg)%N; [|apply ok_ret]. unfold handleExtendedMsg. apply ok_bind; [apply ok_lift|]. intros id.
  destruct (bval id =? 0)%N; [|destruct (bval id =? 1)%N; [|apply ok_ret]].
  - unfold handle_ext_handshake. apply ok_bind; [apply ok_lift|]. intros dict.
    destruct (negb (Exist dict (B "metadata_size"))); [apply ok_mpanic|].
    apply ok_bind; [apply ok_lift|]. intros sz.
    apply ok_bind; [apply ok_quiet; intros s s' r E; injection E as <- <-; repeat split|]. intros _. cbv zeta.
    apply ok_bind; [apply ok_make|]. intros _.
    apply ok_bind; [apply ok_quiet; intros s s' r E; injection E as <- <-; repeat split|]. intros _.
    apply ok_bind; [apply ok_make|]. intros _.
    apply ok_bind; [apply ok_quiet; intros s s' r E; injection E as <- <-; repeat split|]. intros _.
    apply ok_requests. exact HP.
  - unfold handle_piece. apply ok_bind; [apply ok_lift|]. intros m.
    destruct (negb (fm_type m =? ExData)%Z); [apply ok_ret|]. cbv zeta. apply ok_quiet. intros s s' r E.
    destruct ((fm_piece m <? 0)%Z || (Z.of_nat (length (f_meta s)) <=? fm_piece m)%Z); [injection E as <- <-; repeat split|].
    destruct (Z.of_nat (length (f_req s)) <=? fm_piece m)%Z; injection E as <- <-; repeat split.
Qed.

Lemma ok_handler e (P : connop -> Prop) : (forall w, P (CRead w)) -> (forall i bs, sends e i bs -> P (CWrite bs)) ->
  okstep e P (readMetaDataHandler e) /\
  (forall s s' u, readMetaDataHandler e s = (s', FOk u) -> mu (f_script s') < mu (f_script s)).
Proof.
  intros HR HW.
  assert (K : forall s s' r, readMetaDataHandler e s = (s', r) ->
    ((exists t, f_trace s' = f_trace s ++ t /\ Forall P t) /\ mu (f_script s') <= mu (f_script s) /\
     match r with FStop x => explained e x | _ => True end) /\ (forall u, r = FOk u -> mu (f_script s') < mu (f_script s))).
  { intros s s' r E. unfold readMetaDataHandler in E. destruct (readBytesByPrefixLenMsg e s) as [s1 r1] eqn:E1.
    pose proof (ok_readBytes e P HR _ _ _ E1) as ((t1 & T1 & F1) & M1 & X1).
    destruct r1 as [[b|]|x|p|x].
    - pose proof (readBytes_consumes _ _ _ _ E1) as Hlt.
      assert (H : okstep e P (with_put e b (handle_msg e b))).
      { intros sa sb rb Eb. unfold with_put in Eb. destruct (handle_msg e b sa) as [sc rc] eqn:Ec.
        destruct (ok_handle_msg e P b HW _ _ _ Ec) as ((t & T & F) & Mx & X).
        destruct (m_put e b sc) as [sd rd] eqn:Ed. destruct (ok_put e P b _ _ _ Ed) as ((t' & T' & F') & M' & X').
        cbn [fst] in Eb.
        assert (Hx : (exists t0, f_trace sd = f_trace sa ++ t0 /\ Forall P t0) /\ mu (f_script sd) <= mu (f_script sa)).
        { split; [|lia]. exists (t ++ t'). rewrite T', T, app_assoc. split; [reflexivity|]. apply Forall_app; auto. }
        destruct rc as [u|x|p|x]; [| | |injection Eb as <- <-; eauto 6];
          (destruct (0 <? s_cap b)%Z; injection Eb as <- <-; [split; [apply Hx|split; [apply Hx|exact I]]|eauto 6]). }
      destruct (H _ _ _ E) as ((t2 & T2 & F2) & M2 & X2). split; [split; [|split; [lia|exact X2]]|].
      + exists (t1 ++ t2). rewrite T2, T1, app_assoc. split; [reflexivity|]. apply Forall_app; auto.
      + intros u _. lia.
    - injection E as <- <-. pose proof (readBytes_consumes _ _ _ _ E1). split; [eauto 6|]. intros u _. lia.
    - injection E as <- <-. split; [eauto 6|]. intros u Hu. discriminate.
    - injection E as <- <-. split; [eauto 6|]. intros u Hu. discriminate.
    - injection E as <- <-. split; [eauto 6|]. intros u Hu. discriminate. }
  split; intros s s' r E; [apply K; exact E|]. eapply K; [exact E|reflexivity].
Qed.

Lemma ok_loop e (P : connop -> Prop) : (forall w, P (CRead w)) -> (forall i bs, sends e i bs -> P (CWrite bs)) ->
  forall fuel s s' r, mu (f_script s) < fuel -> readMetaDataLoop e fuel s = (s', r) ->
    (exists t, f_trace s' = f_trace s ++ t /\ Forall P t) /\ mu (f_script s') <= mu (f_script s) /\
    match r with FStop x => explained e x | _ => True end.
Proof.
  intros HR HW. destruct (ok_handler e P HR HW) as [Hok Hlt].
  induction fuel as [|f IH]; intros s s' r Hf E; [lia|]. cbn [readMetaDataLoop] in E.
  destruct (negb (CompledMetaData s) && negb (e_exp e (f_tick s))).
  - unfold mbind in E. destruct (readMetaDataHandler e s) as [s1 r1] eqn:E1.
    destruct (Hok _ _ _ E1) as ((t1 & T1 & F1) & M1 & X1).
    destruct r1 as [u|x|p|x].
    + specialize (Hlt _ _ _ E1). assert (Hf1 : mu (f_script s1) < f) by lia. destruct (IH _ _ _ Hf1 E) as ((t2 & T2 & F2) & M2 & X2).
      split; [|split; [lia|exact X2]]. exists (t1 ++ t2). rewrite T2, T1, app_assoc. split; [reflexivity|]. apply Forall_app; auto.
    + injection E as <- <-. eauto 6.
    + injection E as <- <-. eauto 6.
    + injection E as <- <-. eauto 6.
  - injection E as <- <-. split; [exists []; rewrite app_nil_r; auto|]. split; [lia|exact I].
Qed.

Lemma ok_merge e P is : forall acc, okstep e P (merge e is acc).
Proof.
  induction is as [|i t IH]; intros acc; cbn [merge]; [apply ok_ret|].
  apply ok_bind; [apply ok_interfere|]. intros _ s s' r E.
  destruct (nth_error (f_meta s) i) as [[b|]|]; [eapply IH; exact E|eapply IH; exact E|].
  injection E as <- <-. split; [exists []; rewrite app_nil_r; auto|]. split; [lia|exact I].
Qed.

Lemma ok_handshakePeer e peerId infoHash : okstep e (opP e peerId infoHash) (handshakePeer e peerId infoHash).
Proof.
  intros s s' r E. unfold handshakePeer, mbind at 1, lift in E.
  destruct (withHandShakeMsg peerId infoHash) as [msg| |] eqn:Em;
    [|injection E as <- <-; split; [exists []; rewrite app_nil_r; auto|]; split; [lia|exact I]..].
  match type of E with ?m s = _ => assert (H : okstep e (opP e peerId infoHash) m) end; [|exact (H _ _ _ E)].
  apply ok_bind; [apply ok_write; left; exact Em|]. intros ok. destruct (negb ok); [apply ok_mpanic|].
  clear. intros s s' r E. destruct (m_recv handShakeLen s) as [s1 r1] eqn:E1.
  destruct (ok_recv e (opP e peerId infoHash) handShakeLen I _ _ _ E1) as ((t1 & T1 & F1) & M1 & X1).
  destruct r1 as [d|x|p|x].
  - match type of E with ?m s1 = _ => assert (H : okstep e (opP e peerId infoHash) m) end.
    { apply ok_bind; [apply ok_lift|]. intros h. destruct (negb (EqualFold (e_fold e) supportProtocolName (hs_protocol h))); [apply ok_mpanic|].
      apply ok_bind; [apply ok_lift|]. intros x. destruct (negb x); [apply ok_mpanic|apply ok_ret]. }
    destruct (H _ _ _ E) as ((t2 & T2 & F2) & M2 & X2). split; [|split; [lia|exact X2]].
    exists (t1 ++ t2). rewrite T2, T1, app_assoc. split; [reflexivity|]. apply Forall_app; auto.
  - injection E as <- <-. eauto 6.
  - injection E as <- <-. eauto 6.
  - injection E as <- <-. eauto 6.
Qed.

Lemma ok_initial e peerId infoHash : okstep e (opP e peerId infoHash) (initialMessages e).
Proof.
  intros s s' r E. unfold initialMessages, mbind at 1 in E. cbn [m_ord] in E. unfold mbind at 1, lift in E.
  destruct (withExtendedhandShake (e_ford e (length (f_trace s))) (Some [(B "ut_metadata", VInt 1)]) None) as [msg| |] eqn:Em;
    [|injection E as <- <-; split; [exists []; rewrite app_nil_r; auto|]; split; [lia|exact I]..].
  match type of E with ?m s = _ => assert (H : okstep e (opP e peerId infoHash) m) end; [|exact (H _ _ _ E)].
  apply ok_bind; [apply ok_write; right; left; eauto|]. intros ok. destruct ok; [apply ok_ret|apply ok_mpanic].
Qed.

Lemma ok_body e peerId infoHash : okstep e (opP e peerId infoHash) (fetch_body e peerId infoHash).
Proof.
  unfold fetch_body. apply ok_bind; [apply ok_handshakePeer|]. intros _. apply ok_bind; [apply ok_initial|]. intros _.
  apply ok_bind.
  - intros s s' r E. eapply ok_loop in E; [exact E|intros; exact I|intros i bs H; right; right; eauto|]. unfold loop_fuel, mu. lia.
  - intros _ s s' r E. destruct (negb (CompledMetaData s)); [injection E as <- <-; split; [exists []; rewrite app_nil_r; auto|]; split; [lia|exact I]|].
    match type of E with ?m s = _ => assert (H : okstep e (opP e peerId infoHash) m) end; [|exact (H _ _ _ E)].
    apply ok_bind; [apply ok_make|]. intros _. apply ok_bind; [apply ok_merge|]. intros result.
    destruct (negb (beq infoHash (GenerateInfoHash result))); [apply ok_lift|apply ok_ret].
Qed.

(** Whatever happens, a result has passed the check. *)
Lemma body_result e peerId infoHash s s' d : fetch_body e peerId infoHash s = (s', FOk d) -> sha1 d = infoHash.
Proof.
  unfold fetch_body, mbind at 1. intros E. destruct (handshakePeer e peerId infoHash s) as [s1 [u| | |]]; try discriminate.
  unfold mbind at 1 in E. destruct (initialMessages e s1) as [s2 [u2| | |]]; try discriminate.
  unfold mbind at 1 in E. destruct (readMetaDataLoop e (loop_fuel (f_script s2)) s2) as [s3 [u3| | |]]; try discriminate.
  cbn beta in E. destruct (negb (CompledMetaData s3)); [discriminate|].
  unfold mbind at 1 in E. destruct (m_make e 1 (f_size s3) s3) as [s4 [u4| | |]]; try discriminate.
  unfold mbind at 1 in E. destruct (merge e (seq 0 (length (f_req s3))) [] s4) as [s5 [result| | |]]; try discriminate.
  destruct (beq infoHash (GenerateInfoHash result)) eqn:Eb; cbn [negb] in E; [|discriminate].
  injection E as <- <-. apply beq_eq in Eb. symmetry. exact Eb.
Qed.

Definition wr (s : fstate) : list bytes := written (f_trace s).
Lemma written_app a b : written (a ++ b) = written a ++ written b.
Proof. apply flat_map_app. Qed.
Lemma wr_reads e s s' r : readBytesByPrefixLenMsg e s = (s', r) -> wr s' = wr s.
Proof.
  intros E. destruct (ok_readBytes e (fun c => exists w, c = CRead w) (fun w => ex_intro _ w eq_refl) _ _ _ E) as ((t & T & F) & _).
  unfold wr. rewrite T, written_app. replace (written t) with (@nil bytes); [apply app_nil_r|].
  clear T. induction F as [|c t (w & ->) F IH]; [reflexivity|exact IH].
Qed.

(** * Part 2: one fetch running alone *)


Record own (s : fstate) (q4 q32 held : list slc) : Prop := {
  o_max : p_max (f_pool s) = Z.to_nat 10000;
  o_c4 : chan_of (p_chans (f_pool s)) 4 = q4;
  o_c32 : chan_of (p_chans (f_pool s)) 32768 = q32;
  o_u4 : Forall (usable (f_heap s) 4) q4;
  o_l4 : length q4 <= p_max (f_pool s);
  o_u32 : Forall (usable (f_heap s) 32768) q32;
  o_l32 : length q32 <= p_max (f_pool s);
  o_held : Forall (fun b => s_arr b < h_next (f_heap s)) held;
  o_nd : NoDup (map s_arr (held ++ q4 ++ q32)) }.

(** Parts of the state that pool and connection operations leave alone. *)
Definition samep (s s' : fstate) : Prop := f_meta s' = f_meta s /\ f_size s' = f_size s /\ f_req s' = f_req s.
Lemma samep_refl s : samep s s. Proof. repeat split. Qed.
Lemma samep_trans s1 s2 s3 : samep s1 s2 -> samep s2 s3 -> samep s1 s3.
Proof. unfold samep. intros (A1 & A2 & A3) (B1 & B2 & B3). repeat split; congruence. Qed.

(** Arrays in X are untouched. *)
Definition kept (X : nat -> Prop) (s s' : fstate) : Prop :=
  h_next (f_heap s) <= h_next (f_heap s') /\ forall a, X a -> a < h_next (f_heap s) -> h_data (f_heap s') a = h_data (f_heap s) a.
Lemma kept_refl X s : kept X s s. Proof. split; auto. Qed.
Lemma kept_heap X s s' : f_heap s' = f_heap s -> kept X s s'. Proof. intros E. split; rewrite E; auto. Qed.
Lemma kept_trans X s1 s2 s3 : kept X s1 s2 -> kept X s2 s3 -> kept X s1 s3.
Proof. intros [A1 A2] [B1 B2]. split; [lia|]. intros a Ha Hl. rewrite B2 by (auto; lia). auto. Qed.
Lemma kept_weaken (X Y : nat -> Prop) s s' : (forall a, Y a -> X a) -> kept X s s' -> kept Y s s'.
Proof. intros H [A B']. split; auto. Qed.

Lemma usable_data h h' w b : usable h w b -> h_next h <= h_next h' -> length (h_data h (s_arr b)) <= length (h_data h' (s_arr b)) -> usable h' w b.
Proof. intros (H1 & H2 & H3 & H4 & H5) Hn Hl. repeat split; try assumption; lia. Qed.

Lemma tick_alone e s : alone e -> exists s1, interfere e s = (s1, FOk tt) /\ f_pool s1 = f_pool s /\ f_heap s1 = f_heap s /\ f_script s1 = f_script s /\ f_trace s1 = f_trace s /\ samep s s1.
Proof. intros Ha. unfold interfere. rewrite Ha. eexists. split; [reflexivity|]. cbn. repeat split. Qed.

Definition chan_pop (p : pool) (w : Z) : pool :=
  {| p_chans := chan_upd (p_chans p) w (@tl slc); p_width := p_width p; p_max := p_max p |}.

(** Obtaining a buffer of one of the two widths. *)
Lemma get_alone e w s q4 q32 held : alone e -> (w = 4 \/ w = 32768)%Z -> own s q4 q32 held ->
  exists s1 b, m_get e w s = (s1, FOk b) /\ usable (f_heap s1) w b /\
    own s1 (if (w =? 4)%Z then tl q4 else q4) (if (w =? 4)%Z then q32 else tl q32) (b :: held) /\
    (let q := if (w =? 4)%Z then q4 else q32 in q = b :: tl q \/ (q = [] /\ s_arr b = h_next (f_heap s))) /\
    f_script s1 = f_script s /\ f_trace s1 = f_trace s /\ samep s s1 /\ kept (fun _ => True) s s1.
Proof.
  intros Ha Hw O. destruct (tick_alone e s Ha) as (s0 & E0 & Hp & Hh & Hs & Ht & Hm).
  unfold m_get, mbind. rewrite E0. rewrite Hp, Hh. unfold GetBySize.
  destruct O as [Omax Oc4 Oc32 Ou4 Ol4 Ou32 Ol32 Oh Ond].
  destruct (chan_of (p_chans (f_pool s)) w) as [|b r] eqn:Ec.
  - destruct (Z.ltb_spec w 0); [lia|]. cbn [h_alloc]. eexists _, _. split; [reflexivity|].
    set (h1 := {| h_next := S (h_next (f_heap s)); h_data := _ |}).
    assert (Hold : forall a, a < h_next (f_heap s) -> h_data h1 a = h_data (f_heap s) a).
    { intros a Hl. unfold h1. cbn [h_data]. destruct (Nat.eqb_spec a (h_next (f_heap s))); [lia|reflexivity]. }
    assert (Hus : forall w' l, Forall (usable (f_heap s) w') l -> Forall (usable h1 w') l).
    { intros w' l F. eapply Forall_impl; [|exact F]. intros x Hx. eapply usable_data; [exact Hx|cbn; lia|].
      rewrite Hold; [lia|]. apply Hx. }
    cbn [set_ph f_pool f_heap f_script f_trace]. split; [|split].
    + split; [reflexivity|]. split; [reflexivity|]. cbn [s_off s_arr h_next h1]. split; [lia|]. split; [lia|].
      unfold h1. cbn [h_data]. rewrite Nat.eqb_refl, repeat_length. lia.
    + assert (Hq4 : (if (w =? 4)%Z then tl q4 else q4) = q4).
      { destruct (Z.eqb_spec w 4); [|reflexivity]. subst w. rewrite <- Oc4, Ec. reflexivity. }
      assert (Hq32 : (if (w =? 4)%Z then q32 else tl q32) = q32).
      { destruct (Z.eqb_spec w 4); [reflexivity|]. destruct Hw as [->| ->]; [lia|]. rewrite <- Oc32, Ec. reflexivity. }
      rewrite Hq4, Hq32. constructor; cbn [set_ph f_pool f_heap]; auto.
      * constructor; [cbn; lia|]. eapply Forall_impl; [|exact Oh]. cbn. intros x Hx. lia.
      * cbn [app map]. constructor; [|exact Ond]. intros Hin. cbn [s_arr] in Hin. rewrite !map_app, !in_app_iff, !in_map_iff in Hin.
        rewrite Forall_forall in Oh, Ou4, Ou32.
        destruct Hin as [(x & E & Hx)|[(x & E & Hx)|(x & E & Hx)]]; [apply Oh in Hx; lia|apply Ou4 in Hx|apply Ou32 in Hx];
          destruct Hx as (_ & _ & _ & Hx & _); lia.
    + split; [|split; [exact Hs|split; [exact Ht|split; [exact Hm|]]]].
      * right. destruct (Z.eqb_spec w 4); [subst w; rewrite Oc4 in Ec; auto|]. destruct Hw as [->| ->]; [lia|]. rewrite Oc32 in Ec. auto.
      * split; [cbn; lia|]. intros a _ Hl. cbn [set_ph f_heap]. apply Hold. exact Hl.
  - eexists _, b. split; [reflexivity|]. cbn [set_ph f_pool f_heap f_script f_trace].
    destruct Hw as [->| ->]; cbn [Z.eqb Pos.eqb].
    + rewrite Oc4 in Ec. rewrite Ec in Oc4, Ou4, Ol4, Ond. rewrite Ec. cbn [tl]. apply Forall_cons_iff in Ou4 as [Ub Ou4]. split; [exact Ub|].
      split; [|split; [left; reflexivity|split; [exact Hs|split; [exact Ht|split; [exact Hm|apply kept_heap; reflexivity]]]]].
      constructor; cbn [set_ph f_pool f_heap p_max p_chans]; auto.
      * rewrite chan_of_upd by reflexivity. cbn [Z.eqb Pos.eqb]. rewrite Oc4. reflexivity.
      * rewrite chan_of_upd by reflexivity. cbn [Z.eqb Pos.eqb]. exact Oc32.
      * cbn [length] in Ol4. lia.
      * constructor; [apply Ub|exact Oh].
      * cbn [app map] in *. eapply Permutation_NoDup; [|exact Ond]. rewrite !map_app. cbn [map app]. rewrite ?map_app. symmetry. apply Permutation_middle.
    + rewrite Oc32 in Ec. rewrite Ec in Oc32, Ou32, Ol32, Ond. rewrite Ec. cbn [tl]. apply Forall_cons_iff in Ou32 as [Ub Ou32]. split; [exact Ub|].
      split; [|split; [left; reflexivity|split; [exact Hs|split; [exact Ht|split; [exact Hm|apply kept_heap; reflexivity]]]]].
      constructor; cbn [set_ph f_pool f_heap p_max p_chans]; auto.
      * rewrite chan_of_upd by reflexivity. cbn [Z.eqb Pos.eqb]. exact Oc4.
      * rewrite chan_of_upd by reflexivity. cbn [Z.eqb Pos.eqb]. rewrite Oc32. reflexivity.
      * cbn [length] in Ol32. lia.
      * constructor; [apply Ub|exact Oh].
      * cbn [app map] in *. eapply Permutation_NoDup; [|exact Ond]. rewrite !map_app. cbn [map app].
        rewrite !app_assoc. symmetry. apply Permutation_middle.
Qed.

(** Returning a buffer (a prefix of a held one). *)
Lemma put_alone e w s q4 q32 held b : alone e -> (w = 4 \/ w = 32768)%Z -> own s q4 q32 (b :: held) -> usable (f_heap s) w (full_slice b) -> s_cap b = w ->
  exists s1 q4' q32', m_put e b s = (s1, FOk tt) /\ own s1 q4' q32' held /\
    (if (w =? 4)%Z then q32' = q32 else q4' = q4) /\
    (w = 32768%Z -> length q32 < Z.to_nat 10000 -> q32' = q32 ++ [full_slice b]) /\
    (forall a, In a (map s_arr q4') -> In a (map s_arr q4) \/ w = 4%Z /\ a = s_arr b) /\
    f_script s1 = f_script s /\ f_trace s1 = f_trace s /\ samep s s1 /\ f_heap s1 = f_heap s.
Proof.
  intros Ha Hw O Ub Hcap. destruct (tick_alone e s Ha) as (s0 & E0 & Hp & Hh & Hs & Ht & Hm).
  unfold m_put, mbind. rewrite E0. rewrite Hp, Hh. unfold Put. rewrite Hcap.
  destruct O as [Omax Oc4 Oc32 Ou4 Ol4 Ou32 Ol32 Oh Ond].
  apply Forall_cons_iff in Oh as [Hb Oh].
  assert (Ond' : NoDup (map s_arr (held ++ q4 ++ q32))) by (cbn [app map] in Ond; inversion Ond; assumption).
  destruct (Nat.ltb_spec (length (chan_of (p_chans (f_pool s)) w)) (p_max (f_pool s))) as [Hl|Hl].
  - destruct Hw as [->| ->]; cbn [Z.eqb Pos.eqb].
    + rewrite Oc4 in Hl. eexists _, (q4 ++ [full_slice b]), q32. split; [reflexivity|]. cbn [set_ph f_script f_trace f_heap].
      split; [|split; [reflexivity|split; [discriminate|split]]].
      * constructor; cbn [set_ph f_pool f_heap p_max p_chans]; auto.
        -- rewrite chan_of_upd by reflexivity. cbn [Z.eqb Pos.eqb]. rewrite Oc4. reflexivity.
        -- rewrite chan_of_upd by reflexivity. cbn [Z.eqb Pos.eqb]. exact Oc32.
        -- apply Forall_app. split; [exact Ou4|]. constructor; [exact Ub|constructor].
        -- rewrite app_length. cbn [length]. lia.
        -- eapply Permutation_NoDup; [|exact Ond]. cbn [app map]. rewrite !map_app. cbn [map]. rewrite <- !app_assoc. cbn [app full_slice s_arr].
           rewrite !app_assoc. apply Permutation_middle.
      * intros a Hin. rewrite map_app, in_app_iff in Hin. cbn in Hin. destruct Hin as [Hin|[Hin|[]]]; auto.
      * split; [exact Hs|]. split; [exact Ht|]. split; [exact Hm|reflexivity].
    + rewrite Oc32 in Hl. eexists _, q4, (q32 ++ [full_slice b]). split; [reflexivity|]. cbn [set_ph f_script f_trace f_heap].
      split; [|split; [reflexivity|split; [reflexivity|split; [auto|]]]].
      * constructor; cbn [set_ph f_pool f_heap p_max p_chans]; auto.
        -- rewrite chan_of_upd by reflexivity. cbn [Z.eqb Pos.eqb]. exact Oc4.
        -- rewrite chan_of_upd by reflexivity. cbn [Z.eqb Pos.eqb]. rewrite Oc32. reflexivity.
        -- apply Forall_app. split; [exact Ou32|]. constructor; [exact Ub|constructor].
        -- rewrite app_length. cbn [length]. lia.
        -- eapply Permutation_NoDup; [|exact Ond]. cbn [app map]. rewrite !map_app. cbn [map full_slice s_arr].
           rewrite !app_assoc. apply Permutation_cons_append.
      * split; [exact Hs|]. split; [exact Ht|]. split; [exact Hm|reflexivity].
  - eexists _, q4, q32. split; [reflexivity|]. cbn [set_ph f_script f_trace f_heap]. split.
    + constructor; cbn [set_ph f_pool f_heap]; auto.
    + split; [destruct Hw as [->| ->]; reflexivity|]. split; [|split; [auto|split; [exact Hs|split; [exact Ht|split; [exact Hm|reflexivity]]]]].
      intros -> Hlt. rewrite Oc32, Omax in Hl. lia.
Qed.

Lemma h_write_arr h b d a : h_data (h_write h b d) a = if Nat.eqb a (s_arr b) then firstn (Z.to_nat (s_off b)) (h_data h (s_arr b)) ++ d ++ skipn (Z.to_nat (s_off b) + length d) (h_data h (s_arr b)) else h_data h a.
Proof. reflexivity. Qed.

Lemma h_write_len h b d a : Z.to_nat (s_off b) + length d <= length (h_data h (s_arr b)) -> length (h_data (h_write h b d) a) = length (h_data h a).
Proof.
  intros H. rewrite h_write_arr. destruct (Nat.eqb_spec a (s_arr b)) as [->|]; [|reflexivity].
  rewrite !app_length, firstn_length, skipn_length. lia.
Qed.

Lemma h_write_read h b d : Z.to_nat (s_off b) <= length (h_data h (s_arr b)) ->
  h_read (h_write h b d) {| s_arr := s_arr b; s_off := s_off b; s_len := Z.of_nat (length d); s_cap := s_cap b |} = d.
Proof.
  intros H. unfold h_read. cbn [s_len s_off s_arr]. rewrite h_write_arr, Nat.eqb_refl.
  rewrite Nat2Z.id. rewrite skipn_app, skipn_all2 by (rewrite firstn_length; lia). cbn [app].
  rewrite firstn_length, Nat.min_l by lia. rewrite Nat.sub_diag. cbn [skipn].
  rewrite firstn_app, firstn_all, Nat.sub_diag. cbn [firstn]. apply app_nil_r.
Qed.

(** Reading into a held buffer, when the peer has sent something. *)
Lemma read_alone e w s q4 q32 held b seg rest : alone e -> own s q4 q32 held -> In b held -> usable (f_heap s) w b -> (0 < w)%Z -> f_script s = seg :: rest ->
  exists s1, m_read e b s = (s1, FOk (length (firstn (Z.to_nat w) seg))) /\
    f_script s1 = (match skipn (Z.to_nat w) seg with [] => rest | l => l :: rest end) /\
    f_heap s1 = h_write (f_heap s) b (firstn (Z.to_nat w) seg) /\ f_pool s1 = f_pool s /\
    own s1 q4 q32 held /\ usable (f_heap s1) w b /\ samep s s1 /\ kept (fun a => a <> s_arr b) s s1.
Proof.
  intros Ha O Hin Ub Hw Hsc. destruct (tick_alone e s Ha) as (s0 & E0 & Hp & Hh & Hs & Ht & Hm).
  unfold m_read, mbind. rewrite E0. destruct Ub as (U1 & U2 & U3 & U4 & U5). unfold m_recv. rewrite U1, Hs, Hsc.
  destruct (Nat.eqb_spec (Z.to_nat w) 0); [lia|]. cbn beta iota. eexists. split; [reflexivity|].
  cbn [set_ph set_io f_script f_heap f_pool]. rewrite Hh, Hp.
  set (d := firstn (Z.to_nat w) seg).
  assert (Hd : length d <= Z.to_nat w) by (unfold d; rewrite firstn_length; lia).
  assert (Hfit : Z.to_nat (s_off b) + length d <= length (h_data (f_heap s) (s_arr b))) by lia.
  assert (Hus : forall w' x, usable (f_heap s) w' x -> usable (h_write (f_heap s) b d) w' x).
  { intros w' x Hx. eapply usable_data; [exact Hx|cbn; lia|]. rewrite h_write_len by exact Hfit. lia. }
  split; [destruct (skipn (Z.to_nat w) seg); reflexivity|]. split; [reflexivity|]. split; [reflexivity|].
  split; [|split; [apply Hus; repeat split; assumption|split]].
  - destruct O as [Omax Oc4 Oc32 Ou4 Ol4 Ou32 Ol32 Oh Ond].
    constructor; cbn [set_ph set_io f_pool f_heap]; rewrite ?Hp; auto.
    + eapply Forall_impl; [|exact Ou4]. apply Hus.
    + eapply Forall_impl; [|exact Ou32]. apply Hus.
  - destruct Hm as (M1 & M2 & M3). repeat split; assumption.
  - split; [cbn; lia|]. intros a Hne _. cbn [set_ph f_heap]. rewrite h_write_arr. destruct (Nat.eqb_spec a (s_arr b)); [contradiction|reflexivity].
Qed.

Lemma be32_put n : be32 n = put_u32 (N.of_nat n).
Proof.
  unfold be32, put_u32, byte_of. cbn [map]. rewrite N.div_1_r. reflexivity.
Qed.

Lemma be32_length n : length (be32 n) = 4. Proof. reflexivity. Qed.
Lemma Uint32_be32 n rest : (N.of_nat n < 4294967296)%N -> Uint32 (be32 n ++ rest) = Ok (N.of_nat n).
Proof. intros H. rewrite be32_put. unfold put_u32. cbn [app Uint32]. rewrite get_put_u32 by exact H. reflexivity. Qed.

Lemma h_read_w h b w d : (0 <= w)%Z -> usable h w b -> length d = Z.to_nat w -> h_read (h_write h b d) b = d.
Proof.
  intros Hw (U1 & U2 & U3 & U4 & U5) Hd. unfold h_read. rewrite U1, h_write_arr, Nat.eqb_refl.
  rewrite skipn_app, skipn_all2 by (rewrite firstn_length; lia). cbn [app].
  rewrite firstn_length, Nat.min_l by lia. rewrite Nat.sub_diag. cbn [skipn].
  rewrite <- Hd. rewrite firstn_app, firstn_all, Nat.sub_diag. cbn [firstn]. apply app_nil_r.
Qed.

Lemma full_slice_usable h w b : usable h w b -> full_slice b = b.
Proof. intros (U1 & U2 & _). unfold full_slice. rewrite <- U2 in U1. destruct b as [a o l c]. cbn in *. congruence. Qed.

Definition arrs (l : list slc) : list nat := map s_arr l.

(** Reading one complete message that arrives on its own. *)
Lemma readBytes_frame e s q4 q32 body rest : alone e -> own s q4 q32 [] -> f_script s = frame body :: rest ->
  1 <= length body -> length body <= Z.to_nat 32768 ->
  exists s1 b q4', readBytesByPrefixLenMsg e s = (s1, FOk (Some b)) /\ h_read (f_heap s1) b = body /\
    s_len b = Z.of_nat (length body) /\ (0 <= s_off b)%Z /\ s_cap b = 32768%Z /\ usable (f_heap s1) 32768 (full_slice b) /\
    own s1 q4' (tl q32) [b] /\ (q32 = full_slice b :: tl q32 \/ q32 = [] /\ h_next (f_heap s) <= s_arr b) /\
    (forall a, In a (arrs q4') -> In a (arrs q4) \/ h_next (f_heap s) <= a) /\
    f_script s1 = rest /\ samep s s1 /\ kept (fun a => ~ In a (arrs q4) /\ a <> s_arr b) s s1.
Proof.
  intros Ha O Hsc Hb1 Hb2. unfold readBytesByPrefixLenMsg.
  destruct (get_alone e PrefixLen s q4 q32 [] Ha (or_introl eq_refl) O) as (s1 & pre & E1 & U1 & O1 & Q1 & S1 & T1 & P1 & K1).
  unfold PrefixLen in *. cbn [Z.eqb Pos.eqb] in O1, Q1.
  unfold mbind at 1. rewrite E1. rewrite Hsc in S1.
  destruct (read_alone e 4 s1 _ _ _ pre _ _ Ha O1 (or_introl eq_refl) U1 ltac:(lia) S1) as (s2 & E2 & S2 & H2 & Pl2 & O2 & U2 & P2 & K2).
  unfold mbind at 1. rewrite E2. unfold mbind at 1. cbn [m_show].
  unfold frame in S2, H2. change (Z.to_nat 4) with (length (be32 (length body))) in S2, H2.
  rewrite skipn_len_app in S2. rewrite firstn_app, firstn_all, Nat.sub_diag in H2. cbn [firstn] in H2. rewrite app_nil_r in H2.
  assert (S2' : f_script s2 = body :: rest) by (destruct body; [cbn in Hb1; lia|exact S2]).
  assert (R2 : h_read (f_heap s2) pre = be32 (length body)).
  { rewrite H2. apply (h_read_w _ _ 4); [lia|exact U1|reflexivity]. }
  unfold mbind at 1. rewrite R2. unfold lift at 1.
  rewrite <- (app_nil_r (be32 (length body))), Uint32_be32 by lia.
  destruct (N.eqb_spec (N.of_nat (length body)) 0); [lia|].
  destruct (put_alone e 4 s2 _ _ _ pre Ha (or_introl eq_refl) O2) as (s3 & q4' & q32' & E3 & O3 & Q3 & _ & A3 & S3 & T3 & P3 & H3).
  { rewrite (full_slice_usable _ _ _ U2). exact U2. }
  { apply U2. }
  cbn [Z.eqb Pos.eqb] in Q3. subst q32'.
  unfold mbind at 1. rewrite E3. change (Z.to_N maxReadLength) with 32768%N.
  destruct (N.ltb_spec 32768 (N.of_nat (length body))); [lia|].
  destruct (get_alone e 32768 s3 _ _ [] Ha (or_intror eq_refl) O3) as (s4 & buf & E4 & U4 & O4 & Q4 & S4 & T4 & P4 & K4).
  cbn [Z.eqb Pos.eqb] in O4, Q4.
  unfold mbind at 1. change maxReadLength with 32768%Z. rewrite E4.
  rewrite S3, S2' in S4.
  destruct (read_alone e 32768 s4 _ _ _ buf _ _ Ha O4 (or_introl eq_refl) U4 ltac:(lia) S4) as (s5 & E5 & S5 & H5 & Pl5 & O5 & U5 & P5 & K5).
  unfold mbind at 1. rewrite E5. rewrite firstn_all2 in * by lia. rewrite skipn_all2 in S5 by lia.
  eexists s5, _, q4'. split; [reflexivity|].
  assert (Efull : full_slice {| s_arr := s_arr buf; s_off := s_off buf; s_len := Z.of_nat (length body); s_cap := s_cap buf |} = buf).
  { etransitivity; [|exact (full_slice_usable _ _ _ U4)]. reflexivity. }
  rewrite Efull. cbn [s_len s_off s_cap s_arr].
  split; [|split; [reflexivity|split; [apply U4|split; [apply U4|split; [exact U5|split; [|split; [|split; [|split; [exact S5|split]]]]]]]]].
  - rewrite H5. apply h_write_read. destruct U4 as (_ & _ & _ & _ & U4). lia.
  - destruct O5 as [Omax Oc4 Oc32 Ou4 Ol4 Ou32 Ol32 Oh Ond]. constructor; auto.
    constructor; [|constructor]. apply Forall_inv in Oh. exact Oh.
  - destruct Q4 as [Q4|[Q4 Q4']]; [left; exact Q4|right]. split; [exact Q4|]. destruct K1 as [K1 _]. destruct K2 as [K2 _]. rewrite H3 in Q4'. lia.
  - intros a Hin. destruct (A3 a Hin) as [Hin'|[_ ->]].
    + left. unfold arrs. destruct q4; [destruct Hin'|right; exact Hin'].
    + destruct Q1 as [Q1|[_ Q1]]; [left; unfold arrs; rewrite Q1; left; reflexivity|right; lia].
  - eapply samep_trans; [exact P1|]. eapply samep_trans; [exact P2|]. eapply samep_trans; [exact P3|]. eapply samep_trans; [exact P4|exact P5].
  - assert (Hpre : forall a, ~ In a (arrs q4) -> a < h_next (f_heap s) -> a <> s_arr pre).
    { intros a Hn Hl ->. destruct Q1 as [Q1|[_ Q1]]; [apply Hn; unfold arrs; rewrite Q1; left; reflexivity|lia]. }
    destruct K1 as [K1 K1']. destruct K2 as [K2 K2']. destruct K4 as [K4 K4']. destruct K5 as [K5 K5']. split; [rewrite H3 in K4; lia|].
    intros a [Hn Hne] Hl. rewrite K5' by (auto; rewrite H3 in K4; lia). rewrite K4' by (auto; rewrite H3; lia). rewrite H3.
    rewrite K2' by (auto; lia). apply K1'; auto.
Qed.

Lemma readBytes_keepalive e s q4 q32 rest : alone e -> own s q4 q32 [] -> f_script s = be32 0 :: rest ->
  exists s1, readBytesByPrefixLenMsg e s = (s1, FOk None) /\ own s1 (tl q4) q32 [] /\
    f_script s1 = rest /\ samep s s1 /\ kept (fun a => ~ In a (arrs q4)) s s1.
Proof.
  intros Ha O Hsc. unfold readBytesByPrefixLenMsg.
  destruct (get_alone e PrefixLen s q4 q32 [] Ha (or_introl eq_refl) O) as (s1 & pre & E1 & U1 & O1 & Q1 & S1 & T1 & P1 & K1).
  unfold PrefixLen in *. cbn [Z.eqb Pos.eqb] in O1, Q1.
  unfold mbind at 1. rewrite E1. rewrite Hsc in S1.
  destruct (read_alone e 4 s1 _ _ _ pre _ _ Ha O1 (or_introl eq_refl) U1 ltac:(lia) S1) as (s2 & E2 & S2 & H2 & Pl2 & O2 & U2 & P2 & K2).
  unfold mbind at 1. rewrite E2. unfold mbind at 1. cbn [m_show].
  change (firstn (Z.to_nat 4) (be32 0)) with (be32 0) in H2. change (skipn (Z.to_nat 4) (be32 0)) with (@nil byte) in S2.
  assert (R2 : h_read (f_heap s2) pre = be32 0).
  { rewrite H2. apply (h_read_w _ _ 4); [lia|exact U1|reflexivity]. }
  unfold mbind at 1. rewrite R2. unfold lift at 1. change (Uint32 (be32 0)) with (Ok 0%N). cbn beta iota. rewrite N.eqb_refl.
  exists s2. split; [reflexivity|]. split; [|split; [exact S2|split; [eapply samep_trans; eassumption|]]].
  - destruct O2 as [Omax Oc4 Oc32 Ou4 Ol4 Ou32 Ol32 Oh Ond]. constructor; auto. cbn [app map] in *. inversion Ond; assumption.
  - destruct K1 as [K1 K1']. destruct K2 as [K2 K2']. split; [lia|]. intros a Hn Hl. rewrite K2'; [apply K1'; auto| |lia].
    intros ->. destruct Q1 as [Q1|[_ Q1]]; [apply Hn; unfold arrs; rewrite Q1; left; reflexivity|lia].
Qed.

Lemma handle_quiet e b s s' r : handle_msg e b s = (s', r) -> f_pool s' = f_pool s /\ f_heap s' = f_heap s /\ f_script s' = f_script s.
Proof.
  assert (Hb : forall A C (m : M A) (k : A -> M C),
    (forall s s' r, m s = (s', r) -> f_pool s' = f_pool s /\ f_heap s' = f_heap s /\ f_script s' = f_script s) ->
    (forall a s s' r, k a s = (s', r) -> f_pool s' = f_pool s /\ f_heap s' = f_heap s /\ f_script s' = f_script s) ->
    forall s s' r, mbind m k s = (s', r) -> f_pool s' = f_pool s /\ f_heap s' = f_heap s /\ f_script s' = f_script s).
  { intros A C m k Hm Hk s0 s1 r0 E. unfold mbind in E. destruct (m s0) as [sa [a|x|p|x]] eqn:Ea; specialize (Hm _ _ _ Ea).
    - specialize (Hk a _ _ _ E). destruct Hm as (? & ? & ?), Hk as (? & ? & ?). repeat split; congruence.
    - injection E as <- <-. exact Hm.
    - injection E as <- <-. exact Hm.
    - injection E as <- <-. exact Hm. }
  assert (Hl : forall A (x : res A) s s' r, lift x s = (s', r) -> f_pool s' = f_pool s /\ f_heap s' = f_heap s /\ f_script s' = f_script s).
  { intros A x s0 s1 r0 E. injection E as <- _. auto. }
  assert (Hr : forall A (x : A) s s' r, ret x s = (s', r) -> f_pool s' = f_pool s /\ f_heap s' = f_heap s /\ f_script s' = f_script s).
  { intros A x s0 s1 r0 E. injection E as <- _. auto. }
  assert (Hp : forall A x s s' r, @mpanic A x s = (s', r) -> f_pool s' = f_pool s /\ f_heap s' = f_heap s /\ f_script s' = f_script s).
  { intros A x s0 s1 r0 E. injection E as <- _. auto. }
  assert (Hk : forall a c s s' r, m_make e a c s = (s', r) -> f_pool s' = f_pool s /\ f_heap s' = f_heap s /\ f_script s' = f_script s).
  { intros a c s0 s1 r0 E. unfold m_make in E. destruct (_ || _); [injection E as <- _; auto|]. destruct (e_mem e (a * c)); injection E as <- _; auto. }
  assert (Hw : forall bs s s' r, m_write e bs s = (s', r) -> f_pool s' = f_pool s /\ f_heap s' = f_heap s /\ f_script s' = f_script s).
  { intros bs s0 s1 r0 E. unfold m_write in E. destruct (e_write e (length (f_trace s0))); injection E as <- _; auto. }
  assert (Hq : forall is s s' r, request_pieces e is s = (s', r) -> f_pool s' = f_pool s /\ f_heap s' = f_heap s /\ f_script s' = f_script s).
  { induction is as [|i t IH]; cbn [request_pieces]; [apply Hr|].
    apply Hb; [intros s0 s1 r0 E; injection E as <- _; auto|]. intros ord. apply Hb; [apply Hl|]. intros msg. apply Hb; [apply Hw|].
    intros [|]; [exact IH|apply Hp]. }
  revert s s' r. unfold handle_msg. apply Hb; [intros s0 s1 r0 E; injection E as <- _; auto|]. intros data.
  apply Hb; [apply Hl|]. intros ty. destruct (ty =? ExtendedPeerMsg)%N; [|apply Hr].
  unfold handleExtendedMsg. apply Hb; [apply Hl|]. intros id.
  destruct (bval id =? 0)%N; [|destruct (bval id =? 1)%N; [|apply Hr]].
  - unfold handle_ext_handshake. apply Hb; [apply Hl|]. intros dict.
    destruct (negb (Exist dict (B "metadata_size"))); [apply Hp|]. apply Hb; [apply Hl|]. intros sz.
    apply Hb; [intros s0 s1 r0 E; injection E as <- _; auto|]. intros _. cbv zeta.
    apply Hb; [apply Hk|]. intros _. apply Hb; [intros s0 s1 r0 E; injection E as <- _; auto|]. intros _.
    apply Hb; [apply Hk|]. intros _. apply Hb; [intros s0 s1 r0 E; injection E as <- _; auto|]. intros _. apply Hq.
  - unfold handle_piece. apply Hb; [apply Hl|]. intros m. destruct (negb (fm_type m =? ExData)%Z); [apply Hr|]. cbv zeta.
    intros s0 s1 r0 E. destruct (_ || _); [injection E as <- _; auto|]. destruct (_ <=? _)%Z; injection E as <- _; auto.
Qed.

(** Handling one complete message that arrives on its own. *)
Lemma handler_frame e s q4 q32 body rest : alone e -> own s q4 q32 [] -> f_script s = frame body :: rest ->
  1 <= length body -> length body <= Z.to_nat 32768 ->
  exists s1 b, h_read (f_heap s1) b = body /\ s_len b = Z.of_nat (length body) /\ (0 <= s_off b)%Z /\
    (q32 = full_slice b :: tl q32 \/ q32 = [] /\ h_next (f_heap s) <= s_arr b) /\ samep s s1 /\ wr s1 = wr s /\
    forall s2 r, handle_msg e b s1 = (s2, r) -> (forall x, r <> FStop x) ->
      exists s3 q4', readMetaDataHandler e s = (s3, r) /\ own s3 q4' (tl q32 ++ [full_slice b]) [] /\ samep s2 s3 /\ wr s3 = wr s2 /\
        f_heap s3 = f_heap s1 /\ f_script s3 = rest /\ kept (fun a => ~ In a (arrs q4) /\ a <> s_arr b) s s3.
Proof.
  intros Ha O Hsc Hb1 Hb2.
  destruct (readBytes_frame e s q4 q32 body rest Ha O Hsc Hb1 Hb2) as (s1 & b & q4' & E1 & R1 & L1 & F1 & C1 & U1 & O1 & Q1 & A1 & S1 & P1 & K1).
  exists s1, b. split; [exact R1|]. split; [exact L1|]. split; [exact F1|]. split; [exact Q1|]. split; [exact P1|]. split; [eapply wr_reads; exact E1|].
  intros s2 r Hm Hns. destruct (handle_quiet _ _ _ _ _ Hm) as (G1 & G2 & G3).
  assert (O2 : own s2 q4' (tl q32) [b]).
  { destruct O1 as [Omax Oc4 Oc32 Ou4 Ol4 Ou32 Ol32 Oh Ond]. constructor; rewrite ?G1, ?G2; auto. }
  destruct (put_alone e 32768 s2 q4' (tl q32) [] b Ha (or_intror eq_refl) O2) as (s3 & q4'' & q32' & E3 & O3 & Q3 & Q3' & A3 & S3 & T3 & P3 & H3).
  { rewrite G2. exact U1. } { exact C1. }
  rewrite Q3' in O3; [|reflexivity|].
  2:{ destruct O as [Omax _ _ _ _ _ Ol32 _ _]. rewrite Omax in Ol32. destruct q32; cbn [tl length] in *; lia. }
  exists s3, q4''. unfold readMetaDataHandler. rewrite E1. unfold with_put. rewrite Hm.
  rewrite C1. change (0 <? 32768)%Z with true. rewrite E3. cbn [fst].
  assert (Er : (match r with FStop x => (s2, FStop x) | _ => (s3, r) end) = (s3, r)) by (destruct r as [| | |x]; [reflexivity..|destruct (Hns x eq_refl)]).
  split; [destruct r as [| | |x]; [reflexivity..|destruct (Hns x eq_refl)]|].
  split; [exact O3|]. split; [exact P3|]. split; [unfold wr; rewrite T3; reflexivity|]. split; [congruence|]. split; [congruence|].
  destruct K1 as [K1 K1']. split; [rewrite H3, G2; exact K1|]. intros a Ha' Hl. rewrite H3, G2. apply K1'; assumption.
Qed.

Lemma handler_keepalive e s q4 q32 rest : alone e -> own s q4 q32 [] -> f_script s = be32 0 :: rest ->
  exists s1, readMetaDataHandler e s = (s1, FOk tt) /\ wr s1 = wr s /\ own s1 (tl q4) q32 [] /\
    f_script s1 = rest /\ samep s s1 /\ kept (fun a => ~ In a (arrs q4)) s s1.
Proof.
  intros Ha O Hsc. destruct (readBytes_keepalive e s q4 q32 rest Ha O Hsc) as (s1 & E1 & H1).
  exists s1. split; [unfold readMetaDataHandler; rewrite E1; reflexivity|]. split; [eapply wr_reads; exact E1|exact H1].
Qed.

Lemma bencoding_dict_facts d enc : bencoding (VDict d) enc -> go_value (VDict d) /\ EncodeDict (Some d) = Ok enc /\ NoDup (map fst d).
Proof.
  intros H. apply bencoding_iff in H as [Hg He]. split; [exact Hg|]. split; [exact He|]. inversion Hg; assumption.
Qed.

Lemma getint_in d k z : NoDup (map fst d) -> In (k, VInt z) d -> GetInteger d k = Ok z.
Proof. intros Hn Hin. unfold GetInteger, GetVal. apply dget_In in Hin; [|exact Hn]. rewrite Hin. reflexivity. Qed.

Lemma fits_small (l : bytes) : length l <= Z.to_nat 32768 -> fits l.
Proof. intros H. unfold fits, max_int. lia. Qed.

Lemma handle_other e b s body : h_read (f_heap s) b = body -> other_msg body -> length body <= Z.to_nat 32768 ->
  handle_msg e b s = (s, FOk tt).
Proof.
  intros Hr Ho Hl. unfold handle_msg, mbind at 1. cbn [m_show]. rewrite Hr.
  destruct Ho as [(c & t & -> & Hc)|[(c & t & -> & H0 & H1)|(d & enc & ty & i & -> & Hb & Hty & Hne & Hi)]].
  - unfold mbind, lift, parsePrefixLenMsg, idx. cbn [nth_error bind]. destruct (N.eqb_spec (bval c) ExtendedPeerMsg) as [E|E]; [|reflexivity].
    destruct Hc. apply bval_inj. rewrite E. reflexivity.
  - unfold mbind, lift, parsePrefixLenMsg, handleExtendedMsg, idx. cbn [nth_error bind].
    change (bval (ascii_of_nat 20) =? ExtendedPeerMsg)%N with true. cbv iota. unfold mbind, lift, idx. cbn [nth_error].
    destruct (N.eqb_spec (bval c) 0) as [E|E]; [destruct H0; apply bval_inj; rewrite E; reflexivity|].
    destruct (N.eqb_spec (bval c) 1) as [E'|E']; [destruct H1; apply bval_inj; rewrite E'; reflexivity|]. reflexivity.
  - unfold mbind, lift, parsePrefixLenMsg, handleExtendedMsg, idx. cbn [nth_error bind].
    change (bval (ascii_of_nat 20) =? ExtendedPeerMsg)%N with true. cbv iota. unfold mbind, lift, idx. cbn [nth_error].
    change (bval (ascii_of_nat 1) =? 0)%N with false. change (bval (ascii_of_nat 1) =? 1)%N with true. cbv iota.
    unfold handle_piece, mbind, lift, parseExtendedFetchMetaMsg, idx. cbn [nth_error bind].
    change (negb (ExtendedPeerMsg =? bval (ascii_of_nat 20))%N) with false. cbv iota. cbn [skipn].
    destruct (bencoding_dict_facts _ _ Hb) as (Hg & He & Hn).
    assert (Hf : fits enc) by (apply fits_small; cbn [length] in Hl; lia).
    destruct (dict_roundtrip_exact d enc Hg Hf He) as [_ ->]. cbv zeta. cbn [length].
    destruct (Nat.leb_spec (S (S (length enc))) (length enc + 2)); [|lia].
    rewrite (getint_in _ _ _ Hn Hty), (getint_in _ _ _ Hn Hi). cbn [bind fm_type]. unfold ExData.
    destruct (Z.eqb_spec ty 1); [contradiction|]. reflexivity.
Qed.

Lemma other_nonempty body : other_msg body -> 1 <= length body.
Proof.
  intros [(c & t & -> & _)|[(c & t & -> & _)|(d & enc & ty & i & -> & _)]]; cbn [length]; lia.
Qed.

Lemma piece_count_needed size k : (0 <= size)%Z -> pieces_needed size k -> piece_count size = k.
Proof.
  intros Hs [H1 H2]. unfold piece_count, SizeOf16KB. change (16 * 1024)%Z with 16384%Z.
  rewrite Z.quot_div_nonneg, Z.rem_mod_nonneg by lia.
  destruct (Z.ltb_spec 0 (size mod 16384)) as [Hp|Hp].
  - pose proof (Z.div_mod size 16384 ltac:(lia)). pose proof (Z.mod_pos_bound size 16384 ltac:(lia)).
    assert (size / 16384 = k - 1)%Z by (symmetry; apply (Z.div_unique size 16384 (k - 1) (size - (k - 1) * 16384)); lia). lia.
  - pose proof (Z.div_mod size 16384 ltac:(lia)). pose proof (Z.mod_pos_bound size 16384 ltac:(lia)). nia.
Qed.

Lemma request_ok e i : (forall n x, deq x (e_ford e n x)) -> (Z.of_nat i <= max_int)%Z -> forall n,
  exists msg, withExtendedFetchMetaMsg (e_ford e n) 1 ExRequest (Z.of_nat i) 0 [] = Ok msg.
Proof.
  intros Ho Hi n. destruct (C54_metadata_roundtrip_pf (e_ford e n) 1 ExRequest (Z.of_nat i) 0 []) as (msg & E & _); eauto.
  all: unfold is_int, min_int, max_int, ExRequest in *; try lia.
Qed.

(** The writes of the request loop. *)
Lemma requests_run e is : calm e -> (forall i, In i is -> (Z.of_nat i <= max_int)%Z) -> forall s,
  exists s' msgs, request_pieces e is s = (s', FOk tt) /\ samep s s' /\ f_trace s' = f_trace s ++ map CWrite msgs /\
    Forall2 (fun i m => exists n, withExtendedFetchMetaMsg (e_ford e n) 1 ExRequest (Z.of_nat i) 0 [] = Ok m) is msgs.
Proof.
  intros Hc. induction is as [|i t IH]; intros Hi s.
  - exists s, []. cbn. rewrite app_nil_r. repeat split. constructor.
  - cbn [request_pieces]. unfold mbind at 1. cbn [m_ord]. unfold mbind at 1, lift.
    destruct (request_ok e i (ca_ord e Hc) (Hi i (or_introl eq_refl)) (length (f_trace s))) as (msg & Em). rewrite Em.
    unfold mbind, m_write. rewrite (ca_write e Hc).
    destruct (IH (fun j Hj => Hi j (or_intror Hj)) (set_io s (f_script s) (CWrite msg))) as (s' & msgs & E & P & T & F).
    exists s', (msg :: msgs). rewrite E. split; [reflexivity|]. split; [exact P|]. cbn [set_io f_trace] in T.
    rewrite T, <- app_assoc. split; [reflexivity|]. constructor; [|exact F]. eauto.
Qed.

Lemma handle_ext e b s body size k : calm e -> h_read (f_heap s) b = body -> ext_handshake body size -> length body <= Z.to_nat 32768 ->
  (0 <= size <= 2 ^ 48)%Z -> pieces_needed size (Z.of_nat k) ->
  exists s' msgs, handle_msg e b s = (s', FOk tt) /\ f_meta s' = repeat None k /\ f_size s' = size /\ f_req s' = repeat false k /\
    f_trace s' = f_trace s ++ map CWrite msgs /\
    Forall2 (fun i m => exists n, withExtendedFetchMetaMsg (e_ford e n) 1 ExRequest (Z.of_nat i) 0 [] = Ok m) (seq 0 k) msgs.
Proof.
  intros Hc Hr (d & enc & m & -> & Hb & Hm & Hsz) Hl Hs Hk. unfold handle_msg, mbind at 1. cbn [m_show]. rewrite Hr.
  unfold mbind, lift, parsePrefixLenMsg, handleExtendedMsg, idx. cbn [nth_error bind].
  change (bval (ascii_of_nat 20) =? ExtendedPeerMsg)%N with true. cbv iota. unfold mbind at 1, lift, idx. cbn [nth_error].
  change (bval (ascii_of_nat 0) =? 0)%N with true. cbv iota.
  unfold handle_ext_handshake, mbind at 1, lift, parseExtendedHandShake, idx. cbn [nth_error bind].
  change (negb (ExtendedPeerMsg =? bval (ascii_of_nat 20))%N || negb (0 =? bval (ascii_of_nat 0))%N) with false. cbv iota. cbn [skipn].
  destruct (bencoding_dict_facts _ _ Hb) as (Hg & He & Hn).
  assert (Hf : fits enc) by (apply fits_small; cbn [length] in Hl; lia).
  destruct (dict_roundtrip_exact d enc Hg Hf He) as [-> _]. cbn [dict_of].
  assert (Em : dget d (B "m") = Some (VDict m)) by (apply dget_In; assumption).
  assert (Es : dget d (B "metadata_size") = Some (VInt size)) by (apply dget_In; assumption).
  unfold GetDict, GetVal. rewrite Em. cbn [bind]. unfold NewBaseExHandShakeMsg. cbn [dict_of dict_val].
  rewrite (dset_same d _ _ Hn Em). unfold Exist at 1. rewrite Es. cbn [negb].
  unfold mbind at 1, GetInteger, GetVal. rewrite Es. cbn [bind]. unfold mbind at 1. cbv zeta.
  pose proof (piece_count_needed size (Z.of_nat k) ltac:(lia) Hk) as Epc. rewrite Epc, Nat2Z.id.
  destruct Hk as [Hk1 Hk2].
  unfold mbind at 1, m_make at 1. destruct (Z.ltb_spec (Z.of_nat k) 0); [lia|]. destruct (Z.ltb_spec (2 ^ 48) (24 * Z.of_nat k)); [lia|].
  cbn [orb]. rewrite (ca_mem e Hc). unfold mbind at 1.
  unfold mbind at 1, m_make at 1. destruct (Z.ltb_spec (Z.of_nat k) 0); [lia|]. destruct (Z.ltb_spec (2 ^ 48) (1 * Z.of_nat k)); [lia|].
  cbn [orb]. rewrite (ca_mem e Hc). unfold mbind at 1.
  match goal with |- exists s' msgs, request_pieces e (seq 0 k) ?st = _ /\ _ => destruct (requests_run e (seq 0 k) Hc) with (s := st) as (s' & msgs & E & P & T & F) end.
  { intros i Hi. apply in_seq in Hi. unfold max_int. lia. }
  exists s', msgs. split; [exact E|]. destruct P as (P1 & P2 & P3). cbn [set_meta f_meta f_size f_req] in P1, P2, P3. repeat split; auto.
Qed.

Lemma ext_nonempty body size : ext_handshake body size -> 1 <= length body.
Proof. intros (d & enc & m & -> & _). cbn [length]. lia. Qed.

Lemma piece_nonempty meta k i : pieces_needed (Z.of_nat (length meta)) (Z.of_nat k) -> i < k -> piece_of meta i <> [].
Proof.
  intros [H1 H2] Hi E. apply (f_equal (@length byte)) in E. unfold piece_of in E. rewrite firstn_length, skipn_length in E. cbn [length] in E.
  unfold kb16 in E. lia.
Qed.

(** Storing a piece. *)
Lemma handle_data e b s body meta k i : h_read (f_heap s) b = body -> s_len b = Z.of_nat (length body) -> (0 <= s_off b)%Z ->
  data_msg meta i body -> length body <= Z.to_nat 32768 ->
  pieces_needed (Z.of_nat (length meta)) (Z.of_nat k) -> i < k -> length (f_meta s) = k -> length (f_req s) = k ->
  exists sl, handle_msg e b s = (set_meta s (list_set (f_meta s) i (Some sl)) (f_size s) (list_set (f_req s) i true), FOk tt) /\
    s_arr sl = s_arr b /\ h_read (f_heap s) sl = piece_of meta i.
Proof.
  intros Hr Hlb Hob (d & enc & total & -> & Hb & Hty & Hpc & Htot) Hl Hk Hik Hlm Hlr.
  unfold handle_msg, mbind at 1. cbn [m_show]. rewrite Hr.
  unfold mbind, lift, parsePrefixLenMsg, handleExtendedMsg, idx. cbn [nth_error bind].
  change (bval (ascii_of_nat 20) =? ExtendedPeerMsg)%N with true. cbv iota. unfold mbind, lift, idx. cbn [nth_error].
  change (bval (ascii_of_nat 1) =? 0)%N with false. change (bval (ascii_of_nat 1) =? 1)%N with true. cbv iota.
  unfold handle_piece, mbind, lift, parseExtendedFetchMetaMsg, idx. cbn [nth_error bind].
  change (negb (ExtendedPeerMsg =? bval (ascii_of_nat 20))%N) with false. cbv iota. cbn [skipn].
  destruct (bencoding_dict_facts _ _ Hb) as (Hg & He & Hn).
  assert (Hf : fits (enc ++ piece_of meta i)) by (apply fits_small; cbn [length] in Hl; lia).
  rewrite (dict_prefix_exact d enc _ Hg Hf He). cbv zeta. cbn [length]. rewrite app_length.
  pose proof (piece_nonempty meta k i Hk Hik) as Hne.
  destruct (Nat.leb_spec (S (S (length enc + length (piece_of meta i)))) (length enc + 2)) as [Hx|_].
  { destruct (piece_of meta i); [congruence|cbn [length] in Hx; lia]. }
  rewrite (getint_in _ _ _ Hn Hty), (getint_in _ _ _ Hn Hpc), (getint_in _ _ _ Hn Htot). cbn [bind fm_type fm_piece fm_data]. unfold ExData.
  cbn [Z.eqb Pos.eqb negb].
  destruct (Z.ltb_spec (Z.of_nat i) 0); [lia|]. rewrite Hlm, Hlr. destruct (Z.leb_spec (Z.of_nat k) (Z.of_nat i)); [lia|]. cbn [orb].
  rewrite Nat2Z.id. eexists. split; [reflexivity|]. cbn [s_arr]. split; [reflexivity|].
  unfold h_read in *. cbn [s_len s_off s_arr]. rewrite Hlb in *. cbn [length] in *. rewrite app_length in *.
  replace (Z.to_nat (s_off b + Z.of_nat (length enc + 2))) with (Z.to_nat (s_off b) + (length enc + 2)) by lia.
  rewrite skipn_add.
  replace (Z.to_nat (Z.of_nat (S (S (length enc + length (piece_of meta i)))) - Z.of_nat (length enc + 2))) with (length (piece_of meta i)) by lia.
  rewrite Nat2Z.id in Hr.
  assert (E : skipn (length enc + 2) (firstn (S (S (length enc + length (piece_of meta i)))) (skipn (Z.to_nat (s_off b)) (h_data (f_heap s) (s_arr b)))) = piece_of meta i).
  { rewrite Hr. replace (length enc + 2) with (S (S (length enc))) by lia. cbn [skipn]. apply skipn_len_app. }
  rewrite skipn_firstn_comm in E. replace (S (S (length enc + length (piece_of meta i))) - (length enc + 2)) with (length (piece_of meta i)) in E by lia.
  exact E.
Qed.

Lemma data_nonempty meta i body : data_msg meta i body -> 1 <= length body.
Proof. intros (d & enc & t & -> & _). cbn [length]. lia. Qed.

(** * Part 3: the loop against an honest peer *)

Lemma loop_next e f s s' : CompledMetaData s = false -> e_exp e (f_tick s) = false -> readMetaDataHandler e s = (s', FOk tt) ->
  readMetaDataLoop e (S f) s = readMetaDataLoop e f s'.
Proof. intros H1 H2 H3. cbn [readMetaDataLoop]. rewrite H1, H2. cbn [negb andb]. unfold mbind. rewrite H3. reflexivity. Qed.

Lemma loop_done e f s : CompledMetaData s = true -> readMetaDataLoop e (S f) s = (s, FOk tt).
Proof. intros H. cbn [readMetaDataLoop]. rewrite H. reflexivity. Qed.

Lemma samep_completed s s' : samep s s' -> CompledMetaData s' = CompledMetaData s.
Proof. intros (_ & _ & H). unfold CompledMetaData. rewrite H. reflexivity. Qed.

(** Messages without pieces leave everything but the buffers unchanged. *)
Lemma noise_phase e meta : alone e -> calm e -> forall l s q4 q32 rest f,
  own s q4 q32 [] -> f_script s = map wire l ++ rest -> Forall (msg_ok meta) l -> pieces l = [] -> CompledMetaData s = false ->
  exists s' q4' q32', readMetaDataLoop e (length l + f) s = readMetaDataLoop e f s' /\ own s' q4' q32' [] /\ samep s s' /\ f_script s' = rest /\
    length q32 <= length q32' /\ wr s' = wr s.
Proof.
  intros Ha Hc. induction l as [|m t IH]; intros s q4 q32 rest f O Hsc Hok Hnp Hcm.
  - exists s, q4, q32. cbn in Hsc. split; [reflexivity|]. split; [exact O|]. split; [apply samep_refl|]. auto.
  - apply Forall_cons_iff in Hok as [Hm Hok]. cbn [map app] in Hsc. destruct m as [|body|i body]; [| |discriminate].
    + destruct (handler_keepalive e s q4 q32 _ Ha O Hsc) as (s1 & E1 & W1 & O1 & S1 & P1 & K1).
      assert (Hcm1 : CompledMetaData s1 = false) by (rewrite (samep_completed _ _ P1); exact Hcm).
      destruct (IH s1 _ _ rest f O1 S1 Hok Hnp Hcm1) as (s' & q4' & q32' & E & O' & P' & S' & L' & W').
      exists s', q4', q32'. split; [|split; [exact O'|split; [eapply samep_trans; eassumption|split; [exact S'|split; [exact L'|congruence]]]]].
      cbn [length Nat.add]. rewrite (loop_next e _ s s1); auto. apply (ca_exp e Hc).
    + destruct Hm as [Ho Hl]. cbn [wire] in Hsc.
      destruct (handler_frame e s q4 q32 body _ Ha O Hsc (other_nonempty _ Ho) Hl) as (s1 & b & R1 & L1 & F1 & Q1 & P1 & W1 & K).
      destruct (K s1 (FOk tt) (handle_other e b s1 body R1 Ho Hl)) as (s3 & q4' & E3 & O3 & P3 & W3 & H3 & S3 & K3); [discriminate|].
      assert (P : samep s s3) by (eapply samep_trans; eassumption).
      assert (Hcm1 : CompledMetaData s3 = false) by (rewrite (samep_completed _ _ P); exact Hcm).
      destruct (IH s3 _ _ rest f O3 S3 Hok Hnp Hcm1) as (s' & q4'' & q32'' & E & O' & P' & S' & L' & W').
      exists s', q4'', q32''. split; [|split; [exact O'|split; [eapply samep_trans; eassumption|split; [exact S'|split; [|congruence]]]]].
      * cbn [length Nat.add]. rewrite (loop_next e _ s s3); auto. apply (ca_exp e Hc).
      * rewrite app_length in L'. cbn [length] in L'. destruct q32; cbn [tl length] in *; lia.
Qed.

(** Progress of the download: pieces in [done] are stored, in buffers at the back of the queue. *)
Record stored (meta : bytes) (k : nat) (s : fstate) (used : list slc) (done : list nat) : Prop := {
  st_meta : length (f_meta s) = k; st_req : length (f_req s) = k; st_size : f_size s = Z.of_nat (length meta);
  st_done : forall i, i < k -> In i done -> nth_error (f_req s) i = Some true /\
     exists sl, nth_error (f_meta s) i = Some (Some sl) /\ h_read (f_heap s) sl = piece_of meta i /\ In (s_arr sl) (arrs used);
  st_todo : forall i, i < k -> ~ In i done -> nth_error (f_req s) i = Some false }.

Lemma stored_keep meta k s s' used used' done (X : nat -> Prop) : stored meta k s used done -> samep s s' -> kept X s s' ->
  (forall a, In a (arrs used) -> X a /\ a < h_next (f_heap s)) -> (forall a, In a (arrs used) -> In a (arrs used')) ->
  stored meta k s' used' done.
Proof.
  intros [H1 H2 H3 H4 H5] (P1 & P2 & P3) [_ K] HX Hu. constructor; rewrite ?P1, ?P2, ?P3; auto.
  intros i Hi Hd. destruct (H4 i Hi Hd) as (Hr & sl & Hs & Hh & Hin). split; [exact Hr|]. exists sl. split; [exact Hs|]. split; [|auto].
  rewrite <- Hh. unfold h_read. rewrite K; [reflexivity|apply HX, Hin..].
Qed.

Lemma not_completed meta k s used done : stored meta k s used done -> (exists i, i < k /\ ~ In i done) -> CompledMetaData s = false.
Proof.
  intros [_ _ _ _ H5] (i & Hi & Hd). unfold CompledMetaData. specialize (H5 i Hi Hd).
  apply nth_error_In in H5. destruct (forallb (fun b => b) (f_req s)) eqn:E; [|reflexivity].
  rewrite forallb_forall in E. specialize (E _ H5). discriminate.
Qed.
Lemma completed meta k s used done : stored meta k s used done -> (forall i, i < k -> In i done) -> CompledMetaData s = true.
Proof.
  intros [_ H2 _ H4 _] Hall. unfold CompledMetaData. apply forallb_forall. intros x Hx.
  apply In_nth_error in Hx as (i & Hi). assert (Hk : i < k) by (rewrite <- H2; apply nth_error_Some; congruence).
  destruct (H4 i Hk (Hall i Hk)) as [Hr _]. congruence.
Qed.

Lemma own_lt s q4 q32 held a : own s q4 q32 held -> In a (arrs (held ++ q4 ++ q32)) -> a < h_next (f_heap s).
Proof.
  intros [_ _ _ Ou4 _ Ou32 _ Oh _] Hin. unfold arrs in Hin. apply in_map_iff in Hin as (b & <- & Hin).
  rewrite !in_app_iff in Hin. rewrite Forall_forall in *. destruct Hin as [H|[H|H]]; [apply Oh, H|apply Ou4 in H|apply Ou32 in H]; apply H.
Qed.

Lemma own_disj s q4 q32 a : own s q4 q32 [] -> In a (arrs q32) -> ~ In a (arrs q4).
Proof.
  intros O H1 H2. pose proof (o_nd _ _ _ _ O) as H. cbn [app] in H. rewrite map_app in H.
  fold (arrs q4) (arrs q32) in H. revert H. generalize (arrs q4) (arrs q32) H1 H2. clear. intros l l' H1 H2 H.
  induction l as [|x l IH]; [destruct H2|]. cbn in H. inversion H as [|? ? Hx Hn]; subst. destruct H2 as [->|H2].
  - apply Hx. apply in_app_iff. auto.
  - apply IH; assumption.
Qed.

Lemma arrs_app a b : arrs (a ++ b) = arrs a ++ arrs b. Proof. apply map_app. Qed.

(** The phase in which the pieces arrive. *)
Lemma piece_phase e meta k : alone e -> calm e -> pieces_needed (Z.of_nat (length meta)) (Z.of_nat k) ->
  forall l s q4 fresh used done rest f,
  own s q4 (fresh ++ used) [] -> stored meta k s used done -> f_script s = map wire l ++ rest -> Forall (msg_ok meta) l ->
  carrying l <= length fresh -> Permutation (done ++ pieces l) (seq 0 k) -> (l = [] \/ exists i body t, l = t ++ [Piece i body]) ->
  exists s' q4' q32' used' , readMetaDataLoop e (length l + S f) s = (s', FOk tt) /\ own s' q4' q32' [] /\ stored meta k s' used' (seq 0 k) /\ wr s' = wr s.
Proof.
  intros Ha Hc Hk. induction l as [|m t IH]; intros s q4 fresh used done rest f O St Hsc Hok Hcar Hper Hlast.
  - cbn [pieces] in Hper. rewrite app_nil_r in Hper. cbn [length Nat.add].
    assert (Hin : forall i, In i done <-> In i (seq 0 k)) by (intros i; apply Permutation_in_iff; exact Hper).
    exists s, q4, (fresh ++ used), used. split; [|split; [exact O|split; [|reflexivity]]].
    + apply loop_done. eapply completed; [exact St|]. intros i Hi. apply Hin, in_seq. lia.
    + destruct St as [H1 H2 H3 H4 H5]. constructor; auto; intros i Hi Hd; [apply H4; [exact Hi|apply Hin; exact Hd]|apply H5; [exact Hi|intros X; apply Hd, Hin; exact X]].
  - apply Forall_cons_iff in Hok as [Hm Hok]. cbn [map app] in Hsc.
    assert (Hnc : CompledMetaData s = false).
    { eapply not_completed; [exact St|]. destruct Hlast as [Hx|(i & body & t' & Hx)]; [discriminate|].
      assert (Hip : In i (pieces (m :: t))).
      { rewrite Hx. clear. induction t' as [|m t' IH]; [left; reflexivity|]. cbn [app pieces]. destruct (is_piece m); [right|]; exact IH. }
      assert (Hnd : NoDup (done ++ pieces (m :: t))) by (eapply Permutation_NoDup; [symmetry; exact Hper|apply seq_NoDup]).
      exists i. split.
      - assert (H : In i (seq 0 k)) by (eapply Permutation_in; [exact Hper|]; apply in_app_iff; auto). apply in_seq in H. lia.
      - intros Hd. clear -Hnd Hip Hd. induction done as [|x done IH]; [destruct Hd|]. cbn in Hnd. inversion Hnd as [|? ? Hx Hn]; subst.
        destruct Hd as [->|Hd]; [apply Hx, in_app_iff; auto|apply IH; assumption]. }
    assert (Hlast' : t = [] \/ exists i body t', t = t' ++ [Piece i body]).
    { destruct Hlast as [Hx|(i & body & t' & Hx)]; [discriminate|]. destruct t' as [|m' t']; [cbn in Hx; injection Hx as _ ->; auto|].
      cbn in Hx. injection Hx as _ ->. right. eauto. }
    assert (Hused : forall a, In a (arrs used) -> ~ In a (arrs q4) /\ a < h_next (f_heap s)).
    { intros a Hin. assert (Hin' : In a (arrs (fresh ++ used))) by (rewrite arrs_app, in_app_iff; auto).
      split; [eapply own_disj; eassumption|]. eapply own_lt; [exact O|]. cbn [app]. rewrite arrs_app, in_app_iff. auto. }
    destruct m as [|body|i body]; cbn [wire] in Hsc.
    + destruct (handler_keepalive e s q4 _ _ Ha O Hsc) as (s1 & E1 & W1 & O1 & S1 & P1 & K1).
      destruct (IH s1 (tl q4) fresh used done rest f O1) as (s' & q4' & q32' & used' & E & R1' & R2' & R3'); auto.
      { eapply stored_keep; [exact St|exact P1|exact K1|exact Hused|auto]. }
      exists s', q4', q32', used'. split; [|split; [exact R1'|split; [exact R2'|congruence]]]. cbn [length Nat.add]. rewrite (loop_next e _ s s1); auto. apply (ca_exp e Hc).
    + destruct Hm as [Ho Hl]. cbn [carrying] in Hcar. destruct fresh as [|b0 fresh]; [cbn in Hcar; lia|].
      destruct (handler_frame e s q4 _ body _ Ha O Hsc (other_nonempty _ Ho) Hl) as (s1 & b & R1 & L1 & F1 & Q1 & P1 & W1 & K).
      destruct (K s1 (FOk tt) (handle_other e b s1 body R1 Ho Hl)) as (s3 & q4' & E3 & O3 & P3 & W3 & H3 & S3 & K3); [discriminate|].
      cbn [app tl] in Q1, O3. destruct Q1 as [Q1|[Q1 _]]; [|discriminate]. injection Q1 as Q1.
      assert (Hb : s_arr b = s_arr b0) by (rewrite Q1; reflexivity).
      destruct (IH s3 q4' fresh (used ++ [b0]) done rest f) as (s' & q4'' & q32'' & used' & E & R1' & R2' & R3'); auto.
      { rewrite app_assoc, Q1. exact O3. }
      { eapply stored_keep; [exact St|eapply samep_trans; [exact P1|exact P3]|exact K3| |].
        - intros a Hin. destruct (Hused a Hin) as [H1 H2]. split; [split; [exact H1|]|exact H2].
          rewrite Hb. intros ->. pose proof (o_nd _ _ _ _ O) as Hnd. cbn [app] in Hnd. rewrite !map_app in Hnd. cbn [map] in Hnd.
          apply NoDup_remove_2 in Hnd. apply Hnd. apply in_app_iff. right. rewrite map_app, in_app_iff. right. exact Hin.
        - intros a Hin. rewrite arrs_app, in_app_iff. auto. }
      { cbn [length] in Hcar. lia. }
      exists s', q4'', q32'', used'. split; [|split; [exact R1'|split; [exact R2'|cbn [set_meta] in W3; unfold wr in *; cbn [set_meta f_trace] in *; congruence]]]. cbn [length Nat.add]. rewrite (loop_next e _ s s3); auto. apply (ca_exp e Hc).
    + destruct Hm as [Ho Hl]. cbn [carrying] in Hcar. destruct fresh as [|b0 fresh]; [cbn in Hcar; lia|].
      destruct (handler_frame e s q4 _ body _ Ha O Hsc (data_nonempty _ _ _ Ho) Hl) as (s1 & b & R1 & L1 & F1 & Q1 & P1 & W1 & K).
      assert (Hik : i < k).
      { assert (H : In i (seq 0 k)) by (eapply Permutation_in; [exact Hper|]; apply in_app_iff; right; left; reflexivity). apply in_seq in H. lia. }
      destruct P1 as (P11 & P12 & P13).
      destruct (handle_data e b s1 body meta k i R1 L1 F1 Ho Hl Hk Hik) as (sl & Em & Hsl & Hread); [rewrite P11; apply St|rewrite P13; apply St|].
      destruct (K _ _ Em) as (s3 & q4' & E3 & O3 & P3 & W3 & H3 & S3 & K3); [discriminate|].
      cbn [app tl] in Q1, O3. destruct Q1 as [Q1|[Q1 _]]; [|discriminate]. injection Q1 as Q1.
      assert (Hb : s_arr b = s_arr b0) by (rewrite Q1; reflexivity).
      destruct P3 as (P31 & P32 & P33). cbn [set_meta f_meta f_size f_req] in P31, P32, P33. rewrite P11 in P31. rewrite P12 in P32. rewrite P13 in P33.
      destruct (IH s3 q4' fresh (used ++ [b0]) (i :: done) rest f) as (s' & q4'' & q32'' & used' & E & R1' & R2' & R3'); auto.
      { rewrite app_assoc, Q1. exact O3. }
      { destruct St as [T1 T2 T3 T4 T5]. constructor; rewrite ?P31, ?P32, ?P33, ?list_set_length; auto.
        - intros j Hj Hd. destruct (Nat.eq_dec i j) as [->|Hij].
          + rewrite !list_set_nth_eq by lia. split; [reflexivity|]. exists sl. split; [reflexivity|]. split.
            * rewrite H3. exact Hread.
            * rewrite arrs_app, in_app_iff. right. left. rewrite Hsl. symmetry. exact Hb.
          + rewrite !list_set_nth_neq by exact Hij. destruct Hd as [Hd|Hd]; [congruence|].
            destruct (T4 j Hj Hd) as (Hr & sl' & Hs & Hh & Hin). split; [exact Hr|]. exists sl'. split; [exact Hs|].
            split; [|rewrite arrs_app, in_app_iff; auto]. rewrite <- Hh. unfold h_read. destruct (Hused _ Hin) as [U1 U2].
            destruct K3 as [_ K3]. rewrite K3; [reflexivity| |exact U2]. split; [exact U1|].
            rewrite Hb. intros X. pose proof (o_nd _ _ _ _ O) as Hnd. cbn [app] in Hnd. rewrite !map_app in Hnd. cbn [map] in Hnd.
            apply NoDup_remove_2 in Hnd. apply Hnd. apply in_app_iff. right. rewrite map_app, in_app_iff. right. rewrite <- X. exact Hin.
        - intros j Hj Hd. rewrite list_set_nth_neq; [|intros ->; apply Hd; left; reflexivity]. apply T5; [exact Hj|]. intros X. apply Hd. right. exact X. }
      { cbn [length] in Hcar. lia. }
      { cbn [pieces is_piece] in Hper. rewrite <- Hper. cbn [app]. apply Permutation_middle. }
      exists s', q4'', q32'', used'. split; [|split; [exact R1'|split; [exact R2'|cbn [set_meta] in W3; unfold wr in *; cbn [set_meta f_trace] in *; congruence]]]. cbn [length Nat.add]. rewrite (loop_next e _ s s3); auto. apply (ca_exp e Hc).
Qed.

(** * Part 4: the whole call against an honest peer *)

Lemma Permutation_seq_pos k l : Permutation l (seq 0 k) -> l <> [] -> 1 <= k.
Proof. intros H Hl. destruct k; [|lia]. apply Permutation_sym, Permutation_nil in H. contradiction. Qed.

Lemma loop_honest e meta k : alone e -> calm e -> pieces_needed (Z.of_nat (length meta)) (Z.of_nat k) -> (Z.of_nat (length meta) <= 2 ^ 48)%Z ->
  forall noise ext before during rest s q4 q32 f,
  own s q4 q32 [] -> f_script s = map wire noise ++ frame ext :: map wire before ++ map wire during ++ rest ->
  f_req s = [false] ->
  ext_handshake ext (Z.of_nat (length meta)) -> length ext <= Z.to_nat 32768 ->
  Forall (msg_ok meta) (noise ++ before ++ during) -> pieces noise = [] -> pieces before = [] ->
  (exists i body t, during = t ++ [Piece i body]) -> Permutation (pieces during) (seq 0 k) ->
  carrying during <= Nat.max 1 (length q32) ->
  exists s' q4' q32' used, readMetaDataLoop e (length noise + S (length before + (length during + S f))) s = (s', FOk tt) /\
    own s' q4' q32' [] /\ stored meta k s' used (seq 0 k) /\
    exists msgs, wr s' = wr s ++ msgs /\
      Forall2 (fun i m => exists n, withExtendedFetchMetaMsg (e_ford e n) 1 ExRequest (Z.of_nat i) 0 [] = Ok m) (seq 0 k) msgs.
Proof.
  intros Ha Hc Hk Hlen noise ext before during rest s q4 q32 f O Hsc Hreq Hext Hle Hok Hn Hb Hlast Hper Hcar.
  apply Forall_app in Hok as [Hok1 Hok]. apply Forall_app in Hok as [Hok2 Hok3].
  assert (Hk1 : 1 <= k).
  { eapply Permutation_seq_pos; [exact Hper|]. destruct Hlast as (i & body & t & ->). clear. induction t as [|m t IH]; [discriminate|].
    cbn [app pieces]. destruct (is_piece m); [discriminate|exact IH]. }
  assert (Hnc : CompledMetaData s = false) by (unfold CompledMetaData; rewrite Hreq; reflexivity).
  destruct (noise_phase e meta Ha Hc noise s q4 q32 _ (S (length before + (length during + S f))) O Hsc Hok1 Hn Hnc)
    as (s1 & q4a & q32a & E1 & O1 & P1 & S1 & L1 & W1).
  assert (Hnc1 : CompledMetaData s1 = false) by (rewrite (samep_completed _ _ P1); exact Hnc).
  destruct (handler_frame e s1 q4a q32a ext _ Ha O1 S1 (ext_nonempty _ _ Hext) Hle) as (s2 & b & R2 & L2 & F2 & Q2 & P2 & W2 & K).
  destruct (handle_ext e b s2 ext (Z.of_nat (length meta)) k Hc R2 Hext Hle ltac:(lia) Hk) as (s3 & msgs & E3 & M3 & Z3 & Q3 & T3 & F3).
  destruct (K s3 (FOk tt) E3) as (s4 & q4b & E4 & O4 & P4 & W4 & H4 & S4 & _); [discriminate|].
  destruct P4 as (P41 & P42 & P43).
  assert (Hnc4 : CompledMetaData s4 = false).
  { unfold CompledMetaData. rewrite P43, Q3. destruct k; [lia|]. reflexivity. }
  destruct (noise_phase e meta Ha Hc before s4 _ _ _ (length during + S f) O4 S4 Hok2 Hb Hnc4) as (s5 & q4c & q32c & E5 & O5 & P5 & S5 & L5 & W5).
  destruct P5 as (P51 & P52 & P53).
  destruct (piece_phase e meta k Ha Hc Hk during s5 q4c q32c [] [] rest f) as (s6 & q4d & q32d & used & E6 & O6 & St6 & W6); auto.
  - rewrite app_nil_r. exact O5.
  - constructor.
    + rewrite P51, P41, M3. apply repeat_length.
    + rewrite P53, P43, Q3. apply repeat_length.
    + rewrite P52, P42, Z3. reflexivity.
    + intros i _ [].
    + intros i Hi _. rewrite P53, P43, Q3. apply nth_error_repeat. exact Hi.
  - rewrite app_length in L5. cbn [length] in L5. destruct q32a; cbn [tl length] in *; lia.
  - exists s6, q4d, q32d, used. split; [|split; [exact O6|split; [exact St6|]]].
    2:{ exists msgs. split; [|exact F3]. rewrite W6, W5, W4. unfold wr at 1. rewrite T3, written_app. fold (wr s2). rewrite W2, W1. f_equal.
        clear. induction msgs as [|m t IH]; [reflexivity|]. cbn. f_equal. exact IH. }
    rewrite E1. rewrite (loop_next e _ s1 s4); [|exact Hnc1|apply (ca_exp e Hc)|exact E4]. rewrite E5. exact E6.
Qed.

Lemma firstn_add {A} (a b : nat) (l : list A) : firstn (a + b) l = firstn a l ++ firstn b (skipn a l).
Proof. revert l. induction a as [|a IH]; intros [|x l]; cbn; try reflexivity; [rewrite firstn_nil; reflexivity|]. f_equal. apply IH. Qed.
Lemma app_inj_len {A} (a b c d : list A) : length a = length c -> a ++ b = c ++ d -> a = c /\ b = d.
Proof.
  revert c. induction a as [|x a IH]; intros [|y c] Hl E; cbn in *; try discriminate; auto.
  injection E as -> E. injection Hl as Hl. destruct (IH c Hl E) as [-> ->]. auto.
Qed.

Lemma pieces_concat meta n : forall j, concat (map (piece_of meta) (seq j n)) = firstn (n * kb16) (skipn (j * kb16) meta).
Proof.
  induction n as [|n IH]; intros j; [reflexivity|]. cbn [seq map concat]. rewrite IH. unfold piece_of.
  replace (S j * kb16) with (j * kb16 + kb16) by lia. rewrite skipn_add.
  replace (S n * kb16) with (kb16 + n * kb16) by lia. symmetry. apply firstn_add.
Qed.

Lemma merge_stored e meta k : alone e -> forall n j s acc, 
  (forall i, i < k -> exists sl, nth_error (f_meta s) i = Some (Some sl) /\ h_read (f_heap s) sl = piece_of meta i) -> j + n <= k ->
  exists s', merge e (seq j n) acc s = (s', FOk (acc ++ concat (map (piece_of meta) (seq j n)))) /\ f_pool s' = f_pool s /\ f_heap s' = f_heap s /\ f_trace s' = f_trace s.
Proof.
  intros Ha. induction n as [|n IH]; intros j s acc St Hj.
  - exists s. cbn. rewrite app_nil_r. repeat split.
  - cbn [seq merge map concat]. unfold mbind at 1. destruct (tick_alone e s Ha) as (s1 & E1 & Hp & Hh & Hs & Ht & (Hm & _)). rewrite E1.
    destruct (St j ltac:(lia)) as (sl & Hsl & Hr). rewrite Hm, Hsl, Hh, Hr.
    destruct (IH (S j) s1 (acc ++ piece_of meta j)) as (s' & E & Hp' & Hh' & Ht'); [rewrite Hm, Hh; exact St|lia|].
    exists s'. rewrite E, <- app_assoc. repeat split; congruence.
Qed.

Lemma good_handshake_length hs : good_handshake hs -> length hs = 68.
Proof.
  intros (r5 & rest & a & b & -> & Ha & Hb & Hr & _). cbn [length]. rewrite app_length. change (length (B "BitTorrent protocol")) with 19.
  rewrite app_length. cbn [length]. rewrite app_length. lia.
Qed.

Lemma testbit_land16 c : N.testbit (N_of_ascii c) 4 = true -> (0 <? N.land (bval c) 16)%N = true.
Proof.
  intros H. apply N.ltb_lt. unfold bval. destruct (N.eq_dec (N.land (N_of_ascii c) 16) 0) as [E|E]; [|lia].
  apply (f_equal (fun x => N.testbit x 4)) in E. rewrite N.land_spec, H in E. discriminate.
Qed.

Lemma good_handshake_parses hs : good_handshake hs -> exists h, parseHandShakeMsg hs = Ok h /\ hs_protocol h = supportProtocolName /\ SupportExtended h = Ok true.
Proof.
  intros Hg. pose proof (good_handshake_length hs Hg) as Hl. destruct Hg as (r5 & rest & a & b & -> & Ha & Hb & Hr & Hbit).
  destruct (C52_parse_domain_pf (ascii_of_nat 19 :: B "BitTorrent protocol" ++ a ++ r5 :: b ++ rest)) as [_ H].
  destruct (H _ _ eq_refl Hl) as [H1 _]. destruct (H1 (le_n _)) as (h & Hp & Hlp & Hlr & Hli & Hlid & tail & Ht).
  exists h. split; [exact Hp|]. change (nat_of_ascii (ascii_of_nat 19)) with 19 in Hlp.
  assert (E1 : B "BitTorrent protocol" = hs_protocol h /\ a ++ r5 :: b ++ rest = hs_rbytes h ++ hs_infohash h ++ hs_peerid h ++ tail).
  { apply app_inj_len; [rewrite Hlp; reflexivity|exact Ht]. }
  destruct E1 as [E1 E2]. split; [rewrite <- E1; reflexivity|].
  assert (E3 : a ++ r5 :: b = hs_rbytes h).
  { replace (a ++ r5 :: b ++ rest) with ((a ++ r5 :: b) ++ rest) in E2 by (rewrite <- app_assoc; reflexivity).
    apply app_inj_len in E2; [apply E2|]. rewrite app_length. cbn [length]. lia. }
  unfold SupportExtended. rewrite <- E3. unfold idx. rewrite nth_error_app2 by lia. rewrite Ha, Nat.sub_diag. cbn [nth_error bind].
  rewrite (testbit_land16 _ Hbit). reflexivity.
Qed.

Lemma handshake_run e peerId infoHash s hs rest : calm e -> length peerId = 20 -> length infoHash = 20 -> f_script s = hs :: rest -> good_handshake hs ->
  exists s1, handshakePeer e peerId infoHash s = (s1, FOk tt) /\ f_script s1 = rest /\ samep s s1 /\ f_pool s1 = f_pool s /\ f_heap s1 = f_heap s /\
    exists m, withHandShakeMsg peerId infoHash = Ok m /\ wr s1 = wr s ++ [m].
Proof.
  intros Hc Hp Hi Hsc Hg. unfold handshakePeer, mbind at 1, lift at 1.
  destruct (C52_handshake_roundtrip_pf peerId infoHash Hp Hi) as (msg & _ & -> & _).
  unfold mbind at 1, m_write. rewrite (ca_write e Hc). cbn [negb]. unfold m_recv. change (handShakeLen =? 0) with false. cbv iota.
  cbn [set_io f_script]. rewrite Hsc. pose proof (good_handshake_length hs Hg) as Hl. unfold handShakeLen.
  rewrite firstn_all2 by lia. rewrite skipn_all2 by lia. rewrite Hl. change (repeat (byte_of 0) (68 - 68)) with (@nil byte). rewrite app_nil_r.
  destruct (good_handshake_parses hs Hg) as (h & E1 & E2 & E3).
  unfold mbind at 1, lift at 1. rewrite E1, E2, EqualFold_refl. cbn [negb]. unfold mbind at 1, lift. rewrite E3. cbn [negb].
  eexists. split; [reflexivity|]. cbn [set_io f_script]. split; [reflexivity|]. split; [repeat split|]. split; [reflexivity|]. split; [reflexivity|].
  exists msg. split; [reflexivity|]. unfold wr. cbn [set_io f_trace]. rewrite !written_app. cbn. apply app_nil_r.
Qed.

Lemma initial_run e s : calm e -> exists s1, initialMessages e s = (s1, FOk tt) /\ f_script s1 = f_script s /\ samep s s1 /\ f_pool s1 = f_pool s /\ f_heap s1 = f_heap s /\
    exists n m, withExtendedhandShake (e_ford e n) (Some [(B "ut_metadata", VInt 1)]) None = Ok m /\ wr s1 = wr s ++ [m].
Proof.
  intros Hc. unfold initialMessages, mbind at 1. cbn [m_ord].
  assert (H : exists msg, withExtendedhandShake (e_ford e (length (f_trace s))) (Some [(B "ut_metadata", VInt 1)]) None = Ok msg).
  { destruct (C53_extended_handshake_pf (e_ford e (length (f_trace s))) [(B "ut_metadata", VInt 1)] []) as (msg & E & _).
    - apply go_valueb_ok. reflexivity.
    - apply plainb_ok. reflexivity.
    - apply go_valueb_ok. reflexivity.
    - apply plainb_ok. reflexivity.
    - apply (ca_ord e Hc).
    - exists msg. exact E. }
  destruct H as (msg & E). rewrite E. unfold mbind, lift, m_write. rewrite (ca_write e Hc). eexists. split; [reflexivity|]. split; [reflexivity|]. split; [repeat split|]. split; [reflexivity|]. split; [reflexivity|].
  eexists _, msg. split; [exact E|]. unfold wr. cbn [set_io f_trace]. apply written_app.
Qed.

Lemma mu_length l : length l <= mu l.
Proof. induction l as [|x l IH]; [apply le_n|]. cbn [length mu fold_right]. fold (mu l). lia. Qed.

Theorem fetch_honest e p h meta script during peerId infoHash : alone e -> calm e -> sound_pool p h ->
  length peerId = 20 -> sha1 meta = infoHash -> (Z.of_nat (length meta) <= 2 ^ 48)%Z -> honest meta script during ->
  carrying during <= Nat.max 1 (length (chan_of (p_chans p) 32768)) ->
  exists s, FetchMetaData e p h (Some script) peerId infoHash = (s, FOk meta) /\ sound_pool (f_pool s) (f_heap s) /\
    exists m n m' k msgs, written (f_trace s) = m :: m' :: msgs /\ withHandShakeMsg peerId infoHash = Ok m /\
      withExtendedhandShake (e_ford e n) (Some [(B "ut_metadata", VInt 1)]) None = Ok m' /\ pieces_needed (Z.of_nat (length meta)) (Z.of_nat k) /\
      Forall2 (fun i m => exists n, withExtendedFetchMetaMsg (e_ford e n) 1 ExRequest (Z.of_nat i) 0 [] = Ok m) (seq 0 k) msgs.
Proof.
  intros Ha Hc Hsp Hp Hsha Hlen Hh Hcar. 
  assert (Hi : length infoHash = 20) by (rewrite <- Hsha; apply sha1_length).
  destruct Hh as [hs noise ext before during rest k Hg Hext Hle Hok Hn Hb Hfirst Hlast Hk Hper].
  unfold FetchMetaData. set (s0 := NewPeerConn p h _).
  assert (O0 : own s0 (chan_of (p_chans p) 4) (chan_of (p_chans p) 32768) []).
  { destruct Hsp as (H1 & H2 & H3 & H4 & H5 & H6). constructor; auto. }
  destruct (handshake_run e peerId infoHash s0 hs _ Hc Hp Hi eq_refl Hg) as (s1 & E1 & S1 & P1 & G1 & G1' & wm & WM & W1).
  destruct (initial_run e s1 Hc) as (s2 & E2 & S2 & P2 & G2 & G2' & wn & wm' & WM' & W2).
  assert (P02 : samep s0 s2) by (eapply samep_trans; eassumption).
  assert (O2 : own s2 (chan_of (p_chans p) 4) (chan_of (p_chans p) 32768) []).
  { destruct O0 as [Omax Oc4 Oc32 Ou4 Ol4 Ou32 Ol32 Oh Ond]. constructor; rewrite ?G2, ?G2', ?G1, ?G1'; auto. }
  rewrite S1 in S2.
  assert (Hf : exists f, loop_fuel (f_script s2) = length noise + S (length before + (length during + S f))).
  { assert (Hm : length (f_script s2) <= mu (f_script s2)) by apply mu_length.
    rewrite S2 in Hm at 1. rewrite !app_length in Hm. cbn [length] in Hm. rewrite !app_length, !map_length in Hm.
    exists (mu (f_script s2) - length noise - length before - length during - 1).
    unfold loop_fuel. fold (mu (f_script s2)). lia. }
  destruct Hf as (f & Ef).
  destruct (loop_honest e meta k Ha Hc Hk Hlen noise ext before during rest s2 _ _ f O2 S2) as (s3 & q4' & q32' & used & E3 & O3 & St3 & msgs & W3 & F3); auto.
  { destruct P02 as (_ & _ & P02). rewrite P02. reflexivity. }
  assert (Hdone : forall i, i < k -> In i (seq 0 k)) by (intros i Hi'; apply in_seq; lia).
  pose proof (completed _ _ _ _ _ St3 Hdone) as Hcm.
  unfold fetch_body, mbind at 1. rewrite E1. unfold mbind at 1. rewrite E2. unfold mbind at 1. rewrite Ef, E3. rewrite Hcm. cbn [negb].
  unfold mbind at 1, m_make. rewrite (st_size _ _ _ _ _ St3). destruct (Z.ltb_spec (Z.of_nat (length meta)) 0); [lia|].
  destruct (Z.ltb_spec (2 ^ 48) (1 * Z.of_nat (length meta))); [lia|]. cbn [orb]. rewrite (ca_mem e Hc).
  unfold mbind at 1. rewrite (st_req _ _ _ _ _ St3).
  destruct (merge_stored e meta k Ha k 0 s3 []) as (s4 & E4 & Hp4 & Hh4 & Ht4); [|lia|].
  { intros i Hi'. destruct (st_done _ _ _ _ _ St3 i Hi' (Hdone i Hi')) as (_ & sl & Hsl & Hr & _). eauto. }
  rewrite E4. cbn [app]. rewrite pieces_concat. cbn [Nat.mul skipn].
  rewrite firstn_all2 by (destruct Hk as [_ Hk]; unfold kb16; lia).
  unfold GenerateInfoHash. rewrite Hsha, beq_refl. cbn [negb ret].
  eexists. split; [reflexivity|]. cbn [set_io f_pool f_heap f_trace]. rewrite Hp4, Hh4. split.
  - destruct O3 as [Omax Oc4 Oc32 Ou4 Ol4 Ou32 Ol32 Oh Ond]. unfold sound_pool. rewrite Oc4, Oc32. cbn [app] in Ond. auto 8.
  - exists wm, wn, wm', k, msgs. split; [|auto]. rewrite written_app, Ht4. fold (wr s3). rewrite W3, W2, W1. cbn. rewrite app_nil_r. reflexivity.
Qed.

(** * Part 5: the pool stays sound whatever the peer does *)

Lemma own_drop s q4 q32 b held : own s q4 q32 (b :: held) -> own s q4 q32 held.
Proof.
  intros [Omax Oc4 Oc32 Ou4 Ol4 Ou32 Ol32 Oh Ond]. constructor; auto; [inversion Oh; assumption|].
  cbn [app map] in Ond. inversion Ond; assumption.
Qed.

Lemma read_any e w s q4 q32 held b s1 r : alone e -> own s q4 q32 held -> usable (f_heap s) w b -> (0 < w)%Z ->
  m_read e b s = (s1, r) -> own s1 q4 q32 held /\ usable (f_heap s1) w b /\
    match r with FOk n => n <= Z.to_nat w | FErr _ => True | _ => False end.
Proof.
  intros Ha O Ub Hw E. destruct (tick_alone e s Ha) as (s0 & E0 & Hp & Hh & Hs & Ht & Hm).
  unfold m_read, mbind in E. rewrite E0 in E. pose proof Ub as (U1 & U2 & U3 & U4 & U5). unfold m_recv in E. rewrite U1 in E.
  destruct (Nat.eqb_spec (Z.to_nat w) 0); [lia|]. 
  destruct (f_script s0) as [|seg rest].
  - injection E as <- <-. destruct O as [Omax Oc4 Oc32 Ou4 Ol4 Ou32 Ol32 Oh Ond].
    split; [constructor; cbn [set_io f_pool f_heap]; rewrite ?Hp, ?Hh; auto|]. cbn [set_io f_heap]. rewrite Hh. auto.
  - injection E as <- <-. cbn [set_ph set_io f_heap f_pool]. rewrite Hh.
    set (d := firstn (Z.to_nat w) seg).
    assert (Hd : length d <= Z.to_nat w) by (unfold d; rewrite firstn_length; lia).
    assert (Hfit : Z.to_nat (s_off b) + length d <= length (h_data (f_heap s) (s_arr b))) by lia.
    assert (Hus : forall w' x, usable (f_heap s) w' x -> usable (h_write (f_heap s) b d) w' x).
    { intros w' x Hx. eapply usable_data; [exact Hx|cbn; lia|]. rewrite h_write_len by exact Hfit. lia. }
    split; [|split; [apply Hus; exact Ub|exact Hd]].
    destruct O as [Omax Oc4 Oc32 Ou4 Ol4 Ou32 Ol32 Oh Ond].
    constructor; cbn [set_ph set_io f_pool f_heap]; rewrite ?Hp; auto.
    + eapply Forall_impl; [|exact Ou4]. apply Hus.
    + eapply Forall_impl; [|exact Ou32]. apply Hus.
Qed.

Lemma usable_len h w b : (0 <= w)%Z -> usable h w b -> length (h_read h b) = Z.to_nat w.
Proof. intros Hw (U1 & U2 & U3 & U4 & U5). unfold h_read. rewrite firstn_length, skipn_length. lia. Qed.

Lemma readBytes_any e s q4 q32 s1 r : alone e -> own s q4 q32 [] -> readBytesByPrefixLenMsg e s = (s1, r) ->
  match r with
  | FOk (Some b) => exists q4' q32', own s1 q4' q32' [b] /\ usable (f_heap s1) 32768 (full_slice b) /\ s_cap b = 32768%Z /\ (0 <= s_len b <= 32768)%Z
  | _ => exists q4' q32', own s1 q4' q32' []
  end.
Proof.
  intros Ha O E. unfold readBytesByPrefixLenMsg in E.
  destruct (get_alone e PrefixLen s q4 q32 [] Ha (or_introl eq_refl) O) as (sa & pre & E1 & U1 & O1 & _).
  unfold PrefixLen in *. cbn [Z.eqb Pos.eqb] in O1.
  unfold mbind at 1 in E. rewrite E1 in E. unfold mbind at 1 in E.
  destruct (m_read e pre sa) as [sb rb] eqn:E2.
  destruct (read_any e 4 sa _ _ _ pre _ _ Ha O1 U1 ltac:(lia) E2) as (O2 & U2 & X2).
  destruct rb as [n|x|p|x]; try contradiction.
  2:{ injection E as <- <-. eexists _, _. eapply own_drop. exact O2. }
  unfold mbind at 1 in E. cbn [m_show] in E. unfold mbind at 1 in E.
  pose proof (usable_len _ 4 _ (Zle_0_pos _) U2) as Hl. change (Z.to_nat 4) with 4 in Hl.
  destruct (h_read (f_heap sb) pre) as [|c1 [|c2 [|c3 [|c4 [|? ?]]]]]; try discriminate. cbn [Uint32 lift] in E.
  destruct (get_u32 c1 c2 c3 c4 =? 0)%N; [injection E as <- <-; eexists _, _; eapply own_drop; exact O2|].
  destruct (put_alone e 4 sb _ _ _ pre Ha (or_introl eq_refl) O2) as (s3 & q4' & q32' & E3 & O3 & Q3 & _ & A3 & S3 & T3 & P3 & H3).
  { rewrite (full_slice_usable _ _ _ U2). exact U2. } { apply U2. }
  unfold mbind at 1 in E. rewrite E3 in E. destruct (Z.to_N maxReadLength <? get_u32 c1 c2 c3 c4)%N; [injection E as <- <-; eauto|].
  destruct (get_alone e 32768 s3 _ _ [] Ha (or_intror eq_refl) O3) as (s4 & buf & E4 & U4 & O4 & _).
  cbn [Z.eqb Pos.eqb] in O4. unfold mbind at 1 in E. change maxReadLength with 32768%Z in E. rewrite E4 in E.
  unfold mbind at 1 in E. destruct (m_read e buf s4) as [s5 r5] eqn:E5.
  destruct (read_any e 32768 s4 _ _ _ buf _ _ Ha O4 U4 ltac:(lia) E5) as (O5 & U5 & X5).
  destruct r5 as [k|x|p|x]; try contradiction.
  2:{ injection E as <- <-. eexists _, _. eapply own_drop. exact O5. }
  injection E as <- <-. cbn [s_cap s_len]. eexists _, _. split; [|split; [|split]].
  - destruct O5 as [Omax Oc4 Oc32 Ou4 Ol4 Ou32 Ol32 Oh Ond]. 
    constructor; [exact Omax|exact Oc4|exact Oc32|exact Ou4|exact Ol4|exact Ou32|exact Ol32| |exact Ond].
    constructor; [|constructor]. apply Forall_inv in Oh. exact Oh.
  - replace (full_slice _) with buf; [exact U5|]. symmetry. etransitivity; [|exact (full_slice_usable _ _ _ U4)]. reflexivity.
  - apply U4.
  - lia.
Qed.

Definition ownable (s : fstate) : Prop := exists q4 q32, own s q4 q32 [].

Lemma own_same s s' q4 q32 held : own s q4 q32 held -> f_pool s' = f_pool s -> f_heap s' = f_heap s -> own s' q4 q32 held.
Proof. intros [Omax Oc4 Oc32 Ou4 Ol4 Ou32 Ol32 Oh Ond] Hp Hh. constructor; rewrite ?Hp, ?Hh; auto. Qed.

Lemma handler_any e s s' r : alone e -> ownable s -> readMetaDataHandler e s = (s', r) -> ownable s'.
Proof.
  intros Ha (q4 & q32 & O) E. unfold readMetaDataHandler in E. destruct (readBytesByPrefixLenMsg e s) as [s1 r1] eqn:E1.
  pose proof (readBytes_any e s q4 q32 s1 r1 Ha O E1) as H.
  destruct r1 as [[b|]|x|p|x]; try (injection E as <- <-; exact H).
  destruct H as (q4' & q32' & O1 & U1 & C1 & _). unfold with_put in E. destruct (handle_msg e b s1) as [s2 r2] eqn:E2.
  destruct (handle_quiet _ _ _ _ _ E2) as (G1 & G2 & _).
  assert (O2 : own s2 q4' q32' [b]) by (eapply own_same; eassumption).
  destruct (put_alone e 32768 s2 q4' q32' [] b Ha (or_intror eq_refl) O2) as (s3 & q4'' & q32'' & E3 & O3 & _).
  { rewrite G2. exact U1. } { exact C1. }
  rewrite C1 in E. change (0 <? 32768)%Z with true in E. cbv iota in E. rewrite E3 in E. cbn [fst] in E.
  destruct r2 as [u|x|p|x]; injection E as <- <-; try (exists q4'', q32''; exact O3).
  exists q4', q32'. eapply own_drop. exact O2.
Qed.

Lemma loop_any e : alone e -> forall f s s' r, ownable s -> readMetaDataLoop e f s = (s', r) -> ownable s'.
Proof.
  intros Ha. induction f as [|f IH]; intros s s' r O E; cbn [readMetaDataLoop] in E; [injection E as <- <-; exact O|].
  destruct (negb (CompledMetaData s) && negb (e_exp e (f_tick s))); [|injection E as <- <-; exact O].
  unfold mbind in E. destruct (readMetaDataHandler e s) as [s1 r1] eqn:E1. pose proof (handler_any e s s1 r1 Ha O E1) as O1.
  destruct r1 as [u|x|p|x]; [eapply IH; eassumption|injection E as <- <-; exact O1..].
Qed.

Lemma merge_any e : alone e -> forall is acc s s' r, ownable s -> merge e is acc s = (s', r) -> ownable s'.
Proof.
  intros Ha. induction is as [|i t IH]; intros acc s s' r O E; cbn [merge] in E; [injection E as <- <-; exact O|].
  unfold mbind in E. destruct (tick_alone e s Ha) as (s1 & E1 & Hp & Hh & _). rewrite E1 in E.
  assert (O1 : ownable s1) by (destruct O as (q4 & q32 & O); exists q4, q32; eapply own_same; eassumption).
  destruct (nth_error (f_meta s1) i) as [[b|]|]; [eapply IH; eassumption|eapply IH; eassumption|injection E as <- <-; exact O1].
Qed.

Lemma handshake_quiet e peerId infoHash s s' r : handshakePeer e peerId infoHash s = (s', r) -> f_pool s' = f_pool s /\ f_heap s' = f_heap s.
Proof.
  unfold handshakePeer, mbind at 1, lift at 1. destruct (withHandShakeMsg peerId infoHash); [|intros E; injection E as <- <-; auto..].
  unfold mbind at 1, m_write. destruct (e_write e (length (f_trace s))); cbn [negb]; [|intros E; injection E as <- <-; auto..].
  unfold m_recv. destruct (handShakeLen =? 0).
  - unfold mbind at 1, lift at 1. destruct (parseHandShakeMsg _) as [h| |]; [|intros E; injection E as <- <-; auto..].
    destruct (negb (EqualFold _ _ _)); [intros E; injection E as <- <-; auto|]. unfold mbind, lift.
    destruct (SupportExtended h) as [[|]| |]; intros E; injection E as <- <-; auto.
  - cbn [set_io f_script]. destruct (f_script s) as [|seg rest]; [intros E; injection E as <- <-; auto|].
    unfold mbind at 1, lift at 1. destruct (parseHandShakeMsg _) as [h| |]; [|intros E; injection E as <- <-; auto..].
    destruct (negb (EqualFold _ _ _)); [intros E; injection E as <- <-; auto|]. unfold mbind, lift.
    destruct (SupportExtended h) as [[|]| |]; intros E; injection E as <- <-; auto.
Qed.

Lemma initial_quiet e s s' r : initialMessages e s = (s', r) -> f_pool s' = f_pool s /\ f_heap s' = f_heap s.
Proof.
  unfold initialMessages, mbind at 1. cbn [m_ord]. unfold mbind at 1, lift.
  destruct (withExtendedhandShake _ _ _); [|intros E; injection E as <- <-; auto..].
  unfold mbind, m_write. destruct (e_write e (length (f_trace s))); intros E; injection E as <- <-; auto.
Qed.

Lemma body_any e peerId infoHash s s' r : alone e -> ownable s -> fetch_body e peerId infoHash s = (s', r) -> ownable s'.
Proof.
  intros Ha O E. unfold fetch_body, mbind at 1 in E. destruct (handshakePeer e peerId infoHash s) as [s1 r1] eqn:E1.
  destruct (handshake_quiet _ _ _ _ _ _ E1) as [G1 G1'].
  assert (O1 : ownable s1) by (destruct O as (q4 & q32 & O); exists q4, q32; eapply own_same; eassumption).
  destruct r1; try (injection E as <- <-; exact O1). unfold mbind at 1 in E. destruct (initialMessages e s1) as [s2 r2] eqn:E2.
  destruct (initial_quiet _ _ _ _ E2) as [G2 G2'].
  assert (O2 : ownable s2) by (destruct O1 as (q4 & q32 & O1); exists q4, q32; eapply own_same; eassumption).
  destruct r2; try (injection E as <- <-; exact O2). unfold mbind at 1 in E.
  destruct (readMetaDataLoop e (loop_fuel (f_script s2)) s2) as [s3 r3] eqn:E3.
  pose proof (loop_any e Ha _ _ _ _ O2 E3) as O3. destruct r3; try (injection E as <- <-; exact O3).
  cbn beta in E. destruct (negb (CompledMetaData s3)); [injection E as <- <-; exact O3|].
  unfold mbind at 1 in E. destruct (m_make e 1 (f_size s3) s3) as [s4 r4] eqn:E4.
  assert (s4 = s3) as -> by (unfold m_make in E4; destruct (_ || _); [|destruct (e_mem e _)]; injection E4 as <- _; reflexivity).
  destruct r4; try (injection E as <- <-; exact O3). unfold mbind at 1 in E.
  destruct (merge e (seq 0 (length (f_req s3))) [] s3) as [s5 r5] eqn:E5. pose proof (merge_any e Ha _ _ _ _ _ O3 E5) as O5.
  destruct r5; try (injection E as <- <-; exact O5).
  match type of E with (if ?c then _ else _) _ = _ => destruct c end; injection E as <- <-; exact O5.
Qed.

Lemma ownable_iff s : ownable s <-> sound_pool (f_pool s) (f_heap s).
Proof.
  split.
  - intros (q4 & q32 & [Omax Oc4 Oc32 Ou4 Ol4 Ou32 Ol32 Oh Ond]). unfold sound_pool. rewrite Oc4, Oc32. cbn [app] in Ond. auto 8.
  - intros (H1 & H2 & H3 & H4 & H5 & H6). eexists _, _. constructor; auto.
Qed.

Theorem fetch_any e p h peer peerId infoHash s r : alone e -> sound_pool p h ->
  FetchMetaData e p h peer peerId infoHash = (s, r) -> sound_pool (f_pool s) (f_heap s).
Proof.
  intros Ha Hsp E. unfold FetchMetaData in E. destruct peer as [script|]; [|injection E as <- <-; exact Hsp].
  destruct (fetch_body e peerId infoHash (NewPeerConn p h script)) as [s1 r1] eqn:E1.
  assert (O : ownable s1).
  { eapply body_any; [exact Ha| |exact E1]. apply ownable_iff. exact Hsp. }
  apply ownable_iff in O. destruct r1; injection E as <- <-; exact O.
Qed.

(** * Part 6: what is written, whatever the peer does *)

Lemma deq_request d i : deq [(B "msg_type", VInt 0); (B "piece", VInt (Z.of_nat i))] d ->
  Permutation d [(B "msg_type", VInt 0); (B "piece", VInt (Z.of_nat i))].
Proof.
  intros H. inversion H as [a b d'' Hp Hf]; subst. symmetry. etransitivity; [exact Hp|].
  assert (Hin : forall e, In e d'' -> exists z, snd e = VInt z).
  { intros e He. apply (Permutation_in _ (Permutation_sym Hp)) in He. destruct He as [<-|[<-|[]]]; cbn; eauto. }
  replace d with d''; [reflexivity|]. clear Hp H. induction Hf as [|[k v] [k' v'] l l' [H1 H2] Hf IH]; [reflexivity|].
  cbn in H1, H2. subst k'. f_equal; [|apply IH; intros e He; apply Hin; right; exact He].
  destruct (Hin (k, v) (or_introl eq_refl)) as (z & Ez). cbn in Ez. subst v. inversion H2. reflexivity.
Qed.

Lemma request_is e n i msg : (forall n x, deq x (e_ford e n x)) -> (Z.of_nat i <= max_int)%Z ->
  withExtendedFetchMetaMsg (e_ford e n) 1 ExRequest (Z.of_nat i) 0 [] = Ok msg -> is_request i msg.
Proof.
  intros Ho Hi H. unfold withExtendedFetchMetaMsg in H. cbv zeta iota in H. unfold ExRequest in H.
  set (d := [(B "msg_type", VInt 0); (B "piece", VInt (Z.of_nat i))]) in *.
  destruct (EncodeDict (Some (e_ford e n d))) as [dst| |] eqn:Ed; [|discriminate..]. injection H as <-.
  exists (e_ford e n d), dst. rewrite app_nil_r. split; [|split].
  - unfold frame. rewrite be32_put. cbn [length]. rewrite Nat.add_0_r. reflexivity.
  - apply bencoding_iff. split; [|exact Ed].
    destruct (veq_go_plain (VDict d) (VDict (e_ford e n d))) as [H _]; [constructor; apply Ho|]. apply H.
    apply go_valueb_ok. cbn. rewrite (proj2 (is_intb_spec _)); [reflexivity|]. unfold is_int, min_int, max_int in *. lia.
  - apply deq_request. apply Ho.
Qed.

Lemma ext_is e n msg : (forall n x, deq x (e_ford e n x)) ->
  withExtendedhandShake (e_ford e n) (Some [(B "ut_metadata", VInt 1)]) None = Ok msg -> our_ext_handshake msg.
Proof.
  intros Ho H. unfold withExtendedhandShake, NewBaseExHandShakeMsg, ex_Bytes in H. cbn [dict_of dict_val dset] in H.
  set (d := [(B "m", VDict [(B "ut_metadata", VInt 1)])]) in *.
  assert (E : e_ford e n d = d).
  { specialize (Ho n d). inversion Ho as [a b d'' Hp Hf]; subst. apply Permutation_length_1_inv in Hp. subst d''.
    inversion Hf as [|? [k v] ? l' [H1 H2] Hf' E1 E2]; subst. cbn in H1, H2. subst k. inversion Hf'; subst.
    inversion H2 as [| | |? ? Hd| | | |]; subst. inversion Hd as [a b d'' Hp Hf0]; subst. apply Permutation_length_1_inv in Hp. subst d''.
    inversion Hf0 as [|? [k v] ? l' [H3 H4] Hf0' E3 E4]; subst. cbn in H3, H4. subst k. inversion Hf0'; subst. inversion H4; subst. reflexivity. }
  rewrite E in H. destruct (EncodeDict (Some d)) as [dst| |] eqn:Ed; [|discriminate..]. injection H as <-.
  exists dst. split.
  - unfold frame. rewrite be32_put. cbn [length]. rewrite (Nat.add_comm (length dst)). reflexivity.
  - apply bencoding_iff. split; [|exact Ed]. apply go_valueb_ok. reflexivity.
Qed.

Lemma hs_is peerId infoHash m : withHandShakeMsg peerId infoHash = Ok m -> m = our_handshake peerId infoHash.
Proof. unfold withHandShakeMsg. destruct (_ || _); [discriminate|]. intros H. injection H as <-. reflexivity. Qed.

Definition gstep {A} (m : M A) : Prop := forall s s' r, m s = (s', r) -> exists rs, Forall request_run rs /\ wr s' = wr s ++ concat rs.

Lemma g_quiet {A} (m : M A) : (forall s s' r, m s = (s', r) -> wr s' = wr s) -> gstep m.
Proof. intros H s s' r E. exists []. split; [constructor|]. cbn. rewrite app_nil_r. eapply H. exact E. Qed.

Lemma g_bind {A C} (m : M A) (k : A -> M C) : gstep m -> (forall a, gstep (k a)) -> gstep (mbind m k).
Proof.
  intros Hm Hk s s' r E. unfold mbind in E. destruct (m s) as [s1 r1] eqn:E1. destruct (Hm _ _ _ E1) as (rs1 & F1 & W1).
  destruct r1 as [a|x|p|x]; [|injection E as <- <-; eauto..].
  destruct (Hk a _ _ _ E) as (rs2 & F2 & W2). exists (rs1 ++ rs2). split; [apply Forall_app; auto|].
  rewrite W2, W1, concat_app, app_assoc. reflexivity.
Qed.

Lemma g_lift {A} (x : res A) : gstep (lift x). Proof. apply g_quiet. intros s s' r E. injection E as <- <-. reflexivity. Qed.
Lemma g_ret {A} (x : A) : gstep (ret x). Proof. apply g_quiet. intros s s' r E. injection E as <- <-. reflexivity. Qed.
Lemma g_mpanic {A} x : gstep (@mpanic A x). Proof. apply g_quiet. intros s s' r E. injection E as <- <-. reflexivity. Qed.
Lemma g_trace {A} (m : M A) : (forall s s' r, m s = (s', r) -> f_trace s' = f_trace s) -> gstep m.
Proof. intros H. apply g_quiet. intros s s' r E. unfold wr. rewrite (H _ _ _ E). reflexivity. Qed.

Lemma write_requests e : (forall n x, deq x (e_ford e n x)) -> forall n j s s' r, (Z.of_nat (j + n) <= max_int)%Z ->
  request_pieces e (seq j n) s = (s', r) -> exists n' l, n' <= n /\ Forall2 is_request (seq j n') l /\ wr s' = wr s ++ l /\
    (r = FOk tt -> n' = n).
Proof.
  intros Ho. induction n as [|n IH]; intros j s s' r Hi E; cbn [seq request_pieces] in E.
  - injection E as <- <-. exists 0, []. split; [lia|]. split; [constructor|]. rewrite app_nil_r. auto.
  - unfold mbind at 1 in E. cbn [m_ord] in E. unfold mbind at 1, lift in E.
    destruct (withExtendedFetchMetaMsg (e_ford e (length (f_trace s))) 1 ExRequest (Z.of_nat j) 0 []) as [msg| |] eqn:Em.
    2,3: injection E as <- <-; exists 0, []; split; [lia|]; split; [constructor|]; rewrite app_nil_r; split; [reflexivity|discriminate].
    assert (Hm : is_request j msg) by (eapply request_is; [exact Ho| |exact Em]; lia).
    assert (W : forall sx, wr (set_io sx (f_script sx) (CWrite msg)) = wr sx ++ [msg]) by (intros sx; unfold wr; cbn [set_io f_trace]; apply written_app).
    unfold mbind, m_write in E. destruct (e_write e (length (f_trace s))).
    + destruct (IH (S j) _ _ _ ltac:(lia) E) as (n' & l & Hn & F & Ww & Hr). exists (S n'), (msg :: l). split; [lia|].
      split; [constructor; assumption|]. rewrite Ww, W, <- app_assoc. split; [reflexivity|]. intros Hok. rewrite (Hr Hok). reflexivity.
    + injection E as <- <-. exists 1, [msg]. split; [lia|]. split; [constructor; [exact Hm|constructor]|]. rewrite W. split; [reflexivity|discriminate].
    + injection E as <- <-. exists 1, [msg]. split; [lia|]. split; [constructor; [exact Hm|constructor]|]. rewrite W. split; [reflexivity|discriminate].
Qed.

Lemma g_handle e b : (forall n x, deq x (e_ford e n x)) -> gstep (handle_msg e b).
Proof.
  intros Ho. unfold handle_msg. apply g_bind; [apply g_trace; intros s s' r E; injection E as <- <-; reflexivity|]. intros data.
  apply g_bind; [apply g_lift|]. intros ty. destruct (ty =? ExtendedPeerMsg)%N; [|apply g_ret].
  unfold handleExtendedMsg. apply g_bind; [apply g_lift|]. intros id.
  destruct (bval id =? 0)%N; [|destruct (bval id =? 1)%N; [|apply g_ret]].
  - unfold handle_ext_handshake. apply g_bind; [apply g_lift|]. intros dict.
    destruct (negb (Exist dict (B "metadata_size"))); [apply g_mpanic|].
    apply g_bind; [apply g_lift|]. intros sz.
    apply g_bind; [apply g_trace; intros s s' r E; injection E as <- <-; reflexivity|]. intros _. cbv zeta.
    intros s s' r E. unfold mbind at 1, m_make at 1 in E.
    destruct (Z.ltb_spec (piece_count sz) 0) as [Hn|Hn]; cbn [orb] in E; [injection E as <- <-; exists []; split; [constructor|cbn; rewrite app_nil_r; reflexivity]|].
    destruct (Z.ltb_spec (2 ^ 48) (24 * piece_count sz)) as [Hb|Hb]; cbn [orb] in E; [injection E as <- <-; exists []; split; [constructor|cbn; rewrite app_nil_r; reflexivity]|].
    destruct (e_mem e (24 * piece_count sz)); [|injection E as <- <-; exists []; split; [constructor|cbn; rewrite app_nil_r; reflexivity]].
    revert s s' r E. fold (gstep (let* _ := (fun s : fstate => (set_meta s (repeat None (Z.to_nat (piece_count sz))) (f_size s) (f_req s), FOk tt)) in
      let* _ := m_make e 1 (piece_count sz) in let* _ := (fun s : fstate => (set_meta s (f_meta s) (f_size s) (repeat false (Z.to_nat (piece_count sz))), FOk tt)) in
      request_pieces e (seq 0 (Z.to_nat (piece_count sz))))).
    apply g_bind; [apply g_trace; intros s s' r E; injection E as <- <-; reflexivity|]. intros _.
    apply g_bind. { apply g_trace. intros s s' r E. unfold m_make in E. destruct (_ || _); [injection E as <- _; reflexivity|]. destruct (e_mem e _); injection E as <- _; reflexivity. }
    intros _. apply g_bind; [apply g_trace; intros s s' r E; injection E as <- <-; reflexivity|]. intros _.
    intros s s' r E. assert (Hmx : (Z.of_nat (0 + Z.to_nat (piece_count sz)) <= max_int)%Z) by (unfold max_int; lia).
    destruct (write_requests e Ho _ 0 _ _ _ Hmx E) as (n' & l & _ & F & W & _).
    exists [l]. split; [constructor; [exists n'; exact F|constructor]|]. cbn [concat]. rewrite app_nil_r. exact W.
  - unfold handle_piece. apply g_bind; [apply g_lift|]. intros m.
    destruct (negb (fm_type m =? ExData)%Z); [apply g_ret|]. cbv zeta. apply g_trace. intros s s' r E.
    destruct ((fm_piece m <? 0)%Z || (Z.of_nat (length (f_meta s)) <=? fm_piece m)%Z); [injection E as <- <-; reflexivity|].
    destruct (Z.of_nat (length (f_req s)) <=? fm_piece m)%Z; injection E as <- <-; reflexivity.
Qed.

Lemma wr_put e b s s' r : m_put e b s = (s', r) -> wr s' = wr s.
Proof.
  unfold m_put, mbind, interfere. destruct (e_intf e (f_tick s) (f_pool s, f_heap s)) as [p h]. intros E. injection E as <- <-. reflexivity.
Qed.

Lemma g_handler e : (forall n x, deq x (e_ford e n x)) -> gstep (readMetaDataHandler e).
Proof.
  intros Ho s s' r E. unfold readMetaDataHandler in E. destruct (readBytesByPrefixLenMsg e s) as [s1 r1] eqn:E1.
  pose proof (wr_reads _ _ _ _ E1) as W1.
  destruct r1 as [[b|]|x|p|x]; try (injection E as <- <-; exists []; split; [constructor|cbn; rewrite app_nil_r; exact W1]).
  unfold with_put in E. destruct (handle_msg e b s1) as [s2 r2] eqn:E2. destruct (g_handle e b Ho _ _ _ E2) as (rs & F & W).
  destruct (m_put e b s2) as [s3 r3] eqn:E3. pose proof (wr_put _ _ _ _ _ E3) as W3. cbn [fst] in E.
  exists rs. split; [exact F|]. rewrite <- W1, <- W.
  destruct r2; [destruct (0 <? s_cap b)%Z..|]; injection E as <- <-; try reflexivity; exact W3.
Qed.

Lemma g_loop e : (forall n x, deq x (e_ford e n x)) -> forall f, gstep (readMetaDataLoop e f).
Proof.
  intros Ho. induction f as [|f IH]; intros s s' r E; cbn [readMetaDataLoop] in E.
  - injection E as <- <-. exists []. split; [constructor|cbn; rewrite app_nil_r; reflexivity].
  - destruct (negb (CompledMetaData s) && negb (e_exp e (f_tick s))).
    + exact (g_bind _ _ (g_handler e Ho) (fun _ => IH) _ _ _ E).
    + injection E as <- <-. exists []. split; [constructor|cbn; rewrite app_nil_r; reflexivity].
Qed.

Lemma wr_merge e : forall is acc s s' r, merge e is acc s = (s', r) -> wr s' = wr s.
Proof.
  induction is as [|i t IH]; intros acc s s' r E; cbn [merge] in E; [injection E as <- <-; reflexivity|].
  unfold mbind, interfere in E. destruct (e_intf e (f_tick s) (f_pool s, f_heap s)) as [p h].
  match type of E with match ?x with _ => _ end = _ => destruct x as [[b|]|] end; [apply IH in E; exact E..|].
  injection E as <- <-. reflexivity.
Qed.

Lemma hs_writes e peerId infoHash s s' r : handshakePeer e peerId infoHash s = (s', r) ->
  wr s' = wr s /\ (forall u, r <> FOk u) \/ wr s' = wr s ++ [our_handshake peerId infoHash].
Proof.
  unfold handshakePeer, mbind at 1, lift at 1. destruct (withHandShakeMsg peerId infoHash) as [m| |] eqn:Em;
    [|intros E; injection E as <- <-; left; split; [reflexivity|discriminate]..].
  apply hs_is in Em. subst m. intros E. right. revert E.
  assert (W : forall sx, wr (set_io sx (f_script sx) (CWrite (our_handshake peerId infoHash))) = wr sx ++ [our_handshake peerId infoHash])
    by (intros sx; unfold wr; cbn [set_io f_trace]; apply written_app).
  unfold mbind at 1, m_write. destruct (e_write e (length (f_trace s))); cbn [negb]; [|intros E; injection E as <- <-; apply W..].
  rewrite <- W. generalize (set_io s (f_script s) (CWrite (our_handshake peerId infoHash))). clear. intros s E.
  destruct (m_recv handShakeLen s) as [s1 r1] eqn:E1.
  assert (W1 : wr s1 = wr s).
  { unfold wr. destruct (recv_spec _ _ _ _ E1) as [(T & _)|(T & _)]; rewrite T, written_app; cbn; apply app_nil_r. }
  rewrite <- W1. destruct r1 as [d|x|p|x]; [|injection E as <- <-; reflexivity..].
  unfold mbind at 1, lift at 1 in E. destruct (parseHandShakeMsg _) as [h| |]; [|injection E as <- <-; reflexivity..].
  destruct (negb (EqualFold _ _ _)); [injection E as <- <-; reflexivity|]. unfold mbind, lift in E.
  destruct (SupportExtended h) as [[|]| |]; injection E as <- <-; reflexivity.
Qed.

Lemma initial_writes e s s' r : (forall n x, deq x (e_ford e n x)) -> initialMessages e s = (s', r) ->
  wr s' = wr s /\ (forall u, r <> FOk u) \/ exists ext, our_ext_handshake ext /\ wr s' = wr s ++ [ext].
Proof.
  intros Ho. unfold initialMessages, mbind at 1. cbn [m_ord]. unfold mbind at 1, lift.
  destruct (withExtendedhandShake _ _ _) as [m| |] eqn:Em; [|intros E; injection E as <- <-; left; split; [reflexivity|discriminate]..].
  apply (ext_is e _ _ Ho) in Em. intros E. right. exists m. split; [exact Em|].
  unfold mbind, m_write in E. destruct (e_write e (length (f_trace s))); injection E as <- <-; unfold wr; cbn [set_io f_trace]; apply written_app.
Qed.

Theorem fetch_writes e p h script peerId infoHash s r : (forall n x, deq x (e_ford e n x)) ->
  FetchMetaData e p h (Some script) peerId infoHash = (s, r) ->
  written (f_trace s) = [] \/ written (f_trace s) = [our_handshake peerId infoHash] \/
  exists ext rs, our_ext_handshake ext /\ Forall request_run rs /\ written (f_trace s) = our_handshake peerId infoHash :: ext :: concat rs.
Proof.
  intros Ho E. unfold FetchMetaData in E. destruct (fetch_body e peerId infoHash (NewPeerConn p h script)) as [s1 r1] eqn:Eb.
  assert (Hs : written (f_trace s) = wr s1).
  { unfold wr. destruct r1; injection E as <- <-; cbn [set_io f_trace]; rewrite ?written_app; cbn; rewrite ?app_nil_r; reflexivity. }
  rewrite Hs. clear Hs E s r. set (s0 := NewPeerConn p h script) in *. assert (W0 : wr s0 = []) by reflexivity.
  unfold fetch_body, mbind at 1 in Eb. destruct (handshakePeer e peerId infoHash s0) as [sa ra] eqn:Ea.
  destruct (hs_writes _ _ _ _ _ _ Ea) as [[Wa Na]|Wa]; rewrite W0 in Wa.
  { left. destruct ra as [u|x|q|x]; [destruct (Na u eq_refl)|injection Eb as <- <-; exact Wa..]. }
  right. cbn [app] in Wa. destruct ra as [u|x|q|x]; [|injection Eb as <- <-; left; exact Wa..].
  unfold mbind at 1 in Eb. destruct (initialMessages e sa) as [sb rb] eqn:Ebb.
  destruct (initial_writes _ _ _ _ Ho Ebb) as [[Wb Nb]|(ext & Hext & Wb)]; rewrite Wa in Wb.
  { left. destruct rb as [u'|x|q|x]; [destruct (Nb u' eq_refl)|injection Eb as <- <-; exact Wb..]. }
  right. cbn [app] in Wb.
  match type of Eb with (match rb with _ => _ end) = _ => idtac end.
  destruct rb as [u'|x|q|x]; [|injection Eb as <- <-; exists ext, []; repeat split; [exact Hext|constructor|exact Wb]..].
  unfold mbind at 1 in Eb. destruct (readMetaDataLoop e (loop_fuel (f_script sb)) sb) as [sc rc] eqn:Ec.
  destruct (g_loop e Ho _ _ _ _ Ec) as (rs & F & Wc). rewrite Wb in Wc. cbn [app] in Wc.
  exists ext, rs. split; [exact Hext|]. split; [exact F|]. rewrite <- Wc.
  destruct rc as [u''|x|q|x]; [|injection Eb as <- <-; reflexivity..].
  cbn beta in Eb. destruct (negb (CompledMetaData sc)); [injection Eb as <- <-; reflexivity|].
  unfold mbind at 1 in Eb. destruct (m_make e 1 (f_size sc) sc) as [sd rd] eqn:Ed.
  assert (sd = sc) as -> by (unfold m_make in Ed; destruct (_ || _); [|destruct (e_mem e _)]; injection Ed as <- _; reflexivity).
  destruct rd; [|injection Eb as <- <-; reflexivity..]. unfold mbind at 1 in Eb.
  destruct (merge e (seq 0 (length (f_req sc))) [] sc) as [sf rf] eqn:Ef. apply wr_merge in Ef. rewrite <- Ef.
  destruct rf; [|injection Eb as <- <-; reflexivity..].
  match type of Eb with (if ?c then _ else _) _ = _ => destruct c end; injection Eb as <- <-; reflexivity.
Qed.
