(** DhtPf.v -- proofs of C45-C51 (the crawler on top of KRPC). *)
From Verif Require Import Base GoLib Bencode BencodeSpec Types Node RouteTable Middleware Krpc KrpcSpec Dht DhtSpec.
From Verif Require Import BencodeProofs BencodePf TypesPf NodePf RouteTableProofs RouteTablePf MiddlewarePf KrpcProofs KrpcPf DhtProofs.
Local Open Scope list_scope.

Definition ids_ok (l : entries) : Prop := NoDup (map fst l) /\ Forall (fun kv => match snd kv with VStr _ => True | VInt z => is_int z | _ => False end) l.
Lemma ids_go l : ids_ok l -> go_value (VDict l) /\ plain (VDict l).
Proof.
  intros [Hn Hf]. rewrite Forall_forall in Hf. split; constructor; try exact Hn; intros k v Hin; specialize (Hf _ Hin); cbn [snd] in Hf;
    destruct v; try contradiction; constructor; exact Hf.
Qed.
Ltac idsok := split; [nodup|repeat constructor; cbn; try assumption].

(** ** C45 *)
Lemma Query_ok (w : cworld) e to tx q args h : env_ok e -> ids_ok args ->
  let req := {| rq_tx := tx; rq_type := B q; rq_body := Some args; rq_handler := h |} in
  exists b s0, w_sent (fst (Query e w to req)) = w_sent w ++ [{| g_bytes := b; g_to := to |}] /\ carries b (query_msg tx q args) /\
    EncodeDict (Some (query_msg tx q args)) = Ok s0 /\ length b = length s0 /\
    (forall x p, snd (Query e w to req) <> Panic p /\ (snd (Query e w to req) = Err x -> x = EIO)) /\
    w_app (fst (Query e w to req)) = w_app w /\ w_queries (fst (Query e w to req)) = w_queries w ++ [req] /\
    w_reqs (fst (Query e w to req)) = mput (w_reqs w) tx req.
Proof.
  intros He Hargs req. destruct (ids_go _ Hargs) as [Hg Hp].
  assert (Hgo : go_value (VDict (query_msg tx q args)) /\ plain (VDict (query_msg tx q args))).
  { split; constructor.
    - unfold query_msg. nodup.
    - intros k v Hin. cbn in Hin. repeat (destruct Hin as [E|Hin]; [injection E as <- <-; try exact Hg; constructor|]). contradiction.
    - intros k v Hin. cbn in Hin. repeat (destruct Hin as [E|Hin]; [injection E as <- <-; try exact Hp; constructor|]). contradiction. }
  destruct Hgo as [G1 G2].
  destruct (plain_encodes _ G2) as [s0 Es0]. rewrite encodeItem_dict in Es0.
  unfold Query. set (w1 := {| w_app := w_app w; w_reqs := _; w_sent := _; w_queries := _ |}).
  destruct (encode_now_ok e He w1 _ G1 G2) as (b & Eb & Hc).
  change (req_RawData req) with (query_msg tx q args). rewrite Eb. exists b, s0. cbn [send fst snd w1 w_sent w_app w_queries w_reqs].
  split; [reflexivity|]. split; [exact Hc|]. split; [exact Es0|]. split; [apply (encode_now_len e He w1 (query_msg tx q args) s0 b); assumption|].
  split; [|repeat split]. intros x p. destruct (e_sok e (length (w_sent w))); split; congruence.
Qed.

(** C45: for every argument and every map iteration order, the datagram sent for each of
    the four queries decodes to exactly the BEP-5 message. *)
Lemma C45_wire_format_pf : forall e (w : cworld) to tx me h, env_ok e ->
  (exists b, w_sent (fst (Query e w to (WithPingMsg tx me h))) = w_sent w ++ [{| g_bytes := b; g_to := to |}] /\
     carries b (query_msg tx "ping" [(B "id", VStr me)])) /\
  (forall target, exists b, w_sent (fst (Query e w to (WithFindNodeMsg tx me target h))) = w_sent w ++ [{| g_bytes := b; g_to := to |}] /\
     carries b (query_msg tx "find_node" [(B "id", VStr me); (B "target", VStr target)])) /\
  (forall ih, exists b, w_sent (fst (Query e w to (WithGetPeersMsg tx me ih h))) = w_sent w ++ [{| g_bytes := b; g_to := to |}] /\
     carries b (query_msg tx "get_peers" [(B "id", VStr me); (B "info_hash", VStr ih)])) /\
  (forall ih token port, is_int port -> exists b, w_sent (fst (Query e w to (WithAnnouncePeerMsg tx me ih token port h))) = w_sent w ++ [{| g_bytes := b; g_to := to |}] /\
     carries b (query_msg tx "announce_peer" [(B "id", VStr me); (B "implied_port", VInt 0); (B "info_hash", VStr ih); (B "port", VInt port); (B "token", VStr token)])).
Proof.
  intros e w to tx me h He. split; [|split; [|split]].
  - destruct (Query_ok w e to tx "ping" [(B "id", VStr me)] h He) as (b & s0 & E & Hc & _); [idsok|]. exists b. split; [exact E|exact Hc].
  - intros target. destruct (Query_ok w e to tx "find_node" [(B "id", VStr me); (B "target", VStr target)] h He) as (b & s0 & E & Hc & _); [idsok|]. exists b. split; [exact E|exact Hc].
  - intros ih. destruct (Query_ok w e to tx "get_peers" [(B "id", VStr me); (B "info_hash", VStr ih)] h He) as (b & s0 & E & Hc & _); [idsok|]. exists b. split; [exact E|exact Hc].
  - intros ih token port Hp.
    destruct (Query_ok w e to tx "announce_peer" [(B "id", VStr me); (B "info_hash", VStr ih); (B "port", VInt port); (B "token", VStr token); (B "implied_port", VInt 0)] h He) as (b & s0 & E & Hc & _); [split; [nodup|]; repeat (apply Forall_cons; [cbn [snd]; try exact I; try exact Hp; try (unfold is_int, min_int, max_int; lia)|]); apply Forall_nil|].
    exists b. split; [exact E|].
    assert (Hsub : forall r, deq (query_msg tx "announce_peer" [(B "id", VStr me); (B "info_hash", VStr ih); (B "port", VInt port); (B "token", VStr token); (B "implied_port", VInt 0)]) r ->
      deq (query_msg tx "announce_peer" [(B "id", VStr me); (B "implied_port", VInt 0); (B "info_hash", VStr ih); (B "port", VInt port); (B "token", VStr token)]) r).
    2: { destruct Hc as [(d1 & Hd1 & Hb1) Hc]. split; [exists d1; auto|]. intros Hf. destruct (Hc Hf) as (r & E1 & Hd). exists r. auto. }
    intros r Hd. inversion Hd as [? ? d'' Hp2 Hf2]; subst. apply Permutation_sym in Hp2.
    (* replace the argument dictionary by its sorted form *)
    set (args := [(B "id", VStr me); (B "info_hash", VStr ih); (B "port", VInt port); (B "token", VStr token); (B "implied_port", VInt 0)]) in *.
    set (args' := [(B "id", VStr me); (B "implied_port", VInt 0); (B "info_hash", VStr ih); (B "port", VInt port); (B "token", VStr token)]) in *.
    assert (Hperm : Permutation args args').
    { unfold args, args'. constructor. apply Permutation_sym. eapply perm_trans; [apply Permutation_cons_append|]. cbn. apply Permutation_refl. }
    assert (Htr : forall v v', veq (VDict args) v -> v = v' -> veq (VDict args') v').
    { intros v v' Hv <-. inversion Hv as [| | |d1 d2 Hd2| | | |]; subst. constructor. inversion Hd2 as [? ? d3 P3 F3]; subst.
      econstructor; [|exact F3]. eapply perm_trans; [apply Permutation_sym; exact Hperm|exact P3]. }
    pose (sub := fun kv : bytes * val => if beq (fst kv) (B "a") then (fst kv, VDict args') else kv).
    apply (deq_intro _ _ (map sub d'')).
    + change (query_msg tx "announce_peer" args') with (map sub (query_msg tx "announce_peer" args)). apply Permutation_map. apply Permutation_sym. exact Hp2.
    + assert (Hin : forall kv, In kv d'' -> beq (fst kv) (B "a") = true -> snd kv = VDict args).
      { intros kv Hin Hk. apply (Permutation_in _ Hp2) in Hin. cbn in Hin. repeat (destruct Hin as [<-|Hin]; [try discriminate; try reflexivity|]). contradiction. }
      clear -Hf2 Hin Htr. induction Hf2 as [|kv kv' l l' [Ek Hv] Hf2 IH]; cbn [map]; [constructor|]. constructor; [|apply IH; intros; apply Hin; [right; assumption|assumption]].
      unfold sub. destruct (beq (fst kv) (B "a")) eqn:Eb; cbn [fst snd]; split; try assumption.
      rewrite (Hin kv (or_introl eq_refl) Eb) in Hv. eapply Htr; [exact Hv|reflexivity].
Qed.

(** ** Handling a proper query *)
Lemma proper_dispatch e me s (w : cworld) pk tx q a h : In (B q) rset -> s_router s (B q) = Some h -> s_reqchain s = [] ->
  proper_query (p_bytes pk) tx q a ->
  exists d, packet_dict (p_bytes pk) d /\ field d "y" (VStr (B "q")) /\ field d "t" (VStr tx) /\ field d "q" (VStr (B q)) /\
  requestHandle_body e (crawler_code e me) s w (p_addr pk) d tx (B q) =
    run_chain [crawler_code e me h {| rq_tx := tx; rq_type := B q; rq_body := Some a; rq_handler := None |} (p_addr pk)] None w.
Proof.
  intros Hin Hr Hch (d & id & Hd & Hy & Ht & Hq & Ha & Hid & Hlen). exists d. repeat split; try assumption.
  destruct (request_body_cases e (crawler_code e me) s w (p_addr pk) d tx (B q)) as [(Hb & _)|(_ & a' & id' & h' & _ & Ha' & _ & _ & Hr' & ->)].
  - exfalso. destruct Hb as [Hb|[Hb|[Hb|Hb]]].
    + apply Hb. exists (B q). split; [exact Hin|apply EqualFold_refl].
    + apply Hb. exists a. exact Ha.
    + destruct Hb as (a' & Ha' & Hb). unfold field in *. rewrite Ha in Ha'. injection Ha' as <-. apply Hb. exists id. auto.
    + congruence.
  - unfold field in *. rewrite Ha in Ha'. injection Ha' as <-. rewrite Hr in Hr'. injection Hr' as <-.
    unfold doRequestHandle. rewrite Hch. reflexivity.
Qed.

Lemma reply_ok e (code : hid -> request hid -> udpaddr -> cprog) s (w : cworld) pk d tx q w' body : env_ok e ->
  packet_dict (p_bytes pk) d -> field d "y" (VStr (B "q")) -> field d "t" (VStr tx) -> field d "q" (VStr (B q)) ->
  requestHandle_body e code s w (p_addr pk) d tx (B q) = (w', Ok (Some (WithResponse tx (Some body)))) -> ids_ok body ->
  exists b s0, recvPacketHandle e code s w pk = {| o_world := fst (send e w' b (p_addr pk)); o_sent := [{| g_bytes := b; g_to := p_addr pk |}]; o_puts := [p_buf pk]; o_result := Ok tt; o_recovered := None |} /\
    carries b (ok_reply tx body) /\ EncodeDict (Some (ok_reply tx body)) = Ok s0 /\ length b = length s0.
Proof.
  intros He Hd Hy Ht Hq Hb Hok. destruct (ids_go _ Hok) as [Hg Hp]. destruct (ok_reply_go tx body Hg Hp) as [G1 G2].
  destruct (encode_now_ok e He w' _ G1 G2) as (b & Eb & Hc). destruct (plain_encodes _ G2) as [s0 Es0]. rewrite encodeItem_dict in Es0.
  exists b, s0. unfold recvPacketHandle. rewrite (recv_query e code s w (p_addr pk) (p_bytes pk) d tx (B q) Hd Hy Ht Hq). rewrite Hb.
  change (resp_RawData (WithResponse tx (Some body))) with (Ok (ok_reply tx body)). cbv beta iota. rewrite Eb.
  split; [reflexivity|]. split; [exact Hc|]. split; [exact Es0|]. apply (encode_now_len e He w' (ok_reply tx body) s0 b); assumption.
Qed.

Lemma reply_err e (code : hid -> request hid -> udpaddr -> cprog) s (w : cworld) pk d tx q w' c m : env_ok e ->
  packet_dict (p_bytes pk) d -> field d "y" (VStr (B "q")) -> field d "t" (VStr tx) -> field d "q" (VStr (B q)) ->
  requestHandle_body e code s w (p_addr pk) d tx (B q) = (w', Panic (PBiz c m)) ->
  exists b, recvPacketHandle e code s w pk = {| o_world := fst (send e w' b (p_addr pk)); o_sent := [{| g_bytes := b; g_to := p_addr pk |}]; o_puts := [p_buf pk]; o_result := Ok tt; o_recovered := None |} /\
    carries b (error_reply tx 203 (error_text e c m)).
Proof.
  intros He Hd Hy Ht Hq Hb. destruct (error_reply_go tx 203 (error_text e c m)) as [G1 G2]; [unfold is_int, min_int, max_int; lia|].
  destruct (encode_now_ok e He w' _ G1 G2) as (b & Eb & Hc).
  exists b. unfold recvPacketHandle. rewrite (recv_query e code s w (p_addr pk) (p_bytes pk) d tx (B q) Hd Hy Ht Hq). rewrite Hb, Eb.
  split; [reflexivity|exact Hc].
Qed.

Lemma run_write (w : cworld) r : run_chain [PWrite (Some r) PRet] None w = (w, Ok (Some r)).
Proof. reflexivity. Qed.
Lemma run_write_act (w : cworld) r f : run_chain [PWrite (Some r) (PAct f PRet)] None w = (f w, Ok (Some r)).
Proof. reflexivity. Qed.
Lemma run_panic (w : cworld) p r0 : run_chain [PPanic p] r0 w = (w, Panic p).
Proof. reflexivity. Qed.

Lemma getstring_cases d k : (exists s, dget d k = Some (VStr s) /\ GetString d k = Ok s) \/
  ((forall s, dget d k <> Some (VStr s)) /\ exists m, GetString d k = Panic (PBiz 201 m)).
Proof. unfold GetString, GetVal, PanicBizErr. destruct (dget d k) as [[]|]; cbn [bind]; try (right; split; [congruence|eexists; reflexivity]). left. eauto. Qed.
Lemma getint_cases d k : (exists z, dget d k = Some (VInt z) /\ GetInteger d k = Ok z) \/
  ((forall z, dget d k <> Some (VInt z)) /\ exists m, GetInteger d k = Panic (PBiz 201 m)).
Proof. unfold GetInteger, GetVal, PanicBizErr. destruct (dget d k) as [[]|]; cbn [bind]; try (right; split; [congruence|eexists; reflexivity]). left. eauto. Qed.

(** Reply of the crawler [o] to [pk]: one datagram to the source decoding to [d]. *)
Definition replies (o : Krpc.outcome appst hid) (pk : packet) (d : entries) : Prop :=
  exists b, o_sent o = [{| g_bytes := b; g_to := p_addr pk |}] /\ carries b d.

(** C47: the crawler's replies. *)
Lemma C47_replies_pf : forall e me s (w : cworld) pk tx a, env_ok e -> Run_server e = Ok s ->
  let o := recv e me s w pk in
  (proper_query (p_bytes pk) tx "ping" a -> replies o pk (ok_reply tx [(B "id", VStr me)])) /\
  (proper_query (p_bytes pk) tx "find_node" a -> replies o pk (ok_reply tx [(B "id", VStr me); (B "nodes", VStr [])])) /\
  (proper_query (p_bytes pk) tx "get_peers" a ->
     (forall ih, field a "info_hash" (VStr ih) -> replies o pk (ok_reply tx [(B "id", VStr me); (B "token", VStr tx); (B "nodes", VStr [])])) /\
     ((forall ih, ~ field a "info_hash" (VStr ih)) -> exists msg, msg <> [] /\ replies o pk (error_reply tx 203 msg))) /\
  (proper_query (p_bytes pk) tx "announce_peer" a ->
     (forall ih port, field a "info_hash" (VStr ih) -> field a "port" (VInt port) -> replies o pk (ok_reply tx [(B "id", VStr me)])) /\
     ((forall ih port, ~ (field a "info_hash" (VStr ih) /\ field a "port" (VInt port))) -> exists msg, msg <> [] /\ replies o pk (error_reply tx 203 msg))).
Proof.
  intros e me s w pk tx a He Hs o. unfold o, recv. clear o.
  destruct (run_server_ok e) as (s' & E & R1 & R2 & R3 & R4 & _ & Rc & _). rewrite Hs in E. injection E as <-.
  assert (Htext : forall c m, error_text e c m <> []).
  { intros c m E0. unfold error_text in E0. apply (f_equal (@length _)) in E0. rewrite !app_length in E0. cbn in E0. lia. }
  split; [|split; [|split]].
  - intros Hp. destruct (proper_dispatch e me s w pk tx "ping" a HPing ltac:(cbn; tauto) R1 Rc Hp) as (d & Hd & Hy & Ht & Hq & Hb).
    cbn [crawler_code] in Hb. unfold pingHandler in Hb. rewrite run_write in Hb.
    destruct (reply_ok e _ s w pk d tx "ping" w [(B "id", VStr me)] He Hd Hy Ht Hq Hb ltac:(idsok)) as (b & s0 & E & Hc & _). exists b. rewrite E. auto.
  - intros Hp. destruct (proper_dispatch e me s w pk tx "find_node" a HFindNode ltac:(cbn; tauto) R2 Rc Hp) as (d & Hd & Hy & Ht & Hq & Hb).
    cbn [crawler_code] in Hb. unfold findNodeHandler in Hb. rewrite run_write in Hb.
    destruct (reply_ok e _ s w pk d tx "find_node" w [(B "id", VStr me); (B "nodes", VStr [])] He Hd Hy Ht Hq Hb ltac:(idsok)) as (b & s0 & E & Hc & _). exists b. rewrite E. auto.
  - intros Hp. destruct (proper_dispatch e me s w pk tx "get_peers" a HGetPeers ltac:(cbn; tauto) R3 Rc Hp) as (d & Hd & Hy & Ht & Hq & Hb).
    cbn [crawler_code] in Hb. unfold getPeersHandler in Hb. cbn [rq_body dict_of rq_tx] in Hb.
    destruct (getstring_cases a (B "info_hash")) as [(ih & Ei & Eg)|(Hn & m & Eg)]; rewrite Eg in Hb.
    + split; [|intros Hno; elim (Hno ih Ei)]. intros ih' _. rewrite run_write in Hb.
      destruct (reply_ok e _ s w pk d tx "get_peers" w [(B "id", VStr me); (B "token", VStr tx); (B "nodes", VStr [])] He Hd Hy Ht Hq Hb ltac:(idsok)) as (b & s0 & E & Hc & _). exists b. rewrite E. auto.
    + split; [intros ih Hi; elim (Hn ih Hi)|]. intros _. rewrite run_panic in Hb.
      destruct (reply_err e _ s w pk d tx "get_peers" w _ _ He Hd Hy Ht Hq Hb) as (b & E & Hc). eexists. split; [apply Htext|]. exists b. rewrite E. split; [reflexivity|exact Hc].
  - intros Hp. destruct (proper_dispatch e me s w pk tx "announce_peer" a HAnnounce ltac:(cbn; tauto) R4 Rc Hp) as (d & Hd & Hy & Ht & Hq & Hb).
    cbn [crawler_code] in Hb. unfold announcePeerHandler in Hb. cbn [rq_body dict_of rq_tx] in Hb.
    destruct (getstring_cases a (B "info_hash")) as [(ih & Ei & Eg)|(Hn & m & Eg)]; rewrite Eg in Hb; cbn [bind] in Hb.
    + destruct (getint_cases a (B "port")) as [(z & Ez & Ep)|(Hn & m & Ep)]; rewrite Ep in Hb.
      * split; [|intros Hno; elim (Hno ih z (conj Ei Ez))]. intros _ _ _ _. rewrite run_write_act in Hb.
        destruct (reply_ok e _ s w pk d tx "announce_peer" _ [(B "id", VStr me)] He Hd Hy Ht Hq Hb ltac:(idsok)) as (b & s0 & E & Hc & _). exists b. rewrite E. auto.
      * split; [intros ih' port _ Hpo; elim (Hn port Hpo)|]. intros _. rewrite run_panic in Hb.
        destruct (reply_err e _ s w pk d tx "announce_peer" w _ _ He Hd Hy Ht Hq Hb) as (b & E & Hc). eexists. split; [apply Htext|]. exists b. rewrite E. split; [reflexivity|exact Hc].
    + split; [intros ih port Hi; elim (Hn ih Hi)|]. intros _. rewrite run_panic in Hb.
      destruct (reply_err e _ s w pk d tx "announce_peer" w _ _ He Hd Hy Ht Hq Hb) as (b & E & Hc). eexists. split; [apply Htext|]. exists b. rewrite E. split; [reflexivity|exact Hc].
Qed.

(** ** C46: two crawlers *)
Lemma itoa_len100 n : n <= 100 -> length (itoa (Z.of_nat n)) <= 3.
Proof.
  assert (H : forallb (fun n => length (itoa (Z.of_nat n)) <=? 3) (seq 0 101) = true) by (vm_compute; reflexivity).
  rewrite forallb_forall in H. intros Hn. apply Nat.leb_le, (H n). apply in_seq. lia.
Qed.
Lemma ping_len tx me s0 : length tx <= 100 -> length me = 20 -> EncodeDict (Some (query_msg tx "ping" [(B "id", VStr me)])) = Ok s0 -> length s0 <= 1024.
Proof.
  intros Ht Hm E. pose proof (itoa_len100 _ Ht) as H1. pose proof (itoa_len100 (length me) ltac:(lia)) as H2.
  unfold EncodeDict, query_msg, encodeItem, encode_entries, EncodeString in E. cbn -[itoa] in E. injection E as <-.
  repeat (rewrite app_length || cbn [length app B list_ascii_of_string]). lia.
Qed.
Lemma find_node_len tx me target s0 : length tx <= 100 -> length me = 20 -> length target <= 100 ->
  EncodeDict (Some (query_msg tx "find_node" [(B "id", VStr me); (B "target", VStr target)])) = Ok s0 -> length s0 <= 1024.
Proof.
  intros Ht Hm Htt E. pose proof (itoa_len100 _ Ht) as H1. pose proof (itoa_len100 (length me) ltac:(lia)) as H2. pose proof (itoa_len100 _ Htt) as H3.
  unfold EncodeDict, query_msg, encodeItem, encode_entries, EncodeString in E. cbn -[itoa] in E. injection E as <-.
  repeat (rewrite app_length || cbn [length app B list_ascii_of_string]). lia.
Qed.
Lemma ok1_len tx me s0 : length tx <= 100 -> length me = 20 -> EncodeDict (Some (ok_reply tx [(B "id", VStr me)])) = Ok s0 -> length s0 <= 1024.
Proof.
  intros Ht Hm E. pose proof (itoa_len100 _ Ht) as H1. pose proof (itoa_len100 (length me) ltac:(lia)) as H2.
  unfold EncodeDict, ok_reply, encodeItem, encode_entries, EncodeString in E. cbn -[itoa] in E. injection E as <-.
  repeat (rewrite app_length || cbn [length app B list_ascii_of_string]). lia.
Qed.
Lemma ok2_len tx me s0 : length tx <= 100 -> length me = 20 -> EncodeDict (Some (ok_reply tx [(B "id", VStr me); (B "nodes", VStr [])])) = Ok s0 -> length s0 <= 1024.
Proof.
  intros Ht Hm E. pose proof (itoa_len100 _ Ht) as H1. pose proof (itoa_len100 (length me) ltac:(lia)) as H2.
  unfold EncodeDict, ok_reply, encodeItem, encode_entries, EncodeString in E. cbn -[itoa] in E. injection E as <-.
  repeat (rewrite app_length || cbn [length app B list_ascii_of_string]). lia.
Qed.

(** A datagram as the other side reads it: at most 1024 bytes (dht/krpc/udp.go:13,:79). *)
Definition delivered (b : bytes) (from : udpaddr) (buf : nat) : packet := {| p_addr := from; p_bytes := firstn 1024 b; p_buf := buf |}.

Lemma small_fits (b : bytes) : length b <= 1024 -> fits b /\ firstn 1024 b = b.
Proof. intros H. split; [unfold fits, max_int; lia|apply firstn_all2; exact H]. Qed.

Lemma carried_query b tx q a id : fits b -> carries b (query_msg tx q a) -> NoDup (map fst a) -> dget a (B "id") = Some (VStr id) -> length id = 20 ->
  exists a', proper_query b tx q a'.
Proof.
  intros Hf Hc Hn Hid Hl. destruct (proj2 Hc Hf) as (r & E & Hd).
  assert (Hk : NoDup (map fst (query_msg tx q a))) by (unfold query_msg; nodup).
  destruct (deq_dget_dict _ r (B "a") a Hk Hd eq_refl) as (a' & Ea & Hda). exists a', r, id.
  split; [exists (length b); exact E|]. repeat split; try (eapply deq_dget_str; [exact Hk|exact Hd|reflexivity]); try assumption.
  eapply deq_dget_str; [exact Hn|exact Hda|exact Hid].
Qed.

(** The response half: a datagram carrying [ok_reply tx body] runs the waiting handler. *)
Lemma carried_reply e me s (w : cworld) pk tx body id req h : fits (p_bytes pk) -> carries (p_bytes pk) (ok_reply tx body) -> NoDup (map fst body) ->
  dget body (B "id") = Some (VStr id) -> s_respchain s = [] -> w_reqs w tx = Some req -> rq_handler req = Some h ->
  exists body' c end_, deq body body' /\ field body' "id" (VStr id) /\
    Middleware.Next 2 [crawler_code e me h req (p_addr pk)] (NewReqContext (Some {| rs_tx := tx; rs_body := Some body'; rs_err := false |}) w) = Some (c, end_) /\
    c_started c = [0] /\ o_world (recv e me s w pk) = c_world c /\ o_sent (recv e me s w pk) = [].
Proof.
  intros Hf Hc Hn Hid Hch Hreq Hh. destruct (proj2 Hc Hf) as (r & E & Hd).
  assert (Hk : NoDup (map fst (ok_reply tx body))) by (unfold ok_reply; nodup).
  destruct (deq_dget_dict _ r (B "r") body Hk Hd eq_refl) as (body' & Eb & Hdb).
  assert (Hid' : field body' "id" (VStr id)) by (eapply deq_dget_str; [exact Hn|exact Hdb|exact Hid]).
  destruct (C42_response_routed_pf _ _ e (crawler_code e me) s w pk r tx body' id) as (Hs & _ & Hr).
  - exists (length (p_bytes pk)). exact E.
  - eapply deq_dget_str; [exact Hk|exact Hd|reflexivity].
  - eapply deq_dget_str; [exact Hk|exact Hd|reflexivity].
  - exact Eb.
  - exact Hid'.
  - specialize (Hr req h Hreq Hh). cbv zeta in Hr. rewrite Hch in Hr. cbn [app map length] in Hr. destruct Hr as (c & en & E1 & E2 & E3).
    exists body', c, en. split; [exact Hdb|]. split; [exact Hid'|]. split; [exact E1|]. split; [|split; [exact E2|exact Hs]].
    destruct en; [destruct E3 as (m & Hm & ->); replace m with 1 by lia; reflexivity|exact E3].
Qed.

(** C46: A sends ping or find_node to B; B, in any state, answers with exactly one
    datagram addressed to A; when that reaches A - in any later state in which the request
    is still the one pending under its id - the handler of the query runs exactly once, on
    a response whose id is B's. *)
Lemma C46_two_crawlers_pf : forall eA eB meA meB sA sB (wA wB wA' : cworld) addrA addrB tx target h req bufA bufB,
  env_ok eA -> env_ok eB -> Run_server eA = Ok sA -> Run_server eB = Ok sB ->
  length meA = 20 -> length meB = 20 -> length tx <= 100 -> length target <= 100 ->
  req = WithPingMsg tx meA (Some h) \/ req = WithFindNodeMsg tx meA target (Some h) ->
  exists b, w_sent (fst (Query eA wA addrB req)) = w_sent wA ++ [{| g_bytes := b; g_to := addrB |}] /\
  exists b', o_sent (recv eB meB sB wB (delivered b addrA bufB)) = [{| g_bytes := b'; g_to := addrA |}] /\
  (w_reqs wA' tx = Some req ->
   let o := recv eA meA sA wA' (delivered b' addrB bufA) in
   exists body c end_, field body "id" (VStr meB) /\
     Middleware.Next 2 [crawler_code eA meA h req addrB] (NewReqContext (Some {| rs_tx := tx; rs_body := Some body; rs_err := false |}) wA') = Some (c, end_) /\
     c_started c = [0] /\ o_world o = c_world c /\ o_sent o = []).
Proof.
  intros eA eB meA meB sA sB wA wB wA' addrA addrB tx target h req bufA bufB HeA HeB HsA HsB HA HB Ht Htt Hreq.
  destruct (run_server_ok eA) as (s' & E & _ & _ & _ & _ & _ & _ & RcA). rewrite HsA in E. injection E as <-.
  destruct (run_server_ok eB) as (s' & E & R1 & R2 & _ & _ & _ & Rc & _). rewrite HsB in E. injection E as <-.
  destruct Hreq as [-> | ->].
  - destruct (Query_ok wA eA addrB tx "ping" [(B "id", VStr meA)] (Some h) HeA ltac:(idsok)) as (b & s0 & E & Hc & Es0 & Hl & _).
    exists b. split; [exact E|]. pose proof (ping_len tx meA s0 Ht HA Es0) as Hs0. destruct (small_fits b ltac:(lia)) as [Hf Hfn].
    destruct (carried_query b tx "ping" [(B "id", VStr meA)] meA Hf Hc ltac:(nodup) eq_refl HA) as (a' & Hp).
    set (pk := delivered b addrA bufB).
    assert (Hp' : proper_query (p_bytes pk) tx "ping" a') by (unfold pk, delivered; cbn [p_bytes]; rewrite Hfn; exact Hp).
    destruct (proper_dispatch eB meB sB wB pk tx "ping" a' HPing ltac:(cbn; tauto) R1 Rc Hp') as (d & Hd & Hy & Htx & Hq & Hb).
    cbn [crawler_code] in Hb. unfold pingHandler in Hb. rewrite run_write in Hb.
    destruct (reply_ok eB _ sB wB pk d tx "ping" wB [(B "id", VStr meB)] HeB Hd Hy Htx Hq Hb ltac:(idsok)) as (b' & s1 & E' & Hc' & Es1 & Hl').
    exists b'. split; [unfold recv; rewrite E'; reflexivity|]. intros Hpend. cbv zeta.
    pose proof (ok1_len tx meB s1 Ht HB Es1) as Hs1. destruct (small_fits b' ltac:(lia)) as [Hf' Hfn'].
    destruct (carried_reply eA meA sA wA' (delivered b' addrB bufA) tx [(B "id", VStr meB)] meB (WithPingMsg tx meA (Some h)) h) as (body & c & en & _ & H1 & H2 & H3 & H4 & H5);
      try (unfold delivered; cbn [p_bytes]; rewrite Hfn'; assumption); try assumption; try reflexivity; [nodup|].
    exists body, c, en. auto.
  - destruct (Query_ok wA eA addrB tx "find_node" [(B "id", VStr meA); (B "target", VStr target)] (Some h) HeA ltac:(idsok)) as (b & s0 & E & Hc & Es0 & Hl & _).
    exists b. split; [exact E|]. pose proof (find_node_len tx meA target s0 Ht HA Htt Es0) as Hs0. destruct (small_fits b ltac:(lia)) as [Hf Hfn].
    destruct (carried_query b tx "find_node" [(B "id", VStr meA); (B "target", VStr target)] meA Hf Hc ltac:(nodup) eq_refl HA) as (a' & Hp).
    set (pk := delivered b addrA bufB).
    assert (Hp' : proper_query (p_bytes pk) tx "find_node" a') by (unfold pk, delivered; cbn [p_bytes]; rewrite Hfn; exact Hp).
    destruct (proper_dispatch eB meB sB wB pk tx "find_node" a' HFindNode ltac:(cbn; tauto) R2 Rc Hp') as (d & Hd & Hy & Htx & Hq & Hb).
    cbn [crawler_code] in Hb. unfold findNodeHandler in Hb. rewrite run_write in Hb.
    destruct (reply_ok eB _ sB wB pk d tx "find_node" wB [(B "id", VStr meB); (B "nodes", VStr [])] HeB Hd Hy Htx Hq Hb ltac:(idsok)) as (b' & s1 & E' & Hc' & Es1 & Hl').
    exists b'. split; [unfold recv; rewrite E'; reflexivity|]. intros Hpend. cbv zeta.
    pose proof (ok2_len tx meB s1 Ht HB Es1) as Hs1. destruct (small_fits b' ltac:(lia)) as [Hf' Hfn'].
    destruct (carried_reply eA meA sA wA' (delivered b' addrB bufA) tx [(B "id", VStr meB); (B "nodes", VStr [])] meB (WithFindNodeMsg tx meA target (Some h)) h) as (body & c & en & _ & H1 & H2 & H3 & H4 & H5);
      try (unfold delivered; cbn [p_bytes]; rewrite Hfn'; assumption); try assumption; try reflexivity; [nodup|].
    exists body, c, en. auto.
Qed.

(** ** C48: the queue of announcements *)
Definition generic_only (w : cworld) : Prop := forall tx req, w_reqs w tx = Some req -> rq_handler req = Some HGenericResp.
Definition quiet (w w' : cworld) : Prop := a_queue (w_app w') = a_queue (w_app w) /\ (generic_only w -> generic_only w').
Lemma quiet_refl w : quiet w w. Proof. split; auto. Qed.
Lemma quiet_trans a b c : quiet a b -> quiet b c -> quiet a c.
Proof. intros [E1 H1] [E2 H2]. split; [congruence|auto]. Qed.
Lemma query_quiet e me w n : quiet w (fst (query_node e me w n)).
Proof.
  unfold query_node, Query. destruct (encode_now e _ _); cbn [send fst]; split; try reflexivity; intros Hg tx req; cbn [w_reqs draw_tx set_app]; unfold mput;
    (destruct (beq tx _); [intros E; injection E as <-; reflexivity|apply Hg]).
Qed.
Lemma add_quiet e w n : quiet w (add_node e w n).
Proof. unfold add_node. destruct (AddNode _ _ _) as [[rt o]|?|?]; try apply quiet_refl. split; [reflexivity|]. intros Hg tx req. apply Hg. Qed.
Lemma find_acts e me ns : acts quiet (findNodeRespHandler e me ns).
Proof.
  induction ns as [|n ns IH]; cbn [findNodeRespHandler]; [constructor|]. constructor. intros w r.
  destruct (AddNode _ _ _) as [[rt [er|]]|?|?]; try constructor; try exact IH; try (intros; apply add_quiet).
  constructor. intros w2 _. destruct (snd (query_node e me w2 n)); constructor; try exact IH; try (intros; apply query_quiet). constructor.
Qed.
Lemma generic_acts e me req : acts quiet (genericRespHandler e me req).
Proof.
  constructor. intros w [resp|]; [|constructor]. destruct (NodeId resp); try constructor. cbv zeta.
  destruct (beq (rq_type req) (B "find_node")).
  - match goal with |- acts _ (match ?x with _ => _ end) => destruct x; try constructor end. apply find_acts.
  - destruct (beq (rq_type req) (B "get_peers")); [|constructor]. destruct (Exist _ _).
    + match goal with |- acts _ (match ?x with _ => _ end) => destruct x; constructor end.
    + match goal with |- acts _ (match ?x with _ => _ end) => destruct x; constructor end.
Qed.

Definition queue_of (w : cworld) := a_queue (w_app w).

Lemma announcement_inj pk x y : announcement pk x -> announcement pk y -> x = y.
Proof.
  intros (tx & a & ih & p & (d & id & [n Hd] & Hy & Ht & Hq & Ha & _) & Hi & Hp & ->) (tx' & a' & ih' & p' & (d' & id' & [n' Hd'] & Hy' & Ht' & Hq' & Ha' & _) & Hi' & Hp' & ->).
  unfold field in *. rewrite Hd in Hd'. injection Hd' as <- _. rewrite Ht in Ht'. injection Ht' as <-. rewrite Ha in Ha'. injection Ha' as <-. reflexivity.
Qed.

Lemma recv_queue e0 e me s (w : cworld) pk : Run_server e0 = Ok s -> generic_only w ->
  let w' := o_world (recv e me s w pk) in
  generic_only w' /\ ((exists x, announcement pk x /\ queue_of w' = queue_of w ++ [x]) \/ ((forall x, ~ announcement pk x) /\ queue_of w' = queue_of w)).
Proof.
  intros Hs Hgen. destruct (run_server_ok e0) as (s' & E & R1 & R2 & R3 & R4 & R5 & Rc & Rrc). rewrite Hs in E. injection E as <-.
  cbv zeta. unfold recv, recvPacketHandle.
  set (P := fun w' : cworld => generic_only w' /\ ((exists x, announcement pk x /\ queue_of w' = queue_of w ++ [x]) \/ ((forall x, ~ announcement pk x) /\ queue_of w' = queue_of w))).
  assert (Hgoal : P (fst (fst (recv_body e (crawler_code e me) s w (p_addr pk) (p_bytes pk))))).
  2: { destruct (recv_body e (crawler_code e me) s w (p_addr pk) (p_bytes pk)) as [[w' l] [r|x|p]]; exact Hgoal. }
  assert (Hnone : (forall x, ~ announcement pk x) -> forall w', quiet w w' -> P w').
  { intros Hn w' [Hq Hg]. split; [auto|]. right. split; [exact Hn|]. exact Hq. }
  unfold recv_body. destruct (DecodeDictNoLimit (p_bytes pk)) as [[d n]|x|p] eqn:Ed.
  2,3: apply Hnone; [|apply quiet_refl]; intros x' (tx & a & ih & po & (d' & id & [n' Hd'] & _) & _); congruence.
  assert (Hann : forall x, announcement pk x -> exists tx a ih po id, dget d (B "y") = Some (VStr (B "q")) /\ dget d (B "t") = Some (VStr tx) /\ dget d (B "q") = Some (VStr (B "announce_peer")) /\
     dget d (B "a") = Some (VDict a) /\ dget a (B "id") = Some (VStr id) /\ length id = 20 /\ dget a (B "info_hash") = Some (VStr ih) /\ dget a (B "port") = Some (VInt po)).
  { intros x (tx & a & ih & po & (d' & id & [n' Hd'] & H) & H1 & H2 & _). rewrite Ed in Hd'. injection Hd' as <- _. unfold field in *. exists tx, a, ih, po, id. tauto. }
  destruct (negb (Exist d (B "y"))) eqn:Ex.
  { apply Hnone; [|apply quiet_refl]. intros x Hx. destruct (Hann x Hx) as (? & ? & ? & ? & ? & Hy & _). unfold Exist in Ex. rewrite Hy in Ex. discriminate. }
  destruct (GetString d (B "y")) as [y|x|p] eqn:Ey.
  2,3: apply Hnone; [|apply quiet_refl]; intros x' Hx; destruct (Hann x' Hx) as (? & ? & ? & ? & ? & Hy & _); unfold GetString, GetVal in Ey; rewrite Hy in Ey; discriminate.
  assert (Hyd : dget d (B "y") = Some (VStr y)).
  { destruct (getstring_cases d (B "y")) as [(y' & E1 & E2)|(_ & m & E2)]; congruence. }
  destruct (beq y (B "q")) eqn:Eyq.
  - apply beq_eq in Eyq. subst y.
    assert (Hr : P (fst (requestHandle e (crawler_code e me) s w (p_addr pk) d))).
    { unfold requestHandle.
      destruct (getstring_cases d (B "t")) as [(tx & E1 & E2)|(Hn & m & E2)]; rewrite E2; cbn [bind].
      2: { apply Hnone; [|apply quiet_refl]. intros x Hx. destruct (Hann x Hx) as (tx & ? & ? & ? & ? & _ & Ht & _). elim (Hn tx Ht). }
      destruct (getstring_cases d (B "q")) as [(q & E3 & E4)|(Hn & m & E4)]; rewrite E4; cbn [bind].
      2: { apply Hnone; [|apply quiet_refl]. intros x Hx. destruct (Hann x Hx) as (tx0 & ? & ? & ? & ? & _ & _ & Hq & _). elim (Hn _ Hq). }
      assert (Hb : P (fst (requestHandle_body e (crawler_code e me) s w (p_addr pk) d tx q))).
      { destruct (request_body_cases e (crawler_code e me) s w (p_addr pk) d tx q) as [(Hbad & [(m & -> & _)|(m & ->)] & _)|(_ & a & id & h & Hsup & Ha & Hid & Hlen & Hh & ->)].
        1,2: apply Hnone; [|apply quiet_refl]; intros x Hx; destruct (Hann x Hx) as (tx' & a & ih & po & id & _ & _ & Hq & Ha & Hid & Hlen & _);
             assert (Eq0 : q = B "announce_peer") by congruence; subst q; destruct Hbad as [Hb|[Hb|[Hb|Hb]]];
             [apply Hb; exists (B "announce_peer"); split; [cbn; tauto|apply EqualFold_refl]
             |apply Hb; exists a; exact Ha
             |destruct Hb as (a' & Ha' & Hb); unfold field in Ha'; rewrite Ha in Ha'; injection Ha' as <-; apply Hb; exists id; split; assumption
             |rewrite R4 in Hb; discriminate].
        unfold doRequestHandle. rewrite Rc. cbn [app map]. unfold field in *.
        assert (Hcase : (q = B "ping" /\ h = HPing) \/ (q = B "find_node" /\ h = HFindNode) \/ (q = B "get_peers" /\ h = HGetPeers) \/ (q = B "announce_peer" /\ h = HAnnounce)).
        { destruct (in_dec (list_eq_dec ascii_dec) q rset) as [Hin|Hnin]; [|rewrite (R5 _ Hnin) in Hh; discriminate].
          cbn in Hin. destruct Hin as [<-|[<-|[<-|[<-|[]]]]].
          - left. split; [reflexivity|]. change (s_router s (B "ping") = Some h) in Hh. congruence.
          - right; left. split; [reflexivity|]. change (s_router s (B "find_node") = Some h) in Hh. congruence.
          - right; right; left. split; [reflexivity|]. change (s_router s (B "get_peers") = Some h) in Hh. congruence.
          - right; right; right. split; [reflexivity|]. change (s_router s (B "announce_peer") = Some h) in Hh. congruence. }
        assert (Hno : q <> B "announce_peer" -> forall x, ~ announcement pk x).
        { intros Hne x Hx. destruct (Hann x Hx) as (? & ? & ? & ? & ? & _ & _ & Hq & _). apply Hne. congruence. }
        destruct Hcase as [[-> ->]|[[-> ->]|[[-> ->]|[-> ->]]]]; cbn [crawler_code].
        - apply Hnone; [apply Hno; discriminate|]. apply quiet_refl.
        - apply Hnone; [apply Hno; discriminate|]. apply quiet_refl.
        - apply Hnone; [apply Hno; discriminate|]. unfold getPeersHandler. cbn [rq_body dict_of]. destruct (GetString a (B "info_hash")); apply quiet_refl.
        - unfold announcePeerHandler. cbn [rq_body dict_of].
          destruct (getstring_cases a (B "info_hash")) as [(ih & Ei & Eg)|(Hn & m & Eg)]; rewrite Eg; cbn [bind].
          2: { rewrite run_panic. apply Hnone; [|apply quiet_refl]. intros x Hx. destruct (Hann x Hx) as (? & a' & ih & ? & ? & _ & _ & _ & Ha' & _ & _ & Hi & _).
               rewrite Ha in Ha'. injection Ha' as <-. elim (Hn ih Hi). }
          destruct (getint_cases a (B "port")) as [(z & Ez & Ep)|(Hn & m & Ep)]; rewrite Ep.
          2: { rewrite run_panic. apply Hnone; [|apply quiet_refl]. intros x Hx. destruct (Hann x Hx) as (? & a' & ih' & po & ? & _ & _ & _ & Ha' & _ & _ & _ & Hp).
               rewrite Ha in Ha'. injection Ha' as <-. elim (Hn po Hp). }
          rewrite run_write_act. cbn [fst]. split; [intros t r; apply Hgen|]. left. eexists. split; [|reflexivity].
          exists tx, a, ih, z. split; [|split; [exact Ei|split; [exact Ez|reflexivity]]]. exists d, id. split; [exists n; exact Ed|]. unfold field. auto 10. }
      destruct (requestHandle_body e (crawler_code e me) s w (p_addr pk) d tx q) as [w' [r|x|[c m| | |]]]; exact Hb. }
    destruct (requestHandle e (crawler_code e me) s w (p_addr pk) d) as [w' [[r|]|x|p]]; cbn [fst] in *; try exact Hr.
    destruct (resp_RawData r) as [raw|x|p]; cbn [fst]; try exact Hr.
    destruct (encode_now e w' raw); cbn [send fst]; exact Hr.
  - assert (Hno : forall x, ~ announcement pk x).
    { intros x Hx. destruct (Hann x Hx) as (? & ? & ? & ? & ? & Hy & _). rewrite Hyd in Hy. injection Hy as ->. rewrite beq_refl in Eyq. discriminate. }
    apply Hnone; [exact Hno|]. destruct (beq y (B "r")).
    + assert (Hr : quiet w (fst (responseHandle (crawler_code e me) s w (p_addr pk) d))).
      { unfold responseHandle. destruct (do t <- GetString d (B "t"); _) as [[t b]|x|p]; try apply quiet_refl.
        destruct (w_reqs w t) as [req|] eqn:Ereq; [|apply quiet_refl]. unfold doResponseHandle. rewrite (Hgen _ _ Ereq), Rrc. cbn [map app].
        match goal with |- context[run_chain ?ch ?r0 w] => assert (Hch : quiet w (fst (run_chain ch r0 w))); [|destruct (run_chain ch r0 w); exact Hch] end.
        apply run_chain_acts; [exact quiet_refl|exact quiet_trans|]. constructor; [apply generic_acts|constructor]. }
      destruct (responseHandle (crawler_code e me) s w (p_addr pk) d) as [w' r]. exact Hr.
    + destruct (beq y (B "e")); apply quiet_refl.
Qed.

Lemma recv_quiet_boot e me (w : cworld) raddr : quiet w (fst (BootStrap e me w raddr)).
Proof.
  unfold BootStrap, Query. destruct (encode_now e _ _); cbn [send fst]; split; try reflexivity; intros Hg tx req; cbn [w_reqs draw_tx set_app]; unfold mput;
    (destruct (beq tx _); [intros E; injection E as <-; reflexivity|apply Hg]).
Qed.

Lemma crawl_generic e me local e0 s cap pks c : Run_server e0 = Ok s -> crawl_reach e me local s cap pks c -> generic_only (cr_world c).
Proof.
  intros Hs Hr. induction Hr as [w Hi|pks c l c' Hr IH Hst].
  - unfold crawler_init in Hi. destruct (NewRouteTable _ _ _); cbn [bind] in Hi; try discriminate. injection Hi as <-. intros tx req. discriminate.
  - destruct Hst as [i pk Hl|x q Hq|i raddr]; cbn [cr_world].
    + destruct (recv_queue e0 (e i) me s (cr_world c) pk Hs IH) as [H _]. exact H.
    + intros tx req. apply IH.
    + apply recv_quiet_boot. exact IH.
Qed.

(** C48: over every history of the crawler - packets handled in any order and with any
    content, bootstraps, announcements taken by the fetcher - the announcements handed to
    the fetcher followed by those still queued are exactly the valid announcements among
    the handled packets, in order; the queue never exceeds its capacity. *)
Lemma C48_queue_exact_pf : forall e me local e0 s cap pks c, Run_server e0 = Ok s -> crawl_reach e me local s cap pks c ->
  announcements pks (cr_taken c ++ a_queue (w_app (cr_world c))) /\ length (a_queue (w_app (cr_world c))) <= cap.
Proof.
  intros e me local e0 s cap pks c Hs Hr. induction Hr as [w Hi|pks c l c' Hr IH Hst].
  - unfold crawler_init in Hi. destruct (NewRouteTable _ _ _); cbn [bind] in Hi; try discriminate. injection Hi as <-. split; [constructor|cbn; lia].
  - pose proof (crawl_generic _ _ _ _ _ _ _ _ Hs Hr) as Hg. destruct IH as [IH1 IH2].
    destruct Hst as [i pk Hl|x q Hq|i raddr]; cbn [cr_world cr_taken].
    + split; [|exact Hl]. destruct (recv_queue e0 (e i) me s (cr_world c) pk Hs Hg) as [_ [(x & Hx & E)|(Hn & E)]]; unfold queue_of in E; rewrite E.
      * rewrite app_assoc. apply an_yes; assumption.
      * apply an_no; assumption.
    + rewrite app_nil_r. cbn [set_app w_app a_queue]. rewrite Hq in *. rewrite <- app_assoc. split; [exact IH1|]. cbn [length] in IH2. lia.
    + rewrite app_nil_r. destruct (recv_quiet_boot (e i) me (cr_world c) raddr) as [E _]. rewrite E. auto.
Qed.

(** C48: one packet adds at most its own announcement, at the end of the queue; a full
    queue blocks exactly the valid announcements. *)
Lemma C48_queue_step_pf : forall e me local e0 s cap pks c i pk, Run_server e0 = Ok s -> crawl_reach e me local s cap pks c ->
  let q := a_queue (w_app (cr_world c)) in let w' := o_world (recv (e i) me s (cr_world c) pk) in
  (forall x, announcement pk x -> a_queue (w_app w') = q ++ [x] /\
     (length q = cap -> forall c', ~ (crawl_step e me s cap c [pk] c' /\ cr_world c' = w'))) /\
  ((forall x, ~ announcement pk x) -> a_queue (w_app w') = q /\
     crawl_step e me s cap c [pk] {| cr_world := w'; cr_taken := cr_taken c |}).
Proof.
  intros e me local e0 s cap pks c i pk Hs Hr q w'. pose proof (crawl_generic _ _ _ _ _ _ _ _ Hs Hr) as Hg.
  destruct (C48_queue_exact_pf _ _ _ _ _ _ _ _ Hs Hr) as [_ Hle].
  destruct (recv_queue e0 (e i) me s (cr_world c) pk Hs Hg) as [_ [(x & Hx & E)|(Hn & E)]]; unfold queue_of in E.
  - split; [|intros Hno; elim (Hno x Hx)]. intros y Hy. rewrite (announcement_inj _ _ _ Hy Hx). split; [exact E|].
    intros Hfull c' [Hst Hw]. assert (Hlen : length (a_queue (w_app w')) = S cap).
    { unfold w'. rewrite E, app_length. fold q. cbn [length]. lia. }
    inversion Hst as [j pk' Hl E1 E2| |]; subst. cbn [cr_world] in Hw. rewrite Hw in Hl. lia.
  - split; [intros x Hx; elim (Hn x Hx)|]. intros _. split; [exact E|]. apply cs_recv. rewrite E. exact Hle.
Qed.

(** ** C50: find_node responses *)
Lemma exec_find e me host k capacity (He : env_ok e) ns : forall nx (c : ctx cworld response),
  rt_reach (e_uf e) host k capacity (a_rt (w_app (c_world c))) ->
  exists w' acc gs qs, exec nx (findNodeRespHandler e me ns) c = Some ({| c_index := c_index c; c_resp := c_resp c; c_world := w'; c_started := c_started c; c_writes := c_writes c |}, None) /\
    adds (e_uf e) (a_rt (w_app (c_world c))) ns (a_rt (w_app w')) acc /\ rt_reach (e_uf e) host k capacity (a_rt (w_app w')) /\
    w_sent w' = w_sent (c_world c) ++ gs /\ find_queries me (a_tx (w_app (c_world c))) acc gs /\
    a_queue (w_app w') = a_queue (w_app (c_world c)) /\
    w_queries w' = w_queries (c_world c) ++ qs /\ length qs = length acc /\
    Forall (fun q => rq_type q = B "find_node" /\ rq_handler q = Some HGenericResp) qs /\
    a_tx (w_app w') = fold_left (fun t _ => nextVal t) acc (a_tx (w_app (c_world c))).
Proof.
  induction ns as [|n ns IH]; intros nx c Hr.
  - exists (c_world c), [], [], []. cbn [findNodeRespHandler exec]. split; [destruct c; reflexivity|]. rewrite !app_nil_r. repeat split; try exact Hr; constructor.
  - destruct (C31_total_pf (e_uf e) host k capacity) as (_ & _ & Htot). destruct (Htot _ Hr) as (Hadd & _). destruct (Hadd n) as (t1 & er & Ea & Hr1 & _).
    cbn [findNodeRespHandler exec]. rewrite Ea. destruct er as [er|]; cbn [exec c_world].
    + set (w1 := add_node e (c_world c) n). assert (Ew1 : w1 = set_app (c_world c) {| a_rt := t1; a_tx := a_tx (w_app (c_world c)); a_queue := a_queue (w_app (c_world c)) |}) by (unfold w1, add_node; rewrite Ea; reflexivity).
      destruct (IH nx {| c_index := c_index c; c_resp := c_resp c; c_world := w1; c_started := c_started c; c_writes := c_writes c |}) as (w' & acc & gs & qs & E & H1 & H2 & H3 & H4 & H5 & H6 & H7 & H8 & H9).
      { cbn [c_world]. rewrite Ew1. exact Hr1. }
      rewrite E. cbn [c_index c_resp c_world c_started c_writes] in *. exists w', acc, gs, qs. split; [reflexivity|]. rewrite Ew1 in *. cbn [set_app w_app w_sent w_queries a_rt a_tx a_queue] in *.
      repeat split; try assumption. econstructor; eassumption.
    + set (w1 := add_node e (c_world c) n). assert (Ew1 : w1 = set_app (c_world c) {| a_rt := t1; a_tx := a_tx (w_app (c_world c)); a_queue := a_queue (w_app (c_world c)) |}) by (unfold w1, add_node; rewrite Ea; reflexivity).
      set (tx1 := nextVal (a_tx (w_app (c_world c)))).
      destruct (Query_ok (draw_tx w1) e (naddr n) (txid_string tx1) "find_node" [(B "id", VStr me); (B "target", VStr me)] (Some HGenericResp) He ltac:(idsok)) as (b & s0 & Q1 & Q2 & _ & _ & Q3 & Q4 & Q5 & _).
      assert (Eq : query_node e me w1 n = Query e (draw_tx w1) (naddr n) {| rq_tx := txid_string tx1; rq_type := B "find_node"; rq_body := Some [(B "id", VStr me); (B "target", VStr me)]; rq_handler := Some HGenericResp |}).
      { unfold query_node, WithFindNodeMsg. rewrite Ew1. reflexivity. }
      assert (Hnp : exists k', match snd (query_node e me w1 n) with Panic p => PAct (fun w => fst (query_node e me w n)) (PPanic p) | _ => PAct (fun w => fst (query_node e me w n)) (findNodeRespHandler e me ns) end = PAct (fun w => fst (query_node e me w n)) k' /\ k' = findNodeRespHandler e me ns).
      { rewrite Eq. destruct (snd (Query e _ _ _)) as [u|x|p] eqn:Es; [eauto..|]. destruct (Q3 EIO p) as [Hp _]. elim (Hp eq_refl). }
      destruct Hnp as (k' & -> & ->). cbn [exec c_world c_index c_resp c_started c_writes]. rewrite Eq. set (w2 := fst (Query e _ _ _)) in *.
      destruct (IH nx {| c_index := c_index c; c_resp := c_resp c; c_world := w2; c_started := c_started c; c_writes := c_writes c |}) as (w' & acc & gs & qs & E & H1 & H2 & H3 & H4 & H5 & H6 & H7 & H8 & H9).
      { cbn [c_world]. rewrite Q4, Ew1. exact Hr1. }
      rewrite E. cbn [c_index c_resp c_world c_started c_writes] in *. rewrite Q4, ?Q1, ?Q5 in *. rewrite Ew1 in *. cbn [draw_tx set_app w_app w_sent w_queries a_rt a_tx a_queue] in *.
      eexists w', (n :: acc), (_ :: gs), (_ :: qs). split; [reflexivity|]. split; [eapply adds_ok; eassumption|]. split; [exact H2|].
      split; [rewrite H3, <- app_assoc; reflexivity|]. split; [constructor; [reflexivity|exact Q2|exact H4]|]. split; [exact H5|].
      split; [rewrite H6, <- app_assoc; reflexivity|]. split; [cbn [length]; rewrite H7; reflexivity|].
      split; [constructor; [split; reflexivity|exact H8]|]. exact H9.
Qed.

Lemma adds_len uf t ns t' acc : adds uf t ns t' acc -> length acc <= length ns.
Proof. induction 1; cbn [length]; lia. Qed.
Lemma fq_len me tx ns gs : find_queries me tx ns gs -> length gs = length ns.
Proof. induction 1; cbn [length]; congruence. Qed.
Lemma fold_next acc : forall t : N, fold_left (fun t (_ : ninfo) => nextVal t) acc t = (match acc with [] => t | _ => (t + N.of_nat (length acc)) mod 65536 end)%N.
Proof.
  induction acc as [|a acc IH]; intros t; [reflexivity|]. cbn [fold_left]. rewrite IH. unfold nextVal. destruct acc as [|b acc]; [cbn [length]; reflexivity|].
  rewrite N.add_mod_idemp_l by lia. f_equal. cbn [length]. lia.
Qed.

(** C50: handling the response to a find_node query: every listed node is offered to the
    routing table in order, and exactly those for which AddNode returned nil are sent a
    find_node query, in order, with consecutive transaction ids; at most one datagram per 26 bytes;
    nothing else changes.  Without a string "nodes" nothing happens at all. *)
Lemma C50_find_node_response_pf : forall e me e0 s (w : cworld) pk d tx body id req host k capacity,
  env_ok e -> Run_server e0 = Ok s -> rt_reach (e_uf e) host k capacity (a_rt (w_app w)) ->
  packet_dict (p_bytes pk) d -> field d "y" (VStr (B "r")) -> field d "t" (VStr tx) -> field d "r" (VDict body) -> field body "id" (VStr id) ->
  w_reqs w tx = Some req -> rq_type req = B "find_node" -> rq_handler req = Some HGenericResp ->
  let o := recv e me s w pk in let w' := o_world o in
  (forall nodes, field body "nodes" (VStr nodes) ->
   exists ns acc gs qs, parseNodeInfo nodes = Ok ns /\ length gs <= length nodes / 26 /\
    adds (e_uf e) (a_rt (w_app w)) ns (a_rt (w_app w')) acc /\ rt_reach (e_uf e) host k capacity (a_rt (w_app w')) /\
    w_sent w' = w_sent w ++ gs /\ find_queries me (a_tx (w_app w)) acc gs /\
    a_tx (w_app w') = match acc with [] => a_tx (w_app w) | _ => ((a_tx (w_app w) + N.of_nat (length acc)) mod 65536)%N end /\
    a_queue (w_app w') = a_queue (w_app w) /\
    w_queries w' = w_queries w ++ qs /\ length qs = length acc /\ Forall (fun q => rq_type q = B "find_node" /\ rq_handler q = Some HGenericResp) qs) /\
  ((forall nodes, ~ field body "nodes" (VStr nodes)) -> w' = w).
Proof.
  intros e me e0 s w pk d tx body id req host k capacity He Hs Hrt Hd Hy Ht Hr Hid Hreq Hty Hh o w'. subst w'. subst o.
  destruct (run_server_ok e0) as (s' & E & _ & _ & _ & _ & _ & _ & Rrc). rewrite Hs in E. injection E as <-.
  destruct (C42_response_routed_pf _ _ e (crawler_code e me) s w pk d tx body id Hd Hy Ht Hr Hid) as (_ & _ & Hroute).
  specialize (Hroute req HGenericResp Hreq Hh). cbv zeta in Hroute. rewrite Rrc in Hroute. cbn [app map length crawler_code] in Hroute.
  destruct Hroute as (c & en & En & Ew & _). unfold recv. rewrite Ew.
  unfold Middleware.Next in En. cbn [loop incr NewReqContext c_index nth_error Nat.sub c_resp c_world c_started c_writes app] in En.
  unfold genericRespHandler in En. cbn [exec c_resp c_world] in En. unfold NodeId, GetString, GetVal in En. cbn [rs_body dict_of] in En. unfold field in *. rewrite Hid in En. cbn [bind] in En.
  rewrite Hty in En. rewrite beq_refl in En. split.
  - intros nodes Hn. rewrite Hn in En. cbn [bind] in En.
    destruct (C21_parse_node_info_total_pf nodes) as (ns & Ens & Hlen & _). rewrite Ens in En.
    match type of En with context[exec ?nx (findNodeRespHandler e me ns) ?c1] =>
      destruct (exec_find e me host k capacity He ns nx c1 Hrt) as (w' & acc & gs & qs & Ex & H1 & H2 & H3 & H4 & H5 & H6 & H7 & H8 & H9); rewrite Ex in En end.
    cbn [loop incr c_index nth_error Nat.sub] in En. injection En as <- <-. cbn [c_world] in *.
    exists ns, acc, gs, qs. split; [exact Ens|]. split; [rewrite (fq_len _ _ _ _ H4), <- Hlen; eapply adds_len; exact H1|]. rewrite fold_next in H9. auto 12.
  - intros Hn. destruct (dget body (B "nodes")) as [[z|b|l|dd| | | |kk]|]; cbn [bind exec] in En; try (injection En as <- <-; reflexivity). elim (Hn b eq_refl).
Qed.

(** C50: over every history the routing table is one built by AddNode from the initial
    one, so the routing table properties hold of the running crawler. *)
Definition keeps_table (uf : N -> N -> bool) (host : ninfo) (w w' : cworld) : Prop :=
  rt_reach uf host 8 160 (a_rt (w_app w)) -> rt_reach uf host 8 160 (a_rt (w_app w')).
Lemma find_keeps e me host ns : acts (keeps_table (e_uf e) host) (findNodeRespHandler e me ns).
Proof.
  assert (Ha : forall w n, keeps_table (e_uf e) host w (add_node e w n)).
  { intros w n Hr. unfold add_node. destruct (AddNode (e_uf e) (a_rt (w_app w)) n) as [[t o]|?|?] eqn:Ea; try exact Hr. cbn [set_app w_app a_rt]. eapply rtr_add; eassumption. }
  assert (Hq : forall w n, keeps_table (e_uf e) host w (fst (query_node e me w n))).
  { intros w n Hr. unfold query_node, Query. destruct (encode_now e _ _); exact Hr. }
  induction ns as [|n ns IH]; cbn [findNodeRespHandler]; [constructor|]. constructor. intros w r.
  destruct (AddNode _ _ _) as [[rt [er|]]|?|?]; try constructor; try exact IH; try (intros; apply Ha).
  constructor. intros w2 _. destruct (snd (query_node e me w2 n)); constructor; try exact IH; try (intros; apply Hq). constructor.
Qed.
Lemma code_keeps e me host h req addr : acts (keeps_table (e_uf e) host) (crawler_code e me h req addr).
Proof.
  destruct h; cbn [crawler_code].
  - repeat constructor.
  - repeat constructor.
  - unfold getPeersHandler. destruct (GetString _ _); repeat constructor.
  - unfold announcePeerHandler. destruct (do _ <- GetString _ _; GetInteger _ _); [constructor; constructor; [intros w0 Hr; exact Hr|constructor]|constructor|constructor].
  - constructor. intros w [resp|]; [|constructor]. destruct (NodeId resp); try constructor. cbv zeta.
    destruct (beq (rq_type req) (B "find_node")).
    + match goal with |- acts _ (match ?x with _ => _ end) => destruct x; try constructor end. apply find_keeps.
    + destruct (beq (rq_type req) (B "get_peers")); [|constructor]. destruct (Exist _ _);
        match goal with |- acts _ (match ?x with _ => _ end) => destruct x; constructor end.
Qed.
Lemma recv_keeps e me host s (w : cworld) pk : keeps_table (e_uf e) host w (o_world (recv e me s w pk)).
Proof.
  assert (Rr : forall w, keeps_table (e_uf e) host w w) by (intros w0 H; exact H).
  assert (Rt : forall a b c, keeps_table (e_uf e) host a b -> keeps_table (e_uf e) host b c -> keeps_table (e_uf e) host a c) by (intros a b c H1 H2 H; auto).
  assert (Hrun : forall l r0 (w0 : cworld), Forall (acts (keeps_table (e_uf e) host)) l -> keeps_table (e_uf e) host w0 (fst (run_chain l r0 w0))).
  { intros l r0 w0 Hl. apply run_chain_acts; assumption. }
  unfold recv, recvPacketHandle.
  assert (Hb : keeps_table (e_uf e) host w (fst (fst (recv_body e (crawler_code e me) s w (p_addr pk) (p_bytes pk))))).
  2: { destruct (recv_body e (crawler_code e me) s w (p_addr pk) (p_bytes pk)) as [[w' l] [r|x|p]]; exact Hb. }
  unfold recv_body. destruct (DecodeDictNoLimit (p_bytes pk)) as [[d n]|x|p]; try apply Rr.
  destruct (negb (Exist d (B "y"))); [apply Rr|]. destruct (GetString d (B "y")) as [y|x|p]; try apply Rr.
  destruct (beq y (B "q")).
  - assert (Hr : keeps_table (e_uf e) host w (fst (requestHandle e (crawler_code e me) s w (p_addr pk) d))).
    { unfold requestHandle. destruct (do t <- GetString d (B "t"); do q <- GetString d (B "q"); Ok (t, q)) as [[t q]|x|p]; try apply Rr.
      assert (Hrb : keeps_table (e_uf e) host w (fst (requestHandle_body e (crawler_code e me) s w (p_addr pk) d t q))).
      { destruct (request_body_cases e (crawler_code e me) s w (p_addr pk) d t q) as [(_ & [(m & -> & _)|(m & ->)] & _)|(_ & a & id & h & _ & _ & _ & _ & _ & ->)]; try apply Rr.
        unfold doRequestHandle. apply Hrun. apply Forall_forall. intros x Hx. apply in_map_iff in Hx as (h' & <- & _). apply code_keeps. }
      destruct (requestHandle_body e (crawler_code e me) s w (p_addr pk) d t q) as [w' [r|x|[c m| | |]]]; exact Hrb. }
    destruct (requestHandle e (crawler_code e me) s w (p_addr pk) d) as [w' [[r|]|x|p]]; cbn [fst] in *; try exact Hr.
    destruct (resp_RawData r) as [raw|x|p]; cbn [fst]; try exact Hr.
    destruct (encode_now e w' raw); cbn [send fst]; exact Hr.
  - destruct (beq y (B "r")).
    + assert (Hr : keeps_table (e_uf e) host w (fst (responseHandle (crawler_code e me) s w (p_addr pk) d))).
      { unfold responseHandle. destruct (do t <- GetString d (B "t"); _) as [[t b]|x|p]; try apply Rr.
        destruct (w_reqs w t) as [req|]; [|apply Rr]. unfold doResponseHandle.
        match goal with |- context[run_chain ?ch ?r0 w] => assert (Hch : keeps_table (e_uf e) host w (fst (run_chain ch r0 w))); [|destruct (run_chain ch r0 w); exact Hch] end.
        apply Hrun. apply Forall_app. split.
        - apply Forall_forall. intros x Hx. apply in_map_iff in Hx as (h' & <- & _). apply code_keeps.
        - constructor; [|constructor]. destruct (rq_handler req); [apply code_keeps|constructor]. }
      destruct (responseHandle (crawler_code e me) s w (p_addr pk) d) as [w' r]. exact Hr.
    + destruct (beq y (B "e")); apply Rr.
Qed.
Lemma C50_table_reachable_pf : forall e me local s cap pks c uf, (forall i, e_uf (e i) = uf) -> crawl_reach e me local s cap pks c ->
  rt_reach uf {| nid := me; naddr := local |} 8 160 (a_rt (w_app (cr_world c))).
Proof.
  intros e me local s cap pks c uf Huf Hr. induction Hr as [w Hi|pks c l c' Hr IH Hst].
  - unfold crawler_init in Hi. destruct (NewRouteTable {| nid := me; naddr := local |} 8 160) as [t|?|?] eqn:Et; cbn [bind] in Hi; try discriminate. injection Hi as <-. apply rtr_new. exact Et.
  - destruct Hst as [i pk Hl|x q Hq|i raddr]; cbn [cr_world].
    + rewrite <- (Huf i) in *. apply recv_keeps. exact IH.
    + exact IH.
    + unfold BootStrap, Query. destruct (encode_now (e i) _ _); exact IH.
Qed.

(** ** Concrete crawlers *)
Definition ex_me : bytes := B "mmmmmmmmmmmmmmmmmmmm".
Definition ex_srv : server hid := match Run_server ex_env with Ok s => s | _ => NewRpcServer end.
Definition ex_crawler : cworld := match crawler_init ex_me (mkaddr [] 6881) with Ok w => w | _ => {| w_app := {| a_rt := dummy_rt; a_tx := 0; a_queue := [] |}; w_reqs := fun _ => None; w_sent := []; w_queries := [] |} end.
Lemma ex_srv_ok : Run_server ex_env = Ok ex_srv. Proof. reflexivity. Qed.
Lemma ex_crawler_ok : crawler_init ex_me (mkaddr [] 6881) = Ok ex_crawler. Proof. reflexivity. Qed.

(** The hypotheses of C48 are met: one announcement queued, one ping in between, the
    announcement taken. *)
Lemma C48_example_pf : exists c pks, crawl_reach (fun _ => ex_env) ex_me (mkaddr [] 6881) ex_srv 2 pks c /\ length pks = 3 /\
  length (cr_taken c) = 1 /\ length (a_queue (w_app (cr_world c))) = 1.
Proof.
  set (an := ex_pk 2 "d1:ad2:id20:aaaaaaaaaaaaaaaaaaaa9:info_hash2:ih4:porti7ee1:q13:announce_peer1:t2:aa1:y1:qe").
  set (ping := ex_pk 2 "d1:t2:bb1:y1:q1:q4:ping1:ad2:id20:aaaaaaaaaaaaaaaaaaaaee").
  eexists. exists (((([] ++ [an]) ++ [ping]) ++ [an]) ++ []). split; [|split; [reflexivity|]].
  - eapply crr_step; [eapply crr_step; [eapply crr_step; [eapply crr_step|]|]|].
    + apply crr_init. exact ex_crawler_ok.
    + apply (cs_recv _ _ _ _ _ 0). vm_compute. lia.
    + apply (cs_recv _ _ _ _ _ 0). vm_compute. lia.
    + apply (cs_recv _ _ _ _ _ 0). vm_compute. lia.
    + eapply cs_take. vm_compute. reflexivity.
  - cbn [cr_taken cr_world]. vm_compute. split; reflexivity.
Qed.

(** C49 refuted: an announcement without any token (the first), and one with an invented
    token (the second) are acknowledged with a normal reply and queued. *)
Lemma C49_token_refuted_pf :
  let run p := let o := recv ex_env ex_me ex_srv ex_crawler (ex_pk 2 p) in (map g_bytes (o_sent o), length (a_queue (w_app (o_world o)))) in
  run "d1:ad2:id20:aaaaaaaaaaaaaaaaaaaa9:info_hash2:ih4:porti7ee1:q13:announce_peer1:t2:aa1:y1:qe"%string = ([B "d1:t2:aa1:y1:r1:rd2:id20:mmmmmmmmmmmmmmmmmmmmee"], 1) /\
  run "d1:ad2:id20:aaaaaaaaaaaaaaaaaaaa9:info_hash2:ih4:porti7e5:token5:fakede1:q13:announce_peer1:t2:aa1:y1:qe"%string = ([B "d1:t2:aa1:y1:r1:rd2:id20:mmmmmmmmmmmmmmmmmmmmee"], 1).
Proof. vm_compute. repeat split. Qed.

(** C51 refuted: a bootstrapped crawler gets a response listing one node twice, then again
    a response listing it; it sends that node three find_node queries. *)
Lemma C51_queried_once_refuted_pf :
  let w0 := fst (BootStrap ex_env ex_me ex_crawler (ex_addr 1)) in
  let n := "aaaaaaaaaaaaaaaaaaaa123456"%string in
  let w1 := o_world (recv ex_env ex_me ex_srv w0 (ex_pk 1 ("d1:t4:03e91:y1:r1:rd2:id1:z5:nodes52:" ++ n ++ n ++ "ee"))) in
  let w2 := o_world (recv ex_env ex_me ex_srv w1 (ex_pk 1 ("d1:t4:03e91:y1:r1:rd2:id1:z5:nodes26:" ++ n ++ "ee"))) in
  map g_to (w_sent w2) = [ex_addr 1; mkaddr (B "1234") 13622; mkaddr (B "1234") 13622; mkaddr (B "1234") 13622].
Proof. vm_compute. reflexivity. Qed.

(** The hypotheses of C50 are met: a response listing two distinct nodes. *)
Lemma C50_example_pf :
  let w0 := fst (BootStrap ex_env ex_me ex_crawler (ex_addr 1)) in
  let w1 := o_world (recv ex_env ex_me ex_srv w0 (ex_pk 1 "d1:t4:03e91:y1:r1:rd2:id1:z5:nodes52:aaaaaaaaaaaaaaaaaaaa123456aaaaaaaaaaaaaaaaaaab123456ee")) in
  (exists req, w_reqs w0 (B "03e9") = Some req /\ rq_type req = B "find_node" /\ rq_handler req = Some HGenericResp) /\
  length (w_sent w1) = 3 /\ a_tx (w_app w1) = 1003%N /\
  map g_bytes (w_sent w1) = [B "d1:t4:03e91:y1:q1:q9:find_node1:ad2:id20:mmmmmmmmmmmmmmmmmmmm6:target20:mmmmmmmmmmmmmmmmmmmmee";
    B "d1:t4:03ea1:y1:q1:q9:find_node1:ad2:id20:mmmmmmmmmmmmmmmmmmmm6:target20:mmmmmmmmmmmmmmmmmmmmee";
    B "d1:t4:03eb1:y1:q1:q9:find_node1:ad2:id20:mmmmmmmmmmmmmmmmmmmm6:target20:mmmmmmmmmmmmmmmmmmmmee"].
Proof. cbv zeta. split; [eexists; repeat split|]. vm_compute. repeat split. Qed.

(** C45: the four queries of a new crawler, byte for byte (map order as inserted). *)
Lemma C45_example_pf :
  let sent r := map g_bytes (w_sent (fst (Query ex_env ex_crawler (ex_addr 1) r))) in
  env_ok ex_env /\
  sent (WithPingMsg (B "aa") ex_me None) = [B "d1:t2:aa1:y1:q1:q4:ping1:ad2:id20:mmmmmmmmmmmmmmmmmmmmee"] /\
  sent (WithFindNodeMsg (B "aa") ex_me (B "nnnnnnnnnnnnnnnnnnnn") None) = [B "d1:t2:aa1:y1:q1:q9:find_node1:ad2:id20:mmmmmmmmmmmmmmmmmmmm6:target20:nnnnnnnnnnnnnnnnnnnnee"] /\
  sent (WithGetPeersMsg (B "aa") ex_me (B "hhhhhhhhhhhhhhhhhhhh") None) = [B "d1:t2:aa1:y1:q1:q9:get_peers1:ad2:id20:mmmmmmmmmmmmmmmmmmmm9:info_hash20:hhhhhhhhhhhhhhhhhhhhee"] /\
  length (sent (WithAnnouncePeerMsg (B "aa") ex_me (B "hhhhhhhhhhhhhhhhhhhh") (B "tok") 6881 None)) = 1.
Proof. split; [exact ex_env_ok|]. repeat split; vm_compute; reflexivity. Qed.

(** C46: two new crawlers, a ping, the answer, and the handler's run. *)
Lemma C46_example_pf :
  let req := WithPingMsg (B "aa") ex_me (Some HGenericResp) in
  let you := B "yyyyyyyyyyyyyyyyyyyy" in
  let wA := fst (Query ex_env ex_crawler (ex_addr 2) req) in
  Run_server ex_env = Ok ex_srv /\ env_ok ex_env /\ length ex_me = 20 /\ length you = 20 /\ w_reqs wA (B "aa") = Some req /\
  exists b b', w_sent wA = [{| g_bytes := b; g_to := ex_addr 2 |}] /\
    o_sent (recv ex_env you ex_srv ex_crawler (delivered b (ex_addr 1) 5)) = [{| g_bytes := b'; g_to := ex_addr 1 |}] /\
    b' = B "d1:t2:aa1:y1:r1:rd2:id20:yyyyyyyyyyyyyyyyyyyyee" /\
    o_recovered (recv ex_env ex_me ex_srv wA (delivered b' (ex_addr 2) 6)) = None.
Proof.
  cbv zeta. split; [vm_compute; reflexivity|]. split; [exact ex_env_ok|]. split; [reflexivity|]. split; [reflexivity|]. split; [vm_compute; reflexivity|].
  eexists. eexists. split; [vm_compute; reflexivity|]. split; [vm_compute; reflexivity|]. split; vm_compute; reflexivity.
Qed.

(** C47: one proper query of each type and its reply; get_peers and announce_peer also without
    the field they need. *)
Lemma C47_example_pf :
  let pkt q a := ("d1:ad2:id20:aaaaaaaaaaaaaaaaaaaa" ++ a ++ "e1:q" ++ q ++ "1:t2:aa1:y1:qe")%string in
  let proper q s := exists a, proper_query (B s) (B "aa") q a in
  let run s := map g_bytes (o_sent (recv ex_env ex_me ex_srv ex_crawler (ex_pk 2 s))) in
  proper "ping"%string (pkt "4:ping" "")%string /\ run (pkt "4:ping" "")%string = [B "d1:t2:aa1:y1:r1:rd2:id20:mmmmmmmmmmmmmmmmmmmmee"] /\
  proper "find_node"%string (pkt "9:find_node" "")%string /\ run (pkt "9:find_node" "")%string = [B "d1:t2:aa1:y1:r1:rd2:id20:mmmmmmmmmmmmmmmmmmmm5:nodes0:ee"] /\
  proper "get_peers"%string (pkt "9:get_peers" "9:info_hash2:ih")%string /\
  run (pkt "9:get_peers" "9:info_hash2:ih")%string = [B "d1:t2:aa1:y1:r1:rd2:id20:mmmmmmmmmmmmmmmmmmmm5:token2:aa5:nodes0:ee"] /\
  proper "get_peers"%string (pkt "9:get_peers" "")%string /\ length (run (pkt "9:get_peers" "")%string) = 1 /\
  proper "announce_peer"%string (pkt "13:announce_peer" "9:info_hash2:ih4:porti7e")%string /\
  run (pkt "13:announce_peer" "9:info_hash2:ih4:porti7e")%string = [B "d1:t2:aa1:y1:r1:rd2:id20:mmmmmmmmmmmmmmmmmmmmee"] /\
  proper "announce_peer"%string (pkt "13:announce_peer" "9:info_hash2:ih4:port1:7")%string /\ length (run (pkt "13:announce_peer" "9:info_hash2:ih4:port1:7")%string) = 1.
Proof.
  assert (P : forall s q d a id n, DecodeDictNoLimit (B s) = Ok (d, n) -> field d "y" (VStr (B "q")) -> field d "t" (VStr (B "aa")) -> field d "q" (VStr (B q)) ->
    field d "a" (VDict a) -> field a "id" (VStr id) -> length id = 20 -> exists a, proper_query (B s) (B "aa") q a).
  { intros s q d a id n E H1 H2 H3 H4 H5 H6. exists a, d, id. repeat (split; [first [assumption|exists n; exact E]|]). exact H6. }
  cbv zeta. repeat (lazymatch goal with |- _ /\ _ => split | _ => fail end);
    first [eapply P; [vm_compute; reflexivity|vm_compute; reflexivity|vm_compute; reflexivity|vm_compute; reflexivity|vm_compute; reflexivity|vm_compute; reflexivity|vm_compute; reflexivity]|vm_compute; reflexivity].
Qed.
