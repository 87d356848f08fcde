(** ConcProofs.v -- lemmas about Conc.v. *)
From Verif Require Import Base GoLib Bencode BencodeSpec BencodeProofs BencodePf Types TypesPf Node NodePf RouteTable RouteTableProofs RouteTablePf Middleware MiddlewarePf Krpc KrpcSpec KrpcProofs Dht DhtSpec DhtProofs DhtPf Conc ConcSpec.
Local Open Scope list_scope.

(** ** The first step of a job *)
Lemma asks_det pk tx q tx' q' : asks pk tx q -> asks pk tx' q' -> tx = tx' /\ q = q'.
Proof.
  intros (d & [n Hd] & _ & Ht & Hq) (d' & [n' Hd'] & _ & Ht' & Hq'). rewrite Hd in Hd'. injection Hd' as <- _. unfold field in *. split; congruence.
Qed.
Lemma proper_asks pk tx q a : proper_query (p_bytes pk) tx q a -> asks pk tx (B q).
Proof. intros (d & id & Hd & Hy & Ht & Hq & _). exists d. auto. Qed.
Lemma B_inj q q' : B q = B q' -> q = q'.
Proof. unfold B. intros E. rewrite <- (string_of_list_ascii_of_string q), <- (string_of_list_ascii_of_string q'). congruence. Qed.
Lemma proper_det pk tx q a tx' q' a' : proper_query (p_bytes pk) tx q a -> proper_query (p_bytes pk) tx' q' a' -> tx = tx' /\ q = q' /\ a = a'.
Proof.
  intros (d & id & [n Hd] & _ & Ht & Hq & Ha & _) (d' & id' & [n' Hd'] & _ & Ht' & Hq' & Ha' & _). rewrite Hd in Hd'. injection Hd' as <- _. unfold field in *.
  rewrite Ht in Ht'. injection Ht' as <-. rewrite Ha in Ha'. injection Ha' as <-. rewrite Hq in Hq'. injection Hq' as Hq'. apply B_inj in Hq'. auto.
Qed.

Lemma error_text_ne e c m : error_text e c m <> [].
Proof. intros E0. unfold error_text in E0. apply (f_equal (@length _)) in E0. rewrite !app_length in E0. cbn in E0. lia. Qed.

(** What a response written by a request handler (or an error) puts on the wire. *)
Definition wire (r : response) (d : entries) : Prop := resp_RawData r = Ok d /\ go_value (VDict d) /\ plain (VDict d).

Lemma wire_ok tx body : ids_ok body -> wire (WithResponse tx (Some body)) (ok_reply tx body).
Proof. intros H. destruct (ids_go _ H) as [Hg Hp]. destruct (ok_reply_go tx body Hg Hp) as [G1 G2]. split; [reflexivity|auto]. Qed.
Lemma wire_err tx m : m <> [] -> wire (WithParamErr tx m) (error_reply tx 203 m).
Proof.
  intros Hm. destruct (error_reply_go tx 203 m) as [G1 G2]; [unfold is_int, min_int, max_int; lia|].
  destruct (param_err_raw tx m) as (m' & _ & E & E2). rewrite (E2 Hm) in E. split; auto.
Qed.

Inductive start_case (me : bytes) (pk : packet) (pc : jpc) : Prop :=
| sc_none : pc = JEnd -> (forall tx q, ~ asks pk tx q) -> start_case me pk pc
| sc_reply r d tx q : pc = JReply r -> asks pk tx q -> (forall x, ~ announcement pk x) -> wire r d -> owed me pk d -> start_case me pk pc
| sc_enq x r d : pc = JEnq x r -> announcement pk x -> wire r d -> owed me pk d -> start_case me pk pc
| sc_look tx body d id : pc = JLook tx (Some body) -> (forall t q, ~ asks pk t q) -> packet_dict (p_bytes pk) d -> field d "y" (VStr (B "r")) ->
    field d "t" (VStr tx) -> field d "r" (VDict body) -> field body "id" (VStr id) -> start_case me pk pc.

Lemma announcement_answer me pk x : announcement pk x -> exists tx a ih po, proper_query (p_bytes pk) tx "announce_peer" a /\ field a "info_hash" (VStr ih) /\ field a "port" (VInt po) /\
  answer me tx a "announce_peer" [(B "id", VStr me)].
Proof. intros (tx & a & ih & po & Hp & Hi & Hpo & _). exists tx, a, ih, po. repeat split; auto. econstructor; eassumption. Qed.

Lemma router_cases q h : crawler_router q = Some h ->
  (q = B "ping" /\ h = HPing) \/ (q = B "find_node" /\ h = HFindNode) \/ (q = B "get_peers" /\ h = HGetPeers) \/ (q = B "announce_peer" /\ h = HAnnounce).
Proof.
  unfold crawler_router.
  destruct (beq q (B "ping")) eqn:E1; [apply beq_eq in E1; intros E; injection E as <-; auto|].
  destruct (beq q (B "find_node")) eqn:E2; [apply beq_eq in E2; intros E; injection E as <-; auto|].
  destruct (beq q (B "get_peers")) eqn:E3; [apply beq_eq in E3; intros E; injection E as <-; auto|].
  destruct (beq q (B "announce_peer")) eqn:E4; [apply beq_eq in E4; intros E; injection E as <-; auto 6|]. discriminate.
Qed.
Lemma router_none q : crawler_router q = None -> forall s, answer [] [] [] s [] \/ True -> ~ In q rset.
Proof.
  intros E s _ Hin. cbn in Hin. destruct Hin as [<-|[<-|[<-|[<-|[]]]]]; discriminate.
Qed.
Lemma answer_type me tx a q body : answer me tx a q body -> In (B q) rset.
Proof. intros []; cbn; tauto. Qed.

Lemma start_query_case e me pk d n : DecodeDictNoLimit (p_bytes pk) = Ok (d, n) -> dget d (B "y") = Some (VStr (B "q")) ->
  start_case me pk (start_query e me (p_addr pk) d).
Proof.
  intros Hd Hy. unfold start_query.
  destruct (getstring_cases d (B "t")) as [(tx & E1 & E2)|(Hn & m & E2)]; rewrite E2; cbn [bind].
  2: { apply sc_none; [reflexivity|]. intros tx q (d' & [n' Hd'] & _ & Ht & _). rewrite Hd in Hd'. injection Hd' as <- _. elim (Hn tx Ht). }
  destruct (getstring_cases d (B "q")) as [(q & E3 & E4)|(Hn & m & E4)]; rewrite E4; cbn [bind].
  2: { apply sc_none; [reflexivity|]. intros tx' q (d' & [n' Hd'] & _ & _ & Hq). rewrite Hd in Hd'. injection Hd' as <- _. elim (Hn q Hq). }
  assert (Hask : asks pk tx q). { exists d. unfold field. repeat split; auto. exists n. exact Hd. }
  assert (Hbad : forall m, m <> [] -> (forall q' a id, B q' = q -> In q rset -> dget d (B "a") = Some (VDict a) -> dget a (B "id") = Some (VStr id) -> length id = 20 -> forall body, ~ answer me tx a q' body) ->
    start_case me pk (JReply (WithParamErr tx m))).
  { intros m Hm Hno.
    assert (Hno' : forall tx' q' a body, proper_query (p_bytes pk) tx' q' a -> ~ answer me tx' a q' body).
    { intros tx' q' a body Hp Ha. destruct (asks_det _ _ _ _ _ (proper_asks _ _ _ _ Hp) Hask) as [-> Eq].
      destruct Hp as (d' & id & [n' Hd'] & _ & _ & _ & Hfa & Hid & Hl). rewrite Hd in Hd'. injection Hd' as <- _. unfold field in *.
      refine (Hno q' a id Eq _ Hfa Hid Hl body Ha). rewrite <- Eq. eapply answer_type. exact Ha. }
    eapply sc_reply; [reflexivity|exact Hask| |apply wire_err; exact Hm|econstructor; eassumption].
    intros x Hx. destruct (announcement_answer me pk x Hx) as (tx' & a & ih & po & Hp & _ & _ & Ha). exact (Hno' _ _ _ _ Hp Ha). }
  assert (Hctx : forall m, start_case me pk (JReply (WithParamErr tx m)) -> True) by auto. clear Hctx.
  unfold query_pc. destruct (contains_supported (e_uf e) q) as [[-> Hs]|[-> Hs]]; cbn [bind negb].
  2: { apply Hbad; [discriminate|]. intros q' a id Eq Hin. exfalso. apply Hs. exists q. split; [exact Hin|apply EqualFold_refl]. }
  unfold GetDict, GetVal. destruct (dget d (B "a")) as [v|] eqn:Ea; cbn [bind].
  2: { unfold PanicBizErr. apply Hbad; [apply error_text_ne|]. intros q' a id _ _ H. discriminate. }
  destruct v as [z|x|l|a| | | |k]; cbn [bind];
    try (unfold PanicBizErr; apply Hbad; [apply error_text_ne|]; intros q' a0 id _ _ H; discriminate).
  cbn [dict_of]. destruct (getstring_cases a (B "id")) as [(id & Ei & Eg)|(Hn & m & Eg)]; rewrite Eg; cbn [bind].
  2: { apply Hbad; [apply error_text_ne|]. intros q' a' id _ _ E Hi. injection E as <-. elim (Hn id Hi). }
  destruct (length id =? 20) eqn:El; cbn [negb].
  2: { apply Nat.eqb_neq in El. apply Hbad; [discriminate|]. intros q' a' id' _ _ E Hi Hl. injection E as <-. rewrite Ei in Hi. injection Hi as <-. contradiction. }
  apply Nat.eqb_eq in El.
  assert (Hprop : forall q', q = B q' -> proper_query (p_bytes pk) tx q' a).
  { intros q' ->. exists d, id. unfold field. repeat split; auto. exists n. exact Hd. }
  destruct (crawler_router q) as [h|] eqn:Er.
  2: { apply Hbad; [discriminate|]. intros q' a' id' Eq Hin. exfalso. refine (router_none q Er "" (or_intror I) _). exact Hin. }
  assert (Hnoann : q <> B "announce_peer" -> forall x, ~ announcement pk x).
  { intros Hne x (tx' & a' & ih & po & Hp & _). destruct (asks_det _ _ _ _ _ (proper_asks _ _ _ _ Hp) Hask) as [_ E]. congruence. }
  destruct (router_cases q h Er) as [[-> ->]|[[-> ->]|[[-> ->]|[-> ->]]]]; cbn [request_pc rq_tx rq_body dict_of].
  - eapply sc_reply; [reflexivity|exact Hask|apply Hnoann; discriminate|apply wire_ok; idsok|]. eapply ow_answer; [apply Hprop; reflexivity|constructor].
  - eapply sc_reply; [reflexivity|exact Hask|apply Hnoann; discriminate|apply wire_ok; idsok|]. eapply ow_answer; [apply Hprop; reflexivity|constructor].
  - destruct (getstring_cases a (B "info_hash")) as [(ih & Eh & Eg2)|(Hn & m & Eg2)]; rewrite Eg2; cbn [bind].
    + eapply sc_reply; [reflexivity|exact Hask|apply Hnoann; discriminate|apply wire_ok; idsok|]. eapply ow_answer; [apply Hprop; reflexivity|econstructor; exact Eh].
    + apply Hbad; [apply error_text_ne|]. intros q' a' id' Eq _ E _ _ body Ha. injection E as <-. inversion Ha; subst; try discriminate Eq. eapply Hn. eassumption.
  - destruct (getstring_cases a (B "info_hash")) as [(ih & Eh & Eg2)|(Hn & m & Eg2)]; rewrite Eg2; cbn [bind].
    + destruct (getint_cases a (B "port")) as [(po & Ep & Eg3)|(Hn & m & Eg3)]; rewrite Eg3; cbn [bind].
      * eapply sc_enq; [reflexivity| |apply wire_ok; idsok|eapply ow_answer; [apply Hprop; reflexivity|econstructor; eassumption]].
        exists tx, a, ih, po. repeat split; auto.
      * apply Hbad; [apply error_text_ne|]. intros q' a' id' Eq _ E _ _ body Ha. injection E as <-. inversion Ha; subst; try discriminate Eq. eapply Hn. eassumption.
    + apply Hbad; [apply error_text_ne|]. intros q' a' id' Eq _ E _ _ body Ha. injection E as <-. inversion Ha; subst; try discriminate Eq. eapply Hn. eassumption.
Qed.

Lemma start_cases e me pk : start_case me pk (start_pc e me pk).
Proof.
  unfold start_pc. destruct (DecodeDictNoLimit (p_bytes pk)) as [[d n]|x|p] eqn:Hd.
  2,3: apply sc_none; [reflexivity|]; intros tx q (d' & [n' Hd'] & _); congruence.
  assert (Hnq : dget d (B "y") <> Some (VStr (B "q")) -> forall tx q, ~ asks pk tx q).
  { intros Hn tx q (d' & [n' Hd'] & Hy & _). rewrite Hd in Hd'. injection Hd' as <- _. exact (Hn Hy). }
  unfold Exist. destruct (dget d (B "y")) as [v|] eqn:Ey; cbn [negb]; [|apply sc_none; [reflexivity|apply Hnq; congruence]].
  unfold GetString at 1, GetVal at 1. rewrite Ey. cbn [bind]. destruct v as [z|y|l|a| | | |k]; cbn [bind];
    try (apply sc_none; [reflexivity|apply Hnq; congruence]).
  destruct (beq y (B "q")) eqn:E1.
  - apply beq_eq in E1. subst y. eapply start_query_case; eassumption.
  - assert (Hn : forall tx q, ~ asks pk tx q). { apply Hnq. intros E. injection E as ->. rewrite beq_refl in E1. discriminate. }
    destruct (beq y (B "r")) eqn:E2; [|apply sc_none; [reflexivity|exact Hn]]. apply beq_eq in E2. subst y.
    destruct (getstring_cases d (B "t")) as [(tx & E3 & E4)|(_ & m & E4)]; rewrite E4; cbn [bind]; [|apply sc_none; [reflexivity|exact Hn]].
    unfold GetDict, GetVal. destruct (dget d (B "r")) as [v|] eqn:Er; cbn [bind]; [|apply sc_none; [reflexivity|exact Hn]].
    destruct v as [z|x|l|b| | | |k]; cbn [bind]; try (apply sc_none; [reflexivity|exact Hn]).
    + cbn [dict_of]. destruct (getstring_cases b (B "id")) as [(id & E5 & E6)|(_ & m & E6)]; rewrite E6; cbn [bind]; [|apply sc_none; [reflexivity|exact Hn]].
      eapply sc_look; try reflexivity; try eassumption. exists n. exact Hd.
Qed.

(** ** The local invariant of a job *)
Definition inner (v : ev) : bool := match v with EvAdd _ _ | EvDraw _ | EvQuery _ => true | _ => false end.

Inductive nodes_pc (rest : list ninfo) (acc : list ninfo) (txs : list bytes) (l : list ev) : jpc -> Prop :=
| np_add : accepted_in l = acc -> drawn_in l = txs -> nodes_pc rest acc txs l (JAdd rest)
| np_end : rest = [] -> accepted_in l = acc -> drawn_in l = txs -> nodes_pc rest acc txs l JEnd
| np_draw n : accepted_in l = acc ++ [n] -> drawn_in l = txs -> nodes_pc rest acc txs l (JDraw n rest)
| np_put n tx : accepted_in l = acc ++ [n] -> drawn_in l = txs ++ [tx] -> nodes_pc rest acc txs l (JPut n rest tx)
| np_query n tx : accepted_in l = acc ++ [n] -> drawn_in l = txs ++ [tx] -> nodes_pc rest acc txs l (JQuery n rest tx).

Inductive jok (me : bytes) (pk : packet) : jpc -> list ev -> Prop :=
| jk_start : jok me pk JStart [EvStart pk]
| jk_case pc : start_case me pk pc -> jok me pk pc [EvStart pk]
| jk_enqd x r d : announcement pk x -> wire r d -> owed me pk d -> jok me pk (JReply r) [EvStart pk; EvEnq x]
| jk_replied tx q d bs : asks pk tx q -> (forall x, ~ announcement pk x) -> owed me pk d -> carries bs d ->
    jok me pk JEnd [EvStart pk; EvReply {| g_bytes := bs; g_to := p_addr pk |}]
| jk_enq_replied x d bs : announcement pk x -> owed me pk d -> carries bs d ->
    jok me pk JEnd [EvStart pk; EvEnq x; EvReply {| g_bytes := bs; g_to := p_addr pk |}]
| jk_nodes pc l tx ns rest acc txs : (forall t q, ~ asks pk t q) -> lists_nodes pk tx ns -> map fst (tried_in l) ++ rest = ns ->
    forallb inner l = true -> asked me acc txs (queries_in l) -> nodes_pc rest acc txs l pc -> jok me pk pc (EvStart pk :: l).

(** *** reading histories *)
Lemma evs_app i a b : evs i (a ++ b) = evs i a ++ evs i b.
Proof. unfold evs. rewrite filter_app, map_app. reflexivity. Qed.
Lemma evs_pair i l : evs i (map (pair i) l) = l.
Proof. unfold evs. induction l as [|v l IH]; cbn; [reflexivity|]. rewrite Nat.eqb_refl. cbn. f_equal. exact IH. Qed.
Lemma evs_pair_ne i j l : i <> j -> evs j (map (pair i) l) = [].
Proof. intros Hne. unfold evs. induction l as [|v l IH]; cbn; [reflexivity|]. destruct (Nat.eqb_spec i j); [contradiction|exact IH]. Qed.
Lemma evs_one i v : evs i [(i, v)] = [v].
Proof. exact (evs_pair i [v]). Qed.
Lemma evs_one_ne i j v : i <> j -> evs j [(i, v)] = [].
Proof. exact (evs_pair_ne i j [v]). Qed.
Lemma evs_in i v log : In (i, v) log <-> In v (evs i log).
Proof.
  unfold evs. rewrite in_map_iff. split.
  - intros H. exists (i, v). split; [reflexivity|]. apply filter_In. split; [exact H|]. apply Nat.eqb_refl.
  - intros ([j w] & E & H). cbn in E. subst w. apply filter_In in H. destruct H as [H E]. cbn in E. apply Nat.eqb_eq in E. subst j. exact H.
Qed.
Lemma tried_app a b : tried_in (a ++ b) = tried_in a ++ tried_in b. Proof. apply flat_map_app. Qed.
Lemma drawn_app a b : drawn_in (a ++ b) = drawn_in a ++ drawn_in b. Proof. apply flat_map_app. Qed.
Lemma queries_app a b : queries_in (a ++ b) = queries_in a ++ queries_in b. Proof. apply flat_map_app. Qed.
Lemma replies_app a b : replies_in (a ++ b) = replies_in a ++ replies_in b. Proof. apply flat_map_app. Qed.
Lemma enqueued_app a b : enqueued_in (a ++ b) = enqueued_in a ++ enqueued_in b. Proof. apply flat_map_app. Qed.
Lemma sent_app a b : sent_in (a ++ b) = sent_in a ++ sent_in b. Proof. apply flat_map_app. Qed.
Lemma accepted_app a b : accepted_in (a ++ b) = accepted_in a ++ accepted_in b.
Proof. unfold accepted_in. rewrite tried_app, filter_app, map_app. reflexivity. Qed.

Lemma inner_replies l : forallb inner l = true -> replies_in l = [].
Proof. induction l as [|[] l IH]; cbn; try discriminate; auto. Qed.
Lemma inner_enqueued l : forallb inner l = true -> enqueued_in l = [].
Proof. induction l as [|[] l IH]; cbn; try discriminate; auto. Qed.
Lemma inner_sent l : forallb inner l = true -> sent_in l = queries_in l.
Proof. induction l as [|[] l IH]; cbn; try discriminate; auto. intros H. f_equal. auto. Qed.
Lemma inner_noend l : forallb inner l = true -> ~ In EvEnd l.
Proof. intros H Hin. rewrite forallb_forall in H. specialize (H _ Hin). discriminate. Qed.
Lemma inner_nostart l p : forallb inner l = true -> ~ In (EvStart p) l.
Proof. intros H Hin. rewrite forallb_forall in H. specialize (H _ Hin). discriminate. Qed.

Lemma jok_noend me pk pc l : jok me pk pc l -> ~ In EvEnd l.
Proof.
  intros H Hin. destruct H; cbn in Hin; repeat (destruct Hin as [Hin|Hin]; try discriminate Hin); try contradiction.
  eapply inner_noend; eassumption.
Qed.
Lemma jok_start me pk pc l p : jok me pk pc l -> In (EvStart p) l -> p = pk.
Proof.
  intros H Hin. destruct H; cbn in Hin; repeat (destruct Hin as [Hin|Hin]; try discriminate Hin; try (injection Hin as <-; reflexivity)); try contradiction.
  elim (inner_nostart _ _ ltac:(eassumption) Hin).
Qed.
Lemma jok_hd me pk pc l : jok me pk pc l -> In (EvStart pk) l.
Proof. intros H. destruct H; left; reflexivity. Qed.

(** *** invariants of the shared state *)
Definition table_ok (me : bytes) (w : cworld) : Prop := forall tx req, w_reqs w tx = Some req -> req = find_msg me tx.
Definition shared_ok (uf : N -> N -> bool) (me : bytes) (host : ninfo) (w : cworld) : Prop := table_ok me w /\ rt_reach uf host 8 160 (a_rt (w_app w)).

Lemma find_raw me tx : req_RawData (find_msg me tx) = query_msg tx "find_node" [(B "id", VStr me); (B "target", VStr me)].
Proof. reflexivity. Qed.
Lemma find_go me tx : go_value (VDict (req_RawData (find_msg me tx))) /\ plain (VDict (req_RawData (find_msg me tx))).
Proof.
  rewrite find_raw. destruct (ids_go [(B "id", VStr me); (B "target", VStr me)] ltac:(idsok)) as [Hg Hp]. split; constructor.
  - unfold query_msg. nodup.
  - intros k v Hin. cbn in Hin. repeat (destruct Hin as [E|Hin]; [injection E as <- <-; try exact Hg; constructor|]). contradiction.
  - intros k v Hin. cbn in Hin. repeat (destruct Hin as [E|Hin]; [injection E as <- <-; try exact Hp; constructor|]). contradiction.
Qed.
Lemma find_encodes e me (w : cworld) tx : env_ok e -> exists bs, encode_now e w (req_RawData (find_msg me tx)) = Ok bs /\
  carries bs (query_msg tx "find_node"%string [(B "id", VStr me); (B "target", VStr me)]).
Proof. intros He. destruct (find_go me tx) as [G1 G2]. exact (encode_now_ok e He w _ G1 G2). Qed.
Lemma wire_sends e (w : cworld) r d : env_ok e -> wire r d -> exists bs, reply_bytes e w r = Some bs /\ carries bs d.
Proof. intros He (E & G1 & G2). destruct (encode_now_ok e He w _ G1 G2) as (bs & Eb & Hc). exists bs. unfold reply_bytes. rewrite E, Eb. auto. Qed.

Lemma look_cases me w tx body pk d id : table_ok me w -> (forall t q, ~ asks pk t q) -> packet_dict (p_bytes pk) d -> field d "y" (VStr (B "r")) ->
  field d "t" (VStr tx) -> field d "r" (VDict body) -> field body "id" (VStr id) ->
  (look_pc (w_reqs w tx) (Some body) = JEnd /\ (w_reqs w tx = None \/ forall t ns, ~ lists_nodes pk t ns)) \/
  (exists ns, w_reqs w tx = Some (find_msg me tx) /\ look_pc (w_reqs w tx) (Some body) = JAdd ns /\ lists_nodes pk tx ns).
Proof.
  intros Ht Hna Hd Hy Htx Hr Hid. unfold look_pc. destruct (w_reqs w tx) as [req|] eqn:E; [|auto]. rewrite (Ht _ _ E). cbn [rq_handler find_msg WithFindNodeMsg rq_type dict_of].
  rewrite beq_refl. destruct (getstring_cases body (B "id")) as [(i & E1 & E2)|(Hn & _)]; [|elim (Hn id Hid)]. rewrite E2. cbn [bind].
  destruct (getstring_cases body (B "nodes")) as [(nodes & E3 & E4)|(Hn & m & E4)]; rewrite E4; cbn [bind].
  - destruct (C21_parse_node_info_total_pf nodes) as (ns & Ens & _). rewrite Ens. right. exists ns. split; [reflexivity|]. split; [reflexivity|].
    exists d, body, id, nodes. auto 10.
  - left. split; [reflexivity|]. right. intros t ns (d' & b' & id' & nodes & [n' Hd'] & _ & _ & Hr' & _ & Hnodes & _).
    destruct Hd as [n Hd]. rewrite Hd in Hd'. injection Hd' as <- _. unfold field in *. rewrite Hr in Hr'. injection Hr' as <-. exact (Hn _ Hnodes).
Qed.

Lemma forallb_snoc {X} (f : X -> bool) l x : forallb f (l ++ [x]) = forallb f l && f x.
Proof. rewrite forallb_app. cbn. rewrite andb_true_r. reflexivity. Qed.

Lemma job_step_jok uf host e me cap w pk pc w' pc' l v : env_ok e -> e_uf e = uf -> shared_ok uf me host w -> jok me pk pc l ->
  job_step e me cap w pk pc w' pc' v -> jok me pk pc' (l ++ v).
Proof.
  intros He Hu [Ht Hrt] Hj Hs.
  inversion Hs; subst; clear Hs.
  - (* start *) rewrite app_nil_r. inversion Hj as [| ? Hc | | | |]; subst; [|inversion Hc; discriminate|]; [apply jk_case, start_cases|].
    match goal with H : nodes_pc _ _ _ _ _ |- _ => inversion H end.
  - (* enq *) inversion Hj as [| ? Hc | | | |]; subst; [|match goal with H : nodes_pc _ _ _ _ _ |- _ => inversion H end].
    inversion Hc as [E|? ? ? ? E|? ? ? E|? ? ? ? E]; try discriminate E. injection E as -> ->. cbn [app]. eapply jk_enqd; eassumption.
  - (* reply *) inversion Hj as [| ? Hc |x r0 d Ha Hw Ho| | |]; subst.
    + inversion Hc as [E|r0 d tx q E Hask Hna Hw Ho|? ? ? E|? ? ? ? E]; try discriminate E. injection E as <-.
      destruct (wire_sends e w r d He Hw) as (bs' & E1 & E2). rewrite E1 in H. injection H as <-. cbn [app]. eapply jk_replied; eassumption.
    + destruct (wire_sends e w r d He Hw) as (bs' & E1 & E2). rewrite E1 in H. injection H as <-. cbn [app]. eapply jk_enq_replied; eassumption.
    + match goal with H : nodes_pc _ _ _ _ _ |- _ => inversion H end.
  - (* reply panics *) exfalso. inversion Hj as [| ? Hc |x r0 d Ha Hw Ho| | |]; subst.
    + inversion Hc as [E|r0 d tx q E Hask Hna Hw Ho|? ? ? E|? ? ? ? E]; try discriminate E. injection E as <-.
      destruct (wire_sends e w' r d He Hw) as (bs' & E1 & E2). congruence.
    + destruct (wire_sends e w' r d He Hw) as (bs' & E1 & E2). congruence.
    + match goal with H : nodes_pc _ _ _ _ _ |- _ => inversion H end.
  - (* look *) rewrite app_nil_r. inversion Hj as [| ? Hc | | | |]; subst; [|match goal with H : nodes_pc _ _ _ _ _ |- _ => inversion H end].
    inversion Hc as [E|? ? ? ? E|? ? ? E|tx' body' d id E Hna Hd Hy Htx Hr Hid]; try discriminate E. injection E as -> ->.
    destruct (look_cases me w' tx' body' pk d id Ht Hna Hd Hy Htx Hr Hid) as [[E _]|(ns & _ & E & Hl)]; rewrite E.
    + apply jk_case, sc_none; auto.
    + eapply jk_nodes with (l := []); [exact Hna|exact Hl|reflexivity|reflexivity|constructor|]. apply np_add; reflexivity.
  - (* added *) rewrite app_nil_r. inversion Hj as [| ? Hc | | | |? l0 tx ns rest acc txs Hna Hl Htr Hin Hask Hnp]; subst.
    + inversion Hc; discriminate.
    + inversion Hnp; subst. eapply jk_nodes; try eassumption; try reflexivity. apply np_end; auto.
  - (* add ok *) inversion Hj as [| ? Hc | | | |? l0 tx ns0 rest acc txs Hna Hl Htr Hin Hask Hnp]; subst.
    + inversion Hc; discriminate.
    + inversion Hnp; subst. cbn [app]. eapply jk_nodes; try exact Hna; try exact Hl.
      * rewrite tried_app, map_app, <- app_assoc. reflexivity.
      * rewrite forallb_snoc, Hin. reflexivity.
      * rewrite queries_app, app_nil_r. exact Hask.
      * apply np_draw; [rewrite accepted_app; reflexivity|rewrite drawn_app, app_nil_r; reflexivity].
  - (* add err *) inversion Hj as [| ? Hc | | | |? l0 tx ns0 rest acc txs Hna Hl Htr Hin Hask Hnp]; subst.
    + inversion Hc; discriminate.
    + inversion Hnp; subst. cbn [app]. eapply jk_nodes; try exact Hna; try exact Hl.
      * rewrite tried_app, map_app, <- app_assoc. reflexivity.
      * rewrite forallb_snoc, Hin. reflexivity.
      * rewrite queries_app, app_nil_r. exact Hask.
      * apply np_add; [rewrite accepted_app; cbn; rewrite app_nil_r; reflexivity|rewrite drawn_app, app_nil_r; reflexivity].
  - (* add panics *) exfalso. destruct (C31_total_pf (e_uf e) host 8 160) as (_ & _ & HT). destruct (HT _ Hrt) as (HA & _). destruct (HA n) as (t' & e0 & E & _). congruence.
  - (* draw *) inversion Hj as [| ? Hc | | | |? l0 tx ns0 rest acc txs Hna Hl Htr Hin Hask Hnp]; subst.
    + inversion Hc; discriminate.
    + inversion Hnp; subst. cbn [app]. eapply jk_nodes; try exact Hna; try exact Hl.
      * rewrite tried_app; change (tried_in [_]) with (@nil (ninfo * bool)); rewrite (app_nil_r (tried_in l0)); reflexivity.
      * rewrite forallb_snoc, Hin. reflexivity.
      * rewrite queries_app, app_nil_r. exact Hask.
      * apply np_put; [rewrite accepted_app; cbn; rewrite app_nil_r; assumption|rewrite drawn_app; reflexivity].
  - (* put *) rewrite app_nil_r. inversion Hj as [| ? Hc | | | |? l0 tx0 ns0 rest acc txs Hna Hl Htr Hin Hask Hnp]; subst.
    + inversion Hc; discriminate.
    + inversion Hnp; subst. eapply jk_nodes; try eassumption; try reflexivity. apply np_query; assumption.
  - (* query *) inversion Hj as [| ? Hc | | | |? l0 tx0 ns0 rest acc txs Hna Hl Htr Hin Hask Hnp]; subst.
    + inversion Hc; discriminate.
    + inversion Hnp; subst. destruct (find_encodes e me w tx He) as (bs' & E1 & E2). rewrite E1 in H. injection H as <-. cbn [app].
      eapply jk_nodes with (acc := acc ++ [n]) (txs := txs ++ [tx]); try exact Hna; try exact Hl.
      * rewrite tried_app; change (tried_in [_]) with (@nil (ninfo * bool)); rewrite (app_nil_r (tried_in l0)); reflexivity.
      * rewrite forallb_snoc, Hin. reflexivity.
      * rewrite queries_app. apply asked_snoc; [exact Hask|reflexivity|exact E2].
      * apply np_add; [rewrite accepted_app; cbn; rewrite app_nil_r; assumption|rewrite drawn_app, app_nil_r; assumption].
  - exfalso. destruct (find_encodes e me w' tx He) as (bs' & E1 & _). congruence.
  - exfalso. destruct (find_encodes e me w' tx He) as (bs' & E1 & _). congruence.
Qed.

Lemma job_step_shared uf host e me cap w pk pc w' pc' v : e_uf e = uf -> shared_ok uf me host w -> job_step e me cap w pk pc w' pc' v -> shared_ok uf me host w'.
Proof.
  intros <- [Ht Hrt] Hs. inversion Hs; subst; try (split; assumption); cbn [send fst set_app draw_tx]; split; try exact Ht; try exact Hrt; cbn [w_app a_rt].
  - eapply rtr_add; eassumption.
  - eapply rtr_add; eassumption.
  - intros t r. cbn [w_reqs]. unfold mput. destruct (beq t tx) eqn:Eb; [|apply Ht]. apply beq_eq in Eb. subst t. intros E. injection E as <-. reflexivity.
Qed.

(** ** The global invariant *)
Definition num (j : nat * packet * jpc) : nat := fst (fst j).
Record inv (uf : N -> N -> bool) (me : bytes) (host : ninfo) (s : conc) : Prop := {
  i_shared : shared_ok uf me host (k_world s);
  i_nodup : NoDup (map num (k_jobs s));
  i_jobs : forall i pk pc, In (i, pk, pc) (k_jobs s) -> i < k_next s /\ jok me pk pc (evs i (k_log s));
  i_known : forall i, i < k_next s -> (exists pk pc, In (i, pk, pc) (k_jobs s)) \/ (exists pk l, evs i (k_log s) = l ++ [EvEnd] /\ jok me pk JEnd l);
  i_fresh : forall i, k_next s <= i -> evs i (k_log s) = [] }.

Lemma nums_split l1 (j : nat * packet * jpc) l2 : map num (l1 ++ j :: l2) = map num l1 ++ num j :: map num l2.
Proof. rewrite map_app. reflexivity. Qed.
Lemma in_num i pk pc l : In (i, pk, pc) l -> In i (map num l).
Proof. intros H. apply in_map_iff. exists (i, pk, pc). auto. Qed.

Lemma NoDup_snoc {X} (l : list X) x : NoDup l -> ~ In x l -> NoDup (l ++ [x]).
Proof.
  intros Hn Hx. induction Hn as [|y l Hy Hn IH]; cbn; [constructor; [auto|constructor]|].
  constructor; [|apply IH; intros H; apply Hx; right; exact H]. intros H. apply in_app_iff in H. destruct H as [H|[->|[]]]; [contradiction|]. apply Hx. left. reflexivity.
Qed.

Lemma boot_ok e me uf hosts : (forall k, e_uf (e k) = uf) -> forall w w', boot e me hosts w = Ok w' ->
  (table_ok me w -> table_ok me w') /\ a_rt (w_app w') = a_rt (w_app w) /\ a_queue (w_app w') = a_queue (w_app w) /\
  a_tx (w_app w') = fold_left (fun t _ => nextVal t) hosts (a_tx (w_app w)) /\ (forall tx, w_reqs w tx <> None -> w_reqs w' tx <> None).
Proof.
  intros Hu. induction hosts as [|h t IH]; intros w w'; cbn [boot]; intros E.
  - injection E as <-. repeat split; auto.
  - unfold BootStrap in E. set (m := WithFindNodeMsg _ _ _ _) in E.
    assert (Hq : w_app (fst (Query (e (length (w_sent w))) (draw_tx w) h m)) = w_app (draw_tx w) /\ w_reqs (fst (Query (e (length (w_sent w))) (draw_tx w) h m)) = mput (w_reqs w) (rq_tx m) m).
    { unfold Query. destruct (encode_now _ _ _); cbn [send fst w_app w_reqs]; split; reflexivity. }
    destruct (Query (e (length (w_sent w))) (draw_tx w) h m) as [w1 r]. cbn [fst] in Hq. destruct Hq as [Ha Hm].
    assert (E' : boot e me t w1 = Ok w'). { destruct r as [[]|x|p]; cbn [bind] in E; try discriminate E. exact E. }
    destruct (IH _ _ E') as (H1 & H2 & H3 & H4 & H5). rewrite Ha in H2, H3, H4. repeat split; try assumption.
    + intros Ht. apply H1. intros tx req. rewrite Hm. unfold mput. destruct (beq tx (rq_tx m)) eqn:Eb; [|apply Ht]. apply beq_eq in Eb. intros E0. injection E0 as <-. subst tx. reflexivity.
    + intros tx Hn. apply H5. rewrite Hm. unfold mput. destruct (beq tx (rq_tx m)); [discriminate|exact Hn].
Qed.

Lemma conc_inv e me local hosts cap uf s : runtime_ok e uf -> conc_reach e me local hosts cap s -> inv uf me {| nid := me; naddr := local |} s.
Proof.
  intros Hrt Hr. induction Hr as [w0 w Hi Hb|s s' Hr IH Hst].
  - unfold crawler_init in Hi. destruct (NewRouteTable _ _ _) as [t|x|p] eqn:Et; cbn [bind] in Hi; try discriminate. injection Hi as <-.
    destruct (boot_ok e me uf hosts (fun k => proj2 (Hrt k)) _ _ Hb) as (H1 & H2 & _). split; cbn [k_world k_jobs k_next k_log]; try constructor; try lia; try reflexivity.
    + apply H1. intros tx req. discriminate.
    + rewrite H2. cbn. apply rtr_new. exact Et.
    + inversion H.
    + inversion H.
  - destruct IH as [Hsh Hnd Hjobs Hknown Hfresh]. destruct Hst as [pk|k l1 i pk pc l2 w' pc' v Hsplit Hstep|l1 i pk l2 Hsplit|x q Hq]; split; cbn [k_world k_jobs k_next k_log k_taken].
    + exact Hsh.
    + rewrite map_app. cbn [map]. apply NoDup_snoc; [exact Hnd|]. intros Hin. apply in_map_iff in Hin. destruct Hin as ([[i pk'] pc] & E & Hin).
      apply Hjobs in Hin. destruct Hin as [Hlt _]. unfold num in E. cbn in E. lia.
    + intros i pk' pc Hin. apply in_app_iff in Hin. destruct Hin as [Hin|[E|[]]].
      * destruct (Hjobs _ _ _ Hin) as [Hlt Hj]. split; [lia|]. rewrite evs_app, evs_one_ne, app_nil_r by lia. exact Hj.
      * injection E as <- <- <-. split; [lia|]. rewrite evs_app, (Hfresh (k_next s) (le_n _)), evs_one. apply jk_start.
    + intros i Hi. destruct (Nat.eq_dec i (k_next s)) as [->|Hne].
      * left. exists pk, JStart. apply in_app_iff. right. left. reflexivity.
      * destruct (Hknown i ltac:(lia)) as [(pk' & pc & Hin)|(pk' & l & E & Hj)].
        -- left. exists pk', pc. apply in_app_iff. auto.
        -- right. exists pk', l. rewrite evs_app, evs_one_ne, app_nil_r by lia. auto.
    + intros i Hi. rewrite evs_app, evs_one_ne, app_nil_r by lia. apply Hfresh. lia.
    + eapply job_step_shared; [apply Hrt|exact Hsh|exact Hstep].
    + rewrite nums_split. rewrite Hsplit, nums_split in Hnd. exact Hnd.
    + intros j pk' pc0 Hin. assert (Hi : In (i, pk, pc) (k_jobs s)) by (rewrite Hsplit; apply in_elt).
      destruct (Hjobs _ _ _ Hi) as [Hlt Hj].
      assert (Hcase : (j = i /\ pk' = pk /\ pc0 = pc') \/ (j <> i /\ In (j, pk', pc0) (k_jobs s))).
      { rewrite Hsplit in Hnd. rewrite nums_split in Hnd. apply NoDup_remove_2 in Hnd. apply in_app_iff in Hin. destruct Hin as [Hin|[E|Hin]].
        - right. split; [|rewrite Hsplit; apply in_app_iff; auto]. intros ->. apply Hnd. apply in_app_iff. left. eapply in_num. exact Hin.
        - injection E as -> -> ->. auto.
        - right. split; [|rewrite Hsplit; apply in_app_iff; cbn; auto]. intros ->. apply Hnd. apply in_app_iff. right. eapply in_num. exact Hin. }
      destruct Hcase as [(-> & -> & ->)|(Hne & Hin')].
      * split; [exact Hlt|]. rewrite evs_app, evs_pair. eapply job_step_jok; [apply Hrt|apply Hrt|exact Hsh|exact Hj|exact Hstep].
      * destruct (Hjobs _ _ _ Hin') as [Hlt' Hj']. split; [exact Hlt'|]. rewrite evs_app, evs_pair_ne, app_nil_r by congruence. exact Hj'.
    + intros j Hj. destruct (Hknown j Hj) as [(pk' & pc0 & Hin)|(pk' & l & E & Hk)].
      * left. rewrite Hsplit in Hin. apply in_app_iff in Hin. destruct Hin as [Hin|[E|Hin]].
        -- exists pk', pc0. apply in_app_iff. auto.
        -- injection E as <- <- <-. exists pk, pc'. apply in_elt.
        -- exists pk', pc0. apply in_app_iff. cbn. auto.
      * right. exists pk', l. assert (Hne : j <> i).
        { intros ->. assert (Hi : In (i, pk, pc) (k_jobs s)) by (rewrite Hsplit; apply in_elt). destruct (Hjobs _ _ _ Hi) as [_ Hjj]. apply jok_noend in Hjj. apply Hjj. rewrite E. apply in_app_iff. cbn. auto. }
        rewrite evs_app, evs_pair_ne, app_nil_r by congruence. auto.
    + intros j Hj. assert (Hi : In (i, pk, pc) (k_jobs s)) by (rewrite Hsplit; apply in_elt). destruct (Hjobs _ _ _ Hi) as [Hlt _].
      rewrite evs_app, evs_pair_ne, app_nil_r by lia. apply Hfresh. exact Hj.
    + exact Hsh.
    + rewrite Hsplit, nums_split in Hnd. apply NoDup_remove_1 in Hnd. rewrite map_app. exact Hnd.
    + intros j pk' pc0 Hin. assert (Hin' : In (j, pk', pc0) (k_jobs s)). { rewrite Hsplit. apply in_app_iff in Hin. apply in_app_iff. cbn. tauto. }
      destruct (Hjobs _ _ _ Hin') as [Hlt Hj]. split; [exact Hlt|].
      assert (Hne : j <> i). { intros ->. rewrite Hsplit, nums_split in Hnd. apply NoDup_remove_2 in Hnd. apply Hnd. rewrite <- map_app. eapply in_num. exact Hin. }
      rewrite evs_app, evs_one_ne, app_nil_r by congruence. exact Hj.
    + intros j Hj. assert (Hi : In (i, pk, JEnd) (k_jobs s)) by (rewrite Hsplit; apply in_elt). destruct (Hjobs _ _ _ Hi) as [_ Hjj].
      destruct (Nat.eq_dec j i) as [->|Hne].
      * right. exists pk, (evs i (k_log s)). rewrite evs_app, evs_one. auto.
      * destruct (Hknown j Hj) as [(pk' & pc0 & Hin)|(pk' & l & E & Hk)].
        -- left. exists pk', pc0. rewrite Hsplit in Hin. apply in_app_iff in Hin. apply in_app_iff. destruct Hin as [Hin|[E|Hin]]; auto. injection E as <- <- <-. contradiction.
        -- right. exists pk', l. rewrite evs_app, evs_one_ne, app_nil_r by congruence. auto.
    + intros j Hj. assert (Hi : In (i, pk, JEnd) (k_jobs s)) by (rewrite Hsplit; apply in_elt). destruct (Hjobs _ _ _ Hi) as [Hlt _].
      rewrite evs_app, evs_one_ne, app_nil_r by lia. apply Hfresh. exact Hj.
    + destruct Hsh as [H1 H2]. split; [exact H1|exact H2].
    + exact Hnd.
    + exact Hjobs.
    + exact Hknown.
    + exact Hfresh.
Qed.

(** A job in the history is running or has ended, and did what its packet asks for. *)
Lemma job_facts uf me host s i pk : inv uf me host s -> In (i, EvStart pk) (k_log s) ->
  (exists pc, In (i, pk, pc) (k_jobs s) /\ jok me pk pc (evs i (k_log s)) /\ ~ In (i, EvEnd) (k_log s)) \/
  (exists l, evs i (k_log s) = l ++ [EvEnd] /\ jok me pk JEnd l /\ In (i, EvEnd) (k_log s)).
Proof.
  intros [_ _ Hjobs Hknown Hfresh] Hin. pose proof (proj1 (evs_in _ _ _) Hin) as Hin'.
  assert (Hlt : i < k_next s). { destruct (Nat.lt_ge_cases i (k_next s)); [assumption|]. rewrite Hfresh in Hin' by assumption. elim Hin'. }
  destruct (Hknown i Hlt) as [(pk' & pc & Hj)|(pk' & l & E & Hj)].
  - destruct (Hjobs _ _ _ Hj) as [_ Hjok]. pose proof (jok_start _ _ _ _ _ Hjok Hin') as <-. left. exists pc. split; [exact Hj|]. split; [exact Hjok|].
    intros He. apply evs_in in He. eapply jok_noend; eassumption.
  - right. exists l. rewrite E in Hin'. apply in_app_iff in Hin'. destruct Hin' as [Hin'|[D|[]]]; [|discriminate D].
    pose proof (jok_start _ _ _ _ _ Hj Hin') as <-. split; [exact E|]. split; [exact Hj|]. apply evs_in. rewrite E. apply in_app_iff. cbn. auto.
Qed.
