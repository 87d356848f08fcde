(** ConsoleLogProofs.v -- lemmas about the console log. *)
From Verif Require Import Base GoLib Bencode BencodeSpec BencodeProofs Types TypesPf Logger LoggerSpec Node NodePf RouteTable RouteTableProofs RouteTablePf Middleware Krpc KrpcSpec KrpcProofs KrpcPf Dht DhtSpec DhtProofs DhtPf
  Conc ConcSpec ConcProofs ConcPf FetchTorrentSpec FetchTorrentPf Json InfoLogSpec InfoLogProofs ConsoleLog ConsoleLogSpec.
Local Open Scope list_scope.

(** ** The routing table *)
Section Table.
  Variable uf : N -> N -> bool.

  Lemma addNode_log_quiet f t node i b : nodeMap t i = Some b -> bFull b = false -> addNode_log uf f t node i = [].
  Proof. intros Hb Hf. destruct f; cbn [addNode_log]; unfold bget; rewrite Hb; rewrite Hf, andb_false_r; reflexivity. Qed.

  Notation rfold f := (fold_left (fun (r : res rtable * list centry) n =>
     match fst r with
     | Ok t1 => (do x <- addNode uf f t1 n (solveMaxPreLen t1 (nid n)); Ok (fst x), snd r ++ addNode_log uf f t1 n (solveMaxPreLen t1 (nid n)))
     | _ => r
     end)).

  Lemma redis_quiet f t src done n rest t1 : Inv uf t -> nodeMap t (rlast t) = Some src ->
    bnodes src = done ++ n :: rest -> redis t src done t1 -> addNode_log uf f t1 n (solveMaxPreLen t1 (nid n)) = [].
  Proof.
    intros HI Hsrc Hd [Hc Hl Hs Hlow Hhigh Hoth].
    destruct (inv_in _ _ HI (rlast t) (le_n _)) as (b & Hb & Hbc & Hbl & Hbp & Hbd).
    assert (b = src) by congruence. subst b. clear Hb.
    assert (Hlen : length done < rk t). { rewrite Hd, app_length in Hbl. cbn in Hbl. lia. }
    rewrite Hd in Hbp. apply Forall_app in Hbp as [_ Hbp]. inversion Hbp as [|? ? Hn _]; subst.
    destruct Hc as (Hh & Hk & Hcap).
    assert (Hcases : solveMaxPreLen t1 (nid n) = rlast t \/ solveMaxPreLen t1 (nid n) = S (rlast t)).
    { rewrite smpl_min in *. rewrite Hh, Hl. lia. }
    destruct Hcases as [E|E]; rewrite E; (eapply addNode_log_quiet; [eassumption|]); unfold bFull, bSize; cbn [bnodes bcap]; apply Nat.leb_gt;
      (eapply Nat.le_lt_trans; [apply filter_length_le'|exact Hlen]).
  Qed.

  Lemma redis_log f t src rest : Inv uf t -> nodeMap t (rlast t) = Some src -> forall done t1 ls,
    bnodes src = done ++ rest -> redis t src done t1 -> exists t2, rfold f rest (Ok t1, ls) = (Ok t2, ls) /\ redis t src (bnodes src) t2 /\
      fold_left (fun r n => do t1 <- r; do x <- addNode uf f t1 n (solveMaxPreLen t1 (nid n)); Ok (fst x)) rest (Ok t1) = Ok t2.
  Proof.
    intros HI Hsrc. induction rest as [|n rest IH]; intros done t1 ls Hd Hr.
    - exists t1. split; [reflexivity|]. rewrite app_nil_r in Hd. rewrite Hd. auto.
    - destruct (redis_step uf f t src done n rest t1 HI Hsrc Hd Hr) as (t2 & E & Hr2).
      cbn [fold_left bind fst snd]. rewrite E. cbn [bind fst snd]. rewrite (redis_quiet f t src done n rest t1 HI Hsrc Hd Hr), app_nil_r.
      apply (IH (done ++ [n])); [|exact Hr2]. rewrite <- app_assoc. exact Hd.
  Qed.

  Lemma in_stored t i b m : i <= rlast t -> nodeMap t i = Some b -> In m (bnodes b) -> In m (stored t).
  Proof.
    intros Hi Hb Hm. unfold stored. apply in_concat. exists (bucket_nodes t i). split; [apply in_map, in_seq; lia|]. unfold bucket_nodes. rewrite Hb. exact Hm.
  Qed.

  Lemma repeat_snoc {A} (x : A) n : repeat x n ++ [x] = repeat x (S n).
  Proof. induction n as [|n IH]; [reflexivity|]. cbn [repeat app]. f_equal. exact IH. Qed.

  Lemma addNode_says f : forall t node, Inv uf t -> (rcapacity t - Z.of_nat (rlast t) <= Z.of_nat f)%Z -> forall t' er,
    addNode uf f t node (solveMaxPreLen t (nid node)) = Ok (t', er) -> table_says uf t node t' er (addNode_log uf f t node (solveMaxPreLen t (nid node))).
  Proof.
    induction f as [|f IH]; intros t node HI Hfuel t' er.
    all: destruct (inv_in _ _ HI _ (smpl_le t (nid node))) as (b & Hb & Hbc & Hbl & Hbp & Hbd).
    all: assert (Hz : rlast t - rlast t = 0) by lia.
    all: destruct (bFull b) eqn:Hfull; [|
      rewrite (addNode_log_quiet _ _ _ _ _ Hb Hfull); destruct (bExist uf b node) eqn:Hex; [
        cbn [addNode]; unfold bget; rewrite Hb; cbn [bind]; rewrite Hfull, Hex, andb_false_r; cbn [negb]; intros E; injection E as <- <- |
        rewrite (addNode_add _ _ _ _ _ _ Hb Hfull Hex); intros E; injection E as <- <-];
      apply (ts_intro _ _ _ _ _ _ [] []); cbn [set_size set_bucket rlast]; rewrite ?Hz; [cbn; destruct (_ =? _)%Z; reflexivity|reflexivity| |cbn; destruct (_ =? _)%Z; reflexivity|reflexivity|]].
    2,5: left; split; [reflexivity|]; split; [reflexivity|]; unfold bExist in Hex; apply existsb_exists in Hex as (m & Hm & Heq); exists m; split; [|exact Heq];
         apply (in_stored (set_size t (rsize t + 1)) _ _ _ (smpl_le t (nid node)) Hb Hm).
    2,4: left; split; [reflexivity|]; split; [reflexivity|]; exists node; split; [|apply Equals_refl];
         eapply (in_stored (set_size (set_bucket t _ _) _) _ _ _ (smpl_le t (nid node))); [exact (bput_eq _ _ _)|]; cbn [bnodes]; apply in_app_iff; right; left; reflexivity.
    all: destruct (Nat.leb_spec (rlast t) (solveMaxPreLen t (nid node))) as [Hlast|Hlast].
    2,4: cbn [addNode addNode_log]; unfold bget; rewrite Hb; cbn [bind]; rewrite Hfull; apply Nat.leb_gt in Hlast; rewrite Hlast; cbn [andb]; intros E; injection E as <- <-;
      (eapply (ts_intro _ _ _ _ _ _ [] [_]); rewrite ?Hz; [cbn; destruct (_ =? _)%Z; reflexivity|reflexivity|]);
      right; eexists; (split; [reflexivity|]); (split; [apply fl_bucket, smpl_le|]); (split; [reflexivity|]); split; [discriminate|lia].
    all: destruct (bExist uf b node) eqn:Hex.
    1,3: cbn [addNode addNode_log]; unfold bget; rewrite Hb; cbn [bind]; rewrite Hfull, Hex, andb_false_r; cbn [andb negb]; intros E; injection E as <- <-;
      (eapply (ts_intro _ _ _ _ _ _ [] [_]); rewrite ?Hz; [cbn; destruct (_ =? _)%Z; reflexivity|reflexivity|]);
      right; eexists; (split; [reflexivity|]); (split; [apply fl_bucket, smpl_le|]); (split; [reflexivity|]); split; [discriminate|lia].
    all: destruct (Z.leb_spec (rcapacity t) (Z.of_nat (rlast t))) as [Hcap|Hcap].
    1,3: cbn [addNode addNode_log]; unfold bget; rewrite Hb; cbn [bind]; rewrite Hfull, Hex; apply Nat.leb_le in Hlast; rewrite Hlast; cbn [andb negb];
      pose proof Hcap as Hcap'; apply Z.leb_le in Hcap'; rewrite Hcap'; intros E; injection E as <- <-;
      (eapply (ts_intro _ _ _ _ _ _ [] [_]); rewrite ?Hz; [cbn; destruct (_ =? _)%Z; reflexivity|reflexivity|]);
      right; eexists; (split; [reflexivity|]); (split; [apply fl_table; exact Hcap|]); (split; [reflexivity|]); split; [discriminate|lia].
    1: lia.
    assert (El : solveMaxPreLen t (nid node) = rlast t) by (pose proof (smpl_le t (nid node)); lia).
    rewrite El in Hb |- *.
    destruct (redis_log f t b (bnodes b) HI Hb [] (split_empty t b) [l_split (split_empty t b)] eq_refl (redis_start t b)) as (t2 & Elog & Hrd & Efold).
    destruct (redis_inv uf t b t2 HI Hb ltac:(lia) Hrd) as (HI2 & Hperm & Hsz).
    pose proof (rd_last _ _ _ _ Hrd) as Hl2. pose proof (rd_conf _ _ _ _ Hrd) as (Hh & Hk & Hcc).
    destruct (addNode_spec uf f t2 node HI2 ltac:(lia)) as (t3 & e3 & E3 & HI3 & _ & Hl3 & _).
    pose proof (IH t2 node HI2 ltac:(lia) t3 e3 E3) as Hsays.
    destruct (nodeCount_ok uf t3 HI3) as (nc & Enc & Hnc).
    cbn [addNode addNode_log]. unfold bget. rewrite Hb. cbn [bind]. rewrite Hfull, Hex, Nat.leb_refl. cbn [andb negb].
    pose proof Hcap as Hcap'. apply Z.leb_gt in Hcap'. rewrite Hcap'. cbn [bind]. unfold bAll. rewrite Efold, Elog. cbn [bind fst snd]. rewrite E3. cbn [bind fst]. rewrite Enc. cbn [bind].
    intros E. injection E as <- <-. destruct Hsays as [sizes full Els Elen Hplace].
    assert (Hm : rlast t3 - rlast t = S (rlast t3 - rlast t2)) by lia.
    apply (ts_intro _ _ _ _ _ _ (rsize (split_empty t b) :: sizes) full).
    - rewrite Els, Hm. cbn [seq combine map fst snd]. rewrite Hl2. rewrite <- !app_assoc. cbn [app]. f_equal. f_equal. f_equal.
      unfold Size in *. rewrite Hsz, Hnc. clear Els. destruct (rsize t + 1 =? Z.of_nat (length (stored t3)))%Z; [reflexivity|]. apply repeat_snoc.
    - cbn [length]. rewrite Elen, Hm. reflexivity.
    - destruct Hplace as [(-> & _ & Hin)|(x & -> & Hx & Hp & _)]; [left; auto|]. right. exists x. split; [reflexivity|]. split; [exact Hx|].
      split; [etransitivity; [exact Hp|exact Hperm]|]. split; [intros _; lia|reflexivity].
  Qed.
End Table.

(** ** The first step *)
Inductive begun (uf : N -> N -> bool) (la : udpaddr) (pk : packet) : jpc -> list centry -> Prop :=
| bn_end ls : transcript uf la pk [] ls -> begun uf la pk JEnd ls
| bn_reply rs tx q r : asks pk tx q -> remark uf pk tx q r ->
    begun uf la pk (JReply rs) (entry "server" MInfo "response handle" [(B "txId", str tx); (B "queryType", str q)] :: r)
| bn_enq x rs tx q r : asks pk tx q -> remark uf pk tx q r ->
    begun uf la pk (JEnq x rs) (entry "server" MInfo "response handle" [(B "txId", str tx); (B "queryType", str q)] :: r)
| bn_look tx b id : responds_with pk tx b id -> begun uf la pk (JLook tx (Some b)) [response_line tx id].

Lemma packet_det pk d d' : packet_dict pk d -> packet_dict pk d' -> d = d'.
Proof. intros [n H] [n' H']. congruence. Qed.

Lemma malformed_intro pk d v : packet_dict (p_bytes pk) d -> dget d (B "y") = Some v -> (forall y, v = VStr y -> In y [B "q"; B "r"; B "e"]) ->
  (v = VStr (B "q") -> forall tx q, dget d (B "t") = Some (VStr tx) -> dget d (B "q") = Some (VStr q) -> False) ->
  (v = VStr (B "r") -> forall tx b id, dget d (B "t") = Some (VStr tx) -> dget d (B "r") = Some (VDict b) -> dget b (B "id") = Some (VStr id) -> False) ->
  (v = VStr (B "e") -> forall tx l, dget d (B "t") = Some (VStr tx) -> dget d (B "e") = Some l -> l = VNilList \/ (exists l', l = VList l') -> False) -> malformed pk.
Proof.
  intros Hd Hy Hk Hq Hr He. right. exists d. split; [exact Hd|]. split; [exists v; split; [exact Hy|exact Hk]|]. unfold field in *. repeat split.
  - intros tx q (d' & Hd' & H1 & H2 & H3). pose proof (packet_det _ _ _ Hd Hd') as <-. unfold field in *. rewrite Hy in H1. injection H1 as ->. eapply Hq; eauto.
  - intros tx b id (d' & Hd' & H1 & H2 & H3 & H4). pose proof (packet_det _ _ _ Hd Hd') as <-. unfold field in *. rewrite Hy in H1. injection H1 as ->. eapply Hr; eauto.
  - intros tx l (d' & Hd' & H1 & H2 & H3 & H4). pose proof (packet_det _ _ _ Hd Hd') as <-. unfold field in *. rewrite Hy in H1. injection H1 as ->. eapply He; eauto.
Qed.

Lemma begun_reply uf la pk pc tx q r : (exists rs, pc = JReply rs) \/ (exists x rs, pc = JEnq x rs) -> asks pk tx q -> remark uf pk tx q r ->
  begun uf la pk pc (entry "server" MInfo "response handle" [(B "txId", str tx); (B "queryType", str q)] :: r).
Proof. intros [(rs & ->)|(x & rs & ->)] Ha Hr; [apply bn_reply|apply bn_enq]; assumption. Qed.

Lemma start_begun e o la me pk : begun (e_uf e) la pk (start_pc e me pk) (start_log e o me pk).
Proof.
  unfold start_pc, start_log. destruct (DecodeDictNoLimit (p_bytes pk)) as [[d n]|x|p] eqn:Hd.
  2: { apply bn_end. eapply tr_undecodable. exact Hd. }
  2: { apply bn_end. apply tr_malformed. left. eauto. }
  assert (Hpd : packet_dict (p_bytes pk) d) by (exists n; exact Hd).
  unfold Exist. destruct (dget d (B "y")) as [v|] eqn:Ey; cbn [negb].
  2: { apply bn_end. eapply tr_untyped; [exact Hpd|]. intros v E. unfold field in E. congruence. }
  destruct (getstring_cases d (B "y")) as [(y & Ey' & Eg0)|(Hny & m0 & Eg0)]; rewrite Eg0; cbn [bind].
  2: { apply bn_end. apply tr_malformed. rewrite Ey in Hny. eapply malformed_intro; [exact Hpd|exact Ey|..]; intros; subst; elim (Hny _ eq_refl). }
  rewrite Ey in Ey'. injection Ey' as ->.
  destruct (beq y (B "q")) eqn:E1; [apply beq_eq in E1; subst y|].
  - (* a query *)
    unfold start_query, start_query_log.
    destruct (getstring_cases d (B "t")) as [(tx & Et & Eg)|(Hn & m & Eg)]; rewrite Eg; cbn [bind].
    2: { apply bn_end, tr_malformed. eapply malformed_intro; [exact Hpd|exact Ey|..]; try (intros; discriminate); [intros y E; injection E as <-; cbn; auto|]. intros _ tx q H. elim (Hn _ H). }
    destruct (getstring_cases d (B "q")) as [(q & Eq & Eg')|(Hn & m & Eg')]; rewrite Eg'; cbn [bind].
    2: { apply bn_end, tr_malformed. eapply malformed_intro; [exact Hpd|exact Ey|..]; try (intros; discriminate); [intros y E; injection E as <-; cbn; auto|]. intros _ tx' q _ H. elim (Hn _ H). }
    assert (Hask : asks pk tx q). { exists d. unfold field. auto. }
    unfold query_line, query_pc.
    destruct (contains_supported (e_uf e) q) as [[Ec Hs]|[Ec Hs]]; rewrite Ec; cbn [bind negb].
    2: { apply begun_reply; [eauto|exact Hask|]. apply rm_turned_down. left. exact Hs. }
    assert (Hlack : forall m, lacking (e_uf e) pk q -> remark (e_uf e) pk tx q ([] ++ [entry "server" MError "request handle panic" [(B "err", VStr (panic_text o e (PBiz 201 m)))]])).
    { intros m H. apply rm_lacking; [exact H|apply error_text_ne]. }
    unfold GetDict, GetVal. destruct (dget d (B "a")) as [v|] eqn:Ea; cbn [bind].
    2: { unfold PanicBizErr. cbn [bind]. apply begun_reply; [eauto|exact Hask|]. apply Hlack. split; [exact Hs|]. exists d. split; [exact Hpd|]. left. intros a H. unfold field in H. congruence. }
    assert (Hnd : (forall a, v <> VDict a) -> lacking (e_uf e) pk q).
    { intros H. split; [exact Hs|]. exists d. split; [exact Hpd|]. left. intros a H'. unfold field in H'. rewrite Ea in H'. injection H' as ->. elim (H a). reflexivity. }
    destruct v as [z|x|l|a| | | |k]; unfold PanicBizErr; cbn [bind]; try (apply begun_reply; [eauto|exact Hask|]; apply Hlack, Hnd; intros; discriminate).
    2: { cbn [dict_of]. destruct (getstring_cases [] (B "id")) as [(id & H & _)|(_ & m & Eg2)]; [discriminate H|]. rewrite Eg2. cbn [bind]. apply begun_reply; [eauto|exact Hask|]. apply Hlack, Hnd; intros; discriminate. }
    clear Hnd. cbn [dict_of].
    assert (Hla : forall P, (forall id, dget a (B "id") <> Some (VStr id)) \/ P -> (P -> (q = B "get_peers" \/ q = B "announce_peer") /\ (forall ih, dget a (B "info_hash") <> Some (VStr ih)) \/ q = B "announce_peer" /\ (forall p, dget a (B "port") <> Some (VInt p))) -> lacking (e_uf e) pk q).
    { intros P HP HQ. split; [exact Hs|]. exists d. split; [exact Hpd|]. right. exists a. split; [exact Ea|]. unfold field. destruct HP as [H|H]; [left; exact H|right]. apply HQ. exact H. }
    destruct (getstring_cases a (B "id")) as [(id & Ei & Eg2)|(Hn & m & Eg2)]; rewrite Eg2; cbn [bind].
    2: { apply begun_reply; [eauto|exact Hask|]. apply Hlack. apply (Hla False); [left; exact Hn|intros []]. }
    destruct (length id =? 20) eqn:El; cbn [negb].
    2: { apply begun_reply; [eauto|exact Hask|]. apply rm_turned_down. right. exists d, a, id. apply Nat.eqb_neq in El. unfold field. auto 6. }
    apply Nat.eqb_eq in El.
    assert (Hprop : forall q', q = B q' -> proper_query (p_bytes pk) tx q' a).
    { intros q' ->. exists d, id. unfold field. auto 10. }
    destruct (crawler_router q) as [h|] eqn:Er.
    2: { apply begun_reply; [eauto|exact Hask|]. apply rm_turned_down. right. exists d, a, id. unfold field. repeat (split; [assumption|]). right. exact (router_none q Er "" (or_intror I)). }
    destruct (router_cases q h Er) as [[-> ->]|[[-> ->]|[[-> ->]|[-> ->]]]]; cbn [request_line request_pc rq_tx rq_body dict_of app].
    + apply begun_reply; [eauto|exact Hask|]. eapply rm_ping. apply Hprop. reflexivity.
    + apply begun_reply; [eauto|exact Hask|]. eapply rm_find. apply Hprop. reflexivity.
    + destruct (getstring_cases a (B "info_hash")) as [(ih & Eh & Eg3)|(Hn & m & Eg3)]; rewrite Eg3; cbn [bind app].
      * apply begun_reply; [eauto|exact Hask|]. rewrite hex_hex_text. eapply rm_peers; [apply Hprop; reflexivity|exact Eh].
      * apply begun_reply; [eauto|exact Hask|]. apply (Hlack m). apply (Hla True); [right; exact I|intros _; left; auto].
    + destruct (getstring_cases a (B "info_hash")) as [(ih & Eh & Eg3)|(Hn & m & Eg3)]; rewrite Eg3; cbn [bind app].
      2: { apply begun_reply; [eauto|exact Hask|]. apply (Hlack m). apply (Hla True); [right; exact I|intros _; left; auto]. }
      destruct (getint_cases a (B "port")) as [(p & Ep & Eg4)|(Hn & m & Eg4)]; rewrite Eg4; cbn [bind app].
      * apply begun_reply; [eauto|exact Hask|]. rewrite hex_hex_text. eapply rm_announce; [apply Hprop; reflexivity|exact Eh|exact Ep].
      * apply begun_reply; [eauto|exact Hask|]. apply (Hlack m). apply (Hla True); [right; exact I|intros _; right; auto].
  - assert (Hyq : y <> B "q") by (intros ->; rewrite beq_refl in E1; discriminate).
    destruct (beq y (B "r")) eqn:E2; [apply beq_eq in E2; subst y|].
    + (* a response *)
      unfold start_resp_log.
      destruct (getstring_cases d (B "t")) as [(tx & Et & Eg)|(Hn & m & Eg)]; rewrite Eg; cbn [bind].
      2: { apply bn_end, tr_malformed. eapply malformed_intro; [exact Hpd|exact Ey|..]; try (intros; discriminate); [intros y E; injection E as <-; cbn; auto|]. intros _ tx b id H. elim (Hn _ H). }
      unfold GetDict, GetVal. destruct (dget d (B "r")) as [v|] eqn:Er; unfold PanicBizErr; cbn [bind].
      2: { apply bn_end, tr_malformed. eapply malformed_intro; [exact Hpd|exact Ey|..]; try (intros; discriminate); [intros y E; injection E as <-; cbn; auto|]. intros _ tx' b id _ H. congruence. }
      destruct v as [z|x|l|b| | | |k]; cbn [bind dict_of];
        try (apply bn_end, tr_malformed; eapply malformed_intro; [exact Hpd|exact Ey|..]; try (intros; discriminate); [intros y E; injection E as <-; cbn; auto|]; intros _ tx' b id _ H; congruence).
      destruct (getstring_cases b (B "id")) as [(id & Ei & Eg2)|(Hn & m & Eg2)]; rewrite Eg2; cbn [bind].
      * rewrite hex_hex_text. apply bn_look. exists d. unfold field. auto.
      * apply bn_end, tr_malformed. eapply malformed_intro; [exact Hpd|exact Ey|..]; try (intros; discriminate); [intros y E; injection E as <-; cbn; auto|]. intros _ tx' b' id _ H H'. rewrite Er in H. injection H as <-. elim (Hn _ H').
    + assert (Hyr : y <> B "r") by (intros ->; rewrite beq_refl in E2; discriminate).
      destruct (beq y (B "e")) eqn:E3; [apply beq_eq in E3; subst y|].
      * unfold start_err_log.
        destruct (getstring_cases d (B "t")) as [(tx & Et & Eg)|(Hn & m & Eg)]; rewrite Eg; cbn [bind].
        2: { apply bn_end, tr_malformed. eapply malformed_intro; [exact Hpd|exact Ey|..]; try (intros; discriminate); [intros y E; injection E as <-; cbn; auto|]. intros _ tx l H. elim (Hn _ H). }
        unfold GetList, GetVal. destruct (dget d (B "e")) as [v|] eqn:Ee; unfold PanicBizErr; cbn [bind].
        2: { apply bn_end, tr_malformed. eapply malformed_intro; [exact Hpd|exact Ey|..]; try (intros; discriminate); [intros y E; injection E as <-; cbn; auto|]. intros _ tx' b _ H. congruence. }
        destruct v as [z|x|l|b| | | |k]; cbn [bind];
          try (apply bn_end, tr_malformed; eapply malformed_intro; [exact Hpd|exact Ey|..]; try (intros; discriminate); [intros y E; injection E as <-; cbn; auto|]; intros _ tx' v _ H Hv; rewrite Ee in H; injection H as <-; destruct Hv as [Hv|[? Hv]]; discriminate).
        -- apply bn_end. apply tr_error. exists d. unfold field. eauto 10.
        -- apply bn_end. apply tr_error. exists d. unfold field. auto 10.
      * apply bn_end. eapply tr_unknown; [exact Hpd|exact Ey|]. intros [E|[E|[E|[]]]]; try congruence. rewrite <- E, beq_refl in E3. discriminate.
Qed.

(** ** The lines of a job *)
Definition rest_of (pc : jpc) : option (list ninfo) :=
  match pc with JAdd ns => Some ns | JDraw _ ns => Some ns | JPut _ ns _ => Some ns | JQuery _ ns _ => Some ns | _ => None end.
Inductive jsaid (uf : N -> N -> bool) (la : udpaddr) (pk : packet) : jpc -> list ev -> list centry -> Prop :=
| jd_start : jsaid uf la pk JStart [] []
| jd_enq x rs tx q r : asks pk tx q -> remark uf pk tx q r ->
    jsaid uf la pk (JEnq x rs) [] (entry "server" MInfo "response handle" [(B "txId", str tx); (B "queryType", str q)] :: r)
| jd_reply rs tx q r l ls : asks pk tx q -> remark uf pk tx q r -> says uf la l ls -> replies_in l = [] -> queries_in l = [] ->
    jsaid uf la pk (JReply rs) l (entry "server" MInfo "response handle" [(B "txId", str tx); (B "queryType", str q)] :: r ++ ls)
| jd_look tx b id : responds_with pk tx b id -> jsaid uf la pk (JLook tx (Some b)) [] [response_line tx id]
| jd_nodes pc rest tx b id ns l ls : rest_of pc = Some rest -> responds_with pk tx b id -> lists_nodes pk tx ns -> says uf la l ls -> replies_in l = [] ->
    map fst (tried_in l) ++ rest = ns -> jsaid uf la pk pc l ([response_line tx id; matched_line tx] ++ ls)
| jd_end l ls : transcript uf la pk l ls -> jsaid uf la pk JEnd l ls.

Lemma begun_said uf la pk pc ls : begun uf la pk pc ls -> jsaid uf la pk pc [] ls.
Proof.
  intros H. destruct H as [ls H|rs tx q r Ha Hr|x rs tx q r Ha Hr|tx b id H].
  - apply jd_end. exact H.
  - rewrite <- (app_nil_r r). apply jd_reply; [exact Ha|exact Hr|constructor|reflexivity|reflexivity].
  - apply jd_enq; assumption.
  - apply jd_look. exact H.
Qed.

Lemma nodes_count_listed pk tx ns : lists_nodes pk tx ns -> nodes_count pk = Z.of_nat (length ns).
Proof.
  intros (d & body & id & nodes & [n Hd] & _ & _ & Hr & _ & Hn & Hp). unfold nodes_count. rewrite Hd. cbn [bind fst]. unfold GetDict, GetVal, GetString, GetVal. unfold field in *. rewrite Hr. cbn [bind dict_of]. rewrite Hn. cbn [bind]. rewrite Hp. reflexivity.
Qed.

Lemma replies_app' a b : replies_in (a ++ b) = replies_in a ++ replies_in b.
Proof. unfold replies_in. apply flat_map_app. Qed.

Lemma addNode_err uf f t n i t' er : addNode uf f t n i = Ok (t', Some er) -> t' = t /\ exists m, er = ENew m.
Proof.
  destruct f as [|f]; cbn [addNode]; destruct (bget t i) as [b|x|p]; cbn [bind]; try discriminate; destruct (_ && _).
  - destruct (_ <=? _)%Z; [|discriminate]. intros E. injection E as <- <-. eauto.
  - destruct (bFull b) eqn:Ef; [intros E; injection E as <- <-; eauto|]. destruct (negb _); [|discriminate]. unfold bAdd. rewrite Ef. discriminate.
  - destruct (_ <=? _)%Z; [intros E; injection E as <- <-; eauto|]. destruct (bget t (rlast t)); cbn [bind]; try discriminate. destruct (fold_left _ _ _); cbn [bind]; try discriminate.
    destruct (addNode uf f _ _ _) as [x|x|x]; cbn [bind]; try discriminate. destruct (nodeCount (fst x)); cbn [bind]; discriminate.
  - destruct (bFull b) eqn:Ef; [intros E; injection E as <- <-; eauto|]. destruct (negb _); [|discriminate]. unfold bAdd. rewrite Ef. discriminate.
Qed.

Lemma udp_said e o la (w : cworld) bs to : exists u, send_log e o la w bs to = [u] /\ udp_line la {| g_bytes := bs; g_to := to |} (snd (send e w bs to)) u.
Proof. unfold send_log. destruct (snd (send e w bs to)); eexists; (split; [reflexivity|constructor]). Qed.

Lemma AddNode_says uf host t n t' er : rt_reach uf host 8 160 t -> AddNode uf t n = Ok (t', er) -> table_says uf t n t' er (AddNode_log uf t n).
Proof. intros Hr E. unfold AddNode_log. eapply addNode_says; [eapply reach_inv; exact Hr|lia|exact E]. Qed.

Lemma says_snoc uf la l ls v vs : says uf la l ls -> ev_lines uf la v vs -> says uf la (l ++ [v]) (ls ++ vs).
Proof. apply sy_snoc. Qed.

Lemma job_step_said uf host e o la me cap w pk pc w' pc' l lj ls v : env_ok e -> e_uf e = uf -> shared_ok uf me host w -> jok me pk pc lj -> jsaid uf la pk pc l ls ->
  job_step e me cap w pk pc w' pc' v -> jsaid uf la pk pc' (l ++ v) (ls ++ step_log e o la me w pk pc).
Proof.
  intros He Hu [Ht Hrt] Hj Hd Hs. inversion Hs; subst; clear Hs; cbn [step_log].
  - (* start *) inversion Hd; subst; [|discriminate]. cbn [app]. apply begun_said, start_begun.
  - (* enq *) inversion Hd; subst; [|discriminate]. rewrite app_nil_r. cbn [app]. rewrite <- (app_nil_r r0). rewrite <- (app_nil_r []).
    apply jd_reply; [assumption|assumption|apply (sy_snoc _ _ [] [] (EvEnq x) []); constructor|reflexivity|reflexivity].
  - (* reply *)
    assert (Hw : exists d, wire r d). { inversion Hj as [| ? Hc |x r0 d Ha Hw Ho| | |]; subst; [|eauto|match goal with H : nodes_pc _ _ _ _ _ |- _ => inversion H end].
      inversion Hc as [E|r0 d tx q E Hask Hna Hw Ho|? ? ? E|? ? ? ? E]; try discriminate E. injection E as <-. eauto. }
    destruct Hw as (d & Er & G1 & G2). destruct (encode_now_ok e He w _ G1 G2) as (bs' & Eb & _). unfold reply_bytes in H. rewrite Er, Eb in H. injection H as <-.
    unfold reply_log. rewrite Er, Eb. destruct (udp_said e o la w bs' (p_addr pk)) as (u & Eu & Hu). rewrite Eu.
    inversion Hd; subst; [|discriminate]. apply jd_end. cbn [app]. rewrite <- app_assoc. eapply tr_query; [eassumption|eassumption|..].
    + eapply sy_snoc; [eassumption|]. eapply (el_reply _ _ {| g_bytes := bs'; g_to := p_addr pk |}). exact Hu.
    + rewrite replies_app'. match goal with H : replies_in l = [] |- _ => rewrite H end. reflexivity.
    + rewrite queries_app. match goal with H : queries_in l = [] |- _ => rewrite H end. reflexivity.
  - (* reply panics *) exfalso. inversion Hj as [| ? Hc |x r0 d Ha Hw Ho| | |]; subst.
    + inversion Hc as [E|r0 d tx q E Hask Hna Hw Ho|? ? ? E|? ? ? ? E]; try discriminate E. injection E as <-.
      destruct (wire_sends e w' r d He Hw) as (bs' & E1 & E2). congruence.
    + destruct (wire_sends e w' r d He Hw) as (bs' & E1 & E2). congruence.
    + match goal with H : nodes_pc _ _ _ _ _ |- _ => inversion H end.
  - (* look *) inversion Hd as [| | |tx' b id Hresp| |]; subst; [|discriminate]. cbn [app]. unfold look_log, look_pc. destruct (w_reqs w' tx) as [req|] eqn:E.
    2: { apply jd_end. destruct Hresp as (d & H1 & H2 & H3 & H4 & H5). unfold field in *. cbn [dict_of]. unfold GetString, GetVal. rewrite H5. cbn [bind]. eapply tr_stray. exists d. unfold field. eauto 6. }
    rewrite (Ht _ _ E). cbn [rq_handler find_msg WithFindNodeMsg rq_type dict_of]. rewrite beq_refl.
    pose proof Hresp as (d & H1 & H2 & H3 & H4 & H5). unfold field in *.
    destruct (getstring_cases b (B "id")) as [(i & E1 & E2)|(Hn & _)]; [|elim (Hn _ H5)]. rewrite E2. cbn [bind].
    destruct (getstring_cases b (B "nodes")) as [(nodes & E3 & E4)|(Hn & m & E4)]; rewrite E4; cbn [bind].
    + destruct (C21_parse_node_info_total_pf nodes) as (ns & Ens & _). rewrite Ens. cbn [bind].
      apply (jd_nodes _ la pk (JAdd ns) ns tx b id ns [] []); [reflexivity|exact Hresp| |constructor|reflexivity|reflexivity].
      exists d, b, i, nodes. unfold field. auto 10.
    + apply jd_end. eapply tr_unlisted; [exact Hresp|]. intros ns (d' & b' & id' & nodes & Hd' & _ & _ & Hr' & _ & Hnodes & _).
      pose proof (packet_det _ _ _ H1 Hd') as <-. unfold field in *. rewrite H4 in Hr'. injection Hr' as <-. exact (Hn _ Hnodes).
  - (* added *) inversion Hd as [| | | |pc0 rest tx b id ns l0 ls0 Hrest Hresp Hl Hsays Hrep Htr|]; subst. injection Hrest as <-. rewrite app_nil_r in *. apply jd_end.
    rewrite <- app_assoc. unfold done_log. rewrite (nodes_count_listed _ _ _ Hl). eapply (tr_listed _ _ _ _ _ _ _ _ _ (or_size o)); [exact Hresp|exact Hl|exact Hsays|reflexivity|exact Hrep].
  - (* add ok *) inversion Hd as [| | | |pc0 rest tx b id ns0 l0 ls0 Hrest Hresp Hl Hsays Hrep Htr|]; subst. injection Hrest as <-. unfold add_log. rewrite H. rewrite app_nil_r, <- app_assoc.
    eapply jd_nodes; [reflexivity|exact Hresp|exact Hl|..].
    + eapply sy_snoc; [exact Hsays|]. eapply el_added; [exact H|eapply AddNode_says; eassumption].
    + rewrite replies_app', Hrep. reflexivity.
    + rewrite tried_app, map_app, <- app_assoc. reflexivity.
  - (* add err *) inversion Hd as [| | | |pc0 rest tx b id ns0 l0 ls0 Hrest Hresp Hl Hsays Hrep Htr|]; subst. injection Hrest as <-. unfold add_log. rewrite H. rewrite <- app_assoc.
    destruct (addNode_err _ _ _ _ _ _ _ H) as (-> & m & ->). cbn [err_text].
    eapply jd_nodes; [reflexivity|exact Hresp|exact Hl|..].
    + eapply sy_snoc; [exact Hsays|]. eapply el_refused; [exact H|eapply AddNode_says; eassumption].
    + rewrite replies_app', Hrep. reflexivity.
    + rewrite tried_app, map_app, <- app_assoc. reflexivity.
  - (* add panics *) exfalso. destruct (C31_total_pf (e_uf e) host 8 160) as (_ & _ & HT). destruct (HT _ Hrt) as (HA & _). destruct (HA n) as (t' & e0 & E & _). congruence.
  - (* draw *) inversion Hd as [| | | |pc0 rest tx b id ns0 l0 ls0 Hrest Hresp Hl Hsays Hrep Htr|]; subst. injection Hrest as <-. rewrite <- app_assoc.
    eapply jd_nodes; [reflexivity|exact Hresp|exact Hl|eapply sy_snoc; [exact Hsays|constructor]|rewrite replies_app', Hrep; reflexivity|].
    rewrite tried_app; change (tried_in [_]) with (@nil (ninfo * bool)); rewrite (app_nil_r (tried_in l)); reflexivity.
  - (* put *) inversion Hd as [| | | |pc0 rest tx0 b id ns0 l0 ls0 Hrest Hresp Hl Hsays Hrep Htr|]; subst. injection Hrest as <-. rewrite !app_nil_r.
    eapply jd_nodes; [reflexivity|exact Hresp|exact Hl|exact Hsays|exact Hrep|reflexivity].
  - (* query *) inversion Hd as [| | | |pc0 rest tx0 b id ns0 l0 ls0 Hrest Hresp Hl Hsays Hrep Htr|]; subst. injection Hrest as <-. rewrite <- app_assoc. unfold query_log. rewrite H.
    destruct (udp_said e o la w bs (naddr n)) as (u & Eu & Hu). rewrite Eu.
    eapply jd_nodes; [reflexivity|exact Hresp|exact Hl| |rewrite replies_app', Hrep; reflexivity|].
    + eapply sy_snoc; [exact Hsays|]. destruct (snd (send e w bs (naddr n))); cbn [app].
      * apply (el_query _ _ {| g_bytes := bs; g_to := naddr n |}). exact Hu.
      * apply (el_query_failed _ _ {| g_bytes := bs; g_to := naddr n |} u (or_err o EIO) (or_size o)). exact Hu.
    + rewrite tried_app; change (tried_in [_]) with (@nil (ninfo * bool)); rewrite (app_nil_r (tried_in l)); reflexivity.
  - exfalso. destruct (find_encodes e me w' tx He) as (bs' & E1 & _). congruence.
  - exfalso. destruct (find_encodes e me w' tx He) as (bs' & E1 & _). congruence.
Qed.

(** ** Runs *)
Lemma cstep_conc e me la cap s s' : cstep e me la cap s s' -> conc_step e me cap (c_conc s) (c_conc s').
Proof. intros H. destruct H; cbn [c_conc]; [eapply ks_job|eapply ks_begin|eapply ks_end|eapply ks_take]; eassumption. Qed.
Lemma creach_conc e me la local hosts cap s : creach e me la local hosts cap s -> conc_reach e me local hosts cap (c_conc s).
Proof. induction 1; [eapply kr_start; eassumption|eapply kr_step; [eassumption|eapply cstep_conc; eassumption]]. Qed.
Lemma prints_some l : exists outs, Forall2 prints l outs.
Proof.
  induction l as [|en l (outs & IH)]; [exists []; constructor|]. eexists (_ :: outs). constructor; [|exact IH]. exists [], (ce_ctx en). split; [destruct (ce_ctx en); auto|reflexivity].
Qed.
Lemma conc_creach e me la local hosts cap c : conc_reach e me local hosts cap c -> exists s, creach e me la local hosts cap s /\ c_conc s = c.
Proof.
  induction 1 as [w0 w Hi Hb|c c' Hr (s & Hs & <-) Hst]; [eexists; split; [eapply cr_start; eassumption|reflexivity]|].
  destruct Hst as [pk|k l1 i pk pc l2 w' pc' v Hsplit Hstep|l1 i pk l2 Hsplit|x q Hq].
  - eexists; split; [eapply cr_step; [exact Hs|eapply cs_begin]|reflexivity].
  - destruct (prints_some (step_log (e k) {| or_err := fun _ => []; or_panic := fun _ => []; or_size := 0 |} la me (k_world (c_conc s)) pk pc)) as (outs & Ho).
    eexists; split; [eapply cr_step; [exact Hs|eapply cs_job; [exact Hsplit|exact Hstep|exact Ho]]|reflexivity].
  - eexists; split; [eapply cr_step; [exact Hs|eapply cs_end; exact Hsplit]|reflexivity].
  - eexists; split; [eapply cr_step; [exact Hs|eapply cs_take; exact Hq]|reflexivity].
Qed.

Lemma calls_app i a b : calls_of i (a ++ b) = calls_of i a ++ calls_of i b.
Proof. unfold calls_of. rewrite filter_app, map_app. reflexivity. Qed.
Lemma calls_pair i l : calls_of i (map (pair i) l) = l.
Proof. unfold calls_of. induction l as [|v l IH]; cbn; [reflexivity|]. rewrite Nat.eqb_refl. cbn. f_equal. exact IH. Qed.
Lemma calls_pair_ne i j l : i <> j -> calls_of j (map (pair i) l) = [].
Proof. intros Hne. unfold calls_of. induction l as [|v l IH]; cbn; [reflexivity|]. destruct (Nat.eqb_spec i j); [contradiction|exact IH]. Qed.

Record cinv (uf : N -> N -> bool) (la : udpaddr) (s : cconc) : Prop := {
  ci_jobs : forall i pk pc, In (i, pk, pc) (k_jobs (c_conc s)) -> exists l, evs i (k_log (c_conc s)) = EvStart pk :: l /\ jsaid uf la pk pc l (calls_of i (c_calls s));
  ci_done : forall i pk l, evs i (k_log (c_conc s)) = EvStart pk :: l ++ [EvEnd] -> transcript uf la pk l (calls_of i (c_calls s));
  ci_fresh : forall i, k_next (c_conc s) <= i -> calls_of i (c_calls s) = [] }.

Lemma jok_unended me pk pc l p l' : jok me pk pc l -> l <> EvStart p :: l' ++ [EvEnd].
Proof. intros H ->. apply (jok_noend _ _ _ _ H). right. apply in_app_iff. right. left. reflexivity. Qed.

Lemma creach_inv e uf me la local hosts cap s : runtime_ok e uf -> creach e me la local hosts cap s -> cinv uf la s.
Proof.
  intros Hrt Hr. induction Hr as [w0 w Hi Hb|s s' Hr IH Hst].
  - split; cbn [c_conc c_calls k_jobs k_log k_next]; [intros i pk pc []|discriminate|reflexivity].
  - pose proof (conc_inv _ _ _ _ _ _ _ Hrt (creach_conc _ _ _ _ _ _ _ Hr)) as HI. destruct IH as [F1 F2 F3].
    destruct Hst as [k o l1 i pk pc l2 w' pc' v outs Hsplit Hstep Houts|pk|l1 i pk l2 Hsplit|x q Hq].
    + assert (Hin : In (i, pk, pc) (k_jobs (c_conc s))) by (rewrite Hsplit; apply in_elt).
      destruct (i_jobs _ _ _ _ HI _ _ _ Hin) as [Hlt Hj]. pose proof (i_nodup _ _ _ _ HI) as Hnd. rewrite Hsplit, nums_split in Hnd. apply NoDup_remove_2 in Hnd.
      destruct (F1 _ _ _ Hin) as (l & El & Hl).
      pose proof (job_step_said uf _ (e k) o la me cap _ _ _ _ _ _ _ _ _ (proj1 (Hrt k)) (proj2 (Hrt k)) (i_shared _ _ _ _ HI) Hj Hl Hstep) as Hsaid.
      split; cbn [c_conc c_calls k_jobs k_log k_next].
      * intros j pk' pc0 Hin'.
        assert (Hcase : (j = i /\ pk' = pk /\ pc0 = pc') \/ (j <> i /\ In (j, pk', pc0) (k_jobs (c_conc s)))).
        { apply in_app_iff in Hin'. destruct Hin' as [H|[E|H]].
          - right. split; [|rewrite Hsplit; apply in_app_iff; auto]. intros ->. apply Hnd. apply in_app_iff. left. eapply in_num. exact H.
          - injection E as -> -> ->. auto.
          - right. split; [|rewrite Hsplit; apply in_app_iff; cbn; auto]. intros ->. apply Hnd. apply in_app_iff. right. eapply in_num. exact H. }
        destruct Hcase as [(-> & -> & ->)|(Hne & Hin0)].
        -- exists (l ++ v). rewrite evs_app, evs_pair, El, calls_app, calls_pair. split; [reflexivity|exact Hsaid].
        -- rewrite evs_app, evs_pair_ne, app_nil_r, calls_app, calls_pair_ne, app_nil_r by congruence. apply F1. exact Hin0.
      * intros j pk' l' E. destruct (Nat.eq_dec j i) as [->|Hne].
        -- exfalso. rewrite evs_app, evs_pair in E. pose proof (job_step_jok uf _ (e k) me cap _ _ _ _ _ _ _ (proj1 (Hrt k)) (proj2 (Hrt k)) (i_shared _ _ _ _ HI) Hj Hstep) as Hj'. exact (jok_unended _ _ _ _ _ _ Hj' E).
        -- rewrite evs_app, evs_pair_ne, app_nil_r in E by congruence. rewrite calls_app, calls_pair_ne, app_nil_r by congruence. exact (F2 _ _ _ E).
      * intros j H. rewrite calls_app, calls_pair_ne, app_nil_r by lia. apply F3. exact H.
    + split; cbn [c_conc c_calls k_jobs k_log k_next].
      * intros j pk' pc0 Hin. apply in_app_iff in Hin as [Hin|[E|[]]].
        -- destruct (i_jobs _ _ _ _ HI _ _ _ Hin) as [Hlt _]. rewrite evs_app, evs_one_ne, app_nil_r by lia. apply F1. exact Hin.
        -- injection E as <- <- <-. exists []. rewrite evs_app, (i_fresh _ _ _ _ HI _ (le_n _)), evs_one. split; [reflexivity|]. rewrite (F3 _ (le_n _)). constructor.
      * intros j pk' l E. destruct (Nat.eq_dec j (k_next (c_conc s))) as [->|Hne].
        -- rewrite evs_app, (i_fresh _ _ _ _ HI _ (le_n _)), evs_one in E. exfalso. injection E as _ E. destruct l; discriminate.
        -- rewrite evs_app, evs_one_ne, app_nil_r in E by congruence. exact (F2 _ _ _ E).
      * intros j H. apply F3. lia.
    + assert (Hin : In (i, pk, JEnd) (k_jobs (c_conc s))) by (rewrite Hsplit; apply in_elt).
      pose proof (i_nodup _ _ _ _ HI) as Hnd. rewrite Hsplit, nums_split in Hnd. apply NoDup_remove_2 in Hnd.
      split; cbn [c_conc c_calls k_jobs k_log k_next].
      * intros j pk' pc0 Hin'. assert (Hin0 : In (j, pk', pc0) (k_jobs (c_conc s))). { rewrite Hsplit. apply in_app_iff in Hin'. apply in_app_iff. cbn. tauto. }
        assert (Hne : j <> i). { intros ->. apply Hnd. rewrite <- map_app. eapply in_num. exact Hin'. }
        rewrite evs_app, evs_one_ne, app_nil_r by congruence. apply F1. exact Hin0.
      * intros j pk' l E. destruct (Nat.eq_dec j i) as [->|Hne].
        -- destruct (F1 _ _ _ Hin) as (l' & El & Hl). rewrite evs_app, evs_one, El in E. change ((EvStart pk :: l') ++ [EvEnd]) with (EvStart pk :: l' ++ [EvEnd]) in E.
           injection E as <- E. apply app_inj_tail in E as [<- _]. inversion Hl; subst; [discriminate|assumption].
        -- rewrite evs_app, evs_one_ne, app_nil_r in E by congruence. exact (F2 _ _ _ E).
      * exact F3.
    + split; [exact F1|exact F2|exact F3].
Qed.

(** ** The text *)
Lemma prints_rendered en out : ce_log en <> [] -> ce_m en <> MDebug -> prints en out -> rendered en out.
Proof.
  intros Hlog Hm (now & ctx & Hc & ->). exists now.
  assert (E : forall t, fst (call_log (ce_m en) now (logger_named (ce_log en)) (ce_msg en) t) = print_line now (logger_named (ce_log en)) (tag (ce_m en)) (ce_msg en) t).
  { intros t. destruct (ce_m en); try reflexivity. elim Hm; reflexivity. }
  rewrite E. unfold print_line, logger_named. cbn [SetPrefix lg_prefix]. destruct (ce_log en) as [|c lg] eqn:El; [elim Hlog; reflexivity|].
  destruct (ce_ctx en) as [l|], ctx as [l'|]; try contradiction.
  - exists (B ", " ++ ctx_text true (map (fun f => (fst f, text_of (snd f))) l')). split; [|exists l'; auto].
    cbn [ctx_of appendCtx]. unfold pad6. rewrite <- !app_assoc. reflexivity.
  - exists []. split; [|reflexivity]. cbn [ctx_of appendCtx]. unfold pad6. rewrite <- !app_assoc. reflexivity.
Qed.
