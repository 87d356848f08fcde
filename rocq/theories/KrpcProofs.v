(** KrpcProofs.v -- lemmas about Krpc.v. *)
From Verif Require Import Base GoLib Bencode BencodeSpec BencodeProofs BencodePf Types TypesPf Node Middleware MiddlewarePf Krpc KrpcSpec.
Local Open Scope list_scope.

Lemma Forall2_In_l {A C} (R : A -> C -> Prop) l l' x : Forall2 R l l' -> In x l -> exists y, In y l' /\ R x y.
Proof.
  induction 1 as [|a b l l' Hab H IH]; [intros []|]. intros [<-|Hin]; [exists b; split; [left; reflexivity|exact Hab]|].
  destruct (IH Hin) as (y & H1 & H2). exists y. split; [right; exact H1|exact H2].
Qed.

Lemma deq_dget d r k v : NoDup (map fst d) -> deq d r -> dget d k = Some v -> exists v', dget r k = Some v' /\ veq v v'.
Proof.
  intros Hn Hd Hg. pose proof (deq_keys _ _ Hd) as Hk. inversion Hd as [? ? d'' Hp Hf]; subst.
  apply dget_In in Hg; [|exact Hn].
  assert (Hin : In (k, v) d'') by (eapply Permutation_in; eassumption).
  destruct (Forall2_In_l _ _ _ _ Hf Hin) as ([k' v'] & Hin' & Ek & Hv). cbn [fst snd] in *. subst k'.
  exists v'. split; [|exact Hv]. apply dget_In; [|exact Hin']. eapply Permutation_NoDup; eassumption.
Qed.

Lemma deq_dget_str d r k s : NoDup (map fst d) -> deq d r -> dget d k = Some (VStr s) -> dget r k = Some (VStr s).
Proof. intros Hn Hd Hg. destruct (deq_dget d r k _ Hn Hd Hg) as (v & E & Hv). inversion Hv; subst. exact E. Qed.

Lemma deq_dget_dict d r k b : NoDup (map fst d) -> deq d r -> dget d k = Some (VDict b) -> exists b', dget r k = Some (VDict b') /\ deq b b'.
Proof. intros Hn Hd Hg. destruct (deq_dget d r k _ Hn Hd Hg) as (v & E & Hv). inversion Hv; subst. eauto. Qed.

Lemma deq_dget_none d r k : deq d r -> dget d k = None -> dget r k = None.
Proof.
  intros Hd Hg. apply dget_none. apply dget_none in Hg. intros Hin. apply Hg.
  apply Permutation_in with (l := map fst r); [symmetry; apply deq_keys; exact Hd|exact Hin].
Qed.

Lemma deq_refl d : deq d d.
Proof. pose proof (veq_refl (VDict d)) as H. inversion H; subst; assumption. Qed.

Ltac nodup := repeat constructor; cbn; intuition discriminate.

Section S.
  Context {A H : Type}.
  Variable e : env.
  Hypothesis He : env_ok e.
  Implicit Types w : world A H.

  Lemma encode_now_ok w d : go_value (VDict d) -> plain (VDict d) -> exists s, encode_now e w d = Ok s /\ carries s d.
  Proof.
    intros Hg Hp. unfold encode_now. destruct (C05_dict_roundtrip_pf d _ Hg Hp (He (length (w_sent w)) d)) as (s & E & Hs).
    exists s. split; [exact E|]. split.
    - eexists. split; [apply He|]. apply bencoding_iff. split; [|exact E].
      apply (proj1 (veq_go_plain (VDict d) (VDict _) (veq_dict _ _ (He (length (w_sent w)) d)))). exact Hg.
    - intros Hf. destruct (Hs Hf) as (r & H1 & _ & H2). eauto.
  Qed.

  Lemma error_reply_go tx c m : is_int c -> go_value (VDict (error_reply tx c m)) /\ plain (VDict (error_reply tx c m)).
  Proof.
    intros Hc. split; constructor.
    - unfold error_reply. nodup.
    - intros k v Hin. cbn in Hin. repeat (destruct Hin as [E|Hin]; [injection E as <- <-; constructor|]); try contradiction.
      intros x [<-|[<-|[]]]; constructor; assumption.
    - intros k v Hin. cbn in Hin. repeat (destruct Hin as [E|Hin]; [injection E as <- <-; constructor|]); try contradiction.
      intros x [<-|[<-|[]]]; constructor.
  Qed.

  Lemma ok_reply_go tx b : go_value (VDict b) -> plain (VDict b) -> go_value (VDict (ok_reply tx b)) /\ plain (VDict (ok_reply tx b)).
  Proof.
    intros Hg Hp. split; constructor.
    - unfold ok_reply. nodup.
    - intros k v Hin. cbn in Hin. repeat (destruct Hin as [E|Hin]; [injection E as <- <-; try constructor; try exact Hg|]); try contradiction; inversion Hg; subst; assumption.
    - intros k v Hin. cbn in Hin. repeat (destruct Hin as [E|Hin]; [injection E as <- <-; try constructor|]); try contradiction; inversion Hp; subst; assumption.
  Qed.

  (** What the wire form of a response is. *)
  Definition wire (r : response) (d : entries) : Prop := resp_RawData r = Ok d.

  Lemma sendable_raw r : sendable r -> exists d, resp_RawData r = Ok d /\ go_value (VDict d) /\ plain (VDict d) /\ field d "t" (VStr (rs_tx r)).
  Proof.
    unfold sendable, resp_RawData. destruct (rs_err r); cbn [negb].
    - intros (b & c & m & Eb & Hc & E1 & E2). rewrite Eb. cbn [dict_of]. unfold GetInteger, GetString, GetVal.
      unfold field in *. rewrite E1. cbn [bind]. rewrite E2. cbn [bind]. eexists. split; [reflexivity|].
      destruct (error_reply_go (rs_tx r) c m Hc). repeat split; try assumption.
    - intros (b & Eb & Hg & Hp). rewrite Eb. cbn [dict_val]. eexists. split; [reflexivity|].
      destruct (ok_reply_go (rs_tx r) b Hg Hp). repeat split; assumption.
  Qed.

  Lemma param_err_sendable tx m : sendable (WithParamErr tx m).
  Proof.
    unfold sendable, WithParamErr, WithErr. cbn [rs_err rs_body]. do 3 eexists. split; [reflexivity|].
    split; [|split; reflexivity]. unfold is_int, ProtocolErr, min_int, max_int. lia.
  Qed.

  Lemma param_err_raw tx m : exists m', m' <> [] /\ resp_RawData (WithParamErr tx m) = Ok (error_reply tx 203 m') /\ (m <> [] -> m' = m).
  Proof.
    destruct m as [|c m].
    - exists (B "invalid param"). split; [discriminate|]. split; [reflexivity|congruence].
    - exists (c :: m). split; [discriminate|]. split; [reflexivity|reflexivity].
  Qed.

  Lemma run_chain_total (chain : list (prog (world A H) response)) r0 w :
    exists c o, Next (S (length chain)) chain (NewReqContext r0 w) = Some (c, o) /\
      run_chain chain r0 w = (c_world c, match o with None => Ok (c_resp c) | Some p => Panic p end) /\
      match o with None => c_started c = seq 0 (length chain) | Some _ => exists m, 1 <= m <= length chain /\ c_started c = seq 0 m end.
  Proof.
    unfold run_chain, Next.
    destruct (loop_ok chain r0 (S (length chain)) (incr (NewReqContext r0 w))) as (c & o & E & _ & _ & Hs).
    - split; [cbn; lia|]. split; [reflexivity|]. reflexivity.
    - cbn. lia.
    - exists c, o. split; [exact E|]. rewrite E. destruct o; [split; [reflexivity|exact Hs]|]. destruct Hs as [_ Hs]. split; [reflexivity|exact Hs].
  Qed.

  Variable code : H -> request H -> udpaddr -> prog (world A H) response.

  (** The first steps of recv_body for a query packet. *)
  Lemma recv_query (s : server H) w addr pkt d tx q : packet_dict pkt d -> field d "y" (VStr (B "q")) ->
    field d "t" (VStr tx) -> field d "q" (VStr q) ->
    recv_body e code s w addr pkt =
      match requestHandle_body e code s w addr d tx q with
      | (w', Ok None) => (w', [], Panic PRuntime)
      | (w', Err x) => (w', [], Err x)
      | (w', Panic p) => match p with
                         | PBiz c m => match encode_now e w' (error_reply tx 203 (error_text e c m)) with
                                       | Ok bs => (fst (send e w' bs addr), [{| g_bytes := bs; g_to := addr |}], Ok tt)
                                       | Err _ => (fst (send e w' [] addr), [{| g_bytes := []; g_to := addr |}], Ok tt)
                                       | Panic p' => (w', [], Panic p')
                                       end
                         | _ => (w', [], Panic p)
                         end
      | (w', Ok (Some r)) =>
          match resp_RawData r with
          | Panic p => (w', [], Panic p) | Err x => (w', [], Err x)
          | Ok raw => match encode_now e w' raw with
                      | Ok bs => (fst (send e w' bs addr), [{| g_bytes := bs; g_to := addr |}], Ok tt)
                      | Err _ => (fst (send e w' [] addr), [{| g_bytes := []; g_to := addr |}], Ok tt)
                      | Panic p' => (w', [], Panic p')
                      end
          end
      end.
  Proof.
    intros [n Ed] Ey Et Eq. unfold field in *. unfold recv_body. rewrite Ed. unfold Exist. rewrite Ey. cbn [negb].
    unfold GetString at 1, GetVal at 1. rewrite Ey. cbn [bind]. rewrite beq_refl.
    unfold requestHandle, GetString, GetVal. rewrite Et, Eq. cbn [bind].
    destruct (requestHandle_body e code s w addr d tx q) as [w' [[r|]|x|[c m| | |]]]; try reflexivity.
    assert (Er : resp_RawData (WithParamErr tx (error_text e c m)) = Ok (error_reply tx 203 (error_text e c m))).
    { destruct (param_err_raw tx (error_text e c m)) as (m' & _ & E & E2). rewrite E, E2; [reflexivity|].
      unfold error_text. intros E0. apply (f_equal (@length _)) in E0. rewrite !app_length in E0. cbn in E0. lia. }
    rewrite Er. destruct (encode_now e w' _); reflexivity.
  Qed.
End S.

Lemma contains_supported uf q : ContainsString uf supportQueryType q = Ok true /\ supported uf q \/
                               ContainsString uf supportQueryType q = Ok false /\ ~ supported uf q.
Proof.
  unfold ContainsString, supportQueryType. cbn [contains_from]. unfold supported.
  destruct (EqualFold uf (B "ping") q) eqn:E1; [left; split; [reflexivity|]; exists (B "ping"); split; [cbn; tauto|assumption]|].
  destruct (EqualFold uf (B "find_node") q) eqn:E2; [left; split; [reflexivity|]; exists (B "find_node"); split; [cbn; tauto|assumption]|].
  destruct (EqualFold uf (B "get_peers") q) eqn:E3; [left; split; [reflexivity|]; exists (B "get_peers"); split; [cbn; tauto|assumption]|].
  destruct (EqualFold uf (B "announce_peer") q) eqn:E4; [left; split; [reflexivity|]; exists (B "announce_peer"); split; [cbn; tauto|assumption]|].
  right. split; [reflexivity|]. intros (t & Hin & Ht). cbn [In] in Hin.
  destruct Hin as [<-|[<-|[<-|[<-|[]]]]]; congruence.
Qed.

(** The four cases of requestHandle_body. *)
Lemma request_body_cases {A H} e (code : H -> request H -> udpaddr -> prog (world A H) response) s w addr d tx q :
  (bad_query (e_uf e) (s_router s) d q /\
     ((exists m, requestHandle_body e code s w addr d tx q = (w, Ok (Some (WithParamErr tx m))) /\ m <> []) \/
      (exists m, requestHandle_body e code s w addr d tx q = (w, Panic (PBiz 201 m)))) /\
     forall code', requestHandle_body e code' s w addr d tx q = requestHandle_body e code s w addr d tx q) \/
  (~ bad_query (e_uf e) (s_router s) d q /\ exists a id h, supported (e_uf e) q /\ field d "a" (VDict a) /\ field a "id" (VStr id) /\ length id = 20 /\ s_router s q = Some h /\
     requestHandle_body e code s w addr d tx q = doRequestHandle code s w {| rq_tx := tx; rq_type := q; rq_body := Some a; rq_handler := None |} h addr).
Proof.
  unfold requestHandle_body.
  destruct (contains_supported (e_uf e) q) as [[-> Hs]|[-> Hs]].
  2: { left. split; [left; exact Hs|]. split; [left; eexists; split; [reflexivity|]|reflexivity]. destruct q; discriminate. }
  unfold GetDict, GetVal. destruct (dget d (B "a")) as [v|] eqn:Ea; cbn [bind].
  2: { left. split; [right; left; intros [a Ha]; unfold field in Ha; congruence|]. split; [right; eexists; reflexivity|reflexivity]. }
  assert (Hnd : (forall a, v <> VDict a) -> bad_query (e_uf e) (s_router s) d q).
  { intros Hv. right; left. intros [a Ha]. unfold field in Ha. rewrite Ea in Ha. injection Ha as Ha. exact (Hv a Ha). }
  destruct v as [z|x|l|a| | | |k]; cbn [bind];
    try (left; split; [apply Hnd; congruence|]; split; [right; eexists; reflexivity|reflexivity]).
  cbn [dict_of]. unfold GetString, GetVal. destruct (dget a (B "id")) as [v|] eqn:Ei; cbn [bind].
  2: { left. split; [right; right; left; exists a; split; [exact Ea|intros (id & Hid & _); unfold field in Hid; congruence]|]. split; [right; eexists; reflexivity|reflexivity]. }
  assert (Hns : (forall id, v = VStr id -> length id <> 20) -> bad_query (e_uf e) (s_router s) d q).
  { intros Hv. right; right; left. exists a. split; [exact Ea|]. intros (id & Hid & Hl). unfold field in Hid. rewrite Ei in Hid. injection Hid as Hid. exact (Hv id Hid Hl). }
  destruct v as [z|id|l|a'| | | |k]; cbn [bind];
    try (left; split; [apply Hns; congruence|]; split; [right; eexists; reflexivity|reflexivity]).
  destruct (length id =? 20) eqn:El; cbn [negb].
  2: { left. apply Nat.eqb_neq in El. split; [apply Hns; congruence|]. split; [left; eexists; split; [reflexivity|discriminate]|reflexivity]. }
  apply Nat.eqb_eq in El.
  destruct (s_router s q) as [h|] eqn:Eh.
  - right. split.
    + intros [B1|[B1|[B1|B1]]].
      * exact (B1 Hs).
      * apply B1. exists a. exact Ea.
      * destruct B1 as (a2 & Ha2 & Hn). unfold field in Ha2. rewrite Ea in Ha2. injection Ha2 as <-. apply Hn. exists id. auto.
      * congruence.
    + exists a, id, h. repeat split; auto.
  - left. split; [right; right; right; exact Eh|]. split; [left; eexists; split; [reflexivity|discriminate]|reflexivity].
Qed.

(** ** The request table *)

Lemma table_change_refl {A H} (w w' : world A H) : w_queries w' = w_queries w -> w_reqs w' = w_reqs w -> table_change w w' [].
Proof. intros E1 E2. split; [rewrite E1, app_nil_r; reflexivity|]. intros tx. rewrite E2. reflexivity. Qed.

Lemma fold_mput_ext {H} (qs : list (request H)) : forall (m m' : bytes -> option (request H)) tx, (forall t, m t = m' t) ->
  fold_left (fun m q => mput m (rq_tx q) q) qs m tx = fold_left (fun m q => mput m (rq_tx q) q) qs m' tx.
Proof.
  induction qs as [|q qs IH]; cbn [fold_left]; intros m m' tx Hm; [apply Hm|]. apply IH. intros t. unfold mput. destruct (beq t (rq_tx q)); auto.
Qed.

Lemma table_change_trans {A H} (w1 w2 w3 : world A H) a b : table_change w1 w2 a -> table_change w2 w3 b -> table_change w1 w3 (a ++ b).
Proof.
  intros [E1 F1] [E2 F2]. split; [rewrite E2, E1, app_assoc; reflexivity|]. intros tx. rewrite F2, fold_left_app.
  apply fold_mput_ext. exact F1.
Qed.

Lemma Query_change {A H} e (w : world A H) to r : table_change w (fst (Query e w to r)) [r].
Proof.
  unfold Query. destruct (encode_now e _ _) as [raw|x|p]; cbn [send fst]; split; try reflexivity.
Qed.

Section Q.
  Context {A H : Type}.
  Notation prg := (prog (world A H) response).
  Definition changes (w w' : world A H) : Prop := exists qs, table_change w w' qs.
  Lemma changes_refl w : changes w w.
  Proof. exists []. apply table_change_refl; reflexivity. Qed.
  Lemma changes_trans a b c : changes a b -> changes b c -> changes a c.
  Proof. intros [x Hx] [y Hy]. exists (x ++ y). eapply table_change_trans; eassumption. Qed.

  Lemma exec_changes (next : ctx (world A H) response -> out (world A H) response) :
    (forall c c' o, next c = Some (c', o) -> changes (c_world c) (c_world c')) ->
    forall p, queries_only p -> forall c c' o, exec next p c = Some (c', o) -> changes (c_world c) (c_world c').
  Proof.
    intros Hn p Hp. induction Hp as [|p|f k Hf Hk IH|k Hk IH|r k Hk IH|k Hk IH]; intros c c' o E; cbn [exec] in E.
    - injection E as <- _. apply changes_refl.
    - injection E as <- _. apply changes_refl.
    - apply IH in E. cbn [c_world] in E. eapply changes_trans; [apply Hf|exact E].
    - eapply IH. exact E.
    - apply IH in E. exact E.
    - destruct (next c) as [[c2 [q|]]|] eqn:En; try discriminate.
      + injection E as <- _. eapply Hn. exact En.
      + eapply changes_trans; [eapply Hn; exact En|eapply IH; exact E].
  Qed.

  Lemma loop_changes (chain : list prg) : Forall queries_only chain -> forall f c c' o, loop f chain c = Some (c', o) -> changes (c_world c) (c_world c').
  Proof.
    intros Hc. induction f as [|f IH]; intros c c' o E; cbn [loop] in E.
    - destruct (nth_error chain (c_index c - 1)); [discriminate|]. injection E as <- _. apply changes_refl.
    - destruct (nth_error chain (c_index c - 1)) as [h|] eqn:Eh; [|injection E as <- _; apply changes_refl].
      assert (Hh : queries_only h) by (rewrite Forall_forall in Hc; apply Hc; eapply nth_error_In; exact Eh).
      match type of E with match exec ?nx h ?c1 with _ => _ end = _ => destruct (exec nx h c1) as [[c2 o2]|] eqn:Ex; [|discriminate] end.
      apply exec_changes in Ex; [|intros x y z Hx; apply IH in Hx; exact Hx|exact Hh]. cbn [c_world] in Ex.
      destruct o2; [injection E as <- _; exact Ex|]. apply IH in E. eapply changes_trans; eassumption.
  Qed.

  Lemma run_chain_changes (chain : list prg) r0 w : Forall queries_only chain -> changes w (fst (run_chain chain r0 w)).
  Proof.
    intros Hc. unfold run_chain, Next.
    destruct (loop _ chain (incr (NewReqContext r0 w))) as [[c [p|]]|] eqn:E; cbn [fst];
      [apply loop_changes in E; assumption..|apply changes_refl].
  Qed.

  Lemma send_changes e (w : world A H) b a : changes w (fst (send e w b a)).
  Proof. exists []. apply table_change_refl; reflexivity. Qed.

  Lemma recv_changes e code (s : server H) w pk : (forall h r a, queries_only (code h r a)) -> changes w (o_world (recvPacketHandle e code s w pk)).
  Proof.
    intros Hc.
    assert (Hb : changes w (fst (fst (recv_body e code s w (p_addr pk) (p_bytes pk))))).
    { unfold recv_body. destruct (DecodeDictNoLimit (p_bytes pk)) as [[d n]|x|p]; try apply changes_refl.
      destruct (negb (Exist d (B "y"))); [apply changes_refl|]. destruct (GetString d (B "y")) as [y|x|p]; try apply changes_refl.
      destruct (beq y (B "q")).
      - assert (Hr : changes w (fst (requestHandle e code s w (p_addr pk) d))).
        { unfold requestHandle. destruct (do t <- GetString d (B "t"); do q <- GetString d (B "q"); Ok (t, q)) as [[t q]|x|p]; try apply changes_refl.
          assert (Hrb : changes w (fst (requestHandle_body e code s w (p_addr pk) d t q))).
          { destruct (request_body_cases e code s w (p_addr pk) d t q) as [(_ & [(m & -> & _)|(m & ->)] & _)|(_ & a & id & h & _ & _ & _ & _ & _ & ->)]; try apply changes_refl.
            unfold doRequestHandle. apply run_chain_changes. apply Forall_forall. intros x Hx. apply in_map_iff in Hx as (h' & <- & _). apply Hc. }
          destruct (requestHandle_body e code s w (p_addr pk) d t q) as [w' [r|x|[c m| | |]]]; exact Hrb. }
        destruct (requestHandle e code s w (p_addr pk) d) as [w' [[r|]|x|p]]; cbn [fst] in *; try exact Hr.
        destruct (resp_RawData r) as [raw|x|p]; cbn [fst]; try exact Hr.
        destruct (encode_now e w' raw); cbn [send fst]; try exact Hr; (eapply changes_trans; [exact Hr|]); exists []; apply table_change_refl; reflexivity.
      - destruct (beq y (B "r")).
        + assert (Hr : changes w (fst (responseHandle code s w (p_addr pk) d))).
          { unfold responseHandle. destruct (do t <- GetString d (B "t"); _) as [[t b]|x|p]; try apply changes_refl.
            destruct (w_reqs w t) as [req|]; [|apply changes_refl]. unfold doResponseHandle.
            match goal with |- context[run_chain ?ch ?r0 w] => assert (Hch : changes w (fst (run_chain ch r0 w))); [|destruct (run_chain ch r0 w); exact Hch] end.
            apply run_chain_changes. apply Forall_app. split.
            - apply Forall_forall. intros x Hx. apply in_map_iff in Hx as (h' & <- & _). apply Hc.
            - constructor; [|constructor]. destruct (rq_handler req); [apply Hc|constructor]. }
          destruct (responseHandle code s w (p_addr pk) d) as [w' r]. exact Hr.
        + destruct (beq y (B "e")); apply changes_refl. }
    unfold recvPacketHandle. destruct (recv_body e code s w (p_addr pk) (p_bytes pk)) as [[w' l] [r|x|p]]; exact Hb.
  Qed.
End Q.

Lemma latest_snoc {H} (qs : list (request H)) q tx : latest (qs ++ [q]) tx = if beq (rq_tx q) tx then Some q else latest qs tx.
Proof. unfold latest. rewrite rev_app_distr. reflexivity. Qed.

Lemma fold_mput_latest {H} (qs : list (request H)) : forall pre (m : bytes -> option (request H)), (forall tx, m tx = latest pre tx) ->
  forall tx, fold_left (fun m q => mput m (rq_tx q) q) qs m tx = latest (pre ++ qs) tx.
Proof.
  induction qs as [|q qs IH]; cbn [fold_left]; intros pre m Hm tx; [rewrite app_nil_r; apply Hm|].
  replace (pre ++ q :: qs) with ((pre ++ [q]) ++ qs) by (rewrite <- app_assoc; reflexivity). apply IH.
  intros t. rewrite latest_snoc. unfold mput. rewrite beq_sym. destruct (beq (rq_tx q) t); [reflexivity|apply Hm].
Qed.
