(** KrpcPf.v -- proofs of C38-C44 (KRPC server). *)
From Verif Require Import Base GoLib Bencode BencodeSpec Types Node Middleware Krpc KrpcSpec.
From Verif Require Import BencodeProofs BencodePf TypesPf MiddlewarePf KrpcProofs.
Local Open Scope list_scope.

(** C38: a query with a transaction id and a type is answered with exactly one datagram,
    sent to its source and carrying its transaction id, provided that - if the server
    dispatches the query to a handler - the handlers leave a sendable response with that
    transaction id or panic with a *misc.Error.  It is the last datagram sent. *)
Lemma C38_one_reply_pf : forall (A H : Type) e code (s : server H) (w : world A H) pk d tx q, env_ok e ->
  packet_dict (p_bytes pk) d -> field d "y" (VStr (B "q")) -> field d "t" (VStr tx) -> field d "q" (VStr q) ->
  (forall h a, s_router s q = Some h -> field d "a" (VDict a) ->
     responds tx (run_chain (map (fun h => code h {| rq_tx := tx; rq_type := q; rq_body := Some a; rq_handler := None |} (p_addr pk)) (s_reqchain s ++ [h])) None w)) ->
  let o := recvPacketHandle e code s w pk in
  exists g, o_sent o = [g] /\ g_to g = p_addr pk /\
    (exists before, w_sent (o_world o) = before ++ [g]) /\
    (exists m, carries (g_bytes g) m /\ field m "t" (VStr tx)) /\
    (fits (g_bytes g) -> exists r, DecodeDictNoLimit (g_bytes g) = Ok (r, length (g_bytes g)) /\ field r "t" (VStr tx)).
Proof.
  intros A H e code s w pk d tx q He Hd Hy Ht Hq Hh o. unfold o, recvPacketHandle. clear o.
  rewrite (recv_query e code s w (p_addr pk) (p_bytes pk) d tx q Hd Hy Ht Hq).
  assert (Hsend : forall (w' : world A H) dd, go_value (VDict dd) -> plain (VDict dd) -> field dd "t" (VStr tx) ->
    exists bs, encode_now e w' dd = Ok bs /\ (exists m, carries bs m /\ field m "t" (VStr tx)) /\ (fits bs -> exists r, DecodeDictNoLimit bs = Ok (r, length bs) /\ field r "t" (VStr tx))).
  { intros w' dd Hg Hp Htx. destruct (encode_now_ok e He w' dd Hg Hp) as (bs & E & Hc). exists bs. split; [exact E|]. split; [exists dd; auto|].
    intros Hf. destruct (proj2 Hc Hf) as (r & E2 & Hr). exists r. split; [exact E2|]. eapply deq_dget_str; [|exact Hr|exact Htx]. inversion Hg; subst. assumption. }
  assert (Herr : forall (w' : world A H) m, exists bs, encode_now e w' (error_reply tx 203 m) = Ok bs /\ (exists m, carries bs m /\ field m "t" (VStr tx)) /\ (fits bs -> exists r, DecodeDictNoLimit bs = Ok (r, length bs) /\ field r "t" (VStr tx))).
  { intros w' m. destruct (error_reply_go tx 203 m) as [G1 G2]; [unfold is_int, min_int, max_int; lia|]. apply Hsend; [exact G1|exact G2|reflexivity]. }
  destruct (request_body_cases e code s w (p_addr pk) d tx q) as [(_ & [(m & -> & Hm)|(m & ->)] & _)|(_ & a & id & h & _ & Ha & _ & _ & Er & ->)].
  - destruct (param_err_raw tx m) as (m' & _ & -> & _). destruct (Herr w m') as (bs & -> & Hbs).
    eexists. split; [reflexivity|]. split; [reflexivity|]. split; [eexists; reflexivity|exact Hbs].
  - destruct (Herr w (error_text e 201 m)) as (bs & -> & Hbs).
    eexists. split; [reflexivity|]. split; [reflexivity|]. split; [eexists; reflexivity|exact Hbs].
  - specialize (Hh h a Er Ha). unfold responds in Hh. unfold doRequestHandle.
    destruct (run_chain _ None w) as [w' [[r|]|x|[c m| | |]]]; cbn [snd] in Hh; try contradiction.
    + destruct Hh as [Htx Hsd]. destruct (sendable_raw r Hsd) as (raw & -> & Hg & Hp & Hf). rewrite Htx in Hf.
      destruct (Hsend w' raw Hg Hp Hf) as (bs & -> & Hbs).
      eexists. split; [reflexivity|]. split; [reflexivity|]. split; [eexists; reflexivity|exact Hbs].
    + destruct (Herr w' (error_text e c m)) as (bs & -> & Hbs).
      eexists. split; [reflexivity|]. split; [reflexivity|]. split; [eexists; reflexivity|exact Hbs].
Qed.

(** C38: whatever the packet and the handlers, the server itself sends at most one
    datagram, only in answer to a query with string t and q, and only to its source. *)
Lemma C38_at_most_one_pf : forall (A H : Type) e code (s : server H) (w : world A H) pk,
  let o := recvPacketHandle e code s w pk in
  o_sent o = [] \/
  (exists b d tx q, o_sent o = [{| g_bytes := b; g_to := p_addr pk |}] /\ packet_dict (p_bytes pk) d /\
     field d "y" (VStr (B "q")) /\ field d "t" (VStr tx) /\ field d "q" (VStr q)).
Proof.
  intros A H e code s w pk o. unfold o, recvPacketHandle. clear o.
  assert (Hgen : forall r, recv_body e code s w (p_addr pk) (p_bytes pk) = r -> snd (fst r) = [] \/
    exists b d tx q, snd (fst r) = [{| g_bytes := b; g_to := p_addr pk |}] /\ packet_dict (p_bytes pk) d /\ field d "y" (VStr (B "q")) /\ field d "t" (VStr tx) /\ field d "q" (VStr q)).
  { intros r E. unfold recv_body in E. destruct (DecodeDictNoLimit (p_bytes pk)) as [[d n]|x|p] eqn:Ed; try (left; rewrite <- E; reflexivity).
    unfold Exist in E. destruct (dget d (B "y")) as [v|] eqn:Ey; cbn [negb] in E; [|left; rewrite <- E; reflexivity].
    unfold GetString at 1, GetVal at 1 in E. rewrite Ey in E. cbn [bind] in E. destruct v; try (left; rewrite <- E; reflexivity).
    destruct (beq s0 (B "q")) eqn:Eb.
    - apply beq_eq in Eb. subst s0. unfold requestHandle, GetString, GetVal in E.
      destruct (dget d (B "t")) as [[z|tx|l|a| | | |k]|] eqn:Et; cbn [bind] in E; try (left; rewrite <- E; reflexivity).
      destruct (dget d (B "q")) as [[z|q|l|a| | | |k]|] eqn:Eq; cbn [bind] in E; try (left; rewrite <- E; reflexivity).
      assert (Hr : forall b, snd (fst r) = [{| g_bytes := b; g_to := p_addr pk |}] -> exists b0 d0 tx0 q0, snd (fst r) = [{| g_bytes := b0; g_to := p_addr pk |}] /\ packet_dict (p_bytes pk) d0 /\ field d0 "y" (VStr (B "q")) /\ field d0 "t" (VStr tx0) /\ field d0 "q" (VStr q0)).
      { intros b Hb. exists b, d, tx, q. repeat split; try assumption. exists n. exact Ed. }
      destruct (requestHandle_body e code s w (p_addr pk) d tx q) as [w' [[r0|]|x|[c m| | |]]]; try (left; rewrite <- E; reflexivity).
      + destruct (resp_RawData r0) as [raw|x|p]; try (left; rewrite <- E; reflexivity).
        destruct (encode_now e w' raw) as [bs|x|p]; [right; apply (Hr bs)|right; apply (Hr [])|left]; rewrite <- E; reflexivity.
      + destruct (resp_RawData (WithParamErr tx (error_text e c m))) as [raw|x|p]; try (left; rewrite <- E; reflexivity).
        destruct (encode_now e w' raw) as [bs|x|p]; [right; apply (Hr bs)|right; apply (Hr [])|left]; rewrite <- E; reflexivity.
    - left. rewrite <- E. destruct (beq s0 (B "r")); [destruct (responseHandle code s w (p_addr pk) d); reflexivity|]. destruct (beq s0 (B "e")); reflexivity. }
  specialize (Hgen _ eq_refl). destruct (recv_body e code s w (p_addr pk) (p_bytes pk)) as [[w' l] [r|x|p]]; exact Hgen.
Qed.

(** C38, the proviso is needed: a handler chain that writes no response, or panics with
    anything but a *misc.Error, leaves the query unanswered. *)
Lemma C38_silent_handler_pf : forall (A H : Type) e code (s : server H) (w : world A H) pk d tx q h a,
  packet_dict (p_bytes pk) d -> field d "y" (VStr (B "q")) -> field d "t" (VStr tx) -> field d "q" (VStr q) ->
  ~ bad_query (e_uf e) (s_router s) d q -> s_router s q = Some h -> field d "a" (VDict a) ->
  (match snd (run_chain (map (fun h => code h {| rq_tx := tx; rq_type := q; rq_body := Some a; rq_handler := None |} (p_addr pk)) (s_reqchain s ++ [h])) None w) with
   | Ok None => True | Panic (PBiz _ _) => False | Panic _ => True | _ => False end) ->
  o_sent (recvPacketHandle e code s w pk) = [].
Proof.
  intros A H e code s w pk d tx q h a Hd Hy Ht Hq Hnb Hh Ha Hr. unfold recvPacketHandle.
  rewrite (recv_query e code s w (p_addr pk) (p_bytes pk) d tx q Hd Hy Ht Hq).
  destruct (request_body_cases e code s w (p_addr pk) d tx q) as [(Hb & _)|(_ & a' & id & h' & _ & Ha' & _ & _ & Er & ->)]; [contradiction|].
  unfold field in *. rewrite Ha in Ha'. injection Ha' as <-. rewrite Hh in Er. injection Er as <-.
  unfold doRequestHandle. destruct (run_chain _ None w) as [w' [[r|]|x|[c m| | |]]]; cbn [snd] in Hr; try contradiction; reflexivity.
Qed.

(** C39: a query of an unsupported type, without an argument dictionary, without a 20-byte
    id, or of an unregistered type gets exactly one reply, an error of code 203 with a
    non-empty message; no handler runs: the outcome is the same whatever the handlers'
    code, and nothing but the log of sent datagrams changes. *)
Lemma C39_bad_query_gets_203_pf : forall (A H : Type) e code (s : server H) (w : world A H) pk d tx q, env_ok e ->
  packet_dict (p_bytes pk) d -> field d "y" (VStr (B "q")) -> field d "t" (VStr tx) -> field d "q" (VStr q) ->
  bad_query (e_uf e) (s_router s) d q ->
  let o := recvPacketHandle e code s w pk in
  (exists b msg, o_sent o = [{| g_bytes := b; g_to := p_addr pk |}] /\ msg <> [] /\ carries b (error_reply tx 203 msg)) /\
  w_app (o_world o) = w_app w /\ w_reqs (o_world o) = w_reqs w /\ w_queries (o_world o) = w_queries w /\
  w_sent (o_world o) = w_sent w ++ o_sent o /\
  forall code', recvPacketHandle e code' s w pk = o.
Proof.
  intros A H e code s w pk d tx q He Hd Hy Ht Hq Hb o. unfold o, recvPacketHandle. clear o.
  destruct (request_body_cases e code s w (p_addr pk) d tx q) as [(_ & Hcase & Hcode)|(Hnb & _)]; [|contradiction].
  assert (Hrec : forall code', recv_body e code' s w (p_addr pk) (p_bytes pk) = recv_body e code s w (p_addr pk) (p_bytes pk)).
  { intros code'. rewrite !(recv_query e _ s w (p_addr pk) (p_bytes pk) d tx q Hd Hy Ht Hq). rewrite Hcode. reflexivity. }
  assert (Hmain : exists b msg, recv_body e code s w (p_addr pk) (p_bytes pk) = (fst (send e w b (p_addr pk)), [{| g_bytes := b; g_to := p_addr pk |}], Ok tt) /\ msg <> [] /\ carries b (error_reply tx 203 msg)).
  { rewrite (recv_query e code s w (p_addr pk) (p_bytes pk) d tx q Hd Hy Ht Hq).
    assert (Herr : forall m, exists bs, encode_now e w (error_reply tx 203 m) = Ok bs /\ carries bs (error_reply tx 203 m)).
    { intros m. destruct (error_reply_go tx 203 m) as [G1 G2]; [unfold is_int, min_int, max_int; lia|]. apply encode_now_ok; assumption. }
    destruct Hcase as [(m & -> & Hm)|(m & ->)].
    - destruct (param_err_raw tx m) as (m' & Hm' & -> & _). destruct (Herr m') as (bs & -> & Hbs). exists bs, m'. auto.
    - destruct (Herr (error_text e 201 m)) as (bs & -> & Hbs). exists bs, (error_text e 201 m). split; [reflexivity|]. split; [|exact Hbs].
      unfold error_text. intros E0. apply (f_equal (@length _)) in E0. rewrite !app_length in E0. cbn in E0. lia. }
  destruct Hmain as (b & msg & E & Hmsg & Hc).
  split; [|split; [|split; [|split; [|split]]]]; try (rewrite E; reflexivity).
  - rewrite E. exists b, msg. auto.
  - intros code'. rewrite Hrec. reflexivity.
Qed.

(** C40: a packet that does not decode, has no y, or whose y is neither "q" nor "r", is
    dropped: nothing is sent and no state changes. *)
Lemma C40_garbage_dropped_pf : forall (A H : Type) e code (s : server H) (w : world A H) pk,
  (forall d, packet_dict (p_bytes pk) d -> ~ field d "y" (VStr (B "q")) /\ ~ field d "y" (VStr (B "r"))) ->
  let o := recvPacketHandle e code s w pk in o_sent o = [] /\ o_world o = w.
Proof.
  intros A H e code s w pk Hd o. unfold o, recvPacketHandle. clear o.
  assert (Hg : fst (recv_body e code s w (p_addr pk) (p_bytes pk)) = (w, [])).
  { unfold recv_body. destruct (DecodeDictNoLimit (p_bytes pk)) as [[d n]|x|p] eqn:Ed; try reflexivity.
    destruct (Hd d) as [Hnq Hnr]; [exists n; exact Ed|]. unfold field in *.
    unfold Exist, GetString, GetVal. destruct (dget d (B "y")) as [v|] eqn:Ey; cbn [negb]; [|reflexivity]. cbn [bind].
    destruct v as [z|y|l|a| | | |k]; cbn [bind]; try reflexivity.
    destruct (beq y (B "q")) eqn:E1; [apply beq_eq in E1; subst; congruence|].
    destruct (beq y (B "r")) eqn:E2; [apply beq_eq in E2; subst; congruence|].
    destruct (beq y (B "e")); reflexivity. }
  destruct (recv_body e code s w (p_addr pk) (p_bytes pk)) as [[w' l] [r|x|p]]; cbn [fst] in Hg; injection Hg as -> ->; split; reflexivity.
Qed.

(** C40: of the error packets (y = "e") exactly those with a string t and a list e are accepted;
    the others end in a recovered panic.  No error packet sends anything or changes any state. *)
Lemma C40_error_packets_pf : forall (A H : Type) e code (s : server H) (w : world A H) pk d,
  packet_dict (p_bytes pk) d -> field d "y" (VStr (B "e")) ->
  let o := recvPacketHandle e code s w pk in
  o_sent o = [] /\ o_world o = w /\
  (o_recovered o = None <-> (exists tx, field d "t" (VStr tx)) /\ ((exists l, field d "e" (VList l)) \/ field d "e" VNilList)).
Proof.
  intros A H e code s w pk d [n Ed] Ey o. unfold field in *.
  assert (Eb : recv_body e code s w (p_addr pk) (p_bytes pk) = (w, [], responseErrHandle d)).
  { unfold recv_body. rewrite Ed. unfold Exist. rewrite Ey. cbn [negb]. unfold GetString, GetVal. rewrite Ey. cbn [bind].
    change (beq (B "e") (B "q")) with false. change (beq (B "e") (B "r")) with false. rewrite beq_refl. reflexivity. }
  unfold o, recvPacketHandle. rewrite Eb. clear o Eb.
  unfold responseErrHandle, GetString, GetList, GetVal, PanicBizErr.
  destruct (dget d (B "t")) as [[]|] eqn:Et; destruct (dget d (B "e")) as [[]|] eqn:Ee; cbn [bind o_sent o_world o_recovered];
    (split; [reflexivity|split; [reflexivity|]]); (split; [first [discriminate|intros _; split; [eauto|first [left; eauto; fail|right; reflexivity]]]|]);
    intros [[? ?] [[? ?]|?]]; first [reflexivity|discriminate].
Qed.

(** C41: for every packet and every behaviour of the handlers the call returns normally and
    puts the packet's buffer back exactly once. *)
Lemma C41_bad_packet_contained_pf : forall (A H : Type) e code (s : server H) (w : world A H) pk,
  let o := recvPacketHandle e code s w pk in
  o_result o = Ok tt /\ o_puts o = [p_buf pk].
Proof.
  intros A H e code s w pk o. unfold o, recvPacketHandle. clear o.
  assert (Hne : forall x, snd (recv_body e code s w (p_addr pk) (p_bytes pk)) <> Err x).
  { assert (Hget : forall d k x, GetString d k <> Err x).
    { intros d k x. unfold GetString, GetVal, PanicBizErr. destruct (dget d k) as [[]|]; discriminate. }
    intros x. unfold recv_body. destruct (DecodeDictNoLimit (p_bytes pk)) as [[d n]|y|p]; cbn [snd]; try discriminate.
    destruct (negb (Exist d (B "y"))); [discriminate|].
    destruct (GetString d (B "y")) as [y|y|p] eqn:Ey; cbn [snd]; [|elim (Hget _ _ _ Ey)|discriminate].
    destruct (beq y (B "q")).
    - assert (Hrq : forall z, snd (requestHandle e code s w (p_addr pk) d) <> Err z).
      { intros z. unfold requestHandle. destruct (GetString d (B "t")) as [t|y0|p] eqn:Et; cbn [bind snd]; [|elim (Hget _ _ _ Et)|discriminate].
        destruct (GetString d (B "q")) as [q|y0|p] eqn:Eq; cbn [bind snd]; [|elim (Hget _ _ _ Eq)|discriminate].
        assert (Hb : snd (requestHandle_body e code s w (p_addr pk) d t q) <> Err z).
        { destruct (request_body_cases e code s w (p_addr pk) d t q) as [(_ & [(m & -> & _)|(m & ->)] & _)|(_ & a & id & h & _ & _ & _ & _ & _ & ->)]; cbn [snd]; try discriminate.
          unfold doRequestHandle. destruct (run_chain_total (map (fun h0 => code h0 {| rq_tx := t; rq_type := q; rq_body := Some a; rq_handler := None |} (p_addr pk)) (s_reqchain s ++ [h])) None w) as (c & o & _ & -> & _).
          destruct o; discriminate. }
        destruct (requestHandle_body e code s w (p_addr pk) d t q) as [w' [r|y0|[c m| | |]]]; cbn [snd] in *; congruence. }
      destruct (requestHandle e code s w (p_addr pk) d) as [w' [[r|]|y0|p]]; cbn [snd] in *; try discriminate; [|elim (Hrq y0 eq_refl)].
      destruct (resp_RawData r) as [raw|y0|p] eqn:Er; cbn [snd]; try discriminate.
      + destruct (encode_now e w' raw); cbn [send snd]; discriminate.
      + exfalso. unfold resp_RawData in Er. destruct (negb (rs_err r)); [discriminate|].
        unfold GetInteger, GetVal, PanicBizErr in Er. destruct (dget (dict_of (rs_body r)) (B "code")) as [[]|]; cbn [bind] in Er; try discriminate.
        destruct (GetString (dict_of (rs_body r)) (B "msg")) eqn:Em; cbn [bind] in Er; try discriminate. elim (Hget _ _ _ Em).
    - destruct (beq y (B "r")).
      + unfold responseHandle. destruct (GetString d (B "t")) as [t|y0|p] eqn:Et; cbn [bind snd]; [|elim (Hget _ _ _ Et)|discriminate].
        assert (Hgd : forall z, GetDict d (B "r") <> Err z) by (intros z; unfold GetDict, GetVal, PanicBizErr; destruct (dget d (B "r")) as [[]|]; discriminate).
        destruct (GetDict d (B "r")) as [b|y0|p] eqn:Er; cbn [bind snd]; [|elim (Hgd _ eq_refl)|discriminate].
        destruct (GetString (dict_of b) (B "id")) as [i|y0|p] eqn:Ei; cbn [bind snd]; [|elim (Hget _ _ _ Ei)|discriminate].
        destruct (w_reqs w t) as [req|]; [|discriminate]. unfold doResponseHandle.
        match goal with |- context[run_chain ?ch ?r0 w] => destruct (run_chain_total ch r0 w) as (c & o & _ & -> & _) end.
        destruct o; discriminate.
      + destruct (beq y (B "e")); [|discriminate]. cbn [snd]. unfold responseErrHandle.
        destruct (GetString d (B "t")) as [t|y0|p] eqn:Et; cbn [bind]; [|elim (Hget _ _ _ Et)|discriminate].
        unfold GetList, GetVal, PanicBizErr. destruct (dget d (B "e")) as [[]|]; discriminate. }
  destruct (recv_body e code s w (p_addr pk) (p_bytes pk)) as [[w' l] [[]|x|p]]; cbn [snd o_result o_puts] in *; try (split; reflexivity).
  elim (Hne x eq_refl).
Qed.

(** C42: a response packet with transaction id [tx]: if no request with that id was sent
    nothing happens; otherwise the response middlewares and then the request's handler are
    run - each once, in order, unless one panics - on that request, the sender's address and
    the response body, and the server itself sends nothing. *)
Lemma C42_response_routed_pf : forall (A H : Type) e code (s : server H) (w : world A H) pk d tx body id,
  packet_dict (p_bytes pk) d -> field d "y" (VStr (B "r")) -> field d "t" (VStr tx) ->
  field d "r" (VDict body) -> field body "id" (VStr id) ->
  let o := recvPacketHandle e code s w pk in
  o_sent o = [] /\
  (w_reqs w tx = None -> o_world o = w) /\
  (forall req h, w_reqs w tx = Some req -> rq_handler req = Some h ->
     let chain := map (fun h' => code h' req (p_addr pk)) (s_respchain s ++ [h]) in
     exists c end_, Next (S (length chain)) chain (NewReqContext (Some {| rs_tx := tx; rs_body := Some body; rs_err := false |}) w) = Some (c, end_) /\
       o_world o = c_world c /\
       match end_ with
       | None => c_started c = seq 0 (length chain)
       | Some _ => exists m, 1 <= m <= length chain /\ c_started c = seq 0 m
       end).
Proof.
  intros A H e code s w pk d tx body id [n Ed] Ey Et Er Ei o. unfold field in *.
  assert (Eb : recv_body e code s w (p_addr pk) (p_bytes pk) =
    match w_reqs w tx with
    | None => (w, [], Ok tt)
    | Some req => let (w', r) := doResponseHandle code s w req (WithResponse tx (Some body)) (p_addr pk) in (w', [], r)
    end).
  { unfold recv_body. rewrite Ed. unfold Exist. rewrite Ey. cbn [negb]. unfold GetString at 1, GetVal at 1. rewrite Ey. cbn [bind].
    change (beq (B "r") (B "q")) with false. rewrite beq_refl. cbn match.
    unfold responseHandle, GetString, GetDict, GetVal. rewrite Et. cbn [bind]. rewrite Er. cbn [bind dict_of]. rewrite Ei. cbn [bind].
    destruct (w_reqs w tx); reflexivity. }
  unfold o, recvPacketHandle. rewrite Eb. clear o Eb. split; [|split].
  - destruct (w_reqs w tx) as [req|]; [|reflexivity]. destruct (doResponseHandle _ _ _ _ _ _) as [w' [r|x|p]]; reflexivity.
  - intros ->. reflexivity.
  - intros req h Hreq Hh. cbv zeta. set (chain := map (fun h' => code h' req (p_addr pk)) (s_respchain s ++ [h])). rewrite Hreq. unfold doResponseHandle. rewrite Hh.
    replace (map (fun h0 : H => code h0 req (p_addr pk)) (s_respchain s) ++ [code h req (p_addr pk)]) with chain by (unfold chain; rewrite map_app; reflexivity).
    unfold WithResponse.
    destruct (run_chain_total chain (Some {| rs_tx := tx; rs_body := Some body; rs_err := false |}) w) as (c & en & E & -> & Hst).
    exists c, en. split; [exact E|]. split; [|exact Hst]. destruct en; reflexivity.
Qed.

(** A handler that panics at once is not among those started by a chain that returns. *)
Lemma exec_started {W R} (next : ctx W R -> out W R) k : (forall c c', next c = Some (c', None) -> In k (c_started c') -> In k (c_started c)) ->
  forall p c c', exec next p c = Some (c', None) -> In k (c_started c') -> In k (c_started c).
Proof.
  intros Hn. induction p as [|q|f p IH|p IH|r p IH|p IH]; intros c c' E Hin; cbn [exec] in E.
  - injection E as <-. exact Hin.
  - discriminate.
  - apply (IH _ _ E Hin).
  - apply (IH _ _ _ _ E Hin).
  - apply (IH _ _ E Hin).
  - destruct (next c) as [[c1 [q|]]|] eqn:E1; try discriminate. eapply Hn; [exact E1|]. apply (IH _ _ E Hin).
Qed.
Lemma loop_started {W R} (chain : list (prog W R)) k q : nth_error chain k = Some (PPanic q) ->
  forall f c c', loop f chain c = Some (c', None) -> In k (c_started c') -> In k (c_started c).
Proof.
  intros Hk. induction f as [|f IH]; intros c c' E Hin; cbn [loop] in E.
  - destruct (nth_error chain (c_index c - 1)); [discriminate|]. injection E as <-. exact Hin.
  - destruct (nth_error chain (c_index c - 1)) as [h|] eqn:Eh; [|injection E as <-; exact Hin].
    set (c1 := {| c_index := _; c_resp := _; c_world := _; c_started := _; c_writes := _ |}) in E.
    destruct (exec (fun c' => loop f chain (incr c')) h c1) as [[c2 [p|]]|] eqn:E2; try discriminate.
    assert (H1 : In k (c_started c1)).
    { eapply (exec_started (fun c' => loop f chain (incr c'))); [|exact E2|].
      - intros a b Eab Hb. apply (IH _ _ Eab Hb).
      - apply (IH _ _ E Hin). }
    cbn [c1 c_started] in H1. apply in_app_iff in H1 as [H1|[H1|[]]]; [exact H1|]. exfalso.
    rewrite H1, Hk in Eh. injection Eh as <-. discriminate.
Qed.
Lemma panics_not_done {W R} (chain : list (prog W R)) k q f r0 w c : nth_error chain k = Some (PPanic q) ->
  loop f chain (incr (NewReqContext r0 w)) = Some (c, None) -> In k (c_started c) -> False.
Proof. intros Hk E Hin. apply (loop_started chain k q Hk f _ _ E) in Hin. destruct Hin. Qed.

(** C42: a response to a request that has no handler still runs the response middlewares, in
    order, each once unless one panics; then the call is ended by a recovered panic (and not
    silently ignored).  Nothing is sent by the server itself. *)
Lemma C42_request_without_handler_pf : forall (A H : Type) e code (s : server H) (w : world A H) pk d tx body id req,
  packet_dict (p_bytes pk) d -> field d "y" (VStr (B "r")) -> field d "t" (VStr tx) ->
  field d "r" (VDict body) -> field body "id" (VStr id) -> w_reqs w tx = Some req -> rq_handler req = None ->
  let o := recvPacketHandle e code s w pk in
  o_sent o = [] /\ o_recovered o <> None /\
  exists c p, Next (S (S (length (s_respchain s)))) (map (fun h' => code h' req (p_addr pk)) (s_respchain s) ++ [PPanic PRuntime])
      (NewReqContext (Some {| rs_tx := tx; rs_body := Some body; rs_err := false |}) w) = Some (c, Some p) /\ o_world o = c_world c.
Proof.
  intros A H e code s w pk d tx body id req [n Ed] Ey Et Er Ei Hreq Hh o. unfold field in *.
  assert (Eb : recv_body e code s w (p_addr pk) (p_bytes pk) = let (w', r) := doResponseHandle code s w req (WithResponse tx (Some body)) (p_addr pk) in (w', [], r)).
  { unfold recv_body. rewrite Ed. unfold Exist. rewrite Ey. cbn [negb]. unfold GetString at 1, GetVal at 1. rewrite Ey. cbn [bind].
    change (beq (B "r") (B "q")) with false. rewrite beq_refl. cbn match.
    unfold responseHandle, GetString, GetDict, GetVal. rewrite Et. cbn [bind]. rewrite Er. cbn [bind dict_of]. rewrite Ei. cbn [bind].
    rewrite Hreq. reflexivity. }
  unfold o, recvPacketHandle. rewrite Eb. clear o Eb. unfold doResponseHandle. rewrite Hh. unfold WithResponse.
  set (chain := map _ _ ++ _).
  destruct (run_chain_total chain (Some {| rs_tx := tx; rs_body := Some body; rs_err := false |}) w) as (c & en & E & -> & Hst).
  assert (Hlen : length chain = S (length (s_respchain s))) by (unfold chain; rewrite app_length, map_length; cbn; lia).
  assert (Hen : exists p, en = Some p).
  { destruct en as [p|]; [eauto|exfalso]. unfold Next in E. rewrite Hlen in *.
    assert (Hin : In (length (s_respchain s)) (c_started c)) by (rewrite Hst; apply in_seq; lia).
    revert E Hin. apply (panics_not_done _ _ PRuntime). unfold chain. rewrite nth_error_app2; rewrite map_length; [rewrite Nat.sub_diag; reflexivity|lia]. }
  destruct Hen as [p ->]. cbn [bind]. split; [reflexivity|]. split; [discriminate|]. exists c, p. rewrite <- Hlen. split; [exact E|reflexivity].
Qed.

(** C42: at any time the request found for a transaction id is the one most recently passed
    to Query with that id (handlers change the table only through Query). *)
Lemma C42_latest_request_pf : forall (A H : Type) e code (s : server H) (a : A) (w : world A H),
  (forall h r x, queries_only (code h r x)) -> krpc_reach e code s a w ->
  forall tx, w_reqs w tx = latest (w_queries w) tx.
Proof.
  intros A H e code s a w Hc Hr.
  assert (Hstep : forall w w' : world A H, (forall tx, w_reqs w tx = latest (w_queries w) tx) -> changes w w' -> forall tx, w_reqs w' tx = latest (w_queries w') tx).
  { intros w1 w2 Hi [qs [E1 E2]] tx. rewrite E2, E1. apply fold_mput_latest. exact Hi. }
  induction Hr as [|w to r Hr IH|w pk Hr IH].
  - reflexivity.
  - eapply Hstep; [exact IH|]. exists [r]. apply Query_change.
  - eapply Hstep; [exact IH|]. apply recv_changes. exact Hc.
Qed.

(** C42: Query makes its request the pending one for its id, leaves the others alone, and
    sends exactly the encoding of the request - or nothing, with an error, if it cannot be
    encoded. *)
Lemma C42_query_registers_pf : forall (A H : Type) e (w : world A H) to req,
  let w' := fst (Query e w to req) in
  w_reqs w' (rq_tx req) = Some req /\ (forall tx, tx <> rq_tx req -> w_reqs w' tx = w_reqs w tx) /\
  w_app w' = w_app w /\
  ((exists b, w_sent w' = w_sent w ++ [{| g_bytes := b; g_to := to |}] /\
      (env_ok e -> (forall a, rq_body req = Some a -> go_value (VDict a)) ->
       carries b [(B "t", VStr (rq_tx req)); (B "y", VStr (B "q")); (B "q", VStr (rq_type req)); (B "a", dict_val (rq_body req))])) \/
   (w_sent w' = w_sent w /\ snd (Query e w to req) <> Ok tt)).
Proof.
  intros A H e w to req w'. unfold w'. clear w'. pose proof (Query_change e w to req) as [_ Ht].
  split; [rewrite Ht; cbn [fold_left]; unfold mput; rewrite beq_refl; reflexivity|].
  split; [intros tx Hne; rewrite Ht; cbn [fold_left]; unfold mput; apply beq_neq in Hne; rewrite Hne; reflexivity|].
  split; [unfold Query; destruct (encode_now e _ _); reflexivity|].
  unfold Query. set (w1 := {| w_app := w_app w; w_reqs := _; w_sent := _; w_queries := _ |}).
  destruct (encode_now e w1 (req_RawData req)) as [raw|x|p] eqn:Ee; cbn [send fst snd w_sent w1]; [left|right; split; [reflexivity|discriminate]..].
  exists raw. split; [reflexivity|]. intros He Hg. unfold encode_now in Ee.
  assert (Hgo : go_value (VDict (req_RawData req))).
  { constructor; [unfold req_RawData; nodup|]. intros k v Hin. cbn in Hin.
    repeat (destruct Hin as [E|Hin]; [injection E as <- <-; try constructor|]); try contradiction.
    destruct (rq_body req) as [a|] eqn:Ea; cbn [dict_val]; [apply Hg; reflexivity|constructor]. }
  split; [eexists; split; [apply He|]; apply bencoding_iff; split; [|exact Ee];
    exact (proj1 (veq_go_plain (VDict _) (VDict _) (veq_dict _ _ (He _ _))) Hgo)|]. intros Hf.
  destruct (C06_end_offset_pf _ _ raw [] Hgo (He _ _) Ee) as (r & Hd & E2 & _); [rewrite app_nil_r; exact Hf|].
  rewrite app_nil_r in E2. exists r. auto.
Qed.

(** C43: pending requests are never forgotten: no packet and no query can remove one. *)
Lemma C43_pending_forever_pf : forall (A H : Type) e code (s : server H) (w : world A H) tx,
  (forall h r x, queries_only (code h r x)) -> w_reqs w tx <> None ->
  (forall pk, w_reqs (o_world (recvPacketHandle e code s w pk)) tx <> None) /\
  (forall to req, w_reqs (fst (Query e w to req)) tx <> None).
Proof.
  intros A H e code s w tx Hc Hw.
  assert (Hstep : forall w' : world A H, changes w w' -> w_reqs w' tx <> None).
  { intros w' [qs [_ E]]. rewrite E. generalize (w_reqs w) Hw. clear. induction qs as [|q qs IH]; cbn [fold_left]; intros m Hm; [exact Hm|].
    apply IH. unfold mput. destruct (beq tx (rq_tx q)); [discriminate|exact Hm]. }
  split; intros; apply Hstep; [apply recv_changes; exact Hc|exists [req]; apply Query_change].
Qed.

(** A concrete server: the application state counts handler runs and records the source ports. *)
Definition ex_env : env := {| e_uf := fun _ _ => false; e_ord := fun _ d => d; e_sok := fun _ => true; e_stack := []; e_slack := fun n => n |}.
Lemma ex_env_ok : env_ok ex_env.
Proof. intros n d. apply deq_refl. Qed.
Definition ex_addr (c : N) : udpaddr := mkaddr [byte_of 10; byte_of 0; byte_of 0; byte_of c] 6881.
Definition ex_code (h : nat) (r : request nat) (a : udpaddr) : prog (world (list udpaddr) nat) response :=
  match h with
  | 0 => PAct (fun w => {| w_app := w_app w ++ [a]; w_reqs := w_reqs w; w_sent := w_sent w; w_queries := w_queries w |}) PRet
  | 1 => PWrite (Some (WithResponse (rq_tx r) (Some [(B "id", VStr (B "abcdefghijklmnopqrst"))]))) PRet
  | 2 => PPanic (PBiz 201 (B "boom"))
  | 3 => PPanic PRuntime
  | _ => PRet
  end.
Lemma ex_code_ok : forall h r x, queries_only (ex_code h r x).
Proof.
  intros h r x. destruct h as [|[|[|[|h]]]]; repeat constructor.
  intros w. exists []. apply table_change_refl; reflexivity.
Qed.
Definition ex_world : world (list udpaddr) nat := {| w_app := []; w_reqs := fun _ => None; w_sent := []; w_queries := [] |}.
Definition ex_req : request nat := {| rq_tx := B "aa"; rq_type := B "ping"; rq_body := Some [(B "id", VStr (B "x"))]; rq_handler := Some 0 |}.
Definition ex_pk (c : N) (s : string) : packet := {| p_addr := ex_addr c; p_bytes := B s; p_buf := 7 |}.

(** C43 refuted: one ping was sent to 10.0.0.1; the response is accepted from 10.0.0.2,
    then again from 10.0.0.3, and the handler runs each time. *)
Lemma C43_answered_once_refuted_pf :
  let w0 := fst (Query ex_env ex_world (ex_addr 1) ex_req) in
  let w1 := o_world (recvPacketHandle ex_env ex_code NewRpcServer w0 (ex_pk 2 "d1:rd2:id1:zee")) in
  let w2 := o_world (recvPacketHandle ex_env ex_code NewRpcServer w0 (ex_pk 2 "d1:t2:aa1:y1:r1:rd2:id1:zee")) in
  let w3 := o_world (recvPacketHandle ex_env ex_code NewRpcServer w2 (ex_pk 3 "d1:t2:aa1:y1:r1:rd2:id1:zee")) in
  map g_to (w_sent w0) = [ex_addr 1] /\ w_app w1 = [] /\ w_app w2 = [ex_addr 2] /\ w_app w3 = [ex_addr 2; ex_addr 3].
Proof. vm_compute. repeat split. Qed.

(** C44: registration succeeds exactly for the four query types (in any capitalisation)
    with a non-nil handler; it makes the handler the one for exactly that spelling. *)
Lemma C44_register_pf : forall (H : Type) e (s : server H) q h,
  (forall s', RegisteHandler e s q h = Ok s' ->
     supported (e_uf e) q /\ (exists f, h = Some f /\ s_router s' q = Some f) /\
     (forall q', q' <> q -> s_router s' q' = s_router s q') /\ s_reqchain s' = s_reqchain s /\ s_respchain s' = s_respchain s) /\
  (supported (e_uf e) q -> h <> None -> exists s', RegisteHandler e s q h = Ok s') /\
  (~ supported (e_uf e) q -> RegisteHandler e s q h = Panic (PStr (B "cannot support the query type"))) /\
  (supported (e_uf e) q -> h = None -> RegisteHandler e s q h = Panic (PStr (B "register fail, handler is nil"))).
Proof.
  intros H e s q h. unfold RegisteHandler.
  destruct (contains_supported (e_uf e) q) as [[-> Hs]|[-> Hs]]; cbn [bind negb].
  - destruct h as [f|].
    + split; [|split; [|split]].
      * intros s' E. injection E as <-. split; [exact Hs|]. split; [exists f; split; [reflexivity|]|].
        -- cbn [s_router]. unfold mput. rewrite beq_refl. reflexivity.
        -- split; [|split; reflexivity]. intros q' Hne. cbn [s_router]. unfold mput. apply beq_neq in Hne. rewrite Hne. reflexivity.
      * intros _ _. eexists. reflexivity.
      * intros Hn. contradiction.
      * intros _ Hn. discriminate Hn.
    + split; [discriminate|]. split; [congruence|]. split; [contradiction|]. intros _ _. reflexivity.
  - split; [discriminate|]. split; [contradiction|]. split; [intros _; reflexivity|contradiction].
Qed.

(** C44: "PING" can be registered, but a "ping" query then still gets the 203 error. *)
Lemma C44_capitalisation_refuted_pf : forall uf, let e := {| e_uf := uf; e_ord := fun _ d => d; e_sok := fun _ => true; e_stack := []; e_slack := fun n => n |} in
  exists s', RegisteHandler e (@NewRpcServer nat) (B "PING") (Some 1) = Ok s' /\
  map g_bytes (o_sent (recvPacketHandle e ex_code s' ex_world (ex_pk 2 "d1:t2:bb1:y1:q1:q4:ping1:ad2:id20:aaaaaaaaaaaaaaaaaaaaee"))) =
    [B "d1:t2:bb1:y1:e1:eli203e31:cannot handle not match handleree"] /\
  map g_bytes (o_sent (recvPacketHandle e ex_code s' ex_world (ex_pk 2 "d1:t2:bb1:y1:q1:q4:PING1:ad2:id20:aaaaaaaaaaaaaaaaaaaaee"))) =
    [B "d1:t2:bb1:y1:r1:rd2:id20:abcdefghijklmnopqrstee"].
Proof. intros uf. eexists. split; [vm_compute; reflexivity|]. split; vm_compute; reflexivity. Qed.

(** Concrete packets for C38-C42. *)
Definition ex_server : server nat := {| s_router := fun q => if beq q (B "ping") then Some 1 else if beq q (B "find_node") then Some 2 else if beq q (B "get_peers") then Some 3 else None; s_reqchain := [4]; s_respchain := [0] |}.
Lemma C38_example_pf :
  let q t := ("d1:t2:bb1:y1:q1:q" ++ t ++ "1:ad2:id20:aaaaaaaaaaaaaaaaaaaaee")%string in
  let run s := let o := recvPacketHandle ex_env ex_code ex_server ex_world (ex_pk 2 s) in (map g_bytes (o_sent o), o_recovered o) in
  run (q "4:ping")%string = ([B "d1:t2:bb1:y1:r1:rd2:id20:abcdefghijklmnopqrstee"], None) /\
  snd (run (q "9:find_node")%string) = None /\ length (fst (run (q "9:find_node")%string)) = 1 /\
  run (q "9:get_peers")%string = ([], Some PRuntime) /\
  run (q "4:pong")%string = ([B "d1:t2:bb1:y1:e1:eli203e32:donnot support <pong> query typeee"], None).
Proof. vm_compute. repeat split. Qed.
Lemma C40_example_pf :
  let run s := let o := recvPacketHandle ex_env ex_code ex_server ex_world (ex_pk 2 s) in (o_sent o, o_puts o, o_result o, o_recovered o) in
  run "garbage"%string = ([], [7], Ok tt, None) /\ run "d1:yi5ee"%string = ([], [7], Ok tt, Some (PBiz 201 (B "y's val cannot match type of string"))) /\
  run "d1:y9223372036854775807:e"%string = ([], [7], Ok tt, Some PRuntime).
Proof. vm_compute. repeat split. Qed.
Lemma C42_example_pf : exists w, krpc_reach ex_env ex_code ex_server [] w /\ latest (w_queries w) (B "aa") = Some ex_req /\ (forall h r x, queries_only (ex_code h r x)).
Proof.
  exists (fst (Query ex_env ex_world (ex_addr 1) ex_req)). split; [apply kr_query; apply kr_init|].
  split; [reflexivity|exact ex_code_ok].
Qed.

(** C39: four bad queries that meet the hypotheses, one of each kind - unsupported type, no
    arguments, an id of 19 bytes, an unregistered type - and what is sent for them. *)
Lemma C39_example_pf :
  let meets s q := exists d, packet_dict (B s) d /\ field d "y" (VStr (B "q")) /\ field d "t" (VStr (B "bb")) /\ field d "q" (VStr q) /\
    bad_query (e_uf ex_env) (s_router ex_server) d q in
  let run s := let o := recvPacketHandle ex_env ex_code ex_server ex_world (ex_pk 2 s) in map g_bytes (o_sent o) in
  meets "d1:t2:bb1:y1:q1:q4:pong1:ad2:id20:aaaaaaaaaaaaaaaaaaaaee"%string (B "pong") /\
  run "d1:t2:bb1:y1:q1:q4:pong1:ad2:id20:aaaaaaaaaaaaaaaaaaaaee"%string = [B "d1:t2:bb1:y1:e1:eli203e32:donnot support <pong> query typeee"] /\
  meets "d1:t2:bb1:y1:q1:q4:pinge"%string (B "ping") /\ length (run "d1:t2:bb1:y1:q1:q4:pinge"%string) = 1 /\
  meets "d1:t2:bb1:y1:q1:q4:ping1:ad2:id19:aaaaaaaaaaaaaaaaaaaee"%string (B "ping") /\
  length (run "d1:t2:bb1:y1:q1:q4:ping1:ad2:id19:aaaaaaaaaaaaaaaaaaaee"%string) = 1 /\
  meets "d1:t2:bb1:y1:q1:q13:announce_peer1:ad2:id20:aaaaaaaaaaaaaaaaaaaaee"%string (B "announce_peer") /\
  run "d1:t2:bb1:y1:q1:q13:announce_peer1:ad2:id20:aaaaaaaaaaaaaaaaaaaaee"%string = [B "d1:t2:bb1:y1:e1:eli203e31:cannot handle not match handleree"].
Proof.
  assert (P : forall s d n, DecodeDictNoLimit (B s) = Ok (d, n) -> packet_dict (B s) d) by (intros s d n E; exists n; exact E).
  cbv zeta. split; [|split; [vm_compute; reflexivity|split; [|split; [vm_compute; reflexivity|split; [|split; [vm_compute; reflexivity|split; [|vm_compute; reflexivity]]]]]]];
    eexists; (split; [eapply P; vm_compute; reflexivity|]); do 3 (split; [vm_compute; reflexivity|]).
  - left. destruct (contains_supported (e_uf ex_env) (B "pong")) as [[E _]|[_ H]]; [vm_compute in E; discriminate|exact H].
  - right. left. intros [a E]. vm_compute in E. discriminate.
  - right. right. left. eexists. split; [vm_compute; reflexivity|]. intros (id & E & L). vm_compute in E. injection E as <-. vm_compute in L. discriminate.
  - right. right. right. vm_compute. reflexivity.
Qed.

(** C41: packets that make the decoder, the dispatcher or a handler panic: the call still returns
    and the buffer is put back once. *)
Lemma C41_example_pf :
  let run s := let o := recvPacketHandle ex_env ex_code ex_server ex_world (ex_pk 2 s) in (o_recovered o, o_result o, o_puts o) in
  run "d1:t2:bb1:y1:q1:q9:get_peers1:ad2:id20:aaaaaaaaaaaaaaaaaaaaee"%string = (Some PRuntime, Ok tt, [7]) /\
  run "d1:y9223372036854775807:e"%string = (Some PRuntime, Ok tt, [7]) /\ run ""%string = (None, Ok tt, [7]) /\
  run "d1:t2:bb1:y1:q1:q4:ping1:ad2:id20:aaaaaaaaaaaaaaaaaaaaee"%string = (None, Ok tt, [7]).
Proof. vm_compute. repeat split. Qed.

(** C43: a request is pending after a query has been sent. *)
Lemma C43_example_pf :
  (forall h r x, queries_only (ex_code h r x)) /\ w_reqs ex_world (B "aa") = None /\
  let w := fst (Query ex_env ex_world (ex_addr 1) ex_req) in
  w_reqs w (B "aa") = Some ex_req /\
  w_reqs (o_world (recvPacketHandle ex_env ex_code ex_server w (ex_pk 1 "d1:t2:aa1:y1:r1:rd2:id1:zee"))) (B "aa") = Some ex_req.
Proof. split; [exact ex_code_ok|]. vm_compute. repeat split. Qed.

(** C44: both outcomes occur: "find_node" and "FIND_node" can be registered, "vote" and a nil
    handler cannot. *)
Lemma C44_example_pf :
  let reg q h := RegisteHandler ex_env (@NewRpcServer nat) (B q) h in
  supported (e_uf ex_env) (B "find_node") /\ (exists s, reg "find_node"%string (Some 2) = Ok s) /\ (exists s, reg "FIND_node"%string (Some 2) = Ok s) /\
  ~ supported (e_uf ex_env) (B "vote") /\ (exists m, reg "vote"%string (Some 2) = Panic (PStr m)) /\ (exists m, reg "ping"%string None = Panic (PStr m)).
Proof.
  cbv zeta. destruct (contains_supported (e_uf ex_env) (B "find_node")) as [[_ H1]|[E _]]; [|vm_compute in E; discriminate].
  destruct (contains_supported (e_uf ex_env) (B "vote")) as [[E _]|[_ H2]]; [vm_compute in E; discriminate|].
  split; [exact H1|]. split; [eexists; reflexivity|]. split; [eexists; reflexivity|]. split; [exact H2|]. split; eexists; reflexivity.
Qed.
