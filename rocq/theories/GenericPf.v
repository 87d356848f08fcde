(** GenericPf.v -- proofs of C134: responses to queries of the kinds the crawler can make but does not send itself. *)
From Verif Require Import Base GoLib Bencode BencodeSpec BencodeProofs Types TypesPf Node NodePf RouteTable Middleware Krpc KrpcSpec KrpcProofs KrpcPf Dht DhtSpec DhtProofs DhtPf.
Local Open Scope list_scope.

(** What a get_peers response has to look like for its handler: readable peers if there is a "values" field, otherwise a string "nodes".
    A peer is readable if it has six bytes, or if the runtime happens to give []byte(v) room for six. *)
Definition readable_peers (slack : nat -> nat) (l : list val) : Prop := forall v, In v l -> exists s, v = VStr s /\ 6 <= Nat.max (length s) (slack (length s)).
Definition readable (slack : nat -> nat) (body : entries) : Prop :=
  field body "values" VNilList \/ (exists l, field body "values" (VList l) /\ readable_peers slack l) \/ ((forall v, ~ field body "values" v) /\ exists nodes, field body "nodes" (VStr nodes)).

Lemma peers_readable slack l : (exists r, parsePeerInfo slack l = Ok r) /\ readable_peers slack l \/ (exists p, parsePeerInfo slack l = Panic p) /\ ~ readable_peers slack l.
Proof.
  induction l as [|v l [((r & IH) & Hr)|((p & IH) & Hr)]].
  - left. split; [exists []; reflexivity|]. intros v [].
  - destruct v as [z|s|l'|dd| | | |k]; try (right; split; [eexists; reflexivity|intros H; destruct (H _ (or_introl eq_refl)) as (s & E & _); discriminate E]).
    rewrite parsePeerInfo_cons, IH. unfold parse_peer. destruct (_ <? 6) eqn:E.
    + right. split; [eexists; reflexivity|]. intros H. destruct (H _ (or_introl eq_refl)) as (s' & Es & Hl). injection Es as <-. apply Nat.ltb_lt in E. lia.
    + left. apply Nat.ltb_ge in E. split.
      * assert (H4 : exists x, idx (s ++ repeat (byte_of 0) 6) 4 = Ok x) by (unfold idx; destruct (nth_error _ 4) eqn:En; [eexists; reflexivity|apply nth_error_None in En; rewrite app_length, repeat_length in En; lia]).
        assert (H5 : exists x, idx (s ++ repeat (byte_of 0) 6) 5 = Ok x) by (unfold idx; destruct (nth_error _ 5) eqn:En; [eexists; reflexivity|apply nth_error_None in En; rewrite app_length, repeat_length in En; lia]).
        destruct H4 as (x & ->), H5 as (y & ->). eexists. reflexivity.
      * intros v [<-|Hv]; [exists s; split; [reflexivity|exact E]|apply Hr; exact Hv].
  - right. destruct v as [z|s|l'|dd| | | |k]; try (split; [eexists; reflexivity|intros H; destruct (H _ (or_introl eq_refl)) as (s & E & _); discriminate E]).
    split; [|intros H; apply Hr; intros v Hv; apply H; right; exact Hv].
    rewrite parsePeerInfo_cons, IH. unfold parse_peer. destruct (_ <? 6) eqn:E; [eexists; reflexivity|]. unfold idx. destruct (nth_error _ 4); [|eexists; reflexivity]. destruct (nth_error _ 5); eexists; reflexivity.
Qed.

(** C134: a response matching a ping, get_peers or announce_peer query (or one of any other type but find_node) changes nothing and sends
    nothing, whatever is in it and whatever the state; its handler gives up exactly if it is a get_peers response that cannot be read. *)
Lemma C134_other_responses_pf : forall e e0 me srv w pk tx d body id req, Run_server e0 = Ok srv ->
  packet_dict (p_bytes pk) d -> field d "y" (VStr (B "r")) -> field d "t" (VStr tx) -> field d "r" (VDict body) -> field body "id" (VStr id) ->
  w_reqs w tx = Some req -> rq_handler req = Some HGenericResp -> rq_type req <> B "find_node" ->
  o_world (recv e me srv w pk) = w /\ o_sent (recv e me srv w pk) = [] /\ o_result (recv e me srv w pk) = Ok tt /\
  (o_recovered (recv e me srv w pk) = None <-> (rq_type req = B "get_peers" -> readable (e_slack e) body)).
Proof.
  intros e e0 me srv w pk tx d body id req Hs (n & Hd) Hy Ht Hr Hid Hreq Hh Hty. unfold field in *.
  assert (Hn : beq (rq_type req) (B "find_node") = false) by (destruct (beq _ _) eqn:E; [apply beq_eq in E; contradiction|reflexivity]).
  assert (Hrun : exists o, fst (run_chain (map (fun h => crawler_code e me h req (p_addr pk)) (s_respchain srv) ++ [genericRespHandler e me req]) (Some (WithResponse tx (Some body))) w) = w /\
    snd (run_chain (map (fun h => crawler_code e me h req (p_addr pk)) (s_respchain srv) ++ [genericRespHandler e me req]) (Some (WithResponse tx (Some body))) w) =
      match o with None => Ok (Some (WithResponse tx (Some body))) | Some p => Panic p end /\ (o = None <-> (rq_type req = B "get_peers" -> readable (e_slack e) body))).
  { assert (Hsr : s_respchain srv = []) by (vm_compute in Hs; injection Hs as <-; reflexivity). rewrite Hsr. cbn [map app].
    unfold run_chain, Middleware.Next. cbn [length loop incr NewReqContext c_index nth_error Nat.sub c_resp c_world c_started c_writes app].
    unfold genericRespHandler. cbn [exec c_resp c_world]. unfold NodeId. cbn [WithResponse rs_body dict_of].
    assert (Egi : GetString body (B "id") = Ok id). { destruct (getstring_cases body (B "id")) as [(i & E1 & E2)|(Hni & _)]; [congruence|elim (Hni id Hid)]. }
    rewrite Egi. cbn [bind]. rewrite Hn. destruct (beq (rq_type req) (B "get_peers")) eqn:Eg.
    - apply beq_eq in Eg. unfold readable, field, Exist. destruct (dget body (B "values")) as [v|] eqn:Ev.
      + unfold GetList, GetVal. rewrite Ev. cbn [bind].
        destruct v as [z|s|l|dd| | | |k]; cbn [bind exec loop incr c_index nth_error Nat.sub c_world fst snd c_resp];
          try (eexists (Some _); split; [reflexivity|split; [reflexivity|]]; split; [discriminate|intros H; destruct (H Eg) as [H'|[(l' & H' & _)|(H' & _)]]; [discriminate|discriminate|elim (H' _ eq_refl)]]).
        * destruct (peers_readable (e_slack e) l) as [((r & ->) & Hl)|((p & ->) & Hl)]; cbn [bind exec loop incr c_index nth_error Nat.sub c_world fst snd c_resp].
          -- exists None. split; [reflexivity|]. split; [reflexivity|]. split; [intros _ _; right; left; exists l; split; [reflexivity|exact Hl]|reflexivity].
          -- exists (Some p). split; [reflexivity|]. split; [reflexivity|]. split; [discriminate|]. intros H. exfalso. destruct (H Eg) as [H'|[(l' & H' & H2)|(H' & _)]]; [discriminate|injection H' as <-; contradiction|elim (H' _ eq_refl)].
        * exists None. split; [reflexivity|]. split; [reflexivity|]. split; [intros _ _; left; reflexivity|reflexivity].
      + destruct (getstring_cases body (B "nodes")) as [(nodes & E3 & E4)|(Hnn & m & E4)]; rewrite E4; cbn [bind].
        * destruct (C21_parse_node_info_total_pf nodes) as (ns & Ens & _). rewrite Ens. cbn [bind exec loop incr c_index nth_error Nat.sub c_world fst snd c_resp].
          exists None. split; [reflexivity|]. split; [reflexivity|]. split; [|reflexivity]. intros _ _. right. right. split; [intros v; discriminate|]. exists nodes. exact E3.
        * cbn [exec loop incr c_index nth_error Nat.sub c_world fst snd c_resp]. eexists (Some _). split; [reflexivity|]. split; [reflexivity|]. split; [discriminate|]. intros H. exfalso.
          destruct (H Eg) as [H'|[(l' & H' & _)|(_ & nodes & H')]]; [discriminate|discriminate|elim (Hnn _ H')].
    - exists None. split; [reflexivity|]. split; [reflexivity|]. split; [|reflexivity]. intros _ H. rewrite H, beq_refl in Eg. discriminate. }
  destruct Hrun as (o & R1 & R2 & R3).
  assert (Ebody : recv_body e (crawler_code e me) srv w (p_addr pk) (p_bytes pk) = (w, [], match o with None => Ok tt | Some p => Panic p end)).
  { unfold recv_body. rewrite Hd. unfold Exist. rewrite Hy. cbn [negb].
    assert (Ey : GetString d (B "y") = Ok (B "r")) by (unfold GetString, GetVal; rewrite Hy; reflexivity). rewrite Ey. change (beq (B "r") (B "q")) with false. change (beq (B "r") (B "r")) with true. cbn iota.
    unfold responseHandle. assert (Et : GetString d (B "t") = Ok tx) by (unfold GetString, GetVal; rewrite Ht; reflexivity).
    assert (Er : GetDict d (B "r") = Ok (Some body)) by (unfold GetDict, GetVal; rewrite Hr; reflexivity).
    assert (Ei : GetString body (B "id") = Ok id) by (unfold GetString, GetVal; rewrite Hid; reflexivity).
    rewrite Et, Er. cbn [bind dict_of]. rewrite Ei. cbn [bind]. rewrite Hreq. unfold doResponseHandle. rewrite Hh. cbn [crawler_code].
    destruct (run_chain _ _ w) as [w' r]. cbn [fst snd] in R1, R2. subst w' r. destruct o; reflexivity. }
  unfold recv, recvPacketHandle. rewrite Ebody. destruct o as [p|]; cbn [o_world o_sent o_result o_recovered]; (split; [reflexivity|]; split; [reflexivity|]; split; [reflexivity|]; exact R3).
Qed.

(** A world in which a get_peers query is open. *)
Definition ex_asked : cworld := {| w_app := w_app ex_crawler; w_reqs := fun t => if beq t (B "gp") then Some (WithGetPeersMsg (B "gp") ex_me (B "hhhhhhhhhhhhhhhhhhhh") (Some HGenericResp)) else None; w_sent := []; w_queries := [] |}.
Definition ex_server : server hid := match Run_server ex_env with Ok s => s | _ => NewRpcServer end.
(** C134: the theorem applies, with both outcomes. *)
Lemma C134_example_pf : Run_server ex_env = Ok ex_server /\
  (exists req, w_reqs ex_asked (B "gp") = Some req /\ rq_handler req = Some HGenericResp /\ rq_type req = B "get_peers") /\
  o_recovered (recv ex_env ex_me ex_server ex_asked (ex_pk 1 "d1:t2:gp1:y1:r1:rd2:id1:z6:valuesl6:1234566:abcdefeee")) = None /\
  o_recovered (recv ex_env ex_me ex_server ex_asked (ex_pk 1 "d1:t2:gp1:y1:r1:rd2:id1:z5:nodes3:abcee")) = None /\
  o_recovered (recv ex_env ex_me ex_server ex_asked (ex_pk 1 "d1:t2:gp1:y1:r1:rd2:id1:z6:valuesl6:1234563:abceee")) = Some PRuntime /\
  o_recovered (recv ex_env ex_me ex_server ex_asked (ex_pk 1 "d1:t2:gp1:y1:r1:rd2:id1:z6:values6:123456ee")) <> None.
Proof.
  split; [vm_compute; reflexivity|]. split; [eexists; split; [reflexivity|split; reflexivity]|]. split; [vm_compute; reflexivity|]. split; [vm_compute; reflexivity|]. split; [vm_compute; reflexivity|]. vm_compute. discriminate.
Qed.
