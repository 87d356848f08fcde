(** ResponsesPf.v -- proofs of C95: the responses and errors a server can give, on the wire. *)
From Verif Require Import Base GoLib Bencode BencodeSpec Types Node RouteTable Middleware Krpc KrpcSpec Dht DhtSpec.
From Verif Require Import BencodeProofs BencodePf TypesPf NodePf MiddlewarePf KrpcProofs KrpcPf DhtPf.
Local Open Scope list_scope.

(** The query [d] from [pk] is dispatched to handler [h], and the handlers leave [r] as the response. *)
Definition chain_writes {A H} (code : H -> request H -> udpaddr -> prog (world A H) response) (e : env) (s : server H) (w : world A H) (pk : packet)
    (tx q : bytes) (r : response) : Prop :=
  exists d a h, packet_dict (p_bytes pk) d /\ field d "y" (VStr (B "q")) /\ field d "t" (VStr tx) /\ field d "q" (VStr q) /\
    ~ bad_query (e_uf e) (s_router s) d q /\ s_router s q = Some h /\ field d "a" (VDict a) /\
    snd (run_chain (map (fun h => code h {| rq_tx := tx; rq_type := q; rq_body := Some a; rq_handler := None |} (p_addr pk)) (s_reqchain s ++ [h])) None w) = Ok (Some r).

Lemma chain_reply (A H : Type) e code (s : server H) (w : world A H) pk tx q r d : env_ok e ->
  chain_writes code e s w pk tx q r -> resp_RawData r = Ok d -> go_value (VDict d) -> plain (VDict d) ->
  exists b, o_sent (recvPacketHandle e code s w pk) = [{| g_bytes := b; g_to := p_addr pk |}] /\ carries b d.
Proof.
  intros He (dd & a & h & Hd & Hy & Ht & Hq & Hnb & Hh & Ha & Hr) Hraw Hg Hp. unfold recvPacketHandle.
  rewrite (recv_query e code s w (p_addr pk) (p_bytes pk) dd tx q Hd Hy Ht Hq).
  destruct (request_body_cases e code s w (p_addr pk) dd tx q) as [(Hb & _)|(_ & a' & id & h' & _ & Ha' & _ & _ & Er & ->)]; [contradiction|].
  unfold field in *. rewrite Ha in Ha'. injection Ha' as <-. rewrite Hh in Er. injection Er as <-.
  unfold doRequestHandle. destruct (run_chain _ None w) as [w' r']. cbn [snd] in Hr. subst r'. rewrite Hraw.
  destruct (encode_now_ok e He w' d Hg Hp) as (b & -> & Hc). exists b. split; [reflexivity|exact Hc].
Qed.

Lemma peers_go (addrs : list udpaddr) : Forall (fun v => exists s, v = VStr s) (joinPeerInfos addrs).
Proof. unfold joinPeerInfos. induction addrs; cbn [map]; constructor; eauto. Qed.

(** C95: if the handlers of a query leave one of the five DHT responses, the peer receives one
    datagram that decodes to exactly the BEP-5 response with these contents; the compact node
    and peer lists in it parse back to the nodes and peers given. *)
Lemma C95_responses_on_the_wire_pf : forall (A H : Type) e code (s : server H) (w : world A H) pk tx q me, env_ok e ->
  let sends r d := chain_writes code e s w pk tx q r ->
    exists b, o_sent (recvPacketHandle e code s w pk) = [{| g_bytes := b; g_to := p_addr pk |}] /\ carries b d in
  sends (WithPingResponse tx me) (ok_reply tx [(B "id", VStr me)]) /\
  sends (WithAnnouncePeerResponse tx me) (ok_reply tx [(B "id", VStr me)]) /\
  (forall ns, Forall compact_node ns -> exists nodes, length nodes = 26 * length ns /\ parseNodeInfo nodes = Ok ns /\
     sends (WithFindNodeResponse tx me ns) (ok_reply tx [(B "id", VStr me); (B "nodes", VStr nodes)])) /\
  (forall token ns, Forall compact_node ns -> exists nodes, length nodes = 26 * length ns /\ parseNodeInfo nodes = Ok ns /\
     sends (WithGetPeersNodesResponse tx me token ns) (ok_reply tx [(B "id", VStr me); (B "token", VStr token); (B "nodes", VStr nodes)])) /\
  (forall token addrs, Forall compact_addr addrs -> exists vs, length vs = length addrs /\ (forall slack, parsePeerInfo slack vs = Ok addrs) /\
     sends (WithGetPeersValsResponse tx me token addrs) (ok_reply tx [(B "id", VStr me); (B "token", VStr token); (B "values", VList vs)])).
Proof.
  intros A H e code s w pk tx q me He sends.
  assert (Hok : forall r body, resp_RawData r = Ok (ok_reply tx body) -> go_value (VDict body) -> plain (VDict body) -> sends r (ok_reply tx body)).
  { intros r body Hraw Hg Hp Hc. destruct (ok_reply_go tx body Hg Hp) as [G1 G2]. eapply chain_reply; eassumption. }
  assert (Hids : forall l, ids_ok l -> go_value (VDict l) /\ plain (VDict l)) by apply ids_go.
  assert (Hns : forall ns, Forall compact_node ns -> length (joinNodeInfos ns) = 26 * length ns /\ parseNodeInfo (joinNodeInfos ns) = Ok ns).
  { intros ns Hf. split; [|apply C20_node_info_roundtrip_pf; exact Hf]. apply (proj2 (C22_join_lengths_pf ns)).
    eapply Forall_impl; [|exact Hf]. intros n (H1 & H2 & _). split; [exact H1|]. rewrite To4_4; assumption. }
  split; [|split; [|split; [|split]]].
  - apply Hok; [reflexivity|apply Hids; idsok..].
  - apply Hok; [reflexivity|apply Hids; idsok..].
  - intros ns Hf. destruct (Hns ns Hf) as [H1 H2]. exists (joinNodeInfos ns). split; [exact H1|]. split; [exact H2|].
    apply Hok; [reflexivity|apply Hids; idsok..].
  - intros token ns Hf. destruct (Hns ns Hf) as [H1 H2]. exists (joinNodeInfos ns). split; [exact H1|]. split; [exact H2|].
    apply Hok; [reflexivity|apply Hids; idsok..].
  - intros token addrs Hf. exists (joinPeerInfos addrs). split; [unfold joinPeerInfos; apply map_length|].
    split; [intros slack; apply C23_peer_info_roundtrip_pf; exact Hf|].
    assert (Hv : forall v, In v (joinPeerInfos addrs) -> exists t, v = VStr t) by (apply Forall_forall, peers_go).
    apply Hok; [reflexivity| |].
    + constructor; [nodup|]. intros k v Hin. cbn in Hin.
      repeat (destruct Hin as [E|Hin]; [injection E as <- <-; try constructor|]); try contradiction.
      intros x Hx. destruct (Hv x Hx) as (t & ->). constructor.
    + constructor. intros k v Hin. cbn in Hin.
      repeat (destruct Hin as [E|Hin]; [injection E as <- <-; try constructor|]); try contradiction.
      intros x Hx. destruct (Hv x Hx) as (t & ->). constructor.
Qed.

(** C95: if they leave an error, the peer receives exactly that code and message; WithParamErr
    is code 203, and "invalid param" if the message is empty. *)
Lemma C95_errors_on_the_wire_pf : forall (A H : Type) e code (s : server H) (w : world A H) pk tx q, env_ok e ->
  let sends r d := chain_writes code e s w pk tx q r ->
    exists b, o_sent (recvPacketHandle e code s w pk) = [{| g_bytes := b; g_to := p_addr pk |}] /\ carries b d in
  (forall c msg, is_int c -> sends (WithErr tx c msg) (error_reply tx c msg)) /\
  (forall msg, msg <> [] -> sends (WithParamErr tx msg) (error_reply tx 203 msg)) /\
  sends (WithParamErr tx []) (error_reply tx 203 (B "invalid param")).
Proof.
  intros A H e code s w pk tx q He sends.
  assert (Hok : forall r c m, is_int c -> resp_RawData r = Ok (error_reply tx c m) -> sends r (error_reply tx c m)).
  { intros r c m Hc Hraw Hcw. destruct (error_reply_go tx c m Hc) as [G1 G2]. eapply chain_reply; eassumption. }
  assert (H203 : is_int 203) by (unfold is_int, min_int, max_int; lia).
  split; [|split].
  - intros c m Hc. apply Hok; [exact Hc|reflexivity].
  - intros m Hm. apply Hok; [exact H203|]. destruct m; [congruence|reflexivity].
  - apply Hok; [exact H203|reflexivity].
Qed.

(** A server whose find_node handler answers with two nodes. *)
Definition two_nodes : list ninfo := map (fun i => {| nid := i; naddr := mkaddr (B "1db6") 6881 |}) [B "aaaaaaaaaaaaaaaaaaaa"; B "bbbbbbbbbbbbbbbbbbbb"].
Definition two_code : nat -> request nat -> udpaddr -> prog (world nat nat) response :=
  fun _ r _ => PWrite (Some (WithFindNodeResponse (rq_tx r) (B "mmmmmmmmmmmmmmmmmmmm") two_nodes)) PRet.
Definition two_server : server nat := {| s_router := fun q => if beq q (B "find_node") then Some 1 else None; s_reqchain := []; s_respchain := [] |}.
Definition two_pk : packet := ex_pk 2 "d1:t2:bb1:y1:q1:q9:find_node1:ad2:id20:aaaaaaaaaaaaaaaaaaaaee".
Lemma C95_example_pf : let w := {| w_app := 0; w_reqs := fun _ => None; w_sent := []; w_queries := [] |} in
  Forall compact_node two_nodes /\ chain_writes two_code ex_env two_server w two_pk (B "bb") (B "find_node") (WithFindNodeResponse (B "bb") (B "mmmmmmmmmmmmmmmmmmmm") two_nodes) /\
  map g_bytes (o_sent (recvPacketHandle ex_env two_code two_server w two_pk)) =
    [B "d1:t2:bb1:y1:r1:rd2:id20:mmmmmmmmmmmmmmmmmmmm5:nodes52:aaaaaaaaaaaaaaaaaaaa1db6" ++ [byte_of 26; byte_of 225] ++ B "bbbbbbbbbbbbbbbbbbbb1db6" ++ [byte_of 26; byte_of 225] ++ B "ee"].
Proof.
  cbv zeta. split; [|split].
  - repeat constructor; cbn; try lia.
  - eexists _, _, 1. split; [eexists; vm_compute; reflexivity|]. split; [reflexivity|]. split; [reflexivity|]. split; [reflexivity|].
    split; [|split; [reflexivity|split; [reflexivity|reflexivity]]].
    intros [Hn|[Hn|[Hn|Hn]]].
    + apply Hn. exists (B "find_node"). split; [cbn; tauto|]. vm_compute. reflexivity.
    + apply Hn. eexists. reflexivity.
    + destruct Hn as (a & Ha & Hn). injection Ha as <-. apply Hn. eexists. split; reflexivity.
    + discriminate.
  - vm_compute. reflexivity.
Qed.
