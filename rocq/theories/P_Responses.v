(** P_Responses.v -- property theorems (generated by tools/gen_p.py from ResponsesPf.v).
    Each statement is repeated in full and closed by [exact]. *)
From Verif Require Import Base GoLib Bencode BencodeSpec Types Node RouteTable Middleware Krpc KrpcSpec Dht DhtSpec.
From Verif Require Import BencodeProofs BencodePf TypesPf NodePf MiddlewarePf KrpcProofs KrpcPf DhtPf.
Local Open Scope list_scope.
From Verif Require Import ResponsesPf.

(** C95: if the handlers of a query leave one of the five DHT responses, the peer receives one
    datagram that decodes to exactly the BEP-5 response with these contents; the compact node
    and peer lists in it parse back to the nodes and peers given. *)
Theorem C95_responses_on_the_wire : forall (A H : Type) e code (s : server H) (w : world A H) pk tx q me, env_ok e ->
  let sends r d := chain_writes code e s w pk tx q r ->
    exists b, o_sent (recvPacketHandle e code s w pk) = [{| g_bytes := b; g_to := p_addr pk |}] /\ carries b d in
  sends (WithPingResponse tx me) (ok_reply tx [(B "id", VStr me)]) /\
  sends (WithAnnouncePeerResponse tx me) (ok_reply tx [(B "id", VStr me)]) /\
  (forall ns, Forall compact_node ns -> exists nodes, length nodes = 26 * length ns /\ parseNodeInfo nodes = Ok ns /\
     sends (WithFindNodeResponse tx me ns) (ok_reply tx [(B "id", VStr me); (B "nodes", VStr nodes)])) /\
  (forall token ns, Forall compact_node ns -> exists nodes, length nodes = 26 * length ns /\ parseNodeInfo nodes = Ok ns /\
     sends (WithGetPeersNodesResponse tx me token ns) (ok_reply tx [(B "id", VStr me); (B "token", VStr token); (B "nodes", VStr nodes)])) /\
  (forall token addrs, Forall compact_addr addrs -> exists vs, length vs = length addrs /\ (forall slack, parsePeerInfo slack vs = Ok addrs) /\
     sends (WithGetPeersValsResponse tx me token addrs) (ok_reply tx [(B "id", VStr me); (B "token", VStr token); (B "values", VList vs)])).
Proof. exact C95_responses_on_the_wire_pf. Qed.
Print Assumptions C95_responses_on_the_wire.

(** C95: if they leave an error, the peer receives exactly that code and message; WithParamErr
    is code 203, and "invalid param" if the message is empty. *)
Theorem C95_errors_on_the_wire : forall (A H : Type) e code (s : server H) (w : world A H) pk tx q, env_ok e ->
  let sends r d := chain_writes code e s w pk tx q r ->
    exists b, o_sent (recvPacketHandle e code s w pk) = [{| g_bytes := b; g_to := p_addr pk |}] /\ carries b d in
  (forall c msg, is_int c -> sends (WithErr tx c msg) (error_reply tx c msg)) /\
  (forall msg, msg <> [] -> sends (WithParamErr tx msg) (error_reply tx 203 msg)) /\
  sends (WithParamErr tx []) (error_reply tx 203 (B "invalid param")).
Proof. exact C95_errors_on_the_wire_pf. Qed.
Print Assumptions C95_errors_on_the_wire.

Theorem C95_example : let w := {| w_app := 0; w_reqs := fun _ => None; w_sent := []; w_queries := [] |} in
  Forall compact_node two_nodes /\ chain_writes two_code ex_env two_server w two_pk (B "bb") (B "find_node") (WithFindNodeResponse (B "bb") (B "mmmmmmmmmmmmmmmmmmmm") two_nodes) /\
  map g_bytes (o_sent (recvPacketHandle ex_env two_code two_server w two_pk)) =
    [B "d1:t2:bb1:y1:r1:rd2:id20:mmmmmmmmmmmmmmmmmmmm5:nodes52:aaaaaaaaaaaaaaaaaaaa1db6" ++ [byte_of 26; byte_of 225] ++ B "bbbbbbbbbbbbbbbbbbbb1db6" ++ [byte_of 26; byte_of 225] ++ B "ee"].
Proof. exact C95_example_pf. Qed.
Print Assumptions C95_example.
