(** P_Generic.v -- property theorems (generated by tools/gen_p.py from GenericPf.v).
    Each statement is repeated in full and closed by [exact]. *)
From Verif Require Import Base GoLib Bencode BencodeSpec BencodeProofs Types TypesPf Node NodePf RouteTable Middleware Krpc KrpcSpec KrpcProofs KrpcPf Dht DhtSpec DhtProofs DhtPf.
Local Open Scope list_scope.
From Verif Require Import GenericPf.

(** C134: a response matching a ping, get_peers or announce_peer query (or one of any other type but find_node) changes nothing and sends
    nothing, whatever is in it and whatever the state; its handler gives up exactly if it is a get_peers response that cannot be read. *)
Theorem C134_other_responses : forall e e0 me srv w pk tx d body id req, Run_server e0 = Ok srv ->
  packet_dict (p_bytes pk) d -> field d "y" (VStr (B "r")) -> field d "t" (VStr tx) -> field d "r" (VDict body) -> field body "id" (VStr id) ->
  w_reqs w tx = Some req -> rq_handler req = Some HGenericResp -> rq_type req <> B "find_node" ->
  o_world (recv e me srv w pk) = w /\ o_sent (recv e me srv w pk) = [] /\ o_result (recv e me srv w pk) = Ok tt /\
  (o_recovered (recv e me srv w pk) = None <-> (rq_type req = B "get_peers" -> readable (e_slack e) body)).
Proof. exact C134_other_responses_pf. Qed.
Print Assumptions C134_other_responses.

(** C134: the theorem applies, with both outcomes. *)
Theorem C134_example : Run_server ex_env = Ok ex_server /\
  (exists req, w_reqs ex_asked (B "gp") = Some req /\ rq_handler req = Some HGenericResp /\ rq_type req = B "get_peers") /\
  o_recovered (recv ex_env ex_me ex_server ex_asked (ex_pk 1 "d1:t2:gp1:y1:r1:rd2:id1:z6:valuesl6:1234566:abcdefeee")) = None /\
  o_recovered (recv ex_env ex_me ex_server ex_asked (ex_pk 1 "d1:t2:gp1:y1:r1:rd2:id1:z5:nodes3:abcee")) = None /\
  o_recovered (recv ex_env ex_me ex_server ex_asked (ex_pk 1 "d1:t2:gp1:y1:r1:rd2:id1:z6:valuesl6:1234563:abceee")) = Some PRuntime /\
  o_recovered (recv ex_env ex_me ex_server ex_asked (ex_pk 1 "d1:t2:gp1:y1:r1:rd2:id1:z6:values6:123456ee")) <> None.
Proof. exact C134_example_pf. Qed.
Print Assumptions C134_example.
