(** P_Trunc.v -- property theorems (generated by tools/gen_p.py from TruncPf.v).
    Each statement is repeated in full and closed by [exact]. *)
From Verif Require Import Base GoLib Bencode BencodeSpec BencodeProofs BencodePf Types CodecSpec CodecPf Node RouteTable Middleware Krpc KrpcSpec Dht DhtSpec Udp System.
Local Open Scope list_scope.
From Verif Require Import TruncPf.

(** C100: if a query longer than the receive buffer is understood as a query, then it is understood as the
    query it is: same transaction id and method, the same node id, and arguments that are those sent
    or what remains of them after a cut. *)
Theorem C100_long_query : forall m d tx q a, bencoding (VDict m) (dg_bytes d) -> (1024 < length (dg_bytes d))%nat ->
  proper_query (p_bytes (cut d)) tx q a ->
  field m "y" (VStr (B "q")) /\ field m "t" (VStr tx) /\ field m "q" (VStr (B q)) /\
  exists a0 id, field m "a" (VDict a0) /\ (a0 = a \/ truncated (VDict a0) (VDict a)) /\ field a0 "id" (VStr id) /\ field a "id" (VStr id).
Proof. exact C100_long_query_pf. Qed.
Print Assumptions C100_long_query.

Theorem C100_long_query_example : exists bs a, bencoding (VDict long_query) bs /\ length bs = 1031 /\
  proper_query (p_bytes (cut {| dg_from := mkaddr [] 0; dg_bytes := bs |})) (B "aa") "ping" a.
Proof. exact C100_long_query_example_pf. Qed.
Print Assumptions C100_long_query_example.
