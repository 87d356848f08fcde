(** AmplifySpec.v -- vocabulary for C104. *)
From Verif Require Import Base GoLib Bencode BencodeSpec Types Node RouteTable Middleware Krpc KrpcSpec Dht DhtSpec Conc ConcSpec.
Local Open Scope list_scope.

Definition lacks (d : entries) (k : string) : Prop := forall v, ~ field d k v.

(** The arguments of a query; a nil dictionary has no entries. *)
Definition arguments (d a : entries) : Prop := field d "a" (VDict a) \/ (field d "a" VNilDict /\ a = []).
Definition with_sender (d a : entries) : Prop := arguments d a /\ exists id, field a "id" (VStr id) /\ length id = 20.

(** What is wrong with the message [d] of a query of type [q], for the first thing that is wrong. *)
Inductive bad_args (d : entries) (q : bytes) : string -> Prop :=
| ba_no_a : lacks d "a" -> bad_args d q "cannot find a's val"
| ba_a v : field d "a" v -> (forall a, ~ arguments d a) -> bad_args d q "a's val cannot match type of Dict"
| ba_no_id a : arguments d a -> lacks a "id" -> bad_args d q "cannot find id's val"
| ba_id a v : arguments d a -> field a "id" v -> (forall s, v <> VStr s) -> bad_args d q "id's val cannot match type of string"
| ba_no_hash a : with_sender d a -> q = B "get_peers" \/ q = B "announce_peer" -> lacks a "info_hash" -> bad_args d q "cannot find info_hash's val"
| ba_hash a v : with_sender d a -> q = B "get_peers" \/ q = B "announce_peer" -> field a "info_hash" v -> (forall s, v <> VStr s) ->
    bad_args d q "info_hash's val cannot match type of string"
| ba_no_port a ih : with_sender d a -> q = B "announce_peer" -> field a "info_hash" (VStr ih) -> lacks a "port" -> bad_args d q "cannot find port's val"
| ba_port a ih v : with_sender d a -> q = B "announce_peer" -> field a "info_hash" (VStr ih) -> field a "port" v -> (forall z, v <> VInt z) ->
    bad_args d q "port's val cannot match type of int".

(** The text of the error reply to a query [d] of type [q]; [uf] is the Unicode folding the type is compared
    with, [stack] says which texts are stack traces. *)
Inductive refusal (uf : N -> N -> bool) (stack : bytes -> Prop) (d : entries) (q : bytes) : bytes -> Prop :=
| rf_type : ~ supported uf q -> refusal uf stack d q (B "donnot support <" ++ q ++ B "> query type")
| rf_id a id : supported uf q -> arguments d a -> field a "id" (VStr id) -> length id <> 20 -> refusal uf stack d q (B "id format err")
| rf_handler a : supported uf q -> with_sender d a -> ~ In q [B "ping"; B "find_node"; B "get_peers"; B "announce_peer"] ->
    refusal uf stack d q (B "cannot handle not match handler")
| rf_args m t : supported uf q -> bad_args d q m -> stack t ->
    refusal uf stack d q (B "201: " ++ B m ++ [byte_of 13; byte_of 10] ++ B "stacks:" ++ [byte_of 13; byte_of 10] ++ t).

(** The message of a reply: the BEP-5 answer, or error 203 with a text. *)
Inductive reply_msg (uf : N -> N -> bool) (stack : bytes -> Prop) (me : bytes) (pk : packet) : entries -> Prop :=
| rm_answer tx q a body : proper_query (p_bytes pk) tx q a -> answer me tx a q body -> reply_msg uf stack me pk (ok_reply tx body)
| rm_error d tx q msg : packet_dict (p_bytes pk) d -> field d "y" (VStr (B "q")) -> field d "t" (VStr tx) -> field d "q" (VStr q) ->
    refusal uf stack d q msg -> reply_msg uf stack me pk (error_reply tx 203 msg).

(** The bytes sent by a handler. *)
Definition bytes_in (l : list datagram) : nat := list_sum (map (fun g => length (g_bytes g)) l).
