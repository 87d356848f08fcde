(** P_Amplify.v -- property theorems (generated by tools/gen_p.py from AmplifyPf.v).
    Each statement is repeated in full and closed by [exact]. *)
From Verif Require Import Base GoLib Bencode BencodeSpec BencodeProofs BencodePf Types TypesPf Node NodePf RouteTable RouteTablePf Middleware Krpc KrpcSpec KrpcProofs KrpcPf Dht DhtSpec DhtProofs DhtPf
  Conc ConcSpec ConcProofs ConcPf CodecSpec CodecPf SizeProofs AmplifySpec.
Local Open Scope list_scope.
From Verif Require Import AmplifyPf.

(** C104: every reply carries the BEP-5 answer to the packet, or error 203 with the text of the reason. *)
Theorem C104_reply_content : forall e uf me local hosts cap s i pk g, runtime_ok e uf -> conc_reach e me local hosts cap s ->
  In (i, EvStart pk) (k_log s) -> In (i, EvReply g) (k_log s) -> exists d, carries (g_bytes g) d /\ reply_msg uf (traces e) me pk d.
Proof. exact C104_reply_content_pf. Qed.
Print Assumptions C104_reply_content.

(** C104: the size of replies.  For packets of less than 10000 bytes (the receive buffer holds 1024) the answer to a
    get_peers query is at most twice as long as the query, every other answer at most 2 bytes longer than the
    query, and an error reply at most 100 bytes longer than the query and a stack trace together. *)
Theorem C104_reply_size : forall e uf me local hosts cap s i pk g L, runtime_ok e uf -> conc_reach e me local hosts cap s -> length me = 20 ->
  (forall k, length (e_stack (e k)) <= L) -> (Z.of_nat L + 100 <= max_int)%Z ->
  In (i, EvStart pk) (k_log s) -> In (i, EvReply g) (k_log s) -> (Z.of_nat (length (p_bytes pk)) < 10000)%Z ->
  (exists tx q a body, proper_query (p_bytes pk) tx q a /\ carries (g_bytes g) (ok_reply tx body) /\
     length (g_bytes g) <= 2 * length (p_bytes pk) /\ (q <> "get_peers"%string -> length (g_bytes g) <= length (p_bytes pk) + 2)) \/
  (exists tx msg, carries (g_bytes g) (error_reply tx 203 msg) /\ length (g_bytes g) <= length (p_bytes pk) + 100 + L).
Proof. exact C104_reply_size_pf. Qed.
Print Assumptions C104_reply_size.

(** C104: every query the crawler sends, bootstrap queries included, is a datagram of 94 bytes. *)
Theorem C104_query_size : forall e uf me local hosts cap s, runtime_ok e uf -> conc_reach e me local hosts cap s -> length me = 20 ->
  (forall i g, In (i, EvQuery g) (k_log s) -> length (g_bytes g) = 94) /\
  exists gs, w_sent (k_world s) = gs ++ sent_in (map snd (k_log s)) /\ length gs = length hosts /\ forall g, In g gs -> length (g_bytes g) = 94.
Proof. exact C104_query_size_pf. Qed.
Print Assumptions C104_query_size.

(** C104: in all, the handler of a packet of less than 10000 bytes sends at most four times as many bytes as it got, plus 100, plus a
    stack trace. *)
Theorem C104_total_bytes : forall e uf me local hosts cap s i pk L, runtime_ok e uf -> conc_reach e me local hosts cap s -> length me = 20 ->
  (forall k, length (e_stack (e k)) <= L) -> (Z.of_nat L + 100 <= max_int)%Z ->
  In (i, EvStart pk) (k_log s) -> (Z.of_nat (length (p_bytes pk)) < 10000)%Z ->
  bytes_in (sent_in (evs i (k_log s))) <= 4 * length (p_bytes pk) + 100 + L /\
  ((forall tx q, ~ asks pk tx q) -> bytes_in (sent_in (evs i (k_log s))) <= 4 * length (p_bytes pk)).
Proof. exact C104_total_bytes_pf. Qed.
Print Assumptions C104_total_bytes.

(** C104 refuted for "replies disclose nothing of the crawler's internals": whatever the state, a 24-byte datagram without
    arguments is answered with the text of the goroutine's stack trace. *)
Theorem C104_discloses_stack_refuted : forall e uf me local hosts cap s addr, runtime_ok e uf -> conc_reach e me local hosts cap s ->
  exists pk s' i g k, p_addr pk = addr /\ length (p_bytes pk) = 24 /\ conc_steps e me cap s s' /\ In (i, EvStart pk) (k_log s') /\ In (i, EvReply g) (k_log s') /\
    g_to g = addr /\ carries (g_bytes g) (error_reply (B "aa") 203 (B "201: cannot find a's val" ++ [byte_of 13; byte_of 10] ++ B "stacks:" ++ [byte_of 13; byte_of 10] ++ e_stack (e k))).
Proof. exact C104_discloses_stack_refuted_pf. Qed.
Print Assumptions C104_discloses_stack_refuted.

Theorem C104_reply_exceeds_buffer_refuted : forall e uf me local hosts cap s, runtime_ok e uf -> conc_reach e me local hosts cap s -> length me = 20 ->
  exists pk s' i g, length (p_bytes pk) = 676 /\ conc_steps e me cap s s' /\ In (i, EvStart pk) (k_log s') /\ In (i, EvReply g) (k_log s') /\ length (g_bytes g) = 1267.
Proof. exact C104_reply_exceeds_buffer_refuted_pf. Qed.
Print Assumptions C104_reply_exceeds_buffer_refuted.

(** Non-vacuity: an announcement of 90 bytes is answered with 47, a node list of 91 bytes leads to 188. *)
Theorem C104_example : exists s, runtime_ok (fun _ => ex_env) (fun _ _ => false) /\ conc_reach (fun _ => ex_env) ex_me (mkaddr [] 6881) [ex_addr 1] 1 s /\ length ex_me = 20 /\
  In (0, EvStart ex_ann) (k_log s) /\ bytes_in (replies_in (evs 0 (k_log s))) = 47 /\ length (p_bytes ex_ann) = 90 /\
  In (1, EvStart ex_list) (k_log s) /\ bytes_in (sent_in (evs 1 (k_log s))) = 188 /\ length (p_bytes ex_list) = 91.
Proof. exact C104_example_pf. Qed.
Print Assumptions C104_example.
