(** P_Whom.v -- property theorems (generated by tools/gen_p.py from WhomPf.v).
    Each statement is repeated in full and closed by [exact]. *)
From Verif Require Import Base GoLib Bencode BencodeSpec Types Node Krpc KrpcSpec Dht DhtSpec Conc ConcSpec FetchTorrent System SystemSpec NetAddr NetAddrSpec NetAddrPf DhtPf KrpcPf SystemPf  SystemPf.
Local Open Scope list_scope.
From Verif Require Import WhomPf.

(** C124: over a whole execution - any configuration, datagrams, schedule, behaviour of peers and file system: whenever
    a download connects, some packet read from the socket was an announcement, and whatever the name service says the
    machines tried are one, with the IP address that packet came from. *)
Theorem C124_whole_run : forall e uf me local hosts z d0 s u a, runtime_ok e uf -> sys_reach e me local hosts z d0 s ->
  (forall pk, In pk (y_read s) -> sock_addr (p_addr pk) /\ ~ no_machine (ip (p_addr pk))) ->
  In u (y_runs s) -> t_dial (u_f u) = Some a ->
  exists pk tx body, In pk (y_read s) /\ proper_query (p_bytes pk) tx "announce_peer" body /\
    forall nm l, dial_tries nm a = NOk l -> exists p, l = [{| ip := wide (ip (p_addr pk)); port := p; zone := zone (p_addr pk) |}] /\ (0 <= p <= 65535)%Z.
Proof. exact C124_whole_run_pf. Qed.
Print Assumptions C124_whole_run.

(** C124: the hypotheses are met by the run of C97_example. *)
Theorem C124_whole_run_example : exists s u, sys_reach (fun _ => ex_env) ex_me (mkaddr [] 6881) [ex_addr 1] ex_sizes (fun _ => None) s /\
  (forall pk, In pk (y_read s) -> sock_addr (p_addr pk) /\ ~ no_machine (ip (p_addr pk))) /\ In u (y_runs s) /\ t_dial (u_f u) = Some (B "10.0.0.7:6881") /\
  forall nm, dial_tries nm (B "10.0.0.7:6881") = NOk [mkaddr (wide (map byte_of [10; 0; 0; 7]%N)) 6881].
Proof. exact C124_whole_run_example_pf. Qed.
Print Assumptions C124_whole_run_example.
