(** WhomPf.v -- C124 for whole executions of the crawler. *)
From Verif Require Import Base GoLib Bencode BencodeSpec Types Node Krpc KrpcSpec Dht DhtSpec Conc ConcSpec FetchTorrent System SystemSpec NetAddr NetAddrSpec NetAddrPf DhtPf KrpcPf SystemPf  SystemPf.
Local Open Scope list_scope.

(** C124: over a whole execution - any configuration, datagrams, schedule, behaviour of peers and file system: whenever
    a download connects, some packet read from the socket was an announcement, and whatever the name service says the
    machines tried are one, with the IP address that packet came from. *)
Lemma C124_whole_run_pf : forall e uf me local hosts z d0 s u a, runtime_ok e uf -> sys_reach e me local hosts z d0 s ->
  (forall pk, In pk (y_read s) -> sock_addr (p_addr pk) /\ ~ no_machine (ip (p_addr pk))) ->
  In u (y_runs s) -> t_dial (u_f u) = Some a ->
  exists pk tx body, In pk (y_read s) /\ proper_query (p_bytes pk) tx "announce_peer" body /\
    forall nm l, dial_tries nm a = NOk l -> exists p, l = [{| ip := wide (ip (p_addr pk)); port := p; zone := zone (p_addr pk) |}] /\ (0 <= p <= 65535)%Z.
Proof.
  intros e uf me local hosts z d0 s u a Hrt Hr Hs Hu Hd. destruct (C97_dials_were_announced_pf _ _ _ _ _ _ _ _ _ _ Hrt Hr Hu Hd) as (pk & Hpk & Ht).
  destruct (Hs pk Hpk) as [Ha Hm]. assert (Hz : beq (wide (ip (p_addr pk))) v6zero = false) by (apply beq_neq; exact Hm).
  destruct Ht as [k b tx Hq _ _|p b tx Hq Hp _]; exists pk, tx, b; (split; [exact Hpk|]; split; [exact Hq|]); intros nm l Hl.
  - rewrite (proj1 (host_parts _ Ha)) in Hl. unfold dial_tries in Hl. rewrite addr_list in Hl by (first [exact Ha|discriminate]). rewrite lookup_small in Hl by apply Ha.
    unfold candidates in Hl. rewrite Hz in Hl. injection Hl as <-. eexists. split; [reflexivity|]. apply Ha.
  - destruct (is_v4_dec (ip (p_addr pk))) as [Hv|Hv]; [|rewrite (v6_dial nm _ p Ha Hv) in Hl; discriminate].
    rewrite (plain_dial nm _ p Ha Hv) in Hl. destruct (lookup_num (nm_service nm) (nm_service nm) p) as [_ [(p' & E & Hp')|E]]; rewrite E in Hl; [|discriminate].
    unfold candidates in Hl. rewrite Hz in Hl. injection Hl as <-. exists p'. split; [reflexivity|exact Hp'].
Qed.

(** C124: the hypotheses are met by the run of C97_example. *)
Lemma C124_whole_run_example_pf : exists s u, sys_reach (fun _ => ex_env) ex_me (mkaddr [] 6881) [ex_addr 1] ex_sizes (fun _ => None) s /\
  (forall pk, In pk (y_read s) -> sock_addr (p_addr pk) /\ ~ no_machine (ip (p_addr pk))) /\ In u (y_runs s) /\ t_dial (u_f u) = Some (B "10.0.0.7:6881") /\
  forall nm, dial_tries nm (B "10.0.0.7:6881") = NOk [mkaddr (wide (map byte_of [10; 0; 0; 7]%N)) 6881].
Proof.
  destruct C97_example_pf as (s & Hr & Ey & _ & _ & u & Hu & Hd). exists s, u. split; [exact Hr|]. split; [|split; [exact Hu|split; [exact Hd|]]].
  - intros pk. rewrite Ey. intros [<-|[]]. split.
    + constructor; [left; vm_compute; reflexivity|vm_compute; split; discriminate|left; vm_compute; reflexivity].
    + intros E. vm_compute in E. discriminate E.
  - intros nm. vm_compute. reflexivity.
Qed.
