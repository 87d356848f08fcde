(** P_NetAddr.v -- property theorems (generated by tools/gen_p.py from NetAddrPf.v).
    Each statement is repeated in full and closed by [exact]. *)
From Verif Require Import Base GoLib Bencode BencodeSpec Types TypesPf Node NodePf ErrorsPf Middleware Krpc KrpcSpec Dht FetchTorrent FetchTorrentSpec FetchTorrentPf NetAddr NetAddrSpec NetAddrProofs.
Local Open Scope list_scope.
From Verif Require Import NetAddrPf.

(** C123: an address that a socket delivered, written as text, is read back as the same address, without asking any name
    service. *)
Theorem C123_read_back : forall nm a, sock_addr a -> ResolveUDPAddr nm NetUdp (addr_string a) = NOk (widened a).
Proof. exact C123_read_back_pf. Qed.
Print Assumptions C123_read_back.

(** C123: so the text names the address: two different addresses are never written alike, in the log or anywhere else. *)
Theorem C123_unambiguous : forall a b, sock_addr a -> sock_addr b -> addr_string a = addr_string b -> widened a = widened b.
Proof. exact C123_unambiguous_pf. Qed.
Print Assumptions C123_unambiguous.

(** C123: two nodes compare equal - the test by which the routing table recognises a node - exactly if their ids are
    equal up to case and their addresses are the same, for IPv4 and IPv6. *)
Theorem C123_same_node : forall uf m n, sock_addr (naddr m) -> sock_addr (naddr n) -> zone (naddr m) = [] -> zone (naddr n) = [] ->
  (Equals uf m n = true <-> EqualFold uf (nid m) (nid n) = true /\ wide (ip (naddr m)) = wide (ip (naddr n)) /\ port (naddr m) = port (naddr n)).
Proof. exact C123_same_node_pf. Qed.
Print Assumptions C123_same_node.

(** C123: with "udp4", as for the crawler's own node, an IPv4 address is read back, and an IPv6 address is refused,
    except :: which is taken for 0.0.0.0. *)
Theorem C123_udp4 : forall nm a, sock_addr a ->
  (is_v4 (ip a) -> resolveHost nm (addr_string a) = Some (widened a)) /\
  (~ is_v4 (ip a) -> ip a <> repeat (byte_of 0) 16 -> resolveHost nm (addr_string a) = None) /\
  (ip a = repeat (byte_of 0) 16 -> resolveHost nm (addr_string a) = Some (mkaddr (wide (repeat (byte_of 0) 4)) (port a))).
Proof. exact C123_udp4_pf. Qed.
Print Assumptions C123_udp4.

(** C123: the cases occur, with the text in between. *)
Theorem C123_example :
  (let a := mkaddr (map byte_of [10; 0; 0; 7]%N) 4711 in sock_addr a /\ is_v4 (ip a) /\ addr_string a = B "10.0.0.7:4711") /\
  (let a := {| ip := map byte_of [254; 128; 0; 0; 0; 0; 0; 0; 0; 0; 0; 0; 0; 0; 0; 10]%N; port := 65535; zone := B "eth0" |} in sock_addr a /\ ~ is_v4 (ip a) /\ addr_string a = B "[fe80::a%eth0]:65535") /\
  addr_string (mkaddr (repeat (byte_of 0) 16) 1) = B "[::]:1".
Proof. exact C123_example_pf. Qed.
Print Assumptions C123_example.

(** C124: whatever an announcement says, the only machine the crawler can contact for it is the one that sent it: the
    connection is attempted to the source address of the packet and to no other, with a valid port, or not at all
    (malformed port; IPv6 without implied_port); no name service decides it. *)
Theorem C124_only_the_announcer : forall nm (x : request hid * udpaddr) s, sock_addr (snd x) -> ~ no_machine (ip (snd x)) -> parseFetchAddr x = Ok s ->
  (exists p, dial_tries nm s = NOk [{| ip := wide (ip (snd x)); port := p; zone := zone (snd x) |}] /\ (0 <= p <= 65535)%Z) \/
  dial_tries nm s = NErr BadPort \/ (dial_tries nm s = NErr ManyColons /\ ~ is_v4 (ip (snd x))).
Proof. exact C124_only_the_announcer_pf. Qed.
Print Assumptions C124_only_the_announcer.

(** C124: ... at the port it asks for, if that is a port. *)
Theorem C124_port : forall nm (x : request hid * udpaddr) s tcp, let body := dict_of (rq_body (fst x)) in let a := snd x in
  sock_addr a -> ~ no_machine (ip a) -> parseFetchAddr x = Ok s -> field body "port" (VInt tcp) ->
  (forall k, field body "implied_port" (VInt k) -> (0 < k)%Z -> dial_tries nm s = NOk [widened a]) /\
  ((forall k, field body "implied_port" (VInt k) -> (k <= 0)%Z) -> is_v4 (ip a) ->
    ((0 <= tcp <= 65535)%Z -> dial_tries nm s = NOk [{| ip := wide (ip a); port := tcp; zone := zone a |}]) /\
    ((tcp < 0 \/ 65535 < tcp < 4294967300)%Z -> dial_tries nm s = NErr BadPort)).
Proof. exact C124_port_pf. Qed.
Print Assumptions C124_port.

(** C124: the text net.Dial splits is exactly what C65 calls an endpoint. *)
Theorem C124_endpoint : forall s h p, SplitHostPort s = NOk (h, p) <-> endpoint s h p.
Proof. exact C124_endpoint_pf. Qed.
Print Assumptions C124_endpoint.

Theorem C124_port_refuted : forall nm, exists x s, sock_addr (snd x) /\ field (dict_of (rq_body (fst x))) "port" (VInt 4294967300) /\ parseFetchAddr x = Ok s /\
  s = B "10.0.0.7:4294967300" /\ dial_tries nm s = NOk [mkaddr (wide (ip (snd x))) 4].
Proof. exact C124_port_refuted_pf. Qed.
Print Assumptions C124_port_refuted.

(** C124: announcements as they occur. *)
Theorem C124_example : forall nm,
  (sock_addr (snd (far_announce 6881)) /\ ~ no_machine (ip (snd (far_announce 6881))) /\ parseFetchAddr (far_announce 6881) = Ok (B "10.0.0.7:6881") /\
   dial_tries nm (B "10.0.0.7:6881") = NOk [mkaddr (wide (map byte_of [10; 0; 0; 7]%N)) 6881]) /\
  (parseFetchAddr (far_announce (-1)) = Ok (B "10.0.0.7:-1") /\ dial_tries nm (B "10.0.0.7:-1") = NErr BadPort) /\
  dial_tries nm (B "2001:db8::1:6881") = NErr ManyColons /\
  dial_tries nm (B "[2001:db8::1]:4711") = NOk [mkaddr (map byte_of [32; 1; 13; 184; 0; 0; 0; 0; 0; 0; 0; 0; 0; 0; 0; 1]%N) 4711].
Proof. exact C124_example_pf. Qed.
Print Assumptions C124_example.
