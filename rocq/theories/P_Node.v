(** P_Node.v -- property theorems (generated by tools/gen_p.py from NodePf.v).
    Each statement is repeated in full and closed by [exact]. *)
From Verif Require Import Base GoLib Bencode Types Node.
Local Open Scope list_scope.
From Verif Require Import NodePf.

(** C18: solvePrefixLen is the length of the longest common prefix of the bit strings; it
    is symmetric and satisfies the ultrametric inequality. *)
Theorem C18_prefix_length : forall a b c,
  solvePrefixLen a b = lcp (bits_of a) (bits_of b) /\
  solvePrefixLen a b = solvePrefixLen b a /\
  Nat.min (solvePrefixLen a b) (solvePrefixLen b c) <= solvePrefixLen a c /\
  solvePrefixLen a a = 8 * length a.
Proof. exact C18_prefix_length_pf. Qed.
Print Assumptions C18_prefix_length.

(** C18: what "longest common prefix" means: the first n bits agree and the next ones differ. *)
Theorem C18_prefix_characterised : forall a b, length a = length b ->
  let n := solvePrefixLen a b in
  firstn n (bits_of a) = firstn n (bits_of b) /\
  (n < 8 * length a -> nth_error (bits_of a) n <> nth_error (bits_of b) n) /\ n <= 8 * length a.
Proof. exact C18_prefix_characterised_pf. Qed.
Print Assumptions C18_prefix_characterised.

Theorem C18_example : solvePrefixLen (B "abc") (B "abb") = 23 /\ solvePrefixLen [] (B "x") = 0 /\ solvePrefixLen (B "ab") (B "abc") = 16.
Proof. exact C18_example_pf. Qed.
Print Assumptions C18_example.

(** C19: in every interleaving, the transaction ids handed out so far (in the order in
    which the calls held the lock) are those of init+1, init+2, ... modulo 65536. *)
Theorem C19_txids_sequential : forall init s, (init < 65536)%N -> tx_reach init s ->
  tx_out s = map (fun i => txid_string ((init + N.of_nat i) mod 65536)) (seq 1 (length (tx_out s))).
Proof. exact C19_txids_sequential_pf. Qed.
Print Assumptions C19_txids_sequential.

(** C19: ids fewer than 65536 calls apart differ; ids 65536 calls apart are equal; every
    id is four lower-case hexadecimal digits. *)
Theorem C19_txids_distinct : forall init s i j x y, (init < 65536)%N -> tx_reach init s ->
  nth_error (tx_out s) i = Some x -> nth_error (tx_out s) j = Some y -> i < j ->
  length x = 4 /\ Forall (fun c => is_hexdigit c = true) x /\
  ((N.of_nat j - N.of_nat i < 65536)%N -> x <> y) /\ ((N.of_nat j - N.of_nat i = 65536)%N -> x = y).
Proof. exact C19_txids_distinct_pf. Qed.
Print Assumptions C19_txids_distinct.

(** C19 non-vacuity: two overlapping calls. *)
Theorem C19_example : exists s, tx_reach 100 s /\ tx_out s = [B "0065"; B "0066"].
Proof. exact C19_example_pf. Qed.
Print Assumptions C19_example.

(** C20: joining nodes with 20-byte ids, IPv4 addresses and 16-bit ports and parsing the
    result gives back the same nodes. *)
Theorem C20_node_info_roundtrip : forall ns, Forall compact_node ns -> parseNodeInfo (joinNodeInfos ns) = Ok ns.
Proof. exact C20_node_info_roundtrip_pf. Qed.
Print Assumptions C20_node_info_roundtrip.

Theorem C20_example : Forall compact_node
  [{| nid := repeat (byte_of 250) 20; naddr := mkaddr (v4 10 0 0 1) 65535 |};
   {| nid := repeat (byte_of 0) 20; naddr := mkaddr (v4 255 1 2 3) 0 |}].
Proof. exact C20_example_pf. Qed.
Print Assumptions C20_example.

(** C21: parsing is total: it yields exactly len/26 nodes, each representable, and joining
    them again gives the input without its last len mod 26 bytes. *)
Theorem C21_parse_node_info_total : forall s, exists ns, parseNodeInfo s = Ok ns /\
  length ns = length s / 26 /\ Forall compact_node ns /\ joinNodeInfos ns = firstn (26 * (length s / 26)) s.
Proof. exact C21_parse_node_info_total_pf. Qed.
Print Assumptions C21_parse_node_info_total.

(** C22, what joinNodeInfos really produces per node. *)
Theorem C22_join_lengths : forall ns,
  length (joinNodeInfos ns) = list_sum (map (fun v => length (nid v) + length (To4 (ip (naddr v))) + 2) ns) /\
  (Forall (fun v => length (nid v) = 20 /\ length (To4 (ip (naddr v))) = 4) ns -> length (joinNodeInfos ns) = 26 * length ns).
Proof. exact C22_join_lengths_pf. Qed.
Print Assumptions C22_join_lengths.

(** C22 refuted: an IPv6 node takes 22 bytes, a short id misaligns everything after it,
    and two different ports give the same encoding. *)
Theorem C22_aligned_refuted :
  (exists v, length (nid v) = 20 /\ length (ip (naddr v)) = 16 /\ length (joinNodeInfos [v]) = 22) /\
  (exists v w, length (nid v) = 19 /\ compact_node w /\ parseNodeInfo (joinNodeInfos [v; w]) <> Ok [v; w]) /\
  (exists v w, port (naddr v) <> port (naddr w) /\ nid v = nid w /\ ip (naddr v) = ip (naddr w) /\ joinNodeInfos [v] = joinNodeInfos [w]).
Proof. exact C22_aligned_refuted_pf. Qed.
Print Assumptions C22_aligned_refuted.

(** C23: for every capacity the runtime may give to []byte(val), IPv4 addresses with 16-bit
    ports survive joinPeerInfos followed by parsePeerInfo. *)
Theorem C23_peer_info_roundtrip : forall slack l, Forall compact_addr l -> parsePeerInfo slack (joinPeerInfos l) = Ok l.
Proof. exact C23_peer_info_roundtrip_pf. Qed.
Print Assumptions C23_peer_info_roundtrip.

(** C23: every entry of at least 6 bytes yields the address of its first 6 bytes, whatever
    follows; shorter entries panic or are padded with zeros; a non-string entry panics
    with a *misc.Error. *)
Theorem C23_parse_peer_info : forall slack t,
  (forall x0 x1 x2 x3 p1 p2 more, parsePeerInfo slack (VStr ([x0; x1; x2; x3; p1; p2] ++ more) :: t) =
     do r <- parsePeerInfo slack t; Ok (mkaddr [x0; x1; x2; x3] (Z.of_N (bval p1 * 256 + bval p2)) :: r)) /\
  (forall s, length s < 6 -> parsePeerInfo slack (VStr s :: t) = Panic PRuntime \/
     parsePeerInfo slack (VStr s :: t) = parsePeerInfo slack (VStr (s ++ repeat (byte_of 0) 6) :: t)) /\
  (forall v, (forall s, v <> VStr s) -> exists msg, parsePeerInfo slack (v :: t) = Panic (PBiz 201 msg)).
Proof. exact C23_parse_peer_info_pf. Qed.
Print Assumptions C23_parse_peer_info.

Theorem C23_example : parsePeerInfo (fun n => 8) [VStr (B "1db6c0")] = Ok [mkaddr (B "1db6") (99 * 256 + 48)] /\
  compact_addr (mkaddr (B "1db6") (99 * 256 + 48)) /\ parsePeerInfo (fun n => n) [VStr (B "1db")] = Panic PRuntime.
Proof. exact C23_example_pf. Qed.
Print Assumptions C23_example.

(** C21: 58 bytes are two nodes and six ignored bytes. *)
Theorem C21_example : parseNodeInfo (B "aaaaaaaaaaaaaaaaaaaa123456bbbbbbbbbbbbbbbbbbbb7890ABsurplus") =
  Ok [{| nid := B "aaaaaaaaaaaaaaaaaaaa"; naddr := mkaddr (B "1234") 13622 |}; {| nid := B "bbbbbbbbbbbbbbbbbbbb"; naddr := mkaddr (B "7890") 16706 |}].
Proof. exact C21_example_pf. Qed.
Print Assumptions C21_example.

(** C22: two nodes, one of them with a 16-byte (mapped) address. *)
Theorem C22_example :
  let ns := [{| nid := repeat (byte_of 250) 20; naddr := mkaddr (v4 10 0 0 1) 65535 |}; {| nid := repeat (byte_of 0) 20; naddr := mkaddr (v4prefix ++ v4 255 1 2 3) 1 |}] in
  Forall (fun v => length (nid v) = 20 /\ length (To4 (ip (naddr v))) = 4) ns /\ length (joinNodeInfos ns) = 52.
Proof. exact C22_example_pf. Qed.
Print Assumptions C22_example.
