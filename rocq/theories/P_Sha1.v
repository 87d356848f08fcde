(** P_Sha1.v -- property theorems (generated by tools/gen_p.py from Sha1Pf.v).
    Each statement is repeated in full and closed by [exact]. *)
From Verif Require Import Base GoLib Sha1 Sha1Spec Sha1Proofs Node PeerWire Fetch FetchSpec FetchPf.
Local Open Scope list_scope.
From Verif Require Import Sha1Pf.

(** C120: for every message FIPS 180-4 defines a digest for (shorter than 2^64 bits), it defines exactly one: [sha1]. *)
Theorem C120_is_sha1 : forall m digest, (8 * N.of_nat (length m) < 2 ^ 64)%N -> (fips_sha1 m digest <-> digest = sha1 m).
Proof. exact C120_is_sha1_pf. Qed.
Print Assumptions C120_is_sha1.

(** C120: what FetchMetaData returns has the requested hash, by the standard's definition. *)
Theorem C120_metadata : forall e p h peer peerId infoHash s d, FetchMetaData e p h peer peerId infoHash = (s, FOk d) ->
  (8 * N.of_nat (length d) < 2 ^ 64)%N -> fips_sha1 d infoHash.
Proof. exact C120_metadata_pf. Qed.
Print Assumptions C120_metadata.

(** C120: GeneratePeerId and GenerateInfoHash give SHA-1 digests, 20 bytes. *)
Theorem C120_ids : forall m, (8 * N.of_nat (length m) < 2 ^ 64)%N ->
  fips_sha1 m (GeneratePeerId m) /\ fips_sha1 m (GenerateInfoHash m) /\ length (GeneratePeerId m) = 20 /\ length (GenerateInfoHash m) = 20.
Proof. exact C120_ids_pf. Qed.
Print Assumptions C120_ids.

(** C120: an example: a message of two blocks, from the standard's test vectors. *)
Theorem C120_example : exists d, fips_sha1 (B "abcdefghbcdefghicdefghijdefghijkefghijklfghijklmghijklmnhijklmnoijklmnopjklmnopqklmnopqrlmnopqrsmnopqrstnopqrstu") d /\
  hex d = B "a49b2446a02c645bf419f995b67091253a04a259".
Proof. exact C120_example_pf. Qed.
Print Assumptions C120_example.
