(** Sha1Pf.v -- C120: the hash is SHA-1. *)
From Verif Require Import Base GoLib Sha1 Sha1Spec Sha1Proofs Node PeerWire Fetch FetchSpec FetchPf.
Local Open Scope list_scope.

(** C120: for every message FIPS 180-4 defines a digest for (shorter than 2^64 bits), it defines exactly one: [sha1]. *)
Lemma C120_is_sha1_pf : forall m digest, (8 * N.of_nat (length m) < 2 ^ 64)%N -> (fips_sha1 m digest <-> digest = sha1 m).
Proof.
  intros m d H. split; [|intros ->; apply sha1_fips, H]. intros F. apply (fips_unique m); [exact F|apply sha1_fips, H].
Qed.

(** C120: what FetchMetaData returns has the requested hash, by the standard's definition. *)
Lemma C120_metadata_pf : forall e p h peer peerId infoHash s d, FetchMetaData e p h peer peerId infoHash = (s, FOk d) ->
  (8 * N.of_nat (length d) < 2 ^ 64)%N -> fips_sha1 d infoHash.
Proof. intros e p h peer peerId infoHash s d E L. apply C120_is_sha1_pf; [exact L|]. symmetry. eapply C56_authentic_pf. exact E. Qed.

(** C120: GeneratePeerId and GenerateInfoHash give SHA-1 digests, 20 bytes. *)
Lemma C120_ids_pf : forall m, (8 * N.of_nat (length m) < 2 ^ 64)%N ->
  fips_sha1 m (GeneratePeerId m) /\ fips_sha1 m (GenerateInfoHash m) /\ length (GeneratePeerId m) = 20 /\ length (GenerateInfoHash m) = 20.
Proof. intros m H. split; [apply sha1_fips, H|]. split; [apply sha1_fips, H|]. split; apply sha1_length. Qed.

(** C120: an example: a message of two blocks, from the standard's test vectors. *)
Lemma C120_example_pf : exists d, fips_sha1 (B "abcdefghbcdefghicdefghijdefghijkefghijklfghijklmghijklmnhijklmnoijklmnopjklmnopqklmnopqrlmnopqrsmnopqrstnopqrstu") d /\
  hex d = B "a49b2446a02c645bf419f995b67091253a04a259".
Proof. eexists. split; [apply C120_is_sha1_pf; [vm_compute; reflexivity|reflexivity]|]. vm_compute. reflexivity. Qed.
