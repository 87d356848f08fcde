(** Sha1.v -- crypto/sha1.Sum, written from FIPS 180-4 (Go standard library, not repository
    code; called at dht/peerwire/peer.go:56,61 and dht/node.go:119).  Words are [N] below 2^32. *)
From Verif Require Import Base GoLib.
Local Open Scope list_scope.
Local Open Scope N_scope.

Definition m32 (x : N) : N := N.land x 4294967295.
Definition add32 (x y : N) : N := m32 (x + y).
Definition rol (k x : N) : N := N.lor (m32 (N.shiftl x k)) (N.shiftr x (32 - k)).
Definition not32 (x : N) : N := N.lxor x 4294967295.

(** FIPS 180-4, 4.1.1 and 4.2.1: round function and constant of round t. *)
Definition fK (t : nat) (b c d : N) : N * N :=
  if Nat.ltb t 20 then (N.lxor (N.land b c) (N.land (not32 b) d), 1518500249)
  else if Nat.ltb t 40 then (N.lxor (N.lxor b c) d, 1859775393)
  else if Nat.ltb t 60 then (N.lxor (N.lxor (N.land b c) (N.land b d)) (N.land c d), 2400959708)
  else (N.lxor (N.lxor b c) d, 3395469782).

(** 6.1.2 step 1: the message schedule, kept as a sliding window of 16 words (oldest first). *)
Definition next_word (w : list N) : N :=
  rol 1 (N.lxor (N.lxor (nth 13 w 0) (nth 8 w 0)) (N.lxor (nth 2 w 0) (nth 0 w 0))).

Definition hstate := (N * N * N * N * N)%type.

(** 6.1.2 step 3, [k] rounds starting with round [t]. *)
Fixpoint rounds (k t : nat) (w : list N) (s : hstate) : hstate :=
  match k with
  | O => s
  | S k' =>
      let '(a, b, c, d, e) := s in
      let (f, kt) := fK t b c d in
      let wt := nth 0 w 0 in
      let tmp := m32 (rol 5 a + f + e + kt + wt) in
      rounds k' (S t) (tl w ++ [next_word w]) (tmp, a, rol 30 b, c, d)
  end.

Definition block (s : hstate) (w : list N) : hstate :=
  let '(a, b, c, d, e) := s in
  let '(a', b', c', d', e') := rounds 80 0 w s in
  (add32 a a', add32 b b', add32 c c', add32 d d', add32 e e').

Fixpoint words (l : bytes) : list N :=
  match l with
  | a :: b :: c :: d :: t => get_u32 a b c d :: words t
  | _ => []
  end.

(** 5.1.1: padding to a multiple of 64 bytes, ending in the bit length. *)
Definition zeros (n : nat) : nat := ((119 - n mod 64) mod 64)%nat.
Definition pad (m : bytes) : bytes :=
  m ++ byte_of 128 :: repeat (byte_of 0) (zeros (length m)) ++
  (let bits := 8 * N.of_nat (length m) in put_u32 (bits / 4294967296) ++ put_u32 bits).

Fixpoint blocks (fuel : nat) (w : list N) (s : hstate) : hstate :=
  match fuel with
  | O => s
  | S f => match w with
           | [] => s
           | _ => blocks f (skipn 16 w) (block s (firstn 16 w))
           end
  end.

Definition sha1 (m : bytes) : bytes :=
  let w := words (pad m) in
  let '(a, b, c, d, e) := blocks (length w) w (1732584193, 4023233417, 2562383102, 271733878, 3285377520) in
  put_u32 a ++ put_u32 b ++ put_u32 c ++ put_u32 d ++ put_u32 e.

Lemma sha1_length m : length (sha1 m) = 20%nat.
Proof.
  unfold sha1. destruct (blocks _ _ _) as [[[[a b] c] d] e]. reflexivity.
Qed.

(** Published test vectors (tests, not proofs). *)
Example sha1_abc : hex (sha1 (B "abc")) = B "a9993e364706816aba3e25717850c26c9cd0d89d".
Proof. vm_compute. reflexivity. Qed.
Example sha1_empty : hex (sha1 (B "")) = B "da39a3ee5e6b4b0d3255bfef95601890afd80709".
Proof. vm_compute. reflexivity. Qed.
Example sha1_448 : hex (sha1 (B "abcdbcdecdefdefgefghfghighijhijkijkljklmklmnlmnomnopnopq")) = B "84983e441c3bd26ebaae4aa1f95129e5e54670f1".
Proof. vm_compute. reflexivity. Qed.
(** dht/node_test.go: generateNodeId("test1") hex. *)
Example sha1_test1 : hex (sha1 (B "test1")) = B "b444ac06613fc8d63795be9ad0beaf55011936ac".
Proof. vm_compute. reflexivity. Qed.
