(** Sha1Spec.v -- SHA-1 as FIPS 180-4 defines it, as a relation between messages and digests. *)
From Verif Require Import Base.
Local Open Scope list_scope.
Local Open Scope N_scope.

Definition be (l : bytes) : N := fold_left (fun n c => n * 256 + bval c) l 0.
(** 3.2: ROTL^n *)
Definition rotl (n x : N) : N := (x * 2 ^ n) mod 2 ^ 32 + x / 2 ^ (32 - n).
(** 4.1.1: Ch, Parity, Maj, bit by bit *)
Definition Ch (x y z : bool) : bool := if x then y else z.
Definition Parity (x y z : bool) : bool := xorb x (xorb y z).
Definition Maj (x y z : bool) : bool := if x then y || z else y && z.
Definition bitwise (f : bool -> bool -> bool -> bool) (x y z r : N) : Prop :=
  r < 2 ^ 32 /\ forall i, i < 32 -> N.testbit r i = f (N.testbit x i) (N.testbit y i) (N.testbit z i).
Definition f_t (t : nat) : bool -> bool -> bool -> bool :=
  if Nat.ltb t 20 then Ch else if Nat.ltb t 40 then Parity else if Nat.ltb t 60 then Maj else Parity.
(** 4.2.1 *)
Definition K_t (t : nat) : N :=
  if Nat.ltb t 20 then 0x5a827999 else if Nat.ltb t 40 then 0x6ed9eba1 else if Nat.ltb t 60 then 0x8f1bbcdc else 0xca62c1d6.
(** 5.1.1: bytes 0x80, zeros, and the length in bits as a 64-bit number fill up a multiple of 64 bytes, with as few zeros as possible *)
Definition padded (m p : bytes) : Prop := exists (k : nat) len, p = m ++ [byte_of 0x80] ++ repeat (byte_of 0) k ++ len /\
  length len = 8%nat /\ be len = 8 * N.of_nat (length m) /\ (k < 64)%nat /\ Nat.modulo (length p) 64 = 0%nat.
(** 5.3.1 *)
Definition H0 : N * N * N * N * N := (0x67452301, 0xefcdab89, 0x98badcfe, 0x10325476, 0xc3d2e1f0).
(** 6.1.2 *)
Definition round (t : nat) (w : N) (s s' : N * N * N * N * N) : Prop :=
  let '(a, b, c, d, e) := s in
  exists f, bitwise (f_t t) b c d f /\ s' = ((rotl 5 a + f + e + K_t t + w) mod 2 ^ 32, a, rotl 30 b, c, d).
Definition block_hash (h : N * N * N * N * N) (blk : bytes) (h' : N * N * N * N * N) : Prop :=
  exists (W : nat -> N) (s : nat -> N * N * N * N * N),
    (forall t, (t < 16)%nat -> W t = be (firstn 4 (skipn (4 * t) blk))) /\
    (forall t, (16 <= t < 80)%nat -> W t = rotl 1 (N.lxor (N.lxor (W (t - 3)%nat) (W (t - 8)%nat)) (N.lxor (W (t - 14)%nat) (W (t - 16)%nat)))) /\
    s O = h /\ (forall t, (t < 80)%nat -> round t (W t) (s t) (s (S t))) /\
    let '(a, b, c, d, e) := h in let '(a', b', c', d', e') := s 80%nat in
    h' = ((a + a') mod 2 ^ 32, (b + b') mod 2 ^ 32, (c + c') mod 2 ^ 32, (d + d') mod 2 ^ 32, (e + e') mod 2 ^ 32).
Inductive hashes : N * N * N * N * N -> bytes -> N * N * N * N * N -> Prop :=
| h_end h : hashes h [] h
| h_block h blk h1 rest h2 : length blk = 64%nat -> block_hash h blk h1 -> hashes h1 rest h2 -> hashes h (blk ++ rest) h2.
Definition fips_sha1 (m digest : bytes) : Prop := exists p h, padded m p /\ hashes H0 p h /\
  let '(a, b, c, d, e) := h in exists da db dc dd de, digest = da ++ db ++ dc ++ dd ++ de /\
    Forall2 (fun l n => length l = 4%nat /\ be l = n) [da; db; dc; dd; de] [a; b; c; d; e].
