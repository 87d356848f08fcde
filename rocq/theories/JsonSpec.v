(** JsonSpec.v -- what C118 is about, apart from the model: JSON texts (RFC 8259) and the values they stand for. *)
From Verif Require Import Base GoLib Bencode BencodeSpec Types ZapLogSpec.
Local Open Scope list_scope.

(** The UTF-8 encoding of a code point below 65536. *)
Definition utf8_of (n : N) : bytes :=
  if (n <? 128)%N then [byte_of n]
  else if (n <? 2048)%N then [byte_of (192 + n / 64); byte_of (128 + n mod 64)]
  else [byte_of (224 + n / 4096); byte_of (128 + n / 64 mod 64); byte_of (128 + n mod 64)].
Definition hex_digit (c : byte) (n : N) : Prop :=
  (n < 10 /\ bval c = 48 + n \/ 10 <= n < 16 /\ (bval c = 87 + n \/ bval c = 55 + n))%N.
Definition escapes : list (byte * byte) :=
  [(byte_of 34, byte_of 34); (byte_of 92, byte_of 92); (byte_of 47, byte_of 47); ("b"%char, byte_of 8);
   ("f"%char, byte_of 12); ("n"%char, byte_of 10); ("r"%char, byte_of 13); ("t"%char, byte_of 9)].

(** The inside of a JSON string and the bytes it stands for. *)
Inductive jstring : bytes -> bytes -> Prop :=
| js_nil : jstring [] []
| js_plain c t s : (32 <= bval c)%N -> bval c <> 34%N -> bval c <> 92%N -> jstring t s -> jstring (c :: t) (c :: s)
| js_escape c x t s : In (c, x) escapes -> jstring t s -> jstring (byte_of 92 :: c :: t) (x :: s)
| js_unicode a b c d na nb nc nd t s : hex_digit a na -> hex_digit b nb -> hex_digit c nc -> hex_digit d nd ->
    let n := (na * 4096 + nb * 256 + nc * 16 + nd)%N in (n < 55296 \/ 57344 <= n)%N -> jstring t s ->
    jstring (byte_of 92 :: "u"%char :: a :: b :: c :: d :: t) (utf8_of n ++ s).

Fixpoint commas (l : list bytes) : bytes :=
  match l with [] => [] | [x] => x | x :: t => x ++ B "," ++ commas t end.

(** A JSON text and the value it stands for; the entries of an object may be written in any order. *)
Inductive jtext : bytes -> val -> Prop :=
| jt_int t z : decimal t z -> jtext t (VInt z)
| jt_str t s : jstring t s -> jtext (byte_of 34 :: t ++ [byte_of 34]) (VStr s)
| jt_list ts l : Forall2 jtext ts l -> jtext (B "[" ++ commas ts ++ B "]") (VList l)
| jt_dict ts d d' : Permutation d d' -> Forall2 jmember ts d' -> jtext (B "{" ++ commas ts ++ B "}") (VDict d)
with jmember : bytes -> bytes * val -> Prop :=
| jm t k u v : jstring t k -> jtext u v -> jmember (byte_of 34 :: t ++ [byte_of 34] ++ B ":" ++ u) (k, v).

(** Strings of whole UTF-8 sequences throughout. *)
Inductive utf8_value : val -> Prop :=
| uv_int z : utf8_value (VInt z)
| uv_str s : utf8 s -> utf8_value (VStr s)
| uv_list l : (forall v, In v l -> utf8_value v) -> utf8_value (VList l)
| uv_dict d : (forall k v, In (k, v) d -> utf8 k /\ utf8_value v) -> utf8_value (VDict d).

(** A string in which every byte that is not part of a UTF-8 sequence is replaced by U+FFFD. *)
Inductive repaired : bytes -> bytes -> Prop :=
| rp_nil : repaired [] []
| rp_good s n t : 0 < n -> n = snd (decode_rune s) -> decode_rune s <> (RuneError, 1) -> repaired (skipn n s) t -> repaired s (firstn n s ++ t)
| rp_bad c s t : decode_rune (c :: s) = (RuneError, 1) -> repaired s t -> repaired (c :: s) (utf8_of 65533 ++ t).
Inductive repaired_value : val -> val -> Prop :=
| rv_int z : repaired_value (VInt z) (VInt z)
| rv_str s t : repaired s t -> repaired_value (VStr s) (VStr t)
| rv_list l l' : Forall2 repaired_value l l' -> repaired_value (VList l) (VList l')
| rv_dict d d' : Forall2 (fun e e' => repaired (fst e) (fst e') /\ repaired_value (snd e) (snd e')) d d' -> repaired_value (VDict d) (VDict d').
