(** NetAddrSpec.v -- addresses, in the words of a user. *)
From Verif Require Import Base Node NetAddr.
Local Open Scope list_scope.

(** The same IP address in the 16-byte form. *)
Definition wide (i : bytes) : bytes := if length i =? 4 then repeat (byte_of 0) 10 ++ [byte_of 255; byte_of 255] ++ i else i.
(** It is an IPv4 address: 4 bytes, or 16 bytes of which the first 12 say so. *)
Definition is_v4 (i : bytes) : Prop := length i = 4 \/ length i = 16 /\ firstn 12 i = repeat (byte_of 0) 10 ++ [byte_of 255; byte_of 255].
(** 0.0.0.0 and :: stand for no particular machine. *)
Definition no_machine (i : bytes) : Prop := wide i = repeat (byte_of 0) 16.

(** An address a socket can deliver: an IPv4 or IPv6 address, a 16-bit port, and a zone (a network interface) only
    for IPv6. *)
Record sock_addr (a : udpaddr) : Prop := {
  sa_ip : length (ip a) = 4 \/ length (ip a) = 16;
  sa_port : (0 <= port a <= 65535)%Z;
  sa_zone : zone a = [] \/ ~ is_v4 (ip a) /\ Forall (fun c => c <> "["%char /\ c <> "]"%char /\ c <> "%"%char) (zone a) }.
Definition widened (a : udpaddr) : udpaddr := {| ip := wide (ip a); port := port a; zone := zone a |}.

(** ** Literal IP addresses *)
(** A numeral: at least one digit (decimal digits for base 10; hexadecimal digits of either case for base 16). *)
Fixpoint digit_in (ds : bytes) (v : N) (c : byte) : option N :=
  match ds with [] => None | d :: t => if Ascii.eqb d c then Some v else digit_in t (v + 1) c end.
Definition digit_of (base : N) (c : byte) : option N :=
  if (base =? 16)%N then match digit_in (B "0123456789abcdef") 0 c with Some v => Some v | None => digit_in (B "0123456789ABCDEF") 0 c end
  else digit_in (B "0123456789") 0 c.
Inductive value_of (base : N) : bytes -> N -> Prop :=
| vo_nil : value_of base [] 0
| vo_snoc s n c d : value_of base s n -> digit_of base c = Some d -> value_of base (s ++ [c]) (base * n + d).
Definition numeral (base : N) (s : bytes) (n : N) : Prop := s <> [] /\ value_of base s n.

(** a.b.c.d *)
Definition v4_text (s : bytes) (v : bytes) : Prop :=
  exists a b c d na nb nc nd, s = a ++ B "." ++ b ++ B "." ++ c ++ B "." ++ d /\
    numeral 10 a na /\ numeral 10 b nb /\ numeral 10 c nc /\ numeral 10 d nd /\ (na <= 255 /\ nb <= 255 /\ nc <= 255 /\ nd <= 255)%N /\
    v = map byte_of [na; nb; nc; nd].
(** Groups of 16 bits separated by colons; the last may be an IPv4 address, which counts for two. *)
Definition hex_group (s : bytes) (v : bytes) : Prop := exists n, numeral 16 s n /\ (n <= 65535)%N /\ v = [byte_of (n / 256); byte_of (n mod 256)].
Inductive groups : bytes -> bytes -> Prop :=
| gr_hex s v : hex_group s v -> groups s v
| gr_v4 s v : v4_text s v -> groups s v
| gr_more s v t w : hex_group s v -> groups t w -> groups (s ++ B ":" ++ t) (v ++ w).
Inductive hex_groups_only : bytes -> bytes -> Prop :=
| hg_one s v : hex_group s v -> hex_groups_only s v
| hg_more s v t w : hex_group s v -> hex_groups_only t w -> hex_groups_only (s ++ B ":" ++ t) (v ++ w).
(** Sixteen bytes; or fewer, with "::" for the missing zeros. *)
Inductive v6_text : bytes -> bytes -> Prop :=
| v6_full s v : groups s v -> length v = 16 -> v6_text s v
| v6_short L l R r : (L = [] /\ l = [] \/ hex_groups_only L l) -> (R = [] /\ r = [] \/ groups R r) -> length l + length r < 16 ->
    v6_text (L ++ B "::" ++ R) (l ++ repeat (byte_of 0) (16 - length l - length r) ++ r).
(** The text is an IP address, with the zone after the percent sign. *)
Inductive ip_literal : bytes -> bytes -> bytes -> Prop :=
| il_v4 s v : v4_text s v -> ip_literal s (wide v) []
| il_v6 s v : v6_text s v -> ip_literal s v []
| il_zone s v z : v6_text s v -> ~ In "%"%char z -> ip_literal (s ++ B "%" ++ z) v z.
