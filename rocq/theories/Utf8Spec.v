(** Utf8Spec.v -- UTF-8 as RFC 3629 defines it, apart from any decoder: what C17, C107 and C118 mean by text. *)
From Verif Require Import Base GoLib.
Local Open Scope list_scope.

(** Code points that are characters: all but the surrogates. *)
Definition scalar (n : N) : Prop := (n < 55296 \/ 57344 <= n < 1114112)%N.
(** The bytes of a code point (RFC 3629, section 3). *)
Definition encode (n : N) : bytes :=
  if (n <? 128)%N then [byte_of n]
  else if (n <? 2048)%N then [byte_of (192 + n / 64); byte_of (128 + n mod 64)]
  else if (n <? 65536)%N then [byte_of (224 + n / 4096); byte_of (128 + n / 64 mod 64); byte_of (128 + n mod 64)]
  else [byte_of (240 + n / 262144); byte_of (128 + n / 4096 mod 64); byte_of (128 + n / 64 mod 64); byte_of (128 + n mod 64)].
(** The bytes of a text. *)
Definition text (l : list N) : bytes := concat (map encode l).
(** A string with every byte that is not part of a character replaced by the bytes of U+FFFD. *)
Inductive mended : bytes -> bytes -> Prop :=
| md_nil : mended [] []
| md_char n s t : scalar n -> mended s t -> mended (encode n ++ s) (encode n ++ t)
| md_byte c s t : (forall n r, scalar n -> c :: s <> encode n ++ r) -> mended s t -> mended (c :: s) (encode 65533 ++ t).
