(** P_Utf8.v -- property theorems (generated by tools/gen_p.py from Utf8Pf.v).
    Each statement is repeated in full and closed by [exact]. *)
From Verif Require Import Base GoLib Bencode BencodeSpec Types SessionProofs ZapLogSpec Json JsonSpec JsonProofs Utf8Spec Utf8Proofs.
From Coq Require Import Lia.
Local Open Scope list_scope.
From Verif Require Import Utf8Pf.

(** C107: the strings of whole sequences of which C107 speaks are exactly the encoded sequences of characters of RFC 3629, and such a string stands for one sequence only. *)
Theorem C107_utf8_is_text : (forall s, utf8 s <-> exists l, Forall scalar l /\ s = text l) /\
  (forall l l', Forall scalar l -> Forall scalar l' -> text l = text l' -> l = l').
Proof. exact C107_utf8_is_text_pf. Qed.
Print Assumptions C107_utf8_is_text.

(** C118: the replacement of bytes of which C118 speaks is that of RFC 3629: every byte at which no character begins is replaced by U+FFFD, every character stays.
    Every string has exactly one such replacement, and it is text. *)
Theorem C118_repair_is_mending : (forall s t, repaired s t <-> mended s t) /\
  (forall s, exists t, mended s t /\ forall t', mended s t' -> t' = t) /\
  (forall s t, mended s t -> exists l, Forall scalar l /\ t = text l) /\ (forall l, Forall scalar l -> mended (text l) (text l)).
Proof. exact C118_repair_is_mending_pf. Qed.
Print Assumptions C118_repair_is_mending.

(** C107, C118: text appears in a JSON line as it is, character by character: only quotes, backslashes and control characters are escaped. *)
Theorem C118_text_stays : forall l, Forall scalar l -> Forall (fun n => 32 <= n /\ n <> 34 /\ n <> 92 /\ n <> 60 /\ n <> 62 /\ n <> 38 /\ n <> 8232 /\ n <> 8233)%N l ->
  ZapLog.json_escape (text l) = text l.
Proof. exact C118_text_stays_pf. Qed.
Print Assumptions C118_text_stays.

(** C17: on text the comparison is character by character: two texts are alike if they have equally many characters and each is the other's or a variant of it.  For ASCII
    letters the variants are the two cases; for other characters it is Unicode's simple folding, an input.  Whatever the two strings (text or not), they are compared as their mended forms. *)
Theorem C17_characters : forall uf,
  (forall l l', Forall scalar l -> Forall scalar l' -> (EqualFold uf (text l) (text l') = true <->
     Forall2 (fun a b => a = b \/ (65 <= N.min a b <= 90 /\ N.max a b = N.min a b + 32)%N \/ (128 <= N.max a b)%N /\ a <> b /\ uf (N.min a b) (N.max a b) = true) l l')) /\
  (forall s t s' t', mended s s' -> mended t t' -> EqualFold uf s t = EqualFold uf s' t').
Proof. exact C17_characters_pf. Qed.
Print Assumptions C17_characters.

(** Examples: U+00E9 and U+1F600 are characters, a surrogate is not one; a string of two bytes that begin no character becomes two U+FFFD. *)
Theorem C118_utf8_example : scalar 233 /\ scalar 128512 /\ ~ scalar 55296 /\ text [233; 128512]%N = map byte_of [195; 169; 240; 159; 152; 128]%N /\
  mended (map byte_of [255; 128; 65]%N) (map byte_of [239; 191; 189; 239; 191; 189; 65]%N).
Proof. exact C118_utf8_example_pf. Qed.
Print Assumptions C118_utf8_example.
