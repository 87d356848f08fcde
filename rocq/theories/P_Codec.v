(** P_Codec.v -- property theorems (generated by tools/gen_p.py from CodecPf.v).
    Each statement is repeated in full and closed by [exact]. *)
From Verif Require Import Base GoLib Bencode BencodeSpec BencodeProofs BencodePf CodecSpec.
Local Open Scope list_scope.
From Verif Require Import CodecPf.

(** C100: if DecodeDictNoLimit accepts a message that was cut short anywhere, it returns the message
    without everything after the cut - nothing is altered or invented - and the reported end lies
    behind the end of the input. *)
Theorem C100_truncated_dict : forall d enc p r d' n,
  bencoding (VDict d) enc -> enc = p ++ r -> r <> [] -> fits p -> DecodeDictNoLimit p = Ok (d', n) ->
  truncated (VDict d) (VDict d') /\ length p < n.
Proof. exact C100_truncated_dict_pf. Qed.
Print Assumptions C100_truncated_dict.

(** C100: the same for DecodeDict, which never returns the nil dictionary for a cut message; DecodeSlice
    rejects every cut list. *)
Theorem C100_other_decoders : forall v enc p r, bencoding v enc -> enc = p ++ r -> r <> [] -> fits p ->
  (forall d', DecodeDict p = Ok d' -> exists e', d' = Some e' /\ truncated v (VDict e')) /\
  (forall l', DecodeSlice p <> Ok l').
Proof. exact C100_other_decoders_pf. Qed.
Print Assumptions C100_other_decoders.

(** C100: that every cut message is rejected is false: cut between two entries it is accepted.  (The last
    three are cut inside a string, an integer, and behind a key.) *)
Theorem C100_truncation_rejected_refuted :
  bencoding (VDict [(B "q", VStr (B "ping")); (B "a", VDict [(B "x", VInt 5); (B "y", VInt 67)])]) (B "d1:q4:ping1:ad1:xi5e1:yi67eee") /\
  DecodeDictNoLimit (B "d1:q4:ping1:ad1:xi5e") = Ok ([(B "q", VStr (B "ping")); (B "a", VDict [(B "x", VInt 5)])], 22) /\
  DecodeDictNoLimit (B "d1:q4:pi") = Err EWrongParam /\
  DecodeDictNoLimit (B "d1:q4:ping1:ad1:xi5e1:yi6") = Panic PRuntime /\
  DecodeDictNoLimit (B "d1:q4:ping1:a") = Err EWrongParam.
Proof. exact C100_truncation_rejected_refuted_pf. Qed.
Print Assumptions C100_truncation_rejected_refuted.

(** C101: every string and every key in what the decoders return is a contiguous part of the input. *)
Theorem C101_strings_come_from_input : forall src s, fits src ->
  (forall d n, DecodeDictNoLimit src = Ok (d, n) -> string_in s (VDict d) -> exists a b, src = a ++ s ++ b) /\
  (forall d, DecodeDict src = Ok (Some d) -> string_in s (VDict d) -> exists a b, src = a ++ s ++ b) /\
  (forall l, DecodeSlice src = Ok l -> string_in s (VList l) -> exists a b, src = a ++ s ++ b).
Proof. exact C101_strings_come_from_input_pf. Qed.
Print Assumptions C101_strings_come_from_input.

(** C101: what is decoded is never larger than the input, nor nested deeper than the input is long. *)
Theorem C101_decoded_size : forall src, fits src ->
  (forall d n, DecodeDictNoLimit src = Ok (d, n) -> weight (VDict d) <= length src /\ depth (VDict d) <= length src) /\
  (forall d, DecodeDict src = Ok (Some d) -> weight (VDict d) <= length src /\ depth (VDict d) <= length src) /\
  (forall l, DecodeSlice src = Ok l -> weight (VList l) <= length src /\ depth (VList l) <= length src).
Proof. exact C101_decoded_size_pf. Qed.
Print Assumptions C101_decoded_size.

Theorem C101_example : exists d, DecodeDictNoLimit (B "d1:ald1:b2:ccee1:ai7ee") = Ok (d, 22) /\ d = [(B "a", VInt 7)] /\
  DecodeDictNoLimit (B "llll") = Err EWrongParam /\ DecodeSlice (B "llllee") = Err EWrongParam /\
  DecodeSlice (B "lllleeee") = Ok [VList [VList [VList []]]] /\ depth (VList [VList [VList [VList []]]]) = 4.
Proof. exact C101_example_pf. Qed.
Print Assumptions C101_example.

(** C102: the encoding determines the value: two dictionaries (lists) with the same encoding are the
    same, entry by entry in iteration order. *)
Theorem C102_injective : forall d d' s, go_value (VDict d) -> go_value (VDict d') -> (Z.of_nat (length s) < max_int)%Z ->
  EncodeDict (Some d) = Ok s -> EncodeDict (Some d') = Ok s -> d = d'.
Proof. exact C102_injective_pf. Qed.
Print Assumptions C102_injective.

(** C102: encodings are self-delimiting: no encoding is a proper prefix of another. *)
Theorem C102_prefix_free : forall v v' s t, go_value v -> go_value v' -> (Z.of_nat (length (s ++ t)) < max_int)%Z ->
  encodeItem v = Ok s -> encodeItem v' = Ok (s ++ t) -> t = [] /\ v = v'.
Proof. exact C102_prefix_free_pf. Qed.
Print Assumptions C102_prefix_free.

(** C102: hence a sequence of encodings written one after another can be read in only one way. *)
Theorem C102_streams : forall vs vs' ss ss', Forall go_value vs -> Forall go_value vs' -> (Z.of_nat (length (concat ss)) < max_int)%Z ->
  Forall2 (fun v s => encodeItem v = Ok s) vs ss -> Forall2 (fun v s => encodeItem v = Ok s) vs' ss' -> concat ss = concat ss' -> vs = vs' /\ ss = ss'.
Proof. exact C102_streams_pf. Qed.
Print Assumptions C102_streams.

Theorem C102_example : exists s s', EncodeDict (Some [(B "a", VInt 1); (B "b", VInt 2)]) = Ok s /\ EncodeDict (Some [(B "b", VInt 2); (B "a", VInt 1)]) = Ok s' /\ s <> s' /\
  go_value (VDict [(B "a", VInt 1); (B "b", VInt 2)]) /\ (Z.of_nat (length s) < max_int)%Z.
Proof. exact C102_example_pf. Qed.
Print Assumptions C102_example.
