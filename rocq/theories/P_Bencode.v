(** P_Bencode.v -- property theorems (generated by tools/gen_p.py from BencodePf.v).
    Each statement is repeated in full and closed by [exact]. *)
From Verif Require Import Base GoLib Bencode BencodeSpec.
From Verif Require Import BencodeProofs.
Local Open Scope list_scope.
From Verif Require Import BencodePf.

(** C02: DecodeInteger succeeds exactly on i<body>e with a lenient body, and never panics. *)
Theorem C02_decode_integer : forall s,
  (forall z, DecodeInteger s = Ok z <-> exists body, s = "i"%char :: body ++ ["e"%char] /\ lenient_int body z) /\
  returns (DecodeInteger s).
Proof. exact C02_decode_integer_pf. Qed.
Print Assumptions C02_decode_integer.

(** C01: EncodeInteger writes i<canonical decimal>e and DecodeInteger reads it back. *)
Theorem C01_integer_roundtrip : forall z, is_int z ->
  exists s ds, EncodeInteger z = Ok s /\ decimal ds z /\ s = "i"%char :: ds ++ ["e"%char] /\ DecodeInteger s = Ok z.
Proof. exact C01_integer_roundtrip_pf. Qed.
Print Assumptions C01_integer_roundtrip.

(** C01, C02: concrete cases, including the lenient ones and the boundary of int. *)
Theorem C02_cases :
  DecodeInteger (B "i-9223372036854775808e") = Ok (-9223372036854775808)%Z /\ is_int (-9223372036854775808) /\
  DecodeInteger (B "i9223372036854775808e") = Err EWrongParam /\
  DecodeInteger (B "i+007e") = Ok 7%Z /\ lenient_int (B "+007") 7 /\
  DecodeInteger (B "i-0e") = Err EWrongParam /\ DecodeInteger (B "i007e") = Err EWrongParam.
Proof. exact C02_cases_pf. Qed.
Print Assumptions C02_cases.

(** C03: EncodeString writes <canonical length>:<bytes>; DecodeString reads it back
    exactly when the string has no ':' and otherwise returns an error. *)
Theorem C03_string_roundtrip_iff : forall s, fits s ->
  exists e ds, EncodeString s = Ok e /\ decimal_nat ds (N.of_nat (length s)) /\ e = ds ++ ":"%char :: s /\
  (~ In ":"%char s -> DecodeString e = Ok s) /\
  (In ":"%char s -> exists er, DecodeString e = Err er).
Proof. exact C03_string_roundtrip_iff_pf. Qed.
Print Assumptions C03_string_roundtrip_iff.

(** C03, full claim refuted: a string with ':' does not survive the round trip. *)
Theorem C03_string_roundtrip_refuted : exists s e, fits s /\ EncodeString s = Ok e /\ DecodeString e = Err EWrongParam.
Proof. exact C03_string_roundtrip_refuted_pf. Qed.
Print Assumptions C03_string_roundtrip_refuted.

(** C04: DecodeString's panics are exactly the strings of at least two bytes without ':'
    that are a number; the full claim (no panic at all) is refuted by "12". *)
Theorem C04_decode_string_panics : forall s,
  (exists p, DecodeString s = Panic p) <->
  (2 <= length s /\ ~ In ":"%char s /\
   exists ds n z, is_int z /\ digits ds n /\ ds <> [] /\
     ((s = ds /\ z = Z.of_N n) \/ (s = "+"%char :: ds /\ z = Z.of_N n) \/ (s = "-"%char :: ds /\ z = (- Z.of_N n)%Z))).
Proof. exact C04_decode_string_panics_pf. Qed.
Print Assumptions C04_decode_string_panics.

(** C04: what DecodeString accepts, and what it makes of it: a number - digits with an optional sign - that is the length of
    the string, one ':' and the string, which contains no further ':'. *)
Theorem C04_decode_string_accepts : forall src s, DecodeString src = Ok s <->
  exists num ds, src = num ++ ":"%char :: s /\ ~ In ":"%char s /\ digits ds (N.of_nat (length s)) /\ ds <> [] /\ is_int (Z.of_nat (length s)) /\
    (num = ds \/ num = "+"%char :: ds \/ (num = "-"%char :: ds /\ s = [])).
Proof. exact C04_decode_string_accepts_pf. Qed.
Print Assumptions C04_decode_string_accepts.

Theorem C04_decode_string_refuted : exists s, DecodeString s = Panic PRuntime.
Proof. exact C04_decode_string_refuted_pf. Qed.
Print Assumptions C04_decode_string_refuted.

(** C05: for a dictionary [d] of ints, strings, lists and dictionaries, and for every
    order [d'] in which the maps of [d] may be iterated, encoding succeeds and both
    dictionary decoders give back a dictionary equal to [d]. *)
Theorem C05_dict_roundtrip : forall d d', go_value (VDict d) -> plain (VDict d) -> deq d d' ->
  exists s, EncodeDict (Some d') = Ok s /\
    (fits s -> exists r, deq d r /\ DecodeDict s = Ok (Some r) /\ DecodeDictNoLimit s = Ok (r, length s)).
Proof. exact C05_dict_roundtrip_pf. Qed.
Print Assumptions C05_dict_roundtrip.

(** C05 for lists. *)
Theorem C05_list_roundtrip : forall l l', go_value (VList l) -> plain (VList l) -> veq (VList l) (VList l') ->
  exists s, EncodeSlice (Some l') = Ok s /\
    (fits s -> exists r, veq (VList l) (VList r) /\ DecodeSlice s = Ok r).
Proof. exact C05_list_roundtrip_pf. Qed.
Print Assumptions C05_list_roundtrip.

(** C05 non-vacuity: a nested dictionary iterated in two different orders. *)
Theorem C05_example :
  let d  := [(B "t", VStr (B "aa")); (B "r", VDict [(B "id", VStr (B "x:e")); (B "n", VList [VInt (-5); VStr []])])] in
  let d' := [(B "r", VDict [(B "n", VList [VInt (-5); VStr []]); (B "id", VStr (B "x:e"))]); (B "t", VStr (B "aa"))] in
  go_value (VDict d) /\ plain (VDict d) /\ deq d d' /\
  EncodeDict (Some d') = Ok (B "d1:rd1:nli-5e0:e2:id3:x:ee1:t2:aae") /\ fits (B "d1:rd1:nli-5e0:e2:id3:x:ee1:t2:aae").
Proof. exact C05_example_pf. Qed.
Print Assumptions C05_example.

(** C06: with arbitrary bytes after the dictionary, DecodeDictNoLimit returns the
    dictionary and the offset of the first byte after it. *)
Theorem C06_end_offset : forall d d' s rest, go_value (VDict d) -> deq d d' ->
  EncodeDict (Some d') = Ok s -> fits (s ++ rest) ->
  exists r, deq d r /\ DecodeDictNoLimit (s ++ rest) = Ok (r, length s) /\ skipn (length s) (s ++ rest) = rest.
Proof. exact C06_end_offset_pf. Qed.
Print Assumptions C06_end_offset.

Theorem C06_example :
  DecodeDictNoLimit (B "d8:msg_typei1e5:piecei0eeXYZde") = Ok ([(B "msg_type", VInt 1); (B "piece", VInt 0)], 25).
Proof. exact C06_example_pf. Qed.
Print Assumptions C06_example.

(** C07: what the encoder writes is exactly the BEP-3 bencoding of the value, with the
    dictionary entries in iteration order. *)
Theorem C07_encoder_is_bencode : forall d s, go_value (VDict d) ->
  (EncodeDict (Some d) = Ok s <-> bencoding (VDict d) s).
Proof. exact C07_encoder_is_bencode_pf. Qed.
Print Assumptions C07_encoder_is_bencode.

Theorem C07_list_encoder_is_bencode : forall l s, go_value (VList l) ->
  (EncodeSlice (Some l) = Ok s <-> bencoding (VList l) s).
Proof. exact C07_list_encoder_is_bencode_pf. Qed.
Print Assumptions C07_list_encoder_is_bencode.

(** C07, sorted keys refuted: there is an iteration order for which the output is not
    the bencoding of any key-sorted dictionary. *)
Theorem C07_sorted_keys_refuted : exists d s, go_value (VDict d) /\ plain (VDict d) /\
  EncodeDict (Some d) = Ok s /\ forall d', bencoding (VDict d') s -> ~ sorted_keys d'.
Proof. exact C07_sorted_keys_refuted_pf. Qed.
Print Assumptions C07_sorted_keys_refuted.

(** C08: EncodeDict and EncodeSlice succeed exactly on non-nil containers built from
    ints, strings, non-nil Lists and non-nil Dicts; an error means a refused value
    occurs, a panic means an untyped nil or a named int/string occurs. *)
Theorem C08_encoder_domain :
  (forall d, (exists s, EncodeDict (Some d) = Ok s) <-> plain (VDict d)) /\
  (forall l, (exists s, EncodeSlice (Some l) = Ok s) <-> plain (VList l)) /\
  EncodeDict None = Err EWrongParam /\ EncodeSlice None = Err EWrongParam /\
  (forall d e, EncodeDict (Some d) = Err e -> e = EWrongParam /\ exists x, occurs x (VDict d) /\ refused_leaf x) /\
  (forall l e, EncodeSlice (Some l) = Err e -> e = EWrongParam /\ exists x, occurs x (VList l) /\ refused_leaf x) /\
  (forall d p, EncodeDict (Some d) = Panic p -> p = PRuntime /\ exists x, occurs x (VDict d) /\ panicking_leaf x) /\
  (forall l p, EncodeSlice (Some l) = Panic p -> p = PRuntime /\ exists x, occurs x (VList l) /\ panicking_leaf x).
Proof. exact C08_encoder_domain_pf. Qed.
Print Assumptions C08_encoder_domain.

Theorem C08_examples :
  EncodeDict (Some [(B "a", VList [VNil])]) = Panic PRuntime /\
  EncodeDict (Some [(B "a", VList [VNilDict])]) = Err EWrongParam /\
  EncodeDict (Some [(B "a", VOther KNamedInt)]) = Panic PRuntime /\
  EncodeSlice (Some []) = Ok (B "le").
Proof. exact C08_examples_pf. Qed.
Print Assumptions C08_examples.

(** C09: success, value and end offset of the decoders are those of the lenient grammar. *)
Theorem C09_decode_dict_sound : forall src d n, fits src -> DecodeDictNoLimit src = Ok (d, n) ->
  exists rest u, item src (VDict d) rest u /\ n = length src - length rest + u.
Proof. exact C09_decode_dict_sound_pf. Qed.
Print Assumptions C09_decode_dict_sound.

Theorem C09_decode_dict_complete : forall src d rest u, fits src -> 2 <= length src -> item src (VDict d) rest u ->
  exists d', deq d d' /\ DecodeDictNoLimit src = Ok (d', length src - length rest + u).
Proof. exact C09_decode_dict_complete_pf. Qed.
Print Assumptions C09_decode_dict_complete.

(** The grammar is unambiguous (up to the order of dictionary entries). *)
Theorem C09_grammar_unambiguous : forall src v rest u v' rest' u', fits src ->
  item src v rest u -> item src v' rest' u' -> exists w, veq v w /\ veq v' w /\ rest = rest' /\ u = u'.
Proof. exact C09_grammar_unambiguous_pf. Qed.
Print Assumptions C09_grammar_unambiguous.

(** Leniencies that BEP-3 does not have: '+', leading zeros in lengths, duplicate keys, open containers. *)
Theorem C09_leniencies :
  DecodeDictNoLimit (B "d1:ai+1e01:b2:cce") = Ok ([(B "a", VInt 1); (B "b", VStr (B "cc"))], 17) /\
  DecodeDictNoLimit (B "d1:ai1e1:ai2ee") = Ok ([(B "a", VInt 2)], 14) /\
  DecodeDictNoLimit (B "d1:ali1e") = Ok ([(B "a", VList [VInt 1])], 10).
Proof. exact C09_leniencies_pf. Qed.
Print Assumptions C09_leniencies.

(** C10: every decoder finishes: 2*len+2 nested calls and loop iterations always
    suffice (the model's out-of-fuel marker is never reached), and more would not
    change the result. *)
Theorem C10_decoders_terminate : forall src, fits src ->
  no_fuel (DecodeInteger src) /\ no_fuel (DecodeString src) /\ no_fuel (DecodeSlice src) /\
  no_fuel (DecodeDict src) /\ no_fuel (DecodeDictNoLimit src) /\
  (forall f, 2 * length src + 2 <= f ->
     sliceLoop f src 1 [] = sliceLoop (2 * length src + 2) src 1 [] /\
     dictLoop f src 1 [] = dictLoop (2 * length src + 2) src 1 []).
Proof. exact C10_decoders_terminate_pf. Qed.
Print Assumptions C10_decoders_terminate.

(** C11: a list or dictionary decoder can only panic with a run-time error; for
    DecodeSlice and DecodeDict a string length near 2^63 is the only cause, for
    DecodeDictNoLimit an integer without 'e' is the other one. *)
Theorem C11_panic_causes : forall src p, fits src ->
  (DecodeSlice src = Panic p -> p = PRuntime /\ length_overflow src) /\
  (DecodeDict src = Panic p -> p = PRuntime /\ length_overflow src) /\
  (DecodeDictNoLimit src = Panic p -> p = PRuntime /\ (length_overflow src \/ truncated_integer src)).
Proof. exact C11_panic_causes_pf. Qed.
Print Assumptions C11_panic_causes.

(** C11, usable form: an input shorter than 2^62 bytes without a run of 19 decimal
    digits makes neither DecodeSlice nor DecodeDict panic. *)
Theorem C11_no_panic_without_long_digit_runs : forall src,
  (Z.of_nat (length src) < 2 ^ 62)%Z ->
  (forall a ds b, src = a ++ ds ++ b -> Forall (fun c => is_digit c = true) ds -> length ds < 19) ->
  returns (DecodeSlice src) /\ returns (DecodeDict src).
Proof. exact C11_no_panic_without_long_digit_runs_pf. Qed.
Print Assumptions C11_no_panic_without_long_digit_runs.

(** C11, full claim refuted: both causes really panic. *)
Theorem C11_no_panic_refuted :
  DecodeDict (B "d9223372036854775807:e") = Panic PRuntime /\
  DecodeSlice (B "l9223372036854775807:e") = Panic PRuntime /\
  DecodeDictNoLimit (B "d1:ai5") = Panic PRuntime /\
  DecodeDictNoLimit (B "d1:ai0") = Panic PRuntime.
Proof. exact C11_no_panic_refuted_pf. Qed.
Print Assumptions C11_no_panic_refuted.

(** C12: DecodeSlice accepts exactly the inputs that are one closed list. *)
Theorem C12_decode_slice_exact : forall src, fits src ->
  (forall l, DecodeSlice src = Ok l -> item src (VList l) [] 0) /\
  (forall l, item src (VList l) [] 0 -> exists l', veq (VList l) (VList l') /\ DecodeSlice src = Ok l').
Proof. exact C12_decode_slice_exact_pf. Qed.
Print Assumptions C12_decode_slice_exact.

Theorem C12_example :
  DecodeSlice (B "li1ee") = Ok [VInt 1] /\ DecodeSlice (B "li1eee") = Err EWrongParam /\ DecodeSlice (B "li1e") = Err EWrongParam.
Proof. exact C12_example_pf. Qed.
Print Assumptions C12_example.

(** C13, what DecodeDict really does: a non-nil result is a dictionary that reaches the
    end of the input, possibly with [u] containers left open; a nil result without error
    means there were trailing bytes. *)
Theorem C13_decode_dict_outcomes : forall src, fits src ->
  (forall d, DecodeDict src = Ok (Some d) -> exists u, item src (VDict d) [] u) /\
  (DecodeDict src = Ok None -> exists d rest, rest <> [] /\ item src (VDict d) rest 0) /\
  (forall d, item src (VDict d) [] 0 -> exists d', deq d d' /\ DecodeDict src = Ok (Some d')) /\
  (forall d rest, item src (VDict d) rest 0 -> rest <> [] -> ends_with_e src -> DecodeDict src = Ok None).
Proof. exact C13_decode_dict_outcomes_pf. Qed.
Print Assumptions C13_decode_dict_outcomes.

(** C13 refuted: a nil dictionary without an error on trailing bytes, and acceptance of a
    dictionary whose closing 'e' is missing. *)
Theorem C13_decode_dict_exact_refuted :
  DecodeDict (B "dede") = Ok None /\
  (exists d, DecodeDict (B "d1:ai1e") = Ok (Some d) /\ forall d', ~ item (B "d1:ai1e") (VDict d') [] 0).
Proof. exact C13_decode_dict_exact_refuted_pf. Qed.
Print Assumptions C13_decode_dict_exact_refuted.

(** C01: the extreme integers and a small one meet the hypothesis; a number beyond does not. *)
Theorem C01_example :
  is_int (-9223372036854775808) /\ is_int 9223372036854775807 /\ is_int (-40) /\ ~ is_int 9223372036854775808 /\
  EncodeInteger (-9223372036854775808) = Ok (B "i-9223372036854775808e") /\ EncodeInteger (-40) = Ok (B "i-40e") /\
  DecodeInteger (B "i-40e") = Ok (-40)%Z /\ DecodeInteger (B "i9223372036854775807e") = Ok 9223372036854775807%Z.
Proof. exact C01_example_pf. Qed.
Print Assumptions C01_example.

(** C03: strings with and without ':' that a Go program can hold. *)
Theorem C03_example :
  fits (B "spam") /\ fits [] /\ EncodeString (B "spam") = Ok (B "4:spam") /\ DecodeString (B "4:spam") = Ok (B "spam") /\
  EncodeString [] = Ok (B "0:") /\ DecodeString (B "0:") = Ok [] /\
  fits (B "a:b") /\ EncodeString (B "a:b") = Ok (B "3:a:b") /\ DecodeString (B "3:a:b") = Err EWrongParam.
Proof. exact C03_example_pf. Qed.
Print Assumptions C03_example.

(** C04: inputs of both kinds: numbers without ':' panic, everything else returns. *)
Theorem C04_example :
  DecodeString (B "-05") = Panic PRuntime /\ DecodeString (B "+7") = Panic PRuntime /\
  DecodeString (B "7") = Err EWrongParam /\ DecodeString (B "4x") = Err EWrongParam /\
  DecodeString (B "99999999999999999999") = Err EWrongParam /\ DecodeString (B "2:ab") = Ok (B "ab") /\ DecodeString (B "3:ab") = Err EWrongParam.
Proof. exact C04_example_pf. Qed.
Print Assumptions C04_example.

(** C07: a nested Go value with its encoding. *)
Theorem C07_example :
  let d := [(B "t", VStr (B "aa")); (B "r", VDict [(B "id", VStr (B "x:e")); (B "n", VList [VInt (-5); VStr []])])] in
  let s := B "d1:t2:aa1:rd2:id3:x:e1:nli-5e0:eee" in
  go_value (VDict d) /\ EncodeDict (Some d) = Ok s /\ bencoding (VDict d) s /\
  go_value (VList [VDict d; VInt 0]) /\ EncodeSlice (Some [VDict d; VInt 0]) = Ok (B "l" ++ s ++ B "i0ee").
Proof. exact C07_example_pf. Qed.
Print Assumptions C07_example.

(** C09: an input with every kind of item, nested, that the grammar accepts: a derivation and what
    the decoder returns. *)
Theorem C09_example :
  let src := B "d1:ad1:bl2:xyi-3eee1:ci+07ee..." in
  let d := [(B "a", VDict [(B "b", VList [VStr (B "xy"); VInt (-3)])]); (B "c", VInt 7)] in
  fits src /\ 2 <= length src /\ item src (VDict d) (B "...") 0 /\ DecodeDictNoLimit src = Ok (d, 28).
Proof. exact C09_example_pf. Qed.
Print Assumptions C09_example.

(** C10, C11, C13: hostile and harmless inputs that meet the hypotheses, with the outcomes. *)
Theorem C10_example :
  let hostile := B "d1:al" ++ concat (repeat (B "l") 50) in
  fits hostile /\ (exists d n, DecodeDictNoLimit hostile = Ok (d, n)) /\ DecodeSlice hostile = Err EWrongParam.
Proof. exact C10_example_pf. Qed.
Print Assumptions C10_example.

Theorem C11_example :
  fits (B "d9223372036854775807:e") /\ DecodeDict (B "d9223372036854775807:e") = Panic PRuntime /\ length_overflow (B "d9223372036854775807:e") /\
  fits (B "d1:ai5") /\ DecodeDictNoLimit (B "d1:ai5") = Panic PRuntime /\ truncated_integer (B "d1:ai5") /\
  DecodeDict (B "d999999999999999999:e") = Err EWrongParam.
Proof. exact C11_example_pf. Qed.
Print Assumptions C11_example.

Theorem C13_example :
  DecodeDict (B "d1:ai1ee") = Ok (Some [(B "a", VInt 1)]) /\ item (B "d1:ai1ee") (VDict [(B "a", VInt 1)]) [] 0 /\
  DecodeDict (B "d1:ai1eee") = Ok None /\ ends_with_e (B "d1:ai1eee") /\ item (B "d1:ai1eee") (VDict [(B "a", VInt 1)]) (B "e") 0 /\
  DecodeDict (B "li1ee") = Err EWrongParam.
Proof. exact C13_example_pf. Qed.
Print Assumptions C13_example.
