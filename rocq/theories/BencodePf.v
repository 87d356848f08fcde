(** BencodePf.v -- proofs of the bencode properties C01-C13. *)
From Verif Require Import Base GoLib Bencode BencodeSpec.
From Verif Require Import BencodeProofs.
Local Open Scope list_scope.

(** C02: DecodeInteger succeeds exactly on i<body>e with a lenient body, and never panics. *)
Lemma C02_decode_integer_pf : forall s,
  (forall z, DecodeInteger s = Ok z <-> exists body, s = "i"%char :: body ++ ["e"%char] /\ lenient_int body z) /\
  returns (DecodeInteger s).
Proof.
  intros s. unfold DecodeInteger.
  destruct (Nat.ltb_spec (length s) 2) as [Hlen|Hlen].
  { split; [|intros p; discriminate]. intros z. split; [discriminate|].
    intros (body & -> & _). cbn [length] in Hlen. rewrite app_length in Hlen. cbn in Hlen. lia. }
  destruct s as [|c s]; [cbn in Hlen; lia|]. change (idx (c :: s) 0) with (@Ok byte c). cbn [bind].
  destruct (idx_lt (c :: s) (length (c :: s) - 1)) as (cl & Hcl & _); [cbn; lia|].
  rewrite Hcl. cbn [bind].
  assert (Hlast : exists a, c :: s = a ++ [cl]) by (apply idx_last; [exact Hcl|discriminate]).
  destruct (Ascii.eqb_spec c "i") as [->|Hc]; cbn [negb orb].
  2: { split; [|intros p; discriminate]. intros z. split; [discriminate|]. intros (body & E & _). congruence. }
  destruct (Ascii.eqb_spec cl "e") as [->|Hcl']; cbn [negb].
  2: { split; [|intros p; discriminate]. intros z. split; [discriminate|]. intros (body & E & _).
       destruct Hlast as (a & Ea). rewrite E in Ea. change ("i"%char :: body ++ ["e"%char]) with (("i"%char :: body) ++ ["e"%char]) in Ea.
       apply app_inj_tail in Ea as [_ ?]. congruence. }
  destruct Hlast as (a & Ea).
  destruct (split_first "e" s) as [Hno|(b & rest & -> & Hb)].
  { exfalso. destruct a as [|a0 a].
    - cbn in Ea. congruence.
    - cbn in Ea. injection Ea as _ ->. apply Hno, in_or_app. right. left. reflexivity. }
  pose proof (inner_int_closed [] b rest Hb) as Hin. cbn [app length Nat.add] in Hin. rewrite Hin. clear Hin.
  assert (Hcancel : forall body, "i"%char :: b ++ "e"%char :: rest = "i"%char :: body ++ ["e"%char] -> ~ In "e"%char body -> body = b /\ rest = []).
  { clear - Hb. intros body E Hnb. injection E as E. revert body E Hnb. induction b as [|x b IH]; intros body E Hnb.
    - destruct body as [|y body]; cbn in E; [injection E as ->; auto|]. injection E as <- E. exfalso. apply Hnb. left. reflexivity.
    - destruct body as [|y body]; cbn in E.
      + injection E as -> E. exfalso. apply Hb. left. reflexivity.
      + injection E as <- E. destruct (IH (fun h => Hb (or_intror h)) body E (fun h => Hnb (or_intror h))) as [-> ->]. auto. }
  destruct (okbody "i" b) eqn:Eok.
  - destruct (atoi b) as [z0|e|p] eqn:Ea'.
    + destruct (Nat.eqb_spec (S (S (length b))) (length ("i"%char :: b ++ "e"%char :: rest))) as [Hn|Hn].
      * assert (rest = []) as ->.
        { cbn [length] in Hn. rewrite app_length in Hn. cbn [length] in Hn. destruct rest; [reflexivity|cbn in Hn; lia]. }
        split; [|intros p; discriminate]. intros z. split.
        -- intros E. injection E as <-. exists b. split; [reflexivity|]. apply lenient_int_iff. auto.
        -- intros (body & E & Hl). destruct (Hcancel body E (lenient_no_e _ _ Hl)) as [-> _].
           apply lenient_int_iff in Hl as [_ Hl]. congruence.
      * split; [|intros p; discriminate]. intros z. split; [discriminate|].
        intros (body & E & Hl). destruct (Hcancel body E (lenient_no_e _ _ Hl)) as [-> ->].
        exfalso. apply Hn. cbn [length]. rewrite app_length. cbn. lia.
    + split; [|intros p; discriminate]. intros z. split; [discriminate|].
      intros (body & E & Hl). destruct (Hcancel body E (lenient_no_e _ _ Hl)) as [-> _].
      apply lenient_int_iff in Hl as [_ Hl]. congruence.
    + exfalso. eapply atoi_no_panic; eassumption.
  - split; [|intros p; discriminate]. intros z. split; [discriminate|].
    intros (body & E & Hl). destruct (Hcancel body E (lenient_no_e _ _ Hl)) as [-> _].
    apply lenient_int_iff in Hl as [Hl _]. congruence.
Qed.

(** ** C01 *)

(** C01: EncodeInteger writes i<canonical decimal>e and DecodeInteger reads it back. *)
Lemma C01_integer_roundtrip_pf : forall z, is_int z ->
  exists s ds, EncodeInteger z = Ok s /\ decimal ds z /\ s = "i"%char :: ds ++ ["e"%char] /\ DecodeInteger s = Ok z.
Proof.
  intros z Hz. exists (B "i" ++ itoa z ++ B "e"), (itoa z). split; [reflexivity|].
  split; [apply decimal_iff; reflexivity|]. split; [reflexivity|].
  apply C02_decode_integer_pf. exists (itoa z). split; [reflexivity|]. split; [exact Hz|]. left. apply decimal_iff. reflexivity.
Qed.


(** C01, C02: concrete cases, including the lenient ones and the boundary of int. *)
Lemma C02_cases_pf :
  DecodeInteger (B "i-9223372036854775808e") = Ok (-9223372036854775808)%Z /\ is_int (-9223372036854775808) /\
  DecodeInteger (B "i9223372036854775808e") = Err EWrongParam /\
  DecodeInteger (B "i+007e") = Ok 7%Z /\ lenient_int (B "+007") 7 /\
  DecodeInteger (B "i-0e") = Err EWrongParam /\ DecodeInteger (B "i007e") = Err EWrongParam.
Proof.
  repeat split; try (vm_compute; reflexivity); try (vm_compute; discriminate).
  right. exists (B "007"), 7%N. split; [reflexivity|]. split; [discriminate|]. split; [|reflexivity].
  apply digits_udigits. reflexivity.
Qed.

(** ** C03, C04 *)

Lemma split2 ds s : ~ In ":"%char ds -> ~ In ":"%char s -> split_on ":" (ds ++ ":"%char :: s) = [ds; s].
Proof. intros H1 H2. rewrite split_on_app by exact H1. rewrite split_on_none by exact H2. reflexivity. Qed.

Lemma utoa_no_colon n : ~ In ":"%char (utoa n).
Proof.
  intros H. pose proof (utoa_digits n) as Hd. rewrite Forall_forall in Hd. specialize (Hd _ H). discriminate.
Qed.

Lemma split_on_In sep s : In sep s -> 2 <= length (split_on sep s).
Proof.
  induction s as [|c t IH]; [intros []|]. cbn [split_on]. destruct (Ascii.eqb_spec c sep) as [->|Hc].
  - intros _. cbn [length]. pose proof (split_on_nonempty sep t). destruct (split_on sep t); [congruence|cbn; lia].
  - intros [?|Hin]; [congruence|]. specialize (IH Hin). destruct (split_on sep t); cbn [length] in *; lia.
Qed.

(** C03: EncodeString writes <canonical length>:<bytes>; DecodeString reads it back
    exactly when the string has no ':' and otherwise returns an error. *)
Lemma C03_string_roundtrip_iff_pf : forall s, fits s ->
  exists e ds, EncodeString s = Ok e /\ decimal_nat ds (N.of_nat (length s)) /\ e = ds ++ ":"%char :: s /\
  (~ In ":"%char s -> DecodeString e = Ok s) /\
  (In ":"%char s -> exists er, DecodeString e = Err er).
Proof.
  intros s Hf. exists (utoa (N.of_nat (length s)) ++ ":"%char :: s), (utoa (N.of_nat (length s))).
  split; [unfold EncodeString; rewrite itoa_nat; reflexivity|].
  split; [apply decimal_nat_iff; reflexivity|]. split; [reflexivity|].
  set (ds := utoa (N.of_nat (length s))).
  assert (Hds : 1 <= length ds).
  { unfold ds. pose proof (utoa_nonempty (N.of_nat (length s))). destruct (utoa (N.of_nat (length s))); [congruence|cbn; lia]. }
  assert (Hlen : length (ds ++ ":"%char :: s) <? 2 = false).
  { apply Nat.ltb_ge. rewrite app_length. cbn [length]. lia. }
  unfold DecodeString. rewrite Hlen. split; intros Hc.
  - rewrite split2 by (try exact Hc; apply utoa_no_colon). cbn [length].
    replace ((2 <? 1) || (2 <? 2)) with false by reflexivity. cbn [orb].
    change (idx [ds; s] 0) with (@Ok bytes ds). change (idx [ds; s] 1) with (@Ok bytes s). cbn [bind].
    unfold ds. rewrite atoi_utoa by (unfold fits in Hf; lia). cbn [bind].
    destruct (Z.eqb_spec (Z.of_nat (length s)) (Z.of_N (N.of_nat (length s)))); [reflexivity|lia].
  - exists EWrongParam. rewrite split_on_app by apply utoa_no_colon. cbn [length].
    pose proof (split_on_In _ _ Hc) as Hl.
    destruct (Nat.ltb_spec 2 (S (length (split_on ":" s)))) as [H|H]; [|lia].
    destruct (Nat.ltb_spec (S (length (split_on ":" s))) 1); reflexivity.
Qed.

(** C03, full claim refuted: a string with ':' does not survive the round trip. *)
Lemma C03_string_roundtrip_refuted_pf : exists s e, fits s /\ EncodeString s = Ok e /\ DecodeString e = Err EWrongParam.
Proof.
  exists (B "http://x"), (B "8:http://x"). split; [vm_compute; discriminate|]. split; vm_compute; reflexivity.
Qed.

(** C04: DecodeString's panics are exactly the strings of at least two bytes without ':'
    that are a number; the full claim (no panic at all) is refuted by "12". *)
Lemma C04_decode_string_panics_pf : forall s,
  (exists p, DecodeString s = Panic p) <->
  (2 <= length s /\ ~ In ":"%char s /\
   exists ds n z, is_int z /\ digits ds n /\ ds <> [] /\
     ((s = ds /\ z = Z.of_N n) \/ (s = "+"%char :: ds /\ z = Z.of_N n) \/ (s = "-"%char :: ds /\ z = (- Z.of_N n)%Z))).
Proof.
  intros s. unfold DecodeString. destruct (Nat.ltb_spec (length s) 2) as [H|H].
  { split; [intros [p E]; discriminate|lia]. }
  destruct (in_dec ascii_dec ":"%char s) as [Hin|Hno].
  - split; [|tauto]. intros [p E]. exfalso.
    pose proof (split_on_In _ _ Hin) as Hl. destruct (split_on ":" s) as [|a [|b l]]; cbn [length] in Hl; [lia..|].
    destruct ((length (a :: b :: l) <? 1) || (2 <? length (a :: b :: l))); [discriminate|].
    change (idx (a :: b :: l) 0) with (@Ok bytes a) in E. change (idx (a :: b :: l) 1) with (@Ok bytes b) in E. cbn [bind] in E.
    destruct (atoi_cases a) as [[z Ha]|Ha]; rewrite Ha in E; [|discriminate].
    destruct (negb (Z.of_nat (length b) =? z)%Z); discriminate.
  - rewrite split_on_none by exact Hno. change ((length [s] <? 1) || (2 <? length [s])) with false. cbn iota.
    change (idx [s] 0) with (@Ok bytes s). change (idx [s] 1) with (@Panic bytes PRuntime). cbn [bind].
    destruct (atoi_cases s) as [[z Ha]|Ha]; rewrite Ha.
    + split; [|eauto]. intros _. split; [exact H|]. split; [exact Hno|].
      apply atoi_inv in Ha as (Hz & ds & n & Hne & Hv & Hc). exists ds, n, z.
      rewrite digits_udigits. auto.
    + split; [intros [p E]; discriminate|]. intros (_ & _ & ds & n & z & Hz & Hd & Hne & Hc).
      apply digits_udigits in Hd. rewrite (atoi_ok s z ds n Hne Hd Hz Hc) in Ha. discriminate.
Qed.

(** C04: what DecodeString accepts, and what it makes of it: a number - digits with an optional sign - that is the length of
    the string, one ':' and the string, which contains no further ':'. *)
Lemma C04_decode_string_accepts_pf : forall src s, DecodeString src = Ok s <->
  exists num ds, src = num ++ ":"%char :: s /\ ~ In ":"%char s /\ digits ds (N.of_nat (length s)) /\ ds <> [] /\ is_int (Z.of_nat (length s)) /\
    (num = ds \/ num = "+"%char :: ds \/ (num = "-"%char :: ds /\ s = [])).
Proof.
  intros src s. split.
  - unfold DecodeString. destruct (Nat.ltb_spec (length src) 2) as [H|H]; [discriminate|].
    destruct (in_dec ascii_dec ":"%char src) as [Hin|Hno].
    2:{ rewrite split_on_none by exact Hno. change ((length [src] <? 1) || (2 <? length [src])) with false. cbn iota.
        change (idx [src] 0) with (@Ok bytes src). change (idx [src] 1) with (@Panic bytes PRuntime). cbn [bind]. destruct (atoi_cases src) as [[z Ha]|Ha]; rewrite Ha; discriminate. }
    assert (Hsp : exists a b, src = a ++ ":"%char :: b /\ ~ In ":"%char a).
    { clear H. induction src as [|c t IH]; [elim Hin|]. destruct (ascii_dec c ":"%char) as [->|Hc]; [exists [], t; split; [reflexivity|intros []]|].
      destruct Hin as [->|Hin]; [congruence|]. destruct (IH Hin) as (a & b & -> & Ha). exists (c :: a), b. split; [reflexivity|]. intros [E|E]; [congruence|exact (Ha E)]. }
    destruct Hsp as (a & b & -> & Hna). rewrite split_on_app by exact Hna.
    destruct (in_dec ascii_dec ":"%char b) as [Hb|Hb].
    { pose proof (split_on_In _ _ Hb) as Hl. destruct (split_on ":" b) as [|x [|y l]]; cbn [length] in Hl; [lia..|]. cbn [length Nat.ltb Nat.leb orb]. discriminate. }
    rewrite split_on_none by exact Hb. cbn [length Nat.ltb Nat.leb orb]. change (idx [a; b] 0) with (@Ok bytes a). change (idx [a; b] 1) with (@Ok bytes b). cbn [bind].
    destruct (atoi_cases a) as [[z Ha]|Ha]; rewrite Ha; [|discriminate]. destruct (Z.eqb_spec (Z.of_nat (length b)) z) as [E|E]; cbn [negb]; [|discriminate].
    intros Es. injection Es as <-. subst z. apply atoi_inv in Ha as (Hz & ds & n & Hne & Hv & Hc). exists a, ds. split; [reflexivity|]. split; [exact Hb|].
    assert (Hn : n = N.of_nat (length b)) by (destruct Hc as [[_ E]|[[_ E]|[_ E]]]; lia). subst n. split; [apply digits_udigits; exact Hv|]. split; [exact Hne|]. split; [exact Hz|].
    destruct Hc as [[-> _]|[[-> _]|[-> E]]]; [auto|auto|]. right; right. split; [reflexivity|]. destruct b; [reflexivity|cbn [length] in E; lia].
  - intros (num & ds & -> & Hs & Hd & Hne & Hz & Hc). apply digits_udigits in Hd.
    assert (Hnc : ~ In ":"%char num).
    { assert (Hds : ~ In ":"%char ds). { intros Hi. pose proof (udigits_forall _ _ _ Hd) as HF. rewrite Forall_forall in HF. specialize (HF _ Hi). discriminate HF. }
      destruct Hc as [->|[->|[-> _]]]; [exact Hds|intros [E|E]; [discriminate E|exact (Hds E)]|intros [E|E]; [discriminate E|exact (Hds E)]]. }
    assert (Ha : atoi num = Ok (Z.of_nat (length s))).
    { apply (atoi_ok num _ ds (N.of_nat (length s)) Hne Hd Hz). destruct Hc as [->|[->|[-> ->]]]; [left|right; left|right; right]; (split; [reflexivity|]); cbn [length]; lia. }
    unfold DecodeString. destruct (Nat.ltb_spec (length (num ++ ":"%char :: s)) 2) as [H|H].
    { exfalso. rewrite app_length in H. cbn [length] in H. destruct Hc as [->|[->|[-> _]]]; destruct ds; cbn [length] in H; try lia; congruence. }
    rewrite split_on_app by exact Hnc. rewrite split_on_none by exact Hs. cbn [length Nat.ltb Nat.leb orb]. change (idx [num; s] 0) with (@Ok bytes num). change (idx [num; s] 1) with (@Ok bytes s). cbn [bind].
    rewrite Ha, Z.eqb_refl. reflexivity.
Qed.

Lemma C04_decode_string_refuted_pf : exists s, DecodeString s = Panic PRuntime.
Proof. exists (B "12"). vm_compute. reflexivity. Qed.

(** ** C05, C06: round trips for every iteration order *)

Lemma veq_refl v : veq v v.
Proof.
  induction v as [z|k|l IH|d IH| | | |k] using val_ind'; constructor.
  - induction IH; constructor; assumption.
  - econstructor; [reflexivity|]. induction IH as [|e d He Hd IHd]; constructor; auto.
Qed.

Lemma Forall2_In_r {A C} (R : A -> C -> Prop) l l' y : Forall2 R l l' -> In y l' -> exists x, In x l /\ R x y.
Proof.
  induction 1 as [|a b l l' Hab H IH]; [intros []|]. intros [<-|Hin]; [exists a; split; [left; reflexivity|exact Hab]|].
  destruct (IH Hin) as (x & H1 & H2). exists x. split; [right; exact H1|exact H2].
Qed.

Lemma deq_keys d d' : deq d d' -> Permutation (map fst d) (map fst d').
Proof.
  intros H. inversion H as [? ? d'' Hp Hf]; subst. rewrite Hp. clear -Hf.
  induction Hf as [|x y l l' [E _] H IH]; cbn [map]; [constructor|]. rewrite E. constructor. exact IH.
Qed.

Lemma veq_go_plain v : forall v', veq v v' -> (go_value v -> go_value v') /\ (plain v -> plain v').
Proof.
  induction v as [z|k|l IH|d IH| | | |k] using val_ind'; intros v' H;
    inversion H as [| |l0 l' Hl E1 E2|d0 d' Hd E1 E2| | | |]; subst; try (split; intros; assumption).
  - rewrite Forall_forall in IH. split; intros Hg; inversion Hg; subst; constructor;
      intros y Hy; destruct (Forall2_In_r _ _ _ _ Hl Hy) as (x & Hin & Hxy);
      apply (IH x Hin y Hxy); auto.
  - rewrite Forall_forall in IH. pose proof (deq_keys _ _ Hd) as Hk.
    inversion Hd as [? ? d'' Hp Hf]; subst.
    assert (Hback : forall k v, In (k, v) d' -> exists x, In (k, x) d /\ veq x v).
    { intros k v Hin. destruct (Forall2_In_r _ _ _ _ Hf Hin) as ([k' x] & Hin' & Ek & Hxy). cbn [fst snd] in *. subst k'.
      exists x. split; [|exact Hxy]. eapply Permutation_in; [symmetry; exact Hp|exact Hin']. }
    split; intros Hg; inversion Hg; subst; constructor.
    + eapply Permutation_NoDup; eassumption.
    + intros k v Hin. destruct (Hback k v Hin) as (x & Hx & Hxy). apply (IH (k, x) Hx v Hxy); eauto.
    + intros k v Hin. destruct (Hback k v Hin) as (x & Hx & Hxy). apply (IH (k, x) Hx v Hxy); eauto.
Qed.

(** C08 (positive half). *)
Lemma plain_encodes v : plain v -> exists s, encodeItem v = Ok s.
Proof.
  induction v as [z|k|l IH|d IH| | | |k] using val_ind'; intros Hp; inversion Hp as [| |? Hl|? Hl]; subst; cbn [encodeItem].
  - eexists; reflexivity.
  - eexists; reflexivity.
  - assert (exists s, encode_items encodeItem l = Ok s) as [s ->]; [|eexists; reflexivity]. clear Hp.
    induction IH as [|x l Hx IHf IHl]; [eexists; reflexivity|]. rewrite encode_items_cons.
    destruct Hx as [a ->]; [apply Hl; left; reflexivity|]. destruct IHl as [b ->]; [intros; apply Hl; right; assumption|].
    eexists; reflexivity.
  - assert (exists s, encode_entries encodeItem d = Ok s) as [s ->]; [|eexists; reflexivity]. clear Hp.
    induction IH as [|[k x] l Hx IHf IHl]; [eexists; reflexivity|]. rewrite encode_entries_cons. cbn [snd] in Hx.
    destruct Hx as [a ->]; [eapply Hl; left; reflexivity|]. destruct IHl as [b ->]; [intros; eapply Hl; right; eassumption|].
    eexists; reflexivity.
Qed.

Lemma encodeItem_dict d : encodeItem (VDict d) = EncodeDict (Some d).
Proof. reflexivity. Qed.
Lemma encodeItem_list l : encodeItem (VList l) = EncodeSlice (Some l).
Proof. reflexivity. Qed.

Lemma bencoding_len v s : bencoding v s -> 2 <= length s.
Proof.
  intros H. inversion H as [z ds Hd|k ds Hd| |]; subst; cbn [length]; rewrite ?app_length; cbn [length]; try lia.
  destruct Hd as (_ & Hne & _). destruct ds; [congruence|cbn; lia].
Qed.
Lemma bencoding_dict_e d s : bencoding (VDict d) s -> ends_with_e s.
Proof. intros H. inversion H as [| | |d0 s0 _ _]; subst. exists ("d"%char :: s0). reflexivity. Qed.
Lemma bencoding_list_e d s : bencoding (VList d) s -> ends_with_e s.
Proof. intros H. inversion H as [| |d0 s0 _|]; subst. exists ("l"%char :: s0). reflexivity. Qed.

(** Exact round trip for a given iteration order (used by later modules). *)
Lemma dict_roundtrip_exact d s : go_value (VDict d) -> fits s -> EncodeDict (Some d) = Ok s ->
  DecodeDict s = Ok (Some d) /\ DecodeDictNoLimit s = Ok (d, length s).
Proof.
  intros Hg Hf He. assert (Hb : bencoding (VDict d) s) by (apply bencoding_iff; auto).
  pose proof (bencoding_dict_x d s [] Hb) as Hx. rewrite app_nil_r in Hx. split.
  - apply DecodeDict_iff; [exact Hf|]. split; [eapply bencoding_len; eassumption|].
    split; [eapply bencoding_dict_e; eassumption|]. exists d, [], 0. auto.
  - apply DecodeDictNoLimit_iff; [exact Hf|]. split; [eapply bencoding_len; eassumption|].
    exists [], 0. split; [exact Hx|]. cbn [length]. lia.
Qed.

Lemma dict_prefix_exact d s rest : go_value (VDict d) -> fits (s ++ rest) -> EncodeDict (Some d) = Ok s ->
  DecodeDictNoLimit (s ++ rest) = Ok (d, length s).
Proof.
  intros Hg Hf He. assert (Hb : bencoding (VDict d) s) by (apply bencoding_iff; auto).
  pose proof (bencoding_dict_x d s rest Hb) as Hx.
  apply DecodeDictNoLimit_iff; [exact Hf|]. rewrite app_length. split; [pose proof (bencoding_len _ _ Hb); lia|].
  exists rest, 0. split; [exact Hx|]. lia.
Qed.

Lemma list_roundtrip_exact l s : go_value (VList l) -> fits s -> EncodeSlice (Some l) = Ok s -> DecodeSlice s = Ok l.
Proof.
  intros Hg Hf He. assert (Hb : bencoding (VList l) s) by (apply bencoding_iff; auto).
  pose proof (bencoding_list_x l s [] Hb) as Hx. rewrite app_nil_r in Hx.
  apply DecodeSlice_iff; [exact Hf|]. split; [eapply bencoding_len; eassumption|].
  split; [eapply bencoding_list_e; eassumption|exact Hx].
Qed.

(** C05: for a dictionary [d] of ints, strings, lists and dictionaries, and for every
    order [d'] in which the maps of [d] may be iterated, encoding succeeds and both
    dictionary decoders give back a dictionary equal to [d]. *)
Lemma C05_dict_roundtrip_pf : forall d d', go_value (VDict d) -> plain (VDict d) -> deq d d' ->
  exists s, EncodeDict (Some d') = Ok s /\
    (fits s -> exists r, deq d r /\ DecodeDict s = Ok (Some r) /\ DecodeDictNoLimit s = Ok (r, length s)).
Proof.
  intros d d' Hg Hp Hd. destruct (veq_go_plain (VDict d) (VDict d')) as [H1 H2]; [constructor; exact Hd|].
  destruct (plain_encodes (VDict d') (H2 Hp)) as [s Hs]. exists s. split; [exact Hs|].
  intros Hf. exists d'. split; [exact Hd|]. apply dict_roundtrip_exact; auto.
Qed.

(** C05 for lists. *)
Lemma C05_list_roundtrip_pf : forall l l', go_value (VList l) -> plain (VList l) -> veq (VList l) (VList l') ->
  exists s, EncodeSlice (Some l') = Ok s /\
    (fits s -> exists r, veq (VList l) (VList r) /\ DecodeSlice s = Ok r).
Proof.
  intros d d' Hg Hp Hd. destruct (veq_go_plain (VList d) (VList d')) as [H1 H2]; [exact Hd|].
  destruct (plain_encodes (VList d') (H2 Hp)) as [s Hs]. exists s. split; [exact Hs|].
  intros Hf. exists d'. split; [exact Hd|]. apply list_roundtrip_exact; auto.
Qed.

(** C05 non-vacuity: a nested dictionary iterated in two different orders. *)
Lemma C05_example_pf :
  let d  := [(B "t", VStr (B "aa")); (B "r", VDict [(B "id", VStr (B "x:e")); (B "n", VList [VInt (-5); VStr []])])] in
  let d' := [(B "r", VDict [(B "n", VList [VInt (-5); VStr []]); (B "id", VStr (B "x:e"))]); (B "t", VStr (B "aa"))] in
  go_value (VDict d) /\ plain (VDict d) /\ deq d d' /\
  EncodeDict (Some d') = Ok (B "d1:rd1:nli-5e0:e2:id3:x:ee1:t2:aae") /\ fits (B "d1:rd1:nli-5e0:e2:id3:x:ee1:t2:aae").
Proof.
  cbv zeta. split; [|split; [|split; [|split]]].
  - apply go_valueb_ok. vm_compute. reflexivity.
  - apply plainb_ok. vm_compute. reflexivity.
  - econstructor; [apply perm_swap|]. constructor; [|constructor; [|constructor]]; (split; [reflexivity|]); cbn [snd].
    + constructor. econstructor; [apply perm_swap|]. constructor; [|constructor; [|constructor]]; (split; [reflexivity|]); cbn [snd]; apply veq_refl.
    + constructor.
  - vm_compute. reflexivity.
  - vm_compute. discriminate.
Qed.

(** C06: with arbitrary bytes after the dictionary, DecodeDictNoLimit returns the
    dictionary and the offset of the first byte after it. *)
Lemma C06_end_offset_pf : forall d d' s rest, go_value (VDict d) -> deq d d' ->
  EncodeDict (Some d') = Ok s -> fits (s ++ rest) ->
  exists r, deq d r /\ DecodeDictNoLimit (s ++ rest) = Ok (r, length s) /\ skipn (length s) (s ++ rest) = rest.
Proof.
  intros d d' s rest Hg Hd He Hf. destruct (veq_go_plain (VDict d) (VDict d')) as [H1 _]; [constructor; exact Hd|].
  exists d'. split; [exact Hd|]. split; [apply dict_prefix_exact; auto|]. apply skipn_len_app.
Qed.

Lemma C06_example_pf :
  DecodeDictNoLimit (B "d8:msg_typei1e5:piecei0eeXYZde") = Ok ([(B "msg_type", VInt 1); (B "piece", VInt 0)], 25).
Proof. vm_compute. reflexivity. Qed.

(** ** C07 *)

(** C07: what the encoder writes is exactly the BEP-3 bencoding of the value, with the
    dictionary entries in iteration order. *)
Lemma C07_encoder_is_bencode_pf : forall d s, go_value (VDict d) ->
  (EncodeDict (Some d) = Ok s <-> bencoding (VDict d) s).
Proof.
  intros d s Hg. rewrite bencoding_iff, encodeItem_dict. tauto.
Qed.

Lemma C07_list_encoder_is_bencode_pf : forall l s, go_value (VList l) ->
  (EncodeSlice (Some l) = Ok s <-> bencoding (VList l) s).
Proof.
  intros d s Hg. rewrite bencoding_iff, encodeItem_list. tauto.
Qed.

(** C07, sorted keys refuted: there is an iteration order for which the output is not
    the bencoding of any key-sorted dictionary. *)
Lemma C07_sorted_keys_refuted_pf : exists d s, go_value (VDict d) /\ plain (VDict d) /\
  EncodeDict (Some d) = Ok s /\ forall d', bencoding (VDict d') s -> ~ sorted_keys d'.
Proof.
  exists [(B "b", VInt 1); (B "a", VInt 2)], (B "d1:bi1e1:ai2ee").
  split; [apply go_valueb_ok; reflexivity|]. split; [apply plainb_ok; reflexivity|]. split; [vm_compute; reflexivity|].
  intros d' Hb. apply bencoding_iff in Hb as [Hg He]. rewrite encodeItem_dict in He.
  assert (Hf : fits (B "d1:bi1e1:ai2ee")) by (vm_compute; discriminate).
  pose proof (proj1 (dict_roundtrip_exact _ _ Hg Hf He)) as Hr.
  vm_compute in Hr. injection Hr as <-. cbn [sorted_keys bytes_lt]. vm_compute. intuition discriminate.
Qed.

(** ** C08 *)

Lemma encode_outcome v :
  match encodeItem v with
  | Ok _ => plain v
  | Err e => e = EWrongParam /\ exists x, occurs x v /\ refused_leaf x
  | Panic p => p = PRuntime /\ exists x, occurs x v /\ panicking_leaf x
  end.
Proof.
  induction v as [z|k|l IH|d IH| | | |k] using val_ind'; cbn [encodeItem].
  - constructor.
  - constructor.
  - assert (Hl : match encode_items encodeItem l with
      | Ok _ => forall v, In v l -> plain v
      | Err e => e = EWrongParam /\ exists y, In y l /\ exists x, occurs x y /\ refused_leaf x
      | Panic p => p = PRuntime /\ exists y, In y l /\ exists x, occurs x y /\ panicking_leaf x end).
    { induction IH as [|x l Hx IHf IHl]; [intros v []|]. rewrite encode_items_cons.
      destruct (encodeItem x) as [a|e|p]; cbn [bind].
      - destruct (encode_items encodeItem l) as [b|e|p]; cbn [bind].
        + intros v [<-|Hin]; auto.
        + destruct IHl as [-> (y & Hy & Hx')]. split; [reflexivity|]. exists y. split; [right; exact Hy|exact Hx'].
        + destruct IHl as [-> (y & Hy & Hx')]. split; [reflexivity|]. exists y. split; [right; exact Hy|exact Hx'].
      - destruct Hx as [-> Hx]. split; [reflexivity|]. exists x. split; [left; reflexivity|exact Hx].
      - destruct Hx as [-> Hx]. split; [reflexivity|]. exists x. split; [left; reflexivity|exact Hx]. }
    destruct (encode_items encodeItem l) as [b|e|p]; cbn [bind].
    + constructor. exact Hl.
    + destruct Hl as [-> (y & Hy & x & Ho & Hr)]. split; [reflexivity|]. exists x. split; [econstructor; eassumption|exact Hr].
    + destruct Hl as [-> (y & Hy & x & Ho & Hr)]. split; [reflexivity|]. exists x. split; [econstructor; eassumption|exact Hr].
  - assert (Hl : match encode_entries encodeItem d with
      | Ok _ => forall k v, In (k, v) d -> plain v
      | Err e => e = EWrongParam /\ exists k y, In (k, y) d /\ exists x, occurs x y /\ refused_leaf x
      | Panic p => p = PRuntime /\ exists k y, In (k, y) d /\ exists x, occurs x y /\ panicking_leaf x end).
    { induction IH as [|[k x] l Hx IHf IHl]; [intros k v []|]. rewrite encode_entries_cons. cbn [snd] in Hx.
      destruct (encodeItem x) as [a|e|p]; cbn [bind].
      - destruct (encode_entries encodeItem l) as [b|e|p]; cbn [bind].
        + intros k' v [E|Hin]; [injection E as <- <-; exact Hx|]. eapply IHl; exact Hin.
        + destruct IHl as [-> (k' & y & Hy & Hx')]. split; [reflexivity|]. exists k', y. split; [right; exact Hy|exact Hx'].
        + destruct IHl as [-> (k' & y & Hy & Hx')]. split; [reflexivity|]. exists k', y. split; [right; exact Hy|exact Hx'].
      - destruct Hx as [-> Hx]. split; [reflexivity|]. exists k, x. split; [left; reflexivity|exact Hx].
      - destruct Hx as [-> Hx]. split; [reflexivity|]. exists k, x. split; [left; reflexivity|exact Hx]. }
    destruct (encode_entries encodeItem d) as [b|e|p]; cbn [bind].
    + constructor. exact Hl.
    + destruct Hl as [-> (k & y & Hy & x & Ho & Hr)]. split; [reflexivity|]. exists x. split; [eapply occ_dict; eassumption|exact Hr].
    + destruct Hl as [-> (k & y & Hy & x & Ho & Hr)]. split; [reflexivity|]. exists x. split; [eapply occ_dict; eassumption|exact Hr].
  - split; [reflexivity|]. exists VNilList. split; [constructor|]. unfold refused_leaf. auto.
  - split; [reflexivity|]. exists VNilDict. split; [constructor|]. unfold refused_leaf. auto.
  - split; [reflexivity|]. exists VNil. split; [constructor|]. unfold panicking_leaf. auto.
  - destruct k; (split; [reflexivity|]); eexists; (split; [constructor|]); unfold refused_leaf, panicking_leaf; auto 6.
Qed.

(** C08: EncodeDict and EncodeSlice succeed exactly on non-nil containers built from
    ints, strings, non-nil Lists and non-nil Dicts; an error means a refused value
    occurs, a panic means an untyped nil or a named int/string occurs. *)
Lemma C08_encoder_domain_pf :
  (forall d, (exists s, EncodeDict (Some d) = Ok s) <-> plain (VDict d)) /\
  (forall l, (exists s, EncodeSlice (Some l) = Ok s) <-> plain (VList l)) /\
  EncodeDict None = Err EWrongParam /\ EncodeSlice None = Err EWrongParam /\
  (forall d e, EncodeDict (Some d) = Err e -> e = EWrongParam /\ exists x, occurs x (VDict d) /\ refused_leaf x) /\
  (forall l e, EncodeSlice (Some l) = Err e -> e = EWrongParam /\ exists x, occurs x (VList l) /\ refused_leaf x) /\
  (forall d p, EncodeDict (Some d) = Panic p -> p = PRuntime /\ exists x, occurs x (VDict d) /\ panicking_leaf x) /\
  (forall l p, EncodeSlice (Some l) = Panic p -> p = PRuntime /\ exists x, occurs x (VList l) /\ panicking_leaf x).
Proof.
  split; [|split; [|split; [reflexivity|split; [reflexivity|]]]].
  - intros d. split; [|apply (plain_encodes (VDict d))]. intros [s H]. pose proof (encode_outcome (VDict d)) as Ho.
    rewrite encodeItem_dict, H in Ho. exact Ho.
  - intros d. split; [|apply (plain_encodes (VList d))]. intros [s H]. pose proof (encode_outcome (VList d)) as Ho.
    rewrite encodeItem_list, H in Ho. exact Ho.
  - split; [|split; [|split]]; intros d e H.
    + pose proof (encode_outcome (VDict d)) as Ho. rewrite encodeItem_dict, H in Ho. exact Ho.
    + pose proof (encode_outcome (VList d)) as Ho. rewrite encodeItem_list, H in Ho. exact Ho.
    + pose proof (encode_outcome (VDict d)) as Ho. rewrite encodeItem_dict, H in Ho. exact Ho.
    + pose proof (encode_outcome (VList d)) as Ho. rewrite encodeItem_list, H in Ho. exact Ho.
Qed.

Lemma C08_examples_pf :
  EncodeDict (Some [(B "a", VList [VNil])]) = Panic PRuntime /\
  EncodeDict (Some [(B "a", VList [VNilDict])]) = Err EWrongParam /\
  EncodeDict (Some [(B "a", VOther KNamedInt)]) = Panic PRuntime /\
  EncodeSlice (Some []) = Ok (B "le").
Proof. repeat split. Qed.

(** ** C09 *)

(** C09: success, value and end offset of the decoders are those of the lenient grammar. *)
Lemma C09_decode_dict_sound_pf : forall src d n, fits src -> DecodeDictNoLimit src = Ok (d, n) ->
  exists rest u, item src (VDict d) rest u /\ n = length src - length rest + u.
Proof.
  intros src d n Hf H. apply DecodeDictNoLimit_iff in H as (_ & rest & u & Hx & ->); [|exact Hf].
  exists rest, u. split; [apply x_to_item; exact Hx|reflexivity].
Qed.

Lemma C09_decode_dict_complete_pf : forall src d rest u, fits src -> 2 <= length src -> item src (VDict d) rest u ->
  exists d', deq d d' /\ DecodeDictNoLimit src = Ok (d', length src - length rest + u).
Proof.
  intros src d rest u Hf Hl H. apply (proj1 item_to_x) in H as (v' & Hv & Hx).
  inversion Hv as [| | |d0 d' Hd| | | |]; subst. exists d'. split; [exact Hd|].
  apply DecodeDictNoLimit_iff; [exact Hf|]. eauto.
Qed.

(** The grammar is unambiguous (up to the order of dictionary entries). *)
Lemma C09_grammar_unambiguous_pf : forall src v rest u v' rest' u', fits src ->
  item src v rest u -> item src v' rest' u' -> exists w, veq v w /\ veq v' w /\ rest = rest' /\ u = u'.
Proof.
  intros src v rest u v' rest' u' Hf H H'.
  apply (proj1 item_to_x) in H as (w & Hw & Hx). apply (proj1 item_to_x) in H' as (w' & Hw' & Hx').
  assert (Hd : decodeItem (2 * length src + 1) src 0 = Ok (w, 0 + (length src - length rest) + u))
    by (apply (proj1 x_complete _ _ _ _ Hx); [exact Hf|reflexivity|lia]).
  assert (Hd' : decodeItem (2 * length src + 1) src 0 = Ok (w', 0 + (length src - length rest') + u'))
    by (apply (proj1 x_complete _ _ _ _ Hx'); [exact Hf|reflexivity|lia]).
  rewrite Hd in Hd'. assert (w' = w) as -> by congruence.
  assert (En : 0 + (length src - length rest) + u = 0 + (length src - length rest') + u') by congruence.
  pose proof (proj1 x_consumed _ _ _ _ Hx) as [[[c Hc] Hu] Hlt].
  pose proof (proj1 x_consumed _ _ _ _ Hx') as [[[c' Hc'] Hu'] Hlt'].
  exists w. split; [exact Hw|]. split; [exact Hw'|].
  destruct u as [|u].
  - destruct u' as [|u'].
    + split; [|reflexivity]. assert (Hl : length rest = length rest') by lia.
      rewrite Hc in Hc'. assert (length c = length c').
      { apply (f_equal (@length _)) in Hc'. rewrite !app_length in Hc'. lia. }
      clear - Hc' H. revert c' Hc' H. induction c as [|x c IH]; destruct c' as [|y c']; cbn; intros E Hl; try lia; [congruence|].
      apply (IH c'); [congruence|lia].
    + rewrite Hu' in * by lia. cbn [length] in *. lia.
  - rewrite Hu in * by lia. destruct u' as [|u']; [cbn [length] in *; lia|]. rewrite Hu' in * by lia.
    cbn [length] in *. split; [reflexivity|lia].
Qed.

(** Leniencies that BEP-3 does not have: '+', leading zeros in lengths, duplicate keys, open containers. *)
Lemma C09_leniencies_pf :
  DecodeDictNoLimit (B "d1:ai+1e01:b2:cce") = Ok ([(B "a", VInt 1); (B "b", VStr (B "cc"))], 17) /\
  DecodeDictNoLimit (B "d1:ai1e1:ai2ee") = Ok ([(B "a", VInt 2)], 14) /\
  DecodeDictNoLimit (B "d1:ali1e") = Ok ([(B "a", VList [VInt 1])], 10).
Proof. vm_compute. repeat split. Qed.

(** ** C10 *)

Definition stable {A} (f : nat -> res A) (n : nat) : Prop := forall m, n <= m -> f m = f n.

Lemma fuel_mono src : forall f,
  (forall j, decodeItem f src j <> Panic PFuel -> decodeItem (S f) src j = decodeItem f src j) /\
  (forall j acc, sliceLoop f src j acc <> Panic PFuel -> sliceLoop (S f) src j acc = sliceLoop f src j acc) /\
  (forall j acc, dictLoop f src j acc <> Panic PFuel -> dictLoop (S f) src j acc = dictLoop f src j acc).
Proof.
  induction f as [|f (IHi & IHl & IHd)].
  { repeat split; intros; exfalso; auto. }
  split; [|split].
  - intros j. cbn [decodeItem].
    destruct (idx src j) as [c|e|p]; cbn [bind]; [|reflexivity..].
    destruct (Ascii.eqb c "i"); [reflexivity|].
    destruct (Ascii.eqb c "l").
    { intros H. fold decodeItem in *. rewrite (IHl (S j) []); [reflexivity|].
      intros E. rewrite E in H. apply H. reflexivity. }
    destruct (Ascii.eqb c "d"); [|reflexivity].
    intros H. rewrite (IHd (S j) []); [reflexivity|]. intros E. rewrite E in H. apply H. reflexivity.
  - intros j acc H. cbn [sliceLoop] in H |- *. fold sliceLoop decodeItem in *.
    destruct (j <? length src); [|reflexivity]. destruct (idx src j) as [c|e|p]; cbn [bind] in *; [|reflexivity..].
    destruct (Ascii.eqb c "e"); [reflexivity|].
    assert (Hi : decodeItem f src j <> Panic PFuel) by (intros E; rewrite E in H; apply H; reflexivity).
    rewrite <- (IHi j Hi) in H. rewrite <- (IHi j Hi). clear Hi.
    change (bind (decodeItem (S f) src j) (fun '(tmp, nextIdx) => sliceLoop (S f) src nextIdx (acc ++ [tmp])) =
            bind (decodeItem (S f) src j) (fun '(tmp, nextIdx) => sliceLoop f src nextIdx (acc ++ [tmp]))).
    destruct (decodeItem (S f) src j) as [[v n]|e|p]; cbn [bind] in *; [|reflexivity..].
    apply IHl. exact H.
  - intros j acc H. cbn [dictLoop] in H |- *. fold dictLoop decodeItem in *.
    destruct (j <? length src); [|reflexivity]. destruct (idx src j) as [c|e|p]; cbn [bind] in *; [|reflexivity..].
    destruct (Ascii.eqb c "e"); [reflexivity|].
    assert (Hi : decodeItem f src j <> Panic PFuel) by (intros E; rewrite E in H; apply H; reflexivity).
    rewrite <- (IHi j Hi) in H. rewrite <- (IHi j Hi). clear Hi.
    change (bind (decodeItem (S f) src j) (fun '(ktmp, next) => match ktmp with VStr key => bind (decodeItem (S f) src next) (fun '(v, next') => dictLoop (S f) src next' (dset acc key v)) | _ => Err EWrongParam end) =
            bind (decodeItem (S f) src j) (fun '(ktmp, next) => match ktmp with VStr key => bind (decodeItem f src next) (fun '(v, next') => dictLoop f src next' (dset acc key v)) | _ => Err EWrongParam end)).
    destruct (decodeItem (S f) src j) as [[kt n]|e|p]; cbn [bind] in *; [|reflexivity..].
    destruct kt as [|k| | | | | |]; try reflexivity.
    assert (Hi : decodeItem f src n <> Panic PFuel) by (intros E; rewrite E in H; apply H; reflexivity).
    rewrite <- (IHi n Hi) in H. rewrite <- (IHi n Hi). clear Hi.
    destruct (decodeItem (S f) src n) as [[v n']|e|p]; cbn [bind] in *; [|reflexivity..].
    apply IHd. exact H.
Qed.

Lemma inner_no_fuel src : fits src ->
  sliceLoop (dec_fuel src) src 1 [] <> Panic PFuel /\ dictLoop (dec_fuel src) src 1 [] <> Panic PFuel.
Proof.
  intros Hf. destruct (x_panics src Hf (dec_fuel src)) as (_ & Hl & Hd). unfold dec_fuel in *. split; intros E.
  - apply Hl in E as [? _]; [discriminate|lia].
  - apply Hd in E as [? _]; [discriminate|lia].
Qed.

Lemma fuel_mono_le src f g : f <= g ->
  (forall j acc, sliceLoop f src j acc <> Panic PFuel -> sliceLoop g src j acc = sliceLoop f src j acc) /\
  (forall j acc, dictLoop f src j acc <> Panic PFuel -> dictLoop g src j acc = dictLoop f src j acc).
Proof.
  induction 1 as [|g Hle (IHl & IHd)]; [split; reflexivity|]. split; intros j acc H.
  - rewrite <- (IHl j acc H). apply fuel_mono. rewrite (IHl j acc H). exact H.
  - rewrite <- (IHd j acc H). apply fuel_mono. rewrite (IHd j acc H). exact H.
Qed.

(** C10: every decoder finishes: 2*len+2 nested calls and loop iterations always
    suffice (the model's out-of-fuel marker is never reached), and more would not
    change the result. *)
Lemma C10_decoders_terminate_pf : forall src, fits src ->
  no_fuel (DecodeInteger src) /\ no_fuel (DecodeString src) /\ no_fuel (DecodeSlice src) /\
  no_fuel (DecodeDict src) /\ no_fuel (DecodeDictNoLimit src) /\
  (forall f, 2 * length src + 2 <= f ->
     sliceLoop f src 1 [] = sliceLoop (2 * length src + 2) src 1 [] /\
     dictLoop f src 1 [] = dictLoop (2 * length src + 2) src 1 []).
Proof.
  intros src Hf. destruct (inner_no_fuel src Hf) as [Hl Hd].
  assert (Hidx : forall i, idx src i <> Panic PFuel) by (intros i; unfold idx; destruct (nth_error src i); discriminate).
  assert (Hs : innerDecodeSlice src 0 <> Panic PFuel).
  { unfold innerDecodeSlice. specialize (Hidx 0). destruct (idx src 0) as [c|e|p]; cbn [bind]; [|discriminate|congruence].
    destruct (negb (Ascii.eqb c "l")); [discriminate|exact Hl]. }
  assert (Hd' : innerDecodeDict src 0 <> Panic PFuel).
  { unfold innerDecodeDict. specialize (Hidx 0). destruct (idx src 0) as [c|e|p]; cbn [bind]; [|discriminate|congruence].
    destruct (negb (Ascii.eqb c "d")); [discriminate|exact Hd]. }
  split; [|split; [|split; [|split; [|split]]]].
  - apply C02_decode_integer_pf.
  - unfold no_fuel, DecodeString. destruct (length src <? 2); [discriminate|].
    destruct ((length (split_on ":" src) <? 1) || (2 <? length (split_on ":" src))); [discriminate|].
    assert (Hi : forall i, idx (split_on ":" src) i <> Panic PFuel) by (intros i; unfold idx; destruct (nth_error (split_on ":" src) i); discriminate).
    pose proof (Hi 0) as H0. destruct (idx (split_on ":" src) 0) as [s0|e|p]; cbn [bind]; [|discriminate|congruence].
    destruct (atoi_cases s0) as [[z ->]| ->]; [|discriminate].
    pose proof (Hi 1) as H1. destruct (idx (split_on ":" src) 1) as [s1|e|p]; cbn [bind]; [|discriminate|congruence].
    destruct (negb (Z.of_nat (length s1) =? z)%Z); discriminate.
  - unfold no_fuel, DecodeSlice. destruct (length src <? 2); [discriminate|].
    pose proof (Hidx 0) as H0. destruct (idx src 0) as [c|e|p]; cbn [bind]; [|discriminate|congruence].
    pose proof (Hidx (length src - 1)) as H1. destruct (idx src (length src - 1)) as [cl|e|p]; cbn [bind]; [|discriminate|congruence].
    destruct (negb (Ascii.eqb c "l") || negb (Ascii.eqb cl "e")); [discriminate|].
    destruct (innerDecodeSlice src 0) as [[r n]|e|p]; cbn [bind]; [|discriminate|congruence].
    destruct (negb (n =? length src)); discriminate.
  - unfold no_fuel, DecodeDict. destruct (length src <? 2); [discriminate|].
    pose proof (Hidx 0) as H0. destruct (idx src 0) as [c|e|p]; cbn [bind]; [|discriminate|congruence].
    pose proof (Hidx (length src - 1)) as H1. destruct (idx src (length src - 1)) as [cl|e|p]; cbn [bind]; [|discriminate|congruence].
    destruct (negb (Ascii.eqb c "d") || negb (Ascii.eqb cl "e")); [discriminate|].
    destruct (innerDecodeDict src 0) as [[r n]|e|p]; cbn [bind]; [|discriminate|congruence].
    destruct (n <? length src); discriminate.
  - unfold no_fuel, DecodeDictNoLimit. destruct (length src <? 2); [discriminate|].
    pose proof (Hidx 0) as H0. destruct (idx src 0) as [c|e|p]; cbn [bind]; [|discriminate|congruence].
    destruct (negb (Ascii.eqb c "d")); [discriminate|exact Hd'].
  - intros f Hle. split; apply fuel_mono_le; assumption.
Qed.

(** ** C11 *)

Lemma ends_e_not_truncated src : ends_with_e src -> ~ truncated_integer src.
Proof.
  intros [a Ha] (pre & l & E & Hn). rewrite Ha in E. destruct (exists_last (l := "i"%char :: l) ltac:(discriminate)) as (m & x & Em).
  rewrite Em, app_assoc in E. apply app_inj_tail in E as [_ <-].
  destruct m as [|m0 m]; [discriminate|]. injection Em as _ ->. apply Hn, in_or_app. right. left. reflexivity.
Qed.

(** C11: a list or dictionary decoder can only panic with a run-time error; for
    DecodeSlice and DecodeDict a string length near 2^63 is the only cause, for
    DecodeDictNoLimit an integer without 'e' is the other one. *)
Lemma C11_panic_causes_pf : forall src p, fits src ->
  (DecodeSlice src = Panic p -> p = PRuntime /\ length_overflow src) /\
  (DecodeDict src = Panic p -> p = PRuntime /\ length_overflow src) /\
  (DecodeDictNoLimit src = Panic p -> p = PRuntime /\ (length_overflow src \/ truncated_integer src)).
Proof.
  intros src p Hf. destruct (x_panics src Hf (dec_fuel src)) as (_ & Hl & Hd). unfold dec_fuel in Hl, Hd.
  split; [|split].
  - unfold DecodeSlice. destruct (Nat.ltb_spec (length src) 2) as [|Hlen]; [discriminate|].
    destruct src as [|c s]; [cbn in Hlen; lia|]. change (idx (c :: s) 0) with (@Ok byte c). cbn [bind].
    destruct (idx_lt (c :: s) (length (c :: s) - 1)) as (cl & Hcl & _); [cbn; lia|].
    rewrite Hcl. cbn [bind]. apply idx_last in Hcl; [|discriminate].
    destruct (negb (Ascii.eqb c "l") || negb (Ascii.eqb cl "e")) eqn:E; [discriminate|].
    apply orb_false_iff in E as [E1 E2]. apply negb_false_iff in E1, E2. apply Ascii.eqb_eq in E1, E2. subst c cl.
    unfold innerDecodeSlice. change (idx ("l"%char :: s) 0) with (@Ok byte "l"%char). cbn [bind]. rewrite Ascii.eqb_refl. cbn [negb].
    destruct (sliceLoop (dec_fuel ("l"%char :: s)) ("l"%char :: s) 1 []) as [[r n]|e|q] eqn:E; cbn [bind]; [destruct (negb (n =? length ("l"%char :: s))); discriminate|discriminate|].
    intros Eq; injection Eq as <-. apply Hl in E as [-> [Ho|Ht]]; [auto| |lia].
    exfalso. eapply ends_e_not_truncated; eassumption.
  - unfold DecodeDict. destruct (Nat.ltb_spec (length src) 2) as [|Hlen]; [discriminate|].
    destruct src as [|c s]; [cbn in Hlen; lia|]. change (idx (c :: s) 0) with (@Ok byte c). cbn [bind].
    destruct (idx_lt (c :: s) (length (c :: s) - 1)) as (cl & Hcl & _); [cbn; lia|].
    rewrite Hcl. cbn [bind]. apply idx_last in Hcl; [|discriminate].
    destruct (negb (Ascii.eqb c "d") || negb (Ascii.eqb cl "e")) eqn:E; [discriminate|].
    apply orb_false_iff in E as [E1 E2]. apply negb_false_iff in E1, E2. apply Ascii.eqb_eq in E1, E2. subst c cl.
    unfold innerDecodeDict. change (idx ("d"%char :: s) 0) with (@Ok byte "d"%char). cbn [bind]. rewrite Ascii.eqb_refl. cbn [negb].
    destruct (dictLoop (dec_fuel ("d"%char :: s)) ("d"%char :: s) 1 []) as [[r n]|e|q] eqn:E; cbn [bind]; [destruct (n <? length ("d"%char :: s)); discriminate|discriminate|].
    intros Eq; injection Eq as <-. apply Hd in E as [-> [Ho|Ht]]; [auto| |lia].
    exfalso. eapply ends_e_not_truncated; eassumption.
  - unfold DecodeDictNoLimit. destruct (Nat.ltb_spec (length src) 2) as [|Hlen]; [discriminate|].
    destruct src as [|c s]; [cbn in Hlen; lia|]. change (idx (c :: s) 0) with (@Ok byte c). cbn [bind].
    destruct (Ascii.eqb_spec c "d") as [->|]; cbn [negb]; [|discriminate].
    unfold innerDecodeDict. change (idx ("d"%char :: s) 0) with (@Ok byte "d"%char). cbn [bind]. rewrite Ascii.eqb_refl. cbn [negb].
    intros E. eapply Hd; [|exact E]. lia.
Qed.

Lemma udigits_bound ds n : udigits 0 ds = Some n -> (n < 10 ^ N.of_nat (length ds))%N.
Proof.
  revert n; induction ds as [|c ds IH] using rev_ind; intros n H.
  - injection H as <-. reflexivity.
  - rewrite udigits_app in H. destruct (udigits 0 ds) as [m|]; [|discriminate]. specialize (IH m eq_refl).
    cbn [udigits] in H. destruct (is_digit c) eqn:Ec; [|discriminate]. injection H as <-.
    apply is_digit_val_lt in Ec. rewrite app_length. cbn [length]. rewrite Nat.add_1_r, Nat2N.inj_succ, N.pow_succ_r'. lia.
Qed.

(** C11, usable form: an input shorter than 2^62 bytes without a run of 19 decimal
    digits makes neither DecodeSlice nor DecodeDict panic. *)
Lemma C11_no_panic_without_long_digit_runs_pf : forall src,
  (Z.of_nat (length src) < 2 ^ 62)%Z ->
  (forall a ds b, src = a ++ ds ++ b -> Forall (fun c => is_digit c = true) ds -> length ds < 19) ->
  returns (DecodeSlice src) /\ returns (DecodeDict src).
Proof.
  intros src Hlen Hruns.
  assert (Hf : fits src) by (unfold fits, max_int; lia).
  assert (Hno : ~ length_overflow src).
  { intros (pre & ds & n & t & E & Hd & Hn & Ho). apply digits_udigits in Hd.
    pose proof (Hruns _ _ _ E (udigits_forall _ _ _ Hd)) as Hl. apply udigits_bound in Hd.
    assert (Hpow : (10 ^ N.of_nat (length ds) <= 10 ^ 18)%N) by (apply N.pow_le_mono_r; lia).
    rewrite E, !app_length in Hlen. cbn [length] in Hlen. unfold max_int in *.
    assert (n < 10 ^ 18)%N by lia. change (10 ^ 18)%N with 1000000000000000000%N in *. lia. }
  split; intros p E; apply Hno; destruct (C11_panic_causes_pf src p Hf) as (H1 & H2 & _).
  - apply H1. exact E.
  - apply H2. exact E.
Qed.

(** C11, full claim refuted: both causes really panic. *)
Lemma C11_no_panic_refuted_pf :
  DecodeDict (B "d9223372036854775807:e") = Panic PRuntime /\
  DecodeSlice (B "l9223372036854775807:e") = Panic PRuntime /\
  DecodeDictNoLimit (B "d1:ai5") = Panic PRuntime /\
  DecodeDictNoLimit (B "d1:ai0") = Panic PRuntime.
Proof. vm_compute. repeat split. Qed.

(** ** C12, C13 *)

Lemma closed_ends_e :
  (forall inp l rest u, xitems inp l rest u -> rest = [] -> u = 0 -> ends_with_e inp) /\
  (forall inp l rest u, xpairs inp l rest u -> rest = [] -> u = 0 -> ends_with_e inp).
Proof.
  split.
  - induction 1 as [rest| |inp v mid u l rest u' Hi Hl IH]; intros Hr Hu; try subst rest.
    + exists []. reflexivity.
    + discriminate.
    + destruct IH as [a ->]; [reflexivity|lia|].
      apply (proj1 x_consumed) in Hi as [[[c ->] _] _]. exists (c ++ a). apply app_assoc.
  - induction 1 as [rest| |inp k mid v mid' u l rest u' Hk Hi Hl IH]; intros Hr Hu; try subst rest.
    + exists []. reflexivity.
    + discriminate.
    + destruct IH as [a ->]; [reflexivity|lia|].
      apply (proj1 x_consumed) in Hi as [[[c ->] _] _].
      apply (proj1 x_consumed) in Hk as [[[c' ->] _] _]. exists (c' ++ c ++ a). rewrite <- !app_assoc. reflexivity.
Qed.

(** C12: DecodeSlice accepts exactly the inputs that are one closed list. *)
Lemma C12_decode_slice_exact_pf : forall src, fits src ->
  (forall l, DecodeSlice src = Ok l -> item src (VList l) [] 0) /\
  (forall l, item src (VList l) [] 0 -> exists l', veq (VList l) (VList l') /\ DecodeSlice src = Ok l').
Proof.
  intros src Hf. split; intros l H.
  - apply DecodeSlice_iff in H as (_ & _ & Hx); [|exact Hf]. apply x_to_item. exact Hx.
  - apply (proj1 item_to_x) in H as (v' & Hv & Hx). inversion Hv as [| |l0 l' Hl| | | | |]; subst.
    exists l'. split; [exact Hv|]. apply DecodeSlice_iff; [exact Hf|].
    inversion Hx as [| |inp l0 rest u Hxs E|]; subst.
    destruct (proj1 closed_ends_e _ _ _ _ Hxs eq_refl eq_refl) as [a ->].
    split; [cbn [length]; rewrite app_length; cbn; lia|].
    split; [exists ("l"%char :: a); reflexivity|exact Hx].
Qed.

Lemma C12_example_pf :
  DecodeSlice (B "li1ee") = Ok [VInt 1] /\ DecodeSlice (B "li1eee") = Err EWrongParam /\ DecodeSlice (B "li1e") = Err EWrongParam.
Proof. vm_compute. repeat split. Qed.

(** C13, what DecodeDict really does: a non-nil result is a dictionary that reaches the
    end of the input, possibly with [u] containers left open; a nil result without error
    means there were trailing bytes. *)
Lemma C13_decode_dict_outcomes_pf : forall src, fits src ->
  (forall d, DecodeDict src = Ok (Some d) -> exists u, item src (VDict d) [] u) /\
  (DecodeDict src = Ok None -> exists d rest, rest <> [] /\ item src (VDict d) rest 0) /\
  (forall d, item src (VDict d) [] 0 -> exists d', deq d d' /\ DecodeDict src = Ok (Some d')) /\
  (forall d rest, item src (VDict d) rest 0 -> rest <> [] -> ends_with_e src -> DecodeDict src = Ok None).
Proof.
  intros src Hf. split; [|split; [|split]].
  - intros d H. apply DecodeDict_iff in H as (_ & _ & d' & rest & u & Hx & E); [|exact Hf].
    destruct rest; [|discriminate]. injection E as <-. exists u. apply x_to_item. exact Hx.
  - intros H. apply DecodeDict_iff in H as (_ & _ & d' & rest & u & Hx & E); [|exact Hf].
    destruct rest as [|r0 rest]; [discriminate|]. exists d', (r0 :: rest). split; [discriminate|].
    pose proof (proj1 x_consumed _ _ _ _ Hx) as [[_ Hu] _].
    assert (u = 0) as -> by (destruct u; [reflexivity|]; specialize (Hu ltac:(lia)); discriminate).
    apply x_to_item. exact Hx.
  - intros d H. apply (proj1 item_to_x) in H as (v' & Hv & Hx). inversion Hv as [| | |l0 l' Hl| | | |]; subst.
    exists l'. split; [exact Hl|]. apply DecodeDict_iff; [exact Hf|].
    inversion Hx as [| | |inp l0 rest u Hxs E E1]; subst.
    destruct (proj2 closed_ends_e _ _ _ _ Hxs eq_refl eq_refl) as [a ->].
    split; [cbn [length]; rewrite app_length; cbn; lia|].
    split; [exists ("d"%char :: a); reflexivity|]. eexists _, [], 0. split; [exact Hx|reflexivity].
  - intros d rest H Hr He. apply (proj1 item_to_x) in H as (v' & Hv & Hx). inversion Hv as [| | |l0 l' Hl| | | |]; subst.
    apply DecodeDict_iff; [exact Hf|]. split; [|split; [exact He|]].
    + pose proof (proj1 x_consumed _ _ _ _ Hx) as [_ Hlt]. destruct rest; [congruence|]. cbn [length] in Hlt. lia.
    + exists l', rest, 0. split; [exact Hx|]. destruct rest; [congruence|reflexivity].
Qed.

(** C13 refuted: a nil dictionary without an error on trailing bytes, and acceptance of a
    dictionary whose closing 'e' is missing. *)
Lemma C13_decode_dict_exact_refuted_pf :
  DecodeDict (B "dede") = Ok None /\
  (exists d, DecodeDict (B "d1:ai1e") = Ok (Some d) /\ forall d', ~ item (B "d1:ai1e") (VDict d') [] 0).
Proof.
  split; [vm_compute; reflexivity|]. exists [(B "a", VInt 1)]. split; [vm_compute; reflexivity|].
  intros d' H. assert (Hf : fits (B "d1:ai1e")) by (vm_compute; discriminate).
  assert (H2 : 2 <= length (B "d1:ai1e")) by (vm_compute; lia).
  destruct (C09_decode_dict_complete_pf _ _ _ _ Hf H2 H) as (r & _ & E). vm_compute in E. discriminate.
Qed.

(** C01: the extreme integers and a small one meet the hypothesis; a number beyond does not. *)
Lemma C01_example_pf :
  is_int (-9223372036854775808) /\ is_int 9223372036854775807 /\ is_int (-40) /\ ~ is_int 9223372036854775808 /\
  EncodeInteger (-9223372036854775808) = Ok (B "i-9223372036854775808e") /\ EncodeInteger (-40) = Ok (B "i-40e") /\
  DecodeInteger (B "i-40e") = Ok (-40)%Z /\ DecodeInteger (B "i9223372036854775807e") = Ok 9223372036854775807%Z.
Proof. unfold is_int. repeat split; try (vm_compute; congruence). vm_compute. intros [_ H]. apply H. reflexivity. Qed.

(** C03: strings with and without ':' that a Go program can hold. *)
Lemma C03_example_pf :
  fits (B "spam") /\ fits [] /\ EncodeString (B "spam") = Ok (B "4:spam") /\ DecodeString (B "4:spam") = Ok (B "spam") /\
  EncodeString [] = Ok (B "0:") /\ DecodeString (B "0:") = Ok [] /\
  fits (B "a:b") /\ EncodeString (B "a:b") = Ok (B "3:a:b") /\ DecodeString (B "3:a:b") = Err EWrongParam.
Proof. repeat split; try (vm_compute; reflexivity); vm_compute; discriminate. Qed.

(** C04: inputs of both kinds: numbers without ':' panic, everything else returns. *)
Lemma C04_example_pf :
  DecodeString (B "-05") = Panic PRuntime /\ DecodeString (B "+7") = Panic PRuntime /\
  DecodeString (B "7") = Err EWrongParam /\ DecodeString (B "4x") = Err EWrongParam /\
  DecodeString (B "99999999999999999999") = Err EWrongParam /\ DecodeString (B "2:ab") = Ok (B "ab") /\ DecodeString (B "3:ab") = Err EWrongParam.
Proof. repeat split; vm_compute; reflexivity. Qed.

(** C07: a nested Go value with its encoding. *)
Lemma C07_example_pf :
  let d := [(B "t", VStr (B "aa")); (B "r", VDict [(B "id", VStr (B "x:e")); (B "n", VList [VInt (-5); VStr []])])] in
  let s := B "d1:t2:aa1:rd2:id3:x:e1:nli-5e0:eee" in
  go_value (VDict d) /\ EncodeDict (Some d) = Ok s /\ bencoding (VDict d) s /\
  go_value (VList [VDict d; VInt 0]) /\ EncodeSlice (Some [VDict d; VInt 0]) = Ok (B "l" ++ s ++ B "i0ee").
Proof.
  cbv zeta. assert (Hg : go_value (VDict [(B "t", VStr (B "aa")); (B "r", VDict [(B "id", VStr (B "x:e")); (B "n", VList [VInt (-5); VStr []])])])).
  { apply go_valueb_ok. vm_compute. reflexivity. }
  split; [exact Hg|]. split; [vm_compute; reflexivity|]. split; [apply C07_encoder_is_bencode_pf; [exact Hg|vm_compute; reflexivity]|].
  split; [apply go_valueb_ok; vm_compute; reflexivity|vm_compute; reflexivity].
Qed.

(** C09: an input with every kind of item, nested, that the grammar accepts: a derivation and what
    the decoder returns. *)
Lemma C09_example_pf :
  let src := B "d1:ad1:bl2:xyi-3eee1:ci+07ee..." in
  let d := [(B "a", VDict [(B "b", VList [VStr (B "xy"); VInt (-3)])]); (B "c", VInt 7)] in
  fits src /\ 2 <= length src /\ item src (VDict d) (B "...") 0 /\ DecodeDictNoLimit src = Ok (d, 28).
Proof.
  cbv zeta. split; [vm_compute; discriminate|]. split; [vm_compute; lia|]. split; [|vm_compute; reflexivity].
  assert (one : digits (B "1") 1) by (apply digits_udigits; vm_compute; repeat split; reflexivity).
  assert (key : forall c rest, rest <> [] -> item (B "1:" ++ c :: rest) (VStr [c]) rest 0).
  { intros c rest Hr. apply (it_str (B "1") [c] rest one); [discriminate|exact Hr]. }
  apply (it_dict (B "1:ad1:bl2:xyi-3eee1:ci+07ee...") [(B "a", VDict [(B "b", VList [VStr (B "xy"); VInt (-3)])]); (B "c", VInt 7)] _ (B "...") 0); [|apply mkdict_denotes].
  apply (ps_cons _ (B "a") (B "d1:bl2:xyi-3eee1:ci+07ee...") _ (B "1:ci+07ee...") 0 _ _ 0).
  - apply key. discriminate.
  - apply (it_dict (B "1:bl2:xyi-3eee1:ci+07ee...") [(B "b", VList [VStr (B "xy"); VInt (-3)])] _ (B "1:ci+07ee...") 0); [|apply mkdict_denotes].
    apply (ps_cons _ (B "b") (B "l2:xyi-3eee1:ci+07ee...") _ (B "e1:ci+07ee...") 0 _ _ 0); [apply key; discriminate| |constructor].
    apply (it_list (B "2:xyi-3eee1:ci+07ee...") _ _ 0).
    apply (its_cons _ _ (B "i-3eee1:ci+07ee...") 0 _ _ 0).
    + apply (it_str (B "2") (B "xy") (B "i-3eee1:ci+07ee...")); [apply digits_udigits; vm_compute; repeat split; reflexivity|discriminate|discriminate].
    + apply (its_cons _ _ (B "ee1:ci+07ee...") 0 _ _ 0); [|constructor].
      apply (it_int (B "-3") (B "ee1:ci+07ee...") (-3)). apply lenient_int_iff. split; vm_compute; reflexivity.
  - apply (ps_cons _ (B "c") (B "i+07ee...") _ (B "e...") 0 _ _ 0); [apply key; discriminate| |constructor].
    apply (it_int (B "+07") (B "e...") 7). apply lenient_int_iff. split; vm_compute; reflexivity.
Qed.

(** C10, C11, C13: hostile and harmless inputs that meet the hypotheses, with the outcomes. *)
Lemma C10_example_pf :
  let hostile := B "d1:al" ++ concat (repeat (B "l") 50) in
  fits hostile /\ (exists d n, DecodeDictNoLimit hostile = Ok (d, n)) /\ DecodeSlice hostile = Err EWrongParam.
Proof. cbv zeta. split; [vm_compute; discriminate|]. split; [eexists; eexists; vm_compute; reflexivity|vm_compute; reflexivity]. Qed.
Lemma C11_example_pf :
  fits (B "d9223372036854775807:e") /\ DecodeDict (B "d9223372036854775807:e") = Panic PRuntime /\ length_overflow (B "d9223372036854775807:e") /\
  fits (B "d1:ai5") /\ DecodeDictNoLimit (B "d1:ai5") = Panic PRuntime /\ truncated_integer (B "d1:ai5") /\
  DecodeDict (B "d999999999999999999:e") = Err EWrongParam.
Proof.
  split; [vm_compute; discriminate|]. split; [vm_compute; reflexivity|]. split.
  { exists (B "d"), (B "9223372036854775807"), 9223372036854775807%N, (B "e").
    split; [reflexivity|]. split; [apply digits_udigits; vm_compute; reflexivity|]. split; vm_compute; [discriminate|reflexivity]. }
  split; [vm_compute; discriminate|]. split; [vm_compute; reflexivity|]. split.
  { exists (B "d1:a"), (B "5"). split; [reflexivity|]. cbn. intuition discriminate. }
  vm_compute. reflexivity.
Qed.
Lemma C13_example_pf :
  DecodeDict (B "d1:ai1ee") = Ok (Some [(B "a", VInt 1)]) /\ item (B "d1:ai1ee") (VDict [(B "a", VInt 1)]) [] 0 /\
  DecodeDict (B "d1:ai1eee") = Ok None /\ ends_with_e (B "d1:ai1eee") /\ item (B "d1:ai1eee") (VDict [(B "a", VInt 1)]) (B "e") 0 /\
  DecodeDict (B "li1ee") = Err EWrongParam.
Proof.
  assert (H : forall rest, item (B "d1:ai1ee" ++ rest) (VDict [(B "a", VInt 1)]) rest 0).
  { intros rest. apply (it_dict (B "1:ai1ee" ++ rest) [(B "a", VInt 1)] _ rest 0); [|apply mkdict_denotes].
    apply (ps_cons _ (B "a") (B "i1ee" ++ rest) _ (B "e" ++ rest) 0 _ _ 0); [| |constructor].
    - apply (it_str (B "1") (B "a") (B "i1ee" ++ rest)); [apply digits_udigits; vm_compute; reflexivity|discriminate|discriminate].
    - apply (it_int (B "1") (B "e" ++ rest) 1). apply lenient_int_iff. split; vm_compute; reflexivity. }
  split; [vm_compute; reflexivity|]. split; [exact (H [])|]. split; [vm_compute; reflexivity|].
  split; [exists (B "d1:ai1ee"); reflexivity|]. split; [exact (H (B "e"))|vm_compute; reflexivity].
Qed.
