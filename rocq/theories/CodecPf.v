(** CodecPf.v -- proofs of C100-C102. *)
From Verif Require Import Base GoLib Bencode BencodeSpec BencodeProofs BencodePf CodecSpec.
Local Open Scope list_scope.

Lemma x_det inp v rest u v' rest' u' : fits inp -> xitem inp v rest u -> xitem inp v' rest' u' -> v = v' /\ rest = rest' /\ u = u'.
Proof.
  intros Hf Hx Hx'.
  assert (Hd : decodeItem (2 * length inp + 1) inp 0 = Ok (v, 0 + (length inp - length rest) + u))
    by (apply (proj1 x_complete _ _ _ _ Hx); [exact Hf|reflexivity|lia]).
  assert (Hd' : decodeItem (2 * length inp + 1) inp 0 = Ok (v', 0 + (length inp - length rest') + u'))
    by (apply (proj1 x_complete _ _ _ _ Hx'); [exact Hf|reflexivity|lia]).
  split; [congruence|].
  destruct (C09_grammar_unambiguous_pf inp v rest u v' rest' u' Hf (proj1 x_to_item _ _ _ _ Hx) (proj1 x_to_item _ _ _ _ Hx')) as (w & _ & _ & H1 & H2). auto.
Qed.

Lemma fits_prefix p r : fits (p ++ r) -> fits p.
Proof. unfold fits. rewrite app_length. lia. Qed.
Lemma fits_suffix p r : fits (p ++ r) -> fits r.
Proof. unfold fits. rewrite app_length. lia. Qed.

Lemma xitem_nil v rest u : ~ xitem [] v rest u.
Proof. intros H. inversion H. destruct ds; discriminate. Qed.
Lemma xitems_nil l rest u : xitems [] l rest u -> l = [] /\ rest = [] /\ u = 1.
Proof. intros H. inversion H as [| |inp v mid u0 l0 r u' H1 H2]; subst; [auto|]. elim (xitem_nil _ _ _ H1). Qed.
Lemma xpairs_nil l rest u : xpairs [] l rest u -> l = [] /\ rest = [] /\ u = 1.
Proof. intros H. inversion H as [| |inp k mid v mid' u0 l0 r u' H1 H2 H3]; subst; [auto|]. elim (xitem_nil _ _ _ H1). Qed.

(** Where a prefix of a concatenation ends. *)
Lemma prefix_cases (s t p r : bytes) : s ++ t = p ++ r -> (exists r1, r1 <> [] /\ s = p ++ r1) \/ (exists p2, p = s ++ p2 /\ t = p2 ++ r).
Proof.
  revert p. induction s as [|c s IH]; intros p E.
  - right. exists p. auto.
  - destruct p as [|c' p]; [left; exists (c :: s); split; [discriminate|reflexivity]|]. cbn in E. injection E as <- E.
    destruct (IH p E) as [(r1 & Hr & ->)|(p2 & -> & ->)]; [left; exists r1; auto|right; exists p2; auto].
Qed.

Lemma digits_head ds n : digits ds n -> forall c t, ds = c :: t -> is_digit c = true.
Proof. intros H c t ->. apply digits_udigits, udigits_forall in H. inversion H; assumption. Qed.

Lemma bencoding_head v s : bencoding v s -> exists c t, s = c :: t /\ Ascii.eqb c "e" = false.
Proof.
  intros H. assert (Hx : xitem (s ++ ["e"%char]) v ["e"%char] 0) by (apply (proj1 bencoding_x); [exact H|discriminate]).
  pose proof (bencoding_len _ _ H) as Hl. destruct s as [|c t]; [cbn in Hl; lia|]. exists c, t. split; [reflexivity|]. eapply xitem_head. exact Hx.
Qed.

Lemma colon_split (ds ds' : bytes) t t' : ~ In ":"%char ds -> ~ In ":"%char ds' -> ds ++ ":"%char :: t = ds' ++ ":"%char :: t' -> ds = ds' /\ t = t'.
Proof.
  revert ds'. induction ds as [|c ds IH]; intros [|c' ds'] H H' E; cbn in E.
  - injection E as <-. auto.
  - injection E as <- _. elim H'. left. reflexivity.
  - injection E as -> _. elim H. left. reflexivity.
  - injection E as <- E. destruct (IH ds') as [-> ->]; [intros X; apply H; right; exact X|intros X; apply H'; right; exact X|exact E|auto].
Qed.
Lemma digits_colon ds n : digits ds n -> ~ In ":"%char ds.
Proof. intros H Hin. apply digits_udigits, udigits_forall in H. rewrite Forall_forall in H. specialize (H _ Hin). discriminate H. Qed.

(** A string cut short, or with nothing behind it, is not read. *)
Lemma str_too_short ds s p r v' rest u : digits ds (N.of_nat (length s)) -> ds <> [] -> ds ++ ":"%char :: s = p ++ r -> ~ xitem p v' rest u.
Proof.
  intros Hd Hne E H. destruct ds as [|c ds]; [congruence|]. pose proof (digits_head _ _ Hd c ds eq_refl) as Hc. apply is_digit_not_letter in Hc as Hc'.
  assert (Hp : exists p', p = c :: p'). { destruct p as [|c' p]; [elim (xitem_nil _ _ _ H)|]. injection E as -> _. eauto. }
  destruct Hp as (p' & ->). inversion H as [body r' z Hz Ei|ds' s' r' Hd' Hne' Hr' Es|inp l r' u' Hl El|inp ps r' u' Hp Ed].
  - subst c. discriminate Hc.
  - subst. rewrite <- Es in E. rewrite <- app_assoc in E. cbn [app] in E. rewrite <- app_assoc in E.
    change (c :: ds ++ ":"%char :: s) with ((c :: ds) ++ ":"%char :: s) in E.
    destruct (colon_split _ _ _ _ (digits_colon _ _ Hd) (digits_colon _ _ Hd') E) as [<- Et].
    apply digits_udigits in Hd, Hd'. rewrite Hd in Hd'. injection Hd' as Hn.
    apply (f_equal (@length _)) in Et. rewrite !app_length in Et. destruct rest; [congruence|]. cbn in Et. lia.
  - subst c. discriminate Hc.
  - subst c. discriminate Hc.
Qed.

(** A complete bencoding with nothing behind it is read as itself (or, if it is a string, not at all). *)
Lemma exact_x v s v' rest u : fits s -> bencoding v s -> xitem s v' rest u -> v' = v /\ rest = [] /\ u = 0.
Proof.
  intros Hf Hb Hx.
  assert (H : xitem s v [] 0 \/ forall a b c, ~ xitem s a b c).
  { destruct Hb as [z ds Hd Hz|s ds Hd|l s Hl|d s Hl Hn].
    - left. change (ds ++ ["e"%char]) with (ds ++ "e"%char :: []). constructor. split; auto.
    - right. intros a b c Hx'. destruct Hd as (H1 & H2 & _). eapply (str_too_short _ _ _ []); [exact H1|exact H2| |exact Hx']. rewrite app_nil_r. reflexivity.
    - left. rewrite <- (app_nil_r ("l"%char :: _)). apply bencoding_list_x. constructor. exact Hl.
    - left. rewrite <- (app_nil_r ("d"%char :: _)). apply bencoding_dict_x. constructor; assumption. }
  destruct H as [H|H]; [|elim (H _ _ _ Hx)]. destruct (x_det _ _ _ _ _ _ _ Hf H Hx) as (-> & -> & ->). auto.
Qed.

Lemma truncated_keys d d' : truncated_entries d d' -> exists ks, map fst d = map fst d' ++ ks.
Proof.
  intros H. induction H as [d|k v v' d Hv|k v d d' H [ks IH]]; cbn.
  - eauto.
  - exists (map fst d). reflexivity.
  - exists ks. rewrite IH. reflexivity.
Qed.

Lemma trunc_x :
  (forall v s, bencoding v s -> forall p r v' rest u, s = p ++ r -> r <> [] -> fits p -> xitem p v' rest u -> rest = [] /\ 0 < u /\ truncated v v') /\
  (forall l s, bencoding_items l s -> forall p r l' rest u, s ++ ["e"%char] = p ++ r -> r <> [] -> fits p -> xitems p l' rest u -> rest = [] /\ 0 < u /\ truncated_items l l') /\
  (forall d s, bencoding_entries d s -> NoDup (map fst d) -> forall p r ps rest u, s ++ ["e"%char] = p ++ r -> r <> [] -> fits p -> xpairs p ps rest u -> rest = [] /\ 0 < u /\ truncated_entries d ps).
Proof.
  apply bencoding_mutind.
  - intros z ds Hd Hz p r v' rest u E Hr Hf H. exfalso.
    destruct p as [|c p]; [elim (xitem_nil _ _ _ H)|]. injection E as <- E.
    inversion H as [body r' z' Hz' Ei|ds' s' r' Hd' Hne' Hr' Es|inp l r' u' Hl El|inp ps r' u' Hp Ed]; subst.
    + rewrite <- app_assoc in E. cbn [app] in E.
      assert (Hno : ~ In "e"%char ds) by (eapply lenient_no_e; split; [exact Hz|left; exact Hd]).
      assert (Hne : forall (a b x y : bytes), a ++ x = b ++ "e"%char :: y -> ~ In "e"%char a -> length b < length a -> False).
      { intros a b. revert a. induction b as [|c b IH]; intros [|c' a] x y E' Hn Hl; cbn in *; try lia.
        - injection E' as -> _. apply Hn. left. reflexivity.
        - injection E' as -> E'. eapply IH; [exact E'|intros X; apply Hn; right; exact X|lia]. }
      apply (Hne ds body _ _ E Hno). apply (f_equal (@length _)) in E. rewrite !app_length in E. cbn [length] in E. rewrite app_length in E. destruct r; [congruence|]. cbn in E. lia.
    + destruct ds' as [|c' ds']; [congruence|]. injection Es as -> _. pose proof (digits_head _ _ Hd' _ _ eq_refl) as X. discriminate X.
  - intros s ds Hd p r v' rest u E Hr Hf H. exfalso. destruct Hd as (H1 & H2 & _). eapply str_too_short; eassumption.
  - intros l s Hb IH p r v' rest u E Hr Hf H. destruct p as [|c p]; [elim (xitem_nil _ _ _ H)|]. injection E as <- E.
    inversion H as [body r' z' Hz' Ei|ds' s' r' Hd' Hne' Hr' Es|inp l0 r' u' Hl El|inp ps r' u' Hp Ed]; subst.
    + destruct ds' as [|c' ds']; [congruence|]. injection Es as -> _. pose proof (digits_head _ _ Hd' _ _ eq_refl) as X. discriminate X.
    + destruct (IH p r _ _ _ E Hr (fits_suffix ["l"%char] p Hf) Hl) as (A1 & A2 & A3). split; [exact A1|]. split; [exact A2|]. constructor. exact A3.
  - intros d s Hb IH Hn p r v' rest u E Hr Hf H. destruct p as [|c p]; [elim (xitem_nil _ _ _ H)|]. injection E as <- E.
    inversion H as [body r' z' Hz' Ei|ds' s' r' Hd' Hne' Hr' Es|inp l0 r' u' Hl El|inp ps r' u' Hp Ed]; subst.
    + destruct ds' as [|c' ds']; [congruence|]. injection Es as -> _. pose proof (digits_head _ _ Hd' _ _ eq_refl) as X. discriminate X.
    + destruct (IH Hn p r _ _ _ E Hr (fits_suffix ["d"%char] p Hf) Hp) as (A1 & A2 & A3). split; [exact A1|]. split; [exact A2|].
      destruct (truncated_keys _ _ A3) as (ks & Ek). rewrite mkdict_nodup; [constructor; exact A3|]. rewrite Ek in Hn. clear - Hn.
      induction (map fst ps) as [|k l IH]; [constructor|]. cbn in Hn. inversion Hn as [|? ? Hni Hnd]; subst. constructor; [intros X; apply Hni; apply in_or_app; left; exact X|apply IH; exact Hnd].
  - intros p r l' rest u E Hr Hf H. assert (p = []) as -> by (destruct p as [|c [|c' p]]; [reflexivity|injection E as _ <-; congruence|destruct r; discriminate E]).
    apply xitems_nil in H. destruct H as (-> & -> & ->). split; [reflexivity|]. split; [lia|constructor].
  - intros v l s t Hv IHv Hl IHl p r l' rest u E Hr Hf H. rewrite <- app_assoc in E.
    destruct (bencoding_head _ _ Hv) as (c0 & s0 & Es & Hc0).
    destruct (prefix_cases _ _ _ _ E) as [(r1 & Hr1 & E1)|(p2 & -> & E2)].
    + inversion H as [r'|Eo|inp v1 mid u1 l2 r2 u2 H1 H2]; subst.
      * exfalso. assert (Q : c0 = "e"%char) by (cbn [app] in *; congruence). subst c0. discriminate Hc0.
      * split; [reflexivity|]. split; [lia|constructor].
      * destruct (IHv p r1 _ _ _ E1 Hr1 Hf H1) as (-> & Hu & Ht). apply xitems_nil in H2. destruct H2 as (-> & -> & ->).
        split; [reflexivity|]. split; [lia|]. constructor. exact Ht.
    + destruct p2 as [|c2 p2].
      * rewrite app_nil_r in *. inversion H as [r' Er|Eo|inp v1 mid u1 l2 r2 u2 H1 H2]; subst.
        -- injection Er as <- _. discriminate Hc0.
        -- discriminate Eo.
        -- destruct (exact_x _ _ _ _ _ Hf Hv H1) as (-> & -> & ->). apply xitems_nil in H2. destruct H2 as (-> & -> & ->).
           split; [reflexivity|]. split; [lia|]. apply ti_keep. constructor.
      * assert (Hx : xitem (s ++ c2 :: p2) v (c2 :: p2) 0) by (apply (proj1 bencoding_x); [exact Hv|discriminate]).
        inversion H as [r' Er|Eo|inp v1 mid u1 l2 r2 u2 H1 H2]; subst.
        -- injection Er as <- _. discriminate Hc0.
        -- discriminate Eo.
        -- destruct (x_det _ _ _ _ _ _ _ Hf Hx H1) as (<- & <- & <-).
           destruct (IHl _ r _ _ _ E2 Hr (fits_suffix _ _ Hf) H2) as (-> & Hu & Ht). split; [reflexivity|]. split; [lia|]. apply ti_keep. exact Ht.
  - intros _ p r l' rest u E Hr Hf H. assert (p = []) as -> by (destruct p as [|c [|c' p]]; [reflexivity|injection E as _ <-; congruence|destruct r; discriminate E]).
    apply xpairs_nil in H. destruct H as (-> & -> & ->). split; [reflexivity|]. split; [lia|constructor].
  - intros k v d sk s t Hk IHk Hv IHv Hd IHd Hn p r l' rest u E Hr Hf H. rewrite <- !app_assoc in E.
    cbn [map fst] in Hn. inversion Hn as [|? ? Hni Hnd]; subst.
    destruct (bencoding_head _ _ Hk) as (c0 & s0 & Es & Hc0).
    destruct (prefix_cases _ _ _ _ E) as [(r1 & Hr1 & E1)|(p1 & -> & E1)].
    + inversion H as [r'|Eo|inp k1 mid v1 mid1 u1 l2 r2 u2 H0 H1 H2]; subst.
      * exfalso. assert (Q : c0 = "e"%char) by (cbn [app] in *; congruence). subst c0. discriminate Hc0.
      * split; [reflexivity|]. split; [lia|constructor].
      * destruct (IHk p r1 _ _ _ E1 Hr1 Hf H0) as (_ & Hu & _). lia.
    + inversion H as [r' Er|Eo|inp k1 mid v1 mid1 u1 l2 r2 u2 H0 H1 H2]; subst.
      { injection Er as <- _. discriminate Hc0. } { discriminate Eo. }
      destruct p1 as [|c1 p1].
      { rewrite app_nil_r in *. destruct (exact_x _ _ _ _ _ Hf Hk H0) as (_ & -> & _). elim (xitem_nil _ _ _ H1). }
      assert (Hx : xitem ((c0 :: s0) ++ c1 :: p1) (VStr k) (c1 :: p1) 0) by (apply (proj1 bencoding_x); [exact Hk|discriminate]).
      destruct (x_det _ _ _ _ _ _ _ Hf Hx H0) as (Ek & <- & _). injection Ek as <-.
      apply fits_suffix in Hf.
      destruct (prefix_cases _ _ _ _ E1) as [(r2' & Hr2 & E2)|(p2 & E2 & E3)].
      * destruct (IHv _ r2' _ _ _ E2 Hr2 Hf H1) as (-> & Hu & Ht). apply xpairs_nil in H2. destruct H2 as (-> & -> & ->).
        split; [reflexivity|]. split; [lia|]. constructor. exact Ht.
      * rewrite E2 in *. destruct p2 as [|c2 p2].
        -- rewrite app_nil_r in *. destruct (exact_x _ _ _ _ _ Hf Hv H1) as (-> & -> & ->). apply xpairs_nil in H2. destruct H2 as (-> & -> & ->).
           split; [reflexivity|]. split; [lia|]. apply te_keep. constructor.
        -- assert (Hx2 : xitem (s ++ c2 :: p2) v (c2 :: p2) 0) by (apply (proj1 bencoding_x); [exact Hv|discriminate]).
           destruct (x_det _ _ _ _ _ _ _ Hf Hx2 H1) as (<- & <- & <-).
           destruct (IHd Hnd _ r _ _ _ E3 Hr (fits_suffix _ _ Hf) H2) as (-> & Hu & Ht). split; [reflexivity|]. split; [lia|]. apply te_keep. exact Ht.
Qed.

(** ** C100 *)

(** C100: if DecodeDictNoLimit accepts a message that was cut short anywhere, it returns the message
    without everything after the cut - nothing is altered or invented - and the reported end lies
    behind the end of the input. *)
Lemma C100_truncated_dict_pf : forall d enc p r d' n,
  bencoding (VDict d) enc -> enc = p ++ r -> r <> [] -> fits p -> DecodeDictNoLimit p = Ok (d', n) ->
  truncated (VDict d) (VDict d') /\ length p < n.
Proof.
  intros d enc p r d' n Hb E Hr Hf H. apply DecodeDictNoLimit_iff in H; [|exact Hf]. destruct H as (_ & rest & u & Hx & ->).
  destruct (proj1 trunc_x _ _ Hb _ _ _ _ _ E Hr Hf Hx) as (-> & Hu & Ht). split; [exact Ht|]. cbn [length]. lia.
Qed.

(** C100: the same for DecodeDict, which never returns the nil dictionary for a cut message; DecodeSlice
    rejects every cut list. *)
Lemma C100_other_decoders_pf : forall v enc p r, bencoding v enc -> enc = p ++ r -> r <> [] -> fits p ->
  (forall d', DecodeDict p = Ok d' -> exists e', d' = Some e' /\ truncated v (VDict e')) /\
  (forall l', DecodeSlice p <> Ok l').
Proof.
  intros v enc p r Hb E Hr Hf. split.
  - intros d' H. apply DecodeDict_iff in H; [|exact Hf]. destruct H as (_ & _ & d0 & rest & u & Hx & ->).
    destruct (proj1 trunc_x _ _ Hb _ _ _ _ _ E Hr Hf Hx) as (-> & _ & Ht). eauto.
  - intros l' H. apply DecodeSlice_iff in H; [|exact Hf]. destruct H as (_ & _ & Hx).
    destruct (proj1 trunc_x _ _ Hb _ _ _ _ _ E Hr Hf Hx) as (_ & Hu & _). lia.
Qed.

(** C100: that every cut message is rejected is false: cut between two entries it is accepted.  (The last
    three are cut inside a string, an integer, and behind a key.) *)
Lemma C100_truncation_rejected_refuted_pf :
  bencoding (VDict [(B "q", VStr (B "ping")); (B "a", VDict [(B "x", VInt 5); (B "y", VInt 67)])]) (B "d1:q4:ping1:ad1:xi5e1:yi67eee") /\
  DecodeDictNoLimit (B "d1:q4:ping1:ad1:xi5e") = Ok ([(B "q", VStr (B "ping")); (B "a", VDict [(B "x", VInt 5)])], 22) /\
  DecodeDictNoLimit (B "d1:q4:pi") = Err EWrongParam /\
  DecodeDictNoLimit (B "d1:q4:ping1:ad1:xi5e1:yi6") = Panic PRuntime /\
  DecodeDictNoLimit (B "d1:q4:ping1:a") = Err EWrongParam.
Proof.
  split.
  - apply bencoding_iff. split; [apply go_valueb_ok; vm_compute; reflexivity|vm_compute; reflexivity].
  - vm_compute. repeat split.
Qed.

(** ** C101 *)

Lemma string_in_dict_pairs s ps : string_in s (VDict (mkdict [] ps)) -> exists k v, In (k, v) ps /\ (k = s \/ string_in s v).
Proof.
  assert (Hin : forall ps acc kx, In kx (mkdict acc ps) -> In kx acc \/ In kx ps).
  { clear. intros ps. induction ps as [|p ps IH]; intros acc kx Hin; cbn [mkdict fold_left] in Hin; [auto|].
    destruct (IH _ _ Hin) as [H|H]; [|right; right; exact H]. clear IH Hin. destruct p as [k v]. cbn [fst snd] in H.
    assert (Hd : In kx acc \/ kx = (k, v)).
    { revert H. induction acc as [|[k' v'] acc IH]; cbn [dset]; [intros [<-|[]]; auto|]. destruct (beq k' k) eqn:E; intros [H|H].
      - right. apply beq_eq in E. subst k'. auto.
      - left. right. exact H.
      - left. left. exact H.
      - destruct (IH H) as [H'|H']; [left; right; exact H'|auto]. }
    destruct Hd as [Hd| ->]; [auto|right; left; reflexivity]. }
  intros H. inversion H as [| |d v Hi|d k v Hi Hs]; subst; destruct (Hin _ _ _ Hi) as [[]|Hp]; [exists s, v; auto|exists k, v; auto].
Qed.

Lemma strings_from s :
  (forall inp v rest u, xitem inp v rest u -> string_in s v -> exists a b, inp = a ++ s ++ b) /\
  (forall inp l rest u, xitems inp l rest u -> forall v, In v l -> string_in s v -> exists a b, inp = a ++ s ++ b) /\
  (forall inp ps rest u, xpairs inp ps rest u -> forall k v, In (k, v) ps -> k = s \/ string_in s v -> exists a b, inp = a ++ s ++ b).
Proof.
  destruct x_consumed as (C1 & C2 & C3).
  assert (Hcat : forall c x : bytes, (exists a b, x = a ++ s ++ b) -> exists a b, c ++ x = a ++ s ++ b).
  { intros c x (a & b & ->). exists (c ++ a), b. rewrite <- app_assoc. reflexivity. }
  apply xitem_mutind.
  - intros body rest z _ H. inversion H.
  - intros ds s0 rest _ _ _ H. inversion H; subst. exists (ds ++ [":"%char]), rest. rewrite <- app_assoc. reflexivity.
  - intros inp l rest u _ IH H. inversion H; subst. apply (Hcat ["l"%char]). eapply IH; eassumption.
  - intros inp ps rest u _ IH H. apply (Hcat ["d"%char]). destruct (string_in_dict_pairs _ _ H) as (k & v & Hin & Hs). eapply IH; eassumption.
  - intros rest v [].
  - intros v [].
  - intros inp v mid u l rest u' H1 IH1 H2 IH2 v0 [<-|Hin] Ho; [auto|]. destruct (C1 _ _ _ _ H1) as [[[c ->] _] _]. apply Hcat. eapply IH2; eassumption.
  - intros rest k v [].
  - intros k v [].
  - intros inp k mid v mid' u ps rest u' H0 IH0 H1 IH1 H2 IH2 k0 v0 [E|Hin] Ho.
    + injection E as <- <-. destruct Ho as [->|Ho]; [apply IH0; constructor|]. destruct (C1 _ _ _ _ H0) as [[[c ->] _] _]. apply Hcat. apply IH1. exact Ho.
    + destruct (C1 _ _ _ _ H0) as [[[c ->] _] _]. destruct (C1 _ _ _ _ H1) as [[[c' ->] _] _]. apply Hcat, Hcat. eapply IH2; eassumption.
Qed.

(** C101: every string and every key in what the decoders return is a contiguous part of the input. *)
Lemma C101_strings_come_from_input_pf : forall src s, fits src ->
  (forall d n, DecodeDictNoLimit src = Ok (d, n) -> string_in s (VDict d) -> exists a b, src = a ++ s ++ b) /\
  (forall d, DecodeDict src = Ok (Some d) -> string_in s (VDict d) -> exists a b, src = a ++ s ++ b) /\
  (forall l, DecodeSlice src = Ok l -> string_in s (VList l) -> exists a b, src = a ++ s ++ b).
Proof.
  intros src s Hf. split; [|split].
  - intros d n H. apply DecodeDictNoLimit_iff in H; [|exact Hf]. destruct H as (_ & rest & u & Hx & _). exact (proj1 (strings_from s) _ _ _ _ Hx).
  - intros d H. apply DecodeDict_iff in H; [|exact Hf]. destruct H as (_ & _ & d0 & rest & u & Hx & E). destruct rest; [|discriminate]. injection E as ->. exact (proj1 (strings_from s) _ _ _ _ Hx).
  - intros l H. apply DecodeSlice_iff in H; [|exact Hf]. destruct H as (_ & _ & Hx). exact (proj1 (strings_from s) _ _ _ _ Hx).
Qed.

Definition lweight (l : list val) : nat := fold_right (fun x n => weight x + n) 0 l.
Definition eweight (d : entries) : nat := fold_right (fun p n => length (fst p) + 2 + weight (snd p) + n) 0 d.
Lemma dset_eweight d k v : eweight (dset d k v) <= eweight d + (length k + 2 + weight v).
Proof.
  induction d as [|[k' v'] d IH]; cbn [dset eweight fold_right fst snd]; [lia|]. destruct (beq k' k) eqn:E.
  - apply beq_eq in E. subst k'. cbn [fold_right fst snd]. fold (eweight d). lia.
  - cbn [fold_right fst snd]. fold (eweight d). fold (eweight (dset d k v)). lia.
Qed.
Lemma mkdict_eweight ps : forall acc, eweight (mkdict acc ps) <= eweight acc + eweight ps.
Proof.
  induction ps as [|[k v] ps IH]; intros acc; cbn [mkdict fold_left fst snd]; [lia|]. specialize (IH (dset acc k v)). unfold mkdict in IH.
  pose proof (dset_eweight acc k v). cbn [eweight fold_right fst snd]. fold (eweight ps). lia.
Qed.
Definition ldepth (l : list val) : nat := fold_right (fun x n => Nat.max (depth x) n) 0 l.
Definition edepth (d : entries) : nat := fold_right (fun p n => Nat.max (depth (snd p)) n) 0 d.
Lemma dset_edepth d k v : edepth (dset d k v) <= Nat.max (edepth d) (depth v).
Proof.
  induction d as [|[k' v'] d IH]; cbn [dset edepth fold_right fst snd]; [lia|]. destruct (beq k' k) eqn:E; cbn [fold_right fst snd].
  - fold (edepth d). lia.
  - fold (edepth d). fold (edepth (dset d k v)). lia.
Qed.
Lemma mkdict_edepth ps : forall acc, edepth (mkdict acc ps) <= Nat.max (edepth acc) (edepth ps).
Proof.
  induction ps as [|[k v] ps IH]; intros acc; cbn [mkdict fold_left fst snd]; [lia|]. specialize (IH (dset acc k v)). unfold mkdict in IH.
  pose proof (dset_edepth acc k v). cbn [edepth fold_right fst snd]. fold (edepth ps). lia.
Qed.

Lemma lenient_nonempty b z : lenient_int b z -> b <> [].
Proof.
  intros (_ & [[(n & (_ & H & _) & _)|(ds & n & -> & _)]|(ds & n & -> & _)]); [exact H|discriminate|discriminate].
Qed.
Lemma weight_x :
  (forall inp v rest u, xitem inp v rest u -> weight v + length rest <= length inp) /\
  (forall inp l rest u, xitems inp l rest u -> lweight l + length rest <= length inp) /\
  (forall inp ps rest u, xpairs inp ps rest u -> eweight ps + length rest <= length inp).
Proof.
  apply xitem_mutind.
  - intros body rest z H. apply lenient_nonempty in H. destruct body; [congruence|]. cbn [weight length app]. rewrite app_length. cbn [length]. lia.
  - intros ds s0 rest _ Hne _. destruct ds; [congruence|]. cbn [weight length app]. rewrite app_length. cbn [length]. rewrite app_length. lia.
  - intros inp l rest u _ IH. cbn [weight length]. fold (lweight l). lia.
  - intros inp ps rest u _ IH. cbn [weight length]. fold (eweight (mkdict [] ps)). pose proof (mkdict_eweight ps []). cbn in H. lia.
  - intros rest. cbn. lia.
  - cbn. lia.
  - intros inp v mid u l rest u' _ IH1 _ IH2. cbn [lweight fold_right]. fold (lweight l). lia.
  - intros rest. cbn. lia.
  - cbn. lia.
  - intros inp k mid v mid' u ps rest u' _ IH0 _ IH1 _ IH2. cbn [eweight fold_right fst snd]. fold (eweight ps). cbn [weight] in IH0. lia.
Qed.
Lemma depth_x :
  (forall inp v rest u, xitem inp v rest u -> depth v + length rest <= length inp) /\
  (forall inp l rest u, xitems inp l rest u -> ldepth l + length rest <= length inp) /\
  (forall inp ps rest u, xpairs inp ps rest u -> edepth ps + length rest <= length inp).
Proof.
  destruct x_consumed as (C1 & C2 & C3).
  assert (L2 : forall inp l rest u, xitems inp l rest u -> length rest <= length inp).
  { intros inp l rest u H. destruct (C2 _ _ _ _ H) as [[c ->] _]. rewrite app_length. lia. }
  assert (L3 : forall inp l rest u, xpairs inp l rest u -> length rest <= length inp).
  { intros inp l rest u H. destruct (C3 _ _ _ _ H) as [[c ->] _]. rewrite app_length. lia. }
  apply xitem_mutind.
  - intros body rest z H. cbn [depth length app]. rewrite app_length. cbn [length]. lia.
  - intros ds s0 rest _ Hne _. cbn [depth]. rewrite app_length. cbn [length]. rewrite app_length. lia.
  - intros inp l rest u _ IH. cbn [depth length]. fold (ldepth l). lia.
  - intros inp ps rest u _ IH. cbn [depth length]. fold (edepth (mkdict [] ps)). pose proof (mkdict_edepth ps []). cbn in H. lia.
  - intros rest. cbn. lia.
  - cbn. lia.
  - intros inp v mid u l rest u' H1 IH1 H2 IH2. cbn [ldepth fold_right]. fold (ldepth l). pose proof (L2 _ _ _ _ H2). destruct (C1 _ _ _ _ H1) as [_ ?]. lia.
  - intros rest. cbn. lia.
  - cbn. lia.
  - intros inp k mid v mid' u ps rest u' H0 IH0 H1 IH1 H2 IH2. cbn [edepth fold_right fst snd]. fold (edepth ps). pose proof (L3 _ _ _ _ H2). destruct (C1 _ _ _ _ H0) as [_ ?]. destruct (C1 _ _ _ _ H1) as [_ ?]. lia.
Qed.

(** C101: what is decoded is never larger than the input, nor nested deeper than the input is long. *)
Lemma C101_decoded_size_pf : forall src, fits src ->
  (forall d n, DecodeDictNoLimit src = Ok (d, n) -> weight (VDict d) <= length src /\ depth (VDict d) <= length src) /\
  (forall d, DecodeDict src = Ok (Some d) -> weight (VDict d) <= length src /\ depth (VDict d) <= length src) /\
  (forall l, DecodeSlice src = Ok l -> weight (VList l) <= length src /\ depth (VList l) <= length src).
Proof.
  assert (Hx : forall inp v rest u, xitem inp v rest u -> weight v <= length inp /\ depth v <= length inp).
  { intros inp v rest u H. pose proof (proj1 weight_x _ _ _ _ H). pose proof (proj1 depth_x _ _ _ _ H). lia. }
  intros src Hf. split; [|split].
  - intros d n H. apply DecodeDictNoLimit_iff in H; [|exact Hf]. destruct H as (_ & rest & u & H & _). eapply Hx. exact H.
  - intros d H. apply DecodeDict_iff in H; [|exact Hf]. destruct H as (_ & _ & d0 & rest & u & H & E). destruct rest; [|discriminate]. injection E as ->. eapply Hx. exact H.
  - intros l H. apply DecodeSlice_iff in H; [|exact Hf]. destruct H as (_ & _ & H). eapply Hx. exact H.
Qed.

Lemma C101_example_pf : exists d, DecodeDictNoLimit (B "d1:ald1:b2:ccee1:ai7ee") = Ok (d, 22) /\ d = [(B "a", VInt 7)] /\
  DecodeDictNoLimit (B "llll") = Err EWrongParam /\ DecodeSlice (B "llllee") = Err EWrongParam /\
  DecodeSlice (B "lllleeee") = Ok [VList [VList [VList []]]] /\ depth (VList [VList [VList [VList []]]]) = 4.
Proof. eexists. split; [vm_compute; reflexivity|]. repeat split. Qed.

(** ** C102 *)

Lemma bencoding_det v s t v' s' t' : fits (s ++ t ++ ["e"%char]) -> bencoding v s -> bencoding v' s' -> s ++ t = s' ++ t' -> v = v' /\ s = s' /\ t = t'.
Proof.
  intros Hf H H' E.
  assert (Hx : xitem (s ++ t ++ ["e"%char]) v (t ++ ["e"%char]) 0) by (apply (proj1 bencoding_x); [exact H|destruct t; discriminate]).
  assert (Hx' : xitem (s' ++ t' ++ ["e"%char]) v' (t' ++ ["e"%char]) 0) by (apply (proj1 bencoding_x); [exact H'|destruct t'; discriminate]).
  rewrite (app_assoc s') , <- E, <- app_assoc in Hx'. destruct (x_det _ _ _ _ _ _ _ Hf Hx Hx') as (-> & Et & _). apply app_inj_tail in Et. destruct Et as [-> _].
  apply app_inv_tail in E. auto.
Qed.

(** C102: the encoding determines the value: two dictionaries (lists) with the same encoding are the
    same, entry by entry in iteration order. *)
Lemma C102_injective_pf : forall d d' s, go_value (VDict d) -> go_value (VDict d') -> (Z.of_nat (length s) < max_int)%Z ->
  EncodeDict (Some d) = Ok s -> EncodeDict (Some d') = Ok s -> d = d'.
Proof.
  intros d d' s Hg Hg' Hl H H'. assert (Hb : bencoding (VDict d) s) by (apply bencoding_iff; auto). assert (Hb' : bencoding (VDict d') s) by (apply bencoding_iff; auto).
  destruct (bencoding_det _ s [] _ s [] ltac:(unfold fits; rewrite ?app_length in *; cbn [app length] in *; lia) Hb Hb' eq_refl) as (E & _). congruence.
Qed.

(** C102: encodings are self-delimiting: no encoding is a proper prefix of another. *)
Lemma C102_prefix_free_pf : forall v v' s t, go_value v -> go_value v' -> (Z.of_nat (length (s ++ t)) < max_int)%Z ->
  encodeItem v = Ok s -> encodeItem v' = Ok (s ++ t) -> t = [] /\ v = v'.
Proof.
  intros v v' s t Hg Hg' Hl H H'. assert (Hb : bencoding v s) by (apply bencoding_iff; auto). assert (Hb' : bencoding v' (s ++ t)) by (apply bencoding_iff; auto).
  destruct (bencoding_det _ s t _ (s ++ t) [] ltac:(unfold fits; rewrite ?app_length in *; cbn [app length] in *; lia) Hb Hb' ltac:(rewrite app_nil_r; reflexivity)) as (E & _ & Et). auto.
Qed.

(** C102: hence a sequence of encodings written one after another can be read in only one way. *)
Lemma C102_streams_pf : forall vs vs' ss ss', Forall go_value vs -> Forall go_value vs' -> (Z.of_nat (length (concat ss)) < max_int)%Z ->
  Forall2 (fun v s => encodeItem v = Ok s) vs ss -> Forall2 (fun v s => encodeItem v = Ok s) vs' ss' -> concat ss = concat ss' -> vs = vs' /\ ss = ss'.
Proof.
  intros vs vs' ss ss' Hg Hg' Hl F. revert vs' ss' Hg' Hl Hg. induction F as [|v s vs ss Hv F IH]; intros vs' ss' Hg' Hl Hg F' E.
  - inversion F' as [|v' s' vs'' ss'' Hv' Ft]; subst; [auto|]. exfalso. inversion Hg'; subst. assert (Hb : bencoding v' s') by (apply bencoding_iff; auto). apply bencoding_len in Hb. cbn in E. destruct s'; [cbn in Hb; lia|discriminate].
  - inversion Hg; subst. assert (Hb : bencoding v s) by (apply bencoding_iff; auto). pose proof (bencoding_len _ _ Hb) as Hlen.
    inversion F' as [|v' s' vs'' ss'' Hv' Ft]; subst; [exfalso; destruct s; [cbn in Hlen; lia|discriminate]|]. inversion Hg'; subst.
    assert (Hb' : bencoding v' s') by (apply bencoding_iff; auto). cbn [concat] in E, Hl.
    assert (Hf : fits (s ++ concat ss ++ ["e"%char])) by (unfold fits; rewrite !app_length in *; cbn [length]; lia).
    destruct (bencoding_det v s (concat ss) v' s' (concat ss'') Hf Hb Hb' E) as (-> & -> & Et).
    destruct (IH vs'' ss'') as [-> ->]; try assumption; [rewrite app_length in Hl; lia|]. auto.
Qed.

Lemma C102_example_pf : exists s s', EncodeDict (Some [(B "a", VInt 1); (B "b", VInt 2)]) = Ok s /\ EncodeDict (Some [(B "b", VInt 2); (B "a", VInt 1)]) = Ok s' /\ s <> s' /\
  go_value (VDict [(B "a", VInt 1); (B "b", VInt 2)]) /\ (Z.of_nat (length s) < max_int)%Z.
Proof. eexists _, _. split; [vm_compute; reflexivity|]. split; [vm_compute; reflexivity|]. split; [discriminate|]. split; [apply go_valueb_ok; vm_compute; reflexivity|vm_compute; reflexivity]. Qed.
