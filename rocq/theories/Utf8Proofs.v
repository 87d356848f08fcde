(** Utf8Proofs.v -- decode_rune against Utf8Spec.v. *)
From Verif Require Import Base GoLib Types SessionProofs Utf8Spec.
From Coq Require Import Lia ZifyN.
Local Open Scope list_scope.
Ltac nm := zify; Z.to_euclidean_division_equations; lia.

Lemma inr_ok lo hi b : inr lo hi b = true <-> (lo <= bval b <= hi)%N.
Proof. unfold inr. rewrite andb_true_iff, !N.leb_le. reflexivity. Qed.
Lemma bvb n : (n < 256)%N -> bval (byte_of n) = n.
Proof. intros H. rewrite bval_byte_of. apply N.mod_small. exact H. Qed.
Lemma byte_is b n : bval b = n -> byte_of n = b.
Proof. intros <-. apply byte_of_bval. Qed.
Lemma low6 y : (128 <= y < 192 -> y mod 64 = y - 128)%N.
Proof. intros H. nm. Qed.

Ltac cmpf := match goal with |- context[if (?a <? ?b)%N then _ else _] => destruct (N.ltb_spec a b); try (exfalso; nm) | |- context[if (?a =? ?b)%N then _ else _] => destruct (N.eqb_spec a b); try (exfalso; nm) end.

Lemma decode_encode n t : scalar n -> decode_rune (encode n ++ t) = (n, length (encode n)).
Proof.
  intros Hn. unfold scalar in Hn. unfold encode.
  destruct (N.ltb_spec n 128) as [H1|H1].
  { cbn [app length]. unfold decode_rune. cbv zeta. rewrite bvb by lia. destruct (N.ltb_spec n 128); [reflexivity|lia]. }
  destruct (N.ltb_spec n 2048) as [H2|H2].
  { cbn [app length]. unfold decode_rune. cbv zeta. rewrite bvb by nm.
    repeat cmpf.
    assert (E : inr 128 191 (byte_of (128 + n mod 64)) = true) by (apply inr_ok; rewrite bvb by nm; nm). rewrite E, bvb by nm. f_equal. nm. }
  destruct (N.ltb_spec n 65536) as [H3|H3].
  { cbn [app length]. unfold decode_rune. cbv zeta. rewrite bvb by nm.
    repeat cmpf;
    match goal with |- context[inr ?l ?h (byte_of (128 + n / 64 mod 64))] => assert (E1 : inr l h (byte_of (128 + n / 64 mod 64)) = true) by (apply inr_ok; rewrite bvb by nm; nm) end;
    assert (E2 : inr 128 191 (byte_of (128 + n mod 64)) = true) by (apply inr_ok; rewrite bvb by nm; nm); rewrite E1, E2, !bvb by nm; cbn [andb]; f_equal; nm. }
  cbn [app length]. unfold decode_rune. cbv zeta. rewrite bvb by nm.
  repeat cmpf;
  match goal with |- context[inr ?l ?h (byte_of (128 + n / 4096 mod 64))] => assert (E1 : inr l h (byte_of (128 + n / 4096 mod 64)) = true) by (apply inr_ok; rewrite bvb by nm; nm) end;
  assert (E2 : inr 128 191 (byte_of (128 + n / 64 mod 64)) = true) by (apply inr_ok; rewrite bvb by nm; nm);
  assert (E3 : inr 128 191 (byte_of (128 + n mod 64)) = true) by (apply inr_ok; rewrite bvb by nm; nm); rewrite E1, E2, E3, !bvb by nm; cbn [andb]; f_equal; nm.
Qed.

Lemma decode_sound c s : decode_rune (c :: s) <> (RuneError, 1) ->
  exists n r, scalar n /\ c :: s = encode n ++ r /\ decode_rune (c :: s) = (n, length (encode n)).
Proof.
  intros H. enough (exists n r, scalar n /\ c :: s = encode n ++ r) as (n & r & Hn & E).
  { exists n, r. split; [exact Hn|]. split; [exact E|]. rewrite E. apply decode_encode. exact Hn. }
  revert H. unfold decode_rune. cbv zeta. pose proof (bval_lt c) as Hc.
  destruct (N.ltb_spec (bval c) 128) as [H1|H1].
  { intros _. exists (bval c), s. split; [left; lia|]. unfold encode. destruct (N.ltb_spec (bval c) 128); [|lia]. rewrite byte_of_bval. reflexivity. }
  destruct (N.ltb_spec (bval c) 194) as [H2|H2]; [congruence|].
  destruct (N.ltb_spec (bval c) 224) as [H3|H3].
  { destruct s as [|b1 s]; [congruence|]. destruct (inr 128 191 b1) eqn:E1; [|congruence]. intros _. apply inr_ok in E1.
    remember (bval c - 192)%N as x. remember (bval b1 - 128)%N as y.
    exists (x * 64 + y)%N, s. split; [left; lia|]. unfold encode.
    repeat cmpf. cbn [app].
    rewrite (byte_is c), (byte_is b1); [reflexivity|nm|nm]. }
  destruct (N.ltb_spec (bval c) 240) as [H4|H4].
  { destruct s as [|b1 [|b2 s]]; try congruence.
    destruct (inr (if (bval c =? 224)%N then 160%N else 128%N) (if (bval c =? 237)%N then 159%N else 191%N) b1) eqn:E1; [|cbn [andb]; congruence].
    destruct (inr 128 191 b2) eqn:E2; [|cbn [andb]; congruence]. intros _. apply inr_ok in E1, E2.
    remember (bval c - 224)%N as x. remember (bval b1 - 128)%N as y. remember (bval b2 - 128)%N as z.
    exists (x * 4096 + y * 64 + z)%N, s.
    destruct (N.eqb_spec (bval c) 224); destruct (N.eqb_spec (bval c) 237); try lia;
    (split; [unfold scalar; lia|]; unfold encode; repeat cmpf; cbn [app];
     rewrite (byte_is c), (byte_is b1), (byte_is b2); [reflexivity|nm|nm|nm]). }
  destruct (N.ltb_spec (bval c) 245) as [H5|H5]; [|congruence].
  destruct s as [|b1 [|b2 [|b3 s]]]; try congruence.
  destruct (inr (if (bval c =? 240)%N then 144%N else 128%N) (if (bval c =? 244)%N then 143%N else 191%N) b1) eqn:E1; [|cbn [andb]; congruence].
  destruct (inr 128 191 b2) eqn:E2; [|cbn [andb]; congruence]. destruct (inr 128 191 b3) eqn:E3; [|cbn [andb]; congruence]. intros _. apply inr_ok in E1, E2, E3.
  remember (bval c - 240)%N as x. remember (bval b1 - 128)%N as y. remember (bval b2 - 128)%N as z. remember (bval b3 - 128)%N as w.
  exists (x * 262144 + y * 4096 + z * 64 + w)%N, s.
  destruct (N.eqb_spec (bval c) 240); destruct (N.eqb_spec (bval c) 244); try lia;
  (split; [unfold scalar; lia|]; unfold encode; repeat cmpf; cbn [app];
   rewrite (byte_is c), (byte_is b1), (byte_is b2), (byte_is b3); [reflexivity|nm|nm|nm|nm]).
Qed.

Lemma encode_length n : 1 <= length (encode n) <= 4.
Proof. unfold encode. repeat match goal with |- context[if ?b then _ else _] => destruct b end; cbn [length]; lia. Qed.
Lemma encode_rep : forall n, scalar n -> (n, length (encode n)) <> (RuneError, 1).
Proof.
  intros n Hn E. injection E as E1 E2. subst n. unfold encode in E2. vm_compute in E2. discriminate.
Qed.
Lemma decode_bad c s : decode_rune (c :: s) = (RuneError, 1) <-> forall n r, scalar n -> c :: s <> encode n ++ r.
Proof.
  split.
  - intros H n r Hn E. rewrite E, (decode_encode n r Hn) in H. exact (encode_rep n Hn H).
  - intros H. destruct (decode_rune (c :: s)) as [m k] eqn:E.
    assert (D : {(m, k) = (RuneError, 1)} + {(m, k) <> (RuneError, 1)}) by (decide equality; [apply Nat.eq_dec|apply N.eq_dec]).
    destruct D as [D|D]; [exact D|]. exfalso. rewrite <- E in D. destruct (decode_sound c s D) as (n & r & Hn & Es & _). exact (H n r Hn Es).
Qed.
Lemma runes_fuel_text l : forall f, Forall scalar l -> length (text l) <= f -> runes_fuel f (text l) = l.
Proof.
  induction l as [|n l IH]; intros f Hl Hf; [destruct f; reflexivity|]. inversion Hl as [|? ? Hn Hl']; subst.
  unfold text in *. cbn [map concat] in *. rewrite app_length in Hf. pose proof (encode_length n) as He.
  destruct f as [|f]; [lia|]. cbn [runes_fuel].
  destruct (encode n ++ concat (map encode l)) as [|b t] eqn:Eb; [apply (f_equal (@length _)) in Eb; rewrite app_length in Eb; cbn [length] in Eb; lia|].
  rewrite <- Eb, decode_encode by exact Hn. rewrite skipn_app, skipn_all, Nat.sub_diag. cbn [app skipn]. f_equal. apply IH; [exact Hl'|lia].
Qed.
Lemma runes_text l : Forall scalar l -> runes (text l) = l.
Proof. intros H. unfold runes. apply runes_fuel_text; [exact H|lia]. Qed.
Lemma text_inj l l' : Forall scalar l -> Forall scalar l' -> text l = text l' -> l = l'.
Proof. intros H H' E. rewrite <- (runes_text l H), <- (runes_text l' H'), E. reflexivity. Qed.
