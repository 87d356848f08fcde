(** Sha1Proofs.v -- Sha1.v computes what Sha1Spec.v defines. *)
From Verif Require Import Base GoLib Sha1 Sha1Spec.
Local Open Scope list_scope.
Local Open Scope N_scope.

(** * Words *)
Lemma pow32 : 2 ^ 32 = 4294967296. Proof. reflexivity. Qed.
Lemma ones32 : 4294967295 = N.ones 32. Proof. reflexivity. Qed.
Lemma m32_mod x : m32 x = x mod 2 ^ 32.
Proof. unfold m32. rewrite ones32. apply N.land_ones. Qed.
Lemma m32_lt x : m32 x < 2 ^ 32.
Proof. rewrite m32_mod. apply N.mod_lt. discriminate. Qed.
Lemma high_bits x i : x < 2 ^ 32 -> 32 <= i -> N.testbit x i = false.
Proof.
  intros H Hi. destruct (N.eq_dec x 0) as [->|Hx]; [apply N.bits_0|]. apply N.bits_above_log2. apply N.log2_lt_pow2; [lia|].
  eapply N.lt_le_trans; [exact H|]. apply N.pow_le_mono_r; lia.
Qed.
Lemma low_word r : (forall i, 32 <= i -> N.testbit r i = false) -> r < 2 ^ 32.
Proof.
  intros H. assert (E : r = N.land r (N.ones 32)).
  { apply N.bits_inj. intros i. rewrite N.land_spec. destruct (N.lt_ge_cases i 32) as [L|L]; [rewrite N.ones_spec_low by exact L; rewrite andb_true_r; reflexivity|rewrite N.ones_spec_high by exact L; rewrite andb_false_r; apply H, L]. }
  rewrite E, N.land_ones. apply N.mod_lt. discriminate.
Qed.
Lemma rol_rotl k x : k < 32 -> x < 2 ^ 32 -> rol k x = rotl k x.
Proof.
  intros Hk Hx. unfold rol, rotl. rewrite m32_mod, N.shiftl_mul_pow2, N.shiftr_div_pow2. set (a := (x * 2 ^ k) mod 2 ^ 32). set (b := x / 2 ^ (32 - k)).
  assert (Hd : N.land a b = 0).
  { apply N.bits_inj. intros i. rewrite N.land_spec, N.bits_0. destruct (N.lt_ge_cases i k) as [L|L].
    - unfold a. rewrite N.mod_pow2_bits_low by lia. rewrite N.mul_pow2_bits_low by exact L. reflexivity.
    - assert (Hb : b < 2 ^ k).
      { unfold b. apply N.div_lt_upper_bound; [apply N.pow_nonzero; lia|]. rewrite <- N.pow_add_r. replace (32 - k + k) with 32 by lia. exact Hx. }
      assert (T : N.testbit b i = false); [|rewrite T; apply andb_false_r]. destruct (N.eq_dec b 0) as [->|Nb]; [apply N.bits_0|]. apply N.bits_above_log2. apply N.log2_lt_pow2; [lia|].
      eapply N.lt_le_trans; [exact Hb|]. apply N.pow_le_mono_r; lia. }
  rewrite <- N.lxor_lor by exact Hd. symmetry. apply N.add_nocarry_lxor. exact Hd.
Qed.
Lemma rotl_lt k x : k < 32 -> x < 2 ^ 32 -> rotl k x < 2 ^ 32.
Proof.
  intros Hk Hx. rewrite <- rol_rotl by assumption. apply low_word. intros i Hi. unfold rol. rewrite N.lor_spec, (high_bits _ _ (m32_lt _) Hi), N.shiftr_spec by lia. cbn [orb].
  apply high_bits; [exact Hx|lia].
Qed.
Lemma bitwise_unique f x y z r r' : bitwise f x y z r -> bitwise f x y z r' -> r = r'.
Proof.
  intros [H1 H2] [H3 H4]. apply N.bits_inj. intros i. destruct (N.lt_ge_cases i 32) as [L|L]; [rewrite H2, H4 by exact L; reflexivity|]. rewrite !high_bits by assumption. reflexivity.
Qed.
Lemma fK_f t b c d : b < 2 ^ 32 -> c < 2 ^ 32 -> d < 2 ^ 32 -> bitwise (f_t t) b c d (fst (fK t b c d)) /\ snd (fK t b c d) = K_t t.
Proof.
  intros Hb Hc Hd. unfold fK, f_t, K_t.
  assert (Par : bitwise Parity b c d (N.lxor (N.lxor b c) d)).
  { split.
    - apply low_word. intros i Hi. rewrite !N.lxor_spec, !high_bits by assumption. reflexivity.
    - intros i _. rewrite !N.lxor_spec. apply xorb_assoc_reverse. }
  destruct (Nat.ltb t 20); [|destruct (Nat.ltb t 40); [|destruct (Nat.ltb t 60)]]; cbn [fst snd]; (split; [|reflexivity]); try exact Par.
  - split.
    + apply low_word. intros i Hi. rewrite !N.lxor_spec, !N.land_spec, (high_bits c i Hc Hi), (high_bits d i Hd Hi), !andb_false_r. reflexivity.
    + intros i Hi. unfold not32. rewrite ones32, N.lxor_spec, !N.land_spec, N.lxor_spec, N.ones_spec_low by exact Hi. destruct (N.testbit b i), (N.testbit c i), (N.testbit d i); reflexivity.
  - split.
    + apply low_word. intros i Hi. rewrite !N.lxor_spec, !N.land_spec, !high_bits by assumption. reflexivity.
    + intros i Hi. rewrite !N.lxor_spec, !N.land_spec. destruct (N.testbit b i), (N.testbit c i), (N.testbit d i); reflexivity.
Qed.

(** * Bytes *)
Lemma be_app a b : be (a ++ b) = be a * 256 ^ N.of_nat (length b) + be b.
Proof.
  unfold be. rewrite fold_left_app. generalize (fold_left (fun n c => n * 256 + bval c) a 0) as x. intros x. clear a.
  assert (G : forall (b : bytes) x, fold_left (fun n c => n * 256 + bval c) b x = x * 256 ^ N.of_nat (length b) + fold_left (fun n c => n * 256 + bval c) b 0).
  { clear. induction b as [|c b IH]; intros x; [cbn; lia|]. cbn [fold_left length]. rewrite IH. rewrite (IH (0 * 256 + bval c)). rewrite Nat2N.inj_succ, N.pow_succ_r'. lia. }
  apply G.
Qed.
Lemma be4 a b c d : be [a; b; c; d] = get_u32 a b c d.
Proof. unfold be, get_u32. cbn [fold_left]. lia. Qed.
Lemma be_lt l : be l < 256 ^ N.of_nat (length l).
Proof.
  induction l as [|c l IH] using rev_ind; [reflexivity|]. rewrite be_app, app_length, Nat2N.inj_add, N.pow_add_r. pose proof (bval_lt c) as Hc. change (be [c]) with (0 * 256 + bval c). cbn [length]. change (256 ^ N.of_nat 1) with 256. nia.
Qed.
Lemma be_inj a : forall b, length a = length b -> be a = be b -> a = b.
Proof.
  induction a as [|x a IH] using rev_ind; intros b L E.
  - destruct b; [reflexivity|discriminate].
  - destruct b as [|y b _] using rev_ind; [rewrite app_length in L; cbn in L; lia|]. rewrite !app_length in L. cbn [length] in L. rewrite !be_app in E. change (be [x]) with (0 * 256 + bval x) in E. change (be [y]) with (0 * 256 + bval y) in E. cbn [length] in E. change (256 ^ N.of_nat 1) with 256 in E.
    pose proof (bval_lt x). pose proof (bval_lt y). assert (be a = be b /\ bval x = bval y) as [E1 E2] by nia. f_equal; [apply IH; [lia|exact E1]|]. f_equal. apply bval_inj, E2.
Qed.
Lemma put_u32_be n : length (put_u32 n) = 4%nat /\ be (put_u32 n) = n mod 2 ^ 32.
Proof.
  unfold put_u32. split; [reflexivity|]. rewrite be4. set (k := n mod 2 ^ 32). assert (Hk : k < 4294967296) by (apply N.mod_lt; discriminate).
  rewrite <- (get_put_u32 k Hk). unfold get_u32. rewrite !bval_byte_of. unfold k. rewrite pow32.
  assert (D : forall c, c <> 0 -> forall e, e <> 0 -> (n mod (c * (256 * e))) / c mod 256 = n / c mod 256).
  { intros c Hc e He. rewrite N.mod_mul_r by lia. rewrite (N.mul_comm c ((n / c) mod (256 * e))). rewrite N.div_add by exact Hc. rewrite (N.div_small (n mod c)) by (apply N.mod_lt; exact Hc). rewrite N.add_0_l. rewrite N.mod_mul_r by lia. rewrite N.mul_comm, N.mod_add by lia. apply N.mod_mod. lia. }
  rewrite <- (D 16777216) with (e := 1) by lia. rewrite <- (D 65536) with (e := 256) by lia. rewrite <- (D 256) with (e := 65536) by lia. rewrite <- (N.div_1_r n) at 4. rewrite <- (D 1) with (e := 16777216) by lia. rewrite N.div_1_r. reflexivity.
Qed.

Lemma words_app k : forall a b, length a = (4 * k)%nat -> words (a ++ b) = words a ++ words b.
Proof.
  induction k as [|k IH]; intros a b L; [destruct a; [reflexivity|cbn in L; lia]|].
  destruct a as [|x [|y [|z [|u a]]]]; cbn [length] in L; try lia. cbn [app words]. f_equal. apply IH. lia.
Qed.
Lemma words_length k : forall a, length a = (4 * k)%nat -> length (words a) = k.
Proof.
  induction k as [|k IH]; intros a L; [destruct a; [reflexivity|cbn in L; lia]|].
  destruct a as [|x [|y [|z [|u a]]]]; cbn [length] in L; try lia. cbn [words length]. f_equal. apply IH. lia.
Qed.
Lemma words_nth t : forall l, (4 * t + 4 <= length l)%nat -> nth t (words l) 0 = be (firstn 4 (skipn (4 * t) l)).
Proof.
  induction t as [|t IH]; intros l L.
  - destruct l as [|x [|y [|z [|u l]]]]; cbn [length] in L; try lia. cbn [words nth Nat.mul skipn firstn]. symmetry. apply be4.
  - destruct l as [|x [|y [|z [|u l]]]]; cbn [length] in L; try lia. cbn [words nth]. rewrite IH by lia. replace (4 * S t)%nat with (S (S (S (S (4 * t))))) by lia. reflexivity.
Qed.
Definition small (x : N) : Prop := x < 2 ^ 32.
Lemma words_small n : forall l, (length l <= n)%nat -> Forall small (words l).
Proof.
  induction n as [|n IH]; intros l L; [destruct l; [constructor|cbn in L; lia]|].
  destruct l as [|x [|y [|z [|u l]]]]; try constructor; [apply get_u32_lt|]. apply IH. cbn [length] in L. lia.
Qed.
Lemma lxor_small x y : small x -> small y -> small (N.lxor x y).
Proof. intros Hx Hy. apply low_word. intros i Hi. rewrite N.lxor_spec, !high_bits by assumption. reflexivity. Qed.
Lemma nth_small l i : Forall small l -> small (nth i l 0).
Proof. intros H. destruct (Nat.lt_ge_cases i (length l)) as [L|L]; [rewrite Forall_forall in H; apply H, nth_In, L|rewrite nth_overflow by exact L; reflexivity]. Qed.

(** * The message schedule *)
Definition shift (w : list N) : list N := tl w ++ [next_word w].
Definition slide (n : nat) (w : list N) : list N := Nat.iter n shift w.
Lemma slide_ok n w : length w = 16%nat -> Forall small w -> length (slide n w) = 16%nat /\ Forall small (slide n w).
Proof.
  intros L F. induction n as [|n [IH1 IH2]]; [auto|]. change (slide (S n) w) with (shift (slide n w)). unfold shift. generalize dependent (slide n w). intros v L' F'. destruct v as [|x v]; [discriminate|].
  assert (S : small (next_word (x :: v))) by (unfold next_word; rewrite rol_rotl by (try lia; repeat apply lxor_small; apply nth_small; assumption); apply rotl_lt; [lia|repeat apply lxor_small; apply nth_small; assumption]).
  cbn [tl]. split; [rewrite app_length; cbn [length] in *; lia|]. apply Forall_app. split; [inversion F'; assumption|constructor; [exact S|constructor]].
Qed.
Lemma slide_shift n w : slide n (shift w) = slide (S n) w.
Proof. induction n as [|n IH]; [reflexivity|]. change (slide (S n) (shift w)) with (shift (slide n (shift w))). rewrite IH. reflexivity. Qed.
Definition Wm (w : list N) (t : nat) : N := nth 0 (slide t w) 0.
Lemma slide_nth w : length w = 16%nat -> Forall small w -> forall i t, (i < 16)%nat -> nth i (slide t w) 0 = Wm w (t + i).
Proof.
  intros L F. induction i as [|i IH]; intros t Hi; [rewrite Nat.add_0_r; reflexivity|].
  replace (t + S i)%nat with (S t + i)%nat by lia. rewrite <- IH by lia. change (slide (S t) w) with (shift (slide t w)). unfold shift. destruct (slide_ok t w L F) as [L' _]. destruct (slide t w) as [|x v]; [discriminate|].
  cbn [tl nth]. cbn [length] in L'. rewrite app_nth1 by lia. reflexivity.
Qed.
Lemma W_rec w t : length w = 16%nat -> Forall small w -> Wm w (t + 16) = rotl 1 (N.lxor (N.lxor (Wm w (t + 13)) (Wm w (t + 8))) (N.lxor (Wm w (t + 2)) (Wm w t))).
Proof.
  intros L F. replace (t + 16)%nat with (S t + 15)%nat by lia. rewrite <- slide_nth by (try assumption; lia). change (slide (S t) w) with (shift (slide t w)). unfold shift.
  destruct (slide_ok t w L F) as [L' F']. assert (X : nth 15 (tl (slide t w) ++ [next_word (slide t w)]) 0 = next_word (slide t w)).
  { assert (LT : length (tl (slide t w)) = 15%nat) by (destruct (slide t w); [discriminate|cbn in *; lia]). rewrite app_nth2 by lia. rewrite LT. reflexivity. }
  rewrite X. unfold next_word. rewrite rol_rotl by (try lia; repeat apply lxor_small; apply nth_small; assumption). rewrite !slide_nth by (try assumption; lia). rewrite Nat.add_0_r. reflexivity.
Qed.

(** * Rounds *)
Definition round1 (t : nat) (w : list N) (s : hstate) : hstate :=
  let '(a, b, c, d, e) := s in let (f, kt) := fK t b c d in (m32 (rol 5 a + f + e + kt + nth 0 w 0), a, rol 30 b, c, d).
Lemma rounds_snoc k : forall t w s, rounds (S k) t w s = round1 (t + k) (slide k w) (rounds k t w s).
Proof.
  induction k as [|k IH]; intros t w s.
  - cbn [rounds]. destruct s as [[[[a b] c] d] e]. rewrite Nat.add_0_r. unfold round1. destruct (fK t b c d). reflexivity.
  - change (rounds (S (S k)) t w s) with (let '(a, b, c, d, e) := s in let (f, kt) := fK t b c d in rounds (S k) (S t) (shift w) (m32 (rol 5 a + f + e + kt + nth 0 w 0), a, rol 30 b, c, d)).
    destruct s as [[[[a b] c] d] e]. destruct (fK t b c d) as [f kt] eqn:Ef. rewrite IH. replace (S t + k)%nat with (t + S k)%nat by lia.
    replace (slide k (shift w)) with (slide (S k) w) by (symmetry; apply slide_shift). f_equal.
    change (rounds (S k) t w (a, b, c, d, e)) with (let (f, kt) := fK t b c d in rounds k (S t) (shift w) (m32 (rol 5 a + f + e + kt + nth 0 w 0), a, rol 30 b, c, d)). rewrite Ef. reflexivity.
Qed.
Definition smalls (s : hstate) : Prop := let '(a, b, c, d, e) := s in small a /\ small b /\ small c /\ small d /\ small e.
Lemma round1_ok t w s : smalls s -> smalls (round1 t w s) /\ round t (nth 0 w 0) s (round1 t w s).
Proof.
  destruct s as [[[[a b] c] d] e]. intros (Ha & Hb & Hc & Hd & He). unfold round1, round. destruct (fK_f t b c d Hb Hc Hd) as [F1 F2]. destruct (fK t b c d) as [f kt]. cbn [fst snd] in *. subst kt. split.
  - repeat split; try assumption; [apply m32_lt|]. rewrite rol_rotl by (try lia; exact Hb). apply rotl_lt; [lia|exact Hb].
  - exists f. split; [exact F1|]. rewrite m32_mod, !rol_rotl by (try lia; assumption). reflexivity.
Qed.

Lemma block_ok h blk : smalls h -> length blk = 64%nat -> block_hash h blk (block h (words blk)) /\ smalls (block h (words blk)).
Proof.
  intros Hh Hb. pose proof (words_length 16 blk Hb) as L. pose proof (words_small _ blk (le_n _)) as F. set (w := words blk) in *.
  assert (Sm : forall t, smalls (rounds t 0 w h)) by (induction t as [|t IH]; [exact Hh|rewrite rounds_snoc; apply round1_ok, IH]).
  unfold block. split.
  - exists (Wm w), (fun t => rounds t 0 w h). split; [|split; [|split; [|split]]].
    + intros t Ht. change (Wm w t) with (Wm w (0 + t)). rewrite <- slide_nth by assumption. change (slide 0 w) with w. apply words_nth. lia.
    + intros t Ht. replace t with (t - 16 + 16)%nat at 1 by lia. rewrite W_rec by assumption. do 2 f_equal; f_equal; f_equal; lia.
    + reflexivity.
    + intros t Ht. rewrite rounds_snoc. change (0 + t)%nat with t. apply round1_ok, Sm.
    + destruct h as [[[[a b] c] d] e]. destruct (rounds 80 0 w (a, b, c, d, e)) as [[[[a' b'] c'] d'] e']. unfold add32. rewrite !m32_mod. reflexivity.
  - destruct h as [[[[a b] c] d] e]. destruct (rounds 80 0 w (a, b, c, d, e)) as [[[[a' b'] c'] d'] e']. unfold add32. repeat split; apply m32_lt.
Qed.
Lemma blocks_step f w s : w <> [] -> blocks (S f) w s = blocks f (skipn 16 w) (block s (firstn 16 w)).
Proof. destruct w; [intros H; destruct (H eq_refl)|reflexivity]. Qed.
Lemma split_at {A} n (a b : list A) : length a = n -> skipn n (a ++ b) = b /\ firstn n (a ++ b) = a.
Proof. intros <-. rewrite skipn_app, skipn_all, Nat.sub_diag, firstn_app, firstn_all, Nat.sub_diag. cbn [skipn firstn app]. rewrite app_nil_r. auto. Qed.
Lemma blocks_ok n : forall p h fuel, length p = (64 * n)%nat -> (n <= fuel)%nat -> smalls h -> hashes h p (blocks fuel (words p) h).
Proof.
  induction n as [|n IH]; intros p h fuel L Hf Hh.
  - destruct p; [|cbn in L; lia]. destruct fuel; constructor.
  - destruct fuel as [|fuel]; [lia|]. rewrite <- (firstn_skipn 64 p) at 1. assert (L1 : length (firstn 64 p) = 64%nat) by (rewrite firstn_length; lia).
    assert (E : words p = words (firstn 64 p) ++ words (skipn 64 p)) by (rewrite <- (words_app 16) by exact L1; rewrite firstn_skipn; reflexivity).
    pose proof (words_length 16 _ L1) as L2. rewrite blocks_step by (rewrite E; destruct (words (firstn 64 p)); discriminate). rewrite E.
    destruct (split_at 16 _ (words (skipn 64 p)) L2) as [-> ->].
    destruct (block_ok h (firstn 64 p) Hh L1) as [B1 B2]. eapply h_block; [exact L1|exact B1|]. apply IH; [rewrite skipn_length; lia|lia|exact B2].
Qed.

(** * Padding and the digest *)
Lemma pad_ok m : 8 * N.of_nat (length m) < 2 ^ 64 -> padded m (pad m).
Proof.
  intros H. exists (zeros (length m)), (put_u32 (8 * N.of_nat (length m) / 4294967296) ++ put_u32 (8 * N.of_nat (length m))).
  split; [reflexivity|]. destruct (put_u32_be (8 * N.of_nat (length m) / 4294967296)) as [L1 E1]. destruct (put_u32_be (8 * N.of_nat (length m))) as [L2 E2].
  split; [rewrite app_length, L1, L2; reflexivity|]. split.
  - rewrite be_app, E1, E2, L2. change (256 ^ N.of_nat 4) with (2 ^ 32). rewrite <- pow32. rewrite (N.mod_small (_ / _)).
    + rewrite N.mul_comm. symmetry. apply N.div_mod. discriminate.
    + apply N.div_lt_upper_bound; [discriminate|]. rewrite <- N.pow_add_r. exact H.
  - unfold zeros. split; [apply Nat.mod_upper_bound; discriminate|]. unfold pad. rewrite !app_length. cbn [length]. rewrite !app_length, repeat_length, L1, L2. unfold zeros.
    pose proof (Nat.mod_upper_bound (length m) 64 ltac:(discriminate)). set (r := Nat.modulo (length m) 64) in *. pose proof (Nat.div_mod (length m) 64 ltac:(discriminate)) as D. fold r in D.
    set (q := (length m / 64)%nat) in *. destruct (Nat.le_gt_cases r 55) as [C|C].
    + replace (119 - r)%nat with (55 - r + 1 * 64)%nat by lia. rewrite Nat.mod_add by discriminate. rewrite (Nat.mod_small (55 - r)) by lia.
      replace (length m + S (55 - r + (4 + 4)))%nat with (0 + (q + 1) * 64)%nat by lia. rewrite Nat.mod_add by discriminate. reflexivity.
    + rewrite (Nat.mod_small (119 - r)) by lia. replace (length m + S (119 - r + (4 + 4)))%nat with (0 + (q + 2) * 64)%nat by lia. rewrite Nat.mod_add by discriminate. reflexivity.
Qed.

Lemma sha1_fips m : 8 * N.of_nat (length m) < 2 ^ 64 -> fips_sha1 m (sha1 m).
Proof.
  intros H. pose proof (pad_ok m H) as P. assert (Lp : exists n, length (pad m) = (64 * n)%nat).
  { destruct P as (_ & _ & _ & _ & _ & _ & Hm). exists (length (pad m) / 64)%nat. pose proof (Nat.div_mod (length (pad m)) 64 ltac:(discriminate)). lia. }
  destruct Lp as (n & Ln). assert (Hs : smalls (1732584193, 4023233417, 2562383102, 271733878, 3285377520)) by (repeat split; reflexivity).
  exists (pad m), (blocks (length (words (pad m))) (words (pad m)) H0). split; [exact P|].
  pose proof (words_length (16 * n) (pad m) ltac:(lia)) as Lw.
  assert (Hb : hashes H0 (pad m) (blocks (length (words (pad m))) (words (pad m)) H0)) by (apply (blocks_ok n); [exact Ln|lia|exact Hs]).
  split; [exact Hb|]. assert (Sm : smalls (blocks (length (words (pad m))) (words (pad m)) H0)).
  { clear - Ln Hs. change (1732584193, 4023233417, 2562383102, 271733878, 3285377520) with H0 in Hs. revert Hs. generalize H0 as h. generalize (length (words (pad m))) as f. generalize dependent (pad m). induction n as [|n IH]; intros p L f h Hh.
    - destruct p; [|cbn in L; lia]. destruct f; exact Hh.
    - destruct f as [|f]; [exact Hh|]. assert (L1 : length (firstn 64 p) = 64%nat) by (rewrite firstn_length; lia).
      assert (E : words p = words (firstn 64 p) ++ words (skipn 64 p)) by (rewrite <- (words_app 16) by exact L1; rewrite firstn_skipn; reflexivity).
      pose proof (words_length 16 _ L1) as L2. rewrite blocks_step by (rewrite E; destruct (words (firstn 64 p)); discriminate). rewrite E. destruct (split_at 16 _ (words (skipn 64 p)) L2) as [-> ->].
      apply IH; [rewrite skipn_length; lia|]. apply (block_ok h (firstn 64 p) Hh L1). }
  unfold sha1. cbv zeta. change (1732584193, 4023233417, 2562383102, 271733878, 3285377520) with H0. destruct (blocks _ _ H0) as [[[[a b] c] d] e]. destruct Sm as (Ha & Hb' & Hc & Hd & He).
  exists (put_u32 a), (put_u32 b), (put_u32 c), (put_u32 d), (put_u32 e). split; [reflexivity|].
  repeat (constructor; [split; [apply put_u32_be|rewrite (proj2 (put_u32_be _)); apply N.mod_small; assumption]|]). constructor.
Qed.

(** * The definition determines the digest *)
Lemma padded_unique m p p' : padded m p -> padded m p' -> p = p'.
Proof.
  intros (k & l & E & L & Bl & Hk & Hm) (k' & l' & E' & L' & Bl' & Hk' & Hm'). assert (l = l') by (apply be_inj; congruence). subst l'. assert (k = k'); [|congruence].
  subst p p'. rewrite !app_length, repeat_length in Hm, Hm'. cbn [length] in Hm, Hm'. rewrite L in *.
  pose proof (Nat.div_mod (length m + (1 + (k + 8))) 64 ltac:(discriminate)). pose proof (Nat.div_mod (length m + (1 + (k' + 8))) 64 ltac:(discriminate)). lia.
Qed.
Lemma round_unique t w s a b : round t w s a -> round t w s b -> a = b.
Proof.
  destruct s as [[[[x1 x2] x3] x4] x5]. intros (f & F & ->) (g & G & ->). rewrite (bitwise_unique _ _ _ _ _ _ F G). reflexivity.
Qed.
Lemma block_unique h blk a b : block_hash h blk a -> block_hash h blk b -> a = b.
Proof.
  intros (W & s & W1 & W2 & S1 & S2 & Ea) (V & r & V1 & V2 & R1 & R2 & Eb).
  assert (EW : forall n t, (t < n)%nat -> (t < 80)%nat -> W t = V t).
  { induction n as [|n IH]; intros t Ht H80; [lia|]. destruct (Nat.lt_ge_cases t 16) as [C|C]; [rewrite W1, V1 by exact C; reflexivity|]. rewrite W2, V2 by lia. rewrite !IH by lia. reflexivity. }
  assert (ES : forall t, (t <= 80)%nat -> s t = r t).
  { induction t as [|t IH]; intros Ht; [congruence|]. apply (round_unique t (W t) (s t)); [apply S2; lia|]. rewrite IH by lia. rewrite (EW (S t) t) by lia. apply R2. lia. }
  rewrite (ES 80%nat (le_n _)) in Ea. destruct h as [[[[x1 x2] x3] x4] x5]. destruct (r 80%nat) as [[[[y1 y2] y3] y4] y5]. congruence.
Qed.
Lemma hashes_unique h p a : hashes h p a -> forall b, hashes h p b -> a = b.
Proof.
  induction 1 as [h|h blk h1 rest h2 L Hb _ IH]; intros b Hb'.
  - inversion Hb' as [|? blk ? rest ? L ? ? E]; subst; [reflexivity|]. destruct blk; [discriminate|discriminate].
  - inversion Hb' as [? E|? blk' h1' rest' ? L' B' R' E]; subst; [destruct blk; discriminate|].
    assert (blk' = blk /\ rest' = rest) as [-> ->].
    { pose proof (split_at 64 blk rest L) as [X1 X2]. pose proof (split_at 64 blk' rest' L') as [Y1 Y2]. match goal with E : blk' ++ rest' = blk ++ rest |- _ => rewrite E in Y1, Y2 end. split; congruence. }
    rewrite (block_unique _ _ _ _ B' Hb) in R'. apply IH, R'.
Qed.
Lemma fips_unique m d d' : fips_sha1 m d -> fips_sha1 m d' -> d = d'.
Proof.
  intros (p & h & P & H & D) (p' & h' & P' & H' & D'). rewrite (padded_unique _ _ _ P P') in H. rewrite (hashes_unique _ _ _ H _ H') in D. destruct h' as [[[[a b] c] e] f].
  destruct D as (x1 & x2 & x3 & x4 & x5 & -> & F). destruct D' as (y1 & y2 & y3 & y4 & y5 & -> & F').
  repeat match goal with H : Forall2 _ (_ :: _) (_ :: _) |- _ => inversion H; subst; clear H end.
  repeat match goal with H : length ?x = 4%nat /\ be ?x = _ |- _ => destruct H as [? ?] end. repeat (f_equal; [apply be_inj; congruence|]). apply be_inj; congruence.
Qed.
