(** GoLib.v -- the Go standard library functions the repository calls:
    strconv.Itoa, strconv.Atoi, encoding/hex.EncodeToString,
    encoding/binary.BigEndian, strings.Split(s, ":").
    They are modelled from the Go documentation/implementation; they are not
    repository code.  (Used from misc/beancode.go:13,54,65,73,78,96,
    dht/node.go:32-33,74,87,100,113 and dht/peerwire/*.go.) *)
From Verif Require Import Base.
Local Open Scope list_scope.

(** ** Decimal numbers *)

Definition digit (d : N) : byte := byte_of (48 + d).
Definition is_digit (c : byte) : bool := ((48 <=? bval c) && (bval c <=? 57))%N.
Definition digit_val (c : byte) : N := (bval c - 48)%N.

(** Decimal digits of [n], most significant first; [fuel] > number of binary digits suffices. *)
Fixpoint utoa_fuel (fuel : nat) (n : N) : bytes :=
  match fuel with
  | O => []
  | S f => if (n <? 10)%N then [digit n]
           else utoa_fuel f (n / 10)%N ++ [digit (n mod 10)%N]
  end.
Definition utoa (n : N) : bytes := utoa_fuel (S (N.to_nat (N.log2 n))) n.

(** strconv.Itoa (used at misc/beancode.go:13 and :65). *)
Definition itoa (z : Z) : bytes :=
  if (z <? 0)%Z then "-"%char :: utoa (Z.to_N (- z)) else utoa (Z.to_N z).

(** Value of a digit string read left to right; [None] on a non-digit. *)
Fixpoint udigits (acc : N) (s : bytes) : option N :=
  match s with
  | [] => Some acc
  | c :: t => if is_digit c then udigits (acc * 10 + digit_val c)%N t else None
  end.

(** strconv.Atoi = ParseInt(s, 10, 0): optional sign '+' or '-', at least one
    digit, only digits, and the value must fit a 64-bit int.
    Syntax and range errors are both a *NumError. *)
Definition atoi_mag (neg : bool) (ds : bytes) : res Z :=
  match ds with
  | [] => Err ENum
  | _ => match udigits 0 ds with
         | None => Err ENum
         | Some n => let z := if neg then (- Z.of_N n)%Z else Z.of_N n in
                     if is_intb z then Ok z else Err ENum
         end
  end.
Definition atoi (s : bytes) : res Z :=
  match s with
  | c :: t => if Ascii.eqb c "-" then atoi_mag true t
              else if Ascii.eqb c "+" then atoi_mag false t
              else atoi_mag false s
  | [] => Err ENum
  end.

(** ** Hexadecimal: encoding/hex.EncodeToString *)
Definition hexdigit (n : N) : byte := if (n <? 10)%N then byte_of (48 + n) else byte_of (87 + n).
Definition hex_byte (b : byte) : bytes := [hexdigit (bval b / 16)%N; hexdigit (bval b mod 16)%N].
Definition hex (s : bytes) : bytes := concat (map hex_byte s).

(** ** encoding/binary.BigEndian *)
Definition put_u16 (n : N) : bytes := [byte_of (n / 256); byte_of n].
Definition get_u16 (hi lo : byte) : N := (bval hi * 256 + bval lo)%N.
Definition put_u32 (n : N) : bytes :=
  [byte_of (n / 16777216); byte_of (n / 65536); byte_of (n / 256); byte_of n].
Definition get_u32 (a b c d : byte) : N :=
  (((bval a * 256 + bval b) * 256 + bval c) * 256 + bval d)%N.

(** ** strings.Split(s, sep) for a one-byte separator (misc/beancode.go:73).
    The result always has at least one element. *)
Fixpoint split_on (sep : byte) (s : bytes) : list bytes :=
  match s with
  | [] => [[]]
  | c :: t => if Ascii.eqb c sep then [] :: split_on sep t
              else match split_on sep t with
                   | [] => [[c]]
                   | h :: r => (c :: h) :: r
                   end
  end.

(** * Lemmas *)

Lemma is_digit_digit d : (d < 10)%N -> is_digit (digit d) = true /\ digit_val (digit d) = d.
Proof.
  intros H. unfold is_digit, digit_val, digit. rewrite bval_byte_of.
  rewrite N.mod_small by lia. lia.
Qed.

Lemma digit_digit_val c : is_digit c = true -> digit (digit_val c) = c.
Proof.
  unfold is_digit, digit_val, digit. intros H. apply bval_inj. rewrite bval_byte_of.
  rewrite N.mod_small by lia. lia.
Qed.

Lemma is_digit_val_lt c : is_digit c = true -> (digit_val c < 10)%N.
Proof. unfold is_digit, digit_val. lia. Qed.

Lemma udigits_app acc a b :
  udigits acc (a ++ b) = match udigits acc a with Some n => udigits n b | None => None end.
Proof.
  revert acc; induction a as [|c a IH]; intros acc; cbn [udigits app]; [reflexivity|].
  destruct (is_digit c); [apply IH|reflexivity].
Qed.

Lemma udigits_forall acc s n : udigits acc s = Some n -> Forall (fun c => is_digit c = true) s.
Proof.
  revert acc; induction s as [|c s IH]; cbn [udigits]; intros acc H; constructor.
  - destruct (is_digit c); [reflexivity|discriminate].
  - destruct (is_digit c); [eapply IH; exact H|discriminate].
Qed.

Lemma udigits_total acc s : Forall (fun c => is_digit c = true) s -> exists n, udigits acc s = Some n.
Proof.
  revert acc; induction s as [|c s IH]; intros acc H; cbn [udigits]; [eauto|].
  inversion H as [|? ? Hc Hs]; subst. rewrite Hc. apply IH; exact Hs.
Qed.

Lemma utoa_fuel_digits f n : Forall (fun c => is_digit c = true) (utoa_fuel f n).
Proof.
  revert n; induction f as [|f IH]; intros n; cbn [utoa_fuel]; [constructor|].
  destruct (N.ltb_spec n 10) as [Hn|Hn].
  - constructor; [|constructor]. apply is_digit_digit; lia.
  - apply Forall_app. split; [apply IH|]. constructor; [|constructor].
    apply is_digit_digit. apply N.mod_lt. discriminate.
Qed.

Lemma utoa_fuel_value f n : (n < 2 ^ N.of_nat f)%N -> 0 < f -> udigits 0 (utoa_fuel f n) = Some n.
Proof.
  revert n; induction f as [|f IH]; intros n Hn Hf; [lia|]. cbn [utoa_fuel].
  destruct (N.ltb_spec n 10) as [H10|H10].
  - cbn [udigits]. destruct (is_digit_digit n H10) as [-> ->]. f_equal.
  - assert (Hd : (n / 10 < 2 ^ N.of_nat f)%N).
    { apply N.div_lt_upper_bound; [discriminate|].
      rewrite Nat2N.inj_succ, N.pow_succ_r' in Hn. lia. }
    assert (Hf' : 0 < f).
    { destruct f as [|f]; [|lia]. change (2 ^ N.of_nat 1)%N with 2%N in Hn. lia. }
    rewrite udigits_app, (IH _ Hd Hf'). cbn [udigits].
    destruct (is_digit_digit (n mod 10)%N) as [-> ->]; [apply N.mod_lt; discriminate|].
    f_equal. pose proof (N.div_mod n 10). lia.
Qed.

Lemma utoa_value n : udigits 0 (utoa n) = Some n.
Proof.
  apply utoa_fuel_value; [|lia]. rewrite Nat2N.inj_succ, N2Nat.id.
  destruct n as [|p]; [reflexivity|]. apply N.log2_spec. lia.
Qed.

Lemma utoa_digits n : Forall (fun c => is_digit c = true) (utoa n).
Proof. apply utoa_fuel_digits. Qed.

Lemma utoa_nonempty n : utoa n <> [].
Proof.
  unfold utoa. cbn [utoa_fuel]. destruct (n <? 10)%N; [discriminate|].
  intros H. apply app_eq_nil in H. destruct H. discriminate.
Qed.

(** No leading zero, except for the number zero itself. *)
Definition canonical (ds : bytes) : Prop :=
  match ds with
  | [] => False
  | [_] => True
  | c :: _ => c <> "0"%char
  end.

Lemma canonical_snoc ds d : ds <> [] -> canonical (ds ++ [d]) <-> (match ds with c :: _ => c <> "0"%char | [] => False end).
Proof.
  intros H. destruct ds as [|c ds]; [congruence|]. cbn [app canonical].
  destruct ds; cbn [app]; reflexivity.
Qed.

Lemma udigits_pos_head acc s n : udigits acc s = Some n -> (acc <= n)%N /\ ((0 < acc)%N -> (0 < n)%N).
Proof.
  revert acc; induction s as [|c s IH]; cbn [udigits]; intros acc H.
  - injection H as <-. lia.
  - destruct (is_digit c); [|discriminate]. apply IH in H. lia.
Qed.

Lemma canonical_head_pos c s n :
  udigits 0 (c :: s) = Some n -> c <> "0"%char -> (0 < n)%N.
Proof.
  cbn [udigits]. destruct (is_digit c) eqn:Ec; [|discriminate]. intros H Hc.
  apply udigits_pos_head in H as [_ H]. apply H.
  assert (digit_val c <> 0)%N.
  { intros E. apply Hc. rewrite <- (digit_digit_val c Ec), E. reflexivity. }
  lia.
Qed.

Lemma utoa_fuel_canonical f n : (n < 2 ^ N.of_nat f)%N -> 0 < f -> canonical (utoa_fuel f n).
Proof.
  revert n; induction f as [|f IH]; intros n Hn Hf; [lia|]. cbn [utoa_fuel].
  destruct (N.ltb_spec n 10) as [H10|H10]; [exact I|].
  assert (Hd : (n / 10 < 2 ^ N.of_nat f)%N).
  { apply N.div_lt_upper_bound; [discriminate|].
    rewrite Nat2N.inj_succ, N.pow_succ_r' in Hn. lia. }
  assert (Hf' : 0 < f).
  { destruct f as [|f]; [|lia]. change (2 ^ N.of_nat 1)%N with 2%N in Hn. lia. }
  specialize (IH _ Hd Hf'). pose proof (utoa_fuel_value f _ Hd Hf') as Hv.
  assert (Hpos : (0 < n / 10)%N). { apply N.div_str_pos. lia. }
  destruct (utoa_fuel f (n / 10)) as [|c ds] eqn:E; [contradiction|].
  cbn [app canonical]. destruct ds as [|c' ds]; cbn [app].
  - intros ->. cbn in Hv. injection Hv as Hv. lia.
  - exact IH.
Qed.

Lemma utoa_canonical n : canonical (utoa n).
Proof.
  apply utoa_fuel_canonical; [|lia]. rewrite Nat2N.inj_succ, N2Nat.id.
  destruct n as [|p]; [reflexivity|]. apply N.log2_spec. lia.
Qed.

Lemma canonical_unique a b n :
  canonical a -> canonical b -> udigits 0 a = Some n -> udigits 0 b = Some n -> a = b.
Proof.
  revert b n. induction a as [|d a IH] using rev_ind; intros b n Ca Cb Ha Hb; [contradiction|].
  destruct b as [|e b _] using rev_ind; [contradiction|].
  rewrite udigits_app in Ha, Hb.
  destruct (udigits 0 a) as [na|] eqn:Ea; [|discriminate].
  destruct (udigits 0 b) as [nb|] eqn:Eb; [|discriminate].
  cbn [udigits] in Ha, Hb.
  destruct (is_digit d) eqn:Ed; [|discriminate]. destruct (is_digit e) eqn:Ee; [|discriminate].
  injection Ha as Ha. injection Hb as Hb.
  pose proof (is_digit_val_lt _ Ed) as Ld. pose proof (is_digit_val_lt _ Ee) as Le.
  assert (Hde : digit_val d = digit_val e) by lia.
  assert (Hn : na = nb) by lia.
  assert (d = e) as <-.
  { rewrite <- (digit_digit_val d Ed), <- (digit_digit_val e Ee), Hde. reflexivity. }
  f_equal. subst nb.
  destruct a as [|x a]; destruct b as [|y b].
  - reflexivity.
  - exfalso. cbn in Ea. injection Ea as <-.
    assert (0 < 0)%N; [|lia]. eapply canonical_head_pos; [exact Eb|].
    apply (canonical_snoc (y :: b) d) in Cb; [exact Cb|discriminate].
  - exfalso. cbn in Eb. injection Eb as <-.
    assert (0 < 0)%N; [|lia]. eapply canonical_head_pos; [exact Ea|].
    apply (canonical_snoc (x :: a) d) in Ca; [exact Ca|discriminate].
  - assert (canonical (x :: a)).
    { apply (canonical_snoc (x :: a) d) in Ca; [|discriminate]. cbn. destruct a; [exact I|exact Ca]. }
    assert (canonical (y :: b)).
    { apply (canonical_snoc (y :: b) d) in Cb; [|discriminate]. cbn. destruct b; [exact I|exact Cb]. }
    eapply IH; [assumption|assumption|reflexivity|assumption].
Qed.

Lemma canonical_utoa ds n : canonical ds -> udigits 0 ds = Some n -> ds = utoa n.
Proof. intros Hc Hv. eapply canonical_unique; eauto using utoa_canonical, utoa_value. Qed.

Lemma digit_not c x : is_digit c = true -> is_digit x = false -> c <> x.
Proof. congruence. Qed.

Lemma atoi_mag_ok (neg : bool) ds n :
  ds <> [] -> udigits 0 ds = Some n ->
  is_int (if neg then (- Z.of_N n)%Z else Z.of_N n) ->
  atoi_mag neg ds = Ok (if neg then (- Z.of_N n)%Z else Z.of_N n).
Proof.
  intros Hne Hv Hz. unfold atoi_mag. destruct ds as [|d ds]; [congruence|].
  rewrite Hv. cbv zeta. apply is_intb_spec in Hz. rewrite Hz. reflexivity.
Qed.

Lemma atoi_mag_inv (neg : bool) ds z :
  atoi_mag neg ds = Ok z ->
  is_int z /\ ds <> [] /\ exists n, udigits 0 ds = Some n /\ z = (if neg then (- Z.of_N n)%Z else Z.of_N n).
Proof.
  unfold atoi_mag. destruct ds as [|d ds]; [discriminate|].
  destruct (udigits 0 (d :: ds)) as [n|]; [|discriminate]. cbv zeta.
  destruct (is_intb (if neg then (- Z.of_N n)%Z else Z.of_N n)) eqn:Ei; [|discriminate].
  intros H. injection H as <-. apply is_intb_spec in Ei. repeat split; try apply Ei; [discriminate|exists n; auto].
Qed.

Lemma atoi_mag_cases neg ds : (exists z, atoi_mag neg ds = Ok z) \/ atoi_mag neg ds = Err ENum.
Proof.
  unfold atoi_mag. destruct ds as [|d ds]; [auto|].
  destruct (udigits 0 (d :: ds)) as [n|]; [|auto]. cbv zeta.
  destruct (is_intb (if neg then (- Z.of_N n)%Z else Z.of_N n)); eauto.
Qed.

Lemma atoi_cases s : (exists z, atoi s = Ok z) \/ atoi s = Err ENum.
Proof.
  unfold atoi. destruct s as [|c t]; [auto|].
  destruct (Ascii.eqb c "-"); [|destruct (Ascii.eqb c "+")]; apply atoi_mag_cases.
Qed.

Lemma atoi_err s : forall e, atoi s = Err e -> e = ENum.
Proof. intros e H. destruct (atoi_cases s) as [[z E]|E]; congruence. Qed.

Lemma atoi_no_panic s p : atoi s <> Panic p.
Proof. intros H. destruct (atoi_cases s) as [[z E]|E]; congruence. Qed.

(** Exact characterisation of Atoi's successes. *)
Lemma atoi_ok s z ds n :
  ds <> [] -> udigits 0 ds = Some n -> is_int z ->
  ((s = ds /\ z = Z.of_N n) \/ (s = "+"%char :: ds /\ z = Z.of_N n) \/ (s = "-"%char :: ds /\ z = (- Z.of_N n)%Z)) ->
  atoi s = Ok z.
Proof.
  intros Hne Hv Hz [[-> Ez]|[[-> Ez]|[-> Ez]]].
  - subst z. pose proof (udigits_forall _ _ _ Hv) as Hd.
    destruct ds as [|c t]; [congruence|]. inversion Hd as [|? ? Hc Ht]; subst.
    unfold atoi.
    assert (Ascii.eqb c "-" = false) as -> by (apply Ascii.eqb_neq; intros ->; vm_compute in Hc; discriminate Hc).
    assert (Ascii.eqb c "+" = false) as -> by (apply Ascii.eqb_neq; intros ->; vm_compute in Hc; discriminate Hc).
    apply (atoi_mag_ok false); assumption.
  - subst z. apply (atoi_mag_ok false); assumption.
  - subst z. apply (atoi_mag_ok true); assumption.
Qed.

Lemma atoi_inv s z :
  atoi s = Ok z ->
  is_int z /\
  exists ds n, ds <> [] /\ udigits 0 ds = Some n /\
    ((s = ds /\ z = Z.of_N n) \/ (s = "+"%char :: ds /\ z = Z.of_N n) \/ (s = "-"%char :: ds /\ z = (- Z.of_N n)%Z)).
Proof.
  unfold atoi. destruct s as [|c t]; [discriminate|].
  destruct (Ascii.eqb_spec c "-") as [->|Em]; [|destruct (Ascii.eqb_spec c "+") as [->|Ep]];
    intros H; apply atoi_mag_inv in H as (Hz & Hne & n & Hv & ->); (split; [exact Hz|]).
  - exists t, n. auto 6.
  - exists t, n. auto 6.
  - exists (c :: t), n. auto 6.
Qed.

Lemma atoi_digits ds n :
  ds <> [] -> udigits 0 ds = Some n -> (Z.of_N n <= max_int)%Z -> atoi ds = Ok (Z.of_N n).
Proof.
  intros Hne Hv Hr. eapply atoi_ok; eauto. unfold is_int, min_int, max_int in *. lia.
Qed.

Lemma atoi_utoa n : (Z.of_N n <= max_int)%Z -> atoi (utoa n) = Ok (Z.of_N n).
Proof. intros H. apply atoi_digits; [apply utoa_nonempty|apply utoa_value|exact H]. Qed.

Lemma atoi_itoa z : is_int z -> atoi (itoa z) = Ok z.
Proof.
  intros Hz. unfold itoa. destruct (Z.ltb_spec z 0) as [Hn|Hn].
  - eapply atoi_ok; [apply utoa_nonempty|apply utoa_value|exact Hz|].
    right; right. split; [reflexivity|]. lia.
  - rewrite atoi_utoa; [f_equal; lia|]. unfold is_int in Hz. lia.
Qed.

(** ** hex *)
Lemma hex_length s : length (hex s) = 2 * length s.
Proof. unfold hex. induction s as [|c s IH]; cbn [map concat length app hex_byte]; [reflexivity|]. lia. Qed.

Definition is_hexdigit (c : byte) : bool :=
  is_digit c || ((97 <=? bval c) && (bval c <=? 102))%N.

Lemma hexdigit_ok n : (n < 16)%N -> is_hexdigit (hexdigit n) = true.
Proof.
  intros H. unfold is_hexdigit, hexdigit, is_digit.
  destruct (N.ltb_spec n 10); rewrite !bval_byte_of, !N.mod_small by lia; lia.
Qed.

Lemma hexdigit_inj a b : (a < 16)%N -> (b < 16)%N -> hexdigit a = hexdigit b -> a = b.
Proof.
  intros Ha Hb H. apply (f_equal bval) in H. unfold hexdigit in H.
  destruct (N.ltb_spec a 10); destruct (N.ltb_spec b 10);
    rewrite !bval_byte_of, !N.mod_small in H by lia; lia.
Qed.

Lemma bval_div16 b : (bval b / 16 < 16)%N.
Proof. apply N.div_lt_upper_bound; [discriminate|]. pose proof (bval_lt b). lia. Qed.

Lemma hex_forall s : Forall (fun c => is_hexdigit c = true) (hex s).
Proof.
  unfold hex. induction s as [|c s IH]; cbn [map concat app hex_byte]; constructor; [|constructor; [|exact IH]].
  - apply hexdigit_ok, bval_div16.
  - apply hexdigit_ok, N.mod_lt. discriminate.
Qed.

Lemma hex_inj a b : hex a = hex b -> a = b.
Proof.
  unfold hex. revert b; induction a as [|x a IH]; destruct b as [|y b]; cbn [map concat app hex_byte]; intros H; try discriminate; [reflexivity|].
  injection H as H1 H2 H3. f_equal; [|apply IH; exact H3].
  apply bval_inj. apply hexdigit_inj in H1; [|apply bval_div16..].
  apply hexdigit_inj in H2; [|apply N.mod_lt; discriminate..].
  rewrite (N.div_mod (bval x) 16), (N.div_mod (bval y) 16) by discriminate. congruence.
Qed.

(** ** big endian *)
Lemma get_put_u16 n : (n < 65536)%N -> get_u16 (byte_of (n / 256)) (byte_of n) = n.
Proof.
  intros H. unfold get_u16. rewrite !bval_byte_of.
  rewrite (N.mod_small (n / 256)) by (apply N.div_lt_upper_bound; lia).
  pose proof (N.div_mod n 256). lia.
Qed.

Lemma put_get_u16 a b : put_u16 (get_u16 a b) = [a; b].
Proof.
  unfold put_u16, get_u16. pose proof (bval_lt a). pose proof (bval_lt b).
  f_equal; [|f_equal]; apply bval_inj; rewrite bval_byte_of.
  - rewrite N.div_add_l by discriminate. rewrite (N.div_small (bval b)) by lia.
    rewrite N.add_0_r, N.mod_small by lia. reflexivity.
  - rewrite N.add_comm, N.mod_add by discriminate. apply N.mod_small. lia.
Qed.

Lemma get_u16_lt a b : (get_u16 a b < 65536)%N.
Proof. unfold get_u16. pose proof (bval_lt a). pose proof (bval_lt b). lia. Qed.

Lemma put_u16_mod n : put_u16 n = put_u16 (n mod 65536).
Proof.
  unfold put_u16. f_equal; [|f_equal]; apply bval_inj; rewrite !bval_byte_of.
  - change 65536%N with (256 * 256)%N. rewrite N.mod_mul_r by discriminate.
    rewrite N.add_comm, N.mul_comm, N.div_add_l by discriminate.
    rewrite (N.div_small (n mod 256)) by (apply N.mod_lt; discriminate).
    rewrite N.add_0_r, N.mod_mod by discriminate. reflexivity.
  - change 65536%N with (256 * 256)%N. rewrite N.mod_mul_r by discriminate.
    rewrite N.add_mod by discriminate. rewrite N.mul_comm, N.mod_mul by discriminate.
    rewrite N.add_0_r, !N.mod_mod by discriminate. reflexivity.
Qed.

Lemma get_put_u32 n : (n < 4294967296)%N ->
  get_u32 (byte_of (n / 16777216)) (byte_of (n / 65536)) (byte_of (n / 256)) (byte_of n) = n.
Proof.
  intros H. unfold get_u32. rewrite !bval_byte_of.
  rewrite (N.mod_small (n / 16777216)) by (apply N.div_lt_upper_bound; lia).
  pose proof (N.div_mod n 256 ltac:(discriminate)) as H0.
  pose proof (N.div_mod (n / 256) 256 ltac:(discriminate)) as H1. rewrite N.div_div in H1 by discriminate.
  change (256 * 256)%N with 65536%N in H1.
  pose proof (N.div_mod (n / 65536) 256 ltac:(discriminate)) as H2. rewrite N.div_div in H2 by discriminate.
  change (65536 * 256)%N with 16777216%N in H2. lia.
Qed.

Lemma get_u32_lt a b c d : (get_u32 a b c d < 4294967296)%N.
Proof. unfold get_u32. pose proof (bval_lt a). pose proof (bval_lt b). pose proof (bval_lt c). pose proof (bval_lt d). lia. Qed.

(** ** split *)
Lemma split_on_nonempty sep s : split_on sep s <> [].
Proof.
  destruct s as [|c t]; cbn [split_on]; [discriminate|].
  destruct (Ascii.eqb c sep); [discriminate|]. destruct (split_on sep t); discriminate.
Qed.

Lemma split_on_none sep s : ~ In sep s -> split_on sep s = [s].
Proof.
  induction s as [|c t IH]; cbn [split_on]; intros H; [reflexivity|].
  destruct (Ascii.eqb_spec c sep) as [->|Hc]; [exfalso; apply H; left; reflexivity|].
  rewrite IH; [reflexivity|]. intros Hi. apply H. right. exact Hi.
Qed.

Lemma split_on_app sep a b : ~ In sep a -> split_on sep (a ++ sep :: b) = a :: split_on sep b.
Proof.
  induction a as [|c t IH]; cbn [split_on app]; intros H.
  - rewrite Ascii.eqb_refl. reflexivity.
  - destruct (Ascii.eqb_spec c sep) as [->|Hc]; [exfalso; apply H; left; reflexivity|].
    rewrite IH; [reflexivity|]. intros Hi. apply H. right. exact Hi.
Qed.

Lemma split_on_length sep s : length (split_on sep s) = S (count_occ ascii_dec s sep).
Proof.
  induction s as [|c t IH]; cbn [split_on count_occ]; [reflexivity|].
  destruct (ascii_dec c sep) as [->|Hc].
  - rewrite Ascii.eqb_refl. cbn [length]. lia.
  - apply Ascii.eqb_neq in Hc. rewrite Hc. destruct (split_on sep t); cbn [length] in *; lia.
Qed.
