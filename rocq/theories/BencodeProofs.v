(** BencodeProofs.v -- lemmas about the bencode model; the property theorems are in
    P_Bencode.v.  Nothing here models repository code, except the suffix-based
    helpers [iscan] and [xitem], which are proof devices. *)
From Verif Require Import Base GoLib Bencode BencodeSpec.
Local Open Scope list_scope.

Arguments itoa : simpl never.
Arguments utoa : simpl never.
Arguments atoi : simpl never.
Arguments idx : simpl never.
Arguments Nat.ltb : simpl never.
Arguments Nat.leb : simpl never.
Arguments is_digit : simpl never.
Arguments wrap : simpl never.
Arguments dec_fuel : simpl never.

(** ** The decimal specification and the model's digit reader *)

Lemma digit_is_iff c d : digit_is c d <-> is_digit c = true /\ digit_val c = d.
Proof.
  unfold digit_is, is_digit, digit_val, bval. lia.
Qed.

Lemma digits_udigits ds n : digits ds n <-> udigits 0 ds = Some n.
Proof.
  split.
  - induction 1 as [|ds n c d Hds IH Hc]; [reflexivity|].
    rewrite udigits_app, IH. cbn [udigits]. apply digit_is_iff in Hc as [Hc <-]. rewrite Hc. f_equal. lia.
  - revert n; induction ds as [|c ds IH] using rev_ind; intros n H.
    + injection H as <-. constructor.
    + rewrite udigits_app in H. destruct (udigits 0 ds) as [m|] eqn:E; [|discriminate].
      cbn [udigits] in H. destruct (is_digit c) eqn:Ec; [|discriminate]. injection H as <-.
      replace (m * 10 + digit_val c)%N with (10 * m + digit_val c)%N by lia.
      constructor; [apply IH; reflexivity|]. apply digit_is_iff. auto.
Qed.

Lemma decimal_nat_iff ds n : decimal_nat ds n <-> ds = utoa n.
Proof.
  split.
  - intros (Hd & Hne & Hz). apply canonical_utoa; [|apply digits_udigits; exact Hd].
    destruct ds as [|c [|c' ds]]; cbn [canonical]; [congruence|exact I|].
    intros ->. specialize (Hz _ eq_refl). discriminate.
  - intros ->. split; [apply digits_udigits, utoa_value|]. split; [apply utoa_nonempty|].
    intros t Ht. pose proof (utoa_canonical n) as Hc. rewrite Ht in Hc.
    destruct t as [|c t]; [reflexivity|]. cbn [canonical] in Hc. congruence.
Qed.

Lemma decimal_iff s z : decimal s z <-> s = itoa z.
Proof.
  unfold decimal, itoa. split.
  - intros [(n & Hn & ->)|(ds & n & -> & Hn & Hp & ->)]; apply decimal_nat_iff in Hn.
    + destruct (Z.ltb_spec (Z.of_N n) 0); [lia|]. rewrite N2Z.id. exact Hn.
    + destruct (Z.ltb_spec (- Z.of_N n) 0); [|lia]. rewrite Z.opp_involutive, N2Z.id, Hn. reflexivity.
  - destruct (Z.ltb_spec z 0); intros ->.
    + right. exists (utoa (Z.to_N (- z))), (Z.to_N (- z)). split; [reflexivity|].
      split; [apply decimal_nat_iff; reflexivity|]. lia.
    + left. exists (Z.to_N z). split; [apply decimal_nat_iff; reflexivity|]. lia.
Qed.

Lemma itoa_nat n : itoa (Z.of_nat n) = utoa (N.of_nat n).
Proof.
  unfold itoa. destruct (Z.ltb_spec (Z.of_nat n) 0); [lia|]. f_equal. lia.
Qed.

(** ** Integers *)

(** The body condition enforced by the scanning loop; [p] is the previous character. *)
Fixpoint okbody (p : byte) (b : bytes) : bool :=
  match b with
  | [] => true
  | c :: t => negb (Ascii.eqb p "-" && Ascii.eqb c "0") &&
              (if Ascii.eqb p "i" && Ascii.eqb c "0" then match t with [] => true | _ => false end else true) &&
              okbody c t
  end.

(** Suffix form of [int_loop]: offset of the stop position. *)
Fixpoint iscan (p : byte) (l : bytes) : res nat :=
  match l with
  | [] => Ok 0
  | c :: t =>
      if Ascii.eqb c "e" then Ok 0 else
      if Ascii.eqb p "-" && Ascii.eqb c "0" then Err EWrongParam else
      if Ascii.eqb p "i" && Ascii.eqb c "0" then
        match t with
        | [] => Panic PRuntime
        | n :: _ => if negb (Ascii.eqb n "e") then Err EWrongParam else do k <- iscan c t; Ok (S k)
        end
      else do k <- iscan c t; Ok (S k)
  end.

Lemma nth_error_mid {A} (a : list A) x b : nth_error (a ++ x :: b) (length a) = Some x.
Proof. rewrite nth_error_app2 by lia. rewrite Nat.sub_diag. reflexivity. Qed.

Lemma idx_mid {A} (a : list A) x b : idx (a ++ x :: b) (length a) = Ok x.
Proof. unfold idx. rewrite nth_error_mid. reflexivity. Qed.

Lemma idx_mid1 {A} (a : list A) x y b : idx (a ++ x :: y :: b) (S (length a)) = Ok y.
Proof.
  unfold idx. rewrite nth_error_app2 by lia. replace (S (length a) - length a) with 1 by lia. reflexivity.
Qed.

Lemma int_loop_iscan l : forall pre p f, length l < f ->
  int_loop f (pre ++ p :: l) (S (length pre)) = do k <- iscan p l; Ok (S (length pre + k)).
Proof.
  induction l as [|c t IH]; intros pre p f Hf; (destruct f as [|f]; [cbn in Hf; lia|]); cbn [int_loop].
  - destruct (Nat.ltb_spec (S (length pre)) (length (pre ++ [p]))) as [H|H].
    + rewrite app_length in H. cbn in H. lia.
    + cbn. f_equal. lia.
  - destruct (Nat.ltb_spec (S (length pre)) (length (pre ++ p :: c :: t))) as [H|H];
      [|rewrite app_length in H; cbn in H; lia].
    rewrite idx_mid1. cbn [bind iscan].
    destruct (Ascii.eqb c "e") eqn:Ee; [cbn; f_equal; lia|].
    replace (S (length pre) - 1) with (length pre) by lia. rewrite idx_mid. cbn [bind].
    destruct (Ascii.eqb p "-" && Ascii.eqb c "0") eqn:E1; [reflexivity|].
    assert (Hrec : int_loop f (pre ++ p :: c :: t) (S (S (length pre))) = do k <- iscan c t; Ok (S (S (length pre + k)))).
    { specialize (IH (pre ++ [p]) c f). rewrite app_length in IH. cbn [length] in IH.
      rewrite Nat.add_1_r in IH. rewrite <- app_assoc in IH. cbn [app] in IH.
      cbn [length] in Hf. rewrite IH by lia. destruct (iscan c t); reflexivity. }
    assert (Hfin : (do k <- (do k <- iscan c t; Ok (S k)); Ok (S (length pre + k))) = do k <- iscan c t; Ok (S (S (length pre + k)))).
    { destruct (iscan c t); cbn; f_equal. lia. }
    destruct (Ascii.eqb p "i" && Ascii.eqb c "0") eqn:E2.
    + destruct t as [|n t'].
      * rewrite idx_ge; [reflexivity|]. rewrite app_length. cbn [length]. lia.
      * unfold idx. replace (S (length pre) + 1) with (length pre + 2) by lia.
        rewrite nth_error_app2 by lia. replace (length pre + 2 - length pre) with 2 by lia. cbn [nth_error bind].
        destruct (negb (Ascii.eqb n "e")); [reflexivity|]. rewrite Hrec, Hfin. reflexivity.
    + rewrite Hrec, Hfin. reflexivity.
Qed.

Lemma iscan_closed b rest : forall p, ~ In "e"%char b ->
  iscan p (b ++ "e"%char :: rest) = if okbody p b then Ok (length b) else Err EWrongParam.
Proof.
  induction b as [|c t IH]; intros p He; [reflexivity|]. cbn [iscan app okbody].
  destruct (Ascii.eqb_spec c "e") as [->|Hc]; [exfalso; apply He; left; reflexivity|].
  assert (Ht : ~ In "e"%char t) by (intros Hin; apply He; right; exact Hin).
  destruct (Ascii.eqb p "-" && Ascii.eqb c "0") eqn:E1; cbn [negb andb]; [reflexivity|].
  destruct (Ascii.eqb p "i" && Ascii.eqb c "0") eqn:E2.
  - destruct t as [|n t'].
    + cbn. reflexivity.
    + cbn [app]. destruct (Ascii.eqb_spec n "e") as [->|Hn]; [exfalso; apply Ht; left; reflexivity|].
      reflexivity.
  - rewrite IH by exact Ht. cbn [andb]. destruct (okbody c t); reflexivity.
Qed.

Lemma iscan_open l : forall p, ~ In "e"%char l ->
  iscan p l = Ok (length l) \/ iscan p l = Err EWrongParam \/ iscan p l = Panic PRuntime.
Proof.
  induction l as [|c t IH]; intros p He; [left; reflexivity|]. cbn [iscan].
  destruct (Ascii.eqb_spec c "e") as [->|Hc]; [exfalso; apply He; left; reflexivity|].
  assert (Ht : ~ In "e"%char t) by (intros Hin; apply He; right; exact Hin).
  specialize (IH c Ht).
  destruct (Ascii.eqb p "-" && Ascii.eqb c "0"); [auto|].
  destruct (Ascii.eqb p "i" && Ascii.eqb c "0").
  - destruct t as [|n t']; [auto|]. destruct (negb (Ascii.eqb n "e")); [auto|].
    destruct IH as [-> | [-> | ->]]; cbn; auto.
  - destruct IH as [-> | [-> | ->]]; cbn; auto.
Qed.

Lemma split_first (x : byte) (l : bytes) : ~ In x l \/ exists b rest, l = b ++ x :: rest /\ ~ In x b.
Proof.
  induction l as [|c t IH]; [left; intros []|]. destruct IH as [Hno|(b & rest & -> & Hb)].
  - destruct (ascii_dec c x) as [->|Hc].
    + right. exists [], t. split; [reflexivity|intros []].
    + left. intros [?|?]; congruence || contradiction.
  - destruct (ascii_dec c x) as [->|Hc].
    + right. exists [], (b ++ x :: rest). split; [reflexivity|intros []].
    + right. exists (c :: b), rest. split; [reflexivity|]. intros [?|?]; congruence || contradiction.
Qed.

Lemma inner_int_closed pre b rest : ~ In "e"%char b ->
  innerDecodeInteger (pre ++ "i"%char :: b ++ "e"%char :: rest) (length pre) =
  if okbody "i" b then
    match atoi b with
    | Ok r => Ok (r, length pre + S (S (length b)))
    | _ => Err EWrongParam
    end
  else Err EWrongParam.
Proof.
  intros He. unfold innerDecodeInteger. rewrite idx_mid. cbn [bind].
  rewrite Ascii.eqb_refl. cbn [negb].
  rewrite int_loop_iscan by (rewrite !app_length; cbn [length]; rewrite app_length; cbn; lia).
  rewrite iscan_closed by exact He. destruct (okbody "i" b); [|reflexivity]. cbn [bind].
  replace (pre ++ "i"%char :: b ++ "e"%char :: rest) with ((pre ++ "i"%char :: b) ++ "e"%char :: rest)
    by (rewrite <- app_assoc; reflexivity).
  replace (S (length pre + length b)) with (length (pre ++ "i"%char :: b)) at 1
    by (rewrite app_length; cbn; lia).
  rewrite idx_mid. cbn [bind]. rewrite Ascii.eqb_refl.
  assert (Hs : slice ((pre ++ "i"%char :: b) ++ "e"%char :: rest) (S (length pre)) (S (length pre + length b)) = b).
  { rewrite <- app_assoc. cbn [app].
    replace (S (length pre)) with (length pre + 1) by lia.
    replace (S (length pre + length b)) with (length pre + (1 + length b)) by lia.
    rewrite slice_app_r. unfold slice. cbn [skipn]. replace (1 + length b - 1) with (length b) by lia.
    rewrite firstn_app, firstn_all, Nat.sub_diag. cbn. apply app_nil_r. }
  rewrite Hs. destruct (atoi_cases b) as [[z ->]| ->]; [|reflexivity]. f_equal. f_equal. lia.
Qed.

Lemma inner_int_open pre l : ~ In "e"%char l ->
  innerDecodeInteger (pre ++ "i"%char :: l) (length pre) = Err EWrongParam \/
  innerDecodeInteger (pre ++ "i"%char :: l) (length pre) = Panic PRuntime.
Proof.
  intros He. unfold innerDecodeInteger. rewrite idx_mid. cbn [bind]. rewrite Ascii.eqb_refl. cbn [negb].
  rewrite int_loop_iscan by (rewrite app_length; cbn; lia).
  destruct (iscan_open l "i" He) as [-> | [-> | ->]]; cbn [bind]; auto.
  rewrite idx_ge by (rewrite app_length; cbn; lia). cbn. auto.
Qed.

(** okbody and Atoi together are exactly the lenient integers of the specification. *)
Lemma okbody_digits ds : Forall (fun c => is_digit c = true) ds -> forall p, p <> "-"%char -> p <> "i"%char -> okbody p ds = true.
Proof.
  induction 1 as [|c t Hc Ht IH]; intros p H1 H2; [reflexivity|]. cbn [okbody].
  apply Ascii.eqb_neq in H1, H2. rewrite H1, H2. cbn [andb negb]. apply IH; intros ->; discriminate.
Qed.

Lemma lenient_int_iff b z : lenient_int b z <-> okbody "i" b = true /\ atoi b = Ok z.
Proof.
  split.
  - intros (Hz & [Hd|(ds & n & -> & Hne & Hd & ->)]).
    + apply decimal_iff in Hd. subst b. split; [|apply atoi_itoa; exact Hz].
      unfold itoa. destruct (Z.ltb_spec z 0) as [Hneg|Hpos].
      * cbn [okbody]. cbn.
        pose proof (utoa_canonical (Z.to_N (- z))) as Hc. pose proof (utoa_digits (Z.to_N (- z))) as Hdig.
        pose proof (utoa_value (Z.to_N (- z))) as Hv.
        destruct (utoa (Z.to_N (- z))) as [|c t]; [contradiction|].
        inversion Hdig as [|? ? Hc1 Ht]; subst.
        cbn [okbody]. destruct (Ascii.eqb_spec c "0") as [->|Hc0].
        { destruct t as [|? ?]; [|cbn [canonical] in Hc; congruence].
          change (udigits 0 ["0"%char]) with (Some 0%N) in Hv. injection Hv as Hv. lia. }
        cbn. apply okbody_digits; [exact Ht| |]; intros ->; discriminate.
      * pose proof (utoa_canonical (Z.to_N z)) as Hc. pose proof (utoa_digits (Z.to_N z)) as Hdig.
        destruct (utoa (Z.to_N z)) as [|c t]; [contradiction|].
        inversion Hdig as [|? ? Hc1 Ht]; subst.
        cbn [okbody]. replace (Ascii.eqb "i" "-") with false by reflexivity. rewrite Ascii.eqb_refl. cbn [andb negb].
        destruct (Ascii.eqb_spec c "0") as [->|Hc0].
        { destruct t as [|? ?]; [reflexivity|cbn [canonical] in Hc; congruence]. }
        cbn [andb]. apply okbody_digits; [exact Ht| |]; intros ->; discriminate.
    + apply digits_udigits in Hd. split; [|eapply atoi_ok; eauto].
      cbn [okbody]. cbn. apply okbody_digits; [eapply udigits_forall; exact Hd| |]; discriminate.
  - intros [Hok Ha]. apply atoi_inv in Ha as (Hz & ds & n & Hne & Hv & Hcase).
    split; [exact Hz|].
    pose proof (udigits_forall _ _ _ Hv) as Hdig.
    destruct Hcase as [(-> & ->)|[(-> & ->)|(-> & ->)]].
    + left. left. exists n. split; [|reflexivity]. split; [apply digits_udigits; exact Hv|]. split; [exact Hne|].
      intros t ->. cbn [okbody] in Hok. replace (Ascii.eqb "i" "-") with false in Hok by reflexivity.
      rewrite !Ascii.eqb_refl in Hok. cbn [andb negb] in Hok. destruct t; [reflexivity|discriminate].
    + right. exists ds, n. rewrite digits_udigits. auto.
    + left. right. exists ds, n. split; [reflexivity|].
      assert (Hh : match ds with c :: _ => c <> "0"%char | [] => False end).
      { destruct ds as [|c t]; [congruence|]. intros ->. cbn in Hok. discriminate. }
      split; [split; [apply digits_udigits; exact Hv|split; [exact Hne|]]|].
      * intros t ->. cbn in Hh. congruence.
      * split; [|reflexivity]. destruct ds as [|c t]; [contradiction|]. eapply canonical_head_pos; eauto.
Qed.

Lemma lenient_no_e b z : lenient_int b z -> ~ In "e"%char b.
Proof.
  intros H Hin. apply lenient_int_iff in H as [_ Ha]. apply atoi_inv in Ha as (_ & ds & n & _ & Hv & Hc).
  pose proof (udigits_forall _ _ _ Hv) as Hdig. rewrite Forall_forall in Hdig.
  destruct Hc as [(-> & _)|[(-> & _)|(-> & _)]].
  - specialize (Hdig _ Hin). discriminate.
  - destruct Hin as [?|Hin]; [discriminate|]. specialize (Hdig _ Hin). discriminate.
  - destruct Hin as [?|Hin]; [discriminate|]. specialize (Hdig _ Hin). discriminate.
Qed.

(** ** Strings *)

Lemma index_byte_none l : forall i ch, ~ In ch l -> index_byte l i ch = None.
Proof.
  induction l as [|c t IH]; intros i ch H; [reflexivity|]. cbn [index_byte].
  destruct (Ascii.eqb_spec c ch) as [->|Hc]; [exfalso; apply H; left; reflexivity|].
  apply IH. intros Hin; apply H; right; exact Hin.
Qed.

Lemma index_byte_some a ch t : forall i, ~ In ch a -> index_byte (a ++ ch :: t) i ch = Some (i + length a).
Proof.
  induction a as [|c a IH]; intros i H; cbn [index_byte app].
  - rewrite Ascii.eqb_refl. f_equal. cbn. lia.
  - destruct (Ascii.eqb_spec c ch) as [->|Hc]; [exfalso; apply H; left; reflexivity|].
    rewrite IH by (intros Hin; apply H; right; exact Hin). f_equal. cbn. lia.
Qed.

Lemma skipn_len_app {A} (a b : list A) : skipn (length a) (a ++ b) = b.
Proof. rewrite skipn_app, skipn_all, Nat.sub_diag. reflexivity. Qed.

Lemma indexFirst_none pre inp ch : ~ In ch inp -> indexFirstByteInStr (pre ++ inp) (length pre) ch = None.
Proof. intros H. unfold indexFirstByteInStr. rewrite skipn_len_app. apply index_byte_none, H. Qed.

Lemma indexFirst_some pre a ch t : ~ In ch a ->
  indexFirstByteInStr (pre ++ a ++ ch :: t) (length pre) ch = Some (length pre + length a).
Proof. intros H. unfold indexFirstByteInStr. rewrite skipn_len_app. apply index_byte_some, H. Qed.


Lemma inner_string_shape pre ds t :
  ~ In ":"%char ds ->
  innerDecodeString (pre ++ ds ++ ":"%char :: t) (length pre) =
  match ds with
  | [] => Err EWrongParam
  | _ => match atoi ds with
         | Err e => Err e
         | Panic p => Panic p
         | Ok slen =>
             let start' := wrap (Z.of_nat (length pre + length ds) + slen + 1) in
             if (Z.of_nat (length (pre ++ ds ++ ":"%char :: t)) <=? start')%Z then Err EWrongParam else
             if (start' <? Z.of_nat (length pre + length ds) + 1)%Z then Panic PRuntime else
             Ok (slice (pre ++ ds ++ ":"%char :: t) (length pre + length ds + 1) (Z.to_nat start'), Z.to_nat start')
         end
  end.
Proof.
  intros Hc. unfold innerDecodeString. rewrite indexFirst_some by exact Hc.
  destruct (Nat.leb_spec (length pre + length ds) (length pre)) as [H|H].
  - destruct ds; [reflexivity|cbn in H; lia].
  - destruct ds as [|d0 ds']; [cbn in H; lia|]. set (ds := d0 :: ds') in *.
    replace (slice (pre ++ ds ++ ":"%char :: t) (length pre) (length pre + length ds)) with ds; [reflexivity|].
    unfold slice. rewrite skipn_len_app. replace (length pre + length ds - length pre) with (length ds) by lia.
    rewrite firstn_app, firstn_all, Nat.sub_diag. cbn [firstn]. symmetry. apply app_nil_r.
Qed.

(** Digit-led strings: the decoder's three outcomes. *)
Lemma digit_led_nonneg c ds z : is_digit c = true -> atoi (c :: ds) = Ok z ->
  exists n, digits (c :: ds) n /\ z = Z.of_N n.
Proof.
  intros Hc Ha. apply atoi_inv in Ha as (_ & ds' & n & _ & Hv & [(E & ->)|[(E & _)|(E & _)]]).
  - subst. exists n. split; [apply digits_udigits; exact Hv|reflexivity].
  - injection E as -> _. discriminate.
  - injection E as -> _. discriminate.
Qed.

Lemma inner_string_ok pre ds s rest :
  fits (pre ++ ds ++ ":"%char :: s ++ rest) ->
  digits ds (N.of_nat (length s)) -> ds <> [] -> rest <> [] ->
  innerDecodeString (pre ++ ds ++ ":"%char :: s ++ rest) (length pre) =
  Ok (s, length pre + length ds + 1 + length s).
Proof.
  intros Hf Hd Hne Hr.
  assert (Hdig : Forall (fun c => is_digit c = true) ds) by (eapply udigits_forall, digits_udigits, Hd).
  rewrite inner_string_shape.
  2: { rewrite Forall_forall in Hdig. intros Hin. specialize (Hdig _ Hin). discriminate. }
  unfold fits in Hf.
  assert (Hl : length (pre ++ ds ++ ":"%char :: s ++ rest) = length pre + length ds + 1 + length s + length rest).
  { rewrite !app_length. cbn [length]. rewrite app_length. lia. }
  assert (Hlr : 0 < length rest) by (destruct rest; [congruence|cbn; lia]).
  rewrite Hl in *.
  rewrite (atoi_digits ds (N.of_nat (length s))); [|exact Hne|apply digits_udigits; exact Hd|unfold max_int in *; lia].
  destruct ds as [|d0 ds']; [congruence|]. set (ds := d0 :: ds') in *. cbv zeta.
  rewrite wrap_id by (unfold is_int, min_int, max_int in *; lia).
  destruct (Z.leb_spec (Z.of_nat (length pre + length ds + 1 + length s + length rest)) (Z.of_nat (length pre + length ds) + Z.of_N (N.of_nat (length s)) + 1)) as [H|H]; [lia|].
  destruct (Z.ltb_spec (Z.of_nat (length pre + length ds) + Z.of_N (N.of_nat (length s)) + 1) (Z.of_nat (length pre + length ds) + 1)) as [H'|H']; [lia|].
  replace (Z.to_nat (Z.of_nat (length pre + length ds) + Z.of_N (N.of_nat (length s)) + 1)) with (length pre + length ds + 1 + length s) by lia.
  f_equal. f_equal.
  replace (length pre + length ds + 1 + length s) with (length pre + (length ds + (1 + length s))) by lia.
  replace (length pre + length ds + 1) with (length pre + (length ds + 1)) by lia.
  rewrite slice_app_r, slice_app_r. unfold slice. cbn [skipn]. replace (1 + length s - 1) with (length s) by lia.
  rewrite firstn_app, firstn_all, Nat.sub_diag. cbn. apply app_nil_r.
Qed.


Lemma inner_string_inv pre c inp :
  fits (pre ++ c :: inp) -> is_digit c = true ->
  (exists ds s rest, c :: inp = ds ++ ":"%char :: s ++ rest /\ digits ds (N.of_nat (length s)) /\ ds <> [] /\ rest <> [] /\
      innerDecodeString (pre ++ c :: inp) (length pre) = Ok (s, length pre + length ds + 1 + length s)) \/
  (exists e, innerDecodeString (pre ++ c :: inp) (length pre) = Err e) \/
  (innerDecodeString (pre ++ c :: inp) (length pre) = Panic PRuntime /\ length_overflow (pre ++ c :: inp)).
Proof.
  intros Hf Hc. destruct (split_first ":" (c :: inp)) as [Hno|(ds & t & E & Hds)].
  - right. left. exists EWrongParam. unfold innerDecodeString. rewrite indexFirst_none by exact Hno. reflexivity.
  - destruct ds as [|d0 ds'].
    { cbn in E. injection E as -> _. discriminate. }
    assert (d0 = c) as -> by (cbn in E; congruence).
    pose proof Hf as Hf'. rewrite E in Hf |- *. unfold fits in Hf.
    rewrite inner_string_shape by exact Hds.
    destruct (atoi_cases (c :: ds')) as [[z Hz]|Hz]; [|right; left; rewrite Hz; eauto].
    destruct (digit_led_nonneg _ _ _ Hc Hz) as (n & Hn & ->).
    set (ds := c :: ds') in *.
    assert (Hl : length (pre ++ ds ++ ":"%char :: t) = length pre + length ds + 1 + length t).
    { rewrite !app_length. cbn [length]. lia. }
    destruct (Z.leb_spec (Z.of_nat (length t)) (Z.of_N n)) as [Hlong|Hshort].
    + right. rewrite Hz. cbv zeta.
      destruct (Z.leb_spec (Z.of_nat (length pre + length ds) + Z.of_N n + 1) max_int) as [Hin|Hout].
      * left. rewrite wrap_id by (unfold is_int, min_int, max_int in *; lia).
        rewrite Hl. destruct (Z.leb_spec (Z.of_nat (length pre + length ds + 1 + length t)) (Z.of_nat (length pre + length ds) + Z.of_N n + 1)) as [H|H]; [eauto|lia].
      * right.
        assert (Hzi : is_int (Z.of_N n)) by (apply atoi_inv in Hz as [Hz _]; exact Hz).
        assert (Hw : wrap (Z.of_nat (length pre + length ds) + Z.of_N n + 1) = (Z.of_nat (length pre + length ds) + Z.of_N n + 1 - 2 ^ 64)%Z).
        { unfold wrap, is_int, min_int, max_int in *. rewrite Hl in Hf.
          replace (Z.of_nat (length pre + length ds) + Z.of_N n + 1 + 2 ^ 63)%Z
            with ((Z.of_nat (length pre + length ds) + Z.of_N n + 1 - 2 ^ 63) + 1 * 2 ^ 64)%Z by lia.
          rewrite Z.mod_add by discriminate. rewrite Z.mod_small by lia. lia. }
        rewrite Hw. unfold is_int, min_int, max_int in *. rewrite Hl in *.
        destruct (Z.leb_spec (Z.of_nat (length pre + length ds + 1 + length t)) (Z.of_nat (length pre + length ds) + Z.of_N n + 1 - 2 ^ 64)) as [H|H]; [lia|].
        destruct (Z.ltb_spec (Z.of_nat (length pre + length ds) + Z.of_N n + 1 - 2 ^ 64) (Z.of_nat (length pre + length ds) + 1)) as [H'|H']; [|lia].
        split; [reflexivity|]. exists pre, ds, n, t. split; [reflexivity|]. split; [exact Hn|]. unfold max_int. lia.
    + left. exists ds, (firstn (N.to_nat n) t), (skipn (N.to_nat n) t).
      assert (Hfl : length (firstn (N.to_nat n) t) = N.to_nat n) by (rewrite firstn_length; lia).
      assert (Hns : digits ds (N.of_nat (length (firstn (N.to_nat n) t)))) by (rewrite Hfl, N2Nat.id; exact Hn).
      assert (Hr : skipn (N.to_nat n) t <> []).
      { intros Habs. apply (f_equal (@length _)) in Habs. rewrite skipn_length in Habs. cbn in Habs. lia. }
      split; [rewrite firstn_skipn; reflexivity|].
      split; [exact Hns|]. split; [discriminate|]. split; [exact Hr|].
      change (match ds with [] => Err EWrongParam | _ :: _ =>
        match atoi ds with Ok slen => let start' := wrap (Z.of_nat (length pre + length ds) + slen + 1) in
             if (Z.of_nat (length (pre ++ ds ++ ":"%char :: t)) <=? start')%Z then Err EWrongParam else
             if (start' <? Z.of_nat (length pre + length ds) + 1)%Z then Panic PRuntime else
             Ok (slice (pre ++ ds ++ ":"%char :: t) (length pre + length ds + 1) (Z.to_nat start'), Z.to_nat start')
         | Err e => Err e | Panic p => Panic p end end = Ok (firstn (N.to_nat n) t, length pre + length ds + 1 + length (firstn (N.to_nat n) t))).
      rewrite <- inner_string_shape by exact Hds.
      pose proof (inner_string_ok pre ds (firstn (N.to_nat n) t) (skipn (N.to_nat n) t)) as Hok.
      rewrite firstn_skipn in Hok. apply Hok; try assumption. discriminate.
Qed.

(** ** The decoder as a relation *)

(** The dictionary built by the loop of innerDecodeDict. *)
Definition mkdict (acc ps : entries) : entries := fold_left (fun d p => dset d (fst p) (snd p)) ps acc.

(** Proof device: the grammar of BencodeSpec with the dictionary order fixed to
    the one [dictLoop] produces. *)
Inductive xitem : bytes -> val -> bytes -> nat -> Prop :=
| xi_int body rest z : lenient_int body z ->
    xitem ("i"%char :: body ++ "e"%char :: rest) (VInt z) rest 0
| xi_str ds s rest : digits ds (N.of_nat (length s)) -> ds <> [] -> rest <> [] ->
    xitem (ds ++ ":"%char :: s ++ rest) (VStr s) rest 0
| xi_list inp l rest u : xitems inp l rest u -> xitem ("l"%char :: inp) (VList l) rest u
| xi_dict inp ps rest u : xpairs inp ps rest u -> xitem ("d"%char :: inp) (VDict (mkdict [] ps)) rest u
with xitems : bytes -> list val -> bytes -> nat -> Prop :=
| xis_close rest : xitems ("e"%char :: rest) [] rest 0
| xis_open : xitems [] [] [] 1
| xis_cons inp v mid u l rest u' : xitem inp v mid u -> xitems mid l rest u' -> xitems inp (v :: l) rest (u + u')
with xpairs : bytes -> list (bytes * val) -> bytes -> nat -> Prop :=
| xps_close rest : xpairs ("e"%char :: rest) [] rest 0
| xps_open : xpairs [] [] [] 1
| xps_cons inp k mid v mid' u ps rest u' :
    xitem inp (VStr k) mid 0 -> xitem mid v mid' u -> xpairs mid' ps rest u' ->
    xpairs inp ((k, v) :: ps) rest (u + u').

Scheme xitem_ind2 := Induction for xitem Sort Prop
  with xitems_ind2 := Induction for xitems Sort Prop
  with xpairs_ind2 := Induction for xpairs Sort Prop.
Combined Scheme xitem_mutind from xitem_ind2, xitems_ind2, xpairs_ind2.

(** [inp] splits into a consumed part and [rest]; open containers mean nothing is left. *)
Definition consumed (inp rest : bytes) (u : nat) : Prop :=
  (exists c, inp = c ++ rest) /\ (0 < u -> rest = []).

Lemma x_consumed :
  (forall inp v rest u, xitem inp v rest u -> consumed inp rest u /\ length rest < length inp) /\
  (forall inp l rest u, xitems inp l rest u -> consumed inp rest u) /\
  (forall inp ps rest u, xpairs inp ps rest u -> consumed inp rest u).
Proof.
  apply xitem_mutind.
  - intros body rest z _. split; [split; [|lia]|].
    + exists ("i"%char :: body ++ ["e"%char]). cbn [app]. rewrite <- app_assoc. reflexivity.
    + cbn [length]. rewrite app_length. cbn. lia.
  - intros ds s rest _ _ _. split; [split; [|lia]|].
    + exists (ds ++ ":"%char :: s). rewrite <- app_assoc. reflexivity.
    + rewrite app_length. cbn [length]. rewrite app_length. lia.
  - intros inp l rest u _ [[c ->] H]. split; [split; [|exact H]|].
    + exists ("l"%char :: c). reflexivity.
    + cbn [length]. rewrite app_length. lia.
  - intros inp ps rest u _ [[c ->] H]. split; [split; [|exact H]|].
    + exists ("d"%char :: c). reflexivity.
    + cbn [length]. rewrite app_length. lia.
  - intros rest. split; [exists ["e"%char]; reflexivity|lia].
  - split; [exists []; reflexivity|reflexivity].
  - intros inp v mid u l rest u' _ [[[c1 ->] H1] _] _ [[c2 ->] H2]. split.
    + exists (c1 ++ c2). rewrite <- app_assoc. reflexivity.
    + intros Hu. destruct u as [|u]; [apply H2; lia|].
      assert (E : c2 ++ rest = []) by (apply H1; lia). apply app_eq_nil in E. apply E.
  - intros rest. split; [exists ["e"%char]; reflexivity|lia].
  - split; [exists []; reflexivity|reflexivity].
  - intros inp k mid v mid' u ps rest u' _ [[[c1 ->] H1] _] _ [[[c2 ->] H2] _] _ [[c3 ->] H3]. split.
    + exists (c1 ++ c2 ++ c3). rewrite <- !app_assoc. reflexivity.
    + intros Hu. destruct u as [|u]; [apply H3; lia|].
      assert (E : c3 ++ rest = []) by (apply H2; lia). apply app_eq_nil in E. apply E.
Qed.

Lemma skipn_add {A} (l : list A) a b : skipn (a + b) l = skipn b (skipn a l).
Proof.
  revert a; induction l as [|x l IH]; intros a; [rewrite !skipn_nil; reflexivity|].
  destruct a as [|a]; cbn [skipn Nat.add]; [reflexivity|apply IH].
Qed.

Lemma skipn_consumed (src inp rest : bytes) j u :
  skipn j src = inp -> consumed inp rest u -> skipn (j + (length inp - length rest) + u) src = rest.
Proof.
  intros Hj [[c Hc] Hu]. destruct u as [|u].
  - rewrite Nat.add_0_r, skipn_add, Hj, Hc, app_length.
    replace (length c + length rest - length rest) with (length c) by lia. apply skipn_len_app.
  - rewrite Hu by lia. apply skipn_all2.
    assert (length inp = length src - j) by (rewrite <- Hj; apply skipn_length).
    cbn [length]. lia.
Qed.

Lemma split_at (src : bytes) j c t :
  skipn j src = c :: t -> exists pre, src = pre ++ c :: t /\ length pre = j.
Proof.
  intros H. exists (firstn j src). rewrite <- H, firstn_skipn. split; [reflexivity|].
  apply firstn_length_le. assert (length (skipn j src) > 0) by (rewrite H; cbn; lia).
  rewrite skipn_length in *. lia.
Qed.

Lemma is_digit_not_letter c : is_digit c = true ->
  Ascii.eqb c "i" = false /\ Ascii.eqb c "l" = false /\ Ascii.eqb c "d" = false /\ Ascii.eqb c "e" = false.
Proof.
  intros H. repeat split; apply Ascii.eqb_neq; intros ->; discriminate.
Qed.

Lemma xitem_head c t v rest u : xitem (c :: t) v rest u -> Ascii.eqb c "e" = false.
Proof.
  intros H. inversion H as [body r z Hz E|ds s r Hd Hne Hr E|inp l r u' Hl E|inp ps r u' Hp E]; subst; try reflexivity.
  destruct ds as [|d0 ds']; [congruence|]. injection E as -> _.
  apply digits_udigits, udigits_forall in Hd. inversion Hd as [|? ? Hdig _]. apply is_digit_not_letter. exact Hdig.
Qed.

(** Completeness: whatever the grammar derives, the decoder computes. *)
Lemma x_complete :
  (forall inp v rest u, xitem inp v rest u -> forall src j f, fits src -> skipn j src = inp ->
     2 * length inp + 1 <= f -> decodeItem f src j = Ok (v, j + (length inp - length rest) + u)) /\
  (forall inp l rest u, xitems inp l rest u -> forall src j f acc, fits src -> skipn j src = inp ->
     2 * length inp + 2 <= f -> sliceLoop f src j acc = Ok (acc ++ l, j + (length inp - length rest) + u)) /\
  (forall inp ps rest u, xpairs inp ps rest u -> forall src j f acc, fits src -> skipn j src = inp ->
     2 * length inp + 2 <= f -> dictLoop f src j acc = Ok (mkdict acc ps, j + (length inp - length rest) + u)).
Proof.
  apply xitem_mutind.
  - intros body rest z Hz src j f Hfit Hj Hf.
    destruct (split_at _ _ _ _ Hj) as (pre & -> & <-).
    destruct f as [|f]; [lia|]. cbn [decodeItem]. rewrite idx_mid. cbn [bind]. rewrite Ascii.eqb_refl.
    rewrite inner_int_closed by (eapply lenient_no_e; exact Hz).
    apply lenient_int_iff in Hz as [-> ->]. cbn [bind]. f_equal. f_equal.
    cbn [length]. rewrite app_length. cbn [length]. lia.
  - intros ds s rest Hd Hne Hr src j f Hfit Hj Hf.
    destruct f as [|f]; [lia|]. destruct ds as [|d0 ds']; [congruence|]. cbn [app] in Hj.
    destruct (split_at _ _ _ _ Hj) as (pre & -> & <-).
    cbn [decodeItem]. rewrite idx_mid. cbn [bind].
    assert (Hdig : is_digit d0 = true).
    { apply digits_udigits, udigits_forall in Hd. inversion Hd; assumption. }
    destruct (is_digit_not_letter _ Hdig) as (-> & -> & -> & _). rewrite Hdig.
    change (pre ++ d0 :: ds' ++ ":"%char :: s ++ rest) with (pre ++ (d0 :: ds') ++ ":"%char :: s ++ rest) in *.
    rewrite inner_string_ok by assumption. cbn [bind]. f_equal. f_equal.
    rewrite app_length. cbn [length]. rewrite app_length. lia.
  - intros inp l rest u Hi IH src j f Hfit Hj Hf.
    destruct f as [|f]; [lia|]. cbn [decodeItem].
    destruct (split_at _ _ _ _ Hj) as (pre & -> & <-). rewrite idx_mid. cbn [bind].
    replace (Ascii.eqb "l" "i") with false by reflexivity. rewrite Ascii.eqb_refl.
    cbn [length] in Hf. rewrite (IH _ (S (length pre)) f []); [|exact Hfit| |lia].
    + cbn [bind app]. f_equal. f_equal.
      apply (proj1 (proj2 x_consumed)) in Hi as [[c ->] _]. cbn [length]. rewrite app_length. lia.
    + replace (S (length pre)) with (length pre + 1) by lia. apply skipn_app_len.
  - intros inp ps rest u Hi IH src j f Hfit Hj Hf.
    destruct f as [|f]; [lia|]. cbn [decodeItem].
    destruct (split_at _ _ _ _ Hj) as (pre & -> & <-). rewrite idx_mid. cbn [bind].
    replace (Ascii.eqb "d" "i") with false by reflexivity. replace (Ascii.eqb "d" "l") with false by reflexivity.
    rewrite Ascii.eqb_refl.
    cbn [length] in Hf. rewrite (IH _ (S (length pre)) f []); [|exact Hfit| |lia].
    + cbn [bind app]. f_equal. f_equal.
      apply (proj2 (proj2 x_consumed)) in Hi as [[c ->] _]. cbn [length]. rewrite app_length. lia.
    + replace (S (length pre)) with (length pre + 1) by lia. apply skipn_app_len.
  - intros rest src j f acc Hfit Hj Hf. destruct f as [|f]; [lia|]. cbn [sliceLoop].
    destruct (split_at _ _ _ _ Hj) as (pre & -> & <-).
    destruct (Nat.ltb_spec (length pre) (length (pre ++ "e"%char :: rest))) as [H|H]; [|rewrite app_length in H; cbn in H; lia].
    rewrite idx_mid. cbn [bind]. rewrite Ascii.eqb_refl, app_nil_r. f_equal. f_equal. cbn [length]. lia.
  - intros src j f acc Hfit Hj Hf. destruct f as [|f]; [lia|]. cbn [sliceLoop].
    destruct (Nat.ltb_spec j (length src)) as [H|H].
    { apply (f_equal (@length _)) in Hj. rewrite skipn_length in Hj. cbn in Hj. lia. }
    rewrite app_nil_r. f_equal. f_equal. cbn [length]. lia.
  - intros inp v mid u l rest u' Hi IHi Hl IHl src j f acc Hfit Hj Hf.
    pose proof (proj1 x_consumed _ _ _ _ Hi) as [Hc Hlt].
    destruct f as [|f]; [lia|]. cbn [sliceLoop].
    destruct (Nat.ltb_spec j (length src)) as [H|H].
    2: { assert (inp = []) by (rewrite <- Hj; apply skipn_all2; lia). subst inp. rewrite H0 in Hlt. cbn in Hlt. lia. }
    destruct inp as [|c0 inp0]; [cbn in Hlt; lia|].
    assert (He : Ascii.eqb c0 "e" = false).
    { eapply xitem_head; exact Hi. }
    destruct (split_at _ _ _ _ Hj) as (pre & Hsrc & Hpre). rewrite Hsrc at 1. rewrite <- Hpre at 1. rewrite idx_mid.
    cbn [bind]. rewrite He. rewrite (IHi src j f Hfit Hj) by lia. cbn [bind].
    assert (Hrest : length rest <= length mid) by (apply (proj1 (proj2 x_consumed)) in Hl as [[c ->] _]; rewrite app_length; lia).
    rewrite (IHl src (j + (length (c0 :: inp0) - length mid) + u) f (acc ++ [v]) Hfit); [| |lia].
    + rewrite <- app_assoc. cbn [app]. f_equal. f_equal. lia.
    + apply skipn_consumed; assumption.
  - intros rest src j f acc Hfit Hj Hf. destruct f as [|f]; [lia|]. cbn [dictLoop].
    destruct (split_at _ _ _ _ Hj) as (pre & -> & <-).
    destruct (Nat.ltb_spec (length pre) (length (pre ++ "e"%char :: rest))) as [H|H]; [|rewrite app_length in H; cbn in H; lia].
    rewrite idx_mid. cbn [bind]. rewrite Ascii.eqb_refl. cbn [mkdict fold_left]. f_equal. f_equal. cbn [length]. lia.
  - intros src j f acc Hfit Hj Hf. destruct f as [|f]; [lia|]. cbn [dictLoop].
    destruct (Nat.ltb_spec j (length src)) as [H|H].
    { apply (f_equal (@length _)) in Hj. rewrite skipn_length in Hj. cbn in Hj. lia. }
    cbn [mkdict fold_left]. f_equal. f_equal. cbn [length]. lia.
  - intros inp k mid v mid' u ps rest u' Hk IHk Hv IHv Hp IHp src j f acc Hfit Hj Hf.
    pose proof (proj1 x_consumed _ _ _ _ Hk) as [Hck Hltk].
    pose proof (proj1 x_consumed _ _ _ _ Hv) as [Hcv Hltv].
    destruct f as [|f]; [lia|]. cbn [dictLoop].
    destruct inp as [|c0 inp0]; [cbn in Hltk; lia|].
    destruct (split_at _ _ _ _ Hj) as (pre & Hsrc & Hpre).
    destruct (Nat.ltb_spec j (length src)) as [H|H].
    2: { rewrite Hsrc, app_length in H. cbn [length] in H. lia. }
    assert (He : Ascii.eqb c0 "e" = false).
    { eapply xitem_head; exact Hk. }
    rewrite Hsrc at 1. rewrite <- Hpre at 1. rewrite idx_mid.
    cbn [bind]. rewrite He. rewrite (IHk src j f Hfit Hj) by lia. cbn [bind].
    rewrite (IHv src (j + (length (c0 :: inp0) - length mid) + 0) f Hfit); [|apply skipn_consumed; assumption|lia]. cbn [bind].
    assert (Hrest : length rest <= length mid') by (apply (proj2 (proj2 x_consumed)) in Hp as [[c ->] _]; rewrite app_length; lia).
    rewrite (IHp src _ f (dset acc k v) Hfit); [| |lia].
    + cbn [mkdict fold_left fst snd]. f_equal. f_equal. lia.
    + apply skipn_consumed; [|exact Hcv]. apply skipn_consumed; assumption.
Qed.

(** Soundness: whatever the decoder computes, the grammar derives. *)
Lemma x_sound src : fits src -> forall f,
  (forall j v n, decodeItem f src j = Ok (v, n) ->
     exists rest u, xitem (skipn j src) v rest u /\ n = j + (length (skipn j src) - length rest) + u) /\
  (forall j acc l n, sliceLoop f src j acc = Ok (l, n) ->
     exists l' rest u, xitems (skipn j src) l' rest u /\ l = acc ++ l' /\ n = j + (length (skipn j src) - length rest) + u) /\
  (forall j acc d n, dictLoop f src j acc = Ok (d, n) ->
     exists ps rest u, xpairs (skipn j src) ps rest u /\ d = mkdict acc ps /\ n = j + (length (skipn j src) - length rest) + u).
Proof.
  intros Hfit f. induction f as [|f (IHi & IHl & IHd)].
  { repeat split; intros; discriminate. }
  split; [|split].
  - intros j v n. cbn [decodeItem]. destruct (skipn j src) as [|c inp] eqn:Hj.
    { rewrite idx_ge; [discriminate|]. apply (f_equal (@length _)) in Hj. rewrite skipn_length in Hj. cbn in Hj. lia. }
    destruct (split_at _ _ _ _ Hj) as (pre & Hsrc & Hpre).
    replace (idx src j) with (@Ok ascii c) by (rewrite Hsrc, <- Hpre; symmetry; apply idx_mid). cbn [bind].
    assert (HS : skipn (S j) src = inp).
    { rewrite Hsrc, <- Hpre. replace (S (length pre)) with (length pre + 1) by lia. apply skipn_app_len. }
    destruct (Ascii.eqb_spec c "i") as [->|Hi].
    { destruct (split_first "e" inp) as [Hno|(b & rest & -> & Hb)].
      - rewrite Hsrc, <- Hpre. destruct (inner_int_open pre inp Hno) as [-> | ->]; discriminate.
      - rewrite Hsrc, <- Hpre, inner_int_closed by exact Hb.
        destruct (okbody "i" b) eqn:Eok; [|discriminate].
        destruct (atoi b) as [z|e|p] eqn:Ea; try discriminate. cbn [bind]. intros E; injection E as <- <-.
        exists rest, 0. split; [constructor; apply lenient_int_iff; auto|].
        cbn [length]. rewrite app_length. cbn [length]. lia. }
    destruct (Ascii.eqb_spec c "l") as [->|Hl].
    { destruct (sliceLoop f src (S j) []) as [[l n']|e|p] eqn:E; try discriminate.
      cbn [bind]. intros E'; injection E' as <- <-.
      apply IHl in E as (l' & rest & u & Hx & -> & ->). rewrite HS in *.
      exists rest, u. split; [constructor; exact Hx|].
      apply (proj1 (proj2 x_consumed)) in Hx as [[c ->] _]. cbn [length]. rewrite app_length. lia. }
    destruct (Ascii.eqb_spec c "d") as [->|Hd].
    { destruct (dictLoop f src (S j) []) as [[l n']|e|p] eqn:E; try discriminate.
      cbn [bind]. intros E'; injection E' as <- <-.
      apply IHd in E as (ps & rest & u & Hx & -> & ->). rewrite HS in *.
      exists rest, u. split; [constructor; exact Hx|].
      apply (proj2 (proj2 x_consumed)) in Hx as [[c ->] _]. cbn [length]. rewrite app_length. lia. }
    destruct (is_digit c) eqn:Edig; [|discriminate].
    rewrite Hsrc, <- Hpre. unfold fits in Hfit. rewrite Hsrc in Hfit.
    destruct (inner_string_inv pre c inp Hfit Edig) as [(ds & s & rest & Ei & Hds & Hne & Hr & ->)|[(e & ->)|[-> _]]]; try discriminate.
    cbn [bind]. intros E; injection E as <- <-. exists rest, 0. rewrite Ei. split; [constructor; assumption|].
    rewrite app_length. cbn [length]. rewrite app_length. lia.
  - intros j acc l n. cbn [sliceLoop]. destruct (Nat.ltb_spec j (length src)) as [Hlt|Hge].
    2: { intros E; injection E as <- <-. exists [], [], 1. rewrite skipn_all2 by lia. cbn [length].
         split; [constructor|]. split; [rewrite app_nil_r; reflexivity|]. lia. }
    destruct (skipn j src) as [|c inp] eqn:Hj.
    { apply (f_equal (@length _)) in Hj. rewrite skipn_length in Hj. cbn in Hj. lia. }
    destruct (split_at _ _ _ _ Hj) as (pre & Hsrc & Hpre).
    replace (idx src j) with (@Ok ascii c) by (rewrite Hsrc, <- Hpre; symmetry; apply idx_mid). cbn [bind].
    destruct (Ascii.eqb_spec c "e") as [->|He].
    { intros E; injection E as <- <-. exists [], inp, 0. split; [constructor|]. split; [rewrite app_nil_r; reflexivity|]. cbn [length]. lia. }
    destruct (decodeItem f src j) as [[v n1]|e|p] eqn:E1; try discriminate. cbn [bind]. intros E2.
    apply IHi in E1 as (mid & u & Hx & ->). pose proof (proj1 x_consumed _ _ _ _ Hx) as [Hc Hlt1].
    apply IHl in E2 as (l' & rest & u' & Hx' & -> & ->).
    rewrite (skipn_consumed src _ mid j u eq_refl Hc) in *.
    exists (v :: l'), rest, (u + u'). rewrite Hj in *. split; [econstructor; eassumption|].
    split; [rewrite <- app_assoc; reflexivity|].
    apply (proj1 (proj2 x_consumed)) in Hx' as [[c' ->] _]. rewrite app_length in *. lia.
  - intros j acc d n. cbn [dictLoop]. destruct (Nat.ltb_spec j (length src)) as [Hlt|Hge].
    2: { intros E; injection E as <- <-. exists [], [], 1. rewrite skipn_all2 by lia. cbn [length].
         split; [constructor|]. split; [reflexivity|]. lia. }
    destruct (skipn j src) as [|c inp] eqn:Hj.
    { apply (f_equal (@length _)) in Hj. rewrite skipn_length in Hj. cbn in Hj. lia. }
    destruct (split_at _ _ _ _ Hj) as (pre & Hsrc & Hpre).
    replace (idx src j) with (@Ok ascii c) by (rewrite Hsrc, <- Hpre; symmetry; apply idx_mid). cbn [bind].
    destruct (Ascii.eqb_spec c "e") as [->|He].
    { intros E; injection E as <- <-. exists [], inp, 0. split; [constructor|]. split; [reflexivity|]. cbn [length]. lia. }
    destruct (decodeItem f src j) as [[kt n1]|e|p] eqn:E1; try discriminate. cbn [bind].
    destruct kt as [|k| | | | | |]; try discriminate.
    destruct (decodeItem f src n1) as [[v n2]|e|p] eqn:E2; try discriminate. cbn [bind]. intros E3.
    apply IHi in E1 as (mid & u0 & Hx & ->). pose proof (proj1 x_consumed _ _ _ _ Hx) as [Hc Hlt1].
    assert (u0 = 0) as -> by (inversion Hx; reflexivity).
    apply IHi in E2 as (mid' & u & Hxv & ->).
    rewrite (skipn_consumed src _ mid j 0 eq_refl Hc) in *.
    pose proof (proj1 x_consumed _ _ _ _ Hxv) as [Hcv Hlt2].
    apply IHd in E3 as (ps & rest & u' & Hx' & -> & ->).
    rewrite (skipn_consumed src mid mid' _ u (skipn_consumed src _ mid j 0 eq_refl Hc) Hcv) in *.
    exists ((k, v) :: ps), rest, (u + u'). rewrite Hj in *. split; [econstructor; eassumption|].
    split; [reflexivity|].
    apply (proj2 (proj2 x_consumed)) in Hx' as [[c' ->] _]. rewrite app_length in *. lia.
Qed.

(** ** Panics and fuel *)


Lemma x_panics src : fits src -> forall f,
  (forall j p, j < length src -> 2 * (length src - j) + 1 <= f -> decodeItem f src j = Panic p ->
     p = PRuntime /\ (length_overflow src \/ truncated_integer src)) /\
  (forall j acc p, 2 * (length src - j) + 2 <= f -> sliceLoop f src j acc = Panic p ->
     p = PRuntime /\ (length_overflow src \/ truncated_integer src)) /\
  (forall j acc p, 2 * (length src - j) + 2 <= f -> dictLoop f src j acc = Panic p ->
     p = PRuntime /\ (length_overflow src \/ truncated_integer src)).
Proof.
  intros Hfit f. induction f as [|f (IHi & IHl & IHd)].
  { split; [|split]; intros; lia. }
  split; [|split].
  - intros j p Hj Hf. cbn [decodeItem]. destruct (skipn j src) as [|c inp] eqn:Hs.
    { apply (f_equal (@length _)) in Hs. rewrite skipn_length in Hs. cbn in Hs. lia. }
    destruct (split_at _ _ _ _ Hs) as (pre & Hsrc & Hpre).
    replace (idx src j) with (@Ok ascii c) by (rewrite Hsrc, <- Hpre; symmetry; apply idx_mid). cbn [bind].
    destruct (Ascii.eqb_spec c "i") as [->|Hi].
    { destruct (split_first "e" inp) as [Hno|(b & rest & -> & Hb)].
      - rewrite Hsrc at 1. rewrite <- Hpre. destruct (inner_int_open pre inp Hno) as [-> | ->]; [discriminate|].
        intros E; injection E as <-. split; [reflexivity|]. right. exists pre, inp. auto.
      - rewrite Hsrc at 1. rewrite <- Hpre, inner_int_closed by exact Hb.
        destruct (okbody "i" b) eqn:Eok; [|discriminate].
        destruct (atoi b) as [z|e|q] eqn:Ea; discriminate. }
    destruct (Ascii.eqb_spec c "l") as [->|Hl].
    { destruct (sliceLoop f src (S j) []) as [[l n']|e|q] eqn:E; try discriminate.
      cbn [bind]. intros E'; injection E' as <-. eapply IHl; [|exact E]. lia. }
    destruct (Ascii.eqb_spec c "d") as [->|Hd].
    { destruct (dictLoop f src (S j) []) as [[l n']|e|q] eqn:E; try discriminate.
      cbn [bind]. intros E'; injection E' as <-. eapply IHd; [|exact E]. lia. }
    destruct (is_digit c) eqn:Edig; [|discriminate].
    rewrite Hsrc, <- Hpre. pose proof Hfit as Hfit'. rewrite Hsrc in Hfit'.
    destruct (inner_string_inv pre c inp Hfit' Edig) as [(ds & s & rest & _ & _ & _ & _ & ->)|[(e & ->)|[-> Ho]]]; try discriminate.
    cbn [bind]. intros E; injection E as <-. auto.
  - intros j acc p Hf. cbn [sliceLoop]. destruct (Nat.ltb_spec j (length src)) as [Hlt|Hge]; [|discriminate].
    destruct (idx_lt src j Hlt) as (c & -> & _). cbn [bind].
    destruct (Ascii.eqb c "e"); [discriminate|].
    destruct (decodeItem f src j) as [[v n1]|e|q] eqn:E1; try discriminate; cbn [bind].
    + apply (proj1 (x_sound src Hfit f)) in E1 as (mid & u & Hx & ->).
      pose proof (proj1 x_consumed _ _ _ _ Hx) as [_ Hlt1]. rewrite skipn_length in *.
      apply IHl. lia.
    + intros E; injection E as <-. eapply IHi; [exact Hlt| |exact E1]. lia.
  - intros j acc p Hf. cbn [dictLoop]. destruct (Nat.ltb_spec j (length src)) as [Hlt|Hge]; [|discriminate].
    destruct (idx_lt src j Hlt) as (c & -> & _). cbn [bind].
    destruct (Ascii.eqb c "e"); [discriminate|].
    destruct (decodeItem f src j) as [[kt n1]|e|q] eqn:E1; try discriminate; cbn [bind].
    2: { intros E; injection E as <-. eapply IHi; [exact Hlt| |exact E1]. lia. }
    destruct kt as [|k| | | | | |]; try discriminate.
    apply (proj1 (x_sound src Hfit f)) in E1 as (mid & u & Hx & ->).
    pose proof (proj1 x_consumed _ _ _ _ Hx) as [Hc Hlt1].
    assert (Hmid : mid <> [] /\ u = 0) by (inversion Hx; auto). destruct Hmid as [Hmid ->].
    pose proof (skipn_consumed src _ mid j 0 eq_refl Hc) as Hsk.
    remember (j + (length (skipn j src) - length mid) + 0) as n1 eqn:En1.
    assert (Hn1 : n1 < length src).
    { destruct (Nat.lt_ge_cases n1 (length src)) as [|Hge]; [assumption|].
      rewrite skipn_all2 in Hsk by lia. congruence. }
    rewrite skipn_length in *.
    destruct (decodeItem f src n1) as [[v n2]|e|q] eqn:E2; try discriminate; cbn [bind].
    2: { intros E; injection E as <-. eapply IHi; [exact Hn1| |exact E2]. lia. }
    apply (proj1 (x_sound src Hfit f)) in E2 as (mid' & u' & Hx' & ->).
    pose proof (proj1 x_consumed _ _ _ _ Hx') as [_ Hlt2]. rewrite skipn_length in *.
    apply IHd. lia.
Qed.

(** ** Dictionaries denoted by pair sequences *)

Lemma dset_keys d k v : map fst (dset d k v) = if existsb (fun x => beq x k) (map fst d) then map fst d else map fst d ++ [k].
Proof.
  induction d as [|[k' v'] d IH]; [reflexivity|]. cbn [dset map fst existsb].
  destruct (beq k' k) eqn:E; cbn [orb map fst]; [reflexivity|]. rewrite IH.
  destruct (existsb (fun x => beq x k) (map fst d)); reflexivity.
Qed.

Lemma existsb_In k l : existsb (fun x => beq x k) l = true <-> In k l.
Proof.
  rewrite existsb_exists. split.
  - intros (x & Hin & E). apply beq_eq in E. congruence.
  - intros H. exists k. rewrite beq_refl. auto.
Qed.

Lemma dset_NoDup d k v : NoDup (map fst d) -> NoDup (map fst (dset d k v)).
Proof.
  intros H. rewrite dset_keys. destruct (existsb (fun x => beq x k) (map fst d)) eqn:E; [exact H|].
  assert (Hn : ~ In k (map fst d)).
  { intros Hin. apply existsb_In in Hin. congruence. }
  apply Permutation_NoDup with (l := k :: map fst d); [apply Permutation_cons_append|]. constructor; assumption.
Qed.

Lemma dset_fresh d k v : ~ In k (map fst d) -> dset d k v = d ++ [(k, v)].
Proof.
  induction d as [|[k' v'] d IH]; intros H; [reflexivity|]. cbn [dset app].
  destruct (beq k' k) eqn:E.
  - apply beq_eq in E. subst. exfalso. apply H. left. reflexivity.
  - rewrite IH; [reflexivity|]. intros Hin; apply H; right; exact Hin.
Qed.

Lemma dget_In d k v : NoDup (map fst d) -> (dget d k = Some v <-> In (k, v) d).
Proof.
  induction d as [|[k' v'] d IH]; intros H; [split; [discriminate|intros []]|].
  inversion H as [|? ? Hni Hnd]; subst. cbn [dget].
  destruct (beq k' k) eqn:E.
  - apply beq_eq in E. subst k'. split.
    + intros E; injection E as ->. left. reflexivity.
    + intros [E|Hin]; [congruence|]. exfalso. apply Hni. apply in_map_iff. exists (k, v). auto.
  - rewrite IH by exact Hnd. apply beq_neq in E. split; [right; assumption|].
    intros [Eq|Hin]; [congruence|exact Hin].
Qed.

Lemma dget_none d k : dget d k = None <-> ~ In k (map fst d).
Proof.
  induction d as [|[k' v'] d IH]; [split; [intros _ []|reflexivity]|]. cbn [dget map fst].
  destruct (beq k' k) eqn:E.
  - apply beq_eq in E. subst. split; [discriminate|]. intros H; exfalso; apply H; left; reflexivity.
  - rewrite IH. apply beq_neq in E. split; intros H; [intros [?|?]; contradiction|].
    intros Hin; apply H; right; exact Hin.
Qed.

Lemma dget_dset d k v k' : dget (dset d k v) k' = if bytes_eq_dec k k' then Some v else dget d k'.
Proof.
  induction d as [|[k0 v0] d IH].
  - cbn [dset dget]. destruct (bytes_eq_dec k k') as [->|Hn]; [rewrite beq_refl; reflexivity|].
    apply beq_neq in Hn. rewrite Hn. reflexivity.
  - cbn [dset]. destruct (beq k0 k) eqn:E.
    + apply beq_eq in E. subst k0. cbn [dget]. destruct (bytes_eq_dec k k') as [->|Hn].
      * rewrite beq_refl. reflexivity.
      * apply beq_neq in Hn. rewrite Hn. reflexivity.
    + cbn [dget]. destruct (beq k0 k') eqn:E'; [|exact IH].
      apply beq_eq in E'. subst k0. destruct (bytes_eq_dec k k') as [->|Hn]; [rewrite beq_refl in E; discriminate|reflexivity].
Qed.

Lemma mkdict_spec ps : forall acc, NoDup (map fst acc) ->
  NoDup (map fst (mkdict acc ps)) /\
  forall k, dget (mkdict acc ps) k =
    fold_left (fun a p => if bytes_eq_dec (fst p) k then Some (snd p) else a) ps (dget acc k).
Proof.
  induction ps as [|[k0 v0] ps IH]; intros acc Hn; cbn [mkdict fold_left fst snd].
  - split; [exact Hn|reflexivity].
  - destruct (IH (dset acc k0 v0) (dset_NoDup _ _ _ Hn)) as [H1 H2]. split; [exact H1|].
    intros k. rewrite H2, dget_dset. reflexivity.
Qed.

Lemma mkdict_denotes ps : denotes ps (mkdict [] ps).
Proof.
  destruct (mkdict_spec ps [] (NoDup_nil _)) as [H1 H2]. split; [exact H1|].
  intros k v. rewrite <- dget_In by exact H1. rewrite H2. reflexivity.
Qed.

Lemma mkdict_NoDup ps : NoDup (map fst (mkdict [] ps)).
Proof. apply mkdict_denotes. Qed.

Lemma NoDup_fst {A C} (l : list (A * C)) : NoDup (map fst l) -> NoDup l.
Proof. apply NoDup_map_inv. Qed.

Lemma denotes_perm ps d d' : denotes ps d -> denotes ps d' -> Permutation d d'.
Proof.
  intros [N1 H1] [N2 H2]. apply NoDup_Permutation; [apply NoDup_fst; assumption..|].
  intros [k v]. rewrite H1, H2. reflexivity.
Qed.

Lemma mkdict_app ps : forall acc, NoDup (map fst (acc ++ ps)) -> mkdict acc ps = acc ++ ps.
Proof.
  induction ps as [|[k v] ps IH]; intros acc Hn; cbn [mkdict fold_left fst snd].
  - symmetry. apply app_nil_r.
  - change (mkdict (dset acc k v) ps = acc ++ (k, v) :: ps).
    rewrite dset_fresh.
    + rewrite IH; rewrite <- app_assoc; cbn [app]; [reflexivity|exact Hn].
    + rewrite map_app in Hn. cbn [map fst] in Hn. apply NoDup_remove_2 in Hn. intros Hin; apply Hn, in_or_app; left; exact Hin.
Qed.

Lemma mkdict_nodup ps : NoDup (map fst ps) -> mkdict [] ps = ps.
Proof. intros H. apply (mkdict_app ps []). exact H. Qed.

(** ** xitem and the specification grammar *)

Scheme item_ind2 := Induction for item Sort Prop
  with items_ind2 := Induction for items Sort Prop
  with pairs_ind2 := Induction for pairs Sort Prop.
Combined Scheme item_mutind from item_ind2, items_ind2, pairs_ind2.

Lemma x_to_item :
  (forall inp v rest u, xitem inp v rest u -> item inp v rest u) /\
  (forall inp l rest u, xitems inp l rest u -> items inp l rest u) /\
  (forall inp ps rest u, xpairs inp ps rest u -> pairs inp ps rest u).
Proof.
  apply xitem_mutind; intros; try (econstructor; eassumption).
  econstructor; [eassumption|apply mkdict_denotes].
Qed.

Lemma Forall2_dset d d' k v v' :
  Forall2 (fun e e' : bytes * val => fst e = fst e' /\ veq (snd e) (snd e')) d d' -> veq v v' ->
  Forall2 (fun e e' : bytes * val => fst e = fst e' /\ veq (snd e) (snd e')) (dset d k v) (dset d' k v').
Proof.
  intros H Hv. induction H as [|[k1 v1] [k2 v2] d d' [E1 E2] H IH]; cbn [dset].
  - constructor; [|constructor]. auto.
  - cbn [fst snd] in *. subst k2. destruct (beq k1 k); constructor; auto.
Qed.

Lemma Forall2_mkdict ps ps' :
  Forall2 (fun e e' : bytes * val => fst e = fst e' /\ veq (snd e) (snd e')) ps ps' -> forall d d',
  Forall2 (fun e e' : bytes * val => fst e = fst e' /\ veq (snd e) (snd e')) d d' ->
  Forall2 (fun e e' : bytes * val => fst e = fst e' /\ veq (snd e) (snd e')) (mkdict d ps) (mkdict d' ps').
Proof.
  induction 1 as [|[k1 v1] [k2 v2] ps ps' [E1 E2] H IH]; intros d d' Hd; cbn [mkdict fold_left fst snd]; [exact Hd|].
  cbn [fst snd] in *. subst k2. apply IH. apply Forall2_dset; assumption.
Qed.

Lemma item_to_x :
  (forall inp v rest u, item inp v rest u -> exists v', veq v v' /\ xitem inp v' rest u) /\
  (forall inp l rest u, items inp l rest u -> exists l', Forall2 veq l l' /\ xitems inp l' rest u) /\
  (forall inp ps rest u, pairs inp ps rest u -> exists ps',
     Forall2 (fun e e' : bytes * val => fst e = fst e' /\ veq (snd e) (snd e')) ps ps' /\ xpairs inp ps' rest u).
Proof.
  apply item_mutind.
  - intros body rest z Hz. exists (VInt z). split; constructor. exact Hz.
  - intros ds s rest H1 H2 H3. exists (VStr s). split; constructor; assumption.
  - intros inp l rest u _ (l' & H1 & H2). exists (VList l'). split; constructor; assumption.
  - intros inp ps d rest u _ (ps' & H1 & H2) Hd. exists (VDict (mkdict [] ps')). split; [|constructor; exact H2].
    constructor. econstructor; [eapply denotes_perm; [exact Hd|apply mkdict_denotes]|].
    apply Forall2_mkdict; [exact H1|constructor].
  - intros rest. exists []. split; constructor.
  - exists []. split; constructor.
  - intros inp v mid u l rest u' _ (v' & H1 & H2) _ (l' & H3 & H4). exists (v' :: l'). split; [constructor; assumption|econstructor; eassumption].
  - intros rest. exists []. split; constructor.
  - exists []. split; constructor.
  - intros inp k mid v mid' u ps rest u' _ (kv & H1 & H2) _ (v' & H3 & H4) _ (ps' & H5 & H6).
    inversion H1; subst. exists ((k, v') :: ps'). split; [constructor; [split; [reflexivity|exact H3]|exact H5]|econstructor; eassumption].
Qed.

(** ** The encoder *)

Section ValInd.
  Variable P : val -> Prop.
  Hypothesis HInt : forall z, P (VInt z).
  Hypothesis HStr : forall s, P (VStr s).
  Hypothesis HList : forall l, Forall P l -> P (VList l).
  Hypothesis HDict : forall d, Forall (fun e => P (snd e)) d -> P (VDict d).
  Hypothesis HNL : P VNilList.
  Hypothesis HND : P VNilDict.
  Hypothesis HN : P VNil.
  Hypothesis HO : forall k, P (VOther k).
  Fixpoint val_ind' (v : val) : P v :=
    match v with
    | VInt z => HInt z
    | VStr s => HStr s
    | VList l => HList l ((fix go l : Forall P l := match l with [] => Forall_nil _ | x :: t => Forall_cons _ (val_ind' x) (go t) end) l)
    | VDict d => HDict d ((fix go d : Forall (fun e => P (snd e)) d := match d with [] => Forall_nil _ | e :: t => Forall_cons _ (val_ind' (snd e)) (go t) end) d)
    | VNilList => HNL | VNilDict => HND | VNil => HN | VOther k => HO k
    end.
End ValInd.

Scheme bencoding_ind2 := Induction for bencoding Sort Prop
  with bencoding_items_ind2 := Induction for bencoding_items Sort Prop
  with bencoding_entries_ind2 := Induction for bencoding_entries Sort Prop.
Combined Scheme bencoding_mutind from bencoding_ind2, bencoding_items_ind2, bencoding_entries_ind2.

Lemma encode_items_ok f l s :
  encode_items f l = Ok s -> exists ss, Forall2 (fun v t => f v = Ok t) l ss /\ s = concat ss.
Proof.
  revert s; induction l as [|x l IH]; cbn [encode_items]; intros s H.
  - injection H as <-. exists []. split; [constructor|reflexivity].
  - destruct (f x) as [a|e|p] eqn:Ex; try discriminate. cbn [bind] in H.
    fold (encode_items f l) in H. change (bind (encode_items f l) (fun b => Ok (a ++ b)) = Ok s) in H.
    destruct (encode_items f l) as [b|e|p] eqn:Eb; try discriminate. cbn [bind] in H. injection H as <-.
    destruct (IH b eq_refl) as (ss & H1 & ->). exists (a :: ss). split; [constructor; assumption|reflexivity].
Qed.

Lemma encode_entries_ok f d s :
  encode_entries f d = Ok s -> exists ss,
    Forall2 (fun e t => f (snd e) = Ok t) d ss /\
    s = concat (map (fun et => itoa (Z.of_nat (length (fst (fst et)))) ++ B ":" ++ fst (fst et) ++ snd et) (combine d ss)).
Proof.
  revert s; induction d as [|[k v] d IH]; cbn [encode_entries]; intros s H.
  - injection H as <-. exists []. split; [constructor|reflexivity].
  - cbn [EncodeString bind] in H. destruct (f v) as [a|e|p] eqn:Ex; try discriminate. cbn [bind] in H.
    change (bind (encode_entries f d) (fun b => Ok ((itoa (Z.of_nat (length k)) ++ B ":" ++ k) ++ a ++ b)) = Ok s) in H.
    destruct (encode_entries f d) as [b|e|p] eqn:Eb; try discriminate. cbn [bind] in H. injection H as <-.
    destruct (IH b eq_refl) as (ss & H1 & ->). exists (a :: ss). split; [constructor; assumption|].
    cbn [combine map concat fst snd]. rewrite <- !app_assoc. reflexivity.
Qed.

Lemma encode_items_cons f x l : encode_items f (x :: l) = do a <- f x; do b <- encode_items f l; Ok (a ++ b).
Proof. reflexivity. Qed.
Lemma encode_entries_cons f k v l : encode_entries f ((k, v) :: l) =
  do vt <- f v; do b <- encode_entries f l; Ok ((itoa (Z.of_nat (length k)) ++ B ":" ++ k) ++ vt ++ b).
Proof. reflexivity. Qed.

Lemma be_str_iff k s : bencoding (VStr k) s <-> s = itoa (Z.of_nat (length k)) ++ B ":" ++ k.
Proof.
  split.
  - intros H. inversion H as [|k' ds Hd| |]; subst. apply decimal_nat_iff in Hd. subst ds. rewrite itoa_nat. reflexivity.
  - intros ->. change (B ":" ++ k) with (":"%char :: k). constructor. apply decimal_nat_iff. apply itoa_nat.
Qed.

Lemma encode_bencoding v : forall s, go_value v -> encodeItem v = Ok s -> bencoding v s.
Proof.
  induction v as [z|k|l IH|d IH| | | |k] using val_ind'; intros s Hg H; cbn [encodeItem] in H; try discriminate.
  - injection H as <-. inversion Hg; subst. change (B "i" ++ itoa z ++ B "e") with ("i"%char :: itoa z ++ ["e"%char]).
    constructor; [apply decimal_iff; reflexivity|assumption].
  - injection H as <-. apply be_str_iff. reflexivity.
  - destruct (encode_items encodeItem l) as [body|e|p] eqn:E; try discriminate. cbn [bind] in H. injection H as <-.
    change (B "l" ++ body ++ B "e") with ("l"%char :: body ++ ["e"%char]). constructor.
    inversion Hg as [| |l0 Hl| | | | |]; subst. clear Hg.
    revert body E. induction IH as [|x l Hx IHf IHl]; intros body E.
    + injection E as <-. constructor.
    + rewrite encode_items_cons in E. destruct (encodeItem x) as [a|e|p] eqn:Ea; try discriminate. cbn [bind] in E.
      destruct (encode_items encodeItem l) as [b|e|p] eqn:Eb; try discriminate. cbn [bind] in E. injection E as <-.
      constructor; [apply Hx; [apply Hl; left; reflexivity|reflexivity]|].
      apply IHl; [|reflexivity]. intros v Hv. apply Hl. right. exact Hv.
  - destruct (encode_entries encodeItem d) as [body|e|p] eqn:E; try discriminate. cbn [bind] in H. injection H as <-.
    change (B "d" ++ body ++ B "e") with ("d"%char :: body ++ ["e"%char]).
    inversion Hg as [| | |d0 Hn Hl| | | |]; subst. clear Hg. constructor; [|exact Hn]. clear Hn.
    revert body E. induction IH as [|[k x] l Hx IHf IHl]; intros body E.
    + injection E as <-. constructor.
    + rewrite encode_entries_cons in E. cbn [snd] in Hx. destruct (encodeItem x) as [a|e|p] eqn:Ea; try discriminate. cbn [bind] in E.
      destruct (encode_entries encodeItem l) as [b|e|p] eqn:Eb; try discriminate. cbn [bind] in E. injection E as <-.
      constructor; [apply be_str_iff; reflexivity|apply Hx; [eapply Hl; left; reflexivity|reflexivity]|].
      apply IHl; [|reflexivity]. intros k' v Hv. eapply Hl. right. exact Hv.
  - destruct k; discriminate.
Qed.

Lemma bencoding_encode :
  (forall v s, bencoding v s -> encodeItem v = Ok s /\ go_value v /\ plain v) /\
  (forall l s, bencoding_items l s -> encode_items encodeItem l = Ok s /\ forall v, In v l -> go_value v /\ plain v) /\
  (forall d s, bencoding_entries d s -> encode_entries encodeItem d = Ok s /\ forall k v, In (k, v) d -> go_value v /\ plain v).
Proof.
  apply bencoding_mutind.
  - intros z ds Hd Hz. apply decimal_iff in Hd. subst. split; [reflexivity|]. split; constructor. exact Hz.
  - intros s ds Hd. apply decimal_nat_iff in Hd. subst. cbn [encodeItem]. unfold EncodeString. rewrite itoa_nat.
    split; [reflexivity|]. split; constructor.
  - intros l s _ [E H]. cbn [encodeItem]. rewrite E. split; [reflexivity|]. split; constructor; intros v Hv; apply H; exact Hv.
  - intros d s _ [E H] Hn. cbn [encodeItem]. rewrite E. split; [reflexivity|].
    split; constructor; try exact Hn; intros k v Hv; eapply H; exact Hv.
  - split; [reflexivity|intros v []].
  - intros v l s t _ (E1 & G & Pl) _ [E2 H]. rewrite encode_items_cons, E1, E2. split; [reflexivity|].
    intros v' [<-|Hin]; [auto|apply H; exact Hin].
  - split; [reflexivity|intros k v []].
  - intros k v d sk s t Hk _ _ (E1 & G & Pl) _ [E2 H]. apply be_str_iff in Hk. subst sk.
    rewrite encode_entries_cons, E1, E2. split; [reflexivity|].
    intros k' v' [E|Hin]; [injection E as <- <-; auto|eapply H; exact Hin].
Qed.

Lemma bencoding_iff v s : bencoding v s <-> go_value v /\ encodeItem v = Ok s.
Proof.
  split.
  - intros H. apply (proj1 bencoding_encode) in H. tauto.
  - intros [H1 H2]. apply encode_bencoding; assumption.
Qed.

(** Bencodings are read back by the grammar, whatever follows. *)
Lemma bencoding_x :
  (forall v s, bencoding v s -> forall rest, rest <> [] -> xitem (s ++ rest) v rest 0) /\
  (forall l s, bencoding_items l s -> forall rest, xitems (s ++ "e"%char :: rest) l rest 0) /\
  (forall d s, bencoding_entries d s -> forall rest, xpairs (s ++ "e"%char :: rest) d rest 0).
Proof.
  apply bencoding_mutind.
  - intros z ds Hd Hz rest _. cbn [app]. rewrite <- app_assoc. cbn [app]. constructor. split; auto.
  - intros s ds Hd rest Hr. rewrite <- app_assoc. cbn [app]. destruct Hd as (H1 & H2 & _). constructor; assumption.
  - intros l s _ IH rest _. cbn [app]. rewrite <- app_assoc. constructor. apply IH.
  - intros d s _ IH Hn rest _. cbn [app]. rewrite <- app_assoc.
    rewrite <- (mkdict_nodup d) at 1 by exact Hn. constructor. apply IH.
  - intros rest. constructor.
  - intros v l s t _ IH1 _ IH2 rest. rewrite <- app_assoc. change 0 with (0 + 0). econstructor; [|apply IH2].
    apply IH1. intros Habs. apply app_eq_nil in Habs as [_ ?]; discriminate.
  - intros rest. constructor.
  - intros k v d sk s t _ IHk _ IH1 _ IH2 rest. rewrite <- !app_assoc. change 0 with (0 + 0).
    econstructor; [apply IHk| apply IH1|apply IH2];
      intros Habs; repeat (apply app_eq_nil in Habs as [_ Habs]); discriminate.
Qed.

Lemma bencoding_list_x l s rest : bencoding (VList l) s -> xitem (s ++ rest) (VList l) rest 0.
Proof.
  intros H. inversion H as [| |l0 s0 Hl|]; subst. cbn [app]. rewrite <- app_assoc. constructor. apply bencoding_x. exact Hl.
Qed.
Lemma bencoding_dict_x d s rest : bencoding (VDict d) s -> xitem (s ++ rest) (VDict d) rest 0.
Proof.
  intros H. inversion H as [| | |d0 s0 Hl Hn]; subst. cbn [app]. rewrite <- app_assoc.
  rewrite <- (mkdict_nodup d) at 1 by exact Hn. constructor. apply bencoding_x. exact Hl.
Qed.

(** ** The public decoders, in terms of xitem *)

Lemma innerDecodeDict_iff src d n : fits src ->
  (innerDecodeDict src 0 = Ok (d, n) <->
   exists rest u, xitem src (VDict d) rest u /\ n = length src - length rest + u).
Proof.
  intros Hf. unfold innerDecodeDict. split.
  - destruct src as [|c src]; [discriminate|]. unfold idx at 1. cbn [nth_error bind].
    destruct (Ascii.eqb_spec c "d") as [->|]; [|discriminate]. cbn [negb]. intros H.
    apply (proj2 (proj2 (x_sound _ Hf _))) in H as (ps & rest & u & Hx & -> & ->). cbn [skipn] in *.
    exists rest, u. split; [constructor; exact Hx|].
    apply (proj2 (proj2 x_consumed)) in Hx as [[c ->] _]. cbn [length]. rewrite app_length. lia.
  - intros (rest & u & Hx & ->). inversion Hx as [| ds s r Hd Hne Hr E| |inp ps r u' Hp E]; subst.
    unfold idx at 1. cbn [nth_error bind]. rewrite Ascii.eqb_refl. cbn [negb].
    rewrite (proj2 (proj2 x_complete) _ _ _ _ Hp _ 1 _ [] Hf eq_refl) by (unfold dec_fuel; cbn [length]; lia).
    f_equal. f_equal. apply (proj2 (proj2 x_consumed)) in Hp as [[c ->] _]. cbn [length]. rewrite app_length. lia.
Qed.

Lemma innerDecodeSlice_iff src l n : fits src ->
  (innerDecodeSlice src 0 = Ok (l, n) <->
   exists rest u, xitem src (VList l) rest u /\ n = length src - length rest + u).
Proof.
  intros Hf. unfold innerDecodeSlice. split.
  - destruct src as [|c src]; [discriminate|]. unfold idx at 1. cbn [nth_error bind].
    destruct (Ascii.eqb_spec c "l") as [->|]; [|discriminate]. cbn [negb]. intros H.
    apply (proj1 (proj2 (x_sound _ Hf _))) in H as (ps & rest & u & Hx & -> & ->). cbn [skipn app] in *.
    exists rest, u. split; [constructor; exact Hx|].
    apply (proj1 (proj2 x_consumed)) in Hx as [[c ->] _]. cbn [length]. rewrite app_length. lia.
  - intros (rest & u & Hx & ->). inversion Hx as [| ds s r Hd Hne Hr E|inp ps r u' Hp E|]; subst.
    unfold idx at 1. cbn [nth_error bind]. rewrite Ascii.eqb_refl. cbn [negb].
    rewrite (proj1 (proj2 x_complete) _ _ _ _ Hp _ 1 _ [] Hf eq_refl) by (unfold dec_fuel; cbn [length]; lia).
    cbn [app]. f_equal. f_equal. apply (proj1 (proj2 x_consumed)) in Hp as [[c ->] _]. cbn [length]. rewrite app_length. lia.
Qed.


Lemma idx_last {A} (src : list A) c : idx src (length src - 1) = Ok c -> src <> [] -> exists a, src = a ++ [c].
Proof.
  intros H Hne. destruct (exists_last Hne) as (a & x & ->). exists a.
  rewrite app_length in H. cbn [length] in H. replace (length a + 1 - 1) with (length a) in H by lia.
  rewrite idx_mid in H. congruence.
Qed.

Lemma idx_last_app {A} (a : list A) c : idx (a ++ [c]) (length (a ++ [c]) - 1) = Ok c.
Proof. rewrite app_length. cbn [length]. replace (length a + 1 - 1) with (length a) by lia. apply idx_mid. Qed.

Lemma xitem_dict_len src d rest u : xitem src (VDict d) rest u -> exists t, src = "d"%char :: t.
Proof. intros H. inversion H; subst. eauto. Qed.
Lemma xitem_list_len src d rest u : xitem src (VList d) rest u -> exists t, src = "l"%char :: t.
Proof. intros H. inversion H; subst. eauto. Qed.

Lemma DecodeDictNoLimit_iff src d n : fits src ->
  (DecodeDictNoLimit src = Ok (d, n) <->
   2 <= length src /\ exists rest u, xitem src (VDict d) rest u /\ n = length src - length rest + u).
Proof.
  intros Hf. rewrite <- innerDecodeDict_iff by exact Hf. unfold DecodeDictNoLimit.
  destruct (Nat.ltb_spec (length src) 2) as [H|H]; [split; [discriminate|lia]|].
  destruct src as [|c src]; [cbn in H; lia|]. unfold idx. cbn [nth_error bind].
  destruct (Ascii.eqb_spec c "d") as [->|Hc]; cbn [negb].
  - split; [auto|tauto].
  - split; [discriminate|]. intros [_ E]. unfold innerDecodeDict, idx in E. cbn [nth_error bind] in E.
    apply Ascii.eqb_neq in Hc. rewrite Hc in E. discriminate.
Qed.

Lemma DecodeDict_iff src (r : gdict) : fits src ->
  (DecodeDict src = Ok r <->
   2 <= length src /\ ends_with_e src /\
   exists d rest u, xitem src (VDict d) rest u /\
     r = if rest then Some d else None).
Proof.
  intros Hf. unfold DecodeDict.
  destruct (Nat.ltb_spec (length src) 2) as [H|H]; [split; [discriminate|lia]|].
  destruct src as [|c src]; [cbn in H; lia|]. unfold idx at 1. cbn [nth_error bind].
  destruct (idx_lt (c :: src) (length (c :: src) - 1)) as (cl & Hcl & _); [cbn; lia|].
  rewrite Hcl. cbn [bind].
  assert (Hlast : exists a, c :: src = a ++ [cl]) by (apply idx_last; [exact Hcl|discriminate]).
  destruct (Ascii.eqb_spec c "d") as [->|Hc]; cbn [negb orb].
  2: { split; [discriminate|]. intros (_ & _ & d & rest & u & Hx & _). apply xitem_dict_len in Hx as [t E]. congruence. }
  destruct (Ascii.eqb_spec cl "e") as [->|Hcl']; cbn [negb].
  2: { split; [discriminate|]. intros (_ & (a & Ea) & _). destruct Hlast as (a' & Ea'). rewrite Ea in Ea'.
       apply app_inj_tail in Ea' as [_ ?]. congruence. }
  destruct (innerDecodeDict ("d"%char :: src) 0) as [[d n]|e|p] eqn:E; cbn [bind].
  - apply innerDecodeDict_iff in E; [|exact Hf]. destruct E as (rest & u & Hx & ->).
    pose proof (proj1 x_consumed _ _ _ _ Hx) as [Hc Hlt].
    split.
    + intros Hr. split; [exact H|]. split; [exact Hlast|]. exists d, rest, u. split; [exact Hx|].
      destruct (Nat.ltb_spec (length ("d"%char :: src) - length rest + u) (length ("d"%char :: src))) as [Hn|Hn].
      * destruct rest as [|r0 rest]; [cbn in Hn; lia|]. congruence.
      * destruct rest as [|r0 rest]; [congruence|]. destruct Hc as [_ Hu].
        destruct u; [cbn [length] in *; lia|]. specialize (Hu ltac:(lia)). discriminate.
    + intros (_ & _ & d' & rest' & u' & Hx' & ->).
      assert (Heq : Ok (d, length ("d"%char :: src) - length rest + u) = Ok (d', length ("d"%char :: src) - length rest' + u')).
      { transitivity (innerDecodeDict ("d"%char :: src) 0); [symmetry|]; apply innerDecodeDict_iff; eauto. }
      assert (d = d') as <- by congruence.
      assert (En : length ("d"%char :: src) - length rest + u = length ("d"%char :: src) - length rest' + u') by congruence.
      rewrite En.
      pose proof (proj1 x_consumed _ _ _ _ Hx') as [Hc' Hlt'].
      destruct (Nat.ltb_spec (length ("d"%char :: src) - length rest' + u') (length ("d"%char :: src))) as [Hn|Hn].
      * destruct rest' as [|r0 rest']; [cbn in Hn; lia|]. reflexivity.
      * destruct rest' as [|r0 rest']; [reflexivity|]. destruct Hc' as [_ Hu].
        destruct u'; [cbn [length] in *; lia|]. specialize (Hu ltac:(lia)). discriminate.
  - split; [discriminate|]. intros (_ & _ & d' & rest' & u' & Hx' & _).
    assert (innerDecodeDict ("d"%char :: src) 0 = Ok (d', length ("d"%char :: src) - length rest' + u')) by (apply innerDecodeDict_iff; eauto).
    congruence.
  - split; [discriminate|]. intros (_ & _ & d' & rest' & u' & Hx' & _).
    assert (innerDecodeDict ("d"%char :: src) 0 = Ok (d', length ("d"%char :: src) - length rest' + u')) by (apply innerDecodeDict_iff; eauto).
    congruence.
Qed.

Lemma DecodeSlice_iff src l : fits src ->
  (DecodeSlice src = Ok l <->
   2 <= length src /\ ends_with_e src /\ xitem src (VList l) [] 0).
Proof.
  intros Hf. unfold DecodeSlice.
  destruct (Nat.ltb_spec (length src) 2) as [H|H]; [split; [discriminate|lia]|].
  destruct src as [|c src]; [cbn in H; lia|]. unfold idx at 1. cbn [nth_error bind].
  destruct (idx_lt (c :: src) (length (c :: src) - 1)) as (cl & Hcl & _); [cbn; lia|].
  rewrite Hcl. cbn [bind].
  assert (Hlast : exists a, c :: src = a ++ [cl]) by (apply idx_last; [exact Hcl|discriminate]).
  destruct (Ascii.eqb_spec c "l") as [->|Hc]; cbn [negb orb].
  2: { split; [discriminate|]. intros (_ & _ & Hx). apply xitem_list_len in Hx as [t E]. congruence. }
  destruct (Ascii.eqb_spec cl "e") as [->|Hcl']; cbn [negb].
  2: { split; [discriminate|]. intros (_ & (a & Ea) & _). destruct Hlast as (a' & Ea'). rewrite Ea in Ea'.
       apply app_inj_tail in Ea' as [_ ?]. congruence. }
  assert (Hback : xitem ("l"%char :: src) (VList l) [] 0 -> innerDecodeSlice ("l"%char :: src) 0 = Ok (l, length ("l"%char :: src))).
  { intros Hx. apply innerDecodeSlice_iff; [exact Hf|]. exists [], 0. split; [exact Hx|]. cbn [length]. lia. }
  destruct (innerDecodeSlice ("l"%char :: src) 0) as [[d n]|e|p] eqn:E; cbn [bind].
  - apply innerDecodeSlice_iff in E; [|exact Hf]. destruct E as (rest & u & Hx & ->).
    pose proof (proj1 x_consumed _ _ _ _ Hx) as [[[c Hc] Hu] Hlt].
    destruct (Nat.eqb_spec (length ("l"%char :: src) - length rest + u) (length ("l"%char :: src))) as [Hn|Hn]; cbn [negb].
    + split.
      * intros Hr. injection Hr as ->. split; [exact H|]. split; [exact Hlast|].
        assert (u = 0) as -> by (destruct u; [reflexivity|]; rewrite Hu in Hn by lia; cbn in Hn; lia).
        destruct rest as [|r0 rest]; [exact Hx|]. cbn [length] in *. lia.
      * intros (_ & _ & Hx'). specialize (Hback Hx'). congruence.
    + split; [discriminate|]. intros (_ & _ & Hx'). specialize (Hback Hx'). congruence.
  - split; [discriminate|]. intros (_ & _ & Hx'). specialize (Hback Hx'). discriminate.
  - split; [discriminate|]. intros (_ & _ & Hx'). specialize (Hback Hx'). discriminate.
Qed.

(** ** Boolean checkers for concrete values *)
Fixpoint nodupb (l : list bytes) : bool :=
  match l with [] => true | x :: t => negb (existsb (fun y => beq y x) t) && nodupb t end.
Lemma nodupb_ok l : nodupb l = true -> NoDup l.
Proof.
  induction l as [|x t IH]; cbn [nodupb]; intros H; constructor.
  - intros Hin. apply existsb_In in Hin. rewrite Hin in H. discriminate.
  - apply IH. apply andb_true_iff in H. apply H.
Qed.
Fixpoint go_valueb (v : val) : bool :=
  match v with
  | VInt z => is_intb z
  | VList l => forallb go_valueb l
  | VDict d => nodupb (map fst d) && forallb (fun e => go_valueb (snd e)) d
  | _ => true
  end.
Fixpoint plainb (v : val) : bool :=
  match v with
  | VInt _ | VStr _ => true
  | VList l => forallb plainb l
  | VDict d => forallb (fun e => plainb (snd e)) d
  | _ => false
  end.
Lemma go_valueb_ok v : go_valueb v = true -> go_value v.
Proof.
  induction v as [z|k|l IH|d IH| | | |k] using val_ind'; cbn [go_valueb]; intros H; constructor.
  - apply is_intb_spec. exact H.
  - rewrite Forall_forall in IH. rewrite forallb_forall in H. intros v Hv. apply IH; auto.
  - apply andb_true_iff in H as [H _]. apply nodupb_ok. exact H.
  - apply andb_true_iff in H as [_ H]. rewrite Forall_forall in IH. rewrite forallb_forall in H.
    intros k v Hv. apply (IH (k, v) Hv). apply (H (k, v) Hv).
Qed.
Lemma plainb_ok v : plainb v = true -> plain v.
Proof.
  induction v as [z|k|l IH|d IH| | | |k] using val_ind'; cbn [plainb]; intros H; try discriminate; constructor.
  - rewrite Forall_forall in IH. rewrite forallb_forall in H. intros v Hv. apply IH; auto.
  - rewrite Forall_forall in IH. rewrite forallb_forall in H. intros k v Hv. apply (IH (k, v) Hv). apply (H (k, v) Hv).
Qed.
