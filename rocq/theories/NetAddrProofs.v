(** NetAddrProofs.v -- lemmas about addresses as text. *)
From Verif Require Import Base GoLib Node NetAddr.
Local Open Scope list_scope.

Lemma index_none c s : index_of c s = None <-> Forall (fun x => x <> c) s.
Proof.
  induction s as [|x s IH]; cbn [index_of]; [split; [constructor|reflexivity]|].
  destruct (Ascii.eqb_spec x c) as [->|Hn].
  - split; [discriminate|]. intros H. inversion H; congruence.
  - destruct (index_of c s); cbn [option_map].
    + split; [discriminate|]. intros H. inversion H as [|? ? _ H2]; subst. apply IH in H2. discriminate.
    + split; [|reflexivity]. intros _. constructor; [exact Hn|apply IH; reflexivity].
Qed.
Lemma index_app c a b : Forall (fun x => x <> c) a -> index_of c (a ++ c :: b) = Some (length a).
Proof.
  induction 1 as [|x a Hx _ IH]; cbn [app index_of length]; [rewrite Ascii.eqb_refl; reflexivity|].
  apply Ascii.eqb_neq in Hx. rewrite Hx, IH. reflexivity.
Qed.
Lemma index_some c s n : index_of c s = Some n -> exists a b, s = a ++ c :: b /\ length a = n /\ Forall (fun x => x <> c) a.
Proof.
  revert n; induction s as [|x s IH]; cbn [index_of]; intros n H; [discriminate|].
  destruct (Ascii.eqb_spec x c) as [->|Hn].
  - injection H as <-. exists [], s. repeat split. constructor.
  - destruct (index_of c s) as [m|]; [|discriminate]. injection H as <-. destruct (IH m eq_refl) as (a & b & -> & <- & Ha).
    exists (x :: a), b. repeat split. constructor; assumption.
Qed.
Lemma last_none c s : last_of c s = None <-> Forall (fun x => x <> c) s.
Proof.
  induction s as [|x s IH]; cbn [last_of]; [split; [constructor|reflexivity]|].
  destruct (last_of c s) as [m|].
  - split; [discriminate|]. intros H. inversion H as [|? ? _ H2]; subst. apply IH in H2. discriminate.
  - destruct (Ascii.eqb_spec x c) as [->|Hn].
    + split; [discriminate|]. intros H. inversion H; congruence.
    + split; [|reflexivity]. intros _. constructor; [exact Hn|apply IH; reflexivity].
Qed.
Lemma last_app c a b : Forall (fun x => x <> c) b -> last_of c (a ++ c :: b) = Some (length a).
Proof.
  intros Hb. induction a as [|x a IH]; cbn [app last_of length].
  - apply last_none in Hb. rewrite Hb, Ascii.eqb_refl. reflexivity.
  - rewrite IH. reflexivity.
Qed.
Lemma last_some c s n : last_of c s = Some n -> exists a b, s = a ++ c :: b /\ length a = n /\ Forall (fun x => x <> c) b.
Proof.
  revert n; induction s as [|x s IH]; cbn [last_of]; intros n H; [discriminate|].
  destruct (last_of c s) as [m|] eqn:E.
  - injection H as <-. destruct (IH m eq_refl) as (a & b & -> & <- & Ha). exists (x :: a), b. repeat split. exact Ha.
  - destruct (Ascii.eqb_spec x c) as [->|Hn]; [|discriminate]. injection H as <-. exists [], s. repeat split. apply last_none. exact E.
Qed.

(** ** host:port *)
Lemma tail_checks_ok s j k h p : tail_checks s j k h p = NOk (h, p) <-> Forall (fun x => x <> "["%char) (skipn j s) /\ Forall (fun x => x <> "]"%char) (skipn k s).
Proof.
  unfold tail_checks. rewrite <- !index_none. destruct (index_of "["%char (skipn j s)); [split; [discriminate|intros [H _]; discriminate]|].
  destruct (index_of "]"%char (skipn k s)); [split; [discriminate|intros [_ H]; discriminate]|]. split; auto.
Qed.
Lemma tail_checks_val s j k h p h' p' : tail_checks s j k h p = NOk (h', p') -> h' = h /\ p' = p.
Proof. unfold tail_checks. destruct (index_of _ _); [discriminate|]. destruct (index_of _ _); [discriminate|]. intros H. injection H as <- <-. auto. Qed.

Lemma split_plain h p : Forall (fun c => c <> ":"%char /\ c <> "["%char /\ c <> "]"%char) (h ++ p) -> SplitHostPort (h ++ B ":" ++ p) = NOk (h, p).
Proof.
  intros H. apply Forall_app in H as [Hh Hp]. unfold SplitHostPort. change (B ":" ++ p) with (":"%char :: p).
  rewrite last_app by (eapply Forall_impl; [|exact Hp]; cbn beta; tauto).
  replace (match h ++ ":"%char :: p with c :: _ => Ascii.eqb c "[" | [] => false end) with false.
  2: { destruct h as [|c h]; [reflexivity|]. cbn [app]. symmetry. apply Ascii.eqb_neq. inversion Hh; tauto. }
  rewrite firstn_app, firstn_all, Nat.sub_diag. cbn [firstn]. rewrite app_nil_r.
  replace (index_of ":"%char h) with (@None nat) by (symmetry; apply index_none; eapply Forall_impl; [|exact Hh]; cbn beta; tauto).
  replace (skipn (S (length h)) (h ++ ":"%char :: p)) with p.
  2: { change (h ++ ":"%char :: p) with (h ++ ([":"%char] ++ p)). rewrite app_assoc, skipn_app, skipn_all2 by (rewrite app_length; cbn [length]; lia).
       rewrite app_length. cbn [length]. replace (S (length h) - (length h + 1)) with 0 by lia. reflexivity. }
  apply tail_checks_ok. cbn [skipn]. split; apply Forall_app; (split; [eapply Forall_impl; [|exact Hh]; cbn beta; tauto|]); constructor; try discriminate;
    (eapply Forall_impl; [|exact Hp]; cbn beta; tauto).
Qed.
Lemma split_bracket h p : Forall (fun c => c <> "["%char /\ c <> "]"%char) (h ++ p) -> Forall (fun c => c <> ":"%char) p -> SplitHostPort (B "[" ++ h ++ B "]:" ++ p) = NOk (h, p).
Proof.
  intros H Hc. apply Forall_app in H as [Hh Hp]. unfold SplitHostPort.
  assert (Es : B "[" ++ h ++ B "]:" ++ p = ("["%char :: h ++ ["]"%char]) ++ ":"%char :: p) by (cbn [app]; rewrite <- app_assoc; reflexivity).
  assert (Es2 : B "[" ++ h ++ B "]:" ++ p = ("["%char :: h) ++ "]"%char :: ":"%char :: p) by reflexivity.
  assert (El : last_of ":"%char (B "[" ++ h ++ B "]:" ++ p) = Some (S (S (length h)))).
  { rewrite Es, last_app by exact Hc. cbn [length]. rewrite app_length. cbn [length]. f_equal. lia. }
  assert (Ei : index_of "]"%char (B "[" ++ h ++ B "]:" ++ p) = Some (S (length h))).
  { rewrite Es2, index_app; [reflexivity|]. constructor; [discriminate|]. eapply Forall_impl; [|exact Hh]; cbn beta; tauto. }
  assert (Ek : skipn (S (S (S (length h)))) (B "[" ++ h ++ B "]:" ++ p) = p).
  { rewrite Es. rewrite skipn_app, skipn_all2 by (cbn [length]; rewrite app_length; cbn [length]; lia). cbn [length]. rewrite app_length. cbn [length].
    replace (S (S (S (length h))) - S (length h + 1)) with 1 by lia. reflexivity. }
  assert (Ek2 : skipn (S (S (length h))) (B "[" ++ h ++ B "]:" ++ p) = ":"%char :: p).
  { rewrite Es. rewrite skipn_app, skipn_all2 by (cbn [length]; rewrite app_length; cbn [length]; lia). cbn [length]. rewrite app_length. cbn [length].
    replace (S (S (length h)) - S (length h + 1)) with 0 by lia. reflexivity. }
  assert (Eh : firstn (S (length h) - 1) (skipn 1 (B "[" ++ h ++ B "]:" ++ p)) = h).
  { change (skipn 1 (B "[" ++ h ++ B "]:" ++ p)) with (h ++ B "]:" ++ p). replace (S (length h) - 1) with (length h) by lia.
    rewrite firstn_app, firstn_all, Nat.sub_diag. cbn [firstn]. apply app_nil_r. }
  rewrite El, Ei, Ek, Eh. change (match B "[" ++ h ++ B "]:" ++ p with c :: _ => Ascii.eqb c "[" | [] => false end) with true. cbv iota.
  replace (S (S (length h)) =? length (B "[" ++ h ++ B "]:" ++ p)) with false.
  2: { symmetry. apply Nat.eqb_neq. rewrite Es. rewrite app_length. cbn [length]. rewrite app_length. cbn [length]. lia. }
  rewrite Nat.eqb_refl. apply tail_checks_ok. rewrite Ek2. change (skipn 1 (B "[" ++ h ++ B "]:" ++ p)) with (h ++ B "]:" ++ p). split.
  - apply Forall_app. split; [eapply Forall_impl; [|exact Hh]; cbn beta; tauto|]. constructor; [discriminate|]. constructor; [discriminate|]. eapply Forall_impl; [|exact Hp]; cbn beta; tauto.
  - constructor; [discriminate|]. eapply Forall_impl; [|exact Hp]; cbn beta; tauto.
Qed.
(** ... and nothing else is accepted. *)
Lemma split_inv s h p : SplitHostPort s = NOk (h, p) ->
  (s = h ++ B ":" ++ p /\ Forall (fun c => c <> ":"%char /\ c <> "["%char /\ c <> "]"%char) (h ++ p)) \/
  (s = B "[" ++ h ++ B "]:" ++ p /\ Forall (fun c => c <> "["%char /\ c <> "]"%char) (h ++ p) /\ Forall (fun c => c <> ":"%char) p).
Proof.
  unfold SplitHostPort. destruct (last_of ":"%char s) as [i|] eqn:El; [|discriminate].
  apply last_some in El as (a & b & -> & <- & Hb).
  assert (Ek : skipn (S (length a)) (a ++ ":"%char :: b) = b).
  { change (a ++ ":"%char :: b) with (a ++ ([":"%char] ++ b)). rewrite app_assoc, skipn_app, skipn_all2 by (rewrite app_length; cbn [length]; lia).
    rewrite app_length. cbn [length]. replace (S (length a) - (length a + 1)) with 0 by lia. reflexivity. }
  assert (Ef : firstn (length a) (a ++ ":"%char :: b) = a) by (rewrite firstn_app, firstn_all, Nat.sub_diag; apply app_nil_r).
  rewrite Ek, Ef. destruct (match a ++ ":"%char :: b with c :: _ => Ascii.eqb c "[" | [] => false end) eqn:E0.
  - destruct a as [|a0 a]; [discriminate|]. cbn [app] in E0. apply Ascii.eqb_eq in E0. subst a0.
    destruct (index_of "]"%char (("["%char :: a) ++ ":"%char :: b)) as [e|] eqn:Ei; [|discriminate].
    destruct (S e =? length (("["%char :: a) ++ ":"%char :: b)); [discriminate|].
    destruct (Nat.eqb_spec (S e) (length ("["%char :: a))) as [He|]; [|destruct (match skipn (S e) _ with c :: _ => _ | [] => _ end); discriminate].
    intros H. pose proof (tail_checks_val _ _ _ _ _ _ _ H) as [-> ->]. apply tail_checks_ok in H as [H1 H2]. right.
    cbn [length] in He. injection He as ->.
    apply index_some in Ei as (u & w & Eu & Hu & Hun). destruct u as [|u0 u].
    { cbn [app] in Eu. discriminate. }
    cbn [app] in Eu. injection Eu as <- Eu. cbn [length] in Hu.
    change (skipn 1 (("["%char :: a) ++ ":"%char :: b)) with (a ++ ":"%char :: b) in *.
    assert (Ea : a = u ++ ["]"%char]).
    { apply (f_equal (firstn (length a))) in Eu. rewrite firstn_app, firstn_all, Nat.sub_diag in Eu. cbn [firstn] in Eu. rewrite app_nil_r in Eu.
      rewrite Eu. rewrite <- Hu. rewrite firstn_app, firstn_all2 by lia. replace (S (length u) - length u) with 1 by lia. reflexivity. }
    assert (Eh : firstn (length a - 1) (a ++ ":"%char :: b) = u).
    { rewrite Ea. rewrite app_length. cbn [length]. replace (length u + 1 - 1) with (length u) by lia. rewrite <- app_assoc, firstn_app, firstn_all, Nat.sub_diag. apply app_nil_r. }
    rewrite Eh. split; [rewrite Ea; cbn [app]; rewrite <- app_assoc; reflexivity|]. split; [|exact Hb].
    assert (Hs2 : skipn (S (length a)) (("["%char :: a) ++ ":"%char :: b) = ":"%char :: b).
    { rewrite skipn_app, skipn_all2 by (cbn [length]; lia). cbn [length]. rewrite Nat.sub_diag. reflexivity. }
    rewrite Hs2 in H2. rewrite Ea in H1. inversion Hun as [|? ? _ Hun']; subst.
    apply Forall_app in H1 as [H1 H1b]. apply Forall_app in H1 as [H1 _]. inversion H1b as [|? ? _ H1c]; subst. inversion H2 as [|? ? _ H2c]; subst.
    rewrite Forall_forall in *. intros c Hin. apply in_app_or in Hin as [Hin|Hin]; split; auto.
  - destruct (index_of ":"%char a) eqn:Ei; [discriminate|]. intros H. pose proof (tail_checks_val _ _ _ _ _ _ _ H) as [-> ->]. apply tail_checks_ok in H as [H1 H2].
    left. split; [reflexivity|]. cbn [skipn] in *. apply index_none in Ei. rewrite Forall_forall in *. intros c Hin. apply in_app_or in Hin as [Hin|Hin].
    + split; [auto|]. split; [apply H1|apply H2]; apply in_or_app; left; exact Hin.
    + split; [auto|]. split; [apply H1|apply H2]; apply in_or_app; right; right; exact Hin.
Qed.
Lemma split_many h p : Forall (fun c => c <> ":"%char) p -> In ":"%char h -> hd "x"%char h <> "["%char -> SplitHostPort (h ++ B ":" ++ p) = NErr ManyColons.
Proof.
  intros Hp Hi Hh. unfold SplitHostPort. change (B ":" ++ p) with (":"%char :: p). rewrite last_app by exact Hp.
  replace (match h ++ ":"%char :: p with c :: _ => Ascii.eqb c "[" | [] => false end) with false.
  2: { destruct h as [|c h]; [reflexivity|]. cbn [app hd] in *. symmetry. apply Ascii.eqb_neq. exact Hh. }
  rewrite firstn_app, firstn_all, Nat.sub_diag. cbn [firstn]. rewrite app_nil_r. destruct (index_of ":"%char h) eqn:E; [reflexivity|].
  apply index_none in E. rewrite Forall_forall in E. exfalso. exact (E _ Hi eq_refl).
Qed.

(** ** Ports *)
Lemma udigits_ge s : forall n v, udigits n s = Some v -> (n <= v)%N.
Proof.
  induction s as [|c s IH]; cbn [udigits]; intros n v H; [injection H as <-; lia|]. destruct (is_digit c); [|discriminate]. apply IH in H. lia.
Qed.
Lemma port_exact s : forall n v, udigits n s = Some v -> (v < 4294967296)%N -> port_digits n s = Some v.
Proof.
  induction s as [|c s IH]; cbn [udigits port_digits]; intros n v H Hv; [exact H|]. destruct (is_digit c); [|discriminate].
  pose proof (udigits_ge _ _ _ H) as Hge.
  replace (port_cutoff <=? n)%N with false by (symmetry; apply N.leb_gt; unfold port_cutoff; lia).
  unfold u32. rewrite (N.mod_small (n * 10)) by lia. rewrite N.mod_small by lia.
  replace (n * 10 + digit_val c <? n * 10)%N with false by (symmetry; apply N.ltb_ge; lia). apply IH; assumption.
Qed.
Lemma port_pos s : forall n v, (0 < n)%N -> port_digits n s = Some v -> (0 < v)%N.
Proof.
  induction s as [|c s IH]; cbn [port_digits]; intros n v Hn H; [injection H as <-; exact Hn|]. destruct (is_digit c) eqn:Ed; [|discriminate].
  destruct (N.leb_spec port_cutoff n) as [Hc|Hc]; [injection H as <-; reflexivity|].
  assert (Hm : (0 < u32 (n * 10))%N).
  { unfold u32, port_cutoff in *. pose proof (N.div_mod (n * 10) 4294967296 ltac:(discriminate)). pose proof (N.mod_lt (n * 10) 4294967296 ltac:(discriminate)). lia. }
  destruct (N.ltb_spec (u32 (u32 (n * 10) + digit_val c)) (u32 (n * 10))) as [_|Hle]; [injection H as <-; reflexivity|].
  apply IH in H; [exact H|]. lia.
Qed.
Lemma digit_not_sign c : is_digit c = true -> Ascii.eqb c "+" = false /\ Ascii.eqb c "-" = false.
Proof. intros H. split; apply Ascii.eqb_neq; intros ->; discriminate. Qed.
Lemma parse_utoa n : parsePort (utoa n) = port_signed false (utoa n).
Proof.
  pose proof (utoa_nonempty n) as Hn. pose proof (utoa_digits n) as Hd. destruct (utoa n) as [|c t]; [congruence|].
  inversion Hd as [|? ? Hc _]; subst. destruct (digit_not_sign c Hc) as [E1 E2]. cbn [parsePort]. rewrite E1, E2. reflexivity.
Qed.
Lemma port_small z : (0 <= z <= 65535)%Z -> parsePort (itoa z) = Some z.
Proof.
  intros H. unfold itoa. replace (z <? 0)%Z with false by (symmetry; apply Z.ltb_ge; lia). rewrite parse_utoa. unfold port_signed.
  rewrite (port_exact _ _ _ (utoa_value (Z.to_N z))) by lia. cbn [negb andb].
  replace (port_cutoff <=? Z.to_N z)%N with false by (symmetry; apply N.leb_gt; unfold port_cutoff; lia). f_equal. lia.
Qed.
Lemma port_big z : (65535 < z < 4294967300)%Z -> exists p, parsePort (itoa z) = Some p /\ (65535 < p)%Z.
Proof.
  intros H. destruct (Z_lt_ge_dec z 4294967296) as [Hlt|Hge].
  - unfold itoa. replace (z <? 0)%Z with false by (symmetry; apply Z.ltb_ge; lia). rewrite parse_utoa. unfold port_signed.
    rewrite (port_exact _ _ _ (utoa_value (Z.to_N z))) by lia. cbn [negb andb].
    destruct (N.leb_spec port_cutoff (Z.to_N z)); eexists; (split; [reflexivity|]); unfold port_cutoff in *; lia.
  - assert (z = 4294967296 \/ z = 4294967297 \/ z = 4294967298 \/ z = 4294967299)%Z as [->|[->|[->| ->]]] by lia;
      exists 1073741823%Z; (split; [vm_compute; reflexivity|lia]).
Qed.
Lemma port_neg z : (z < 0)%Z -> exists p, parsePort (itoa z) = Some p /\ (p < 0)%Z.
Proof.
  intros H. unfold itoa. replace (z <? 0)%Z with true by (symmetry; apply Z.ltb_lt; lia). cbn [parsePort]. change (Ascii.eqb "-" "+") with false. change (Ascii.eqb "-" "-") with true. cbv iota.
  unfold port_signed. set (n := Z.to_N (- z)). assert (Hn : (0 < n)%N) by lia. clearbody n.
  assert (Hr : exists r, port_digits 0 (utoa n) = Some r /\ (0 < r)%N).
  { pose proof (utoa_canonical n) as Hc. pose proof (utoa_value n) as Hv. pose proof (utoa_digits n) as Hd.
    destruct (utoa n) as [|c t] eqn:E; [exfalso; exact (utoa_nonempty n E)|]. inversion Hd as [|? ? Hc0 Ht]; subst.
    assert (Hcv : (0 < digit_val c)%N).
    { destruct (N.eq_0_gt_0_cases (digit_val c)) as [E0|]; [|assumption]. exfalso.
      apply (f_equal digit) in E0. rewrite digit_digit_val in E0 by exact Hc0. subst c. destruct t as [|c' t].
      - vm_compute in Hv. injection Hv as Hv. lia.
      - apply Hc. reflexivity. }
    cbn [port_digits]. rewrite Hc0. change (port_cutoff <=? 0)%N with false. cbv iota. change (u32 (0 * 10)) with 0%N. rewrite N.add_0_l.
    assert (Eu : u32 (digit_val c) = digit_val c) by (unfold u32; apply N.mod_small; pose proof (is_digit_val_lt _ Hc0); lia). rewrite Eu.
    replace (digit_val c <? 0)%N with false by (symmetry; apply N.ltb_ge; lia).
    assert (Hex : forall s m, Forall (fun c => is_digit c = true) s -> exists r, port_digits m s = Some r).
    { induction s as [|x s IH]; intros m Hs; cbn [port_digits]; [eauto|]. inversion Hs as [|? ? Hx Hs']; subst. rewrite Hx.
      destruct (port_cutoff <=? m)%N; [eauto|]. destruct (_ <? _)%N; [eauto|]. apply IH; exact Hs'. }
    destruct (Hex t (digit_val c) Ht) as [r Er]. exists r. split; [exact Er|]. eapply port_pos; [exact Hcv|exact Er]. }
  destruct Hr as (r & -> & Hr). cbn [negb andb]. destruct (N.ltb_spec port_cutoff r); eexists; (split; [reflexivity|]); unfold port_cutoff in *; lia.
Qed.

(** ** IPv4 literals *)
Lemma dtoi_value s : forall n v r, udigits n s = Some v -> (v < big)%N -> match r with c :: _ => is_digit c = false | [] => True end -> dtoi_from n (s ++ r) = Some (v, r).
Proof.
  induction s as [|c s IH]; cbn [udigits app dtoi_from]; intros n v r H Hv Hr.
  - injection H as <-. destruct r as [|c r]; [reflexivity|]. cbn [dtoi_from]. rewrite Hr. reflexivity.
  - destruct (is_digit c); [|discriminate]. pose proof (udigits_ge _ _ _ H). replace (big <=? n * 10 + digit_val c)%N with false by (symmetry; apply N.leb_gt; lia).
    apply IH; assumption.
Qed.
Lemma dtoi_utoa n r : (n < big)%N -> match r with c :: _ => is_digit c = false | [] => True end -> dtoi (utoa n ++ r) = Some (n, r).
Proof.
  intros Hn Hr. unfold dtoi. rewrite (dtoi_value _ _ _ _ (utoa_value n) Hn Hr). pose proof (utoa_nonempty n) as Hne. pose proof (utoa_digits n) as Hd.
  destruct (utoa n) as [|c t]; [congruence|]. cbn [app]. inversion Hd as [|? ? Hc _]; subst. rewrite Hc. reflexivity.
Qed.
Definition v4text (a b c d : byte) : bytes := utoa (bval a) ++ B "." ++ utoa (bval b) ++ B "." ++ utoa (bval c) ++ B "." ++ utoa (bval d).
Lemma v4_next k x r : match r with c :: _ => is_digit c = false | [] => True end ->
  v4_numbers (S k) true (utoa (bval x) ++ r) = option_map (cons x) (v4_numbers k false r) /\
  v4_numbers (S k) false ("."%char :: utoa (bval x) ++ r) = option_map (cons x) (v4_numbers k false r).
Proof.
  intros Hr. pose proof (bval_lt x) as Hx. cbn [v4_numbers]. rewrite Ascii.eqb_refl. rewrite dtoi_utoa by (first [unfold big; lia|exact Hr]).
  replace (255 <? bval x)%N with false by (symmetry; apply N.ltb_ge; lia). rewrite byte_of_bval. auto.
Qed.
Lemma v4_numbers_text a b c d : v4_numbers 4 true (v4text a b c d) = Some [a; b; c; d].
Proof.
  unfold v4text. change (B "." ++ utoa (bval d)) with ("."%char :: utoa (bval d)). change (B "." ++ utoa (bval c) ++ ?x) with ("."%char :: utoa (bval c) ++ x).
  change (B "." ++ utoa (bval b) ++ ?x) with ("."%char :: utoa (bval b) ++ x).
  rewrite (proj1 (v4_next 3 a ("."%char :: _) eq_refl)), (proj2 (v4_next 2 b ("."%char :: _) eq_refl)), (proj2 (v4_next 1 c ("."%char :: _) eq_refl)). rewrite <- (app_nil_r (utoa (bval d))), (proj2 (v4_next 0 d [] I)). reflexivity.
Qed.
Lemma digits_no_sep s r : Forall (fun c => is_digit c = true) s -> first_sep (s ++ r) = first_sep r.
Proof.
  induction 1 as [|c s Hc _ IH]; [reflexivity|]. cbn [app first_sep].
  replace (Ascii.eqb c ".") with false by (symmetry; apply Ascii.eqb_neq; intros ->; discriminate).
  replace (Ascii.eqb c ":") with false by (symmetry; apply Ascii.eqb_neq; intros ->; discriminate). exact IH.
Qed.
Lemma parse_v4text a b c d : parseIPZone (v4text a b c d) = Some {| ia_ip := v4prefix ++ [a; b; c; d]; ia_zone := [] |}.
Proof.
  unfold parseIPZone. replace (first_sep (v4text a b c d)) with (Some "."%char).
  2: { unfold v4text. rewrite digits_no_sep by apply utoa_digits. reflexivity. }
  rewrite Ascii.eqb_refl. unfold parseIPv4. rewrite v4_numbers_text. reflexivity.
Qed.

(** ** IPv6 literals *)
Fixpoint xval (n : N) (s : bytes) : option N :=
  match s with [] => Some n | c :: t => match hex_val c with Some d => xval (n * 16 + d) t | None => None end end.
Lemma xval_ge s : forall n v, xval n s = Some v -> (n <= v)%N.
Proof.
  induction s as [|c s IH]; cbn [xval]; intros n v H; [injection H as <-; lia|]. destruct (hex_val c); [|discriminate]. apply IH in H. lia.
Qed.
Lemma xval_app s : forall n v t, xval n s = Some v -> xval n (s ++ t) = xval v t.
Proof.
  induction s as [|c s IH]; cbn [xval app]; intros n v t H; [injection H as <-; reflexivity|]. destruct (hex_val c); [|discriminate]. apply IH; exact H.
Qed.
Lemma xtoi_value s : forall n v r, xval n s = Some v -> (v < big)%N -> match r with c :: _ => hex_val c = None | [] => True end -> xtoi_from n (s ++ r) = Some (v, r).
Proof.
  induction s as [|c s IH]; cbn [xval app xtoi_from]; intros n v r H Hv Hr.
  - injection H as <-. destruct r as [|c r]; [reflexivity|]. cbn [xtoi_from]. rewrite Hr. reflexivity.
  - destruct (hex_val c); [|discriminate]. pose proof (xval_ge _ _ _ H). replace (big <=? n * 16 + n0)%N with false by (symmetry; apply N.leb_gt; lia).
    apply IH; assumption.
Qed.
Lemma hex_val_digit d : (d < 16)%N -> hex_val (hexdigit d) = Some d.
Proof.
  intros H. unfold hex_val, hexdigit. destruct (N.ltb_spec d 10); rewrite bval_byte_of, N.mod_small by lia.
  - replace ((48 <=? 48 + d) && (48 + d <=? 57))%N with true by (symmetry; apply andb_true_iff; lia). f_equal. lia.
  - replace ((48 <=? 87 + d) && (87 + d <=? 57))%N with false by (symmetry; apply andb_false_iff; lia).
    replace ((97 <=? 87 + d) && (87 + d <=? 102))%N with true by (symmetry; apply andb_true_iff; lia). f_equal. lia.
Qed.
Lemma hex_groups_value f : forall n, (n < 16 ^ N.of_nat f)%N -> 0 < f -> xval 0 (hex_groups_fuel f n) = Some n.
Proof.
  induction f as [|f IH]; intros n Hn Hf; [lia|]. cbn [hex_groups_fuel]. assert (Hm : (n mod 16 < 16)%N) by (apply N.mod_lt; discriminate).
  destruct (N.ltb_spec n 16) as [H|H].
  - cbn [app xval]. rewrite hex_val_digit by exact Hm. rewrite N.mod_small by exact H. reflexivity.
  - destruct f as [|f]; [cbn in Hn; lia|]. assert (Hq : (n / 16 < 16 ^ N.of_nat (S f))%N).
    { apply N.div_lt_upper_bound; [discriminate|]. replace (N.of_nat (S (S f))) with (N.succ (N.of_nat (S f))) in Hn by lia. rewrite N.pow_succ_r' in Hn. exact Hn. }
    rewrite (xval_app _ _ _ _ (IH _ Hq ltac:(lia))). cbn [xval]. rewrite hex_val_digit by exact Hm. f_equal. pose proof (N.div_mod n 16 ltac:(discriminate)). lia.
Qed.
Lemma hexnum_ne n : exists c t d, hexnum n = c :: t /\ hex_val c = Some d.
Proof.
  assert (H : forall f m, 0 < f -> exists c t d, hex_groups_fuel f m = c :: t /\ hex_val c = Some d).
  { induction f as [|f IH]; intros m Hf; [lia|]. cbn [hex_groups_fuel]. pose proof (hex_val_digit (m mod 16) (N.mod_lt m 16 ltac:(discriminate))) as Hd.
    destruct (m <? 16)%N; [do 3 eexists; split; [reflexivity|exact Hd]|]. destruct f as [|f]; [do 3 eexists; split; [reflexivity|exact Hd]|].
    destruct (IH (m / 16)%N ltac:(lia)) as (c & t & d & -> & Hc). do 3 eexists. split; [reflexivity|exact Hc]. }
  apply H. lia.
Qed.
Lemma xtoi_hexnum n r : (n < 65536)%N -> match r with c :: _ => hex_val c = None | [] => True end -> xtoi (hexnum n ++ r) = Some (n, r).
Proof.
  intros Hn Hr. unfold xtoi. pose proof (xtoi_value _ _ _ r (hex_groups_value 4 n ltac:(change (16 ^ N.of_nat 4)%N with 65536%N; lia) ltac:(lia)) ltac:(unfold big; lia) Hr) as Hx.
  fold (hexnum n) in Hx. rewrite Hx. destruct (hexnum_ne n) as (c & t & d & E & Hc). rewrite E. cbn [app]. rewrite Hc. reflexivity.
Qed.

Definition gtext (g : list N) : bytes := join (B ":") (map hexnum g).
Definition gbytes (g : list N) : bytes := flat_map put_u16 g.
Lemma gtext_cons n m g : gtext (n :: m :: g) = hexnum n ++ ":"%char :: gtext (m :: g).
Proof. reflexivity. Qed.
Lemma gbytes_len g : length (gbytes g) = 2 * length g.
Proof. induction g as [|n g IH]; [reflexivity|]. cbn [gbytes flat_map put_u16 app length]. fold (gbytes g). lia. Qed.
Lemma gtext_head n g : exists c t d, gtext (n :: g) = c :: t /\ hex_val c = Some d.
Proof.
  destruct (hexnum_ne n) as (c & t & d & E & Hc). destruct g as [|m g].
  - exists c, (t ++ []), d. split; [|exact Hc]. unfold gtext. cbn [map join concat]. rewrite E. reflexivity.
  - exists c, (t ++ ":"%char :: gtext (m :: g)), d. split; [|exact Hc]. rewrite gtext_cons, E. reflexivity.
Qed.
Lemma hex_not_colon c d : hex_val c = Some d -> Ascii.eqb c ":" = false /\ Ascii.eqb c "." = false /\ Ascii.eqb c "%" = false.
Proof. intros H. split; [|split]; apply Ascii.eqb_neq; intros ->; discriminate. Qed.

(** One number followed by a colon and another number. *)
Lemma v6_more f acc ell n c t d : (n < 65536)%N -> hex_val c = Some d -> v6_loop (S f) acc ell (hexnum n ++ ":"%char :: c :: t) = v6_loop f (acc ++ put_u16 n) ell (c :: t).
Proof.
  intros Hn Hc. cbn [v6_loop]. rewrite xtoi_hexnum by (first [exact Hn|reflexivity]). replace (65535 <? n)%N with false by (symmetry; apply N.ltb_ge; lia).
  change (Ascii.eqb ":" ".") with false. change (Ascii.eqb ":" ":") with true. cbv iota. rewrite (proj1 (hex_not_colon _ _ Hc)). reflexivity.
Qed.
Lemma v6_last f acc ell n : (n < 65536)%N -> v6_loop (S f) acc ell (hexnum n) = Some (acc ++ put_u16 n, ell, []).
Proof.
  intros Hn. cbn [v6_loop]. rewrite <- (app_nil_r (hexnum n)), xtoi_hexnum by (first [exact Hn|exact I]). replace (65535 <? n)%N with false by (symmetry; apply N.ltb_ge; lia). reflexivity.
Qed.
Lemma v6_groups g : forall f acc ell, g <> [] -> length g <= f -> Forall (fun n => (n < 65536)%N) g -> v6_loop f acc ell (gtext g) = Some (acc ++ gbytes g, ell, []).
Proof.
  induction g as [|n g IH]; intros f acc ell Hne Hf Hg; [congruence|]. inversion Hg as [|? ? Hn Hg']; subst. cbn [length] in Hf. destruct f as [|f]; [lia|].
  destruct g as [|m g].
  - unfold gtext. cbn [map join concat]. rewrite app_nil_r. rewrite v6_last by exact Hn. unfold gbytes. cbn [flat_map]. rewrite app_nil_r. reflexivity.
  - rewrite gtext_cons. destruct (gtext_head m g) as (c & t & d & E & Hc). rewrite E, (v6_more _ _ _ _ _ _ _ Hn Hc), <- E.
    rewrite IH by (first [discriminate|lia|assumption]). rewrite <- app_assoc. reflexivity.
Qed.
(** Numbers followed by "::" and the rest. *)
Lemma v6_dcolon g : forall f acc r, g <> [] -> length g <= f -> Forall (fun n => (n < 65536)%N) g ->
  v6_loop f acc None (gtext g ++ B "::" ++ r) =
  match r with
  | [] => Some (acc ++ gbytes g, Some (length acc + 2 * length g), [])
  | _ => v6_loop (f - length g) (acc ++ gbytes g) (Some (length acc + 2 * length g)) r
  end.
Proof.
  induction g as [|n g IH]; intros f acc r Hne Hf Hg; [congruence|]. inversion Hg as [|? ? Hn Hg']; subst. cbn [length] in Hf. destruct f as [|f]; [lia|].
  destruct g as [|m g].
  - unfold gtext. cbn [map join concat]. rewrite app_nil_r. cbn [v6_loop]. rewrite xtoi_hexnum by (first [exact Hn|reflexivity]). replace (65535 <? n)%N with false by (symmetry; apply N.ltb_ge; lia).
    cbn [app list_ascii_of_string]. change (Ascii.eqb ":" ".") with false. change (Ascii.eqb ":" ":") with true. cbv iota.
    assert (E1 : gbytes [n] = put_u16 n) by (unfold gbytes; cbn [flat_map]; apply app_nil_r). rewrite E1.
    assert (E2 : length (acc ++ put_u16 n) = length acc + 2 * length [n]) by (rewrite app_length; reflexivity). rewrite E2. replace (S f - length [n]) with f by (cbn [length]; lia).
    destruct r; reflexivity.
  - rewrite gtext_cons. destruct (gtext_head m g) as (c & t & d & E & Hc). rewrite <- app_assoc, <- app_comm_cons, E. rewrite <- app_comm_cons.
    rewrite (v6_more _ _ _ _ _ _ _ Hn Hc), app_comm_cons, <- E. rewrite IH by (first [discriminate|lia|assumption]).
    assert (E3 : (acc ++ put_u16 n) ++ gbytes (m :: g) = acc ++ gbytes (n :: m :: g)) by (rewrite <- app_assoc; reflexivity).
    assert (E4 : length (acc ++ put_u16 n) + 2 * length (m :: g) = length acc + 2 * length (n :: m :: g)) by (rewrite app_length; cbn [length put_u16]; lia).
    rewrite E3, E4. reflexivity.
Qed.

Lemma skip_skip {A} x y : forall l : list A, skipn x (skipn y l) = skipn (x + y) l.
Proof.
  induction y as [|y IH]; intros l; [rewrite Nat.add_0_r; reflexivity|]. rewrite Nat.add_succ_r. destruct l as [|a l]; [rewrite !skipn_nil; reflexivity|]. apply IH.
Qed.
Lemma zero_run_spec g : zero_run g <= length g /\ firstn (zero_run g) g = repeat 0%N (zero_run g).
Proof.
  induction g as [|x g [IH1 IH2]]; cbn [zero_run length]; [split; [lia|reflexivity]|]. destruct (N.eqb_spec x 0) as [->|]; [|split; [lia|reflexivity]].
  split; [lia|]. cbn [firstn repeat]. rewrite IH2. reflexivity.
Qed.
Definition is_run (g : list N) (e n : nat) : Prop := e + n <= length g /\ firstn n (skipn e g) = repeat 0%N n.
Lemma best_run_spec t : forall g i b, skipn i g = t -> i + length t = length g -> is_run g (fst b) (snd b) -> is_run g (fst (best_run i t b)) (snd (best_run i t b)).
Proof.
  induction t as [|x t IH]; intros g i b Hs Hl Hb; cbn [best_run]; [exact Hb|]. apply IH.
  - replace (S i) with (1 + i) by lia. rewrite <- skip_skip, Hs. reflexivity.
  - cbn [length] in Hl. lia.
  - destruct (snd b <? zero_run (x :: t)); [|exact Hb]. cbn [fst snd]. pose proof (zero_run_spec (x :: t)) as [H1 H2]. split; [lia|]. rewrite Hs. exact H2.
Qed.
Lemma run_split g e n : is_run g e n -> g = firstn e g ++ repeat 0%N n ++ skipn (e + n) g.
Proof.
  intros [H1 H2]. rewrite <- H2. rewrite Nat.add_comm, <- skip_skip. rewrite (firstn_skipn n (skipn e g)), firstn_skipn. reflexivity.
Qed.
Lemma gbytes_app a b : gbytes (a ++ b) = gbytes a ++ gbytes b.
Proof. apply flat_map_app. Qed.
Lemma gbytes_zero n : gbytes (repeat 0%N n) = repeat (byte_of 0) (2 * n).
Proof. induction n as [|n IH]; [reflexivity|]. replace (2 * S n) with (S (S (2 * n))) by lia. cbn [repeat gbytes flat_map put_u16 app]. fold (gbytes (repeat 0%N n)). rewrite IH. reflexivity. Qed.
Lemma groups_bytes k : forall i, length i = 2 * k -> gbytes (groups16 i) = i /\ length (groups16 i) = k /\ Forall (fun n => (n < 65536)%N) (groups16 i).
Proof.
  induction k as [|k IH]; intros i H; [destruct i; [repeat split; constructor|cbn in H; lia]|].
  destruct i as [|a [|b i]]; cbn [length] in H; try lia. destruct (IH i ltac:(lia)) as (E1 & E2 & E3). cbn [groups16 gbytes flat_map length]. fold (gbytes (groups16 i)).
  rewrite E1, E2. pose proof (bval_lt a). pose proof (bval_lt b). split; [|split; [reflexivity|constructor; [unfold get_u16; lia|exact E3]]].
  unfold put_u16, get_u16. cbn [app]. f_equal; [|f_equal].
  - rewrite N.div_add_l by discriminate. rewrite N.div_small by exact H1. rewrite N.add_0_r. apply byte_of_bval.
  - apply bval_inj. rewrite bval_byte_of. rewrite N.add_comm, N.mod_add by discriminate. apply N.mod_small. exact H1.
Qed.

(** net.IP.String can be read back. *)
Lemma parse_ip6_text i : length i = 16 -> parseIPv6 (ip6_text i) = Some i.
Proof.
  intros Hi. destruct (groups_bytes 8 i Hi) as (Eb & El & Hg). set (g := groups16 i) in *. unfold ip6_text. fold g.
  assert (Hr : is_run g (fst (best_run 0 g (0, 0))) (snd (best_run 0 g (0, 0)))).
  { apply best_run_spec; [reflexivity|reflexivity|]. split; [cbn; lia|reflexivity]. }
  destruct (best_run 0 g (0, 0)) as [e n]. cbn [fst snd] in Hr. destruct (Nat.leb_spec n 1) as [Hn|Hn].
  - fold (gtext g). assert (Hne : g <> []) by (intros E; rewrite E in El; discriminate).
    pose proof (v6_groups g 8 [] None Hne ltac:(lia) Hg) as Hloop. cbn [app] in Hloop. rewrite Eb in Hloop.
    assert (Hfin : v6_finish (i, None, []) = Some i) by (unfold v6_finish; rewrite Hi; reflexivity).
    destruct g as [|x g']; [congruence|]. destruct (gtext_head x g') as (c & t & d & E & Hc). unfold parseIPv6. rewrite Hloop, E.
    rewrite (proj1 (hex_not_colon _ _ Hc)). cbn [andb]. destruct t; exact Hfin.
  - pose proof (run_split _ _ _ Hr) as Hs. destruct Hr as [Hle _]. set (g1 := firstn e g) in *. set (g2 := skipn (e + n) g) in *. fold (gtext g1). fold (gtext g2).
    assert (L1 : length g1 = e) by (unfold g1; rewrite firstn_length; lia). assert (L2 : length g2 = 8 - (e + n)) by (unfold g2; rewrite skipn_length, El; reflexivity).
    assert (Hg1 : Forall (fun n => (n < 65536)%N) g1) by (rewrite Hs in Hg; apply Forall_app in Hg; tauto).
    assert (Hg2 : Forall (fun n => (n < 65536)%N) g2) by (rewrite Hs in Hg; apply Forall_app in Hg as [_ Hg]; apply Forall_app in Hg; tauto).
    assert (Hi2 : i = gbytes g1 ++ repeat (byte_of 0) (2 * n) ++ gbytes g2) by (rewrite <- Eb, Hs, !gbytes_app, gbytes_zero; reflexivity).
    assert (Hfin : v6_finish (gbytes g1 ++ gbytes g2, Some (2 * length g1), []) = Some i).
    { unfold v6_finish. rewrite app_length, !gbytes_len, L1, L2. replace (2 * e + 2 * (8 - (e + n)) <? 16) with true by (symmetry; apply Nat.ltb_lt; lia).
      replace (16 - (2 * e + 2 * (8 - (e + n)))) with (2 * n) by lia. rewrite <- L1, <- (gbytes_len g1).
      rewrite firstn_app, firstn_all, Nat.sub_diag, skipn_app, skipn_all, Nat.sub_diag. cbn [firstn skipn]. rewrite app_nil_r. cbn [app]. rewrite Hi2. reflexivity. }
    clearbody g1 g2. destruct g1 as [|x g1].
    + change (gtext [] ++ B "::" ++ gtext g2) with (":"%char :: ":"%char :: gtext g2). unfold parseIPv6. change (Ascii.eqb ":" ":") with true. cbn [andb].
      destruct g2 as [|y g2].
      * change (gtext []) with (@nil byte). cbv iota. cbn [gbytes flat_map app] in Hi2. rewrite app_nil_r in Hi2. cbn [length] in *. replace (2 * n) with 16 in Hi2 by lia. rewrite Hi2. reflexivity.
      * destruct (gtext_head y g2) as (c & t & d & E & Hc). pose proof (v6_groups (y :: g2) 8 [] (Some 0) ltac:(discriminate) ltac:(lia) Hg2) as Hx.
        rewrite E in Hx |- *. cbv iota. rewrite Hx. exact Hfin.
    + pose proof (v6_dcolon (x :: g1) 8 [] (gtext g2) ltac:(discriminate) ltac:(lia) Hg1) as Hloop. cbn [app] in Hloop.
      assert (Hl2 : v6_loop 8 [] None (gtext (x :: g1) ++ B "::" ++ gtext g2) = Some (gbytes (x :: g1) ++ gbytes g2, Some (2 * length (x :: g1)), [])).
      { cbn [list_ascii_of_string app] in *. rewrite Hloop. destruct g2 as [|y g2].
        - change (gtext []) with (@nil byte). cbv iota. change (gbytes []) with (@nil byte). rewrite app_nil_r. reflexivity.
        - destruct (gtext_head y g2) as (c & t & d & E & Hc). 
          pose proof (v6_groups (y :: g2) (8 - length (x :: g1)) (gbytes (x :: g1)) (Some (2 * length (x :: g1))) ltac:(discriminate) ltac:(lia) Hg2) as Hx.
          rewrite E in Hx |- *. cbv iota. exact Hx. }
      destruct (gtext_head x g1) as (c & t & d & E & Hc). unfold parseIPv6. rewrite Hl2. rewrite E. rewrite <- app_comm_cons.
      rewrite (proj1 (hex_not_colon _ _ Hc)). cbn [andb]. destruct t; exact Hfin.
Qed.
