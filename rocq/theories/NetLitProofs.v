(** NetLitProofs.v -- net.ParseIP with zones accepts exactly the literal IP addresses. *)
From Verif Require Import Base GoLib Node NetAddr NetAddrSpec NetAddrProofs.
Local Open Scope list_scope.

(** ** Numerals *)
Definition all_bytes : list byte := map ascii_of_nat (seq 0 256).
Lemma in_all_bytes c : In c all_bytes.
Proof.
  unfold all_bytes. apply in_map_iff. exists (nat_of_ascii c). split; [apply ascii_nat_embedding|]. apply in_seq. pose proof (nat_ascii_bounded c). lia.
Qed.
Definition oeqb (a b : option N) : bool := match a, b with Some x, Some y => (x =? y)%N | None, None => true | _, _ => false end.
Lemma oeqb_eq a b : oeqb a b = true -> a = b.
Proof. destruct a, b; cbn; try discriminate; try reflexivity. intros H. apply N.eqb_eq in H. congruence. Qed.
Lemma digit10 c : digit_of 10 c = if is_digit c then Some (digit_val c) else None.
Proof.
  assert (H : forallb (fun c => oeqb (digit_of 10 c) (if is_digit c then Some (digit_val c) else None)) all_bytes = true) by (vm_compute; reflexivity).
  rewrite forallb_forall in H. apply oeqb_eq. apply H. apply in_all_bytes.
Qed.
Lemma digit16 c : digit_of 16 c = hex_val c.
Proof.
  assert (H : forallb (fun c => oeqb (digit_of 16 c) (hex_val c)) all_bytes = true) by (vm_compute; reflexivity).
  rewrite forallb_forall in H. apply oeqb_eq. apply H. apply in_all_bytes.
Qed.
Lemma udigits_snoc s : forall a c n, udigits a (s ++ [c]) = Some n <-> exists m, udigits a s = Some m /\ is_digit c = true /\ n = (10 * m + digit_val c)%N.
Proof.
  induction s as [|x s IH]; intros a c n; cbn [app udigits].
  - destruct (is_digit c); split; [intros E; injection E as <-; exists a; split; [reflexivity|]; split; [reflexivity|lia]|intros (m & E & _ & ->); injection E as <-; f_equal; lia|discriminate|intros (m & _ & E & _); discriminate].
  - destruct (is_digit x); [apply IH|]. split; [discriminate|intros (m & E & _); discriminate].
Qed.
Lemma xval_snoc s : forall a c n, xval a (s ++ [c]) = Some n <-> exists m d, xval a s = Some m /\ hex_val c = Some d /\ n = (16 * m + d)%N.
Proof.
  induction s as [|x s IH]; intros a c n; cbn [app xval].
  - destruct (hex_val c) as [d|]; split; [intros E; injection E as <-; exists a, d; split; [reflexivity|]; split; [reflexivity|lia]|intros (m & d' & E & E2 & ->); injection E as <-; injection E2 as <-; f_equal; lia|discriminate|intros (m & d & _ & E & _); discriminate].
  - destruct (hex_val x); [apply IH|]. split; [discriminate|intros (m & d & E & _); discriminate].
Qed.
Lemma value10 s : forall n, value_of 10 s n <-> udigits 0 s = Some n.
Proof.
  induction s as [|c s IH] using rev_ind; intros n.
  - split; [intros H; inversion H as [E|s' m c d _ _ E]; [reflexivity|destruct s'; discriminate]|]. intros E. injection E as <-. constructor.
  - rewrite udigits_snoc. split.
    + intros H. inversion H as [E|s' m c' d Hv Hd E1 E2]; [destruct s; discriminate|]. apply app_inj_tail in E1 as [-> ->]. rewrite digit10 in Hd.
      destruct (is_digit c) eqn:Ec; [|discriminate]. injection Hd as <-. exists m. split; [apply IH; exact Hv|auto].
    + intros (m & Hm & Hc & ->). apply vo_snoc; [apply IH; exact Hm|]. rewrite digit10, Hc. reflexivity.
Qed.
Lemma value16 s : forall n, value_of 16 s n <-> xval 0 s = Some n.
Proof.
  induction s as [|c s IH] using rev_ind; intros n.
  - split; [intros H; inversion H as [E|s' m c d _ _ E]; [reflexivity|destruct s'; discriminate]|]. intros E. injection E as <-. constructor.
  - rewrite xval_snoc. split.
    + intros H. inversion H as [E|s' m c' d Hv Hd E1 E2]; [destruct s; discriminate|]. apply app_inj_tail in E1 as [-> ->]. rewrite digit16 in Hd. exists m, d. split; [apply IH; exact Hv|auto].
    + intros (m & d & Hm & Hc & ->). apply vo_snoc; [apply IH; exact Hm|]. rewrite digit16. exact Hc.
Qed.
Definition stop10 (r : bytes) : Prop := match r with c :: _ => is_digit c = false | [] => True end.
Definition stop16 (r : bytes) : Prop := match r with c :: _ => hex_val c = None | [] => True end.
Lemma dtoi_from_inv s : forall n v r, dtoi_from n s = Some (v, r) -> exists p, s = p ++ r /\ udigits n p = Some v /\ stop10 r.
Proof.
  induction s as [|c s IH]; intros n v r H; cbn [dtoi_from] in H.
  - injection H as <- <-. exists []. repeat split.
  - destruct (is_digit c) eqn:Ec.
    + destruct (_ <=? _)%N; [discriminate|]. apply IH in H as (p & -> & Hp & Hr). exists (c :: p). split; [reflexivity|]. cbn [udigits]. rewrite Ec. auto.
    + injection H as <- <-. exists []. repeat split. exact Ec.
Qed.
Lemma dtoi_inv s v r : dtoi s = Some (v, r) -> exists p, s = p ++ r /\ numeral 10 p v /\ stop10 r.
Proof.
  unfold dtoi. destruct s as [|c s]; [discriminate|]. destruct (is_digit c) eqn:Ec; [|discriminate]. intros H. apply dtoi_from_inv in H as (p & E & Hp & Hr). exists p. split; [exact E|]. split; [|exact Hr].
  split; [|apply value10; exact Hp]. intros ->. cbn [app] in E. subst r. cbn [stop10] in Hr. congruence.
Qed.
Lemma dtoi_num p v r : numeral 10 p v -> (v < big)%N -> stop10 r -> dtoi (p ++ r) = Some (v, r).
Proof.
  intros [Hp Hv] Hb Hr. apply value10 in Hv. unfold dtoi. destruct p as [|c p]; [congruence|]. cbn [app]. pose proof Hv as Hd. cbn [udigits] in Hd. destruct (is_digit c); [|discriminate].
  apply (dtoi_value (c :: p)); assumption.
Qed.
Lemma xtoi_from_inv s : forall n v r, xtoi_from n s = Some (v, r) -> exists p, s = p ++ r /\ xval n p = Some v /\ stop16 r.
Proof.
  induction s as [|c s IH]; intros n v r H; cbn [xtoi_from] in H.
  - injection H as <- <-. exists []. repeat split.
  - destruct (hex_val c) eqn:Ec.
    + destruct (_ <=? _)%N; [discriminate|]. apply IH in H as (p & -> & Hp & Hr). exists (c :: p). split; [reflexivity|]. cbn [xval]. rewrite Ec. auto.
    + injection H as <- <-. exists []. repeat split. exact Ec.
Qed.
Lemma xtoi_inv s v r : xtoi s = Some (v, r) -> exists p, s = p ++ r /\ numeral 16 p v /\ stop16 r.
Proof.
  unfold xtoi. destruct s as [|c s]; [discriminate|]. destruct (hex_val c) eqn:Ec; [|discriminate]. intros H. apply xtoi_from_inv in H as (p & E & Hp & Hr). exists p. split; [exact E|]. split; [|exact Hr].
  split; [|apply value16; exact Hp]. intros ->. cbn [app] in E. subst r. cbn [stop16] in Hr. congruence.
Qed.
Lemma xtoi_num p v r : numeral 16 p v -> (v < big)%N -> stop16 r -> xtoi (p ++ r) = Some (v, r).
Proof.
  intros [Hp Hv] Hb Hr. apply value16 in Hv. unfold xtoi. destruct p as [|c p]; [congruence|]. cbn [app]. pose proof Hv as Hd. cbn [xval] in Hd. destruct (hex_val c); [|discriminate].
  apply (xtoi_value (c :: p)); assumption.
Qed.

(** ** IPv4 *)
Lemma v4_step k (first : bool) s v : v4_numbers (S k) first s = Some v <->
  exists p n r w, s = (if first then [] else B ".") ++ p ++ r /\ numeral 10 p n /\ (n <= 255)%N /\ stop10 r /\ v4_numbers k false r = Some w /\ v = byte_of n :: w.
Proof.
  cbn [v4_numbers]. split.
  - intros H. set (s1 := if first then Some s else match s with c :: t => if Ascii.eqb c "." then Some t else None | [] => None end) in H.
    assert (Hs : exists t, s1 = Some t /\ s = (if first then [] else B ".") ++ t).
    { unfold s1 in *. destruct first; [exists s; auto|]. destruct s as [|c t]; [discriminate|]. destruct (Ascii.eqb c ".") eqn:Ec; [|discriminate]. apply Ascii.eqb_eq in Ec. subst c. exists t. auto. }
    destruct Hs as (t & E1 & E2). rewrite E1 in H. destruct (dtoi t) as [[n r]|] eqn:Ed; [|discriminate]. destruct (N.ltb_spec 255 n) as [|Hn]; [discriminate|].
    destruct (v4_numbers k false r) as [w|] eqn:Ew; [|discriminate]. cbn [option_map] in H. injection H as <-. apply dtoi_inv in Ed as (p & -> & Hp & Hr). exists p, n, r, w. auto 10.
  - intros (p & n & r & w & -> & Hp & Hn & Hr & Hw & ->).
    replace (if first then _ else _) with (Some (p ++ r)) by (destruct first; reflexivity).
    rewrite (dtoi_num p n r Hp) by (first [exact Hr|unfold big; lia]). replace (255 <? n)%N with false by (symmetry; apply N.ltb_ge; exact Hn). rewrite Hw. reflexivity.
Qed.
Lemma v4_zero s v : v4_numbers 0 false s = Some v <-> s = [] /\ v = [].
Proof. cbn [v4_numbers]. destruct s; split; [intros E; injection E as <-; auto|intros [_ ->]; reflexivity|discriminate|intros [E _]; discriminate]. Qed.
Lemma v4_iff s v : v4_numbers 4 true s = Some v <-> v4_text s v.
Proof.
  split.
  - intros H. apply v4_step in H as (a & na & r1 & w1 & -> & Ha & Hna & _ & H & ->). apply v4_step in H as (b & nb & r2 & w2 & -> & Hb & Hnb & _ & H & ->).
    apply v4_step in H as (c & nc & r3 & w3 & -> & Hc & Hnc & _ & H & ->). apply v4_step in H as (d & nd & r4 & w4 & -> & Hd & Hnd & _ & H & ->). apply v4_zero in H as [-> ->].
    exists a, b, c, d, na, nb, nc, nd. rewrite app_nil_r. cbn [app map]. auto 12.
  - intros (a & b & c & d & na & nb & nc & nd & -> & Ha & Hb & Hc & Hd & (H1 & H2 & H3 & H4) & ->). cbn [map].
    apply v4_step. exists a, na, (B "." ++ b ++ B "." ++ c ++ B "." ++ d). eexists. split; [reflexivity|]. split; [exact Ha|]. split; [exact H1|]. split; [reflexivity|]. split; [|reflexivity].
    apply v4_step. exists b, nb, (B "." ++ c ++ B "." ++ d). eexists. split; [reflexivity|]. split; [exact Hb|]. split; [exact H2|]. split; [reflexivity|]. split; [|reflexivity].
    apply v4_step. exists c, nc, (B "." ++ d). eexists. split; [reflexivity|]. split; [exact Hc|]. split; [exact H3|]. split; [reflexivity|]. split; [|reflexivity].
    apply v4_step. exists d, nd, []. eexists. split; [rewrite app_nil_r; reflexivity|]. split; [exact Hd|]. split; [exact H4|]. split; [exact I|]. split; [reflexivity|reflexivity].
Qed.
Lemma v4_len s v : v4_text s v -> length v = 4.
Proof. intros (a & b & c & d & na & nb & nc & nd & _ & _ & _ & _ & _ & _ & ->). reflexivity. Qed.
(** The first number of an IPv4 address, read as a hexadecimal number, is small. *)
Definition as_hex (d : N) : N := (256 * (d / 100) + 16 * ((d / 10) mod 10) + d mod 10)%N.
Lemma as_hex_step d c : (10 * d + c <= 255)%N -> (c <= 9)%N -> as_hex (10 * d + c) = (16 * as_hex d + c)%N.
Proof.
  intros H Hc. assert (T : forallb (fun d => forallb (fun c => (as_hex (10 * N.of_nat d + N.of_nat c) =? 16 * as_hex (N.of_nat d) + N.of_nat c)%N) (seq 0 10)) (seq 0 26) = true) by (vm_compute; reflexivity).
  rewrite forallb_forall in T. specialize (T (N.to_nat d) ltac:(apply in_seq; lia)). rewrite forallb_forall in T. specialize (T (N.to_nat c) ltac:(apply in_seq; lia)). rewrite !N2Nat.id in T. apply N.eqb_eq in T. exact T.
Qed.
Lemma digit_hex c : is_digit c = true -> hex_val c = Some (digit_val c).
Proof. intros H. pose proof (digit10 c) as E. unfold is_digit in H. unfold hex_val. rewrite H. reflexivity. Qed.
Lemma dec_as_hex s : forall n, value_of 10 s n -> (n <= 255)%N -> value_of 16 s (as_hex n).
Proof.
  induction 1 as [|s n c d Hs IH Hd]; intros Hn; [constructor|]. rewrite digit10 in Hd. destruct (is_digit c) eqn:Ec; [|discriminate]. injection Hd as <-.
  rewrite as_hex_step; [|exact Hn|unfold is_digit in Ec; apply andb_prop in Ec as [E1 E2]; apply N.leb_le in E1; apply N.leb_le in E2; unfold digit_val; lia]. apply vo_snoc; [apply IH; lia|]. rewrite digit16. apply digit_hex. exact Ec.
Qed.
Lemma as_hex_small n : (n <= 255)%N -> (as_hex n <= 65535)%N.
Proof. intros H. unfold as_hex. assert (n / 100 < 3)%N by (apply N.div_lt_upper_bound; lia). pose proof (N.mod_lt (n / 10) 10 ltac:(lia)). pose proof (N.mod_lt n 10 ltac:(lia)). lia. Qed.
Lemma v4_front s v : v4_text s v -> exists n t, xtoi s = Some (n, "."%char :: t) /\ (n <= 65535)%N.
Proof.
  intros (a & b & c & d & na & nb & nc & nd & -> & [Ha Hv] & _ & _ & _ & (H1 & _) & _). exists (as_hex na), (b ++ B "." ++ c ++ B "." ++ d). split; [|apply as_hex_small; exact H1].
  apply (xtoi_num a (as_hex na) ("."%char :: b ++ B "." ++ c ++ B "." ++ d)); [split; [exact Ha|apply dec_as_hex; assumption]|pose proof (as_hex_small _ H1); unfold big; lia|reflexivity].
Qed.

(** ** IPv6 *)
Lemma group_bytes n : (n <= 65535)%N -> put_u16 n = [byte_of (n / 256); byte_of (n mod 256)].
Proof.
  intros H. unfold put_u16. f_equal. f_equal. apply bval_inj. rewrite !bval_byte_of. symmetry. apply N.mod_mod. lia.
Qed.
Lemma hex_first s v r : hex_group s v -> exists c t d, s ++ r = c :: t /\ hex_val c = Some d.
Proof.
  intros (n & [Hs Hn] & _). apply value16 in Hn. destruct s as [|c t]; [congruence|]. cbn [xval] in Hn. destruct (hex_val c) as [d|] eqn:E; [|discriminate]. exists c, (t ++ r), d. auto.
Qed.
Lemma v4_first s v r : v4_text s v -> exists c t d, s ++ r = c :: t /\ hex_val c = Some d.
Proof.
  intros H. destruct (v4_front _ _ H) as (n & t & Hx & _). unfold xtoi in Hx. destruct s as [|c s]; [discriminate|]. destruct (hex_val c) as [d|] eqn:E; [|discriminate]. exists c, (s ++ r), d. auto.
Qed.
Lemma groups_first s v r : groups s v -> exists c t d, s ++ r = c :: t /\ hex_val c = Some d.
Proof.
  intros H. destruct H as [s v H|s v H|s v t w H Ht]; [eapply hex_first; exact H|eapply v4_first; exact H|]. rewrite <- app_assoc. eapply hex_first; exact H.
Qed.
Lemma hgroups_first s v r : hex_groups_only s v -> exists c t d, s ++ r = c :: t /\ hex_val c = Some d.
Proof. intros H. destruct H as [s v H|s v t w H Ht]; [eapply hex_first; exact H|]. rewrite <- app_assoc. eapply hex_first; exact H. Qed.
Lemma hex_not_colon c d : hex_val c = Some d -> Ascii.eqb c ":" = false /\ Ascii.eqb c "." = false /\ Ascii.eqb c "%" = false.
Proof. intros H. repeat split; apply Ascii.eqb_neq; intros ->; discriminate. Qed.
Lemma hex_len s v : hex_group s v -> length v = 2.
Proof. intros (n & _ & _ & ->). reflexivity. Qed.

Lemma v6_loop_sound f : forall acc ell s acc' ell', v6_loop f acc ell s = Some (acc', ell', []) -> s <> [] ->
  (exists v, groups s v /\ acc' = acc ++ v /\ ell' = ell) \/
  (ell = None /\ exists L l R r, s = L ++ B "::" ++ R /\ hex_groups_only L l /\ (R = [] /\ r = [] \/ groups R r) /\ acc' = acc ++ l ++ r /\ ell' = Some (length acc + length l)).
Proof.
  induction f as [|f IH]; intros acc ell s acc' ell' H Hs; cbn [v6_loop] in H; [injection H as _ _ E; contradiction|].
  destruct (xtoi s) as [[n r]|] eqn:Ex; [|discriminate]. destruct (N.ltb_spec 65535 n) as [|Hn]; [discriminate|]. apply xtoi_inv in Ex as (p & -> & Hp & Hr).
  assert (Hg : hex_group p (put_u16 n)) by (exists n; split; [exact Hp|]; split; [exact Hn|apply group_bytes; exact Hn]).
  destruct r as [|c t].
  - injection H as <- <-. left. exists (put_u16 n). rewrite app_nil_r. split; [apply gr_hex; exact Hg|auto].
  - destruct (Ascii.eqb c ".") eqn:Ed.
    { destruct (_ || _); [discriminate|]. destruct (v4_numbers 4 true (p ++ c :: t)) as [q|] eqn:E4; [|discriminate]. injection H as <- <-. apply v4_iff in E4. left. exists q. split; [apply gr_v4; exact E4|auto]. }
    destruct (Ascii.eqb c ":") eqn:Ec; [|discriminate]. apply Ascii.eqb_eq in Ec. subst c. destruct t as [|d u]; [discriminate|]. destruct (Ascii.eqb d ":") eqn:Ee.
    + apply Ascii.eqb_eq in Ee. subst d. destruct ell as [e|]; [discriminate|]. right. split; [reflexivity|]. destruct u as [|x u].
      * injection H as <- <-. exists p, (put_u16 n), [], []. rewrite app_nil_r, app_length. split; [reflexivity|]. split; [apply hg_one; exact Hg|]. auto.
      * apply IH in H; [|discriminate]. destruct H as [(v & Hv & -> & ->)|[E _]]; [|discriminate]. exists p, (put_u16 n), (x :: u), v. rewrite <- app_assoc, app_length. split; [reflexivity|].
        split; [apply hg_one; exact Hg|]. auto.
    + apply IH in H; [|discriminate]. destruct H as [(v & Hv & -> & ->)|(-> & L & l & R & r & E & Hl & HR & -> & ->)].
      * left. exists (put_u16 n ++ v). rewrite <- app_assoc. split; [apply (gr_more p (put_u16 n) (d :: u) v); assumption|auto].
      * right. split; [reflexivity|]. exists (p ++ B ":" ++ L), (put_u16 n ++ l), R, r. rewrite E. split; [rewrite <- !app_assoc; reflexivity|]. split; [apply hg_more; assumption|]. split; [exact HR|].
        rewrite <- !app_assoc, !app_length. split; [reflexivity|f_equal; lia].
Qed.

Lemma v6_one f acc ell s v r : hex_group s v -> stop16 r -> v6_loop (S f) acc ell (s ++ r) =
  match r with
  | c :: t =>
      if Ascii.eqb c "." then
        if (match ell with None => negb (length acc =? 12) | Some _ => false end) || (16 <? length acc + 4) then None
        else match v4_numbers 4 true (s ++ r) with Some p => Some (acc ++ p, ell, []) | None => None end
      else if Ascii.eqb c ":" then
        match t with
        | [] => None
        | d :: u =>
            if Ascii.eqb d ":" then
              match ell with
              | Some _ => None
              | None => match u with [] => Some (acc ++ v, Some (length (acc ++ v)), []) | _ => v6_loop f (acc ++ v) (Some (length (acc ++ v))) u end
              end
            else v6_loop f (acc ++ v) ell t
        end
      else None
  | [] => Some (acc ++ v, ell, [])
  end.
Proof.
  intros (n & Hp & Hn & ->) Hr. rewrite <- (group_bytes n Hn). cbn [v6_loop]. rewrite (xtoi_num s n r Hp) by (first [exact Hr|unfold big; lia]). replace (65535 <? n)%N with false by (symmetry; apply N.ltb_ge; exact Hn). reflexivity.
Qed.
Lemma v6_loop_groups s v : groups s v -> forall f acc ell, 16 - length acc = 2 * f -> length acc + length v <= 16 -> (ell = None -> length acc + length v = 16) ->
  v6_loop f acc ell s = Some (acc ++ v, ell, []).
Proof.
  induction 1 as [s v H|s v H|s v t w H Ht IH]; intros f acc ell Hf Hl He.
  - pose proof (hex_len _ _ H) as Hv. destruct f as [|f]; [lia|]. rewrite <- (app_nil_r s), (v6_one f acc ell s v [] H I). reflexivity.
  - pose proof (v4_len _ _ H) as Hv. destruct f as [|f]; [lia|]. cbn [v6_loop]. destruct (v4_front _ _ H) as (n & t & -> & Hn). replace (65535 <? n)%N with false by (symmetry; apply N.ltb_ge; exact Hn).
    rewrite Ascii.eqb_refl. apply v4_iff in H. rewrite H.
    replace ((match ell with None => negb (length acc =? 12) | Some _ => false end) || (16 <? length acc + 4)) with false; [reflexivity|]. symmetry. apply orb_false_iff. split; [|apply Nat.ltb_ge; lia].
    destruct ell; [reflexivity|]. specialize (He eq_refl). apply negb_false_iff, Nat.eqb_eq. lia.
  - pose proof (hex_len _ _ H) as Hv. rewrite app_length in Hl, He. destruct f as [|f]; [lia|]. change (B ":" ++ t) with (":"%char :: t). rewrite (v6_one f acc ell s v (":"%char :: t) H eq_refl).
    change (Ascii.eqb ":" ".") with false. rewrite Ascii.eqb_refl. cbv iota. destruct (groups_first t w [] Ht) as (c & u & d & E & Hc). rewrite app_nil_r in E. rewrite E. destruct (hex_not_colon _ _ Hc) as (Hc1 & _). rewrite Hc1.
    rewrite <- E, IH; [rewrite <- app_assoc; reflexivity|rewrite app_length; lia..|]. intros En. specialize (He En). rewrite app_length. lia.
Qed.
Lemma v6_loop_left L l : hex_groups_only L l -> forall R r f acc, (R = [] /\ r = [] \/ groups R r) -> 16 - length acc = 2 * f -> length acc + length l + length r < 16 ->
  v6_loop f acc None (L ++ B "::" ++ R) = Some (acc ++ l ++ r, Some (length acc + length l), []).
Proof.
  induction 1 as [s v H|s v t w H Ht IH]; intros R r f acc HR Hf Hl; pose proof (hex_len _ _ H) as Hv.
  - destruct f as [|f]; [lia|]. change (B "::" ++ R) with (":"%char :: ":"%char :: R). rewrite (v6_one f acc None s v (":"%char :: ":"%char :: R) H eq_refl).
    change (Ascii.eqb ":" ".") with false. rewrite Ascii.eqb_refl. cbv iota. destruct HR as [[-> ->]|HR].
    + rewrite app_nil_r, app_length. reflexivity.
    + destruct (groups_first R r [] HR) as (c & u & d & E & _). rewrite app_nil_r in E. rewrite E, <- E. rewrite (v6_loop_groups R r HR); [rewrite <- app_assoc, app_length; reflexivity|rewrite app_length; lia..|discriminate].
  - rewrite app_length in Hl. destruct f as [|f]; [lia|]. rewrite <- !app_assoc. change (B ":" ++ t ++ ?x) with (":"%char :: t ++ x). rewrite (v6_one f acc None s v (":"%char :: t ++ B "::" ++ R) H eq_refl).
    change (Ascii.eqb ":" ".") with false. rewrite Ascii.eqb_refl. cbv iota. destruct (hgroups_first t w (B "::" ++ R) Ht) as (c & u & d & E & Hc). rewrite E. destruct (hex_not_colon _ _ Hc) as (Hc1 & _). rewrite Hc1.
    rewrite <- E, (IH R r f (acc ++ v) HR); [rewrite <- !app_assoc, !app_length; f_equal; f_equal; f_equal; f_equal; lia|rewrite app_length; lia..].
Qed.
Lemma v6_finish_inv acc ell s v : v6_finish (acc, ell, s) = Some v -> s = [] /\
  ((ell = None /\ v = acc /\ 16 <= length acc) \/ (exists e, ell = Some e /\ length acc < 16 /\ v = firstn e acc ++ repeat (byte_of 0) (16 - length acc) ++ skipn e acc)).
Proof.
  unfold v6_finish. destruct s; [|discriminate]. destruct (Nat.ltb_spec (length acc) 16) as [H|H]; destruct ell as [e|]; try discriminate; intros E; injection E as <-; split; try reflexivity.
  - right. exists e. auto.
  - left. auto.
Qed.
Lemma v6_loop_len f : forall acc ell s acc' ell' s', v6_loop f acc ell s = Some (acc', ell', s') -> length acc + 2 * f <= 16 -> length acc' <= 16.
Proof.
  induction f as [|f IH]; intros acc ell s acc' ell' s' H Hl; cbn [v6_loop] in H; [injection H as <- _ _; lia|].
  destruct (xtoi s) as [[n r]|]; [|discriminate]. destruct (65535 <? n)%N; [discriminate|]. destruct r as [|c t]; [injection H as <- _ _; rewrite app_length; cbn [put_u16 length]; lia|].
  destruct (Ascii.eqb c ".").
  - destruct (match ell with None => negb (length acc =? 12) | Some _ => false end); cbn [orb] in H; [discriminate|]. destruct (Nat.ltb_spec 16 (length acc + 4)); [discriminate|].
    destruct (v4_numbers 4 true s) as [p|] eqn:E4; [|discriminate]. injection H as <- _ _. apply v4_iff, v4_len in E4. rewrite app_length. lia.
  - destruct (Ascii.eqb c ":"); [|discriminate]. destruct t as [|d u]; [discriminate|]. destruct (Ascii.eqb d ":").
    + destruct ell; [discriminate|]. destruct u as [|x u]; [injection H as <- _ _; rewrite app_length; cbn [put_u16 length]; lia|]. eapply IH; [exact H|]. rewrite app_length. cbn [put_u16 length]. lia.
    + eapply IH; [exact H|]. rewrite app_length. cbn [put_u16 length]. lia.
Qed.
Lemma split_at (l r z : bytes) : firstn (length l) (l ++ r) ++ z ++ skipn (length l) (l ++ r) = l ++ z ++ r.
Proof. rewrite firstn_app, firstn_all, Nat.sub_diag, List.skipn_app, List.skipn_all, Nat.sub_diag. cbn [firstn skipn app]. rewrite app_nil_r. reflexivity. Qed.
Lemma v6_iff s v : parseIPv6 s = Some v <-> v6_text s v.
Proof.
  split.
  - intros H. assert (G : match v6_loop 8 [] None s with Some r => v6_finish r | None => None end = Some v -> v6_text s v).
    { clear H. destruct (v6_loop 8 [] None s) as [[[acc ell] s']|] eqn:El; [|discriminate]. intros E. apply v6_finish_inv in E as [-> E].
      assert (Hs : s <> []) by (intros ->; discriminate El). pose proof (v6_loop_len _ _ _ _ _ _ _ El ltac:(cbn [length]; lia)) as Hlen.
      apply v6_loop_sound in El; [|exact Hs]. destruct El as [(w & Hw & -> & ->)|(_ & L & l & R & r & -> & HL & HR & -> & ->)]; cbn [app length Nat.add] in *.
      - destruct E as [(_ & -> & E)|(e & E & _)]; [|discriminate]. apply v6_full; [exact Hw|lia].
      - destruct E as [(E & _)|(e & E & El & ->)]; [discriminate|]. injection E as <-. rewrite split_at. rewrite app_length in *. replace (16 - (length l + length r)) with (16 - length l - length r) by lia.
        apply v6_short; [right; exact HL|exact HR|exact El]. }
    destruct s as [|c [|d t]]; [exact (G H)|exact (G H)|]. cbn [parseIPv6] in H. destruct (Ascii.eqb c ":" && Ascii.eqb d ":") eqn:Ec; [|exact (G H)]. clear G.
    apply andb_prop in Ec as [Ec Ed]. apply Ascii.eqb_eq in Ec. apply Ascii.eqb_eq in Ed. subst c d. destruct t as [|x t].
    + injection H as <-. apply (v6_short [] [] [] []); auto. cbn [length]. lia.
    + destruct (v6_loop 8 [] (Some 0) (x :: t)) as [[[acc ell] s']|] eqn:El; [|discriminate]. apply v6_finish_inv in H as [-> E].
      apply v6_loop_sound in El; [|discriminate]. destruct El as [(w & Hw & -> & ->)|[E' _]]; [|discriminate]. cbn [app] in *. destruct E as [(E & _)|(e & E & El & ->)]; [discriminate|]. injection E as <-. cbn [firstn skipn app].
      pose proof (v6_short [] [] (x :: t) w (or_introl (conj eq_refl eq_refl)) (or_intror Hw) ltac:(cbn [length]; lia)) as Hv. cbn [app length Nat.sub] in Hv. exact Hv.
  - intros [s' w Hw Hl|L l R r HL HR Hl].
    + destruct (groups_first s' w [] Hw) as (c & t & d & E & Hc). rewrite app_nil_r in E. destruct (hex_not_colon _ _ Hc) as (Hc1 & _).
      assert (G : match v6_loop 8 [] None s' with Some r => v6_finish r | None => None end = Some w).
      { rewrite (v6_loop_groups s' w Hw) by (cbn [length]; lia). cbn [app v6_finish]. replace (length w <? 16) with false by (symmetry; apply Nat.ltb_ge; lia). reflexivity. }
      rewrite E in *. cbn [parseIPv6]. destruct t as [|d' t]; [exact G|]. rewrite Hc1. exact G.
    + destruct HL as [[-> ->]|HL].
      * cbn [app length Nat.sub]. change (B "::" ++ R) with (":"%char :: ":"%char :: R). cbn [parseIPv6]. rewrite Ascii.eqb_refl. cbn [andb]. destruct HR as [[-> ->]|HR]; [reflexivity|].
        destruct (groups_first R r [] HR) as (c & t & d & E & Hc). rewrite app_nil_r in E. rewrite E at 1. cbv iota. rewrite (v6_loop_groups R r HR); [|cbn [length] in *; lia..|discriminate].
        unfold v6_finish. cbn [app firstn skipn]. cbn [length Nat.add] in Hl. replace (length r <? 16) with true by (symmetry; apply Nat.ltb_lt; lia). reflexivity.
      * assert (G : match v6_loop 8 [] None (L ++ B "::" ++ R) with Some x => v6_finish x | None => None end = Some (l ++ repeat (byte_of 0) (16 - length l - length r) ++ r)).
        { rewrite (v6_loop_left L l HL R r 8 [] HR) by (cbn [length]; lia). unfold v6_finish. cbn [app length Nat.add]. rewrite app_length. replace (length l + length r <? 16) with true by (symmetry; apply Nat.ltb_lt; lia).
          rewrite split_at. replace (16 - length l - length r) with (16 - (length l + length r)) by lia. reflexivity. }
        destruct (hgroups_first L l (B "::" ++ R) HL) as (c & t & d & E & Hc). destruct (hex_not_colon _ _ Hc) as (Hc1 & _). rewrite E in *. cbn [parseIPv6]. destruct t as [|d' t]; [exact G|]. rewrite Hc1. exact G.
Qed.

(** ** Zones *)
Lemma hex_sep s r : Forall (fun c => hex_val c <> None) s -> first_sep (s ++ r) = first_sep r.
Proof.
  induction 1 as [|c s Hc _ IH]; [reflexivity|]. cbn [app first_sep]. destruct (hex_val c) as [d|] eqn:E; [|congruence]. destruct (hex_not_colon _ _ E) as (E1 & E2 & _). rewrite E1, E2. exact IH.
Qed.
Lemma xval_chars s : forall n v, xval n s = Some v -> Forall (fun c => hex_val c <> None) s.
Proof.
  induction s as [|c s IH]; intros n v H; [constructor|]. cbn [xval] in H. destruct (hex_val c) eqn:E; [|discriminate]. constructor; [congruence|eapply IH; exact H].
Qed.
Lemma hex_group_chars s v : hex_group s v -> Forall (fun c => hex_val c <> None) s.
Proof. intros (n & [_ H] & _). apply value16 in H. eapply xval_chars; exact H. Qed.
Lemma dec_chars s n : numeral 10 s n -> Forall (fun c => is_digit c = true) s.
Proof.
  intros [_ H]. induction H as [|s n c d Hs IH Hd]; [constructor|]. apply Forall_app. split; [exact IH|]. constructor; [|constructor]. rewrite digit10 in Hd. destruct (is_digit c); [reflexivity|discriminate].
Qed.
Lemma v4_sep s v r : v4_text s v -> first_sep (s ++ r) = Some "."%char.
Proof.
  intros (a & b & c & d & na & nb & nc & nd & -> & Ha & _). rewrite <- app_assoc. rewrite digits_no_sep by (eapply dec_chars; exact Ha). reflexivity.
Qed.
Lemma v6_sep s v r : v6_text s v -> first_sep (s ++ r) = Some ":"%char.
Proof.
  intros [s' w Hw Hl|L l R x HL HR Hl].
  - destruct Hw as [s0 v0 H|s0 v0 H|s0 v0 t w H Ht]; [apply hex_len in H; lia|apply v4_len in H; lia|]. rewrite <- !app_assoc. rewrite hex_sep by (eapply hex_group_chars; exact H). reflexivity.
  - destruct HL as [[-> _]|HL]; [reflexivity|]. destruct HL as [s0 v0 H|s0 v0 t w H Ht]; rewrite <- !app_assoc; rewrite hex_sep by (eapply hex_group_chars; exact H); reflexivity.
Qed.
Definition no_pct (s : bytes) : Prop := Forall (fun c => c <> "%"%char) s.
Lemma hex_no_pct s v : hex_group s v -> no_pct s.
Proof. intros H. apply hex_group_chars in H. eapply Forall_impl; [|exact H]. intros c Hc ->. apply Hc. reflexivity. Qed.
Lemma dec_no_pct s n : numeral 10 s n -> no_pct s.
Proof. intros H. apply dec_chars in H. eapply Forall_impl; [|exact H]. intros c Hc ->. discriminate. Qed.
Lemma v4_no_pct s v : v4_text s v -> no_pct s.
Proof.
  intros (a & b & c & d & na & nb & nc & nd & -> & Ha & Hb & Hc & Hd & _). unfold no_pct. repeat (apply Forall_app; split); try (eapply dec_no_pct; eassumption); repeat constructor; discriminate.
Qed.
Lemma groups_no_pct s v : groups s v -> no_pct s.
Proof.
  induction 1 as [s v H|s v H|s v t w H Ht IH]; [eapply hex_no_pct; exact H|eapply v4_no_pct; exact H|]. apply Forall_app. split; [eapply hex_no_pct; exact H|]. constructor; [discriminate|exact IH].
Qed.
Lemma hgroups_no_pct s v : hex_groups_only s v -> no_pct s.
Proof. induction 1 as [s v H|s v t w H Ht IH]; [eapply hex_no_pct; exact H|]. apply Forall_app. split; [eapply hex_no_pct; exact H|]. constructor; [discriminate|exact IH]. Qed.
Lemma v6_no_pct s v : v6_text s v -> no_pct s.
Proof.
  intros [s' w Hw Hl|L l R x HL HR Hl]; [eapply groups_no_pct; exact Hw|]. apply Forall_app. split; [destruct HL as [[-> _]|HL]; [constructor|eapply hgroups_no_pct; exact HL]|].
  constructor; [discriminate|]. constructor; [discriminate|]. destruct HR as [[-> _]|HR]; [constructor|eapply groups_no_pct; exact HR].
Qed.
Lemma last_some c s : forall n, last_of c s = Some n -> exists a b, s = a ++ c :: b /\ length a = n /\ Forall (fun x => x <> c) b.
Proof.
  induction s as [|x s IH]; intros n H; cbn [last_of] in H; [discriminate|]. destruct (last_of c s) as [m|] eqn:E.
  - injection H as <-. destruct (IH m eq_refl) as (a & b & -> & <- & Hb). exists (x :: a), b. auto.
  - destruct (Ascii.eqb x c) eqn:Ex; [|discriminate]. injection H as <-. apply Ascii.eqb_eq in Ex. subst x. exists [], s. split; [reflexivity|]. split; [reflexivity|]. apply last_none. exact E.
Qed.
Lemma wide_v4 v : length v = 4 -> v4prefix ++ v = wide v.
Proof. intros H. unfold wide. rewrite H. change (4 =? 4) with true. cbv iota. reflexivity. Qed.

(** What the code takes for a literal address is one, and the other way round. *)
Lemma literal_iff s b : parseIPZone s = Some b <-> ip_literal s (ia_ip b) (ia_zone b).
Proof.
  split.
  - unfold parseIPZone. destruct (first_sep s) as [c|] eqn:Es; [|discriminate]. destruct (Ascii.eqb c ".").
    + unfold parseIPv4. destruct (v4_numbers 4 true s) as [v|] eqn:E; [|discriminate]. cbn [option_map]. intros H. injection H as <-. cbn [ia_ip ia_zone]. apply v4_iff in E.
      change (ip_literal s (v4prefix ++ v) []). rewrite wide_v4 by (eapply v4_len; exact E). apply il_v4. exact E.
    + unfold splitHostZone. destruct (last_of "%" s) as [[|i]|] eqn:El; cbv iota beta.
      * intros H. destruct (parseIPv6 s) as [v|] eqn:E; [|discriminate]. injection H as <-. apply il_v6, v6_iff. exact E.
      * apply last_some in El as (a & z & -> & Ha & Hz). rewrite firstn_app, <- Ha, firstn_all, Nat.sub_diag. cbn [firstn]. rewrite app_nil_r.
        replace (skipn (S (length a)) (a ++ "%"%char :: z)) with z by (rewrite List.skipn_app, List.skipn_all2 by lia; replace (S (length a) - length a) with 1 by lia; reflexivity).
        destruct (parseIPv6 a) as [v|] eqn:E; [|discriminate]. intros H. injection H as <-. cbn [ia_ip ia_zone]. apply (il_zone a v z); [apply v6_iff; exact E|]. intros Hin. rewrite Forall_forall in Hz. exact (Hz _ Hin eq_refl).
      * destruct (parseIPv6 s) as [v|] eqn:E; [|discriminate]. intros H. injection H as <-. apply il_v6, v6_iff. exact E.
  - destruct b as [i z]. cbn [ia_ip ia_zone]. intros H. unfold parseIPZone. destruct H as [s v H|s v H|s v z H Hz].
    + pose proof (v4_sep s v [] H) as E. rewrite app_nil_r in E. rewrite E, Ascii.eqb_refl. pose proof (v4_len _ _ H) as Hl. apply v4_iff in H. unfold parseIPv4. rewrite H. cbn [option_map]. rewrite wide_v4 by exact Hl. reflexivity.
    + pose proof (v6_sep s v [] H) as E. rewrite app_nil_r in E. rewrite E. change (Ascii.eqb ":" ".") with false. cbv iota. unfold splitHostZone.
      rewrite (proj2 (last_none _ _) (v6_no_pct s v H)). apply v6_iff in H. rewrite H. reflexivity.
    + rewrite (v6_sep s v _ H). change (Ascii.eqb ":" ".") with false. cbv iota. unfold splitHostZone. change (B "%" ++ z) with ("%"%char :: z). rewrite last_app by (apply Forall_forall; intros x Hx ->; exact (Hz Hx)).
      destruct (length s) as [|k] eqn:Ek; [destruct s; [|discriminate]; apply v6_iff in H; vm_compute in H; discriminate|].
      rewrite firstn_app, <- Ek, firstn_all, Nat.sub_diag. cbn [firstn]. rewrite app_nil_r.
      replace (skipn (S (length s)) (s ++ "%"%char :: z)) with z by (rewrite List.skipn_app, List.skipn_all2 by lia; replace (S (length s) - length s) with 1 by lia; reflexivity).
      apply v6_iff in H. rewrite H. reflexivity.
Qed.
Lemma literal_none s : parseIPZone s = None <-> forall i z, ~ ip_literal s i z.
Proof.
  split.
  - intros H i z Hl. apply (literal_iff s {| ia_ip := i; ia_zone := z |}) in Hl. congruence.
  - intros H. destruct (parseIPZone s) as [b|] eqn:E; [|reflexivity]. apply literal_iff in E. elim (H _ _ E).
Qed.
