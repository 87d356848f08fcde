(** ZapLogProofs.v -- lemmas about the JSON text of log lines. *)
From Verif Require Import Base GoLib Types Logger ErrorsPf ZapLog ZapLogSpec.
Local Open Scope list_scope.

Definition high (c : byte) : Prop := (128 <= bval c)%N.

Lemma inr_high lo hi b : (128 <= lo)%N -> inr lo hi b = true -> high b.
Proof. unfold inr, high. intros H E. apply andb_true_iff in E as [E _]. apply N.leb_le in E. lia. Qed.

Lemma decode_high c t : high c -> decode_rune (c :: t) = (RuneError, 1) \/ (exists r n, decode_rune (c :: t) = (r, n) /\ 2 <= n <= length (c :: t) /\ Forall high (firstn n (c :: t))).
Proof.
  unfold high. intros Hc. cbn [decode_rune]. cbv zeta.
  destruct (N.ltb_spec (bval c) 128); [lia|].
  destruct (N.ltb_spec (bval c) 194); [auto|].
  destruct (N.ltb_spec (bval c) 224).
  - destruct t as [|b1 t]; [auto|]. destruct (inr 128 191 b1) eqn:E1; [|auto]. right. eexists. eexists. split; [reflexivity|]. split; [cbn; lia|].
    apply inr_high in E1; [|lia]. repeat constructor; assumption.
  - destruct (N.ltb_spec (bval c) 240).
    + destruct t as [|b1 [|b2 t]]; auto.
      set (lo := if (bval c =? 224)%N then 160%N else 128%N). set (hi := if (bval c =? 237)%N then 159%N else 191%N).
      destruct (inr lo hi b1) eqn:E1; [|auto]. destruct (inr 128 191 b2) eqn:E2; [|auto]. right. eexists. eexists. split; [reflexivity|]. split; [cbn; lia|].
      apply inr_high in E1; [|unfold lo; destruct (bval c =? 224)%N; lia]. apply inr_high in E2; [|lia]. repeat constructor; assumption.
    + destruct (N.ltb_spec (bval c) 245); [|auto]. destruct t as [|b1 [|b2 [|b3 t]]]; auto.
      set (lo := if (bval c =? 240)%N then 144%N else 128%N). set (hi := if (bval c =? 244)%N then 143%N else 191%N).
      destruct (inr lo hi b1) eqn:E1; [|auto]. destruct (inr 128 191 b2) eqn:E2; [|auto]. destruct (inr 128 191 b3) eqn:E3; [|auto]. right. eexists. eexists. split; [reflexivity|]. split; [cbn; lia|].
      apply inr_high in E1; [|unfold lo; destruct (bval c =? 240)%N; lia]. apply inr_high in E2; [|lia]. apply inr_high in E3; [|lia]. repeat constructor; assumption.
Qed.

(** Text inside a JSON string: plain characters and two-character escapes. *)
Inductive esc_ok : bytes -> Prop :=
| eo_nil : esc_ok []
| eo_plain c t : control c = false -> c <> quote -> c <> bslash -> esc_ok t -> esc_ok (c :: t)
| eo_bs c t : control c = false -> esc_ok t -> esc_ok (bslash :: c :: t).
Lemma esc_ok_app a b : esc_ok a -> esc_ok b -> esc_ok (a ++ b).
Proof. induction 1; intros Hb; cbn [app]; [assumption|apply eo_plain; auto|apply eo_bs; auto]. Qed.

Lemma high_plain c : high c -> control c = false /\ c <> quote /\ c <> bslash.
Proof.
  unfold high, control. intros H. split; [|split].
  - apply N.ltb_ge. lia.
  - intros ->. vm_compute in H. congruence.
  - intros ->. vm_compute in H. congruence.
Qed.
Lemma high_ok l : Forall high l -> esc_ok l.
Proof. induction 1 as [|c l Hc _ IH]; [constructor|]. destruct (high_plain c Hc) as (H1 & H2 & H3). apply eo_plain; assumption. Qed.

Definition esc_okb (t : bytes) : bool := match t with
  | [c] => negb (control c) && negb (Ascii.eqb c quote) && negb (Ascii.eqb c bslash)
  | b :: d :: t' => Ascii.eqb b bslash && negb (control d) && forallb (fun c => negb (control c) && negb (Ascii.eqb c quote) && negb (Ascii.eqb c bslash)) t'
  | [] => true end.
Lemma plainb_ok l : forallb (fun c => negb (control c) && negb (Ascii.eqb c quote) && negb (Ascii.eqb c bslash)) l = true -> esc_ok l.
Proof.
  induction l as [|c l IH]; cbn [forallb]; intros H; [constructor|]. apply andb_true_iff in H as [H Hl]. apply andb_true_iff in H as [H H3]. apply andb_true_iff in H as [H1 H2].
  apply eo_plain; [destruct (control c); [discriminate|reflexivity]| | |apply IH; exact Hl].
  - intros ->. rewrite Ascii.eqb_refl in H2. discriminate.
  - intros ->. rewrite Ascii.eqb_refl in H3. discriminate.
Qed.
Lemma esc_okb_ok t : esc_okb t = true -> esc_ok t.
Proof.
  destruct t as [|c [|d t]]; intros H; [constructor| |].
  - apply plainb_ok. cbn [forallb]. cbn [esc_okb] in H. rewrite H. reflexivity.
  - cbn [esc_okb] in H. apply andb_true_iff in H as [H H3]. apply andb_true_iff in H as [H1 H2]. apply Ascii.eqb_eq in H1. subst c.
    apply eo_bs; [destruct (control d); [discriminate|reflexivity]|]. apply plainb_ok. exact H3.
Qed.
Lemma esc_ascii_ok c : esc_ok (esc_ascii c).
Proof. apply esc_okb_ok. destruct c as [[] [] [] [] [] [] [] []]; vm_compute; reflexivity. Qed.

Lemma skipn_shorter {A} n (l : list A) k : 0 < n -> length l <= S k -> length (skipn n l) <= k.
Proof. intros H1 H2. rewrite skipn_length. lia. Qed.

Lemma esc_fuel_ok f : forall s, esc_ok (esc_fuel f s).
Proof.
  induction f as [|f IH]; intros s; [constructor|]. destruct s as [|c t]; [constructor|]. cbn [esc_fuel].
  destruct (N.ltb_spec (bval c) 128); [apply esc_ok_app; [apply esc_ascii_ok|apply IH]|].
  destruct (decode_high c t H) as [E|(r & n & E & Hn & Hf)]; rewrite E.
  - cbn [N.eqb Nat.eqb andb]. rewrite N.eqb_refl. cbn [Nat.eqb andb]. apply eo_bs; [reflexivity|]. apply (esc_ok_app (B "fffd")); [apply plainb_ok; reflexivity|apply IH].
  - destruct (Nat.eqb_spec n 1); [lia|]. rewrite andb_false_r. apply esc_ok_app; [apply high_ok; exact Hf|apply IH].
Qed.
Lemma json_escape_ok s : esc_ok (json_escape s). Proof. apply esc_fuel_ok. Qed.

(** The end of a string is where the first bare quote is. *)
Lemma esc_delim a : esc_ok a -> forall b r r', esc_ok b -> a ++ quote :: r = b ++ quote :: r' -> a = b /\ r = r'.
Proof.
  induction 1 as [|c t H1 H2 H3 Ha IH|c t H1 Ha IH]; intros b r r' Hb E; destruct Hb as [|d u K1 K2 K3 Hb|d u K1 Hb]; cbn [app] in E.
  - injection E as <-. auto.
  - injection E as E _. congruence.
  - injection E as E _. discriminate.
  - injection E as E _. congruence.
  - injection E as <- E. destruct (IH _ _ _ Hb E) as [-> ->]. auto.
  - injection E as E _. congruence.
  - injection E as E _. discriminate.
  - injection E as E _. congruence.
  - injection E as <- E. destruct (IH _ _ _ Hb E) as [-> ->]. auto.
Qed.

(** Reading an escaped string back. *)
Definition hexval (c : byte) : N := if (bval c <? 58)%N then (bval c - 48)%N else (bval c - 87)%N.
Fixpoint unesc (t : bytes) : bytes :=
  match t with
  | [] => []
  | c :: t1 =>
      if Ascii.eqb c bslash then
        match t1 with
        | [] => []
        | d :: t2 =>
            if Ascii.eqb d "u" then
              match t2 with
              | a :: _ :: x :: y :: r => (if Ascii.eqb a "f" then [byte_of 239; byte_of 191; byte_of 189] else [byte_of (hexval x * 16 + hexval y)]) ++ unesc r
              | _ => []
              end
            else (if Ascii.eqb d "n" then byte_of 10 else if Ascii.eqb d "r" then byte_of 13 else if Ascii.eqb d "t" then byte_of 9 else d) :: unesc t2
        end
      else c :: unesc t1
  end.
Lemma unesc_ascii c t : (bval c < 128)%N -> unesc (esc_ascii c ++ t) = c :: unesc t.
Proof. intros H. destruct c as [[] [] [] [] [] [] [] []]; try reflexivity; vm_compute in H; discriminate H. Qed.
Lemma unesc_high l t : Forall high l -> unesc (l ++ t) = l ++ unesc t.
Proof.
  induction 1 as [|c l Hc _ IH]; [reflexivity|]. cbn [app unesc]. destruct (Ascii.eqb_spec c bslash) as [->|_]; [destruct (high_plain _ Hc) as (_ & _ & H); elim H; reflexivity|]. rewrite IH. reflexivity.
Qed.
Lemma unesc_esc s : utf8 s -> forall f, length s <= f -> unesc (esc_fuel f s) = s.
Proof.
  induction 1 as [|s n Hn0 Hn He Hu IH]; intros f Hf; [destruct f; reflexivity|].
  destruct s as [|c t]; [cbn in Hn; lia|]. destruct f as [|f]; [cbn in Hf; lia|]. cbn [esc_fuel].
  destruct (N.ltb_spec (bval c) 128) as [H|H].
  - assert (n = 1) as -> by (rewrite Hn; cbn [decode_rune]; cbv zeta; destruct (N.ltb_spec (bval c) 128); [reflexivity|lia]).
    rewrite unesc_ascii by exact H. cbn [skipn] in IH. rewrite IH by (cbn in Hf; lia). reflexivity.
  - destruct (decode_high c t H) as [E|(r & m & E & Hm & Hh)]; [contradiction|]. rewrite E in *. cbn [snd] in Hn. subst m.
    destruct (Nat.eqb_spec n 1); [lia|]. rewrite andb_false_r. rewrite unesc_high by exact Hh. rewrite IH by (apply skipn_shorter; [exact Hn0|exact Hf]). apply firstn_skipn.
Qed.
Lemma escape_inj a b : utf8 a -> utf8 b -> json_escape a = json_escape b -> a = b.
Proof. intros Ha Hb E. rewrite <- (unesc_esc a Ha (length a) (le_n _)), <- (unesc_esc b Hb (length b) (le_n _)). unfold json_escape in E. rewrite E. reflexivity. Qed.

Lemma quoted_delim a b r r' : quoted a ++ r = quoted b ++ r' -> json_escape a = json_escape b /\ r = r'.
Proof.
  unfold quoted. cbn [app]. intros E. injection E as E. rewrite <- !app_assoc in E. cbn [app] in E. eapply esc_delim; [apply json_escape_ok|apply json_escape_ok|exact E].
Qed.
Lemma quoted_inj a b r r' : utf8 a -> utf8 b -> quoted a ++ r = quoted b ++ r' -> a = b /\ r = r'.
Proof. intros Ha Hb E. destruct (quoted_delim _ _ _ _ E) as [E1 E2]. split; [apply escape_inj; assumption|exact E2]. Qed.

Lemma utf8_ascii s : Forall (fun c => (bval c < 128)%N) s -> utf8 s.
Proof.
  induction 1 as [|c s Hc _ IH]; [constructor|].
  assert (E : decode_rune (c :: s) = (bval c, 1)) by (cbn [decode_rune]; cbv zeta; destruct (N.ltb_spec (bval c) 128); [reflexivity|lia]).
  apply (utf8_cons _ 1); [lia|rewrite E; reflexivity| |exact IH]. rewrite E. intros X. injection X as X. rewrite X in Hc. vm_compute in Hc. discriminate.
Qed.
