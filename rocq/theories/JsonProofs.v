(** JsonProofs.v -- lemmas about the JSON texts of Json.v. *)
From Coq Require Import Sorted.
From Verif Require Import Base GoLib FileSys FileSysSpec FileSysProofs Bencode BencodeSpec BencodeProofs BencodePf Types Logger ErrorsPf ZapLog ZapLogSpec ZapLogProofs ZapLogPf Json JsonSpec.
Local Open Scope list_scope.

Ltac all_bytes c := destruct c as [[] [] [] [] [] [] [] []].

(** * Strings *)
Lemma jesc_ascii_ok c : esc_ok (jesc_ascii c).
Proof. apply esc_okb_ok. all_bytes c; vm_compute; reflexivity. Qed.
Lemma seps_ok r : (r = 8232 \/ r = 8233)%N -> esc_ok (bslash :: B "u202" ++ [hexdigit (r mod 16)]).
Proof. intros [->| ->]; apply eo_bs; try reflexivity; apply plainb_ok; reflexivity. Qed.
Lemma jesc_fuel_ok f : forall s, esc_ok (jesc_fuel f s).
Proof.
  induction f as [|f IH]; intros s; [constructor|]. destruct s as [|c t]; [constructor|]. cbn [jesc_fuel].
  destruct (N.ltb_spec (bval c) 128); [apply esc_ok_app; [apply jesc_ascii_ok|apply IH]|].
  destruct (decode_high c t H) as [E|(r & n & E & Hn & Hf)]; rewrite E.
  - rewrite N.eqb_refl. cbn [Nat.eqb andb]. apply eo_bs; [reflexivity|]. apply (esc_ok_app (B "fffd")); [apply plainb_ok; reflexivity|apply IH].
  - destruct (Nat.eqb_spec n 1); [lia|]. rewrite andb_false_r. destruct ((r =? 8232) || (r =? 8233))%N eqn:Er; [|apply esc_ok_app; [apply high_ok; exact Hf|apply IH]].
    change (esc_ok ((bslash :: B "u202" ++ [hexdigit (r mod 16)]) ++ jesc_fuel f (skipn n (c :: t)))). apply esc_ok_app; [|apply IH]. apply seps_ok. apply orb_true_iff in Er as [Er|Er]; apply N.eqb_eq in Er; auto.
Qed.

Lemma bval_byte c n : (n < 256)%N -> bval c = n -> c = byte_of n.
Proof. intros H E. apply bval_inj. rewrite bval_byte_of, N.mod_small by exact H. exact E. Qed.

(** The two separators are these three bytes. *)
Lemma decode_sep s r n : decode_rune s = (r, n) -> (r = 8232 \/ r = 8233)%N -> exists t, s = utf8_of r ++ t /\ n = 3.
Proof.
  intros E Hr. destruct s as [|c t]; [cbn in E; injection E as <- _; unfold RuneError in Hr; lia|]. cbn [decode_rune] in E. cbv zeta in E.
  assert (Bad : (RuneError, 1) = (r, n) -> False) by (intros X; injection X as <- _; unfold RuneError in Hr; lia).
  pose proof (bval_lt c) as Bc.
  destruct (N.ltb_spec (bval c) 128); [injection E as <- _; lia|]. destruct (N.ltb_spec (bval c) 194); [destruct (Bad E)|].
  destruct (N.ltb_spec (bval c) 224).
  { destruct t as [|b1 t]; [destruct (Bad E)|]. destruct (inr 128 191 b1) eqn:E1; [|destruct (Bad E)]. injection E as E _. unfold inr in E1. pose proof (N.mod_upper_bound (bval c) 32). pose proof (N.mod_upper_bound (bval b1) 64). lia. }
  destruct (N.ltb_spec (bval c) 240).
  { destruct t as [|b1 [|b2 t]]; try (destruct (Bad E)). set (lo := if (bval c =? 224)%N then 160%N else 128%N) in E. set (hi := if (bval c =? 237)%N then 159%N else 191%N) in E.
    destruct (inr lo hi b1 && inr 128 191 b2) eqn:E1; [|destruct (Bad E)]. injection E as E <-.
    assert (L : (128 <= bval b1 <= 191 /\ 128 <= bval b2 <= 191)%N).
    { unfold inr, lo, hi in E1. apply andb_true_iff in E1 as [E1 E2]. destruct (bval c =? 224)%N, (bval c =? 237)%N; lia. }
    assert (M1 : (bval c mod 16 = bval c - 224)%N) by (rewrite (N.mod_eq (bval c) 16) by lia; replace (bval c / 16)%N with 14%N by (apply (N.div_unique _ 16 14 (bval c - 224)); lia); lia).
    assert (M2 : (bval b1 mod 64 = bval b1 - 128)%N) by (rewrite (N.mod_eq (bval b1) 64) by lia; replace (bval b1 / 64)%N with 2%N by (apply (N.div_unique _ 64 2 (bval b1 - 128)); lia); lia).
    assert (M3 : (bval b2 mod 64 = bval b2 - 128)%N) by (rewrite (N.mod_eq (bval b2) 64) by lia; replace (bval b2 / 64)%N with 2%N by (apply (N.div_unique _ 64 2 (bval b2 - 128)); lia); lia).
    rewrite M1, M2, M3 in E. assert (K : (bval c = 226 /\ bval b1 = 128)%N) by lia. destruct K as [K1 K2].
    exists t. split; [|reflexivity]. apply bval_byte in K1; [|lia]. apply bval_byte in K2; [|lia]. subst c b1.
    destruct Hr as [->| ->]; [assert (K3 : bval b2 = 168%N) by (change (bval (byte_of 226)) with 226%N in E; change (bval (byte_of 128)) with 128%N in E; lia)|assert (K3 : bval b2 = 169%N) by (change (bval (byte_of 226)) with 226%N in E; change (bval (byte_of 128)) with 128%N in E; lia)];
      apply bval_byte in K3; [|lia| |lia]; subst b2; reflexivity. }
  destruct (N.ltb_spec (bval c) 245); [|destruct (Bad E)]. destruct t as [|b1 [|b2 [|b3 t]]]; try (destruct (Bad E)). set (lo := if (bval c =? 240)%N then 144%N else 128%N) in E. set (hi := if (bval c =? 244)%N then 143%N else 191%N) in E.
  destruct (inr lo hi b1 && inr 128 191 b2 && inr 128 191 b3) eqn:E1; [|destruct (Bad E)]. injection E as E _. exfalso.
  apply andb_true_iff in E1 as [E1 _]. apply andb_true_iff in E1 as [E1 _].
  assert (L : ((bval c = 240 /\ 144 <= bval b1 <= 191) \/ (241 <= bval c <= 244 /\ 128 <= bval b1 <= 191))%N).
  { unfold inr, lo, hi in E1. destruct (N.eqb_spec (bval c) 240), (N.eqb_spec (bval c) 244); lia. }
  assert (M1 : (bval c mod 8 = bval c - 240)%N) by (rewrite (N.mod_eq (bval c) 8) by lia; replace (bval c / 8)%N with 30%N by (apply (N.div_unique _ 8 30 (bval c - 240)); lia); lia).
  assert (M2 : (bval b1 mod 64 = bval b1 - 128)%N) by (rewrite (N.mod_eq (bval b1) 64) by lia; replace (bval b1 / 64)%N with 2%N by (apply (N.div_unique _ 64 2 (bval b1 - 128)); lia); lia).
  rewrite M1, M2 in E. lia.
Qed.

(** What the text of a string stands for. *)
Lemma js_high l t s : Forall high l -> jstring t s -> jstring (l ++ t) (l ++ s).
Proof.
  induction 1 as [|c l Hc _ IH]; intros H; [exact H|]. cbn [app]. apply js_plain; [unfold high in Hc; lia|unfold high in Hc; lia|unfold high in Hc; lia|apply IH, H].
Qed.
Lemma hexdigit_digit n : (n < 16)%N -> hex_digit (hexdigit n) n.
Proof.
  intros H. unfold hexdigit, hex_digit. destruct (N.ltb_spec n 10); [left|right]; (split; [lia|]); rewrite bval_byte_of, N.mod_small; lia.
Qed.
Lemma js_u00 c t s : (bval c < 128)%N -> jstring t s -> jstring (bslash :: B "u00" ++ hex_byte c ++ t) (c :: s).
Proof.
  intros Hc H. change (bslash :: B "u00" ++ hex_byte c ++ t) with (byte_of 92 :: "u"%char :: "0"%char :: "0"%char :: hexdigit (bval c / 16) :: hexdigit (bval c mod 16) :: t).
  assert (E : c :: s = utf8_of (0 * 4096 + 0 * 256 + bval c / 16 * 16 + bval c mod 16) ++ s).
  { replace (0 * 4096 + 0 * 256 + bval c / 16 * 16 + bval c mod 16)%N with (bval c) by (rewrite (N.div_mod (bval c) 16) at 1 by lia; lia).
    unfold utf8_of. destruct (N.ltb_spec (bval c) 128); [|lia]. cbn [app]. f_equal. apply bval_inj. rewrite bval_byte_of, N.mod_small; [reflexivity|lia]. }
  rewrite E. pose proof (N.div_lt_upper_bound (bval c) 16 16). pose proof (N.mod_upper_bound (bval c) 16).
  apply js_unicode; [left; split; [lia|reflexivity]|left; split; [lia|reflexivity]|apply hexdigit_digit; lia|apply hexdigit_digit; lia| |exact H].
  left. pose proof (N.div_mod (bval c) 16). lia.
Qed.
Lemma js_ascii c t s : (bval c < 128)%N -> jstring t s -> jstring (jesc_ascii c ++ t) (c :: s).
Proof.
  intros Hc H. unfold jesc_ascii. destruct ((bval c =? 34) || (bval c =? 92))%N eqn:E1.
  { apply orb_true_iff in E1 as [E1|E1]; apply N.eqb_eq in E1; apply bval_byte in E1; try lia; subst c; apply js_escape; [|exact H| |exact H]; cbn; auto. }
  apply orb_false_iff in E1 as [E1 E2]. apply N.eqb_neq in E1, E2.
  destruct (N.eqb_spec (bval c) 10) as [E|_]; [apply bval_byte in E; [|lia]; subst c; apply js_escape; [cbn; auto 10|exact H]|].
  destruct (N.eqb_spec (bval c) 13) as [E|_]; [apply bval_byte in E; [|lia]; subst c; apply js_escape; [cbn; auto 10|exact H]|].
  destruct (N.eqb_spec (bval c) 9) as [E|_]; [apply bval_byte in E; [|lia]; subst c; apply js_escape; [cbn; auto 10|exact H]|].
  destruct (_ || _)%N eqn:E3; [rewrite <- app_comm_cons, <- app_assoc; apply js_u00; assumption|].
  apply orb_false_iff in E3 as [E3 _]. apply orb_false_iff in E3 as [E3 _]. apply orb_false_iff in E3 as [E3 _]. apply N.ltb_ge in E3. apply js_plain; assumption.
Qed.
Lemma jesc_means f : forall s, length s <= f -> exists t, repaired s t /\ jstring (jesc_fuel f s) t.
Proof.
  induction f as [|f IH]; intros s Hs; [destruct s; [|cbn in Hs; lia]; exists []; split; constructor|].
  destruct s as [|c t]; [exists []; split; constructor|]. cbn [length] in Hs. cbn [jesc_fuel]. destruct (N.ltb_spec (bval c) 128) as [H|H].
  - destruct (IH t ltac:(lia)) as (u & Hu & Ju). exists (c :: u). split; [|apply js_ascii; assumption].
    assert (E : decode_rune (c :: t) = (bval c, 1)) by (cbn [decode_rune]; cbv zeta; destruct (N.ltb_spec (bval c) 128); [reflexivity|lia]).
    apply (rp_good (c :: t) 1 u); [lia|rewrite E; reflexivity|rewrite E; unfold RuneError; intros X; injection X; lia|exact Hu].
  - destruct (decode_high c t H) as [E|(r & n & E & Hn & Hf)].
    + rewrite E, N.eqb_refl. cbn [Nat.eqb andb]. destruct (IH t ltac:(lia)) as (u & Hu & Ju). exists (utf8_of 65533 ++ u). split; [apply rp_bad; assumption|].
      change (bslash :: B "ufffd" ++ jesc_fuel f t) with (byte_of 92 :: "u"%char :: "f"%char :: "f"%char :: "f"%char :: "d"%char :: jesc_fuel f t).
      apply (js_unicode _ _ _ _ 15 15 15 13); try (right; split; [lia|left; reflexivity]); [right; lia|exact Ju].
    + rewrite E. destruct (Nat.eqb_spec n 1); [lia|]. rewrite andb_false_r.
      assert (Hg : forall u, repaired (skipn n (c :: t)) u -> repaired (c :: t) (firstn n (c :: t) ++ u)).
      { intros u Hu. apply rp_good; [lia|rewrite E; reflexivity|rewrite E; intros X; injection X; lia|exact Hu]. }
      destruct (IH (skipn n (c :: t))) as (u & Hu & Ju); [rewrite skipn_length; cbn [length]; lia|]. exists (firstn n (c :: t) ++ u). split; [apply Hg, Hu|].
      destruct ((r =? 8232) || (r =? 8233))%N eqn:Er; [|apply js_high; assumption].
      assert (Hr : (r = 8232 \/ r = 8233)%N) by (apply orb_true_iff in Er as [Er|Er]; apply N.eqb_eq in Er; auto).
      destruct (decode_sep _ _ _ E Hr) as (t' & Et & ->). rewrite Et at 2. destruct Hr as [->| ->].
      * change (firstn 3 (utf8_of 8232 ++ t')) with (utf8_of (2 * 4096 + 0 * 256 + 2 * 16 + 8)).
        apply (js_unicode "2" "0" "2" "8" 2 0 2 8); try (left; split; [lia|reflexivity]); [left; lia|exact Ju].
      * change (firstn 3 (utf8_of 8233 ++ t')) with (utf8_of (2 * 4096 + 0 * 256 + 2 * 16 + 9)).
        apply (js_unicode "2" "0" "2" "9" 2 0 2 9); try (left; split; [lia|reflexivity]); [left; lia|exact Ju].
Qed.
Lemma repaired_utf8 s t : repaired s t -> utf8 s -> t = s.
Proof.
  induction 1 as [|s n t Hn En Hd _ IH|c s t Hd _ IH]; intros Hu; [reflexivity| |].
  - inversion Hu as [E|s' m Hm Em Hd' Hu' E]; subst; [cbn in Hn; lia|]. rewrite IH by assumption. apply firstn_skipn.
  - inversion Hu as [E|s' m Hm Em Hd' Hu' E]; subst. contradiction.
Qed.

(** Reading a string back. *)
Fixpoint junesc (t : bytes) : bytes :=
  match t with
  | [] => []
  | c :: t1 =>
      if Ascii.eqb c bslash then
        match t1 with
        | [] => []
        | d :: t2 =>
            if Ascii.eqb d "u" then
              match t2 with
              | a :: _ :: x :: y :: r => (if Ascii.eqb a "2" then [byte_of 226; byte_of 128; byte_of (160 + hexval y)] else [byte_of (hexval x * 16 + hexval y)]) ++ junesc r
              | _ => []
              end
            else (if Ascii.eqb d "n" then byte_of 10 else if Ascii.eqb d "r" then byte_of 13 else if Ascii.eqb d "t" then byte_of 9 else d) :: junesc t2
        end
      else c :: junesc t1
  end.
Lemma junesc_ascii c t : (bval c < 128)%N -> junesc (jesc_ascii c ++ t) = c :: junesc t.
Proof. intros H. all_bytes c; try reflexivity; vm_compute in H; discriminate H. Qed.
Lemma junesc_high l t : Forall high l -> junesc (l ++ t) = l ++ junesc t.
Proof.
  induction 1 as [|c l Hc _ IH]; [reflexivity|]. cbn [app junesc]. destruct (Ascii.eqb_spec c bslash) as [->|_]; [destruct (high_plain _ Hc) as (_ & _ & H); elim H; reflexivity|]. rewrite IH. reflexivity.
Qed.
Lemma junesc_esc s : utf8 s -> forall f, length s <= f -> junesc (jesc_fuel f s) = s.
Proof.
  induction 1 as [|s n Hn0 Hn He Hu IH]; intros f Hf; [destruct f; reflexivity|].
  destruct s as [|c t]; [cbn in Hn; lia|]. destruct f as [|f]; [cbn in Hf; lia|]. cbn [jesc_fuel].
  destruct (N.ltb_spec (bval c) 128) as [H|H].
  - assert (n = 1) as -> by (rewrite Hn; cbn [decode_rune]; cbv zeta; destruct (N.ltb_spec (bval c) 128); [reflexivity|lia]).
    rewrite junesc_ascii by exact H. cbn [skipn] in IH. rewrite IH by (cbn in Hf; lia). reflexivity.
  - destruct (decode_high c t H) as [E|(r & m & E & Hm & Hh)]; [contradiction|]. rewrite E in *. cbn [snd] in Hn. subst m.
    destruct (Nat.eqb_spec n 1); [lia|]. rewrite andb_false_r. specialize (IH f (skipn_shorter _ _ _ Hn0 Hf)).
    destruct ((r =? 8232) || (r =? 8233))%N eqn:Er; [|rewrite junesc_high by exact Hh; rewrite IH; apply firstn_skipn].
    assert (Hr : (r = 8232 \/ r = 8233)%N) by (apply orb_true_iff in Er as [Er|Er]; apply N.eqb_eq in Er; auto).
    destruct (decode_sep _ _ _ E Hr) as (t' & Et & ->). rewrite Et in IH |- *. destruct Hr as [->| ->]; cbn [junesc B list_ascii_of_string app] in *; change (skipn 3 (utf8_of 8232 ++ t')) with t' in *; change (skipn 3 (utf8_of 8233 ++ t')) with t' in *.
    + change (junesc (bslash :: "u"%char :: "2"%char :: "0"%char :: "2"%char :: hexdigit (8232 mod 16) :: jesc_fuel f t')) with ([byte_of 226; byte_of 128; byte_of 168] ++ junesc (jesc_fuel f t')). rewrite IH. reflexivity.
    + change (junesc (bslash :: "u"%char :: "2"%char :: "0"%char :: "2"%char :: hexdigit (8233 mod 16) :: jesc_fuel f t')) with ([byte_of 226; byte_of 128; byte_of 169] ++ junesc (jesc_fuel f t')). rewrite IH. reflexivity.
Qed.
Lemma jquoted_inj a b r r' : utf8 a -> utf8 b -> jquoted a ++ r = jquoted b ++ r' -> a = b /\ r = r'.
Proof.
  intros Ha Hb E. unfold jquoted in E. cbn [app] in E. injection E as E. rewrite <- !app_assoc in E. cbn [app] in E.
  apply esc_delim in E as [E1 E2]; [|apply jesc_fuel_ok|apply jesc_fuel_ok]. split; [|exact E2].
  rewrite <- (junesc_esc a Ha _ (le_n _)), <- (junesc_esc b Hb _ (le_n _)), E1. reflexivity.
Qed.

(** * Sorting by key *)
Lemma kinsert_perm {A} (x : bytes * A) l : Permutation (kinsert x l) (x :: l).
Proof. induction l as [|y l IH]; cbn [kinsert]; [reflexivity|]. destruct (name_leb (fst x) (fst y)); [reflexivity|]. rewrite IH. apply perm_swap. Qed.
Lemma ksort_perm {A} (l : list (bytes * A)) : Permutation (ksort l) l.
Proof. induction l as [|x l IH]; [reflexivity|]. change (ksort (x :: l)) with (kinsert x (ksort l)). rewrite kinsert_perm, IH. reflexivity. Qed.
Notation ksorted := (StronglySorted (fun a b => name_le (fst a) (fst b))).
Lemma kinsert_sorted {A} (x : bytes * A) l : ksorted l -> ksorted (kinsert x l).
Proof.
  induction 1 as [|y l H IH HF]; cbn [kinsert]; [constructor; constructor|]. destruct (name_leb (fst x) (fst y)) eqn:E.
  - apply name_leb_le in E. constructor; [constructor; assumption|]. constructor; [exact E|]. eapply Forall_impl; [|exact HF]. cbn beta. intros a Ha. eapply name_le_trans; eassumption.
  - apply name_leb_total, name_leb_le in E. constructor; [exact IH|]. eapply Permutation_Forall; [symmetry; apply kinsert_perm|]. constructor; assumption.
Qed.
Lemma ksort_sorted {A} (l : list (bytes * A)) : ksorted (ksort l).
Proof. induction l as [|x l IH]; [constructor|]. apply kinsert_sorted, IH. Qed.
Lemma ksort_map {A C} (g : A -> C) (l : list (bytes * A)) : ksort (map (fun e => (fst e, g (snd e))) l) = map (fun e => (fst e, g (snd e))) (ksort l).
Proof.
  assert (I : forall x (l : list (bytes * A)), kinsert (fst x, g (snd x)) (map (fun e => (fst e, g (snd e))) l) = map (fun e => (fst e, g (snd e))) (kinsert x l)).
  { intros x. induction l0 as [|y l0 IH]; [reflexivity|]. cbn [map kinsert fst]. destruct (name_leb (fst x) (fst y)); [reflexivity|]. cbn [map]. rewrite IH. reflexivity. }
  induction l as [|x l IH]; [reflexivity|]. cbn [map]. change (ksort ((fst x, g (snd x)) :: map (fun e => (fst e, g (snd e))) l)) with (kinsert (fst x, g (snd x)) (ksort (map (fun e => (fst e, g (snd e))) l))). rewrite IH. apply I.
Qed.
Lemma name_le_antisym a b : name_le a b -> name_le b a -> a = b.
Proof.
  induction 1 as [b|x y a b H|x a b H IH]; intros K.
  - inversion K. reflexivity.
  - inversion K; subst; lia.
  - inversion K; subst; [lia|]. f_equal. apply IH. assumption.
Qed.
Lemma keys_inj {A} (l : list (bytes * A)) x y : NoDup (map fst l) -> In x l -> In y l -> fst x = fst y -> x = y.
Proof.
  induction l as [|z l IH]; cbn [map]; intros Hn Hx Hy E; [destruct Hx|]. inversion Hn as [|? ? H1 H2]; subst. destruct Hx as [->|Hx], Hy as [->|Hy]; [reflexivity| | |auto].
  - elim H1. rewrite E. apply in_map, Hy.
  - elim H1. rewrite <- E. apply in_map, Hx.
Qed.
Lemma sorted_unique {A} (l : list (bytes * A)) : forall l', ksorted l -> ksorted l' -> Permutation l l' -> NoDup (map fst l) -> l = l'.
Proof.
  induction l as [|x l IH]; intros l' Hs Hs' Hp Hn; [apply Permutation_nil in Hp; congruence|]. destruct l' as [|y l']; [symmetry in Hp; apply Permutation_nil in Hp; discriminate|].
  inversion Hs as [|? ? Hs1 Hf]; inversion Hs' as [|? ? Hs1' Hf']; subst.
  assert (E : x = y).
  { assert (Hy : In y (x :: l)) by (eapply Permutation_in; [symmetry; exact Hp|left; reflexivity]). assert (Hx : In x (y :: l')) by (eapply Permutation_in; [exact Hp|left; reflexivity]).
    destruct Hy as [->|Hy]; [reflexivity|]. destruct Hx as [->|Hx]; [reflexivity|]. rewrite Forall_forall in Hf, Hf'. eapply keys_inj; [exact Hn|left; reflexivity|right; exact Hy|]. apply name_le_antisym; [apply Hf, Hy|apply Hf', Hx]. }
  subst y. f_equal. apply IH; [exact Hs1|exact Hs1'|eapply Permutation_cons_inv; exact Hp|inversion Hn; assumption].
Qed.
Lemma ksort_canonical {A} (l l' : list (bytes * A)) : Permutation l l' -> NoDup (map fst l) -> ksort l = ksort l'.
Proof.
  intros Hp Hn. apply sorted_unique; [apply ksort_sorted|apply ksort_sorted|rewrite !ksort_perm; exact Hp|].
  eapply Permutation_NoDup; [|exact Hn]. apply Permutation_map. symmetry. apply ksort_perm.
Qed.

(** * Values *)
Definition pair_text (e : bytes * val) : bytes := jentry (fst e, json (snd e)).
Lemma json_dict d : json (VDict d) = B "{" ++ jjoin (map pair_text (ksort d)) ++ B "}".
Proof. cbn [json]. rewrite ksort_map, map_map. reflexivity. Qed.
Lemma jjoin_commas l : jjoin l = commas l. Proof. reflexivity. Qed.

Lemma json_means v : plain v -> exists v', repaired_value v v' /\ jtext (json v) v'.
Proof.
  induction v as [z|s|l IH|d IH| | | |k] using val_ind'; intros Hp; try (inversion Hp; fail).
  - exists (VInt z). split; [constructor|]. apply jt_int. apply decimal_iff. reflexivity.
  - destruct (jesc_means (length s) s (le_n _)) as (t & Hr & Hj). exists (VStr t). split; [constructor; exact Hr|]. apply jt_str. exact Hj.
  - assert (H : exists l', Forall2 repaired_value l l' /\ Forall2 jtext (map json l) l').
    { inversion Hp as [| |? Hl|]; subst. clear Hp. induction IH as [|v l Hv _ IHl]; [exists []; split; constructor|]. destruct Hv as (v' & H1 & H2); [apply Hl; left; reflexivity|]. destruct IHl as (l' & H3 & H4); [intros; apply Hl; right; assumption|]. exists (v' :: l'). split; constructor; assumption. }
    destruct H as (l' & H1 & H2). exists (VList l'). split; [constructor; exact H1|]. cbn [json]. rewrite jjoin_commas. apply jt_list, H2.
  - assert (H : exists d', Forall2 (fun e e' => repaired (fst e) (fst e') /\ repaired_value (snd e) (snd e')) d d' /\ Forall2 jmember (map pair_text d) d').
    { inversion Hp as [| | |? Hl]; subst. clear Hp. induction IH as [|[k v] d Hv _ IHl]; [exists []; split; constructor|]. cbn [snd] in Hv. destruct Hv as (v' & H1 & H2); [eapply Hl; left; reflexivity|]. destruct IHl as (d' & H3 & H4); [intros; eapply Hl; right; eassumption|].
      destruct (jesc_means (length k) k (le_n _)) as (k' & Hr & Hj). exists ((k', v') :: d'). split; constructor; cbn [fst snd]; auto.
      unfold pair_text, jentry, jquoted. cbn [fst snd]. cbn [app]. rewrite <- app_assoc. apply jm; assumption. }
    destruct H as (d' & H1 & H2). exists (VDict d'). split; [constructor; exact H1|]. rewrite json_dict, jjoin_commas.
    destruct (Permutation_Forall2 (Permutation_map pair_text (Permutation_sym (ksort_perm d))) H2) as (d2 & Hp2 & H3). eapply jt_dict; eassumption.
Qed.
Lemma repaired_same v : utf8_value v -> forall v', repaired_value v v' -> v' = v.
Proof.
  induction v as [z|s|l IH|d IH| | | |k] using val_ind'; intros Hu v' H; inversion H as [|? ? Hr|? l' Hl|? d' Hl]; subst; try reflexivity; inversion Hu as [|? Hs|? Hv|? Hv]; subst.
  - f_equal. eapply repaired_utf8; eassumption.
  - f_equal. clear H Hu. induction Hl as [|x y l l' Hxy _ IHl]; [reflexivity|]. inversion IH as [|? ? Hx IH']; subst. f_equal; [apply Hx; [apply Hv; left; reflexivity|exact Hxy]|apply IHl; [exact IH'|intros; apply Hv; right; assumption]].
  - f_equal. clear H Hu. induction Hl as [|x y l l' Hxy _ IHl]; [reflexivity|]. inversion IH as [|? ? Hx IH']; subst. f_equal; [|apply IHl; [exact IH'|intros; apply Hv; right; assumption]].
    destruct x as [k v], y as [k' v']. cbn [fst snd] in *. destruct (Hv k v) as [H1 H2]; [left; reflexivity|]. destruct Hxy as [H3 H4]. f_equal; [eapply repaired_utf8; eassumption|apply Hx; assumption].
Qed.

(** No control characters. *)
Notation calmly := (Forall (fun c => control c = false)).
Lemma jquoted_noctl s : calmly (jquoted s).
Proof. unfold jquoted. constructor; [reflexivity|]. apply noctl_app; [apply esc_noctl, jesc_fuel_ok|repeat constructor]. Qed.
Lemma jjoin_noctl l : Forall (fun x => calmly x) l -> calmly (jjoin l).
Proof.
  induction 1 as [|x l Hx _ IH]; [constructor|]. cbn [jjoin]. destruct l as [|y l]; [exact Hx|]. apply noctl_app; [exact Hx|]. apply noctl_app; [apply B_noctl; reflexivity|exact IH].
Qed.
Lemma json_noctl v : calmly (json v).
Proof.
  induction v as [z|s|l IH|d IH| | | |k] using val_ind'; try (apply B_noctl; reflexivity).
  - apply itoa_noctl.
  - apply jquoted_noctl.
  - cbn [json]. apply noctl_app; [apply B_noctl; reflexivity|]. apply noctl_app; [|apply B_noctl; reflexivity]. apply jjoin_noctl. rewrite Forall_map. exact IH.
  - rewrite json_dict. apply noctl_app; [apply B_noctl; reflexivity|]. apply noctl_app; [|apply B_noctl; reflexivity]. apply jjoin_noctl. rewrite Forall_map. eapply Permutation_Forall; [symmetry; apply ksort_perm|]. eapply Forall_impl; [|exact IH].
    intros [k v] Hv. unfold pair_text, jentry. cbn [fst snd] in *. apply noctl_app; [apply jquoted_noctl|]. apply noctl_app; [apply B_noctl; reflexivity|exact Hv].
  - constructor.
Qed.

(** Values with the same text. *)
Definition stop (r : bytes) : Prop := match r with [] => True | c :: _ => ~ numch c end.
Definition closer (c : byte) : Prop := c = "]"%char \/ c = "}"%char.
Lemma closer_stop c r : closer c -> stop (c :: r).
Proof. intros [->| ->] [H|[H|[H|[H|H]]]]; discriminate. Qed.
Lemma comma_stop r : stop ("," :: r)%char.
Proof. intros [H|[H|[H|[H|H]]]]; discriminate. Qed.
Lemma itoa_head z : exists c t, itoa z = c :: t /\ numch c.
Proof. pose proof (itoa_numeric z) as H. destruct (itoa z) as [|c t] eqn:E; [unfold itoa in E; destruct (z <? 0)%Z; [discriminate E|destruct (utoa_nonempty _ E)]|]. exists c, t. split; [reflexivity|]. inversion H; assumption. Qed.
Inductive jhead : val -> byte -> Prop :=
| jh_int z c : numch c -> jhead (VInt z) c
| jh_str s : jhead (VStr s) quote
| jh_list l : jhead (VList l) "["%char
| jh_dict d : jhead (VDict d) "{"%char.
Lemma json_head v : utf8_value v -> exists c t, json v = c :: t /\ jhead v c.
Proof.
  intros H. destruct H as [z|s Hs|l Hl|d Hd].
  - destruct (itoa_head z) as (c & t & E & Hc). exists c, t. split; [exact E|constructor; exact Hc].
  - exists quote. eexists. split; [reflexivity|constructor].
  - exists "["%char. eexists. split; [reflexivity|constructor].
  - exists "{"%char. eexists. split; [reflexivity|constructor].
Qed.
Lemma jhead_not v c d : jhead v c -> closer d \/ d = ","%char -> c <> d.
Proof. intros H [[->| ->]| ->]; destruct H as [z c [H|[H|[H|[H|H]]]]| | |]; intros E; subst; discriminate. Qed.

Fixpoint jtail (c : byte) (l : list bytes) (r : bytes) : bytes := match l with [] => c :: r | x :: t => ","%char :: x ++ jtail c t r end.
Lemma jjoin_tail c x l r : jjoin (x :: l) ++ c :: r = x ++ jtail c l r.
Proof.
  revert x. induction l as [|y l IH]; intros x; [reflexivity|]. change (jjoin (x :: y :: l)) with (x ++ B "," ++ jjoin (y :: l)). rewrite <- !app_assoc, IH. reflexivity.
Qed.
Lemma jtail_stop c l r : closer c -> stop (jtail c l r).
Proof. intros H. destruct l; cbn [jtail]; [apply closer_stop, H|apply comma_stop]. Qed.
Lemma join_inj {A} (g : A -> bytes) (R : A -> A -> Prop) (ok : A -> Prop) c l : closer c ->
  (forall x, ok x -> exists b t, g x = b :: t /\ b <> c) ->
  Forall (fun x => forall x' r r', ok x -> ok x' -> stop r -> stop r' -> g x ++ r = g x' ++ r' -> R x x' /\ r = r') l -> Forall ok l ->
  forall l' r r', Forall ok l' -> jjoin (map g l) ++ c :: r = jjoin (map g l') ++ c :: r' -> Forall2 R l l' /\ r = r'.
Proof.
  intros Hc Hh HF Hok.
  assert (T : forall l, Forall (fun x => forall x' r r', ok x -> ok x' -> stop r -> stop r' -> g x ++ r = g x' ++ r' -> R x x' /\ r = r') l -> Forall ok l ->
    forall l' r r', Forall ok l' -> jtail c (map g l) r = jtail c (map g l') r' -> Forall2 R l l' /\ r = r').
  { clear l HF Hok. induction l as [|x l IH]; intros HF Hok l' r r' Hok' E; destruct l' as [|x' l']; cbn [map jtail] in E.
    - injection E as E. split; [constructor|exact E].
    - injection E as E _. destruct Hc as [->| ->]; discriminate.
    - injection E as E _. destruct Hc as [->| ->]; discriminate.
    - injection E as E. inversion HF as [|? ? P1 P2]; inversion Hok as [|? ? Q1 Q2]; inversion Hok' as [|? ? S1 S2]; subst. apply P1 in E as [Hx E]; [|assumption|assumption|apply jtail_stop, Hc|apply jtail_stop, Hc].
      destruct (IH P2 Q2 l' r r' S2 E) as [U1 U2]. split; [constructor; assumption|exact U2]. }
  intros l' r r' Hok' E. destruct l as [|x l], l' as [|x' l'].
  - injection E as E. split; [constructor|exact E].
  - exfalso. cbn [map] in E. rewrite jjoin_tail in E. inversion Hok' as [|? ? H1 _]; subst. destruct (Hh x' H1) as (b & t & Eb & Hb). rewrite Eb in E. cbn [map jjoin app] in E. injection E as E _. congruence.
  - exfalso. cbn [map] in E. rewrite jjoin_tail in E. inversion Hok as [|? ? H1 _]; subst. destruct (Hh x H1) as (b & t & Eb & Hb). rewrite Eb in E. cbn [map jjoin app] in E. injection E as E _. congruence.
  - cbn [map] in E. rewrite !jjoin_tail in E. inversion HF as [|? ? P1 P2]; inversion Hok as [|? ? Q1 Q2]; inversion Hok' as [|? ? S1 S2]; subst. apply P1 in E as [Hx E]; [|assumption|assumption|apply jtail_stop, Hc|apply jtail_stop, Hc].
    destruct (T l P2 Q2 l' r r' S2 E) as [U1 U2]. split; [constructor; assumption|exact U2].
Qed.
