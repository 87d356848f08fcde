(** Utf8Pf.v -- the strings C17, C107 and C118 call text, against RFC 3629. *)
From Verif Require Import Base GoLib Bencode BencodeSpec Types SessionProofs ZapLogSpec Json JsonSpec JsonProofs Utf8Spec Utf8Proofs.
From Coq Require Import Lia.
Local Open Scope list_scope.

(** C107: the strings of whole sequences of which C107 speaks are exactly the encoded sequences of characters of RFC 3629, and such a string stands for one sequence only. *)
Lemma C107_utf8_is_text_pf : (forall s, utf8 s <-> exists l, Forall scalar l /\ s = text l) /\
  (forall l l', Forall scalar l -> Forall scalar l' -> text l = text l' -> l = l').
Proof.
  split; [|exact text_inj]. intros s. split.
  - induction 1 as [|s n Hn En Hd H (l & Hl & El)]; [exists []; split; [constructor|reflexivity]|].
    destruct s as [|c s]; [cbn in En; lia|]. destruct (decode_sound c s Hd) as (m & r & Hm & E & Ed). rewrite Ed in En. cbn [snd] in En. subst n.
    exists (m :: l). split; [constructor; assumption|]. unfold text in *. cbn [map concat]. rewrite <- El, E.
    rewrite skipn_app, skipn_all, Nat.sub_diag. reflexivity.
  - intros (l & Hl & ->). induction Hl as [|n l Hn Hl IH]; [constructor|]. unfold text in *. cbn [map concat].
    pose proof (encode_length n) as Hlen. apply (utf8_cons _ (length (encode n))); rewrite ?decode_encode by exact Hn; [lia|reflexivity|apply encode_rep; exact Hn|].
    rewrite skipn_app, skipn_all, Nat.sub_diag. exact IH.
Qed.

(** C118: the replacement of bytes of which C118 speaks is that of RFC 3629: every byte at which no character begins is replaced by U+FFFD, every character stays.
    Every string has exactly one such replacement, and it is text. *)
Lemma C118_repair_is_mending_pf : (forall s t, repaired s t <-> mended s t) /\
  (forall s, exists t, mended s t /\ forall t', mended s t' -> t' = t) /\
  (forall s t, mended s t -> exists l, Forall scalar l /\ t = text l) /\ (forall l, Forall scalar l -> mended (text l) (text l)).
Proof.
  assert (Hrep : forall s t, repaired s t <-> mended s t).
  { intros s t. split.
    - induction 1 as [|s n t Hn En Hd H IH|c s t Hb H IH]; [constructor| |].
      + destruct s as [|c s]; [cbn in En; lia|]. destruct (decode_sound c s Hd) as (m & r & Hm & E & Ed). rewrite Ed in En. cbn [snd] in En. subst n.
        rewrite E in *. rewrite skipn_app, skipn_all, Nat.sub_diag in IH. rewrite firstn_app, firstn_all, Nat.sub_diag. cbn [firstn skipn app] in *. rewrite app_nil_r.
        constructor; assumption.
      + change (utf8_of 65533) with (encode 65533). constructor; [|exact IH]. apply decode_bad. exact Hb.
    - induction 1 as [|n s t Hn H IH|c s t Hb H IH]; [constructor| |].
      + pose proof (encode_length n) as Hlen. pose proof (rp_good (encode n ++ s) (length (encode n)) t) as G.
        rewrite decode_encode in G by exact Hn. rewrite skipn_app, skipn_all, Nat.sub_diag, firstn_app, firstn_all, Nat.sub_diag in G. cbn [firstn skipn app] in G. rewrite app_nil_r in G.
        apply G; [lia|reflexivity|apply encode_rep; exact Hn|exact IH].
      + change (encode 65533) with (utf8_of 65533). constructor; [|exact IH]. apply decode_bad. exact Hb. }
  assert (Hne : forall n s, encode n ++ s <> []) by (intros n s E; apply (f_equal (@length _)) in E; rewrite app_length in E; pose proof (encode_length n); cbn in E; lia).
  split; [exact Hrep|]. split; [|split].
  - intros s. assert (Ex : exists t, mended s t).
    { remember (length s) as k eqn:Ek. assert (Hk : length s <= k) by lia. clear Ek. revert s Hk. induction k as [|k IH]; intros s Hk; [destruct s; [exists []; constructor|cbn in Hk; lia]|].
      destruct s as [|c s]; [exists []; constructor|]. destruct (decode_rune (c :: s)) as [m w] eqn:E.
      assert (D : {(m, w) = (RuneError, 1)} + {(m, w) <> (RuneError, 1)}) by (decide equality; [apply Nat.eq_dec|apply N.eq_dec]). destruct D as [D|D]; rewrite <- E in D.
      - destruct (IH s) as (t & Ht); [cbn in Hk; lia|]. exists (encode 65533 ++ t). constructor; [apply decode_bad; exact D|exact Ht].
      - destruct (decode_sound c s D) as (n & r & Hn & Es & _). rewrite Es in *. pose proof (encode_length n) as Hl. rewrite app_length in Hk. destruct (IH r) as (t & Ht); [lia|].
        exists (encode n ++ t). constructor; assumption. }
    destruct Ex as (t & Ht). exists t. split; [exact Ht|]. induction Ht as [|n s t Hn H IH|c s t Hb H IH]; intros t' Ht'.
    + remember [] as e eqn:Ee in Ht'. destruct Ht' as [|n s t Hn H|c s t Hb H]; [reflexivity|destruct (Hne _ _ Ee)|discriminate].
    + remember (encode n ++ s) as e eqn:Ee. destruct Ht' as [|m s' t' Hm H'|c s' t' Hb H']; [destruct (Hne n s); symmetry; exact Ee| |destruct (Hb n s Hn Ee)].
      pose proof (decode_encode n s Hn) as D1. rewrite <- Ee, (decode_encode m s' Hm) in D1. injection D1 as -> _. apply app_inv_head in Ee. subst s'. f_equal. apply IH. exact H'.
    + remember (c :: s) as e eqn:Ee. destruct Ht' as [|m s' t' Hm H'|c' s' t' Hb' H']; [discriminate|destruct (Hb m s' Hm eq_refl)|].
      injection Ee as -> ->. f_equal. apply IH. exact H'.
  - intros s t. induction 1 as [|n s t Hn H (l & Hl & ->)|c s t Hb H (l & Hl & ->)]; [exists []; split; [constructor|reflexivity]| |].
    + exists (n :: l). split; [constructor; assumption|reflexivity].
    + exists (65533%N :: l). split; [constructor; [right; split; reflexivity || discriminate|exact Hl]|reflexivity].
  - intros l Hl. induction Hl as [|n l Hn Hl IH]; [constructor|]. unfold text in *. cbn [map concat]. constructor; assumption.
Qed.

(** C107, C118: text appears in a JSON line as it is, character by character: only quotes, backslashes and control characters are escaped. *)
Lemma C118_text_stays_pf : forall l, Forall scalar l -> Forall (fun n => 32 <= n /\ n <> 34 /\ n <> 92 /\ n <> 60 /\ n <> 62 /\ n <> 38 /\ n <> 8232 /\ n <> 8233)%N l ->
  ZapLog.json_escape (text l) = text l.
Proof.
  intros l Hl Hc. unfold ZapLog.json_escape. remember (length (text l)) as f eqn:Ef. assert (Hf : length (text l) <= f) by lia. clear Ef. revert f Hf. induction Hl as [|n l Hn Hl IH]; intros f Hf; [destruct f; reflexivity|].
  inversion Hc as [|? ? Hn1 Hc']; subst. unfold text in *. cbn [map concat] in *. rewrite app_length in Hf. pose proof (encode_length n) as Hlen. destruct f as [|f]; [lia|].
  pose proof (decode_encode n (concat (map encode l)) Hn) as D. pose proof (encode_rep n Hn) as R.
  destruct (encode n ++ concat (map encode l)) as [|b t] eqn:Eb; [apply (f_equal (@length _)) in Eb; rewrite app_length in Eb; cbn [length] in Eb; lia|]. cbn [ZapLog.esc_fuel].
  destruct (N.ltb_spec (bval b) 128) as [Hb|Hb].
  - unfold decode_rune in D. cbv zeta in D. destruct (N.ltb_spec (bval b) 128); [|lia]. injection D as E1 E2.
    assert (Ee : encode n = [b]) by (destruct (encode n) as [|x [|y e]]; cbn in E2; try lia; cbn in Eb; injection Eb as -> _; reflexivity).
    rewrite Ee in *. cbn [app length] in *. injection Eb as <-. rewrite IH by (assumption || lia). unfold ZapLog.esc_ascii. rewrite E1.
    destruct (N.leb_spec 32 n); [|lia]. destruct (N.eqb_spec n 34); [lia|]. destruct (N.eqb_spec n 92); [lia|]. reflexivity.
  - rewrite D. destruct (((n =? RuneError)%N && (length (encode n) =? 1))%nat) eqn:E; [apply andb_true_iff in E; destruct E as [E1 E2]; apply N.eqb_eq in E1; apply Nat.eqb_eq in E2; congruence|].
    rewrite <- Eb, firstn_app, firstn_all, Nat.sub_diag, skipn_app, skipn_all, Nat.sub_diag. cbn [firstn skipn app]. rewrite app_nil_r, IH by (assumption || lia). reflexivity.
Qed.

(** C17: on text the comparison is character by character: two texts are alike if they have equally many characters and each is the other's or a variant of it.  For ASCII
    letters the variants are the two cases; for other characters it is Unicode's simple folding, an input.  Whatever the two strings (text or not), they are compared as their mended forms. *)
Lemma C17_characters_pf : forall uf,
  (forall l l', Forall scalar l -> Forall scalar l' -> (EqualFold uf (text l) (text l') = true <->
     Forall2 (fun a b => a = b \/ (65 <= N.min a b <= 90 /\ N.max a b = N.min a b + 32)%N \/ (128 <= N.max a b)%N /\ a <> b /\ uf (N.min a b) (N.max a b) = true) l l')) /\
  (forall s t s' t', mended s s' -> mended t t' -> EqualFold uf s t = EqualFold uf s' t').
Proof.
  intros uf. split.
  - intros l l' Hl Hl'. unfold EqualFold. rewrite !runes_text by assumption.
    assert (R : forall a b, rune_fold uf a b = true <-> (a = b \/ (65 <= N.min a b <= 90 /\ N.max a b = N.min a b + 32)%N \/ (128 <= N.max a b)%N /\ a <> b /\ uf (N.min a b) (N.max a b) = true)).
    { intros a b. unfold rune_fold. destruct (N.eqb_spec a b) as [E|E]; [tauto|]. cbv zeta. destruct (N.ltb_spec (N.max a b) 128) as [H|H].
      - rewrite !andb_true_iff, !N.leb_le, N.eqb_eq. split; [intros; right; left; tauto|intros [G|[G|G]]; [congruence|tauto|lia]].
      - split; [intros U; right; right; tauto|intros [G|[G|G]]; [congruence|lia|tauto]]. }
    clear Hl Hl'. revert l'. induction l as [|a l IH]; intros [|b l']; cbn [fold_list].
    + split; [constructor|reflexivity].
    + split; [discriminate|intros H; inversion H].
    + split; [discriminate|intros H; inversion H].
    + rewrite andb_true_iff, R, IH. split; [intros [H1 H2]; constructor; assumption|intros H; inversion H; auto].
  - assert (M : forall s t f f', mended s t -> length s <= f -> length t <= f' -> runes_fuel f s = runes_fuel f' t).
    { intros s t f f' H. revert f f'. induction H as [|n s t Hn H IH|c s t Hb H IH]; intros f f' Hf Hf'.
      - destruct f, f'; reflexivity.
      - rewrite app_length in Hf, Hf'. pose proof (encode_length n) as Hlen. destruct f as [|f]; [lia|]. destruct f' as [|f']; [lia|]. cbn [runes_fuel].
        assert (N1 : forall r : bytes, exists b u, encode n ++ r = b :: u) by (intros r; destruct (encode n) as [|b u]; [cbn in Hlen; lia|eexists; eexists; reflexivity]).
        destruct (N1 s) as (b & u & E1), (N1 t) as (b' & u' & E2). rewrite E1, E2, <- E1, <- E2, !decode_encode by exact Hn.
        rewrite !skipn_app, !skipn_all, !Nat.sub_diag. cbn [skipn app]. f_equal. apply IH; lia.
      - apply decode_bad in Hb. rewrite app_length in Hf'. cbn [length] in Hf. pose proof (encode_length 65533) as Hlen. destruct f as [|f]; [lia|]. destruct f' as [|f']; [lia|]. cbn [runes_fuel].
        rewrite Hb. cbn [skipn].
        assert (S5 : scalar 65533) by (right; split; reflexivity || discriminate).
        destruct (encode 65533 ++ t) as [|b u] eqn:Eb; [discriminate Eb|]. rewrite <- Eb, decode_encode by exact S5. rewrite skipn_app, skipn_all, Nat.sub_diag. cbn [skipn app].
        change RuneError with 65533%N. f_equal. apply IH; lia. }
    intros s t s' t' Hs Ht. unfold EqualFold, runes. rewrite (M s s' _ (length s') Hs), (M t t' _ (length t') Ht) by lia. reflexivity.
Qed.

(** Examples: U+00E9 and U+1F600 are characters, a surrogate is not one; a string of two bytes that begin no character becomes two U+FFFD. *)
Lemma C118_utf8_example_pf : scalar 233 /\ scalar 128512 /\ ~ scalar 55296 /\ text [233; 128512]%N = map byte_of [195; 169; 240; 159; 152; 128]%N /\
  mended (map byte_of [255; 128; 65]%N) (map byte_of [239; 191; 189; 239; 191; 189; 65]%N).
Proof.
  split; [left; reflexivity|]. split; [right; split; [discriminate|reflexivity]|]. split; [intros [H|[H _]]; [discriminate H|apply H; reflexivity]|]. split; [reflexivity|].
  apply C118_repair_is_mending_pf. apply rp_bad; [reflexivity|]. apply rp_bad; [reflexivity|]. apply (rp_good [byte_of 65] 1 []); [lia|reflexivity|intros E; discriminate E|constructor].
Qed.
