(** CmdLineProofs.v -- lemmas about the command line. *)
From Verif Require Import Base CmdLine CmdLineSpec.
Local Open Scope list_scope.

(** ** pflag reads items *)
Definition app_item (p : pf) (i : item) : pf :=
  match i with
  | IConfig f => set_config p f
  | IHelp b => {| pf_config := pf_config p; pf_help := b; pf_args := pf_args p |}
  | IWord w | ILate w => add_args p [w]
  end.
Definition app_items (p : pf) (l : list item) : pf := fold_left app_item l p.

Lemma pb_true s : ParseBool s = Some true <-> bool_text true s.
Proof.
  unfold ParseBool. split.
  - match goal with |- context [if ?e then Some true else _] => destruct e eqn:E end; [|match goal with |- context [if ?e then _ else _] => destruct e end; discriminate]. intros _. constructor.
    apply existsb_exists in E as (x & Hin & Hx). apply beq_eq in Hx. subst x. exact Hin.
  - intros H. inversion H as [s' Hin|]; subst. replace (existsb _ _) with true; [reflexivity|]. symmetry. apply existsb_exists. exists s. split; [exact Hin|apply beq_eq; reflexivity].
Qed.
Lemma pb_false s : ParseBool s = Some false <-> bool_text false s.
Proof.
  unfold ParseBool. split.
  - match goal with |- context [if ?e then Some true else _] => destruct e eqn:E end; [discriminate|]. match goal with |- context [if ?e then _ else _] => destruct e eqn:E2 end; [|discriminate]. intros _. constructor.
    apply existsb_exists in E2 as (x & Hin & Hx). apply beq_eq in Hx. subst x. exact Hin.
  - intros H. inversion H as [|s' Hin]; subst. cbn [In] in Hin. repeat destruct Hin as [<-|Hin]; try reflexivity. destruct Hin.
Qed.
Lemma pb_iff s b : ParseBool s = Some b <-> bool_text b s.
Proof. destruct b; [apply pb_true|apply pb_false]. Qed.
Lemma help_val p v q : set_help p v = Some q <-> exists b, bool_text b v /\ q = app_item p (IHelp b).
Proof.
  unfold set_help. destruct (ParseBool v) as [b|] eqn:E.
  - split; [intros H; injection H as <-; exists b; split; [apply pb_iff; exact E|reflexivity]|]. intros (b' & Hb & ->). apply pb_iff in Hb. rewrite E in Hb. injection Hb as <-. reflexivity.
  - split; [discriminate|]. intros (b' & Hb & _). apply pb_iff in Hb. congruence.
Qed.
Lemma help_true p : set_help p (B "true") = Some (app_item p (IHelp true)).
Proof. reflexivity. Qed.
Lemma bool_text_ne b v : bool_text b v -> v <> [].
Proof. intros H E. subst. inversion H as [s Hin|s Hin]; cbn in Hin; repeat destruct Hin as [Hin|Hin]; try discriminate; exact Hin. Qed.

Lemma app_items_app p a b : app_items p (a ++ b) = app_items (app_items p a) b.
Proof. apply fold_left_app. Qed.

Lemma has_prefix_iff p : forall s, has_prefix p s = true <-> exists t, s = p ++ t.
Proof.
  induction p as [|c p IH]; intros s; cbn [has_prefix app]; [split; [intros _; exists s; reflexivity|reflexivity]|].
  destruct s as [|d s]; [split; [discriminate|intros (t & Ht); discriminate]|]. rewrite andb_true_iff, Ascii.eqb_eq, IH. split.
  - intros (-> & t & ->). exists t. reflexivity.
  - intros (t & E). injection E as -> ->. split; [reflexivity|exists t; reflexivity].
Qed.

Lemma short_sound s k : letters s k -> forall f p, length s <= f -> parseShortArg f p s = Some (app_items p k).
Proof.
  induction 1 as [|b v Hb|t|s l Hs IH]; intros f p Hf.
  - destruct f as [|f]; [cbn in Hf; lia|]. cbn. destruct f; reflexivity.
  - destruct f as [|f]; [cbn in Hf; lia|]. destruct v as [|v0 v]; [elim (bool_text_ne _ _ Hb); reflexivity|]. cbn -[set_help].
    apply help_val. exists b. split; [exact Hb|reflexivity].
  - destruct f as [|f]; [cbn in Hf; lia|]. reflexivity.
  - destruct f as [|f]; [cbn in Hf; lia|]. assert (Hs0 : match s with c2 :: _ :: _ => Ascii.eqb c2 "=" = false | _ => True end) by (destruct Hs as [|b0 v0 Hb0|t0|s0 l0 Hs0]; cbn; try exact I; try reflexivity; try (destruct v0; [exact I|reflexivity]); destruct s0; [exact I|reflexivity]).
    assert (Hlen : length s <= f) by (cbn in Hf; lia). specialize (IH f (app_item p (IHelp true)) Hlen).
    change (app_items p (IHelp true :: l)) with (app_items (app_item p (IHelp true)) l). rewrite <- IH.
    destruct s as [|c2 [|c3 s]]; cbn -[set_help]; try rewrite help_true; try reflexivity. cbn beta iota in Hs0. rewrite Hs0. reflexivity.
Qed.
Lemma short_complete f : forall s p q, length s <= f -> s <> [] -> parseShortArg f p s = Some q -> exists k, letters s k /\ q = app_items p k.
Proof.
  induction f as [|f IH]; intros s p q Hf Hne E; [destruct s; [congruence|cbn in Hf; lia]|]. destruct s as [|c t]; [congruence|]. cbn [parseShortArg] in E.
  destruct (has_prefix (B "test.") (c :: t)) eqn:Ht.
  { injection E as <-. apply has_prefix_iff in Ht as (u & Hu). rewrite Hu. exists []. split; [constructor|reflexivity]. }
  destruct (Ascii.eqb_spec c "h") as [->|_]; [|discriminate].
  assert (Hgo : forall t, length t <= f -> match set_help p (B "true") with Some q0 => parseShortArg f q0 t | None => None end = Some q -> exists k, letters ("h"%char :: t) k /\ q = app_items p k).
  { intros t0 Hl0 E0. rewrite help_true in E0. destruct t0 as [|c0 t0].
    - exists [IHelp true]. split; [constructor|]. destruct f; injection E0 as <-; reflexivity.
    - apply IH in E0 as (k & Hk & ->); [|exact Hl0|discriminate]. exists (IHelp true :: k). split; [exact (le_more _ _ Hk)|reflexivity]. }
  cbn [length] in Hf. destruct t as [|c2 [|c3 t]]; [apply Hgo; [cbn; lia|exact E]|apply Hgo; [lia|exact E]|].
  destruct (Ascii.eqb_spec c2 "=") as [->|_]; [|apply Hgo; [lia|exact E]]. apply help_val in E as (b & Hb & ->). exists [IHelp b]. split; [exact (le_value b _ Hb)|reflexivity].
Qed.

Lemma split_eq_none s : existsb (fun c => Ascii.eqb c "=") s = false -> split_eq s = (s, None).
Proof. induction s as [|c s IH]; cbn [existsb split_eq]; [reflexivity|]. destruct (Ascii.eqb c "="); [discriminate|]. cbn [orb]. intros H. rewrite IH by exact H. reflexivity. Qed.
Lemma split_eq_some a v : existsb (fun c => Ascii.eqb c "=") a = false -> split_eq (a ++ "="%char :: v) = (a, Some v).
Proof. induction a as [|c s IH]; cbn [existsb split_eq app]; [reflexivity|]. destruct (Ascii.eqb c "="); [discriminate|]. cbn [orb]. intros H. rewrite IH by exact H. reflexivity. Qed.
Lemma split_eq_inv s : forall a v, split_eq s = (a, v) -> s = a ++ match v with Some w => "="%char :: w | None => [] end.
Proof.
  induction s as [|c s IH]; cbn [split_eq]; intros a v E; [injection E as <- <-; reflexivity|].
  destruct (Ascii.eqb_spec c "=") as [->|_]; [injection E as <- <-; reflexivity|]. destruct (split_eq s) as [a' v'] eqn:E2. injection E as <- <-. cbn [app]. f_equal. apply IH. reflexivity.
Qed.

Lemma word_cases w : word w -> w = [] \/ w = B "-" \/ exists c t, w = c :: t /\ Ascii.eqb c "-" = false.
Proof.
  intros [->|H]; [right; left; reflexivity|]. destruct w as [|c t]; [left; reflexivity|]. right. right. exists c, t. split; [reflexivity|].
  destruct (Ascii.eqb_spec c "-") as [->|_]; [elim (H t); reflexivity|reflexivity].
Qed.
Lemma parse_word f p w rest : word w -> parseArgs (S f) p (w :: rest) = parseArgs f (add_args p [w]) rest.
Proof.
  intros Hw. destruct (word_cases w Hw) as [->|[->|(c & t & -> & Hc)]]; [reflexivity|reflexivity|]. cbn [parseArgs]. destruct t as [|c2 t]; [reflexivity|]. rewrite Hc. reflexivity.
Qed.
Lemma app_late p t : app_items p (map ILate t) = add_args p t.
Proof.
  revert p. induction t as [|w t IH]; intros p; [destruct p; cbn; unfold add_args; cbn; rewrite app_nil_r; reflexivity|].
  change (app_items p (map ILate (w :: t))) with (app_items (add_args p [w]) (map ILate t)). rewrite IH. unfold add_args. cbn. rewrite <- app_assoc. reflexivity.
Qed.

Lemma letters_head s k : letters s k -> exists c t, s = c :: t /\ Ascii.eqb c "-" = false.
Proof. intros H. destruct H as [|b v Hb|t|s l Hs]; eexists; eexists; (split; [reflexivity|reflexivity]). Qed.

Lemma reads_parse args l : reads args l -> forall f p, length args <= f -> parseArgs f p args = Some (app_items p l).
Proof.
  induction 1 as [|v t l H IH|v t l H IH|t l H IH|b v t l Hb H IH|s k t l Hs H IH|w t l Hw H IH|t]; intros f p Hf.
  - destruct f; reflexivity.
  - destruct f as [|f]; [cbn in Hf; lia|]. cbn in Hf. change (parseArgs (S f) p (B "--config" :: v :: t)) with (parseArgs f (set_config p v) t). apply IH. lia.
  - destruct f as [|f]; [cbn in Hf; lia|]. cbn in Hf. change (parseArgs (S f) p ((B "--config=" ++ v) :: t)) with (parseArgs f (set_config p v) t). apply IH. lia.
  - destruct f as [|f]; [cbn in Hf; lia|]. cbn in Hf. change (parseArgs (S f) p (B "--help" :: t)) with (parseArgs f (app_item p (IHelp true)) t). apply IH. lia.
  - destruct f as [|f]; [cbn in Hf; lia|]. cbn in Hf.
    change (parseArgs (S f) p ((B "--help=" ++ v) :: t)) with (match option_map (fun q => (q, t)) (set_help p v) with Some (q, r) => parseArgs f q r | None => None end).
    rewrite (proj2 (help_val p v (app_item p (IHelp b)))) by (exists b; auto). cbn [option_map]. apply IH. lia.
  - destruct f as [|f]; [cbn in Hf; lia|]. cbn [length] in Hf. destruct (letters_head _ _ Hs) as (c & u & Es & Hc). rewrite Es in *. rewrite app_items_app.
    change (parseArgs (S f) p ((B "-" ++ c :: u) :: t)) with (if Ascii.eqb c "-" then match u with [] => Some (add_args p t) | _ => match parseLongArg p u t with Some (q, r) => parseArgs f q r | None => None end end else match parseShortArg (length (B "-" ++ c :: u)) p (c :: u) with Some q => parseArgs f q t | None => None end).
    rewrite Hc. rewrite (short_sound _ _ Hs) by (cbn; lia). apply IH. lia.
  - destruct f as [|f]; [cbn in Hf; lia|]. cbn [length] in Hf. rewrite parse_word by exact Hw. rewrite IH by lia. reflexivity.
  - destruct f as [|f]; [cbn in Hf; lia|]. rewrite app_late. reflexivity.
Qed.

Lemma parse_reads f : forall args p q, length args <= f -> parseArgs f p args = Some q -> exists l, reads args l.
Proof.
  induction f as [|f IH]; intros args p q Hf E; [destruct args; [exists []; constructor|cbn in Hf; lia]|]. destruct args as [|s rest]; [exists []; constructor|]. cbn [length] in Hf.
  assert (Hw : word s -> exists l, reads (s :: rest) l).
  { intros Hs. rewrite parse_word in E by exact Hs. apply IH in E as (l & Hl); [|lia]. exists (IWord s :: l). constructor; assumption. }
  destruct s as [|c1 s]; [apply Hw; right; intros t; discriminate|]. destruct (Ascii.eqb_spec c1 "-") as [->|Hc]; [|apply Hw; right; intros t Et; congruence].
  destruct s as [|c2 t]; [apply Hw; left; reflexivity|]. cbn [parseArgs] in E. change (Ascii.eqb "-" "-") with true in E. cbn [negb] in E.
  destruct (Ascii.eqb_spec c2 "-") as [->|Hc2].
  - destruct t as [|c3 t]; [exists (map ILate rest); exact (re_late rest)|]. destruct (parseLongArg p (c3 :: t) rest) as [[q' r]|] eqn:El; [|discriminate].
    unfold parseLongArg in El. destruct (Ascii.eqb c3 "-" || Ascii.eqb c3 "=")%bool; [discriminate|]. destruct (split_eq (c3 :: t)) as [n v] eqn:Es. apply split_eq_inv in Es. rewrite Es.
    destruct (beq n (B "config")) eqn:En.
    + apply beq_eq in En. subst n. destruct v as [w|].
      * injection El as <- <-. apply IH in E as (l & Hl); [|lia]. exists (IConfig w :: l). exact (re_config_eq w rest l Hl).
      * destruct rest as [|w r']; [discriminate|]. injection El as <- <-. cbn [length] in Hf. apply IH in E as (l & Hl); [|lia]. exists (IConfig w :: l). exact (re_config w r' l Hl).
    + destruct (beq n (B "help")) eqn:En2; [|discriminate]. apply beq_eq in En2. subst n. destruct v as [w|].
      * destruct (set_help p w) as [q2|] eqn:Eh; [|discriminate]. injection El as <- <-. apply help_val in Eh as (b & Hb & ->). apply IH in E as (l & Hl); [|lia].
        exists (IHelp b :: l). exact (re_help_eq b w rest l Hb Hl).
      * rewrite help_true in El. injection El as <- <-. apply IH in E as (l & Hl); [|lia]. exists (IHelp true :: l). exact (re_help rest l Hl).
  - destruct (parseShortArg _ p (c2 :: t)) as [q'|] eqn:Es; [|discriminate]. apply short_complete in Es as (k & Hk & ->); [|cbn; lia|discriminate].
    apply IH in E as (l & Hl); [|lia]. exists (k ++ l). exact (re_letters _ _ _ _ Hk Hl).
Qed.

(** ** What the items amount to *)
Lemma last_snoc_d {A} (l : list A) d x : last (l ++ [x]) d = x.
Proof. induction l as [|y l IH]; [reflexivity|]. cbn [app]. destruct (l ++ [x]) eqn:E; [destruct l; discriminate|]. cbn [last]. cbn [last] in IH. exact IH. Qed.
Lemma app_config l : forall p, pf_config (app_items p l) = last (flat_map (fun i => match i with IConfig f => [f] | _ => [] end) l) (pf_config p).
Proof.
  induction l as [|i l IH] using rev_ind; intros p; [reflexivity|]. rewrite app_items_app, flat_map_app. cbn [app_items fold_left flat_map app].
  destruct i; cbn [app_item flat_map app]; rewrite ?app_nil_r; try (rewrite last_snoc_d; reflexivity); cbn [set_config add_args pf_config]; apply IH.
Qed.
Lemma app_help l : forall p, pf_help (app_items p l) = last (flat_map (fun i => match i with IHelp f => [f] | _ => [] end) l) (pf_help p).
Proof.
  induction l as [|i l IH] using rev_ind; intros p; [reflexivity|]. rewrite app_items_app, flat_map_app. cbn [app_items fold_left flat_map app].
  destruct i; cbn [app_item flat_map app]; rewrite ?app_nil_r; try (rewrite last_snoc_d; reflexivity); cbn [set_config add_args pf_help]; apply IH.
Qed.
Lemma app_words l : forall p, pf_args (app_items p l) = pf_args p ++ words_of l.
Proof.
  induction l as [|i l IH]; intros p; [cbn; rewrite app_nil_r; reflexivity|]. change (app_items p (i :: l)) with (app_items (app_item p i) l). rewrite IH.
  destruct i; cbn [app_item set_config add_args pf_args words_of flat_map app]; try reflexivity; rewrite <- app_assoc; reflexivity.
Qed.
Lemma execute_reads c args l : reads args l -> execute c args = if help_of l then CliHelp else CliRun c (file_of l) (words_of l).
Proof.
  intros H. unfold execute. rewrite (reads_parse _ _ H) by lia. rewrite app_help, app_config, app_words. reflexivity.
Qed.
Lemma execute_bad c args : (forall l, ~ reads args l) -> execute c args = CliError.
Proof.
  intros H. unfold execute. destruct (parseArgs _ _ args) as [q|] eqn:E; [|reflexivity]. apply parse_reads in E as (l & Hl); [|lia]. elim (H l Hl).
Qed.

(** ** The command word is taken out *)
Definition is_word (w : bytes) (i : item) : Prop := i = IWord w \/ i = ILate w.
Definition pending (a : list bytes) : Prop := exists a', a = a' ++ [B "--config"].
Lemma not_pending_tl x a : ~ pending (x :: a) -> ~ pending a.
Proof. intros H (a' & E). apply H. exists (x :: a'). rewrite E. reflexivity. Qed.

(** Taking a word out of a command line that can be read leaves one that can be read, unless the word was the name of a file. *)
Lemma take_out w b : forall n a l, length a <= n -> ~ pending a -> word w -> reads (a ++ w :: b) l ->
  exists l1 i l2, l = l1 ++ i :: l2 /\ is_word w i /\ reads (a ++ b) (l1 ++ l2) /\ incl (words_of l1) a.
Proof.
  induction n as [|n IH]; intros a l Hn Hp Hw H.
  { destruct a; [|cbn in Hn; lia]. cbn [app] in *.
    inversion H as [|v t l0 H0|v t l0 H0|t l0 H0|b0 v t l0 Hb H0|s k t l0 Hs H0|w0 t l0 Hw0 H0|t]; subst; try (exfalso; destruct Hw as [Hw|Hw]; [discriminate|]; eapply Hw; reflexivity).
    - exfalso. destruct (letters_head _ _ Hs) as (c & u & -> & Hc). destruct Hw as [Hw|Hw]; [discriminate|]. eapply Hw. reflexivity.
    - exists [], (IWord w), l0. split; [reflexivity|]. split; [left; reflexivity|]. split; [exact H0|intros x []]. }
  destruct a as [|s a]; [apply (IH [] l); [cbn; lia|exact Hp|exact Hw|exact H]|]. cbn [length] in Hn. cbn [app] in *. pose proof (not_pending_tl _ _ Hp) as Hp1.
  inversion H as [|v t l0 H0 E1|v t l0 H0 E1|t l0 H0 E1|b0 v t l0 Hb H0 E1|s0 k t l0 Hs H0 E1|w0 t l0 Hw0 H0 E1|t E1]; subst.
  - destruct a as [|v' a].
    + exfalso. apply Hp. exists []. reflexivity.
    + cbn [app] in *. match goal with Hq : _ :: _ = _ :: _ ++ _ |- _ => injection Hq as -> -> end. apply IH in H0 as (l1 & i & l2 & -> & Hi & Hr & Hin); [|cbn in Hn; lia|exact (not_pending_tl _ _ Hp1)|exact Hw].
      exists (IConfig v' :: l1), i, l2. split; [reflexivity|]. split; [exact Hi|]. split; [exact (re_config v' _ _ Hr)|]. intros x Hx. right. right. apply Hin. exact Hx.
  - apply IH in H0 as (l1 & i & l2 & -> & Hi & Hr & Hin); [|lia|exact Hp1|exact Hw].
    exists (IConfig v :: l1), i, l2. split; [reflexivity|]. split; [exact Hi|]. split; [exact (re_config_eq v _ _ Hr)|]. intros x Hx. right. apply Hin. exact Hx.
  - apply IH in H0 as (l1 & i & l2 & -> & Hi & Hr & Hin); [|lia|exact Hp1|exact Hw].
    exists (IHelp true :: l1), i, l2. split; [reflexivity|]. split; [exact Hi|]. split; [exact (re_help _ _ Hr)|]. intros x Hx. right. apply Hin. exact Hx.
  - apply IH in H0 as (l1 & i & l2 & -> & Hi & Hr & Hin); [|lia|exact Hp1|exact Hw].
    exists (IHelp b0 :: l1), i, l2. split; [reflexivity|]. split; [exact Hi|]. split; [exact (re_help_eq b0 v _ _ Hb Hr)|]. intros x Hx. right. apply Hin. exact Hx.
  - apply IH in H0 as (l1 & i & l2 & -> & Hi & Hr & Hin); [|lia|exact Hp1|exact Hw].
    exists (k ++ l1), i, l2. split; [rewrite <- app_assoc; reflexivity|]. split; [exact Hi|]. split; [rewrite <- app_assoc; exact (re_letters _ _ _ _ Hs Hr)|]. intros x Hx. right. apply Hin.
    unfold words_of in Hx. rewrite flat_map_app in Hx. apply in_app_or in Hx as [Hx|Hx]; [|exact Hx]. exfalso. clear -Hs Hx. induction Hs; cbn in Hx; try (destruct Hx; fail). apply IHHs. exact Hx.
  - apply IH in H0 as (l1 & i & l2 & -> & Hi & Hr & Hin); [|lia|exact Hp1|exact Hw].
    exists (IWord s :: l1), i, l2. split; [reflexivity|]. split; [exact Hi|]. split; [exact (re_word s _ _ Hw0 Hr)|]. intros x [<-|Hx]; [left; reflexivity|]. right. apply Hin. exact Hx.
  - exists (map ILate a), (ILate w), (map ILate b). rewrite map_app. split; [reflexivity|]. split; [right; reflexivity|]. split; [rewrite <- map_app; exact (re_late (a ++ b))|].
    intros x Hx. right. clear -Hx. induction a; cbn in *; [destruct Hx|]. destruct Hx as [<-|Hx]; auto.
Qed.
(** And the other way round. *)
Lemma put_in w b : forall n a l, length a <= n -> ~ pending a -> word w -> reads (a ++ b) l ->
  exists l1 i l2, l = l1 ++ l2 /\ is_word w i /\ reads (a ++ w :: b) (l1 ++ i :: l2).
Proof.
  induction n as [|n IH]; intros a l Hn Hp Hw H.
  { destruct a; [|cbn in Hn; lia]. cbn [app] in *. exists [], (IWord w), l. split; [reflexivity|]. split; [left; reflexivity|]. exact (re_word w b l Hw H). }
  destruct a as [|s a]; [apply (IH [] l); [cbn; lia|exact Hp|exact Hw|exact H]|]. cbn [length] in Hn. cbn [app] in *. pose proof (not_pending_tl _ _ Hp) as Hp1.
  inversion H as [|v t l0 H0 E1|v t l0 H0 E1|t l0 H0 E1|b0 v t l0 Hb H0 E1|s0 k t l0 Hs H0 E1|w0 t l0 Hw0 H0 E1|t E1]; subst.
  - destruct a as [|v' a].
    + exfalso. apply Hp. exists []. reflexivity.
    + cbn [app] in *. match goal with Hq : _ :: _ = _ :: _ ++ _ |- _ => injection Hq as -> -> end. apply IH in H0 as (l1 & i & l2 & -> & Hi & Hr); [|cbn in Hn; lia|exact (not_pending_tl _ _ Hp1)|exact Hw].
      exists (IConfig v' :: l1), i, l2. split; [reflexivity|]. split; [exact Hi|exact (re_config v' _ _ Hr)].
  - apply IH in H0 as (l1 & i & l2 & -> & Hi & Hr); [|lia|exact Hp1|exact Hw]. exists (IConfig v :: l1), i, l2. split; [reflexivity|]. split; [exact Hi|exact (re_config_eq v _ _ Hr)].
  - apply IH in H0 as (l1 & i & l2 & -> & Hi & Hr); [|lia|exact Hp1|exact Hw]. exists (IHelp true :: l1), i, l2. split; [reflexivity|]. split; [exact Hi|exact (re_help _ _ Hr)].
  - apply IH in H0 as (l1 & i & l2 & -> & Hi & Hr); [|lia|exact Hp1|exact Hw]. exists (IHelp b0 :: l1), i, l2. split; [reflexivity|]. split; [exact Hi|exact (re_help_eq b0 v _ _ Hb Hr)].
  - apply IH in H0 as (l1 & i & l2 & -> & Hi & Hr); [|lia|exact Hp1|exact Hw]. exists (k ++ l1), i, l2. split; [rewrite <- app_assoc; reflexivity|]. split; [exact Hi|]. rewrite <- app_assoc. exact (re_letters _ _ _ _ Hs Hr).
  - apply IH in H0 as (l1 & i & l2 & -> & Hi & Hr); [|lia|exact Hp1|exact Hw]. exists (IWord s :: l1), i, l2. split; [reflexivity|]. split; [exact Hi|exact (re_word s _ _ Hw0 Hr)].
  - exists (map ILate a), (ILate w), (map ILate b). rewrite map_app. split; [reflexivity|]. split; [right; reflexivity|].
    change (ILate w :: map ILate b) with (map ILate (w :: b)). rewrite <- map_app. exact (re_late (a ++ w :: b)).
Qed.
