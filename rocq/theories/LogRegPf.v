(** LogRegPf.v -- proofs of C126 (logger factories). *)
From Verif Require Import Base Logger LoggerPf LogReg LogRegSpec.
Local Open Scope list_scope.

(** ** Lemmas *)
Lemma factory_app f h1 h2 : factory_after f (h1 ++ h2) = factory_after (factory_after f h1) h2.
Proof. revert f. induction h1 as [|[c e] h1 IH]; intros f; [reflexivity|]. destruct c; cbn [app factory_after]; apply IH. Qed.
Lemma level_app v h1 h2 : level_in_force v (h1 ++ h2) = level_in_force (level_in_force v h1) h2.
Proof. revert v. induction h1 as [|[c e] h1 IH]; intros v; [reflexivity|]. destruct c; cbn [app level_in_force]; apply IH. Qed.
Lemma events_app h1 h2 : events (h1 ++ h2) = events h1 ++ events h2.
Proof. unfold events. apply flat_map_app. Qed.
Lemma was_got_app h c evs name l : was_got (h ++ [(c, evs)]) name l <->
  was_got h name l \/ exists names, c = CGetLogger names /\ In (LrGot names l) evs /\ name_asked h names = name.
Proof.
  split.
  - intros (h1 & names & ev & h2 & E & Hin & Hn). destruct (rev h2) as [|x t] eqn:Er.
    + assert (h2 = []) by (rewrite <- (rev_involutive h2), Er; reflexivity). subst h2. apply app_inj_tail in E as [<- E]. injection E as -> ->. right. eauto.
    + assert (E2 : h2 = rev t ++ [x]) by (rewrite <- (rev_involutive h2), Er; reflexivity). subst h2. left.
      change (h1 ++ (CGetLogger names, ev) :: rev t ++ [x]) with (h1 ++ ((CGetLogger names, ev) :: rev t) ++ [x]) in E. rewrite app_assoc in E. apply app_inj_tail in E as [-> _]. exists h1, names, ev, (rev t). auto.
  - intros [(h1 & names & ev & h2 & -> & Hin & Hn)|(names & -> & Hin & Hn)].
    + exists h1, names, ev, (h2 ++ [(c, evs)]). rewrite <- app_assoc. auto.
    + exists h, names, evs, []. auto.
Qed.

Record reg_inv (h : history) (r : logreg) : Prop := {
  ri_factory : lr_factory r = factory_after console_factory h;
  ri_level : lr_level r = level_in_force INFO h;
  ri_cache : forall name l, reg_get (lr_cache r) name = Some l <-> was_got h name l;
  ri_in : forall name l, In (name, l) (lr_cache r) -> reg_get (lr_cache r) name = Some l /\ ml_call l < lr_calls r;
  ri_nodup : NoDup (map ml_call (map snd (lr_cache r)));
  ri_made : forall l, In (LrMade l) (events h) <-> In l (map snd (lr_cache r)) }.

Lemma reg_inv_run h r : reg_run h r -> reg_inv h r.
Proof.
  induction 1 as [|h r c evs r' Hr IH Hs].
  { constructor; try reflexivity; cbn; try tauto; [|constructor]. intros name l. split; [discriminate|]. intros (h1 & ? & ? & h2 & E & _). destruct h1; discriminate. }
  destruct IH as [I1 I2 I3 I4 I5 I6]. destruct Hs as [r names r' l evs Hm|r lv|r f lv|r order Ho].
  - assert (Hk : (match names with [] => lf_default (lr_factory r) | n :: _ => n end) = name_asked h names) by (unfold name_asked; rewrite <- I1; reflexivity).
    rewrite Hk in Hm. unfold reg_map in Hm. destruct (reg_get (lr_cache r) (name_asked h names)) as [v|] eqn:Eg.
    + injection Hm as <- <- <-. constructor; try assumption.
      * rewrite factory_app. exact I1.
      * rewrite level_app. exact I2.
      * intros name l. rewrite I3, was_got_app. split; [auto|]. intros [H|(ns & Ec & [Hin|[]] & Hn)]; [exact H|]. injection Ec as <-. injection Hin as <-. subst name. apply I3. exact Eg.
      * intros l. rewrite events_app. unfold events at 2. cbn [flat_map snd app]. rewrite in_app_iff. cbn [In]. rewrite I6. split; [intros [H|[H|H]]; [exact H|discriminate H|destruct H]|auto].
    + injection Hm as <- <- <-. set (nl := {| ml_call := _; ml_factory := _; ml_name := _; ml_level := _ |}). constructor; cbn [lr_factory lr_level lr_cache lr_calls].
      * rewrite factory_app. exact I1.
      * rewrite level_app. exact I2.
      * intros name l. rewrite was_got_app. cbn [reg_get]. destruct (beq (name_asked h names) name) eqn:Eb.
        -- apply beq_true in Eb. subst name. split.
           ++ intros E. injection E as <-. right. exists names. split; [reflexivity|]. split; [right; left; reflexivity|reflexivity].
           ++ intros [H|(ns & Ec & Hin & Hn)]; [apply I3 in H; congruence|]. injection Ec as <-. destruct Hin as [Hin|[Hin|[]]]; [discriminate|]. injection Hin as <-. reflexivity.
        -- rewrite I3. split; [auto|]. intros [H|(ns & Ec & Hin & Hn)]; [exact H|]. injection Ec as <-. subst name. rewrite (proj2 (beq_true _ _) eq_refl) in Eb. discriminate.
      * intros name l [E|Hin].
        -- injection E as <- <-. cbn [reg_get]. rewrite (proj2 (beq_true _ _) eq_refl). split; [reflexivity|]. unfold nl. cbn [ml_call]. lia.
        -- apply I4 in Hin as [Hg Hl]. split; [|lia]. cbn [reg_get]. destruct (beq (name_asked h names) name) eqn:Eb; [apply beq_true in Eb; congruence|exact Hg].
      * cbn [map snd]. constructor; [|exact I5]. intros Hin. apply in_map_iff in Hin as (l & El & Hin). apply in_map_iff in Hin as ([n l'] & E' & Hin). cbn [snd] in E'. subst l'.
        apply I4 in Hin as [_ Hl]. rewrite El in Hl. unfold nl in Hl. cbn [ml_call] in Hl. lia.
      * intros l. rewrite events_app. unfold events at 2. cbn [flat_map snd app]. rewrite in_app_iff. cbn [In map snd]. rewrite I6. split.
        -- intros [H|[H|[H|[]]]]; [auto|injection H as ->; auto|discriminate].
        -- intros [->|H]; auto.
  - constructor; cbn [lr_factory lr_level lr_cache lr_calls]; try assumption.
    + rewrite factory_app. exact I1.
    + rewrite level_app. reflexivity.
    + intros name l. rewrite I3, was_got_app. split; [auto|]. intros [H|(ns & Ec & _)]; [exact H|discriminate].
    + intros l. rewrite events_app. unfold events at 2. cbn [flat_map snd app]. rewrite app_nil_r. apply I6.
  - constructor; cbn [lr_factory lr_level lr_cache lr_calls]; try assumption.
    + rewrite factory_app. reflexivity.
    + rewrite level_app. reflexivity.
    + intros name l. rewrite I3, was_got_app. split; [auto|]. intros [H|(ns & Ec & _)]; [exact H|discriminate].
    + intros l. rewrite events_app. unfold events at 2. cbn [flat_map snd app]. rewrite app_nil_r. apply I6.
  - constructor; try assumption.
    + rewrite factory_app. exact I1.
    + rewrite level_app. exact I2.
    + intros name l. rewrite I3, was_got_app. split; [auto|]. intros [H|(ns & Ec & _)]; [exact H|discriminate].
    + intros l. rewrite events_app, in_app_iff. unfold events at 2. cbn [flat_map snd]. rewrite app_nil_r, I6. split; [|auto]. intros [H|H]; [exact H|].
      apply in_map_iff in H as (? & E & _). discriminate.
Qed.
Lemma reg_prefix h1 x r : reg_run (h1 ++ [x]) r -> exists r1, reg_run h1 r1 /\ reg_step r1 (fst x) (snd x) r.
Proof.
  intros H. inversion H as [E|h r1 c evs r' H1 H2 E]; [destruct h1; discriminate|]. apply app_inj_tail in E as [-> <-]. eauto.
Qed.
Lemma reg_prefix_of h1 h2 r : reg_run (h1 ++ h2) r -> exists r1, reg_run h1 r1.
Proof.
  revert r. induction h2 as [|x h2 IH] using rev_ind; intros r H; [rewrite app_nil_r in H; eauto|]. rewrite app_assoc in H. apply reg_prefix in H as (r1 & H & _). eauto.
Qed.

(** ** C126 *)

(** C126: GetLogger returns one logger.  If the name was asked for before, it is the logger returned then, and no factory
    is called; otherwise it is a new one, for which the factory in force was called once, with that name and the level in
    force. *)
Lemma C126_get_logger_pf : forall h names evs r, reg_run (h ++ [(CGetLogger names, evs)]) r ->
  exists l, ((was_got h (name_asked h names) l /\ evs = [LrGot names l]) \/
             ((forall l', ~ was_got h (name_asked h names) l') /\ evs = [LrMade l; LrGot names l] /\ ~ In (LrMade l) (events h) /\
              ml_factory l = factory_after console_factory h /\ ml_name l = name_asked h names /\ ml_level l = level_in_force INFO h)).
Proof.
  intros h names evs r H. apply reg_prefix in H as (r1 & Hr & Hs). cbn [fst snd] in Hs. destruct (reg_inv_run _ _ Hr) as [I1 I2 I3 I4 I5 I6].
  inversion Hs as [r0 ns r' l evs0 Hm Er Ec Ee Er'| | |]; subst r0 ns r' evs.
  assert (Hk : (match names with [] => lf_default (lr_factory r1) | n :: _ => n end) = name_asked h names) by (unfold name_asked; rewrite <- I1; reflexivity).
  rewrite Hk in Hm. unfold reg_map in Hm. exists l. destruct (reg_get (lr_cache r1) (name_asked h names)) as [v|] eqn:Eg.
  - injection Hm as <- <- <-. left. split; [apply I3; exact Eg|reflexivity].
  - right. injection Hm as _ <- <-. split; [intros l' Hl'; apply I3 in Hl'; congruence|]. split; [reflexivity|]. split; [|cbn [ml_factory ml_name ml_level]; auto].
    intros Hin. apply I6 in Hin. apply in_map_iff in Hin as ([n l'] & E & Hin). cbn [snd] in E. subst l'. apply I4 in Hin as [_ Hl]. cbn [ml_call] in Hl. lia.
Qed.

(** C126: so a name has one logger for the life of the process, whatever happens to levels and factories, and two names
    never share a logger. *)
Lemma C126_one_per_name_pf : forall h r n1 l1 n2 l2, reg_run h r -> was_got h n1 l1 -> was_got h n2 l2 -> (n1 = n2 <-> l1 = l2) /\ In (LrMade l1) (events h).
Proof.
  intros h r n1 l1 n2 l2 Hr H1 H2. pose proof (reg_inv_run _ _ Hr) as [I1 I2 I3 I4 I5 I6]. apply I3 in H1. apply I3 in H2.
  assert (Hin : forall m k (v : mlogger), reg_get m k = Some v -> In (k, v) m).
  { induction m as [|[k0 v0] m IH]; intros k v E; [discriminate|]. cbn [reg_get] in E. destruct (beq k0 k) eqn:Eb; [apply beq_true in Eb; injection E as ->; subst; left; reflexivity|right; auto]. }
  split; [split|].
  - intros ->. congruence.
  - intros ->. assert (Hn : NoDup (map snd (lr_cache r))) by (eapply NoDup_map_inv; exact I5). apply Hin in H1. apply Hin in H2. clear -H1 H2 Hn.
    induction (lr_cache r) as [|[k v] m IH]; [destruct H1|]. cbn [map snd] in Hn. inversion Hn as [|? ? Hv Hm]; subst.
    destruct H1 as [E1|H1], H2 as [E2|H2].
    + congruence.
    + injection E1 as <- <-. elim Hv. apply in_map_iff. exists (n2, v). auto.
    + injection E2 as <- <-. elim Hv. apply in_map_iff. exists (n1, v). auto.
    + auto.
  - apply I6. apply in_map_iff. exists (n1, l1). split; [reflexivity|apply Hin; exact H1].
Qed.

(** C126: Close flushes every logger handed out so far, by whichever factory it was made, once, and nothing else; it
    changes nothing. *)
Lemma C126_close_flushes_all_pf : forall h order evs r, reg_run (h ++ [(CClose order, evs)]) r ->
  (forall l, In (LrFlushed l) evs <-> exists name, was_got h name l) /\ NoDup evs /\ (forall e, In e evs -> exists l, e = LrFlushed l) /\
  (forall name l, was_got (h ++ [(CClose order, evs)]) name l <-> was_got h name l).
Proof.
  intros h order evs r H. apply reg_prefix in H as (r1 & Hr & Hs). cbn [fst snd] in Hs. destruct (reg_inv_run _ _ Hr) as [I1 I2 I3 I4 I5 I6].
  inversion Hs as [| | |r0 o Ho]; subst r0 o evs r. split; [|split; [|split]].
  - intros l. rewrite in_map_iff. split.
    + intros (l' & E & Hin). injection E as ->. apply (Permutation_in _ Ho) in Hin. apply in_map_iff in Hin as ([n l'] & E & Hin). cbn [snd] in E. subst l'. exists n. apply I3, I4. exact Hin.
    + intros (name & Hg). exists l. split; [reflexivity|]. apply (Permutation_in _ (Permutation_sym Ho)). apply I3 in Hg. clear -Hg.
      induction (lr_cache r1) as [|[k v] m IH]; [discriminate|]. cbn [reg_get] in Hg. cbn [map snd]. destruct (beq k name); [injection Hg as ->; left; reflexivity|right; auto].
  - apply FinFun.Injective_map_NoDup; [intros a b E; injection E; auto|]. eapply Permutation_NoDup; [apply Permutation_sym; exact Ho|]. eapply NoDup_map_inv; exact I5.
  - intros e Hin. apply in_map_iff in Hin as (l & <- & _). eauto.
  - intros name l. rewrite was_got_app. split; [|auto]. intros [Hg|(ns & E & _)]; [exact Hg|discriminate].
Qed.

(** C126 refuted, "InitLogger makes the program log through the new factory": once a name was asked for - the package
    variables of this program ask for the default name before main runs - its logger stays the console logger, whatever
    factory with that default name, and whatever level, is installed later. *)
Lemma C126_init_logger_refuted_pf : forall f lv, lf_default f = [] -> exists h r l, reg_run h r /\
  map fst h = [CGetLogger []; CInitLogger f lv; CGetLogger []] /\ In (LrGot [] l) (snd (last h (CSetLevel 0, []))) /\ ml_factory l = console_factory /\ ml_level l = INFO.
Proof.
  intros f lv Hf. set (l := {| ml_call := 0; ml_factory := console_factory; ml_name := []; ml_level := INFO |}).
  exists [(CGetLogger [], [LrMade l; LrGot [] l]); (CInitLogger f lv, []); (CGetLogger [], [LrGot [] l])]. eexists. exists l. split.
  - change [(CGetLogger [], [LrMade l; LrGot [] l]); (CInitLogger f lv, []); (CGetLogger [], [LrGot [] l])] with ((([] ++ [(CGetLogger [], [LrMade l] ++ [LrGot [] l])]) ++ [(CInitLogger f lv, [])]) ++ [(CGetLogger [], [] ++ [LrGot [] l])]).
    eapply rr_step; [eapply rr_step; [eapply rr_step; [apply rr_start|]|]|].
    + apply rs_get. reflexivity.
    + apply rs_init.
    + apply rs_get. cbn [lr_factory]. rewrite Hf. reflexivity.
  - split; [reflexivity|]. split; [left; reflexivity|]. split; reflexivity.
Qed.

(** C126: a factory with a default name of its own does take over GetLogger(), and Close flushes both loggers. *)
Lemma C126_example_pf : exists r a b, let f := {| lf_id := 1; lf_default := B "app" |} in
  reg_run [(CGetLogger [], [LrMade a; LrGot [] a]); (CInitLogger f DEBUG, []); (CGetLogger [], [LrMade b; LrGot [] b]); (CSetLevel ERROR, []); (CGetLogger [B "app"], [LrGot [B "app"] b]); (CClose [a; b], [LrFlushed a; LrFlushed b])] r /\
  ml_factory a = console_factory /\ ml_level a = INFO /\ ml_factory b = f /\ ml_level b = DEBUG /\ ml_name b = B "app".
Proof.
  set (a := {| ml_call := 0; ml_factory := console_factory; ml_name := []; ml_level := INFO |}).
  set (f := {| lf_id := 1; lf_default := B "app" |}). set (b := {| ml_call := 1; ml_factory := f; ml_name := B "app"; ml_level := DEBUG |}).
  eexists. exists a, b. split; [|repeat split].
  change [(CGetLogger [], [LrMade a; LrGot [] a]); (CInitLogger f DEBUG, []); (CGetLogger [], [LrMade b; LrGot [] b]); (CSetLevel ERROR, []); (CGetLogger [B "app"], [LrGot [B "app"] b]); (CClose [a; b], [LrFlushed a; LrFlushed b])]
    with ((((([(CGetLogger [], [LrMade a] ++ [LrGot [] a])]) ++ [(CInitLogger f DEBUG, [])]) ++ [(CGetLogger [], [LrMade b] ++ [LrGot [] b])]) ++ [(CSetLevel ERROR, [])]) ++ [(CGetLogger [B "app"], [] ++ [LrGot [B "app"] b])] ++ [(CClose [a; b], map LrFlushed [a; b])]).
  rewrite app_assoc. change [(CGetLogger [], [LrMade a] ++ [LrGot [] a])] with ([] ++ [(CGetLogger [], [LrMade a] ++ [LrGot [] a])]).
  eapply rr_step; [eapply rr_step; [eapply rr_step; [eapply rr_step; [eapply rr_step; [eapply rr_step; [apply rr_start|]|]|]|]|]|].
  - apply rs_get. reflexivity.
  - apply rs_init.
  - apply rs_get. reflexivity.
  - apply rs_level.
  - apply rs_get. reflexivity.
  - apply rs_close. cbn [lr_cache map snd]. apply perm_swap.
Qed.
