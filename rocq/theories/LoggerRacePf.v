(** LoggerRacePf.v -- proofs of C85 (GetLogger from several goroutines). *)
From Verif Require Import Base LoggerRace.
Local Open Scope list_scope.

(** Goroutines inside the lock. *)
Definition inside (p : lgpc) : bool := match p with LgRead2 _ | LgWrite _ _ | LgUnlock _ _ => true | _ => false end.

Record linv (tr : list (bytes * nat)) (s : lgst) : Prop := {
  li_lock : length (filter inside (lg_thr s)) = if lg_lock s then 1 else 0;
  li_ret : forall n id, In (n, id) tr -> lg_map s n = Some id;
  li_unl : forall n id, In (LgUnlock n id) (lg_thr s) -> lg_map s n = Some id;
  li_wr : forall n id, In (LgWrite n id) (lg_thr s) -> lg_map s n = None /\ id < lg_next s /\ forall n', lg_map s n' <> Some id;
  li_fresh : forall n id, lg_map s n = Some id -> id < lg_next s;
  li_inj : forall n n' id, lg_map s n = Some id -> lg_map s n' = Some id -> n = n' }.

Lemma mid_in (P : lgpc -> Prop) l1 k k' l2 : (forall x, In x (l1 ++ k :: l2) -> P x) -> P k' -> forall x, In x (l1 ++ k' :: l2) -> P x.
Proof.
  intros H Hk x Hx. apply in_app_iff in Hx as [Hx|[<-|Hx]]; [|exact Hk|]; apply H, in_app_iff; [auto|right; right; exact Hx].
Qed.
Lemma in_mid {A} (x : A) l1 k k' l2 : In x (l1 ++ k' :: l2) -> x = k' \/ In x (l1 ++ k :: l2).
Proof. rewrite !in_app_iff. cbn. intuition. Qed.
Lemma in_del {A} (x : A) l1 k l2 : In x (l1 ++ l2) -> In x (l1 ++ k :: l2).
Proof. rewrite !in_app_iff. cbn. intuition. Qed.
Lemma inside_mid l1 k l2 : length (filter inside (l1 ++ k :: l2)) = length (filter inside (l1 ++ l2)) + (if inside k then 1 else 0).
Proof. rewrite !filter_app, !app_length. cbn [filter]. destruct (inside k); cbn [length]; lia. Qed.
Lemma beq_true a : forall b, beq a b = true <-> a = b.
Proof.
  induction a as [|x a IH]; intros [|y b]; cbn; try (split; congruence). rewrite andb_true_iff, IH, Ascii.eqb_eq. split; [intros [-> ->]; reflexivity|].
  intros E. injection E as -> ->. auto.
Qed.
Lemma only_inside l1 k l2 x b : length (filter inside (l1 ++ k :: l2)) = (if b : bool then 1 else 0) -> inside k = true ->
  In x (l1 ++ l2) -> inside x = false.
Proof.
  intros H Hk Hin. rewrite inside_mid, Hk in H. assert (E : length (filter inside (l1 ++ l2)) = 0) by (destruct b; lia).
  destruct (inside x) eqn:Ex; [|reflexivity]. exfalso. assert (Hf : In x (filter inside (l1 ++ l2))) by (apply filter_In; auto).
  destruct (filter inside (l1 ++ l2)); [contradiction|discriminate].
Qed.

Lemma linv_step tr s r s' : linv tr s -> lg_step s r s' -> linv (match r with Some x => tr ++ [x] | None => tr end) s'.
Proof.
  intros [L1 L2 L3 L4 L5 L6] Hs.
  destruct Hs as [n|l1 n l2 id Et Em|l1 n l2 Et Em|l1 n l2 Et El|l1 n l2 id Et Em|l1 n l2 Et Em|l1 n id l2 Et|l1 n id l2 Et];
    rewrite ?Et in *; constructor; cbn [lgset lg_map lg_next lg_lock lg_thr]; try assumption.
  - rewrite filter_app. cbn. rewrite app_nil_r. exact L1.
  - intros m i Hin. apply in_app_iff in Hin as [Hin|[Hin|[]]]; [auto|discriminate].
  - intros m i Hin. apply in_app_iff in Hin as [Hin|[Hin|[]]]; [auto|discriminate].
  - rewrite inside_mid in L1. cbn in L1. lia.
  - intros m i Hin. apply in_app_iff in Hin as [Hin|[Hin|[]]]; [auto|]. apply pair_equal_spec in Hin as [<- <-]. exact Em.
  - intros m i Hin. apply L3. apply in_del. exact Hin.
  - intros m i Hin. apply L4. apply in_del. exact Hin.
  - rewrite inside_mid in *. cbn in *. exact L1.
  - intros m i Hin. apply (in_mid _ _ (LgRead1 n)) in Hin as [Hin|Hin]; [discriminate|auto].
  - intros m i Hin. apply (in_mid _ _ (LgRead1 n)) in Hin as [Hin|Hin]; [discriminate|auto].
  - rewrite inside_mid in *. rewrite El in L1. cbn in *. lia.
  - intros m i Hin. apply (in_mid _ _ (LgLock n)) in Hin as [Hin|Hin]; [discriminate|auto].
  - intros m i Hin. apply (in_mid _ _ (LgLock n)) in Hin as [Hin|Hin]; [discriminate|auto].
  - rewrite inside_mid in *. cbn in *. exact L1.
  - intros m i Hin. apply (in_mid _ _ (LgRead2 n)) in Hin as [Hin|Hin]; [injection Hin as -> ->; exact Em|auto].
  - intros m i Hin. apply (in_mid _ _ (LgRead2 n)) in Hin as [Hin|Hin]; [discriminate|auto].
  - rewrite inside_mid in *. cbn in *. exact L1.
  - intros m i Hin. apply (in_mid _ _ (LgRead2 n)) in Hin as [Hin|Hin]; [discriminate|auto].
  - intros m i Hin. apply (in_mid _ _ (LgRead2 n)) in Hin as [Hin|Hin].
    + injection Hin as -> ->. split; [exact Em|]. split; [lia|]. intros n' E. apply L5 in E. lia.
    + destruct (L4 _ _ Hin) as (H1 & H2 & H3). split; [exact H1|]. split; [lia|exact H3].
  - intros m i E. apply L5 in E. lia.
  - rewrite inside_mid in *. cbn in *. exact L1.
  - intros m i Hin. unfold mstore. destruct (beq m n) eqn:Eb; [|auto]. apply beq_true in Eb. subst m.
    destruct (L4 n id) as (H1 & _); [apply in_app_iff; right; left; reflexivity|]. rewrite (L2 _ _ Hin) in H1. discriminate.
  - intros m i Hin. apply (in_mid _ _ (LgWrite n id)) in Hin as [Hin|Hin].
    + injection Hin as -> ->. unfold mstore. destruct (beq n n) eqn:Eb; [reflexivity|]. assert (beq n n = true) by (apply beq_true; reflexivity). congruence.
    + unfold mstore. destruct (beq m n) eqn:Eb; [|auto]. apply beq_true in Eb. subst m.
      destruct (L4 n id) as (H1 & _); [apply in_app_iff; right; left; reflexivity|]. rewrite (L3 _ _ Hin) in H1. discriminate.
  - intros m i Hin. exfalso.
    assert (Hx : In (LgWrite m i) (l1 ++ l2)).
    { apply in_app_iff in Hin as [Hin|[Hin|Hin]]; [apply in_app_iff; auto|discriminate|apply in_app_iff; auto]. }
    pose proof (only_inside _ _ _ _ _ L1 eq_refl Hx) as C. discriminate C.
  - intros m i E. unfold mstore in E. destruct (beq m n); [injection E as <-; apply L4 with (n := n); apply in_app_iff; right; left; reflexivity|eauto].
  - intros m m' i E1 E2. destruct (L4 n id) as (H1 & H2 & H3); [apply in_app_iff; right; left; reflexivity|]. unfold mstore in *.
    destruct (beq m n) eqn:B1, (beq m' n) eqn:B2.
    + apply beq_true in B1. apply beq_true in B2. congruence.
    + injection E1 as <-. exfalso. exact (H3 _ E2).
    + injection E2 as <-. exfalso. exact (H3 _ E1).
    + eauto.
  - rewrite inside_mid in L1. cbn in L1. destruct (lg_lock s); lia.
  - intros m i Hin. apply in_app_iff in Hin as [Hin|[Hin|[]]]; [auto|]. apply pair_equal_spec in Hin as [<- <-]. apply L3. apply in_app_iff. right. left. reflexivity.
  - intros m i Hin. apply L3. apply in_del. exact Hin.
  - intros m i Hin. apply L4. apply in_del. exact Hin.
Qed.
Lemma linv_run tr s : lg_run tr s -> linv tr s.
Proof.
  induction 1 as [|tr s s' Hr IH Hs|tr s r s' Hr IH Hs].
  - constructor; cbn; try reflexivity; try discriminate; intros; contradiction.
  - exact (linv_step _ _ _ _ IH Hs).
  - exact (linv_step _ _ _ _ IH Hs).
Qed.

(** C85: in every schedule of any number of GetLogger calls, two calls return the same logger exactly when
    they asked for the same name - as long as the map accesses take effect atomically. *)
Lemma C85_one_logger_per_name_pf : forall tr s n1 id1 n2 id2, lg_run tr s ->
  In (n1, id1) tr -> In (n2, id2) tr -> (id1 = id2 <-> n1 = n2).
Proof.
  intros tr s n1 id1 n2 id2 Hr H1 H2. destruct (linv_run _ _ Hr) as [L1 L2 L3 L4 L5 L6].
  pose proof (L2 _ _ H1) as E1. pose proof (L2 _ _ H2) as E2. split; intros ->; [eapply L6; eassumption|congruence].
Qed.

(** C85 refuted as far as memory safety goes: the first look-up is not synchronised, so one goroutine can be
    reading the map while another one is writing it, which the Go runtime treats as a fatal error.  (This
    repository calls GetLogger only from package initialisers, where there is one goroutine.) *)
Lemma C85_map_race_refuted_pf : forall n m, exists tr s t1 t2,
  lg_run tr s /\ nth_error (lg_thr s) 0 = Some t1 /\ nth_error (lg_thr s) 1 = Some t2 /\
  (exists id, t1 = LgWrite n id) /\ t2 = LgRead1 m.
Proof.
  intros n m. exists []. eexists (lgset lg0 (fun _ => None) 1 true [LgWrite n 0; LgRead1 m]). exists (LgWrite n 0), (LgRead1 m). split.
  - eapply lgr_tau. 2: apply (lgs_new (lgset lg0 (fun _ => None) 0 true [LgRead2 n; LgRead1 m]) [] n [LgRead1 m]); reflexivity.
    eapply lgr_tau. 2: apply (lgs_lock (lgset lg0 (fun _ => None) 0 false [LgLock n; LgRead1 m]) [] n [LgRead1 m]); reflexivity.
    eapply lgr_tau. 2: apply (lgs_miss (lgset lg0 (fun _ => None) 0 false [LgRead1 n; LgRead1 m]) [] n [LgRead1 m]); reflexivity.
    eapply lgr_tau. 2: apply (lgs_call (lgset lg0 (fun _ => None) 0 false [LgRead1 n])).
    eapply lgr_tau. 2: apply (lgs_call lg0). apply lgr0.
  - split; [reflexivity|]. split; [reflexivity|]. split; [exists 0; reflexivity|reflexivity].
Qed.

(** Non-vacuity: two goroutines that both missed the cache get the same logger. *)
Lemma C85_example_pf : forall n, exists s, lg_run [(n, 0); (n, 0)] s.
Proof.
  intros n. pose proof (proj2 (beq_true n n) eq_refl) as Hb. eexists.
  change [(n, 0); (n, 0)] with (([] ++ [(n, 0)]) ++ [(n, 0)]).
  eapply lgr_ret. 2: apply (lgs_ret (lgset lg0 (mstore (fun _ => None) n 0) 1 true [LgUnlock n 0]) [] n 0 []); reflexivity.
  eapply lgr_tau. 2: apply (lgs_hit2 (lgset lg0 (mstore (fun _ => None) n 0) 1 true [LgRead2 n]) [] n [] 0); [reflexivity|cbn; unfold mstore; rewrite Hb; reflexivity].
  eapply lgr_tau. 2: apply (lgs_lock (lgset lg0 (mstore (fun _ => None) n 0) 1 false [LgLock n]) [] n []); reflexivity.
  eapply lgr_ret. 2: apply (lgs_ret (lgset lg0 (mstore (fun _ => None) n 0) 1 true [LgUnlock n 0; LgLock n]) [] n 0 [LgLock n]); reflexivity.
  eapply lgr_tau. 2: apply (lgs_write (lgset lg0 (fun _ => None) 1 true [LgWrite n 0; LgLock n]) [] n 0 [LgLock n]); reflexivity.
  eapply lgr_tau. 2: apply (lgs_new (lgset lg0 (fun _ => None) 0 true [LgRead2 n; LgLock n]) [] n [LgLock n]); reflexivity.
  eapply lgr_tau. 2: apply (lgs_lock (lgset lg0 (fun _ => None) 0 false [LgLock n; LgLock n]) [] n [LgLock n]); reflexivity.
  eapply lgr_tau. 2: apply (lgs_miss (lgset lg0 (fun _ => None) 0 false [LgLock n; LgRead1 n]) [LgLock n] n []); reflexivity.
  eapply lgr_tau. 2: apply (lgs_miss (lgset lg0 (fun _ => None) 0 false [LgRead1 n; LgRead1 n]) [] n [LgRead1 n]); reflexivity.
  eapply lgr_tau. 2: apply (lgs_call (lgset lg0 (fun _ => None) 0 false [LgRead1 n])).
  eapply lgr_tau. 2: apply (lgs_call lg0). apply lgr0.
Qed.
