(** SyncMapPf.v -- proofs of C73-C74 (SyncMap). *)
From Verif Require Import Base Node SyncMap SyncMapSpec.
Local Open Scope list_scope.

Arguments latest : simpl never. Arguments of_thread : simpl never.
Section Inv.
  Variable V : Type.
  Implicit Types s : sm V.

  Lemma latest_snoc l (ev : smev V) k : latest (l ++ [ev]) k =
    match ev with
    | EvEffect _ (OpPut k' v) _ => if beq k' k then Some v else latest l k
    | EvEffect _ (OpDel k') _ => if beq k' k then None else latest l k
    | _ => latest l k end.
  Proof. unfold latest. rewrite fold_left_app. reflexivity. Qed.
  Lemma thread_snoc i (l : list (smev V)) ev : of_thread i (l ++ [ev]) =
    of_thread i l ++ if Nat.eqb i (match ev with EvCall j _ | EvEffect j _ _ | EvReturn j _ => j end) then [ev] else [].
  Proof. unfold of_thread. rewrite filter_app. cbn [filter]. reflexivity. Qed.

  (** The shape of the events of goroutine i at each program point. *)
  Definition at_call (i : nat) (T : list (smev V)) (o : smop V) : Prop := exists l, T = l ++ [EvCall i o] /\ calls i l.
  Definition shape (i : nat) (T : list (smev V)) (c : smpc V) : Prop :=
    match c with
    | MIdle => calls i T
    | MPutLock k v | MPutReady k v | MPutting k v => at_call i T (OpPut k v)
    | MGetLock k | MGetReady k | MGetting k => at_call i T (OpGet k)
    | MDelReady k | MDelLook k | MDelLock k | MDelReady2 k | MDelLook2 k | MDelReady3 k | MDeleting k => at_call i T (OpDel k)
    | MUnlock r | MReturn r => exists l o, T = l ++ [EvCall i o; EvEffect i o r] /\ calls i l
    end.
  Record minv s : Prop := {
    mi_map : forall k, m_map s k = latest (m_trace s) k;
    mi_get : forall pre i k r post, m_trace s = pre ++ EvEffect i (OpGet k) r :: post -> r = latest pre k;
    mi_shape : forall i, shape i (of_thread i (m_trace s)) (m_pcs s i) }.

  Lemma get_snoc (l : list (smev V)) ev : (forall pre i k r post, l = pre ++ EvEffect i (OpGet k) r :: post -> r = latest pre k) ->
    (forall i k r, ev = EvEffect i (OpGet k) r -> r = latest l k) ->
    forall pre i k r post, l ++ [ev] = pre ++ EvEffect i (OpGet k) r :: post -> r = latest pre k.
  Proof.
    intros H1 H2 pre i k r post E. destruct post as [|e post] using rev_ind.
    - apply app_inj_tail in E as [-> E]. eapply H2. exact E.
    - clear IHpost. rewrite app_comm_cons, app_assoc in E. apply app_inj_tail in E as [E _]. eapply H1. exact E.
  Qed.

  Lemma shape_other s i j c ev : i <> j -> (match ev with EvCall x _ | EvEffect x _ _ | EvReturn x _ => x end) = j ->
    shape i (of_thread i (m_trace s)) (m_pcs s i) -> shape i (of_thread i (m_trace s ++ [ev])) (upd (m_pcs s) j c i).
  Proof.
    intros Hij Hev H. rewrite thread_snoc, Hev. unfold upd. destruct (Nat.eqb_spec i j); [contradiction|]. rewrite app_nil_r. exact H.
  Qed.
  Lemma shape_goto s i j c : shape i (of_thread i (m_trace s)) (m_pcs s i) -> (j = i -> shape i (of_thread i (m_trace s)) c) ->
    shape i (of_thread i (m_trace s)) (upd (m_pcs s) j c i).
  Proof. intros H1 H2. unfold upd. destruct (Nat.eqb_spec i j) as [E|E]; [apply H2; congruence|exact H1]. Qed.

  Lemma step_minv s s' : minv s -> sm_step V s s' -> minv s'.
  Proof.
    intros [Hm Hg Hs] Hst.
    assert (Hmove : forall i c (f : sm V -> sm V), (forall x, m_map (f x) = m_map x /\ m_pcs (f x) = m_pcs x /\ m_trace (f x) = m_trace x) ->
      (shape i (of_thread i (m_trace s)) (m_pcs s i) -> shape i (of_thread i (m_trace s)) c) -> minv (f (goto V s i c))).
    { intros i c f Hf Hc. destruct (Hf (goto V s i c)) as (F1 & F2 & F3). constructor.
      - intros k. rewrite F1, F3. apply Hm.
      - rewrite F3. exact Hg.
      - intros j. rewrite F2, F3. cbn. apply shape_goto; [apply Hs|]. intros <-. apply Hc, Hs. }
    assert (Hnote : forall i c ev, (match ev with EvCall x _ | EvEffect x _ _ | EvReturn x _ => x end) = i -> (forall k, latest (m_trace s ++ [ev]) k = latest (m_trace s) k) ->
      (forall j k r, ev = EvEffect j (OpGet k) r -> r = latest (m_trace s) k) ->
      (shape i (of_thread i (m_trace s)) (m_pcs s i) -> shape i (of_thread i (m_trace s) ++ [ev]) c) -> minv (note V (goto V s i c) ev)).
    { intros i c ev Ei Hl Hr Hc. constructor; cbn.
      - intros k. rewrite Hl. apply Hm.
      - apply get_snoc; assumption.
      - intros j. destruct (Nat.eq_dec j i) as [->|Nji]; [|apply shape_other; auto].
        rewrite thread_snoc, Ei, Nat.eqb_refl. unfold upd. rewrite Nat.eqb_refl. apply Hc, Hs. }
    assert (Hid : forall x : sm V, m_map x = m_map x /\ m_pcs x = m_pcs x /\ m_trace x = m_trace x) by (intros; repeat split).
    destruct Hst as [i k v E|i k v E Eo|i k v E|i k v E|i k E|i k E Eo|i k E|i k E|i k E|i k E|i k E Em|i k E Em|i k E Eo|i k E|i k E Em|i k E Em|i k E|i k E|i r E|i r E].
    - apply Hnote; [reflexivity|intros; apply latest_snoc|discriminate|]. rewrite E. cbn. intros H. eexists. split; [reflexivity|exact H].
    - apply (Hmove i _ (fun x => lock V x i)); [intros; repeat split|]. rewrite E. intros H; exact H.
    - apply (Hmove i _ (fun x => x)); [exact Hid|]. rewrite E. intros H; exact H.
    - constructor; cbn.
      + intros k'. rewrite latest_snoc. rewrite (beq_sym k k'). destruct (beq k' k); [reflexivity|apply Hm].
      + apply get_snoc; [exact Hg|discriminate].
      + intros j. destruct (Nat.eq_dec j i) as [->|Nji]; [|apply shape_other; auto].
        rewrite thread_snoc, Nat.eqb_refl. unfold upd. rewrite Nat.eqb_refl. pose proof (Hs i) as H. rewrite E in H. destruct H as (l & El & Hl).
        cbn. exists l, (OpPut k v). rewrite El, <- app_assoc. split; [reflexivity|exact Hl].
    - apply Hnote; [reflexivity|intros; apply latest_snoc|discriminate|]. rewrite E. cbn. intros H. eexists. split; [reflexivity|exact H].
    - apply (Hmove i _ (fun x => lock V x i)); [intros; repeat split|]. rewrite E. intros H; exact H.
    - apply (Hmove i _ (fun x => x)); [exact Hid|]. rewrite E. intros H; exact H.
    - apply Hnote; [reflexivity|intros; apply latest_snoc| |].
      + intros j k' r Eq. injection Eq as <- <- <-. apply Hm.
      + rewrite E. cbn. intros (l & El & Hl). exists l, (OpGet k). rewrite El, <- app_assoc. split; [reflexivity|exact Hl].
    - apply Hnote; [reflexivity|intros; apply latest_snoc|discriminate|]. rewrite E. cbn. intros H. eexists. split; [reflexivity|exact H].
    - apply (Hmove i _ (fun x => x)); [exact Hid|]. rewrite E. intros H; exact H.
    - apply Hnote; [reflexivity| |discriminate|].
      + intros k'. rewrite latest_snoc. destruct (beq k k') eqn:Eb; [|reflexivity]. apply beq_eq in Eb. subst k'. rewrite <- Hm. symmetry. exact Em.
      + rewrite E. cbn. intros (l & El & Hl). exists l, (OpDel k). rewrite El, <- app_assoc. split; [reflexivity|exact Hl].
    - apply (Hmove i _ (fun x => x)); [exact Hid|]. rewrite E. intros H; exact H.
    - apply (Hmove i _ (fun x => lock V x i)); [intros; repeat split|]. rewrite E. intros H; exact H.
    - apply (Hmove i _ (fun x => x)); [exact Hid|]. rewrite E. intros H; exact H.
    - apply Hnote; [reflexivity| |discriminate|].
      + intros k'. rewrite latest_snoc. destruct (beq k k') eqn:Eb; [|reflexivity]. apply beq_eq in Eb. subst k'. rewrite <- Hm. symmetry. exact Em.
      + rewrite E. cbn. intros (l & El & Hl). exists l, (OpDel k). rewrite El, <- app_assoc. split; [reflexivity|exact Hl].
    - apply (Hmove i _ (fun x => x)); [exact Hid|]. rewrite E. intros H; exact H.
    - apply (Hmove i _ (fun x => x)); [exact Hid|]. rewrite E. intros H; exact H.
    - constructor; cbn.
      + intros k'. rewrite latest_snoc. rewrite (beq_sym k k'). destruct (beq k' k); [reflexivity|apply Hm].
      + apply get_snoc; [exact Hg|discriminate].
      + intros j. destruct (Nat.eq_dec j i) as [->|Nji]; [|apply shape_other; auto].
        rewrite thread_snoc, Nat.eqb_refl. unfold upd. rewrite Nat.eqb_refl. pose proof (Hs i) as H. rewrite E in H. destruct H as (l & El & Hl).
        cbn. exists l, (OpDel k). rewrite El, <- app_assoc. split; [reflexivity|exact Hl].
    - apply (Hmove i _ (fun x => unlock V x)); [intros; repeat split|]. rewrite E. intros H; exact H.
    - apply Hnote; [reflexivity|intros; apply latest_snoc|discriminate|]. rewrite E. cbn. intros (l & o & El & Hl).
      rewrite El, <- app_assoc. cbn [app]. apply cl_call. exact Hl.
  Qed.

  Lemma reach_minv s : sm_reach V s -> minv s.
  Proof.
    induction 1 as [|s s' _ IH Hst]; [|eapply step_minv; eassumption]. constructor; cbn.
    - reflexivity.
    - intros pre i k r post E. destruct pre; discriminate.
    - intros i. apply cl_nil.
  Qed.
  Lemma shape_open i T c : shape i T c -> open_calls i T.
  Proof.
    destruct c; cbn; intros H; try (destruct H as (l & -> & Hl); apply oc_call; exact Hl); try (destruct H as (l & o & -> & Hl); apply oc_effect; exact Hl).
    apply oc_none. exact H.
  Qed.

  (** The lock. *)
  Definition holds (c : smpc V) : bool :=
    match c with MPutReady _ _ | MPutting _ _ | MGetReady _ | MGetting _ | MDelReady2 _ | MDelLook2 _ | MDelReady3 _ | MDeleting _ | MUnlock _ => true | _ => false end.
  Lemma reach_lock s : sm_reach V s -> forall i, holds (m_pcs s i) = true <-> m_owner s = Some i.
  Proof.
    induction 1 as [|s s' _ IH Hst]; [cbn; intros i; split; discriminate|].
    assert (Hkeep : forall i c, holds c = holds (m_pcs s i) -> forall j, holds (upd (m_pcs s) i c j) = true <-> m_owner s = Some j).
    { intros i c Hc j. unfold upd. destruct (Nat.eqb_spec j i) as [->|]; [rewrite Hc|]; apply IH. }
    assert (Htake : forall i c, holds c = true -> m_owner s = None -> forall j, holds (upd (m_pcs s) i c j) = true <-> Some i = Some j).
    { intros i c Hc Ho j. unfold upd. destruct (Nat.eqb_spec j i) as [->|Nj]; [split; auto|]. rewrite IH, Ho. split; congruence. }
    destruct Hst as [i k v E|i k v E Eo|i k v E|i k v E|i k E|i k E Eo|i k E|i k E|i k E|i k E|i k E Em|i k E Em|i k E Eo|i k E|i k E Em|i k E Em|i k E|i k E|i r E|i r E];
      cbn; try (apply Hkeep; rewrite E; reflexivity); try (apply Htake; [reflexivity|assumption]).
    intros j. unfold upd. pose proof (proj1 (IH i)) as Hi. rewrite E in Hi. specialize (Hi eq_refl).
    destruct (Nat.eqb_spec j i) as [->|Nj]; [split; discriminate|]. rewrite IH, Hi. split; congruence.
  Qed.
  Lemma calm_is_reach s : calm_reach s -> sm_reach V s.
  Proof. induction 1 as [|s s' _ IH Hst]; [apply smr_init|eapply smr_step; eassumption]. Qed.
End Inv.

(** C73: SyncMap is linearizable: in every run without data race, every call takes effect exactly once
    between its begin and its return, and every Get returns the value of the latest Put of its key
    that took effect before it, unless a Del of the key came in between. *)
Lemma C73_linearizable_pf : forall V (s : sm V), calm_reach s ->
  (forall i, open_calls i (of_thread i (m_trace s))) /\
  (forall pre i k r post, m_trace s = pre ++ EvEffect i (OpGet k) r :: post -> r = latest pre k).
Proof.
  intros V s Hr. apply calm_is_reach in Hr. pose proof (reach_minv V s Hr) as [Hm Hg Hs]. split; [|exact Hg].
  intros i. eapply shape_open. apply Hs.
Qed.

Lemma no_race_single {V} (s : sm V) x : (forall i, i <> x -> m_pcs s i = MIdle) -> forall i j, ~ race s i j.
Proof.
  intros H i j (Hij & Hw & Hr). destruct (Nat.eq_dec i x) as [->|Ni]; [|rewrite (H i Ni) in Hw; discriminate].
  rewrite (H j) in Hr by congruence. destruct Hr; discriminate.
Qed.
Lemma hone (s : sm nat) x s' : calm_reach s /\ (forall i, i <> x -> m_pcs s i = MIdle) -> sm_step nat s s' -> (exists c, m_pcs s' = upd (m_pcs s) x c) ->
  calm_reach s' /\ forall i, i <> x -> m_pcs s' i = MIdle.
Proof.
  intros [Hc Hi] Hst [c Ec]. assert (Hi' : forall i, i <> x -> m_pcs s' i = MIdle).
  { intros i Hn. rewrite Ec. unfold upd. destruct (Nat.eqb_spec i x); [contradiction|apply Hi, Hn]. }
  split; [eapply cr_step; [exact Hc|exact Hst|apply (no_race_single s' x Hi')]|exact Hi'].
Qed.
Lemma hall (s : sm nat) x y : calm_reach s /\ (forall i, i <> x -> m_pcs s i = MIdle) -> m_pcs s x = MIdle -> calm_reach s /\ forall i, i <> y -> m_pcs s i = MIdle.
Proof. intros [H H1] H2. split; [exact H|]. intros i _. destruct (Nat.eq_dec i x) as [->|N]; [exact H2|apply H1, N]. Qed.
Ltac nxt H x c := let H' := fresh "H" in epose proof (hone _ x _ H c (ex_intro _ _ eq_refl)) as H'; clear H; rename H' into H.
Ltac sw H x y := let H' := fresh "H" in pose proof (hall _ x y H eq_refl) as H'; clear H; rename H' into H.
Definition k0 : bytes := B "tx1".
(** C73: a run: Put, Get, Del, Get, and the results of the two Gets. *)
Lemma C73_example_pf : exists s : sm nat, calm_reach s /\
  m_trace s = [EvCall 1 (OpPut k0 9); EvEffect 1 (OpPut k0 9) None; EvReturn 1 None; EvCall 2 (OpGet k0); EvEffect 2 (OpGet k0) (Some 9); EvReturn 2 (Some 9);
               EvCall 1 (OpDel k0); EvEffect 1 (OpDel k0) None; EvReturn 1 None; EvCall 2 (OpGet k0); EvEffect 2 (OpGet k0) None].
Proof.
  pose (s0 := NewSyncMap nat).
  assert (H0 : calm_reach s0 /\ forall i, i <> 1 -> m_pcs s0 i = MIdle) by (split; [apply cr_init|reflexivity]).
  nxt H0 1 (sm_put nat s0 1 k0 9 eq_refl).
  match type of H0 with calm_reach ?s /\ _ => nxt H0 1 (sm_put_lock nat s 1 k0 9 eq_refl eq_refl) end.
  match type of H0 with calm_reach ?s /\ _ => nxt H0 1 (sm_put_begin nat s 1 k0 9 eq_refl) end.
  match type of H0 with calm_reach ?s /\ _ => nxt H0 1 (sm_put_end nat s 1 k0 9 eq_refl) end.
  match type of H0 with calm_reach ?s /\ _ => nxt H0 1 (sm_unlock nat s 1 None eq_refl) end.
  match type of H0 with calm_reach ?s /\ _ => nxt H0 1 (sm_return nat s 1 None eq_refl) end.
  sw H0 1 2.
  match type of H0 with calm_reach ?s /\ _ => nxt H0 2 (sm_get nat s 2 k0 eq_refl) end.
  match type of H0 with calm_reach ?s /\ _ => nxt H0 2 (sm_get_lock nat s 2 k0 eq_refl eq_refl) end.
  match type of H0 with calm_reach ?s /\ _ => nxt H0 2 (sm_get_begin nat s 2 k0 eq_refl) end.
  match type of H0 with calm_reach ?s /\ _ => nxt H0 2 (sm_get_end nat s 2 k0 eq_refl) end.
  match type of H0 with calm_reach ?s /\ _ => nxt H0 2 (sm_unlock nat s 2 (Some 9) eq_refl) end.
  match type of H0 with calm_reach ?s /\ _ => nxt H0 2 (sm_return nat s 2 (Some 9) eq_refl) end.
  sw H0 2 1.
  match type of H0 with calm_reach ?s /\ _ => nxt H0 1 (sm_del nat s 1 k0 eq_refl) end.
  match type of H0 with calm_reach ?s /\ _ => nxt H0 1 (sm_del_begin nat s 1 k0 eq_refl) end.
  match type of H0 with calm_reach ?s /\ _ => nxt H0 1 (sm_del_hit nat s 1 k0 eq_refl ltac:(cbn; discriminate)) end.
  match type of H0 with calm_reach ?s /\ _ => nxt H0 1 (sm_del_lock nat s 1 k0 eq_refl eq_refl) end.
  match type of H0 with calm_reach ?s /\ _ => nxt H0 1 (sm_del_begin2 nat s 1 k0 eq_refl) end.
  match type of H0 with calm_reach ?s /\ _ => nxt H0 1 (sm_del_hit2 nat s 1 k0 eq_refl ltac:(cbn; discriminate)) end.
  match type of H0 with calm_reach ?s /\ _ => nxt H0 1 (sm_del_begin3 nat s 1 k0 eq_refl) end.
  match type of H0 with calm_reach ?s /\ _ => nxt H0 1 (sm_del_end nat s 1 k0 eq_refl) end.
  match type of H0 with calm_reach ?s /\ _ => nxt H0 1 (sm_unlock nat s 1 None eq_refl) end.
  match type of H0 with calm_reach ?s /\ _ => nxt H0 1 (sm_return nat s 1 None eq_refl) end.
  sw H0 1 2.
  match type of H0 with calm_reach ?s /\ _ => nxt H0 2 (sm_get nat s 2 k0 eq_refl) end.
  match type of H0 with calm_reach ?s /\ _ => nxt H0 2 (sm_get_lock nat s 2 k0 eq_refl eq_refl) end.
  match type of H0 with calm_reach ?s /\ _ => nxt H0 2 (sm_get_begin nat s 2 k0 eq_refl) end.
  match type of H0 with calm_reach ?s /\ _ => nxt H0 2 (sm_get_end nat s 2 k0 eq_refl) end.
  eexists. split; [exact (proj1 H0)|reflexivity].
Qed.

(** C74: what holds: a data race always involves the first, unlocked look of a Del; Put and Get never
    race with each other, nor do the locked parts of Del. *)
Lemma C74_only_del_races_pf : forall V (s : sm V) i j, sm_reach V s -> race s i j -> exists k, m_pcs s j = MDelLook k.
Proof.
  intros V s i j Hr (Hij & Hw & Hj). pose proof (reach_lock V s Hr) as Hl.
  assert (Hi : m_owner s = Some i) by (apply Hl; destruct (m_pcs s i); try discriminate; reflexivity).
  destruct (holds V (m_pcs s j)) eqn:Eh; [apply Hl in Eh; congruence|].
  destruct (m_pcs s j) as [| | | | | | | |k| | | | | | |]; cbn in *; try discriminate; try (destruct Hj; discriminate). exists k. reflexivity.
Qed.

(** C74: false in general: a Del looks at the map while a Put writes it. *)
Lemma C74_del_race_refuted_pf : exists s : sm nat, sm_reach nat s /\ race s 1 2.
Proof.
  eexists. split.
  - eapply smr_step; [|eapply (sm_del_begin nat _ 2 k0)].
    { eapply smr_step; [|eapply (sm_del nat _ 2 k0)].
      { eapply smr_step; [|eapply (sm_put_begin nat _ 1 k0 9)].
        { eapply smr_step; [|eapply (sm_put_lock nat _ 1 k0 9)].
          { eapply smr_step; [|eapply (sm_put nat _ 1 k0 9)]. { apply smr_init. } reflexivity. }
          all: reflexivity. }
        reflexivity. }
      reflexivity. }
    reflexivity.
  - split; [discriminate|]. split; [reflexivity|left; reflexivity].
Qed.
