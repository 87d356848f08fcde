(** LogFilesProofs.v -- lemmas for C130. *)
From Verif Require Import Base LogFiles LogFilesSpec.
From Coq Require Import Lia ZifyBool ZifyN ZifyNat Permutation Sorting.Sorted.
Local Open Scope list_scope.

Lemma stretches_snoc tr e : stretches (tr ++ [e]) = stretch (stretches tr) e.
Proof. unfold stretches. rewrite fold_left_app. reflexivity. Qed.
Lemma closed_snoc tr e : closed (tr ++ [e]) = match e with LRotate t => closed tr ++ [(t, open_lines tr)] | _ => closed tr end.
Proof. unfold closed, open_lines. rewrite stretches_snoc. destruct e; reflexivity. Qed.
Lemma open_snoc tr e : open_lines (tr ++ [e]) = match e with LRotate _ => [] | LWrite p => open_lines tr ++ [p] | _ => open_lines tr end.
Proof. unfold open_lines. rewrite stretches_snoc. destruct e; reflexivity. Qed.
Lemma lines_snoc tr e : lines (tr ++ [e]) = lines tr ++ match e with LWrite p => [p] | _ => [] end.
Proof. unfold lines. rewrite flat_map_app. simpl. rewrite app_nil_r. reflexivity. Qed.
Lemma lines_stretches tr : lines tr = concat (map snd (closed tr)) ++ open_lines tr.
Proof.
  induction tr as [|e tr IH] using rev_ind; [reflexivity|]. rewrite lines_snoc, closed_snoc, open_snoc, IH.
  destruct e; rewrite ?app_nil_r, ?app_assoc; try reflexivity. rewrite map_app, concat_app. simpl. rewrite app_nil_r. reflexivity.
Qed.
Lemma closed_app tr2 : forall tr1 x, In x (closed tr1) -> In x (closed (tr1 ++ tr2)).
Proof.
  induction tr2 as [|e r IH] using rev_ind; intros tr1 x H; [rewrite app_nil_r; exact H|].
  rewrite app_assoc, closed_snoc. pose proof (IH _ _ H). destruct e; try assumption. apply in_app_iff; left; assumption.
Qed.

Lemma steady_prefix tr1 tr2 : steady (tr1 ++ tr2) -> steady tr1.
Proof. intros H a t b ->. apply (H a t (b ++ tr2)). rewrite <- app_assoc. reflexivity. Qed.

Definition asc : list (N * list bytes) -> Prop := StronglySorted (fun x y => (fst x < fst y)%N).
Lemma ss_snoc {A} (R : A -> A -> Prop) l x : StronglySorted R l -> (forall y, In y l -> R y x) -> StronglySorted R (l ++ [x]).
Proof.
  induction 1 as [|y l Hs IH Hy]; intros H; simpl; [repeat constructor|]. constructor; [apply IH; intros z Hz; apply H; right; exact Hz|].
  apply Forall_app. split; [exact Hy|]. constructor; [apply H; left; reflexivity|constructor].
Qed.
Lemma steady_asc tr : steady tr -> asc (closed tr).
Proof.
  induction tr as [|e tr IH] using rev_ind; intros H; [constructor|]. rewrite closed_snoc. pose proof (IH (steady_prefix _ _ H)) as Hp.
  destruct e; try exact Hp. apply ss_snoc; [exact Hp|]. intros y Hy. simpl. exact (H tr now [] eq_refl y Hy).
Qed.
Lemma asc_inj l : asc l -> forall x y, In x l -> In y l -> fst x = fst y -> x = y.
Proof.
  induction 1 as [|z l Hs IH Hz]; intros x y Hx Hy E; [contradiction|]. rewrite Forall_forall in Hz.
  destruct Hx as [->|Hx], Hy as [->|Hy]; [reflexivity| | |apply IH; assumption]; [specialize (Hz _ Hy)|specialize (Hz _ Hx)]; lia.
Qed.
Lemma asc_nodup l : asc l -> NoDup (map fst l).
Proof.
  induction 1 as [|z l Hs IH Hz]; simpl; constructor; [|exact IH]. rewrite Forall_forall in Hz.
  intros H. apply in_map_iff in H. destruct H as (y & E & Hy). specialize (Hz _ Hy). lia.
Qed.

(** ** The directory *)
Lemma in_del x t l : In x (del t l) <-> In x l /\ fst x <> t.
Proof. unfold del. rewrite filter_In, negb_true_iff, N.eqb_neq. reflexivity. Qed.
Lemma del_notin t l : ~ In t (map fst l) -> del t l = l.
Proof.
  induction l as [|x l IH]; intros H; [reflexivity|]. unfold del in *. simpl in *. destruct (N.eqb_spec (fst x) t); [exfalso; apply H; left; assumption|].
  simpl. f_equal. apply IH. intros Hc. apply H. right. exact Hc.
Qed.
Lemma del_nodup t l : NoDup (map fst l) -> NoDup (map fst (del t l)).
Proof.
  induction l as [|x l IH]; intros H; [constructor|]. simpl in H. inversion H; subst. unfold del in *. simpl. destruct (negb (fst x =? t)%N); simpl; [|auto].
  constructor; [|auto]. intros Hc. apply in_map_iff in Hc. destruct Hc as (y & E & Hy). apply filter_In in Hy. apply H2. rewrite <- E. apply in_map. tauto.
Qed.
Lemma store_nodup t c l : NoDup (map fst l) -> NoDup (map fst (store_old t c l)).
Proof.
  intros H. unfold store_old. rewrite map_app. simpl.
  assert (Hn : ~ In t (map fst (del t l))). { intros Hc. apply in_map_iff in Hc. destruct Hc as (y & E & Hy). apply in_del in Hy. tauto. }
  pose proof (del_nodup t l H) as Hd. revert Hn Hd. generalize (map fst (del t l)). induction l0 as [|a r IH]; intros Hn Hd; simpl; [repeat constructor; intros []|].
  inversion Hd; subst. constructor; [|apply IH; [intros Hc; apply Hn; right; exact Hc|assumption]].
  intros Hc. apply in_app_iff in Hc. destruct Hc as [Hc|[<-|[]]]; [contradiction|apply Hn; left; reflexivity].
Qed.

Lemma ins_perm x l : Permutation (ins x l) (x :: l).
Proof.
  induction l as [|y r IH]; simpl; [apply Permutation_refl|]. destruct (fst x <? fst y)%N; [|apply Permutation_refl].
  eapply perm_trans; [apply perm_skip, IH|apply perm_swap].
Qed.
Lemma nf_perm l : Permutation (newest_first l) l.
Proof. induction l as [|x r IH]; simpl; [constructor|]. eapply perm_trans; [apply ins_perm|apply perm_skip, IH]. Qed.
Definition desc : list (N * bytes) -> Prop := StronglySorted (fun x y => (fst y < fst x)%N).
Lemma ins_desc x l : desc l -> ~ In (fst x) (map fst l) -> desc (ins x l).
Proof.
  induction 1 as [|y l Hs IH Hy]; intros Hn; simpl; [repeat constructor|]. simpl in Hn.
  destruct (N.ltb_spec (fst x) (fst y)).
  - constructor; [apply IH; tauto|]. rewrite Forall_forall in *. intros z Hz. apply (Permutation_in _ (ins_perm x l)) in Hz. destruct Hz as [<-|Hz]; [exact H|apply Hy, Hz].
  - assert (fst y < fst x)%N by (assert (fst y <> fst x) by tauto; lia). constructor; [constructor; assumption|]. constructor; [assumption|].
    rewrite Forall_forall in *. intros z Hz. specialize (Hy _ Hz). lia.
Qed.
Lemma nf_desc l : NoDup (map fst l) -> desc (newest_first l).
Proof.
  induction l as [|x r IH]; intros H; simpl in *; [constructor|]. inversion H; subst. apply ins_desc; [auto|].
  intros Hc. apply H2. apply in_map_iff in Hc. destruct Hc as (y & E & Hy). rewrite <- E. apply in_map. exact (Permutation_in _ (nf_perm r) Hy).
Qed.

Lemma desc_split b l x : desc l -> In x (skipn b l) -> Forall (fun y => (fst x < fst y)%N) (firstn b l) /\ length (firstn b l) = b.
Proof.
  revert l. induction b as [|b IH]; intros l Hd Hx; simpl; [split; [constructor|reflexivity]|].
  destruct l as [|y l]; [rewrite skipn_nil in Hx; contradiction|]. simpl in *. inversion Hd; subst. destruct (IH l H1 Hx) as [IHa IHb].
  rewrite Forall_forall in H2. split; [|simpl; congruence]. constructor; [|exact IHa].
  apply (H2 x). rewrite <- (firstn_skipn b l). apply in_app_iff. right. exact Hx.
Qed.

Lemma nodup_firstn {A} n (l : list A) : NoDup l -> NoDup (firstn n l).
Proof. revert n. induction l as [|x l IH]; intros [|n] H; simpl; try constructor; inversion H; subst; [|auto]. intros Hc. apply H2. rewrite <- (firstn_skipn n l). apply in_app_iff. left. exact Hc. Qed.
Lemma to_remove_due g now old (cl : list (N * list bytes)) t : NoDup (map fst old) -> (forall x, In x old -> In (fst x) (map fst cl)) -> In t (to_remove g now old) ->
  (0 < lj_backups g /\ lj_backups g <= length (filter (fun x => t <? fst x)%N cl)) \/ ((0 < lj_age g)%N /\ (t + lj_age g < now)%N).
Proof.
  intros Hn Hin Ht. unfold to_remove in Ht. apply in_app_iff in Ht. destruct Ht as [Ht|Ht].
  - left. destruct ((0 <? lj_backups g) && (lj_backups g <? length (newest_first old))) eqn:E; [|contradiction]. apply andb_true_iff in E. destruct E as [E1 E2].
    split; [apply Nat.ltb_lt; exact E1|]. apply in_map_iff in Ht. destruct Ht as (x & <- & Hx). destruct (desc_split _ _ _ (nf_desc _ Hn) Hx) as [Ha Hb].
    rewrite <- Hb at 1. rewrite <- (map_length fst (firstn _ _)), <- (map_length fst (filter _ _)). apply NoDup_incl_length.
    + rewrite <- firstn_map. apply nodup_firstn. eapply Permutation_NoDup; [apply Permutation_map, Permutation_sym, nf_perm|exact Hn].
    + intros z Hz. apply in_map_iff in Hz. destruct Hz as (y & <- & Hy). rewrite Forall_forall in Ha. pose proof (Ha _ Hy) as Hlt.
      assert (Hy' : In y old). { eapply Permutation_in; [apply nf_perm|]. rewrite <- (firstn_skipn (lj_backups g)). apply in_app_iff. left. exact Hy. }
      specialize (Hin _ Hy'). apply in_map_iff in Hin. destruct Hin as (w & Ew & Hw). rewrite <- Ew. apply in_map. apply filter_In. split; [exact Hw|].
      rewrite Ew. apply N.ltb_lt. exact Hlt.
  - right. destruct (0 <? lj_age g)%N eqn:E; [|contradiction]. split; [apply N.ltb_lt; exact E|]. apply in_map_iff in Ht. destruct Ht as (x & <- & Hx). apply filter_In in Hx.
    apply N.ltb_lt. tauto.
Qed.

Definition left_over (rm : option (list N)) (old : list (N * bytes)) : list (N * bytes) :=
  match rm with None => old | Some l => filter (fun x => negb (existsb (N.eqb (fst x)) l)) old end.
Lemma filter_nodup_le {A} (f : A -> bool) l k : NoDup l -> NoDup k -> (forall x, In x l -> f x = true -> In x k) -> length (filter f l) <= length k.
Proof. intros Hl Hk H. apply NoDup_incl_length; [apply NoDup_filter, Hl|]. intros x Hx. apply filter_In in Hx. apply H; tauto. Qed.
Lemma filter_le {A} (f : A -> bool) l : length (filter f l) <= length l.
Proof. induction l as [|a r IH]; simpl; [lia|]. destruct (f a); simpl; lia. Qed.
Lemma nodup_of_map {A B} (f : A -> B) l : NoDup (map f l) -> NoDup l.
Proof. apply NoDup_map_inv. Qed.
Lemma to_remove_count g now old : NoDup (map fst old) -> 0 < lj_backups g -> length (left_over (Some (to_remove g now old)) old) <= lj_backups g.
Proof.
  intros Hn Hb. simpl. unfold to_remove. destruct ((0 <? lj_backups g) && (lj_backups g <? length (newest_first old))) eqn:E.
  - etransitivity; [|apply (firstn_le_length (lj_backups g) (newest_first old))].
    assert (Hnf : NoDup (newest_first old)) by (eapply Permutation_NoDup; [apply Permutation_sym, nf_perm|apply (NoDup_map_inv _ _ Hn)]).
    apply filter_nodup_le; [apply (NoDup_map_inv _ _ Hn)|apply nodup_firstn; exact Hnf|].
    intros x Hx Hf. apply negb_true_iff in Hf. apply (Permutation_in _ (Permutation_sym (nf_perm old))) in Hx. rewrite <- (firstn_skipn (lj_backups g)) in Hx.
    apply in_app_iff in Hx. destruct Hx as [Hx|Hx]; [exact Hx|exfalso]. assert (Ht : existsb (N.eqb (fst x)) (map fst (skipn (lj_backups g) (newest_first old)) ++
      (if (0 <? lj_age g)%N then map fst (filter (fun x0 : N * bytes => (fst x0 + lj_age g <? now)%N) (firstn (lj_backups g) (newest_first old))) else [])) = true).
    { apply existsb_exists. exists (fst x). split; [|apply N.eqb_refl]. apply in_app_iff. left. apply in_map. exact Hx. }
    congruence.
  - assert (length old <= lj_backups g). { apply andb_false_iff in E. destruct E as [E|E]; [lia|]. apply Nat.ltb_ge in E. rewrite (Permutation_length (nf_perm old)) in E. exact E. }
    etransitivity; [apply filter_le|exact H].
Qed.

(** ** The invariant *)
Record jinv (g : ljcfg) (tr : list ljev) (s : ljst) : Prop := {
  v_cur : text (j_cur s) = concat (open_lines tr);
  v_open : forall n, j_open s = Some n -> exists c, j_cur s = Some c /\ n = blen c;
  v_old : forall x, In x (j_old s) -> In x (map as_file (closed tr));
  v_nodup : NoDup (map fst (j_old s));
  v_gone : steady tr -> forall x, In x (closed tr) -> In (as_file x) (j_old s) \/ In (LRemove (fst x)) tr;
  v_due : forall l t, j_rm s = Some l -> In t l -> due g tr t;
  v_rem : forall tr1 t tr2, tr = tr1 ++ LRemove t :: tr2 -> due g tr1 t;
  v_size : (blen (text (j_cur s)) <= lj_max g)%N /\ forall x, In x (closed tr) -> (blen (concat (snd x)) <= lj_max g)%N;
  v_pc : match j_pc s with
         | PcIdle => True
         | PcOpening p => (blen p <= lj_max g)%N /\ j_open s = None
         | PcReady p => (blen p <= lj_max g)%N /\ j_open s <> None
         | PcRotate p => (blen p <= lj_max g)%N /\ j_cur s <> None
         | PcNew p => (blen p <= lj_max g)%N /\ j_cur s = None
         end;
  v_count : 0 < lj_backups g -> j_mill s = false -> (j_open s <> None \/ exists p, j_pc s = PcOpening p) -> length (left_over (j_rm s) (j_old s)) <= lj_backups g }.

Lemma due_mono g tr t e : due g tr t -> due g (tr ++ [e]) t.
Proof. intros (a & now & b & -> & H). exists a, now, (b ++ [e]). rewrite <- app_assoc. split; [reflexivity|exact H]. Qed.
Lemma blen_app a b : blen (a ++ b) = (blen a + blen b)%N.
Proof. unfold blen. rewrite app_length. lia. Qed.
Lemma snoc_split {A} (tr : list A) e tr1 x tr2 : tr ++ [e] = tr1 ++ x :: tr2 -> (tr2 = [] /\ tr1 = tr /\ e = x) \/ exists tr2', tr2 = tr2' ++ [e] /\ tr = tr1 ++ x :: tr2'.
Proof.
  destruct tr2 as [|y tr2 _] using rev_ind; intros H.
  - left. apply app_inj_tail in H. destruct H. subst. auto.
  - right. exists tr2. rewrite app_comm_cons, app_assoc in H. apply app_inj_tail in H. destruct H. subst. auto.
Qed.
Lemma concat_snoc (l : list bytes) p : concat (l ++ [p]) = concat l ++ p.
Proof. rewrite concat_app. simpl. rewrite app_nil_r. reflexivity. Qed.
Lemma left_del t r old : left_over (Some r) (del t old) = left_over (Some (t :: r)) old.
Proof.
  simpl. unfold del. induction old as [|x old IH]; [reflexivity|]. simpl. destruct (fst x =? t)%N; simpl; [exact IH|].
  destruct (negb (existsb (N.eqb (fst x)) r)); [f_equal|]; exact IH.
Qed.
Lemma left_nil old : left_over (Some []) old = old.
Proof. simpl. induction old as [|x old IH]; simpl; congruence. Qed.

(** Steps after which the disk and the trace say the same. *)
Definition silent (e : ljev) : Prop := match e with LWrite _ | LRotate _ | LRemove _ => False | _ => True end.
Lemma silent_inv g tr s e s' : silent e -> jinv g tr s -> text (j_cur s') = text (j_cur s) -> j_old s' = j_old s ->
  (forall n, j_open s' = Some n -> exists c, j_cur s' = Some c /\ n = blen c) ->
  (forall l t, j_rm s' = Some l -> In t l -> due g (tr ++ [e]) t) ->
  match j_pc s' with
         | PcIdle => True
         | PcOpening p => (blen p <= lj_max g)%N /\ j_open s' = None
         | PcReady p => (blen p <= lj_max g)%N /\ j_open s' <> None
         | PcRotate p => (blen p <= lj_max g)%N /\ j_cur s' <> None
         | PcNew p => (blen p <= lj_max g)%N /\ j_cur s' = None
         end ->
  (0 < lj_backups g -> j_mill s' = false -> (j_open s' <> None \/ exists p, j_pc s' = PcOpening p) -> length (left_over (j_rm s') (j_old s')) <= lj_backups g) ->
  jinv g (tr ++ [e]) s'.
Proof.
  intros Hs V Ec Eo Ho Hd Hp Hc. assert (Ecl : closed (tr ++ [e]) = closed tr) by (rewrite closed_snoc; destruct e; try reflexivity; contradiction).
  assert (Eop : open_lines (tr ++ [e]) = open_lines tr) by (rewrite open_snoc; destruct e; try reflexivity; contradiction).
  constructor; rewrite ?Ecl, ?Eop, ?Ec, ?Eo; try assumption.
  - apply (v_cur _ _ _ V).
  - apply (v_old _ _ _ V).
  - apply (v_nodup _ _ _ V).
  - intros Hst x Hx. destruct (v_gone _ _ _ V (steady_prefix _ _ Hst) x Hx) as [H|H]; [left; exact H|right; apply in_app_iff; left; exact H].
  - intros tr1 t tr2 E. destruct (snoc_split _ _ _ _ _ E) as [(-> & -> & ->)|(tr2' & -> & ->)]; [contradiction|]. apply (v_rem _ _ _ V tr1 t tr2' eq_refl).
  - apply (v_size _ _ _ V).
  - rewrite Eo in Hc. exact Hc.
Qed.

Lemma jinv_step g tr s e s' : jinv g tr s -> lj_step g s e s' -> jinv g (tr ++ [e]) s'.
Proof.
  intros V H. inversion H; subst; clear H.
  - (* reject *) apply (silent_inv g tr s'); simpl; auto; try apply V. intros l t Hl Ht. apply due_mono. eapply (v_due _ _ _ V); eassumption.
  - apply (silent_inv g tr s); simpl; auto; try apply V.
    + intros l t Hl Ht. apply due_mono. eapply (v_due _ _ _ V); eassumption.
    + split; [assumption|congruence].
    + intros Hb Hm _. apply (v_count _ _ _ V Hb Hm). left. congruence.
  - apply (silent_inv g tr s); simpl; auto; try apply V; try discriminate.
    intros l t Hl Ht. apply due_mono. eapply (v_due _ _ _ V); eassumption.
  - apply (silent_inv g tr s); simpl; auto; try apply V.
    + rewrite H1. reflexivity.
    + intros n E. injection E as <-. exists []. split; reflexivity.
    + intros l t Hl Ht. apply due_mono. eapply (v_due _ _ _ V); eassumption.
    + pose proof (v_pc _ _ _ V) as P. rewrite H0 in P. split; [apply P|discriminate].
    + intros Hb Hm _. apply (v_count _ _ _ V Hb Hm). right. exists p. exact H0.
  - apply (silent_inv g tr s); simpl; auto; try apply V; try discriminate.
    + intros l t Hl Ht. apply due_mono. eapply (v_due _ _ _ V); eassumption.
    + pose proof (v_pc _ _ _ V) as P. rewrite H0 in P. split; [apply P|congruence].
    + intros Hb Hm [Hc|(q & Hq)]; [congruence|discriminate].
  - apply (silent_inv g tr s); simpl; auto; try apply V.
    + intros n E. injection E as <-. exists c. split; [assumption|reflexivity].
    + intros l t Hl Ht. apply due_mono. eapply (v_due _ _ _ V); eassumption.
    + pose proof (v_pc _ _ _ V) as P. rewrite H0 in P. split; [apply P|discriminate].
    + intros Hb Hm _. apply (v_count _ _ _ V Hb Hm). right. exists p. exact H0.
  - apply (silent_inv g tr s); simpl; auto; try apply V.
    + intros l t Hl Ht. apply due_mono. eapply (v_due _ _ _ V); eassumption.
    + pose proof (v_pc _ _ _ V) as P. rewrite H0 in P. destruct (v_open _ _ _ V _ H1) as (c & Ec & _). split; [apply P|congruence].
    + intros Hb Hm _. apply (v_count _ _ _ V Hb Hm). left. congruence.
  - (* write *) destruct (v_open _ _ _ V _ H1) as (c & Ec & ->). constructor; simpl.
    + rewrite open_snoc, concat_snoc, <- (v_cur _ _ _ V). reflexivity.
    + intros n E. injection E as <-. eexists. split; [reflexivity|]. rewrite Ec. simpl. rewrite blen_app. reflexivity.
    + rewrite closed_snoc. apply (v_old _ _ _ V).
    + apply (v_nodup _ _ _ V).
    + rewrite closed_snoc. intros Hst x Hx. destruct (v_gone _ _ _ V (steady_prefix _ _ Hst) x Hx) as [H|H]; [left; exact H|right; apply in_app_iff; left; exact H].
    + intros l t Hl Ht. apply due_mono. eapply (v_due _ _ _ V); eassumption.
    + intros tr1 t tr2 E. destruct (snoc_split _ _ _ _ _ E) as [(-> & -> & E')|(tr2' & -> & ->)]; [discriminate|]. apply (v_rem _ _ _ V tr1 t tr2' eq_refl).
    + rewrite closed_snoc. split; [|apply (v_size _ _ _ V)]. rewrite Ec. simpl. rewrite blen_app. assumption.
    + exact I.
    + intros Hb Hm _. apply (v_count _ _ _ V Hb Hm). left. congruence.
  - (* rename *) assert (Etxt : c = concat (open_lines tr)) by (rewrite <- (v_cur _ _ _ V), H1; reflexivity). constructor; simpl.
    + rewrite open_snoc. reflexivity.
    + discriminate.
    + rewrite closed_snoc, map_app. intros x Hx. unfold store_old in Hx. apply in_app_iff in Hx. apply in_app_iff. destruct Hx as [Hx|[<-|[]]].
      * left. apply in_del in Hx. apply (v_old _ _ _ V). tauto.
      * right. left. unfold as_file. simpl. rewrite Etxt. reflexivity.
    + apply store_nodup, (v_nodup _ _ _ V).
    + rewrite closed_snoc. intros Hst x Hx. apply in_app_iff in Hx. destruct Hx as [Hx|[<-|[]]].
      * destruct (v_gone _ _ _ V (steady_prefix _ _ Hst) x Hx) as [H|H]; [left|right; apply in_app_iff; left; exact H].
        unfold store_old. apply in_app_iff. left. apply in_del. split; [exact H|]. pose proof (Hst tr now [] eq_refl x Hx). simpl. lia.
      * left. unfold store_old. apply in_app_iff. right. left. unfold as_file. simpl. rewrite Etxt. reflexivity.
    + intros l t Hl Ht. apply due_mono. eapply (v_due _ _ _ V); eassumption.
    + intros tr1 t tr2 E. destruct (snoc_split _ _ _ _ _ E) as [(-> & -> & E')|(tr2' & -> & ->)]; [discriminate|]. apply (v_rem _ _ _ V tr1 t tr2' eq_refl).
    + rewrite closed_snoc. destruct (v_size _ _ _ V) as [S1 S2]. split; [unfold blen; simpl; lia|]. intros x Hx. apply in_app_iff in Hx. destruct Hx as [Hx|[<-|[]]]; [apply S2, Hx|].
      simpl. rewrite <- Etxt. rewrite H1 in S1. exact S1.
    + pose proof (v_pc _ _ _ V) as P. rewrite H0 in P. split; [apply P|reflexivity].
    + intros Hb Hm [Hc|(q & Hq)]; [congruence|discriminate].
  - (* create *) pose proof (v_pc _ _ _ V) as P. rewrite H0 in P. apply (silent_inv g tr s); simpl; auto; try apply V; try discriminate.
    + destruct P as [_ ->]. reflexivity.
    + intros n E. injection E as <-. exists []. split; reflexivity.
    + intros l t Hl Ht. apply due_mono. eapply (v_due _ _ _ V); eassumption.
    + split; [apply P|discriminate].
  - (* look *) apply (silent_inv g tr s); simpl; auto; try apply V.
    + intros l t E Ht. injection E as <-. exists tr, now, []. split; [reflexivity|].
      eapply to_remove_due; [apply (v_nodup _ _ _ V)| |exact Ht]. intros x Hx. apply (v_old _ _ _ V) in Hx. apply in_map_iff in Hx. destruct Hx as (y & <- & Hy). simpl. apply in_map. exact Hy.
    + intros Hb _ _. apply (to_remove_count g now _ (v_nodup _ _ _ V) Hb).
  - (* remove *) constructor; simpl.
    + rewrite open_snoc. apply (v_cur _ _ _ V).
    + apply (v_open _ _ _ V).
    + rewrite closed_snoc. intros x Hx. apply in_del in Hx. apply (v_old _ _ _ V). tauto.
    + apply del_nodup, (v_nodup _ _ _ V).
    + rewrite closed_snoc. intros Hst x Hx. destruct (N.eq_dec (fst x) t) as [<-|Hne]; [right; apply in_app_iff; right; left; reflexivity|].
      destruct (v_gone _ _ _ V (steady_prefix _ _ Hst) x Hx) as [H|H]; [left; apply in_del; split; [exact H|exact Hne]|right; apply in_app_iff; left; exact H].
    + intros l t' E Ht. injection E as <-. apply due_mono. eapply (v_due _ _ _ V); [eassumption|right; exact Ht].
    + intros tr1 t' tr2 E. destruct (snoc_split _ _ _ _ _ E) as [(-> & -> & E')|(tr2' & -> & ->)]; [|apply (v_rem _ _ _ V tr1 t' tr2' eq_refl)].
      injection E' as ->. eapply (v_due _ _ _ V); [eassumption|left; reflexivity].
    + rewrite closed_snoc. apply (v_size _ _ _ V).
    + apply (v_pc _ _ _ V).
    + intros Hb Hm Ho. pose proof (left_del t r (j_old s)) as E. simpl in E. rewrite E. pose proof (v_count _ _ _ V Hb Hm Ho) as C. rewrite H0 in C. exact C.
  - apply (silent_inv g tr s); simpl; auto; try apply V.
    + discriminate.
    + intros Hb Hm Ho. pose proof (v_count _ _ _ V Hb Hm Ho) as C. rewrite H0, left_nil in C. exact C.
  - apply (silent_inv g tr s); simpl; auto; try apply V; try discriminate. intros _ _ [Hc|(q & Hq)]; [congruence|discriminate].
Qed.
Lemma jinv_run g tr s : lj_run g tr s -> jinv g tr s.
Proof.
  induction 1 as [|tr s e s' Hr IH Hs]; [|eapply jinv_step; eassumption]. constructor; simpl; try discriminate; auto; try contradiction.
  - constructor.
  - intros [|a tr1] t tr2 E; discriminate.
  - split; [unfold blen; simpl; lia|intros x []].
  - intros; lia.
Qed.
