(** LogFilesPf.v -- proofs of C130 (the files of the info-hash log). *)
From Verif Require Import Base GoLib LogFiles LogFilesSpec LogFilesProofs.
From Coq Require Import Lia ZifyBool ZifyN ZifyNat Permutation Sorting.Sorted.
Local Open Scope list_scope.

(** C130: at every moment of every history of processes, and whenever they ended: logs/infohash.log is what was written since the last
    rotation, every backup is what was written between two rotations, in order, and a stretch that has no backup was removed. *)
Lemma C130_files_pf : forall g tr s, lj_run g tr s -> steady tr ->
  lines tr = concat (map snd (closed tr)) ++ open_lines tr /\
  text (j_cur s) = concat (open_lines tr) /\
  (forall f, In f (j_old s) -> exists x, In x (closed tr) /\ f = (fst x, concat (snd x))) /\
  (forall x, In x (closed tr) -> In (fst x, concat (snd x)) (j_old s) \/ In (LRemove (fst x)) tr).
Proof.
  intros g tr s Hr Hst. pose proof (jinv_run _ _ _ Hr) as V. split; [apply lines_stretches|]. split; [apply (v_cur _ _ _ V)|]. split; [|apply (v_gone _ _ _ V Hst)].
  intros f Hf. apply (v_old _ _ _ V) in Hf. apply in_map_iff in Hf. destruct Hf as (x & <- & Hx). exists x. split; [exact Hx|reflexivity].
Qed.

(** C130: a backup is removed only after the remover saw that there were [lj_backups] newer ones, or that it was too old. *)
Lemma C130_removed_when_due_pf : forall g tr1 t tr2 s, lj_run g (tr1 ++ LRemove t :: tr2) s -> due g tr1 t.
Proof. intros g tr1 t tr2 s Hr. exact (v_rem _ _ _ (jinv_run _ _ _ Hr) tr1 t tr2 eq_refl). Qed.

Lemma asc_app a b : asc (a ++ b) -> forall x y, In x a -> In y b -> (fst x < fst y)%N.
Proof.
  induction a as [|z a IH]; intros H x y Hx Hy; [contradiction|]. simpl in H. inversion H; subst. destruct Hx as [->|Hx]; [|apply (IH H2 x y Hx Hy)].
  rewrite Forall_forall in H3. apply H3. apply in_app_iff. right. exact Hy.
Qed.
Lemma filter_newer l x : asc l -> In x l -> forall a b, l = a ++ b -> In x b -> length (filter (fun y => fst x <? fst y)%N l) < length b.
Proof.
  intros Hs Hx a b -> Hb. rewrite filter_app, app_length.
  replace (filter (fun y => fst x <? fst y)%N a) with (@nil (N * list bytes)).
  - simpl. apply in_split in Hb. destruct Hb as (b1 & b2 & ->). rewrite filter_app. cbn [filter]. rewrite N.ltb_irrefl, app_length, !app_length. cbn [length].
    pose proof (filter_le (fun y => fst x <? fst y)%N b1). pose proof (filter_le (fun y => fst x <? fst y)%N b2). lia.
  - symmetry. assert (forall y, In y a -> (fst x <? fst y)%N = false). { intros y Hy. pose proof (asc_app _ _ Hs y x Hy Hb). apply N.ltb_ge. lia. }
    clear - H. induction a as [|y a IH]; [reflexivity|]. simpl. rewrite (H y (or_introl eq_refl)). apply IH. intros z Hz. apply H. right. exact Hz.
Qed.
Lemma closed_prefix tr1 tr2 : exists l, closed (tr1 ++ tr2) = closed tr1 ++ l.
Proof.
  induction tr2 as [|e r IH] using rev_ind; [exists []; rewrite !app_nil_r; reflexivity|]. destruct IH as (l & IH). rewrite app_assoc, closed_snoc, IH.
  destruct e; try (exists l; reflexivity). eexists. rewrite <- app_assoc. reflexivity.
Qed.

(** C130: the last [lj_backups] stretches that no look of the remover found too old are all there, whole. *)
Lemma C130_recent_kept_pf : forall g tr s a b, lj_run g tr s -> steady tr -> closed tr = a ++ b -> length b <= lj_backups g ->
  (forall x now, In x b -> In (LMill now) tr -> (now <= fst x + lj_age g)%N) ->
  forall x, In x b -> In (fst x, concat (snd x)) (j_old s).
Proof.
  intros g tr s a b Hr Hst E Hb Hage x Hx. assert (Hxc : In x (closed tr)) by (rewrite E; apply in_app_iff; right; exact Hx).
  destruct (C130_files_pf _ _ _ Hr Hst) as (_ & _ & _ & H). destruct (H x Hxc) as [Hin|Hrm]; [exact Hin|exfalso].
  apply in_split in Hrm. destruct Hrm as (tr1 & tr2 & Etr). rewrite Etr in Hr. destruct (C130_removed_when_due_pf _ _ _ _ _ Hr) as (tr3 & now & tr4 & -> & [[_ Hc]|[_ Hc]]).
  - pose proof (filter_newer _ x (steady_asc _ Hst) Hxc a b E Hx) as Hlt. rewrite <- app_assoc in Etr. destruct (closed_prefix tr3 ((LMill now :: tr4) ++ LRemove (fst x) :: tr2)) as (l & El).
    rewrite <- Etr in El. rewrite El, filter_app, app_length in Hlt. lia.
  - assert (Hm : In (LMill now) tr) by (rewrite Etr; apply in_app_iff; left; apply in_app_iff; right; left; reflexivity). pose proof (Hage x now Hx Hm). lia.
Qed.

(** C130: nothing is lost until there have been more than [lj_backups] rotations or a backup became too old: the backups by age and then the log are
    everything ever written. *)
Lemma C130_nothing_lost_pf : forall g tr s, lj_run g tr s -> steady tr -> length (closed tr) <= lj_backups g ->
  (forall x now, In x (closed tr) -> In (LMill now) tr -> (now <= fst x + lj_age g)%N) ->
  exists o, Permutation o (j_old s) /\ StronglySorted (fun x y => (fst x < fst y)%N) o /\ concat (map snd o) ++ text (j_cur s) = concat (lines tr).
Proof.
  intros g tr s Hr Hst Hb Hage. pose proof (jinv_run _ _ _ Hr) as V. exists (map as_file (closed tr)).
  pose proof (steady_asc _ Hst) as Ha.
  assert (Hnd : NoDup (map as_file (closed tr))). { apply (NoDup_map_inv fst). rewrite map_map. apply (asc_nodup _ Ha). }
  split; [|split].
  - apply NoDup_Permutation; [exact Hnd|apply (NoDup_map_inv fst), (v_nodup _ _ _ V)|]. intros f. split; [|apply (v_old _ _ _ V)].
    intros Hf. apply in_map_iff in Hf. destruct Hf as (x & <- & Hx). apply (C130_recent_kept_pf g tr s [] (closed tr) Hr Hst eq_refl Hb Hage x Hx).
  - clear - Ha. induction Ha as [|x l Hs IH Hx]; simpl; constructor; [exact IH|]. rewrite Forall_map. exact Hx.
  - rewrite (v_cur _ _ _ V), lines_stretches, concat_app. f_equal. rewrite map_map. clear. induction (closed tr) as [|x l IH]; [reflexivity|]. simpl. rewrite concat_app. f_equal. exact IH.
Qed.

(** C130: no file is larger than MaxSize, and whenever the remover is done there are at most MaxBackups backups: the info-hash log
    takes at most 2000 MiB of the disk then. *)
Lemma C130_bounded_pf : forall tr s, lj_run zap_rotation tr s ->
  (blen (text (j_cur s)) <= 500 * 1024 * 1024)%N /\ (forall f, In f (j_old s) -> (blen (snd f) <= 500 * 1024 * 1024)%N) /\
  (tidy_now s -> length (j_old s) <= 3 /\ (blen (text (j_cur s)) + fold_right (fun f n => blen (snd f) + n) 0 (j_old s) <= 2000 * 1024 * 1024)%N).
Proof.
  intros tr s Hr. pose proof (jinv_run _ _ _ Hr) as V. destruct (v_size _ _ _ V) as [S1 S2].
  assert (S3 : forall f, In f (j_old s) -> (blen (snd f) <= 500 * 1024 * 1024)%N). { intros f Hf. apply (v_old _ _ _ V) in Hf. apply in_map_iff in Hf. destruct Hf as (x & <- & Hx). apply (S2 x Hx). }
  split; [exact S1|]. split; [exact S3|]. intros (Ho & Hm & Hrm). assert (Hc : length (j_old s) <= 3).
  { pose proof (v_count _ _ _ V ltac:(simpl; lia) Hm (or_introl Ho)) as C. rewrite Hrm in C. exact C. }
  split; [exact Hc|]. assert (Hsum : (fold_right (fun f n => blen (snd f) + n) 0 (j_old s) <= N.of_nat (length (j_old s)) * (500 * 1024 * 1024))%N).
  { clear - S3. induction (j_old s) as [|f l IH]; [simpl; lia|]. cbn [fold_right length]. pose proof (S3 f (or_introl eq_refl)). specialize (IH (fun y Hy => S3 y (or_intror Hy))). lia. }
  simpl lj_max in S1. lia.
Qed.

Lemma steady_snoc tr e : steady tr -> match e with LRotate t => forall x, In x (closed tr) -> (fst x < t)%N | _ => True end -> steady (tr ++ [e]).
Proof.
  intros H He tr1 t tr2 E. destruct (snoc_split _ _ _ _ _ E) as [(-> & -> & ->)|(tr2' & -> & ->)]; [exact He|]. apply (H tr1 t tr2' eq_refl).
Qed.
Definition plain (e : ljev) : Prop := match e with LReject _ | LExit | LMill _ | LRemove _ => False | _ => True end.
Definition extends (g : ljcfg) (tr : list ljev) (s : ljst) (p : bytes) : Prop :=
  exists tr' s', lj_run g (tr ++ tr') s' /\ j_pc s' = PcIdle /\ lines tr' = [p] /\ Forall plain tr' /\ (steady tr -> steady (tr ++ tr')).
Lemma extends_step g tr s e s' p : lj_run g tr s -> lj_step g s e s' -> plain e -> lines [e] = [] -> (steady tr -> steady (tr ++ [e])) ->
  (lj_run g (tr ++ [e]) s' -> extends g (tr ++ [e]) s' p) -> extends g tr s p.
Proof.
  intros Hr Hs Hp Hl Hst H. destruct (H (ljr_step g _ _ _ _ Hr Hs)) as (tr' & s2 & H1 & H2 & H3 & H4 & H5). rewrite <- app_assoc in H1, H5. exists (e :: tr'), s2.
  split; [exact H1|]. split; [exact H2|]. split; [change (e :: tr') with ([e] ++ tr'); unfold lines in *; rewrite flat_map_app, Hl, H3; reflexivity|]. split; [constructor; assumption|].
  intros Hst0. apply H5, Hst, Hst0.
Qed.
Lemma ext_write g tr s p n : lj_run g tr s -> j_pc s = PcReady p -> j_open s = Some n -> (n + blen p <= lj_max g)%N -> extends g tr s p.
Proof.
  intros Hr Hp Ho Hn. exists [LWrite p]. eexists. split; [eapply ljr_step; [exact Hr|eapply lj_write; eassumption]|]. split; [reflexivity|]. split; [reflexivity|].
  split; [repeat constructor|]. intros Hst. apply steady_snoc; [exact Hst|exact I].
Qed.
Lemma later tr : exists t, forall x, In x (closed tr) -> (fst x < t)%N.
Proof.
  induction (closed tr) as [|y l (t & IH)]; [exists 0%N; intros x []|]. exists (N.max t (fst y + 1)). intros x [->|Hx]; [lia|]. specialize (IH x Hx). lia.
Qed.
Lemma ext_rotate g tr s p : lj_run g tr s -> j_pc s = PcRotate p -> extends g tr s p.
Proof.
  intros Hr Hp. destruct (later tr) as (t & Ht). pose proof (v_pc _ _ _ (jinv_run _ _ _ Hr)) as P. rewrite Hp in P. destruct P as [Hl Hc].
  destruct (j_cur s) as [c|] eqn:Ec; [|congruence].
  eapply extends_step; [exact Hr|eapply (lj_rename g s p c t); eassumption|exact I|reflexivity|intros Hst; apply steady_snoc; assumption|]. intros Hr1.
  eapply extends_step; [exact Hr1|eapply (lj_create g); reflexivity|exact I|reflexivity|intros Hst; apply steady_snoc; [exact Hst|exact I]|]. intros Hr2.
  eapply ext_write; [exact Hr2|reflexivity|reflexivity|]. lia.
Qed.

(** C130: a line that is not longer than MaxSize can always be written, whatever happened before - no error, no new start of the process
    needed -, and a line is refused only if it is longer. *)
Lemma C130_writes_succeed_pf : forall g tr s, lj_run g tr s ->
  (forall p, j_pc s = PcIdle -> (blen p <= lj_max g)%N -> exists tr' s', lj_run g (tr ++ tr') s' /\ j_pc s' = PcIdle /\ lines tr' = [p] /\
    (forall e, In e tr' -> match e with LReject _ | LExit => False | _ => True end) /\ (steady tr -> steady (tr ++ tr'))) /\
  (forall p, In (LReject p) tr -> (lj_max g < blen p)%N).
Proof.
  intros g tr s Hr. split.
  - intros p Hp Hl. assert (E : extends g tr s p).
    + destruct (j_open s) as [n|] eqn:Eo.
      * eapply extends_step; [exact Hr|eapply (lj_begin_open g s p n); assumption|exact I|reflexivity|intros Hst; apply steady_snoc; [exact Hst|exact I]|]. intros Hr1.
        destruct (N.le_gt_cases (n + blen p) (lj_max g)) as [Hn|Hn].
        -- eapply ext_write; [exact Hr1|reflexivity|exact Eo|exact Hn].
        -- eapply extends_step; [exact Hr1|eapply (lj_full g); [reflexivity|exact Eo|exact Hn]|exact I|reflexivity|intros Hst; apply steady_snoc; [exact Hst|exact I]|]. intros Hr2.
           eapply ext_rotate; [exact Hr2|reflexivity].
      * eapply extends_step; [exact Hr|eapply (lj_begin_closed g s p); assumption|exact I|reflexivity|intros Hst; apply steady_snoc; [exact Hst|exact I]|]. intros Hr1.
        destruct (j_cur s) as [c|] eqn:Ec.
        -- destruct (N.le_gt_cases (lj_max g) (blen c + blen p)) as [Hn|Hn].
           ++ eapply extends_step; [exact Hr1|eapply (lj_open_full g); [reflexivity|reflexivity|exact Hn]|exact I|reflexivity|intros Hst; apply steady_snoc; [exact Hst|exact I]|]. intros Hr2.
              eapply ext_rotate; [exact Hr2|reflexivity].
           ++ eapply extends_step; [exact Hr1|eapply (lj_open_existing g); [reflexivity|reflexivity|exact Hn]|exact I|reflexivity|intros Hst; apply steady_snoc; [exact Hst|exact I]|]. intros Hr2.
              eapply ext_write; [exact Hr2|reflexivity|reflexivity|lia].
        -- eapply extends_step; [exact Hr1|eapply (lj_open_missing g); [reflexivity|reflexivity]|exact I|reflexivity|intros Hst; apply steady_snoc; [exact Hst|exact I]|]. intros Hr2.
           eapply ext_write; [exact Hr2|reflexivity|reflexivity|lia].
    + destruct E as (tr' & s' & H1 & H2 & H3 & H4 & H5). exists tr', s'. repeat (split; [assumption|]). split; [|exact H5].
      rewrite Forall_forall in H4. intros e He. specialize (H4 e He). destruct e; try exact I; contradiction.
  - induction Hr as [|tr s e s' Hr IH Hs]; intros p Hp; [contradiction|]. apply in_app_iff in Hp. destruct Hp as [Hp|[->|[]]]; [apply IH, Hp|]. inversion Hs; subst. assumption.
Qed.

(** ** Histories of full files *)
Definition full_of (c : byte) : bytes := repeat c (N.to_nat (lj_max zap_rotation)).
Lemma full_len c : blen (full_of c) = lj_max zap_rotation.
Proof. unfold blen, full_of. rewrite repeat_length. apply N2Nat.id. Qed.
Definition fullst (cur : bytes) (old : list (N * bytes)) (ml : bool) (rm : option (list N)) : ljst :=
  {| j_cur := Some cur; j_old := old; j_pc := PcIdle; j_open := Some (lj_max zap_rotation); j_mill := ml; j_rm := rm |}.
Lemma max_pos : (0 < lj_max zap_rotation)%N.
Proof. reflexivity. Qed.
Opaque full_of.
Lemma full_first p : blen p = lj_max zap_rotation -> lj_run zap_rotation [LTau; LTau; LWrite p] (fullst p [] true None).
Proof.
  intros El.
  change [LTau; LTau; LWrite p] with ((([] ++ [LTau]) ++ [LTau]) ++ [LWrite p]).
  eapply ljr_step; [eapply ljr_step; [eapply ljr_step; [apply ljr_start|]|]|].
  - apply (lj_begin_closed zap_rotation lj0 p); [reflexivity|rewrite El; apply N.le_refl|reflexivity].
  - apply (lj_open_missing zap_rotation _ p); reflexivity.
  - unfold fullst. rewrite <- El. apply (lj_write zap_rotation (jset (jset lj0 None [] (PcOpening p) None true) (Some []) [] (PcReady p) (Some 0%N) true) p 0); [reflexivity|reflexivity|]. rewrite El. apply N.le_refl.
Qed.
Lemma full_next tr cur old ml rm t p : blen p = lj_max zap_rotation -> lj_run zap_rotation tr (fullst cur old ml rm) ->
  lj_run zap_rotation (tr ++ [LTau; LTau; LRotate t; LTau; LWrite p]) (fullst p (store_old t cur old) true rm).
Proof.
  intros El Hr.
  replace (tr ++ [LTau; LTau; LRotate t; LTau; LWrite p]) with (((((tr ++ [LTau]) ++ [LTau]) ++ [LRotate t]) ++ [LTau]) ++ [LWrite p]) by (rewrite <- !app_assoc; reflexivity).
  pose proof max_pos as Hm.
  eapply ljr_step; [eapply ljr_step; [eapply ljr_step; [eapply ljr_step; [eapply ljr_step; [exact Hr|]|]|]|]|].
  - apply (lj_begin_open zap_rotation _ p (lj_max zap_rotation)); [reflexivity|rewrite El; apply N.le_refl|reflexivity].
  - apply (lj_full zap_rotation _ p (lj_max zap_rotation)); [reflexivity|reflexivity|]. rewrite El. lia.
  - apply (lj_rename zap_rotation _ p cur t); reflexivity.
  - apply (lj_create zap_rotation _ p); reflexivity.
  - unfold fullst. rewrite <- El. match goal with |- lj_step _ ?x _ _ => apply (lj_write zap_rotation x p 0); [reflexivity|reflexivity|] end. rewrite El. apply N.le_refl.
Qed.

Lemma occurs_full c d : c <> d -> ~ In c (full_of d).
Proof. Transparent full_of. unfold full_of. intros H Hc. apply repeat_spec in Hc. congruence. Qed.
Lemma in_full c : In c (full_of c).
Proof.
  unfold full_of. destruct (N.to_nat (lj_max zap_rotation)) as [|n] eqn:E; [|left; reflexivity]. exfalso. pose proof max_pos. lia.
Qed.
Opaque full_of.
Lemma steady_taus tr l : steady tr -> Forall (fun e => match e with LRotate _ => False | _ => True end) l -> steady (tr ++ l).
Proof.
  intros H Hl. revert tr H. induction Hl as [|e l He Hl IH]; intros tr H; [rewrite app_nil_r; exact H|].
  change (e :: l) with ([e] ++ l). rewrite app_assoc. apply IH. apply steady_snoc; [exact H|]. destruct e; try exact I. contradiction.
Qed.
Lemma steady_next tr t p : steady tr -> (forall x, In x (closed tr) -> (fst x < t)%N) -> steady (tr ++ [LTau; LTau; LRotate t; LTau; LWrite p]).
Proof.
  intros H Ht. replace (tr ++ [LTau; LTau; LRotate t; LTau; LWrite p]) with (((tr ++ [LTau; LTau]) ++ [LRotate t]) ++ [LTau; LWrite p]) by (rewrite <- !app_assoc; reflexivity).
  apply steady_taus; [|repeat constructor]. apply steady_snoc; [apply steady_taus; [exact H|repeat constructor]|].
  replace (tr ++ [LTau; LTau]) with ((tr ++ [LTau]) ++ [LTau]) by (rewrite <- app_assoc; reflexivity). rewrite !closed_snoc. exact Ht.
Qed.
Lemma stamps_snoc tr e : map fst (closed (tr ++ [e])) = map fst (closed tr) ++ match e with LRotate t => [t] | _ => [] end.
Proof. rewrite closed_snoc. destruct e; rewrite ?app_nil_r; try reflexivity. rewrite map_app. reflexivity. Qed.
Lemma stamps_app tr2 : forall tr1, map fst (closed (tr1 ++ tr2)) = map fst (closed tr1) ++ flat_map (fun e => match e with LRotate t => [t] | _ => [] end) tr2.
Proof.
  induction tr2 as [|e r IH]; intros tr1; [simpl; rewrite !app_nil_r; reflexivity|]. change (e :: r) with ([e] ++ r). rewrite app_assoc, IH, stamps_snoc, <- app_assoc. reflexivity.
Qed.
Lemma steady_stamps tr t p : steady tr -> forallb (fun x => x <? t)%N (map fst (closed tr)) = true -> steady (tr ++ [LTau; LTau; LRotate t; LTau; LWrite p]).
Proof. intros H Hf. apply steady_next; [exact H|]. intros x Hx. rewrite forallb_forall in Hf. apply N.ltb_lt, Hf, in_map, Hx. Qed.

(** The trace of a first line and one more for each time, all as long as a file may be. *)
Fixpoint fill (tr : list ljev) (ts : list N) (p : bytes) : list ljev := match ts with [] => tr | t :: r => fill (tr ++ [LTau; LTau; LRotate t; LTau; LWrite p]) r p end.
Fixpoint filled (old : list (N * bytes)) (cur : bytes) (ts : list N) (p : bytes) : list (N * bytes) * bytes := match ts with [] => (old, cur) | t :: r => filled (store_old t cur old) p r p end.
Lemma fill_run ts : forall tr cur old rm p, blen p = lj_max zap_rotation -> lj_run zap_rotation tr (fullst cur old true rm) ->
  lj_run zap_rotation (fill tr ts p) (fullst (snd (filled old cur ts p)) (fst (filled old cur ts p)) true rm).
Proof.
  induction ts as [|t r IH]; intros tr cur old rm p El Hr; simpl; [exact Hr|]. apply IH; [exact El|]. apply (full_next tr cur old true rm t p El Hr).
Qed.
Lemma fill_steady ts : forall tr p, steady tr -> StronglySorted N.lt ts -> (forall x t, In x (map fst (closed tr)) -> In t ts -> (x < t)%N) -> steady (fill tr ts p).
Proof.
  induction ts as [|t r IH]; intros tr p H Hs Hlt; simpl; [exact H|]. inversion Hs; subst. rewrite Forall_forall in H3. apply IH; [|exact H2|].
  - apply steady_next; [exact H|]. intros x Hx. apply Hlt; [apply in_map, Hx|left; reflexivity].
  - intros x u Hx Hu. rewrite stamps_app in Hx. apply in_app_iff in Hx. destruct Hx as [Hx|Hx]; [apply Hlt; [exact Hx|right; exact Hu]|].
    simpl in Hx. destruct Hx as [<-|[]]. apply H3, Hu.
Qed.
Lemma first_steady p : steady [LTau; LTau; LWrite p].
Proof. intros tr1 t tr2 E. destruct tr1 as [|a [|b [|c [|d tr1]]]]; try discriminate. Qed.

(** C130: that everything the crawler ever logged stays on the disk is false: after four rotations the oldest lines are removed, and
    a first line is in no file. *)
Lemma C130_all_kept_refuted_pf : exists tr s p, lj_run zap_rotation tr s /\ steady tr /\ In p (lines tr) /\ tidy_now s /\
  exists c, In c p /\ ~ In c (text (j_cur s)) /\ forall f, In f (j_old s) -> ~ In c (snd f).
Proof.
  set (a := full_of (byte_of 97)). set (b := full_of (byte_of 98)).
  assert (La : blen a = lj_max zap_rotation) by apply full_len. assert (Lb : blen b = lj_max zap_rotation) by apply full_len.
  assert (Hab : ~ In (byte_of 97) b) by (apply occurs_full; discriminate). assert (Ha : In (byte_of 97) a) by apply in_full. clearbody a b.
  pose proof (fill_run [1; 2; 3; 4]%N _ _ _ _ b Lb (full_first a La)) as Hr.
  eapply ljr_step in Hr; [|eapply (lj_mill_look _ _ 5); reflexivity].
  eapply ljr_step in Hr; [|eapply (lj_mill_remove _ _ 1 []); reflexivity].
  eapply ljr_step in Hr; [|eapply lj_mill_done; reflexivity].
  eexists. eexists. exists a. split; [exact Hr|]. split.
  { rewrite <- !app_assoc. apply steady_taus; [|repeat constructor]. apply fill_steady; [apply first_steady|repeat constructor|intros x t []]. }
  split; [left; reflexivity|]. split; [repeat split; simpl; discriminate|]. exists (byte_of 97). split; [exact Ha|]. split; [exact Hab|].
  intros f [<-|[<-|[<-|[]]]]; exact Hab.
Qed.

(** C130: that the files always hold an unbroken stretch of what was logged is false: the remover begins with the newest of the
    backups that are too many, and if the process ends in between, older ones stay. *)
Lemma C130_unbroken_refuted_pf : exists tr s x1 x2 x3 rest, lj_run zap_rotation tr s /\ steady tr /\ closed tr = x1 :: x2 :: x3 :: rest /\
  In (fst x2) (map fst (j_old s)) /\ ~ In (fst x3) (map fst (j_old s)) /\ (forall x, In x rest -> In (fst x) (map fst (j_old s))) /\ rest <> [].
Proof.
  set (b := full_of (byte_of 98)). assert (Lb : blen b = lj_max zap_rotation) by apply full_len. clearbody b.
  pose proof (fill_run [1; 2; 3; 4; 5; 6]%N _ _ _ _ b Lb (full_first b Lb)) as Hr.
  eapply ljr_step in Hr; [|eapply (lj_mill_look _ _ 7); reflexivity].
  eapply ljr_step in Hr; [|eapply (lj_mill_remove _ _ 3 [2; 1]%N); reflexivity].
  eapply ljr_step in Hr; [|eapply lj_exit; reflexivity].
  eexists. eexists. exists (1%N, [b]), (2%N, [b]), (3%N, [b]), [(4%N, [b]); (5%N, [b]); (6%N, [b])]. split; [exact Hr|]. split.
  { rewrite <- !app_assoc. apply steady_taus; [|repeat constructor]. apply fill_steady; [apply first_steady|repeat constructor|intros x t []]. }
  split; [reflexivity|]. split; [right; left; reflexivity|]. split; [simpl; intuition discriminate|]. split; [|discriminate].
  intros x [<-|[<-|[<-|[]]]]; simpl; tauto.
Qed.

(** C130: without a steady clock even that is false: two rotations at the same time leave one backup, and the lines of the first are gone
    although nothing was removed. *)
Lemma C130_clock_refuted_pf : exists tr s p, lj_run zap_rotation tr s /\ In p (lines tr) /\ (forall t, ~ In (LRemove t) tr) /\ length (closed tr) = 2 /\
  exists c, In c p /\ ~ In c (text (j_cur s)) /\ forall f, In f (j_old s) -> ~ In c (snd f).
Proof.
  set (a := full_of (byte_of 97)). set (b := full_of (byte_of 98)).
  assert (La : blen a = lj_max zap_rotation) by apply full_len. assert (Lb : blen b = lj_max zap_rotation) by apply full_len.
  assert (Hab : ~ In (byte_of 97) b) by (apply occurs_full; discriminate). assert (Ha : In (byte_of 97) a) by apply in_full. clearbody a b.
  pose proof (fill_run [1; 1]%N _ _ _ _ b Lb (full_first a La)) as Hr.
  eexists. eexists. exists a. split; [exact Hr|]. split; [left; reflexivity|]. split; [intros t; simpl; intuition discriminate|]. split; [reflexivity|].
  exists (byte_of 97). split; [exact Ha|]. split; [exact Hab|]. intros f [<-|[]]. exact Hab.
Qed.

(** C130: an example.  A line, the end of the process, a second process that adds a line: both are in the log. *)
Lemma C130_example_pf : exists tr s, lj_run zap_rotation tr s /\ steady tr /\ lines tr = [B "one"; B "two"] /\ In LExit tr /\ text (j_cur s) = B "onetwo" /\ j_old s = [].
Proof.
  eexists ((((((([] ++ [LTau]) ++ [LTau]) ++ [LWrite (B "one")]) ++ [LExit]) ++ [LTau]) ++ [LTau]) ++ [LWrite (B "two")]). eexists. split; [|split; [|split; [|split; [|split]]]].
  - eapply ljr_step; [eapply ljr_step; [eapply ljr_step; [eapply ljr_step; [eapply ljr_step; [eapply ljr_step; [eapply ljr_step; [apply ljr_start|]|]|]|]|]|]|].
    + apply (lj_begin_closed zap_rotation lj0 (B "one")); [reflexivity|vm_compute; discriminate|reflexivity].
    + apply (lj_open_missing zap_rotation _ (B "one")); reflexivity.
    + eapply (lj_write zap_rotation _ (B "one")); [reflexivity|reflexivity|vm_compute; discriminate].
    + apply lj_exit.
    + apply (lj_begin_closed zap_rotation _ (B "two")); [reflexivity|vm_compute; discriminate|reflexivity].
    + eapply (lj_open_existing zap_rotation _ (B "two") (B "one")); [reflexivity|reflexivity|vm_compute; reflexivity].
    + eapply (lj_write zap_rotation _ (B "two")); [reflexivity|reflexivity|vm_compute; discriminate].
  - intros tr1 t tr2 E. assert (Hin : In (LRotate t) (tr1 ++ LRotate t :: tr2)) by (apply in_app_iff; right; left; reflexivity). rewrite <- E in Hin.
    simpl in Hin. intuition discriminate.
  - reflexivity.
  - simpl. tauto.
  - reflexivity.
  - reflexivity.
Qed.

Definition times (f : ljev -> bool) (tr : list ljev) : nat := length (filter f tr).
(** C130: the remover looks at the directory at most once for every rotation and every start of the process. *)
Lemma C130_looks_bounded_pf : forall g tr s, lj_run g tr s ->
  times (fun e => match e with LMill _ => true | _ => false end) tr <=
  times (fun e => match e with LRotate _ => true | _ => false end) tr + times (fun e => match e with LExit => true | _ => false end) tr + 1.
Proof.
  intros g tr s H. unfold times.
  enough (length (filter (fun e => match e with LMill _ => true | _ => false end) tr) +
    ((if j_mill s then 1 else 0) + (match j_pc s with PcNew _ => 1 | _ => 0 end) + (match j_pc s, j_open s with PcIdle, None => 1 | _, _ => 0 end)) <=
    length (filter (fun e => match e with LRotate _ => true | _ => false end) tr) + length (filter (fun e => match e with LExit => true | _ => false end) tr) + 1) by lia.
  induction H as [|tr s ev s' Hr IH Hst]; [cbn; lia|].
  rewrite !filter_app, !app_length.
  destruct Hst; cbn [filter length jset j_cur j_old j_pc j_open j_mill j_rm];
    repeat match goal with E : j_pc s = _ |- _ => rewrite E in *; clear E | E : j_open s = _ |- _ => rewrite E in *; clear E | E : j_mill s = _ |- _ => rewrite E in *; clear E end;
    repeat match goal with |- context[if ?b then _ else _] => destruct b end; destruct (j_pc s), (j_open s); cbn in *; try lia.
Qed.
