(** FirstStartProofs.v -- lemmas for C115. *)
From Verif Require Import Base GoLib TorrentCmd FileSys FileSysSpec FileSysProofs FileSysPf Startup FirstStart.
Local Open Scope list_scope.

(** ** Overwriting a file changes no resolution *)
Lemma set_at fs i d j : fs_at (set_data fs i d) j = match fs_at fs j with Some (NFile b p) => Some (NFile (if j =? i then d else b) p) | x => x end.
Proof. cbn. destruct (Nat.eqb_spec j i) as [->|]; destruct (fs_at fs _) as [[| |]|]; reflexivity. Qed.
Lemma walk_set fs i d f l : forall cs cur up, walk (set_data fs i d) l f cur up cs = walk fs l f cur up cs.
Proof.
  induction l as [l IHl] using lt_wf_ind. induction cs as [|c t IH]; intros cur up; [rewrite !walk_nil; reflexivity|]. rewrite !walk_cons, set_at.
  destruct (fs_at fs cur) as [[d0 p0|es0 p0|tg]|]; try reflexivity. rewrite IH. destruct (is_empty c); [reflexivity|]. destruct (negb (may_search p0)); [reflexivity|].
  destruct (beq c (B ".")); [reflexivity|]. destruct (beq c (B "..")); [destruct up; apply IH|]. destruct (entry es0 c) as [k|]; [|reflexivity]. rewrite set_at.
  destruct (fs_at fs k) as [[d1 p1|es1 p1|tg]|]; try apply IH. destruct (negb f && match t with [] => true | _ => false end); [reflexivity|]. destruct l as [|l]; [reflexivity|].
  destruct (is_empty tg); [reflexivity|]. cbn [fs_root set_data]. destruct (rooted tg); apply IHl; lia.
Qed.
Lemma lookup_set fs i d f path : lookup (set_data fs i d) f path = lookup fs f path.
Proof. unfold lookup. destruct path as [|c path]; [reflexivity|]. cbn [fs_root fs_cwd fs_above set_data]. destruct (rooted (c :: path)); apply walk_set. Qed.
Lemma set_wf fs i d : wf_fs fs -> wf_fs (set_data fs i d).
Proof.
  intros [H1 H2 H3]. constructor.
  - intros j Hj. rewrite set_at, (H1 j Hj). reflexivity.
  - intros j es p Hj. rewrite set_at in Hj. destruct (fs_at fs j) as [[| |]|] eqn:E; try discriminate. injection Hj as -> ->. destruct (H2 j es p E) as [H4 H5]. split; [exact H4|].
    intros c k Hk. destruct (H5 c k Hk) as [H6 H7]. split; [exact H6|]. rewrite set_at. destruct (fs_at fs k) as [[| |]|]; congruence.
  - eapply Forall_impl; [|exact H3]. cbn beta. intros k Hk. rewrite set_at. destruct (fs_at fs k) as [[| |]|]; (discriminate || assumption).
Qed.

(** ** The files of ./conf *)
Definition cname (ext : bytes) : bytes := B "config." ++ ext.
Lemma config_child ext : config_file ext = configPath ++ slash :: cname ext. Proof. reflexivity. Qed.
Lemma json_child : FileAbsPath = configPath ++ slash :: cname (B "json"). Proof. reflexivity. Qed.
Lemma cname_ok ext : ~ In slash ext -> name_ok (cname ext).
Proof.
  intros H. unfold cname. split; [discriminate|]. split; [discriminate|]. split; [discriminate|]. intros Hin. apply in_app_or in Hin as [Hin|Hin]; [|exact (H Hin)].
  revert Hin. vm_compute. intuition discriminate.
Qed.
Lemma conf_child : configPath = B "." ++ slash :: B "conf". Proof. reflexivity. Qed.
Lemma conf_ok : name_ok (B "conf"). Proof. apply name_okb_ok. reflexivity. Qed.
Lemma strip_conf : strip_slashes configPath = configPath. Proof. reflexivity. Qed.

Lemma stat_found fs p : (match stat fs true p with SNode _ => true | SErr _ => false end) = true <-> exists i, lookup fs true p = Found i.
Proof. unfold stat. destruct (lookup fs true p); split; try discriminate; eauto; intros (i & H); discriminate. Qed.

Section FirstProofs.
  Variables (parse : bytes -> option conf) (text : bytes) (exts : list bytes).
  Notation search := (search exts). Notation fstep := (fstep parse text exts). Notation fs_steps := (fs_steps parse text exts).

  Lemma search_none fs : search fs = None <-> forall e, In e (B "json" :: exts) -> forall i, lookup fs true (config_file e) <> Found i.
  Proof.
    unfold FirstStart.search. split.
    - intros H e He i Hi. pose proof (find_none _ _ H (config_file e) (in_map _ _ _ He)) as Hn. cbn beta in Hn.
      assert (Ht : (match stat fs true (config_file e) with SNode _ => true | SErr _ => false end) = true) by (apply stat_found; eauto). congruence.
    - intros H. destruct (find _ _) as [p|] eqn:E; [|reflexivity]. exfalso. apply find_some in E as [Hin Hs]. apply in_map_iff in Hin as (e & <- & He). apply stat_found in Hs as (i & Hi). exact (H e He i Hi).
  Qed.
  Lemma search_json fs i : lookup fs true FileAbsPath = Found i -> search fs = Some FileAbsPath.
  Proof. intros H. unfold FirstStart.search. cbn [map find]. replace (config_file (B "json")) with FileAbsPath by reflexivity. unfold stat. rewrite H. reflexivity. Qed.

  Variable fs0 : fsys.
  Hypothesis Hwf : wf_fs fs0.
  Hypothesis Hslash : Forall (fun e => ~ In slash e) exts.
  Hypothesis Htext : parse text = Some defaults.
  Hypothesis Hempty : parse [] = None.

  (** Everything there was is still there. *)
  Definition keeps (fs : fsys) : Prop :=
    fs_next fs0 <= fs_next fs /\ (forall f q i, named fs0 f q i -> named fs f q i) /\ (forall i, fs_at fs0 i <> None -> ~ is_dir fs0 i -> fs_at fs i = fs_at fs0 i).

  Definition none_yet (fs : fsys) : Prop := search fs = None /\ forall i, lookup fs false FileAbsPath <> Found i.
  Definition early (pc : fpc) : Prop := match pc with FSearch | FProbe | FMkdir | FCreate | FCrash _ | FKilled => True | _ => False end.

  Definition the_file (fs : fsys) (F : nat) (d : bytes) : Prop :=
    lookup fs false FileAbsPath = Found F /\ lookup fs true FileAbsPath = Found F /\ fs_at fs F = Some (NFile d all_perm).
  Definition late_ok (F : nat) (d : bytes) (x : bytes * fpc) : Prop :=
    match snd x with
    | FOpen p => p = FileAbsPath
    | FWrite i => i = F /\ d = []
    | FInit c => c = defaults /\ d = text
    | FDone c1 c2 => c1 = defaults /\ d = text /\ (fst x = [] \/ fst x = FileAbsPath -> c2 = defaults)
    | _ => True
    end.
  Definition writing (x : bytes * fpc) : bool := match snd x with FWrite _ => true | _ => false end.
  Definition writers (l : list (bytes * fpc)) : nat := length (filter writing l).

  Definition inv (s : starts) : Prop :=
    wf_fs (st_fs s) /\ keeps (st_fs s) /\
    ((none_yet (st_fs s) /\ Forall (fun x => early (snd x)) (st_procs s)) \/
     (exists F d, fs_at fs0 F = None /\ the_file (st_fs s) F d /\ (d = [] \/ d = text) /\ Forall (late_ok F d) (st_procs s) /\ writers (st_procs s) <= 1)).

  Lemma keeps_create fs path n fs' : wf_fs fs -> keeps fs -> create fs path n = (fs', None) -> keeps fs'.
  Proof.
    intros Hw (K1 & K2 & K3) HC. pose proof HC as HC'. unfold create in HC. destruct (lookup fs false path) as [j|dir nm|er] eqn:El; try discriminate.
    destruct (lookup_missing fs false path dir nm El) as (es & p & Hd & Hs & He & Hok). rewrite Hd in HC. destruct (may_write p) eqn:Ew; [|discriminate]. injection HC as <-.
    split; [cbn; lia|]. split.
    - intros f q i Hq. eapply create_frame; [exact Hw|exact HC'|]. apply K2. exact Hq.
    - intros i Hi Hno. assert (Hx : fs_at fs i = fs_at fs0 i) by (apply K3; assumption). rewrite (at_old fs dir nm n Hw i); [exact Hx|congruence|]. intros ->. apply Hno. exists es, p. congruence.
  Qed.
  Lemma file_create fs path n fs' F d : wf_fs fs -> the_file fs F d -> create fs path n = (fs', None) -> the_file fs' F d.
  Proof.
    intros Hw (T1 & T2 & T3) HC. split; [exact (create_frame _ _ _ _ _ _ _ Hw HC T1)|]. split; [exact (create_frame _ _ _ _ _ _ _ Hw HC T2)|].
    unfold create in HC. destruct (lookup fs false path) as [j|dir nm|er] eqn:El; try discriminate.
    destruct (lookup_missing fs false path dir nm El) as (es & p & Hd & Hs & He & Hok). rewrite Hd in HC. destruct (may_write p) eqn:Ew; [|discriminate]. injection HC as <-.
    rewrite (at_old fs dir nm n Hw F); [exact T3|congruence|]. intros ->. congruence.
  Qed.

  (** Making ./conf. *)
  Lemma mkdir_conf fs : wf_fs fs -> let fs' := fst (Mkdir fs configPath) in
    wf_fs fs' /\ (keeps fs -> keeps fs') /\ (none_yet fs -> none_yet fs') /\ (forall F d, the_file fs F d -> the_file fs' F d).
  Proof.
    intros Hw. cbn zeta. unfold Mkdir. rewrite strip_conf. destruct (create fs configPath (NDir [] all_perm)) as [fs' [e|]] eqn:HC; cbn [fst].
    - apply create_err in HC. subst fs'. auto.
    - destruct (create_ok fs _ _ fs' Hw HC ltac:(left; eauto) ltac:(congruence)) as (dir & nm & es & p & El & Hd & He & Hok & Hwr & Hs & E & Hw' & Hnew & Hf & Ht).
      split; [exact Hw'|]. split; [intros HK; exact (keeps_create _ _ _ _ Hw HK HC)|]. split; [|intros F d HT; exact (file_create _ _ _ _ _ _ Hw HT HC)].
      assert (Hgone : forall f ext i, ~ In slash ext -> lookup fs' f (config_file ext) <> Found i).
      { intros f ext i Hext Hi. pose proof (lookup_child fs' f configPath (cname ext) ltac:(discriminate) (cname_ok ext Hext)) as HL. rewrite Ht in HL.
        specialize (HL [] all_perm Hnew). rewrite config_child in Hi. rewrite HL in Hi; [discriminate|]. right. intros j Hj. discriminate. }
      intros _. split.
      + apply search_none. intros e He'. intros i. apply Hgone. destruct He' as [<-|He']; [vm_compute; intuition discriminate|]. rewrite Forall_forall in Hslash. apply Hslash. exact He'.
      + intros i. replace FileAbsPath with (config_file (B "json")) by reflexivity. apply Hgone. vm_compute. intuition discriminate.
  Qed.

  Lemma json_new_at : new_at (NFile [] all_perm) false (comps FileAbsPath).
  Proof. right. split; [eauto|]. split; [reflexivity|]. right. reflexivity. Qed.

  Lemma writers_app l1 x l2 : writers (l1 ++ x :: l2) = writers l1 + (if writing x then 1 else 0) + writers l2.
  Proof. unfold writers. rewrite filter_app, app_length. cbn [filter]. destruct (writing x); cbn [length]; lia. Qed.
  Lemma no_writers l : Forall (fun x => early (snd x)) l -> writers l = 0.
  Proof. induction 1 as [|[fl pc] l H HF IH]; [reflexivity|]. unfold writers in *. cbn [filter]. destruct pc; cbn [writing snd] in *; try exact IH; contradiction. Qed.
  Lemma early_late F d l : Forall (fun x => early (snd x)) l -> Forall (late_ok F d) l.
  Proof. intros H. eapply Forall_impl; [|exact H]. intros [fl pc]. destruct pc; cbn; tauto. Qed.

  Lemma read_json fs F d : the_file fs F d -> read_config parse fs FileAbsPath = parse d.
  Proof. intros (T1 & T2 & T3). unfold read_config, open_read, stat. rewrite T2, T3. reflexivity. Qed.

  Lemma text_nonempty : text <> []. Proof. intros E. rewrite E in Htext. congruence. Qed.

  Lemma inv_init : none_yet fs0 -> inv {| st_fs := fs0; st_procs := [] |}.
  Proof. intros H. split; [exact Hwf|]. split; [split; [cbn; lia|split; auto]|]. left. split; [exact H|constructor]. Qed.

  Lemma early_go fs flag pc l1 l2 fs' pc' : wf_fs fs -> keeps fs -> none_yet fs -> Forall (fun x => early (snd x)) (l1 ++ (flag, pc) :: l2) ->
    fstep flag fs pc = (fs', pc') -> inv {| st_fs := fs'; st_procs := l1 ++ (flag, pc') :: l2 |}.
  Proof.
    intros Hw HK HN HF Hst. apply Forall_app in HF as [HF1 HF2]. inversion_clear HF2 as [|? ? Hp HF2']. cbn [snd] in Hp.
    assert (Hset : forall fs1 pc1, wf_fs fs1 -> keeps fs1 -> none_yet fs1 -> early pc1 -> (fs1, pc1) = (fs', pc') -> inv {| st_fs := fs'; st_procs := l1 ++ (flag, pc') :: l2 |}).
    { intros fs1 pc1 H1 H2 H3 H4 [= <- <-]. split; [exact H1|]. split; [exact H2|]. left. split; [exact H3|]. apply Forall_app. split; [exact HF1|]. constructor; [exact H4|exact HF2']. }
    unfold FirstStart.fstep in Hst. destruct pc; try contradiction.
    - rewrite (proj1 HN) in Hst. (refine (Hset _ _ Hw HK HN _ Hst); exact I).
    - destruct (IsExist fs configPath); (refine (Hset _ _ Hw HK HN _ Hst); exact I).
    - destruct (mkdir_conf fs Hw) as (M1 & M2 & M3 & M4). (refine (Hset _ _ M1 (M2 HK) (M3 HN) _ Hst); exact I).
    - destruct (create fs FileAbsPath (NFile [] all_perm)) as [fs1 [e|]] eqn:HC.
      { apply create_err in HC. subst fs1. (refine (Hset _ _ Hw HK HN _ Hst); exact I). }
      destruct (create_ok _ _ _ fs1 Hw HC json_new_at ltac:(congruence)) as (dir & nm & es & p & El & Hd & He & Hok & Hwr & Hs & E' & Hw' & Hnew & Hf & Ht).
      injection Hst as <- <-.
      split; [exact Hw'|]. split; [exact (keeps_create _ _ _ _ Hw HK HC)|]. right. exists (fs_next fs), [].
      split; [apply (wf_fresh fs0 Hwf); exact (proj1 HK)|]. split; [split; [exact Hf|split; [exact Ht|exact Hnew]]|]. split; [left; reflexivity|]. split.
      { apply Forall_app. split; [apply early_late; exact HF1|]. constructor; [split; reflexivity|apply early_late; exact HF2']. }
      cbn [st_procs]. rewrite writers_app, (no_writers l1 HF1), (no_writers l2 HF2'). cbn. lia.
    - (refine (Hset _ _ Hw HK HN _ Hst); exact I).
    - (refine (Hset _ _ Hw HK HN _ Hst); exact I).
  Qed.

  Lemma write_go fs F l1 flag l2 : fs_at fs0 F = None -> wf_fs fs -> keeps fs -> the_file fs F [] -> Forall (late_ok F []) l1 -> Forall (late_ok F []) l2 -> writers l1 + 1 + writers l2 <= 1 ->
    inv {| st_fs := set_data fs F text; st_procs := l1 ++ (flag, FInit defaults) :: l2 |}.
  Proof.
    intros HF0 Hw HK HT HF1 HF2 Hc. split; [apply set_wf; exact Hw|]. split.
    { destruct HK as (K1 & K2 & K3). split; [exact K1|]. split; [intros f q j Hq; unfold named; cbn [st_fs]; rewrite lookup_set; exact (K2 f q j Hq)|].
      intros j Hj Hno. cbn [st_fs]. rewrite set_at. pose proof (K3 j Hj Hno) as Hx. rewrite Hx. destruct (Nat.eqb_spec j F) as [->|]; [congruence|]. destruct (fs_at fs0 j) as [[| |]|]; reflexivity. }
    right. exists F, text. split; [exact HF0|]. cbn [st_fs st_procs]. destruct HT as (T1 & T2 & T3).
    split; [split; [rewrite lookup_set; exact T1|split; [rewrite lookup_set; exact T2|rewrite set_at, T3, Nat.eqb_refl; reflexivity]]|].
    split; [right; reflexivity|].
    assert (Hup : forall l, writers l = 0 -> Forall (late_ok F []) l -> Forall (late_ok F text) l).
    { intros l Hl HFl. induction HFl as [|[fl pc] l H HFl IH]; [constructor|]. unfold writers in Hl. cbn [filter] in Hl. destruct (writing (fl, pc)) eqn:Ew; [discriminate|]. constructor; [|exact (IH Hl)].
      destruct pc; cbn in *; try exact H; try discriminate; destruct H as [H1 H2]; [split; [exact H1|reflexivity]|]. split; [exact H1|]. split; [reflexivity|apply H2]. }
    split; [|rewrite writers_app; cbn [writing snd]; lia]. apply Forall_app. split; [apply Hup; [lia|exact HF1]|]. constructor; [split; reflexivity|]. apply Hup; [lia|exact HF2].
  Qed.

  Lemma late_go fs F d flag pc l1 l2 fs' pc' : fs_at fs0 F = None -> wf_fs fs -> keeps fs -> the_file fs F d -> d = [] \/ d = text ->
    Forall (late_ok F d) (l1 ++ (flag, pc) :: l2) -> writers (l1 ++ (flag, pc) :: l2) <= 1 ->
    fstep flag fs pc = (fs', pc') -> inv {| st_fs := fs'; st_procs := l1 ++ (flag, pc') :: l2 |}.
  Proof.
    intros HF0 Hw HK HT Hd HF Hc Hst. apply Forall_app in HF as [HF1 HF2]. inversion_clear HF2 as [|? ? Hp HF2']. unfold late_ok in Hp. cbn [snd fst] in Hp. rewrite writers_app in Hc.
    assert (Hset : forall fs1 pc1, wf_fs fs1 -> keeps fs1 -> the_file fs1 F d -> late_ok F d (flag, pc1) -> writing (flag, pc1) = false -> (fs1, pc1) = (fs', pc') -> inv {| st_fs := fs'; st_procs := l1 ++ (flag, pc') :: l2 |}).
    { intros fs1 pc1 H1 H2 H3 H4 H5 [= <- <-]. split; [exact H1|]. split; [exact H2|]. right. exists F, d. split; [exact HF0|]. split; [exact H3|]. split; [exact Hd|]. split; [apply Forall_app; split; [exact HF1|constructor; assumption]|].
      cbn [st_procs]. rewrite writers_app, H5. lia. }
    unfold FirstStart.fstep in Hst. destruct pc.
    - rewrite (search_json _ F (proj1 (proj2 HT))) in Hst. (refine (Hset _ _ Hw HK HT _ _ Hst); [exact eq_refl|reflexivity]).
    - subst p. rewrite (read_json _ F d HT) in Hst. destruct Hd as [->| ->].
      + rewrite Hempty in Hst. (refine (Hset _ _ Hw HK HT _ _ Hst); [exact I|reflexivity]).
      + rewrite Htext in Hst. (refine (Hset _ _ Hw HK HT _ _ Hst); [exact (conj eq_refl eq_refl)|reflexivity]).
    - destruct (IsExist fs configPath); (refine (Hset _ _ Hw HK HT _ _ Hst); [exact I|reflexivity]).
    - destruct (mkdir_conf fs Hw) as (M1 & M2 & M3 & M4). (refine (Hset _ _ M1 (M2 HK) (M4 _ _ HT) _ _ Hst); [exact I|reflexivity]).
    - unfold create in Hst. rewrite (proj1 HT) in Hst. (refine (Hset _ _ Hw HK HT _ _ Hst); [exact I|reflexivity]).
    - destruct Hp as [-> ->]. injection Hst as <- <-. cbn [writing snd] in Hc. apply write_go; assumption.
    - destruct Hp as [-> ->]. destruct flag as [|x flag].
      + (refine (Hset _ _ Hw HK HT _ _ Hst); [exact (conj eq_refl (conj eq_refl (fun _ => eq_refl)))|reflexivity]).
      + destruct (read_config parse fs (x :: flag)) as [c2|] eqn:Ec; [|(refine (Hset _ _ Hw HK HT _ _ Hst); [exact I|reflexivity])].
        refine (Hset _ _ Hw HK HT _ _ Hst); [|reflexivity]. split; [reflexivity|]. split; [reflexivity|]. cbn [fst]. intros [Hf|Hf]; [discriminate|]. rewrite Hf in Ec. rewrite (read_json _ F text HT) in Ec. congruence.
    - (refine (Hset _ _ Hw HK HT _ _ Hst); [exact Hp|reflexivity]).
    - (refine (Hset _ _ Hw HK HT _ _ Hst); [exact I|reflexivity]).
    - (refine (Hset _ _ Hw HK HT _ _ Hst); [exact I|reflexivity]).
  Qed.

  Lemma inv_step s s' : inv s -> fs_step parse text exts s s' -> inv s'.
  Proof.
    intros (Hw & HK & HI) Hst. destruct Hst as [l1 flag pc l2 E|l1 flag pc l2 E|flag].
    - rewrite E in HI. destruct (fstep flag (st_fs s) pc) as [fs' pc'] eqn:Est. cbn [fst snd]. destruct HI as [[HN HF]|(F & d & HF0 & HT & Hd & HF & Hc)].
      + exact (early_go _ _ _ _ _ _ _ Hw HK HN HF Est).
      + exact (late_go _ _ _ _ _ _ _ _ _ HF0 Hw HK HT Hd HF Hc Est).
    - rewrite E in HI. split; [exact Hw|]. split; [exact HK|]. cbn [st_fs st_procs]. destruct HI as [[HN HF]|(F & d & HF0 & HT & Hd & HF & Hc)].
      + left. split; [exact HN|]. apply Forall_app in HF as [HF1 HF2]. inversion_clear HF2. apply Forall_app. split; [assumption|]. constructor; [exact I|assumption].
      + right. exists F, d. split; [exact HF0|]. split; [exact HT|]. split; [exact Hd|]. split.
        * apply Forall_app in HF as [HF1 HF2]. inversion_clear HF2. apply Forall_app. split; [assumption|]. constructor; [exact I|assumption].
        * rewrite writers_app in *. cbn [writing snd]. destruct (writing (flag, pc)); lia.
    - split; [exact Hw|]. split; [exact HK|]. cbn [st_fs st_procs]. destruct HI as [[HN HF]|(F & d & HF0 & HT & Hd & HF & Hc)].
      + left. split; [exact HN|]. apply Forall_app. split; [exact HF|]. constructor; [exact I|constructor].
      + right. exists F, d. split; [exact HF0|]. split; [exact HT|]. split; [exact Hd|]. split; [apply Forall_app; split; [exact HF|constructor; [exact I|constructor]]|].
        rewrite writers_app. cbn [writing snd writers filter length]. lia.
  Qed.

  Lemma inv_reach s : none_yet fs0 -> fs_steps {| st_fs := fs0; st_procs := [] |} s -> inv s.
  Proof. intros HN. remember {| st_fs := fs0; st_procs := [] |} as s0. induction 1 as [|s s' s'' H IH Hst]; [subst; apply inv_init; exact HN|]. eapply inv_step; [apply IH; assumption|exact Hst]. Qed.
End FirstProofs.
