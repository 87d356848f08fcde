(** FirstStartPf.v -- C115: the configuration file, first starts, simultaneous starts and starts that are killed. *)
From Verif Require Import Base GoLib TorrentCmd FileSys FileSysSpec FileSysProofs FileSysPf Startup FirstStart FirstStartProofs.
Local Open Scope list_scope.

(** C115: where there is no configuration file, any number of processes may start, in any order and interleaving, and be
    killed at any call: whatever had a name keeps it and files keep their contents; ./conf/config.json is absent, empty
    or the defaults; a process that starts has the defaults (for --config: if it names that file), and then the file
    is complete; at most one process is writing it. *)
Lemma C115_first_starts_pf : forall parse text exts fs0 s, wf_fs fs0 -> Forall (fun e => ~ In slash e) exts -> parse text = Some defaults -> parse [] = None ->
  search exts fs0 = None -> (forall i, ~ named fs0 false FileAbsPath i) -> fs_steps parse text exts {| st_fs := fs0; st_procs := [] |} s ->
  (forall f q i, named fs0 f q i -> named (st_fs s) f q i) /\
  (forall i, fs_at fs0 i <> None -> ~ is_dir fs0 i -> fs_at (st_fs s) i = fs_at fs0 i) /\
  ((forall i, ~ named (st_fs s) false FileAbsPath i) \/
   exists i d, named (st_fs s) true FileAbsPath i /\ fs_at (st_fs s) i = Some (NFile d all_perm) /\ (d = [] \/ d = text)) /\
  (forall flag c1 c2, In (flag, FDone c1 c2) (st_procs s) -> c1 = defaults /\ (flag = [] \/ flag = FileAbsPath -> c2 = defaults) /\
     exists i, named (st_fs s) true FileAbsPath i /\ fs_at (st_fs s) i = Some (NFile text all_perm)) /\
  length (filter (fun x => match snd x with FWrite _ => true | _ => false end) (st_procs s)) <= 1.
Proof.
  intros parse text exts fs0 s Hw Hsl Ht He Hs Hn Hst.
  destruct (inv_reach parse text exts fs0 Hw Hsl Ht He s (conj Hs Hn) Hst) as (Hw' & (K1 & K2 & K3) & HI).
  split; [exact K2|]. split; [exact K3|]. destruct HI as [[HN HF]|(F & d & HF0 & HT & Hd & HF & Hc)].
  - split; [left; exact (proj2 HN)|]. rewrite Forall_forall in HF. split; [intros flag c1 c2 Hin; destruct (HF _ Hin)|].
    pose proof (no_writers (st_procs s)) as H0. unfold writers, writing in H0. rewrite H0; [lia|]. apply Forall_forall. exact HF.
  - destruct HT as (T1 & T2 & T3). split; [right; exists F, d; split; [exact T2|split; [exact T3|exact Hd]]|]. split; [|exact Hc].
    intros flag c1 c2 Hin. rewrite Forall_forall in HF. destruct (HF _ Hin) as (H1 & H2 & H3). split; [exact H1|]. split; [exact H3|]. exists F. split; [exact T2|]. rewrite <- H2. exact T3.
Qed.

(** C115: where there is one, no start changes anything; every process gets what is in the file (and in the file named by --config). *)
Lemma C115_existing_pf : forall parse text exts fs0 path s, search exts fs0 = Some path -> fs_steps parse text exts {| st_fs := fs0; st_procs := [] |} s ->
  st_fs s = fs0 /\
  (forall flag c1 c2, In (flag, FDone c1 c2) (st_procs s) -> read_config parse fs0 path = Some c1 /\ match flag with [] => c2 = c1 | _ => read_config parse fs0 flag = Some c2 end) /\
  (forall flag msg, In (flag, FCrash msg) (st_procs s) -> msg = B "read config panic" /\ (read_config parse fs0 path = None \/ flag <> [] /\ read_config parse fs0 flag = None)).
Proof.
  intros parse text exts fs0 path s Hs Hst.
  set (ok := fun x : bytes * fpc => match snd x with
    | FSearch | FKilled => True | FOpen p => p = path | FInit c => read_config parse fs0 path = Some c
    | FDone c1 c2 => read_config parse fs0 path = Some c1 /\ match fst x with [] => c2 = c1 | _ => read_config parse fs0 (fst x) = Some c2 end
    | FCrash msg => msg = B "read config panic" /\ (read_config parse fs0 path = None \/ fst x <> [] /\ read_config parse fs0 (fst x) = None)
    | _ => False end).
  assert (Hinv : st_fs s = fs0 /\ Forall ok (st_procs s)).
  { remember {| st_fs := fs0; st_procs := [] |} as s0. induction Hst as [|s s' s'' H IH Hstep]; [subst; split; [reflexivity|constructor]|]. destruct (IH Heqs0) as [E HF]. clear IH.
    destruct Hstep as [l1 flag pc l2 El|l1 flag pc l2 El|flag]; cbn [st_fs st_procs].
    - rewrite El in HF. apply Forall_app in HF as [HF1 HF2]. inversion_clear HF2 as [|? ? Hp HF2']. rewrite E.
      assert (Hset : forall pc', ok (flag, pc') -> forall fs1 pc1, (fs0, pc') = (fs1, pc1) -> fs1 = fs0 /\ Forall ok (l1 ++ (flag, pc1) :: l2)).
      { intros pc' H' fs1 pc1 [= <- <-]. split; [reflexivity|]. apply Forall_app. split; [exact HF1|]. constructor; [exact H'|exact HF2']. }
      unfold ok in Hp. cbn [fst snd] in Hp. destruct (fstep parse text exts flag fs0 pc) as [fs1 pc1] eqn:Est. cbn [fst snd]. unfold fstep in Est. destruct pc; try contradiction.
      + rewrite Hs in Est. refine (Hset _ _ _ _ Est). reflexivity.
      + subst p. assert (Hok : forall r, r = read_config parse fs0 path -> ok (flag, match r with Some c => FInit c | None => FCrash (B "read config panic") end)).
        { intros [c|] Hr; unfold ok; cbn [fst snd]; [congruence|]. split; [reflexivity|]. left. congruence. }
        specialize (Hok _ eq_refl). destruct (read_config parse fs0 path); refine (Hset _ Hok _ _ Est).
      + assert (Hok : forall x t r, flag = x :: t -> r = read_config parse fs0 flag -> ok (flag, match r with Some c2 => FDone c c2 | None => FCrash (B "read config panic") end)).
        { intros x t [c2|] Hx Hr; unfold ok; cbn [fst snd]; [split; [exact Hp|rewrite Hx in *; congruence]|]. split; [reflexivity|]. right. split; congruence. }
        destruct flag as [|x flag]; [refine (Hset _ _ _ _ Est); split; [exact Hp|reflexivity]|]. specialize (Hok _ _ _ eq_refl eq_refl).
        destruct (read_config parse fs0 (x :: flag)); refine (Hset _ Hok _ _ Est).
      + refine (Hset _ _ _ _ Est). exact Hp.
      + refine (Hset _ _ _ _ Est). exact Hp.
      + refine (Hset _ _ _ _ Est). exact Hp.
    - split; [exact E|]. rewrite El in HF. apply Forall_app in HF as [HF1 HF2]. inversion_clear HF2 as [|? ? Hp HF2']. apply Forall_app. split; [exact HF1|]. constructor; [exact I|exact HF2'].
    - split; [exact E|]. apply Forall_app. split; [exact HF|]. constructor; [exact I|constructor]. }
  destruct Hinv as [E HF]. rewrite Forall_forall in HF. split; [exact E|]. split.
  - intros flag c1 c2 Hin. exact (HF _ Hin).
  - intros flag msg Hin. exact (HF _ Hin).
Qed.

(** One call of a lone process. *)
Section Solo.
  Variables (parse : bytes -> option conf) (text : bytes) (exts : list bytes).
  Notation go := (solo parse text exts).
  Lemma solo_S n fl x : go (S n) fl x = go n fl (fstep parse text exts fl (fst x) (snd x)). Proof. reflexivity. Qed.
  Lemma fstep_eq fl fs pc : fstep parse text exts fl fs pc = match pc with
    | FSearch => match search exts fs with Some p => (fs, FOpen p) | None => (fs, FProbe) end
    | FOpen p => match read_config parse fs p with Some c => (fs, FInit c) | None => (fs, FCrash (B "read config panic")) end
    | FProbe => if IsExist fs configPath then (fs, FCreate) else (fs, FMkdir)
    | FMkdir => (fst (Mkdir fs configPath), FCreate)
    | FCreate => match create fs FileAbsPath (NFile [] all_perm) with
                 | (fs', None) => (fs', FWrite (fs_next fs))
                 | (fs', Some _) => (fs', FCrash (B "init flush config err"))
                 end
    | FWrite i => (set_data fs i text, FInit defaults)
    | FInit c => match fl with
                 | [] => (fs, FDone c c)
                 | _ => match read_config parse fs fl with Some c2 => (fs, FDone c c2) | None => (fs, FCrash (B "read config panic")) end
                 end
    | x => (fs, x)
    end.
  Proof. reflexivity. Qed.
  Local Ltac one := intros; rewrite solo_S, fstep_eq; cbn [fst snd]; repeat match goal with H : _ = _ |- _ => rewrite H end; reflexivity.
  Lemma go_found n fl fs p : search exts fs = Some p -> go (S n) fl (fs, FSearch) = go n fl (fs, FOpen p). Proof. one. Qed.
  Lemma go_not_found n fl fs : search exts fs = None -> go (S n) fl (fs, FSearch) = go n fl (fs, FProbe). Proof. one. Qed.
  Lemma go_read n fl fs p c : read_config parse fs p = Some c -> go (S n) fl (fs, FOpen p) = go n fl (fs, FInit c). Proof. one. Qed.
  Lemma go_unread n fl fs p : read_config parse fs p = None -> go (S n) fl (fs, FOpen p) = go n fl (fs, FCrash (B "read config panic")). Proof. one. Qed.
  Lemma go_there n fl fs : IsExist fs configPath = true -> go (S n) fl (fs, FProbe) = go n fl (fs, FCreate). Proof. one. Qed.
  Lemma go_not_there n fl fs : IsExist fs configPath = false -> go (S n) fl (fs, FProbe) = go n fl (fs, FMkdir). Proof. one. Qed.
  Lemma go_mkdir n fl fs : go (S n) fl (fs, FMkdir) = go n fl (fst (Mkdir fs configPath), FCreate). Proof. one. Qed.
  Lemma go_created n fl fs fs' : create fs FileAbsPath (NFile [] all_perm) = (fs', None) -> go (S n) fl (fs, FCreate) = go n fl (fs', FWrite (fs_next fs)). Proof. one. Qed.
  Lemma go_not_created n fl fs fs' e : create fs FileAbsPath (NFile [] all_perm) = (fs', Some e) -> go (S n) fl (fs, FCreate) = go n fl (fs', FCrash (B "init flush config err")). Proof. one. Qed.
  Lemma go_write n fl fs i : go (S n) fl (fs, FWrite i) = go n fl (set_data fs i text, FInit defaults). Proof. one. Qed.
  Lemma go_noflag n fs c : go (S n) [] (fs, FInit c) = go n [] (fs, FDone c c). Proof. one. Qed.
  Lemma go_flag n x fl fs c c2 : read_config parse fs (x :: fl) = Some c2 -> go (S n) (x :: fl) (fs, FInit c) = go n (x :: fl) (fs, FDone c c2). Proof. one. Qed.
  Lemma go_badflag n x fl fs c : read_config parse fs (x :: fl) = None -> go (S n) (x :: fl) (fs, FInit c) = go n (x :: fl) (fs, FCrash (B "read config panic")). Proof. one. Qed.
  Lemma go_done n fl fs c c2 : go n fl (fs, FDone c c2) = (fs, FDone c c2). Proof. induction n as [|n IH]; [reflexivity|]. rewrite solo_S, fstep_eq. exact IH. Qed.
  Lemma go_crash n fl fs m : go n fl (fs, FCrash m) = (fs, FCrash m). Proof. induction n as [|n IH]; [reflexivity|]. rewrite solo_S, fstep_eq. exact IH. Qed.
End Solo.

(** C115: a start with nothing else running ends within six calls, in the way the start-up model (C105) is told: with the
    file's configuration, or the defaults written, or the panic; then the file named by --config decides. *)
Lemma C115_alone_pf : forall parse text exts fs flag, exists fs' pc, (forall n, 6 <= n -> solo parse text exts n flag (fs, FSearch) = (fs', pc)) /\
  match met parse exts fs with
  | CfBad => fs' = fs /\ pc = FCrash (B "read config panic")
  | CfMissing false => pc = FCrash (B "init flush config err")
  | r => exists c1, r = (match r with CfOk _ => CfOk c1 | _ => CfMissing true end) /\ (r = CfMissing true -> c1 = defaults) /\
           match flag with [] => pc = FDone c1 c1
           | _ => match read_config parse fs' flag with Some c2 => pc = FDone c1 c2 | None => pc = FCrash (B "read config panic") end end
  end.
Proof.
  intros parse text exts fs flag.
  assert (Hinit : forall c fs1, exists fs' pc, (forall n, 1 <= n -> solo parse text exts n flag (fs1, FInit c) = (fs', pc)) /\ fs' = fs1 /\
    match flag with [] => pc = FDone c c | _ => match read_config parse fs' flag with Some c2 => pc = FDone c c2 | None => pc = FCrash (B "read config panic") end end).
  { intros c fs1. destruct flag as [|x flag].
    - exists fs1, (FDone c c). split; [|split; reflexivity]. intros [|n] Hn; [lia|]. rewrite go_noflag. apply go_done.
    - destruct (read_config parse fs1 (x :: flag)) as [c2|] eqn:Er.
      + exists fs1, (FDone c c2). split; [|split; [reflexivity|rewrite Er; reflexivity]]. intros [|n] Hn; [lia|]. rewrite (go_flag _ _ _ _ _ _ _ _ _ Er). apply go_done.
      + exists fs1, (FCrash (B "read config panic")). split; [|split; [reflexivity|rewrite Er; reflexivity]]. intros [|n] Hn; [lia|]. rewrite (go_badflag _ _ _ _ _ _ _ _ Er). apply go_crash. }
  unfold met. destruct (search exts fs) as [p|] eqn:Es.
  - destruct (read_config parse fs p) as [c|] eqn:Er.
    + destruct (Hinit c fs) as (fs' & pc & H1 & H2 & H3). exists fs', pc. split.
      * intros [|[|n]] Hn; [lia|lia|]. rewrite (go_found _ _ _ _ _ _ _ Es), (go_read _ _ _ _ _ _ _ _ Er). apply H1. lia.
      * exists c. split; [reflexivity|]. split; [discriminate|exact H3].
    + exists fs, (FCrash (B "read config panic")). split; [|split; reflexivity]. intros [|[|n]] Hn; [lia|lia|]. rewrite (go_found _ _ _ _ _ _ _ Es), (go_unread _ _ _ _ _ _ _ Er). apply go_crash.
  - set (fsm := if IsExist fs configPath then fs else fst (Mkdir fs configPath)).
    assert (Hto : forall n, 3 <= n -> exists m, n <= m + 3 /\ m <= n /\ solo parse text exts n flag (fs, FSearch) = solo parse text exts m flag (fsm, FCreate)).
    { intros [|[|[|n]]] Hn; try lia. subst fsm. destruct (IsExist fs configPath) eqn:Ee.
      - exists (S n). split; [lia|]. split; [lia|]. rewrite (go_not_found _ _ _ _ _ _ Es). apply go_there. exact Ee.
      - exists n. split; [lia|]. split; [lia|]. rewrite (go_not_found _ _ _ _ _ _ Es), (go_not_there _ _ _ _ _ _ Ee). apply go_mkdir. }
    destruct (create fsm FileAbsPath (NFile [] all_perm)) as [fs1 [e|]] eqn:Ec.
    + exists fs1, (FCrash (B "init flush config err")). split; [|reflexivity]. intros n Hn. destruct (Hto n ltac:(lia)) as (m & M1 & M2 & ->).
      destruct m as [|m]; [lia|]. rewrite (go_not_created _ _ _ _ _ _ _ _ Ec). apply go_crash.
    + destruct (Hinit defaults (set_data fs1 (fs_next fsm) text)) as (fs' & pc & H1 & H2 & H3). exists fs', pc. split.
      * intros n Hn. destruct (Hto n ltac:(lia)) as (m & M1 & M2 & ->). destruct m as [|[|[|m]]]; try lia. rewrite (go_created _ _ _ _ _ _ _ Ec), go_write. apply H1. lia.
      * exists defaults. split; [reflexivity|]. split; [reflexivity|exact H3].
Qed.

(** A directory without conf has no configuration file. *)
Lemma no_conf exts fs es p : Forall (fun e => ~ In slash e) exts -> fs_at fs (fs_cwd fs) = Some (NDir es p) -> may_search p = true -> ~ In (B "conf") (map fst es) ->
  (forall f, lookup fs f configPath = Missing (fs_cwd fs) (B "conf")) /\ search exts fs = None.
Proof.
  intros Hsl Hcwd Hs Hno.
  assert (Hdot : lookup fs true (B ".") = Found (fs_cwd fs)).
  { unfold lookup. replace (rooted (B ".")) with false by reflexivity. replace (comps (B ".")) with [B "."] by reflexivity. change (walk fs 40 true (fs_cwd fs) (fs_above fs) [B "."] = Found (fs_cwd fs)). rewrite walk_cons, Hcwd. replace (is_empty (B ".")) with false by reflexivity. rewrite Hs. cbn [negb].
    replace (beq (B ".") (B ".")) with true by reflexivity. apply walk_nil. }
  assert (Hent : entry es (B "conf") = None) by (apply entry_none; exact Hno).
  assert (Hconf : forall f, lookup fs f configPath = Missing (fs_cwd fs) (B "conf")).
  { intros f. pose proof (lookup_child fs f (B ".") (B "conf") ltac:(discriminate) conf_ok) as HL. rewrite Hdot in HL. rewrite conf_child. rewrite (HL es p Hcwd); [rewrite Hs, Hent; reflexivity|]. right. intros i Hi. congruence. }
  assert (Hse : search exts fs = None).
  { apply search_none. intros e He i. rewrite config_child. assert (Hok : name_ok (cname e)).
    { apply cname_ok. destruct He as [<-|He]; [vm_compute; intuition discriminate|]. rewrite Forall_forall in Hsl. apply Hsl. exact He. }
    pose proof (lookup_child fs true configPath (cname e) ltac:(discriminate) Hok) as HL. rewrite (Hconf true) in HL. rewrite HL. discriminate. }
  split; [exact Hconf|exact Hse].
Qed.

(** C115: in a directory that may be searched and written, where there is nothing called conf, the first start makes
    ./conf/config.json with the defaults and starts with them; later starts find it and change nothing. *)
Lemma C115_fresh_directory_pf : forall parse text exts fs es p, wf_fs fs -> Forall (fun e => ~ In slash e) exts -> parse text = Some defaults ->
  fs_at fs (fs_cwd fs) = Some (NDir es p) -> may_search p = true -> may_write p = true -> ~ In (B "conf") (map fst es) ->
  exists fs' i, (forall n, 6 <= n -> solo parse text exts n [] (fs, FSearch) = (fs', FDone defaults defaults)) /\
    named fs' true FileAbsPath i /\ fs_at fs' i = Some (NFile text all_perm) /\
    (forall n, 3 <= n -> solo parse text exts n [] (fs', FSearch) = (fs', FDone defaults defaults)).
Proof.
  intros parse text exts fs es p Hw Hsl Ht Hcwd Hs Hwr Hno.
  destruct (no_conf exts fs es p Hsl Hcwd Hs Hno) as [Hconf Hse].
  assert (Hie : IsExist fs configPath = false) by (unfold IsExist, stat; rewrite (Hconf true); reflexivity).
  destruct (create fs configPath (NDir [] all_perm)) as [fs1 oe] eqn:Hmk.
  assert (oe = None) as -> by (unfold create in Hmk; rewrite (Hconf false), Hcwd, Hwr in Hmk; congruence).
  destruct (create_ok fs _ _ fs1 Hw Hmk ltac:(left; eauto) ltac:(congruence)) as (dir & nm & es1 & p1 & El & Hd & He & Hok & Hwr1 & Hs1 & E1 & Hw1 & Hnew & Hf & Htt).
  assert (Hmiss : lookup fs1 false FileAbsPath = Missing (fs_next fs) (cname (B "json"))).
  { rewrite json_child. assert (Hokj : name_ok (cname (B "json"))) by (apply cname_ok; vm_compute; intuition discriminate).
    pose proof (lookup_child fs1 false configPath _ ltac:(discriminate) Hokj) as HL. rewrite Htt in HL. rewrite (HL [] all_perm Hnew); [reflexivity|left; reflexivity]. }
  destruct (create fs1 FileAbsPath (NFile [] all_perm)) as [fs2 oe] eqn:Hcr.
  assert (oe = None) as -> by (unfold create in Hcr; rewrite Hmiss, Hnew in Hcr; cbn [may_write all_perm] in Hcr; congruence).
  destruct (create_ok fs1 _ _ fs2 Hw1 Hcr json_new_at ltac:(congruence)) as (dir2 & nm2 & es2 & p2 & El2 & Hd2 & He2 & Hok2 & Hwr2 & Hs2 & E2 & Hw2 & Hnew2 & Hf2 & Htt2).
  set (fs3 := set_data fs2 (fs_next fs1) text). exists fs3, (fs_next fs1).
  assert (Hl3 : lookup fs3 true FileAbsPath = Found (fs_next fs1)) by (unfold fs3; rewrite lookup_set; exact Htt2).
  assert (Ha3 : fs_at fs3 (fs_next fs1) = Some (NFile text all_perm)) by (unfold fs3; rewrite set_at, Hnew2, Nat.eqb_refl; reflexivity).
  split; [|split; [exact Hl3|split; [exact Ha3|]]].
  - intros [|[|[|[|[|[|n]]]]]] Hn; try (clear -Hn; lia). rewrite (go_not_found _ _ _ _ _ _ Hse), (go_not_there _ _ _ _ _ _ Hie), go_mkdir. unfold Mkdir. rewrite strip_conf, Hmk. cbn [fst].
    rewrite (go_created _ _ _ _ _ _ _ Hcr), go_write, go_noflag. apply go_done.
  - assert (Hr : read_config parse fs3 FileAbsPath = Some defaults) by (unfold read_config, open_read, stat; rewrite Hl3, Ha3; exact Ht).
    intros [|[|[|n]]] Hn; try (clear -Hn; lia). rewrite (go_found _ _ _ _ _ _ _ (search_json exts fs3 _ Hl3)), (go_read _ _ _ _ _ _ _ _ Hr), go_noflag. apply go_done.
Qed.

(** C115, refuted: a first start that is killed between creating the file and writing it leaves an empty file, and from
    then on every start panics, for ever - nobody repairs it. *)
Lemma C115_killed_refuted_pf : forall parse text exts, Forall (fun e => ~ In slash e) exts -> parse [] = None ->
  (exists s i, wf_fs small_fs /\ fs_steps parse text exts {| st_fs := small_fs; st_procs := [] |} s /\ st_procs s = [([], FKilled)] /\
     named (st_fs s) true FileAbsPath i /\ fs_at (st_fs s) i = Some (NFile [] all_perm)) /\
  (forall s0 i s, Forall (fun x => snd x = FKilled) (st_procs s0) -> named (st_fs s0) true FileAbsPath i -> fs_at (st_fs s0) i = Some (NFile [] all_perm) ->
     fs_steps parse text exts s0 s -> st_fs s = st_fs s0 /\ forall flag c1 c2, ~ In (flag, FDone c1 c2) (st_procs s)).
Proof.
  intros parse text exts Hsl He. split.
  - pose (g := fun (s : starts) => match st_procs s with [(fl, pc)] => {| st_fs := fst (fstep parse text exts fl (st_fs s) pc); st_procs := [(fl, snd (fstep parse text exts fl (st_fs s) pc))] |} | _ => s end).
    assert (Hg : forall s0 s fl pc, st_procs s = [(fl, pc)] -> fs_steps parse text exts s0 s -> fs_steps parse text exts s0 (g s)).
    { intros s0 s fl pc Hp Hs. eapply fss_step; [exact Hs|]. unfold g. rewrite Hp. exact (fst_go parse text exts s [] fl pc [] Hp). }
    assert (Hse : search exts small_fs = None).
    { eapply (proj2 (no_conf exts small_fs _ _ Hsl eq_refl _ _)). Unshelve. reflexivity. vm_compute. intuition discriminate. }
    set (s0 := {| st_fs := small_fs; st_procs := [] |}).
    set (s1 := {| st_fs := small_fs; st_procs := [([], FSearch)] |}).
    assert (H1 : fs_steps parse text exts s0 s1) by (eapply fss_step; [apply fss_refl|]; exact (fst_new parse text exts s0 [])).
    assert (E2 : g s1 = {| st_fs := small_fs; st_procs := [([], FProbe)] |}) by (unfold g, s1; cbn [st_procs st_fs fstep]; rewrite Hse; reflexivity).
    pose proof (Hg s0 s1 [] FSearch eq_refl H1) as H2. rewrite E2 in H2.
    pose proof H2 as H3. apply (Hg s0 _ [] FProbe) in H3; [|reflexivity]. apply (Hg s0 _ [] FMkdir) in H3; [|vm_compute; reflexivity].
    apply (Hg s0 _ [] FCreate) in H3; [|vm_compute; reflexivity].
    match type of H3 with fs_steps _ _ _ _ ?s => exists {| st_fs := st_fs s; st_procs := [([], FKilled)] |}, 8 end.
    split; [exact small_wf|]. split.
    + eapply fss_step; [exact H3|]. apply (fst_kill parse text exts _ [] [] (FWrite 8) []). vm_compute. reflexivity.
    + split; [reflexivity|]. split; vm_compute; reflexivity.
  - intros s0 i s HF Hn Hat Hst.
    assert (Hsj : search exts (st_fs s0) = Some FileAbsPath) by (eapply search_json; exact Hn).
    assert (Hr : read_config parse (st_fs s0) FileAbsPath = None) by (unfold read_config, open_read, stat; unfold named in Hn; rewrite Hn, Hat; exact He).
    assert (Hinv : st_fs s = st_fs s0 /\ Forall (fun x => match snd x with FSearch | FKilled | FCrash _ => True | FOpen p => p = FileAbsPath | _ => False end) (st_procs s)).
    { remember s0 as sa eqn:Ea in Hst. induction Hst as [s|s s' s'' H IH Hstep]; [subst s; split; [reflexivity|]; eapply Forall_impl; [|exact HF]; intros [fl pc] E; cbn in *; rewrite E; exact I|].
      destruct (IH Ea) as [E HF']. clear IH. destruct Hstep as [l1 flag pc l2 El|l1 flag pc l2 El|flag]; cbn [st_fs st_procs].
      - rewrite El in HF'. apply Forall_app in HF' as [HF1 HF2]. inversion_clear HF2 as [|? ? Hp HF2']. rewrite E. cbn [snd] in Hp.
        assert (Hset : forall pc', (match pc' with FSearch | FKilled | FCrash _ => True | FOpen p => p = FileAbsPath | _ => False end) -> forall fs1 pc1, (st_fs s0, pc') = (fs1, pc1) ->
          fs1 = st_fs s0 /\ Forall (fun x => match snd x with FSearch | FKilled | FCrash _ => True | FOpen p => p = FileAbsPath | _ => False end) (l1 ++ (flag, pc1) :: l2)).
        { intros pc' H' fs1 pc1 [= <- <-]. split; [reflexivity|]. apply Forall_app. split; [exact HF1|]. constructor; [exact H'|exact HF2']. }
        destruct (fstep parse text exts flag (st_fs s0) pc) as [fs1 pc1] eqn:Est. cbn [fst snd]. unfold fstep in Est. destruct pc; try contradiction.
        + rewrite Hsj in Est. refine (Hset _ _ _ _ Est). reflexivity.
        + subst p. rewrite Hr in Est. refine (Hset _ _ _ _ Est). exact I.
        + refine (Hset _ _ _ _ Est). exact I.
        + refine (Hset _ _ _ _ Est). exact I.
      - split; [exact E|]. rewrite El in HF'. apply Forall_app in HF' as [HF1 HF2]. inversion_clear HF2 as [|? ? Hp HF2']. apply Forall_app. split; [exact HF1|]. constructor; [exact I|exact HF2'].
      - split; [exact E|]. apply Forall_app. split; [exact HF'|]. constructor; [exact I|constructor]. }
    destruct Hinv as [E HF']. split; [exact E|]. intros flag c1 c2 Hin. rewrite Forall_forall in HF'. exact (HF' _ Hin).
Qed.

(** Running the processes by a list of moves: None - a new one (without --config) starts; Some k - the k-th makes a call. *)
Definition move (parse : bytes -> option conf) (text : bytes) (exts : list bytes) (s : starts) (m : option nat) : starts :=
  match m with
  | None => {| st_fs := st_fs s; st_procs := st_procs s ++ [([], FSearch)] |}
  | Some k => match nth_error (st_procs s) k with
              | Some (fl, pc) => {| st_fs := fst (fstep parse text exts fl (st_fs s) pc); st_procs := firstn k (st_procs s) ++ (fl, snd (fstep parse text exts fl (st_fs s) pc)) :: skipn (S k) (st_procs s) |}
              | None => s
              end
  end.
Lemma moves_steps parse text exts ms : forall s0 s, fs_steps parse text exts s0 s -> fs_steps parse text exts s0 (fold_left (move parse text exts) ms s).
Proof.
  induction ms as [|m ms IH]; intros s0 s H; [exact H|]. cbn [fold_left]. apply IH. unfold move. destruct m as [k|]; [|eapply fss_step; [exact H|apply fst_new]].
  destruct (nth_error (st_procs s) k) as [[fl pc]|] eqn:E; [|exact H]. eapply fss_step; [exact H|]. apply fst_go.
  clear -E. revert k E. generalize (st_procs s). induction l as [|x l IH]; intros [|k] E; try discriminate; cbn in *; [congruence|]. f_equal. apply IH. exact E.
Qed.

Definition some_text : bytes := B "{""dht"":{""port"":21000,...}}".
Definition some_parse (bs : bytes) : option conf := if beq bs some_text then Some defaults else None.
Definition some_exts : list bytes := [B "toml"; B "yaml"; B "yml"].

(** C115, refuted: two processes started at the same time in a fresh directory, neither killed, do not both start: one
    of them panics, because the other was quicker to create the file, or because it read the file before the other had written it. *)
Lemma C115_race_refuted_pf : exists s s', wf_fs small_fs /\ search some_exts small_fs = None /\
  fs_steps some_parse some_text some_exts {| st_fs := small_fs; st_procs := [] |} s /\
  st_procs s = [([], FDone defaults defaults); ([], FCrash (B "init flush config err"))] /\
  fs_steps some_parse some_text some_exts {| st_fs := small_fs; st_procs := [] |} s' /\
  st_procs s' = [([], FDone defaults defaults); ([], FCrash (B "read config panic"))].
Proof.
  exists (fold_left (move some_parse some_text some_exts) [None; None; Some 0; Some 1; Some 0; Some 1; Some 0; Some 0; Some 0; Some 0; Some 1; Some 1] {| st_fs := small_fs; st_procs := [] |}).
  exists (fold_left (move some_parse some_text some_exts) [None; None; Some 0; Some 0; Some 0; Some 0; Some 1; Some 1; Some 0; Some 0] {| st_fs := small_fs; st_procs := [] |}).
  split; [exact small_wf|]. split; [vm_compute; reflexivity|]. split; [apply moves_steps, fss_refl|]. split; [vm_compute; reflexivity|]. split; [apply moves_steps, fss_refl|]. vm_compute. reflexivity.
Qed.

(** C115, the hypotheses are met: the working directory of [small_fs] has no conf; three starts one after another all have the defaults, and then conf/config.json is there. *)
Lemma C115_example_pf : wf_fs small_fs /\ Forall (fun e => ~ In slash e) some_exts /\ some_parse some_text = Some defaults /\ some_parse [] = None /\
  search some_exts small_fs = None /\ (forall i, ~ named small_fs false FileAbsPath i) /\
  (exists s i, fs_steps some_parse some_text some_exts {| st_fs := small_fs; st_procs := [] |} s /\
     st_procs s = [([], FDone defaults defaults); ([], FDone defaults defaults); ([], FKilled)] /\ named (st_fs s) true FileAbsPath i /\ fs_at (st_fs s) i = Some (NFile some_text all_perm) /\
     named (st_fs s) true (B "l/a.torrent") 6) /\
  (exists es p, fs_at small_fs (fs_cwd small_fs) = Some (NDir es p) /\ may_search p = true /\ may_write p = true /\ ~ In (B "conf") (map fst es)) /\
  met some_parse some_exts small_fs = CfMissing true.
Proof.
  split; [exact small_wf|]. split; [repeat constructor; vm_compute; intuition discriminate|]. split; [vm_compute; reflexivity|]. split; [vm_compute; reflexivity|]. split; [vm_compute; reflexivity|].
  split; [intros i; vm_compute; discriminate|]. split; [|split; [|vm_compute; reflexivity]].
  - set (ms := [None; Some 0; Some 0; Some 0; Some 0; Some 0; Some 0; None; Some 1; None; Some 1; Some 2; Some 1]).
    set (s := fold_left (move some_parse some_text some_exts) ms {| st_fs := small_fs; st_procs := [] |}).
    exists {| st_fs := st_fs s; st_procs := [([], FDone defaults defaults); ([], FDone defaults defaults); ([], FKilled)] |}, 8.
    split; [|split; [reflexivity|split; [vm_compute; reflexivity|split; vm_compute; reflexivity]]].
    eapply fss_step; [apply (moves_steps some_parse some_text some_exts ms _ _ (fss_refl _ _ _ _))|]. fold s.
    apply (fst_kill some_parse some_text some_exts s [([], FDone defaults defaults); ([], FDone defaults defaults)] [] (FOpen FileAbsPath) []). vm_compute. reflexivity.
  - eexists; eexists. split; [reflexivity|]. split; [reflexivity|]. split; [reflexivity|]. vm_compute. intuition discriminate.
Qed.
