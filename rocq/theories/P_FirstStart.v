(** P_FirstStart.v -- property theorems (generated by tools/gen_p.py from FirstStartPf.v).
    Each statement is repeated in full and closed by [exact]. *)
From Verif Require Import Base GoLib TorrentCmd FileSys FileSysSpec FileSysProofs FileSysPf Startup FirstStart FirstStartProofs.
Local Open Scope list_scope.
From Verif Require Import FirstStartPf.

(** C115: where there is no configuration file, any number of processes may start, in any order and interleaving, and be
    killed at any call: whatever had a name keeps it and files keep their contents; ./conf/config.json is absent, empty
    or the defaults; a process that starts has the defaults (for --config: if it names that file), and then the file
    is complete; at most one process is writing it. *)
Theorem C115_first_starts : forall parse text exts fs0 s, wf_fs fs0 -> Forall (fun e => ~ In slash e) exts -> parse text = Some defaults -> parse [] = None ->
  search exts fs0 = None -> (forall i, ~ named fs0 false FileAbsPath i) -> fs_steps parse text exts {| st_fs := fs0; st_procs := [] |} s ->
  (forall f q i, named fs0 f q i -> named (st_fs s) f q i) /\
  (forall i, fs_at fs0 i <> None -> ~ is_dir fs0 i -> fs_at (st_fs s) i = fs_at fs0 i) /\
  ((forall i, ~ named (st_fs s) false FileAbsPath i) \/
   exists i d, named (st_fs s) true FileAbsPath i /\ fs_at (st_fs s) i = Some (NFile d all_perm) /\ (d = [] \/ d = text)) /\
  (forall flag c1 c2, In (flag, FDone c1 c2) (st_procs s) -> c1 = defaults /\ (flag = [] \/ flag = FileAbsPath -> c2 = defaults) /\
     exists i, named (st_fs s) true FileAbsPath i /\ fs_at (st_fs s) i = Some (NFile text all_perm)) /\
  length (filter (fun x => match snd x with FWrite _ => true | _ => false end) (st_procs s)) <= 1.
Proof. exact C115_first_starts_pf. Qed.
Print Assumptions C115_first_starts.

(** C115: where there is one, no start changes anything; every process gets what is in the file (and in the file named by --config). *)
Theorem C115_existing : forall parse text exts fs0 path s, search exts fs0 = Some path -> fs_steps parse text exts {| st_fs := fs0; st_procs := [] |} s ->
  st_fs s = fs0 /\
  (forall flag c1 c2, In (flag, FDone c1 c2) (st_procs s) -> read_config parse fs0 path = Some c1 /\ match flag with [] => c2 = c1 | _ => read_config parse fs0 flag = Some c2 end) /\
  (forall flag msg, In (flag, FCrash msg) (st_procs s) -> msg = B "read config panic" /\ (read_config parse fs0 path = None \/ flag <> [] /\ read_config parse fs0 flag = None)).
Proof. exact C115_existing_pf. Qed.
Print Assumptions C115_existing.

(** C115: a start with nothing else running ends within six calls, in the way the start-up model (C105) is told: with the
    file's configuration, or the defaults written, or the panic; then the file named by --config decides. *)
Theorem C115_alone : forall parse text exts fs flag, exists fs' pc, (forall n, 6 <= n -> solo parse text exts n flag (fs, FSearch) = (fs', pc)) /\
  match met parse exts fs with
  | CfBad => fs' = fs /\ pc = FCrash (B "read config panic")
  | CfMissing false => pc = FCrash (B "init flush config err")
  | r => exists c1, r = (match r with CfOk _ => CfOk c1 | _ => CfMissing true end) /\ (r = CfMissing true -> c1 = defaults) /\
           match flag with [] => pc = FDone c1 c1
           | _ => match read_config parse fs' flag with Some c2 => pc = FDone c1 c2 | None => pc = FCrash (B "read config panic") end end
  end.
Proof. exact C115_alone_pf. Qed.
Print Assumptions C115_alone.

(** C115: in a directory that may be searched and written, where there is nothing called conf, the first start makes
    ./conf/config.json with the defaults and starts with them; later starts find it and change nothing. *)
Theorem C115_fresh_directory : forall parse text exts fs es p, wf_fs fs -> Forall (fun e => ~ In slash e) exts -> parse text = Some defaults ->
  fs_at fs (fs_cwd fs) = Some (NDir es p) -> may_search p = true -> may_write p = true -> ~ In (B "conf") (map fst es) ->
  exists fs' i, (forall n, 6 <= n -> solo parse text exts n [] (fs, FSearch) = (fs', FDone defaults defaults)) /\
    named fs' true FileAbsPath i /\ fs_at fs' i = Some (NFile text all_perm) /\
    (forall n, 3 <= n -> solo parse text exts n [] (fs', FSearch) = (fs', FDone defaults defaults)).
Proof. exact C115_fresh_directory_pf. Qed.
Print Assumptions C115_fresh_directory.

(** C115, refuted: a first start that is killed between creating the file and writing it leaves an empty file, and from
    then on every start panics, for ever - nobody repairs it. *)
Theorem C115_killed_refuted : forall parse text exts, Forall (fun e => ~ In slash e) exts -> parse [] = None ->
  (exists s i, wf_fs small_fs /\ fs_steps parse text exts {| st_fs := small_fs; st_procs := [] |} s /\ st_procs s = [([], FKilled)] /\
     named (st_fs s) true FileAbsPath i /\ fs_at (st_fs s) i = Some (NFile [] all_perm)) /\
  (forall s0 i s, Forall (fun x => snd x = FKilled) (st_procs s0) -> named (st_fs s0) true FileAbsPath i -> fs_at (st_fs s0) i = Some (NFile [] all_perm) ->
     fs_steps parse text exts s0 s -> st_fs s = st_fs s0 /\ forall flag c1 c2, ~ In (flag, FDone c1 c2) (st_procs s)).
Proof. exact C115_killed_refuted_pf. Qed.
Print Assumptions C115_killed_refuted.

(** C115, refuted: two processes started at the same time in a fresh directory, neither killed, do not both start: one
    of them panics, because the other was quicker to create the file, or because it read the file before the other had written it. *)
Theorem C115_race_refuted : exists s s', wf_fs small_fs /\ search some_exts small_fs = None /\
  fs_steps some_parse some_text some_exts {| st_fs := small_fs; st_procs := [] |} s /\
  st_procs s = [([], FDone defaults defaults); ([], FCrash (B "init flush config err"))] /\
  fs_steps some_parse some_text some_exts {| st_fs := small_fs; st_procs := [] |} s' /\
  st_procs s' = [([], FDone defaults defaults); ([], FCrash (B "read config panic"))].
Proof. exact C115_race_refuted_pf. Qed.
Print Assumptions C115_race_refuted.

(** C115, the hypotheses are met: the working directory of [small_fs] has no conf; three starts one after another all have the defaults, and then conf/config.json is there. *)
Theorem C115_example : wf_fs small_fs /\ Forall (fun e => ~ In slash e) some_exts /\ some_parse some_text = Some defaults /\ some_parse [] = None /\
  search some_exts small_fs = None /\ (forall i, ~ named small_fs false FileAbsPath i) /\
  (exists s i, fs_steps some_parse some_text some_exts {| st_fs := small_fs; st_procs := [] |} s /\
     st_procs s = [([], FDone defaults defaults); ([], FDone defaults defaults); ([], FKilled)] /\ named (st_fs s) true FileAbsPath i /\ fs_at (st_fs s) i = Some (NFile some_text all_perm) /\
     named (st_fs s) true (B "l/a.torrent") 6) /\
  (exists es p, fs_at small_fs (fs_cwd small_fs) = Some (NDir es p) /\ may_search p = true /\ may_write p = true /\ ~ In (B "conf") (map fst es)) /\
  met some_parse some_exts small_fs = CfMissing true.
Proof. exact C115_example_pf. Qed.
Print Assumptions C115_example.
