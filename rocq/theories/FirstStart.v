(** FirstStart.v -- the configuration file: config/config.go:46-87 and cmd/root.go:36-40 as file system calls, for any number of
    processes that start in the same directory and may be killed at any moment.

    From viper 1.6.2 (not repository code): ReadInConfig without a file set by name takes the first of config.json,
    config.toml, ... in ./conf that Stat finds, reads it and parses it as json (SetConfigType); SafeWriteConfig creates
    ./conf/config.json (O_CREATE and O_EXCL) and writes the defaults into it.  Simplified: viper turns ./conf into an
    absolute path once, here it stays relative; the looks for the several extensions are one step; a read sees the whole
    of what was written or nothing. *)
From Verif Require Import Base GoLib TorrentCmd FileSys Startup.
Local Open Scope list_scope.

(** config/config.go:10-14 *)
Definition configPath : bytes := B "./conf".
Definition config_file (ext : bytes) : bytes := B "./conf/config." ++ ext.
Definition FileAbsPath : bytes := B "./conf/config.json".

(** Overwriting a file. *)
Definition set_data (fs : fsys) (i : nat) (d : bytes) : fsys :=
  {| fs_at := fun j => if j =? i then match fs_at fs i with Some (NFile _ p) => Some (NFile d p) | x => x end else fs_at fs j;
     fs_root := fs_root fs; fs_cwd := fs_cwd fs; fs_above := fs_above fs; fs_dirsize := fs_dirsize fs; fs_next := fs_next fs |}.

Section First.
  (** What viper makes of the bytes of a file (None: not json), the text it writes for the defaults, and the extensions it
      looks for after json. *)
  Variables (parse : bytes -> option conf) (text : bytes) (exts : list bytes).

  (** viper: the file found in ./conf. *)
  Definition search (fs : fsys) : option bytes :=
    find (fun p => match stat fs true p with SNode _ => true | SErr _ => false end) (map config_file (B "json" :: exts)).
  (** viper.ReadInConfig on a named file. *)
  Definition read_config (fs : fsys) (path : bytes) : option conf :=
    match open_read fs path with FrData bs => parse bs | _ => None end.

  (** Where a process is: before config/config.go:73 (search), before reading the file found, before :78, :79, :81 (create, then
      write to node i), after init with its configuration, before the read of cmd/root.go:39, started with both configurations,
      ended by a panic, killed. *)
  Inductive fpc := FSearch | FOpen (p : bytes) | FProbe | FMkdir | FCreate | FWrite (i : nat) | FInit (c : conf)
                 | FDone (c1 c2 : conf) | FCrash (msg : bytes) | FKilled.

  (** One call; [flag] is the value of --config. *)
  Definition fstep (flag : bytes) (fs : fsys) (pc : fpc) : fsys * fpc :=
    match pc with
    | FSearch => match search fs with Some p => (fs, FOpen p) | None => (fs, FProbe) end
    | FOpen p => match read_config fs p with Some c => (fs, FInit c) | None => (fs, FCrash (B "read config panic")) end
    | FProbe => if IsExist fs configPath then (fs, FCreate) else (fs, FMkdir)
    | FMkdir => (fst (Mkdir fs configPath), FCreate)
    | FCreate => match create fs FileAbsPath (NFile [] all_perm) with
                 | (fs', None) => (fs', FWrite (fs_next fs))
                 | (fs', Some _) => (fs', FCrash (B "init flush config err"))
                 end
    | FWrite i => (set_data fs i text, FInit defaults)
    | FInit c => match flag with
                 | [] => (fs, FDone c c)
                 | _ => match read_config fs flag with Some c2 => (fs, FDone c c2) | None => (fs, FCrash (B "read config panic")) end
                 end
    | x => (fs, x)
    end.

  (** The processes, each with its --config; one makes a step, or is killed, or a new one starts. *)
  Record starts := { st_fs : fsys; st_procs : list (bytes * fpc) }.
  Inductive fs_step (s : starts) : starts -> Prop :=
  | fst_go l1 flag pc l2 : st_procs s = l1 ++ (flag, pc) :: l2 ->
      fs_step s {| st_fs := fst (fstep flag (st_fs s) pc); st_procs := l1 ++ (flag, snd (fstep flag (st_fs s) pc)) :: l2 |}
  | fst_kill l1 flag pc l2 : st_procs s = l1 ++ (flag, pc) :: l2 -> fs_step s {| st_fs := st_fs s; st_procs := l1 ++ (flag, FKilled) :: l2 |}
  | fst_new flag : fs_step s {| st_fs := st_fs s; st_procs := st_procs s ++ [(flag, FSearch)] |}.
  Inductive fs_steps : starts -> starts -> Prop :=
  | fss_refl s : fs_steps s s
  | fss_step s s' s'' : fs_steps s s' -> fs_step s' s'' -> fs_steps s s''.

  (** One process alone, n calls. *)
  Fixpoint solo (n : nat) (flag : bytes) (x : fsys * fpc) : fsys * fpc :=
    match n with 0 => x | S m => solo m flag (fstep flag (fst x) (snd x)) end.
End First.

(** What the start-up model (Startup.v, [su_file]) is given for a start on this file system with nothing else running. *)
Definition met (parse : bytes -> option conf) (exts : list bytes) (fs : fsys) : confread :=
  match search exts fs with
  | Some p => match read_config parse fs p with Some c => CfOk c | None => CfBad end
  | None => CfMissing (match create (if IsExist fs configPath then fs else fst (Mkdir fs configPath)) FileAbsPath (NFile [] all_perm) with (_, None) => true | _ => false end)
  end.
