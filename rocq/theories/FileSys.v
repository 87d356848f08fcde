(** FileSys.v -- the file system the program talks to, and misc/file.go.

    The file system is not repository code: it is modelled after POSIX path resolution as Linux does it (directories,
    regular files, symbolic links, the permission bits the process meets, at most 40 links per path).  Not modelled:
    devices and pipes, hard limits on name lengths, other processes (FirstStart.v has those), I/O errors. *)
From Verif Require Import Base GoLib TorrentCmd.
Local Open Scope list_scope.

(** What this process may do with a file or directory. *)
Record perm := { may_read : bool; may_write : bool; may_search : bool }.
Definition all_perm : perm := {| may_read := true; may_write := true; may_search := true |}.
(** A node: a regular file, a directory (names and node numbers) or a symbolic link. *)
Inductive fnode := NFile (d : bytes) (p : perm) | NDir (es : list (bytes * nat)) (p : perm) | NLink (target : bytes).
(** The nodes by number, the root, the working directory and the directories above it, the size Stat reports for a
    directory, and the number the next new node gets. *)
Record fsys := { fs_at : nat -> option fnode; fs_root : nat; fs_cwd : nat; fs_above : list nat; fs_dirsize : nat -> nat; fs_next : nat }.
Inductive fserr := ENOENT | ENOTDIR | EACCES | ELOOP | EEXIST | EISDIR.

(** The path as the list of its components; adjacent and trailing slashes give empty ones. *)
Definition slash : byte := byte_of 47.
Definition comps (path : bytes) : list bytes := split_on slash path.
Definition rooted (path : bytes) : bool := match path with c :: _ => Ascii.eqb c slash | [] => false end.
Fixpoint entry (es : list (bytes * nat)) (c : bytes) : option nat :=
  match es with [] => None | (n, i) :: t => if beq n c then Some i else entry t c end.
Definition is_empty (c : bytes) : bool := match c with [] => true | _ => false end.

(** A call that looks at a node gives it or an error.  A walk finds a node; or the last component is not there (its directory is); or it fails. *)
Inductive statres := SNode (i : nat) | SErr (e : fserr).
Inductive walked := Found (i : nat) | Missing (dir : nat) (name : bytes) | Failed (e : fserr).

Section FS.
  Variable fs : fsys.

  (** Path resolution from directory [cur] below the directories [up]; [follow] tells whether a link that is the last
      component is followed; [links] more links may be followed. *)
  Fixpoint walk (links : nat) (follow : bool) : nat -> list nat -> list bytes -> walked :=
    fix go (cur : nat) (up : list nat) (cs : list bytes) {struct cs} : walked :=
      match cs with
      | [] => Found cur
      | c :: t =>
          match fs_at fs cur with
          | Some (NDir es p) =>
              if is_empty c then go cur up t
              else if negb (may_search p) then Failed EACCES
              else if beq c (B ".") then go cur up t
              else if beq c (B "..") then match up with [] => go cur [] t | d :: up' => go d up' t end
              else match entry es c with
                   | None => if forallb is_empty t then Missing cur c else Failed ENOENT
                   | Some i =>
                       match fs_at fs i with
                       | Some (NLink target) =>
                           if negb follow && match t with [] => true | _ => false end then Found i
                           else match links with
                                | 0 => Failed ELOOP
                                | S l => if is_empty target then Failed ENOENT
                                         else if rooted target then walk l follow (fs_root fs) [] (comps target ++ t)
                                         else walk l follow cur up (comps target ++ t)
                                end
                       | _ => go i (cur :: up) t
                       end
                   end
          | _ => Failed ENOTDIR
          end
      end.

  Definition lookup (follow : bool) (path : bytes) : walked :=
    match path with
    | [] => Failed ENOENT
    | _ => if rooted path then walk 40 follow (fs_root fs) [] (comps path) else walk 40 follow (fs_cwd fs) (fs_above fs) (comps path)
    end.

  (** os.Stat (follows links) and os.Lstat (does not): the node, or an error. *)
  Definition stat (follow : bool) (path : bytes) : statres :=
    match lookup follow path with Found i => SNode i | Missing _ _ => SErr ENOENT | Failed e => SErr e end.
  Definition node_is_dir (i : nat) : bool := match fs_at fs i with Some (NDir _ _) => true | _ => false end.
  Definition node_size (i : nat) : nat :=
    match fs_at fs i with Some (NFile d _) => length d | Some (NLink t) => length t | Some (NDir _ _) => fs_dirsize fs i | None => 0 end.

  (** misc/file.go:11-18 *)
  Definition GetFileSize (path : bytes) : Z := match stat true path with SNode i => Z.of_nat (node_size i) | SErr _ => -1 end.

  (** os.IsExist and os.IsNotExist on these errors. *)
  Definition err_exist (e : fserr) : bool := match e with EEXIST => true | _ => false end.
  Definition err_not_exist (e : fserr) : bool := match e with ENOENT => true | _ => false end.

  (** misc/file.go:21-25 *)
  Definition IsExist (path : bytes) : bool := match stat true path with SNode _ => true | SErr e => err_exist e end.

  (** misc/file.go:33-44 *)
  Definition IsDir (path : bytes) : bool :=
    match stat false path with SNode i => node_is_dir i | SErr e => if err_not_exist e then false else false end.

  (** ioutil.ReadAll(os.Open(path)); a directory can be opened but not read. *)
  Definition open_read (path : bytes) : fileread :=
    match stat true path with
    | SNode i => match fs_at fs i with
               | Some (NFile d p) => if may_read p then FrData d else FrOpenErr
               | Some (NDir _ p) => if may_read p then FrReadErr else FrOpenErr
               | _ => FrOpenErr
               end
    | SErr _ => FrOpenErr
    end.

  (** Order of names: Go compares strings byte by byte. *)
  Fixpoint name_leb (a b : bytes) : bool :=
    match a, b with
    | [], _ => true
    | _ :: _, [] => false
    | x :: a', y :: b' => (bval x <? bval y)%N || (bval x =? bval y)%N && name_leb a' b'
    end.
  Fixpoint insert_name (x : bytes * bool) (l : list (bytes * bool)) : list (bytes * bool) :=
    match l with [] => [x] | y :: t => if name_leb (fst x) (fst y) then x :: y :: t else y :: insert_name x t end.
  Definition sort_names (l : list (bytes * bool)) : list (bytes * bool) := fold_right insert_name [] l.

  (** ioutil.ReadDir: opens the directory, Lstats every entry (which needs the search permission), sorts by name. *)
  Definition read_dir (path : bytes) : option (list (bytes * bool)) :=
    match stat true path with
    | SNode i => match fs_at fs i with
               | Some (NDir es p) =>
                   if may_read p && (may_search p || match es with [] => true | _ => false end)
                   then Some (sort_names (map (fun x => (fst x, node_is_dir (snd x))) es)) else None
               | _ => None
               end
    | SErr _ => None
    end.
End FS.

(** filepath.Clean: lexical, no look at the file system.  [out] is the result so far, last element first. *)
Definition clean_step (abs : bool) (out : list bytes) (c : bytes) : list bytes :=
  if is_empty c || beq c (B ".") then out
  else if beq c (B "..") then
    match out with
    | x :: o => if beq x (B "..") then c :: out else o
    | [] => if abs then [] else [c]
    end
  else c :: out.
Fixpoint join_slash (l : list bytes) : bytes :=
  match l with [] => [] | [x] => x | x :: t => x ++ slash :: join_slash t end.
Definition Clean (path : bytes) : bytes :=
  let out := join_slash (rev (fold_left (clean_step (rooted path)) (comps path) [])) in
  if rooted path then slash :: out else match out with [] => B "." | _ => out end.
(** filepath.Join(a, b): empty elements are dropped. *)
Definition Join (a b : bytes) : bytes :=
  match a, b with
  | [], [] => []
  | [], _ => Clean b
  | _, [] => Clean a
  | _, _ => Clean (a ++ slash :: b)
  end.

(** The answers cmd/torrent.go gets. *)
Definition os_files (fs : fsys) : filesys :=
  {| f_isdir := IsDir fs; f_readdir := read_dir fs; f_read := open_read fs; f_join := Join |}.

(** A new node [n] named [name] in directory [dir]. *)
Definition add_node (fs : fsys) (dir : nat) (name : bytes) (n : fnode) : fsys :=
  {| fs_at := fun i => if i =? fs_next fs then Some n
                       else if i =? dir then match fs_at fs dir with Some (NDir es p) => Some (NDir (es ++ [(name, fs_next fs)]) p) | x => x end
                       else fs_at fs i;
     fs_root := fs_root fs; fs_cwd := fs_cwd fs; fs_above := fs_above fs; fs_dirsize := fs_dirsize fs; fs_next := S (fs_next fs) |}.

(** The system calls that create a name never follow a link in the last place, even before trailing slashes. *)
Fixpoint strip (rpath : bytes) : bytes :=
  match rpath with c :: ((_ :: _) as t) => if Ascii.eqb c slash then strip t else rpath | _ => rpath end.
Definition strip_slashes (path : bytes) : bytes := rev (strip (rev path)).
Definition create (fs : fsys) (path : bytes) (n : fnode) : fsys * option fserr :=
  match lookup fs false path with
  | Found _ => (fs, Some EEXIST)
  | Missing dir name =>
      match fs_at fs dir with
      | Some (NDir _ p) => if may_write p then (add_node fs dir name n, None) else (fs, Some EACCES)
      | _ => (fs, Some ENOTDIR)
      end
  | Failed e => (fs, Some e)
  end.

(** misc/file.go:28-30: os.Mkdir(path, 0777); the umask is taken to leave the owner's bits. *)
Definition Mkdir (fs : fsys) (path : bytes) : fsys * option fserr := create fs (strip_slashes path) (NDir [] all_perm).

(** misc/file.go:46-52; [wd] is what os.Getwd returns, [arg0] is os.Args[0].  filepath.Dir is Clean of everything up to the
    last slash, filepath.Abs joins a relative path to the working directory. *)
Fixpoint upto_slash (rpath : bytes) : bytes := match rpath with [] => [] | c :: t => if Ascii.eqb c slash then rpath else upto_slash t end.
Definition Dir (path : bytes) : bytes := Clean (rev (upto_slash (rev path))).
Definition Abs (wd path : bytes) : bytes := if rooted path then Clean path else Join wd path.
Definition BaseDir (wd arg0 : bytes) : bytes := map (fun c => if Ascii.eqb c (byte_of 92) then slash else c) (Abs wd (Dir arg0)).
