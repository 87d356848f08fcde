(** P_FileSys.v -- property theorems (generated by tools/gen_p.py from FileSysPf.v).
    Each statement is repeated in full and closed by [exact]. *)
From Verif Require Import Base GoLib Bencode BencodeSpec BencodeProofs BencodePf Types TorrentCmd TorrentCmdPf FileSys FileSysSpec FileSysProofs.
From Coq Require Import Sorted.
Local Open Scope list_scope.
From Verif Require Import FileSysPf.

(** C113: IsExist says whether the path, links followed, names something; GetFileSize is the length of the file so
    named, and -1 exactly when IsExist says no. *)
Theorem C113_exist_size : forall fs path,
  (IsExist fs path = true <-> exists i, named fs true path i) /\
  (forall i d p, named fs true path i -> fs_at fs i = Some (NFile d p) -> GetFileSize fs path = Z.of_nat (length d)) /\
  (GetFileSize fs path = -1 <-> IsExist fs path = false)%Z /\ (-1 <= GetFileSize fs path)%Z.
Proof. exact C113_exist_size_pf. Qed.
Print Assumptions C113_exist_size.

(** C113: IsDir says whether the path itself, a last link not followed, is a directory; such a path exists. *)
Theorem C113_isdir : forall fs path,
  (IsDir fs path = true <-> exists i, named fs false path i /\ is_dir fs i) /\
  (IsDir fs path = true -> IsExist fs path = true /\ exists i, named fs true path i /\ is_dir fs i).
Proof. exact C113_isdir_pf. Qed.
Print Assumptions C113_isdir.

(** C113: how Mkdir(parent/name) ends. *)
Theorem C113_mkdir_outcome : forall fs parent name, parent <> [] -> name_ok name ->
  (forall d, named fs true parent d -> ~ is_dir fs d -> Mkdir fs (parent ++ slash :: name) = (fs, Some ENOTDIR)) /\
  (forall e, stat fs true parent = SErr e -> Mkdir fs (parent ++ slash :: name) = (fs, Some e)) /\
  (forall d es p, named fs true parent d -> fs_at fs d = Some (NDir es p) ->
     (may_search p = false -> Mkdir fs (parent ++ slash :: name) = (fs, Some EACCES)) /\
     (may_search p = true -> In name (map fst es) -> Mkdir fs (parent ++ slash :: name) = (fs, Some EEXIST)) /\
     (may_search p = true -> ~ In name (map fst es) -> may_write p = false -> Mkdir fs (parent ++ slash :: name) = (fs, Some EACCES)) /\
     (may_search p = true -> ~ In name (map fst es) -> may_write p = true -> snd (Mkdir fs (parent ++ slash :: name)) = None)).
Proof. exact C113_mkdir_outcome_pf. Qed.
Print Assumptions C113_mkdir_outcome.

(** C113: a successful Mkdir makes the path an existing, empty directory that was not there before; nothing else changes:
    every path that named something names the same thing, and every file and link is as before. *)
Theorem C113_mkdir_effect : forall fs parent name fs', wf_fs fs -> parent <> [] -> name_ok name -> Mkdir fs (parent ++ slash :: name) = (fs', None) ->
  IsExist fs (parent ++ slash :: name) = false /\
  IsDir fs' (parent ++ slash :: name) = true /\ IsExist fs' (parent ++ slash :: name) = true /\ read_dir fs' (parent ++ slash :: name) = Some [] /\
  (forall f q i, named fs f q i -> named fs' f q i) /\
  (forall i, fs_at fs i <> None -> ~ is_dir fs i -> fs_at fs' i = fs_at fs i) /\
  wf_fs fs'.
Proof. exact C113_mkdir_effect_pf. Qed.
Print Assumptions C113_mkdir_effect.

(** C113, refuted: "IsDir is false" does not mean that the path cannot be listed - a link to a directory can -
    and "IsExist is false" does not mean that there is nothing, nor that Mkdir can create it: a dangling link is
    there (Mkdir fails), and what lies in a directory that may not be searched is not seen. *)
Theorem C113_links_refuted : exists fs, wf_fs fs /\
  (exists items, IsDir fs (B "l") = false /\ read_dir fs (B "l") = Some items /\ items <> [] /\ IsDir fs (B "l/") = true) /\
  (IsExist fs (B "./g") = false /\ Mkdir fs (B "./g") = (fs, Some EEXIST)) /\
  (IsExist fs (B "x/in") = false /\ GetFileSize fs (B "x/in") = (-1)%Z /\ exists i, named fs true (B "x") i /\ is_dir fs i /\ fs_at fs i = Some (NDir [(B "in", 5)] no_search)).
Proof. exact C113_links_refuted_pf. Qed.
Print Assumptions C113_links_refuted.

(** C113: BaseDir is absolute whenever the working directory is; refuted as "the directory of the program": for a program started by
    its bare name (found through PATH) it is the working directory. *)
Theorem C113_basedir_refuted : forall wd arg0, rooted wd = true ->
  rooted (BaseDir wd arg0) = true /\ (~ In slash arg0 -> ~ In (byte_of 92) (Clean wd) -> BaseDir wd arg0 = Clean wd).
Proof. exact C113_basedir_refuted_pf. Qed.
Print Assumptions C113_basedir_refuted.

(** C113: for a program started as d/name, BaseDir is the directory d - seen from the working directory if d is relative - written without
    superfluous slashes and dots (paths with ".." or backslashes aside). *)
Theorem C113_basedir : forall wd d name, rooted wd = true -> no_dotdot wd -> no_dotdot d -> ~ In slash name -> ~ In (byte_of 92) (wd ++ d) ->
  BaseDir wd (d ++ slash :: name) = slash :: join_slash (filter (fun c => negb (is_empty c || beq c (B "."))) (comps (if rooted (d ++ [slash]) then d else wd ++ slash :: d))).
Proof. exact C113_basedir_pf. Qed.
Print Assumptions C113_basedir.

Theorem C113_basedir_example : BaseDir (B "/home/u") (B "./bin//crawler") = B "/home/u/bin" /\ BaseDir (B "/home/u") (B "/opt/./p2p/crawler") = B "/opt/p2p" /\ BaseDir (B "/w") (B "/crawler") = B "/".
Proof. exact C113_basedir_example_pf. Qed.
Print Assumptions C113_basedir_example.

(** C113: the theorems apply. *)
Theorem C113_example : wf_fs small_fs /\ GetFileSize small_fs (B "l/a.torrent") = 11%Z /\ GetFileSize small_fs (B "/d/../d//b.torrent") = 43%Z /\
  IsDir small_fs (B "d") = true /\ IsExist small_fs (B "no") = false /\
  exists fs', Mkdir small_fs (B "d" ++ slash :: B "new") = (fs', None) /\ name_ok (B "new") /\ IsDir fs' (B "l/new/.") = true.
Proof. exact C113_example_pf. Qed.
Print Assumptions C113_example.

(** C114: joining a directory path and the name of an entry names that entry, with superfluous slashes and dots too:
    also through links if the path has no "..", and also with ".." if no link is met on the way. *)
Theorem C114_join : forall fs f path n, path <> [] -> no_dotdot path \/ (exists d, plain fs path d) -> name_ok n -> lookup fs f (Join path n) = lookup fs f (path ++ slash :: n).
Proof. exact C114_join_pf. Qed.
Print Assumptions C114_join.

(** C114: an entry that is not a link is what path/name names. *)
Theorem C114_entry : forall fs path d es p n i, wf_fs fs -> path <> [] -> named fs true path d -> fs_at fs d = Some (NDir es p) -> may_search p = true ->
  In (n, i) es -> ~ is_link fs i -> named fs true (path ++ slash :: n) i.
Proof. exact C114_entry_pf. Qed.
Print Assumptions C114_entry.

(** C114: what a listing contains, and when there is one: the path names - links followed - a directory that may be read and, unless it
    is empty, searched. *)
Theorem C114_listing : forall fs path,
  (forall items, read_dir fs path = Some items -> exists d es p, named fs true path d /\ fs_at fs d = Some (NDir es p) /\ may_read p = true /\ (may_search p = true \/ es = []) /\
     StronglySorted name_le (map fst items) /\ Permutation (map fst items) (map fst es) /\
     forall n b, In (n, b) items <-> exists i, In (n, i) es /\ (b = true <-> is_dir fs i)) /\
  (forall d es p, named fs true path d -> fs_at fs d = Some (NDir es p) -> may_read p = true -> may_search p = true \/ es = [] -> exists items, read_dir fs path = Some items).
Proof. exact C114_listing_pf. Qed.
Print Assumptions C114_listing.

(** C114: a directory (path without "..", or without links on the way): every entry whose name ends in ".torrent" and that is not a directory is
    shown, in the order of the names, nothing else, provided each names - links followed - a readable file that holds a bencoded
    dictionary. *)
Theorem C114_directory : forall fs path rest d es p, wf_fs fs -> named fs false path d -> fs_at fs d = Some (NDir es p) -> may_read p = true -> may_search p = true -> no_dotdot path \/ plain fs path d ->
  (forall n i, In (n, i) es -> (exists stem, n = stem ++ B ".torrent") -> ~ is_dir fs i ->
     exists j bs q line, named fs true (path ++ slash :: n) j /\ fs_at fs j = Some (NFile bs q) /\ may_read q = true /\ line_for n bs line) ->
  exists shown : list (bytes * bytes), torrent_run (os_files fs) (path :: rest) = (concat (map snd shown), None) /\
    StronglySorted name_le (map fst shown) /\ NoDup (map fst shown) /\
    (forall n, In n (map fst shown) <-> exists i, In (n, i) es /\ (exists stem, n = stem ++ B ".torrent") /\ ~ is_dir fs i) /\
    (forall n line, In (n, line) shown -> exists j bs q, named fs true (path ++ slash :: n) j /\ fs_at fs j = Some (NFile bs q) /\ line_for n bs line).
Proof. exact C114_directory_pf. Qed.
Print Assumptions C114_directory.

(** C114: a path that is not itself a directory is taken as one file, links followed. *)
Theorem C114_single : forall fs path rest j bs q, ~ (exists i, named fs false path i /\ is_dir fs i) -> named fs true path j -> fs_at fs j = Some (NFile bs q) -> may_read q = true ->
  (exists line, line_for path bs line) -> exists line, line_for path bs line /\ torrent_run (os_files fs) (path :: rest) = (line, None).
Proof. exact C114_single_pf. Qed.
Print Assumptions C114_single.

(** C114, refuted for links to directories: named without a trailing slash such a link crashes the command, although
    with a slash the directory is shown; the same link inside a directory, named like a torrent, ends the listing. *)
Theorem C114_link_refuted : forall fs path rest i j es p, named fs false path i -> is_link fs i -> named fs true path j -> fs_at fs j = Some (NDir es p) -> may_read p = true ->
  torrent_run (os_files fs) (path :: rest) = ([], Some (sys_panic (B "read torrent file err"))).
Proof. exact C114_link_refuted_pf. Qed.
Print Assumptions C114_link_refuted.

(** C114, refuted for paths with "..": a/up/.. is the directory /, whose t.torrent is the file with the name "wanted",
    but the command shows the contents of a/t.torrent. *)
Theorem C114_dotdot_refuted : exists fs path d es p i bs, wf_fs fs /\ named fs false path d /\ fs_at fs d = Some (NDir es p) /\ In (B "t.torrent", i) es /\
  fs_at fs i = Some (NFile bs all_perm) /\ line_for (B "t.torrent") bs (B "wanted||t.torrent||0||0" ++ crlf) /\
  torrent_run (os_files fs) [path] = (B "other||t.torrent||0||0" ++ crlf, None).
Proof. exact C114_dotdot_refuted_pf. Qed.
Print Assumptions C114_dotdot_refuted.

(** C114: in the example of C113 the command shows the directory d under several of its names; the link l needs a slash. *)
Theorem C114_example : wf_fs small_fs /\ named small_fs false (B "./d") 1 /\ no_dotdot (B "./d") /\ plain small_fs (B "../d/.././/d") 1 /\ ~ no_dotdot (B "../d/.././/d") /\
  torrent_run (os_files small_fs) [B "./d"] = (B "x||a.torrent||0||0" ++ crlf ++ B "abc||b.torrent||12||4" ++ crlf, None) /\
  torrent_run (os_files small_fs) [B "l/"] = (B "x||a.torrent||0||0" ++ crlf ++ B "abc||b.torrent||12||4" ++ crlf, None) /\
  torrent_run (os_files small_fs) [B "l"] = ([], Some (sys_panic (B "read torrent file err"))) /\
  torrent_run (os_files small_fs) [B "l/b.torrent"] = (B "abc||l/b.torrent||12||4" ++ crlf, None) /\
  torrent_run (os_files tricky_fs) [B "a"] = (B "other||t.torrent||0||0" ++ crlf, Some (sys_panic (B "read torrent file err"))) /\
  torrent_run (os_files small_fs) [B "x"] = ([], Some (sys_panic (B "open torrent dir err"))).
Proof. exact C114_example_pf. Qed.
Print Assumptions C114_example.
