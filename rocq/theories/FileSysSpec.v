(** FileSysSpec.v -- what the theorems about files are stated with. *)
From Verif Require Import Base GoLib TorrentCmd FileSys.
Local Open Scope list_scope.

(** A proper name: not empty, not "." or "..", without a slash. *)
Definition name_ok (c : bytes) : Prop := c <> [] /\ c <> B "." /\ c <> B ".." /\ ~ In slash c.

(** A file system an operating system can hold: names in a directory are proper and distinct and belong to nodes that
    exist, the root and the working directory exist, new numbers are unused. *)
Record wf_fs (fs : fsys) : Prop := {
  wf_fresh : forall i, fs_next fs <= i -> fs_at fs i = None;
  wf_names : forall d es p, fs_at fs d = Some (NDir es p) -> NoDup (map fst es) /\ forall c i, In (c, i) es -> name_ok c /\ fs_at fs i <> None;
  wf_top : Forall (fun i => fs_at fs i <> None) (fs_root fs :: fs_cwd fs :: fs_above fs) }.

(** [path] names node [i], links followed ([true]) or a link in the last place not followed ([false]). *)
Definition named (fs : fsys) (follow : bool) (path : bytes) (i : nat) : Prop := lookup fs follow path = Found i.
Definition is_dir (fs : fsys) (i : nat) : Prop := exists es p, fs_at fs i = Some (NDir es p).
Definition is_link (fs : fsys) (i : nat) : Prop := exists t, fs_at fs i = Some (NLink t).

(** [path] names node [i] and no link is met on the way. *)
Definition plain (fs : fsys) (path : bytes) (i : nat) : Prop :=
  path <> [] /\ (if rooted path then walk fs 0 true (fs_root fs) [] (comps path) else walk fs 0 true (fs_cwd fs) (fs_above fs) (comps path)) = Found i.

(** A path without "..". *)
Definition no_dotdot (path : bytes) : Prop := ~ In (B "..") (comps path).

(** Lexicographic order of byte strings. *)
Inductive name_le : bytes -> bytes -> Prop :=
| nle_nil b : name_le [] b
| nle_lt x y a b : (bval x < bval y)%N -> name_le (x :: a) (y :: b)
| nle_eq x a b : name_le a b -> name_le (x :: a) (x :: b).
