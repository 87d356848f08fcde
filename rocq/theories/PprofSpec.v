(** PprofSpec.v -- the pages of the debug server, in the words of a user. *)
From Verif Require Import Base FileSys Pprof.
Local Open Scope list_scope.

(** A path without detours: a slash, or slash-separated elements none of which is empty, "." or "..", perhaps with a
    slash at the end. *)
Definition element (c : bytes) : Prop := c <> [] /\ c <> B "." /\ c <> B ".." /\ ~ In "/"%char c.
Fixpoint path_of (l : list bytes) : bytes := match l with [] => [] | x :: t => "/"%char :: x ++ path_of t end.
Definition tidy (p : bytes) : Prop :=
  p = B "/" \/ exists l, l <> [] /\ Forall element l /\ (p = path_of l \/ p = path_of l ++ B "/").

Definition dir : bytes := B "/debug/pprof/".
(** The page for the path below that directory. *)
Inductive page_at : bytes -> page -> Prop :=
| pa_list : page_at (B "") PgList
| pa_cmdline : page_at (B "cmdline") PgCmdline
| pa_cpu : page_at (B "profile") PgCpu
| pa_symbol : page_at (B "symbol") PgSymbol
| pa_trace : page_at (B "trace") PgTrace
| pa_profile name : In name [B "goroutine"; B "threadcreate"; B "heap"; B "allocs"; B "block"; B "mutex"] -> page_at name (PgProfile name)
| pa_other name : name <> [] -> ~ In name [B "cmdline"; B "profile"; B "symbol"; B "trace"; B "goroutine"; B "threadcreate"; B "heap"; B "allocs"; B "block"; B "mutex"] -> page_at name (PgUnknown name).
