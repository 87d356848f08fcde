(** LogFiles.v -- the files behind the info-hash log: misc/zap.go:74-92 (NewZapLogger makes a lumberjack.Logger) and dht/requesthandler.go:9,
    with lumberjack v2.0.0 (lumberjack.go: Write, rotate, openNew, openExistingOrNew, mill, millRun, millRunOnce, oldLogFiles), written down
    from its source: /repo has none of its dependencies.
    The directory "logs" holds logs/infohash.log and the backups logs/infohash-<time>.log; the time stamp of a backup's name has
    milliseconds and is a number here.  Writes come one after the other (lumberjack's mutex); the goroutine that removes old
    backups runs beside them; the process may end at any point and be started again.
    Simplified: file operations do not fail, one write of a line is atomic, nobody else touches the directory. *)
From Verif Require Import Base.
Local Open Scope list_scope.

(** lumberjack.Logger: MaxSize in bytes, MaxBackups, MaxAge in milliseconds. *)
Record ljcfg := { lj_max : N; lj_backups : nat; lj_age : N }.
(** misc/zap.go:77-82 *)
Definition zap_rotation : ljcfg := {| lj_max := 500 * 1024 * 1024; lj_backups := 3; lj_age := 28 * 24 * 3600 * 1000 |}%N.

(** Where the writer stands in Write. *)
Inductive ljpc :=
| PcIdle
| PcOpening (p : bytes)   (* in openExistingOrNew, after mill() *)
| PcReady (p : bytes)     (* the file is open; "if l.size+writeLen > l.max()" *)
| PcRotate (p : bytes)    (* in rotate *)
| PcNew (p : bytes).      (* in openNew, after the rename *)

(** The disk: the log and the backups; the process: the writer, the open file with l.size, the request in millCh, and what
    millRunOnce has still to remove. *)
Record ljst := { j_cur : option bytes; j_old : list (N * bytes); j_pc : ljpc; j_open : option N; j_mill : bool; j_rm : option (list N) }.
Definition lj0 : ljst := {| j_cur := None; j_old := []; j_pc := PcIdle; j_open := None; j_mill := false; j_rm := None |}.
Definition blen (b : bytes) : N := N.of_nat (length b).
Definition text (o : option bytes) : bytes := match o with Some c => c | None => [] end.

(** os.Rename to a backup's name replaces a file of that name; os.Remove. *)
Definition del (t : N) (l : list (N * bytes)) : list (N * bytes) := filter (fun x => negb (fst x =? t)%N) l.
Definition store_old (t : N) (c : bytes) (l : list (N * bytes)) : list (N * bytes) := del t l ++ [(t, c)].

(** oldLogFiles: newest first (sort.Sort byFormatTime). *)
Fixpoint ins (x : N * bytes) (l : list (N * bytes)) : list (N * bytes) :=
  match l with [] => [x] | y :: r => if (fst x <? fst y)%N then y :: ins x r else x :: l end.
Fixpoint newest_first (l : list (N * bytes)) : list (N * bytes) := match l with [] => [] | x :: r => ins x (newest_first r) end.
(** millRunOnce: what to remove, in that order. *)
Definition to_remove (g : ljcfg) (now : N) (old : list (N * bytes)) : list N :=
  let files := newest_first old in
  let many := (0 <? lj_backups g) && (lj_backups g <? length files) in
  let rest := if many then firstn (lj_backups g) files else files in
  let over := if many then skipn (lj_backups g) files else [] in
  map fst over ++ (if (0 <? lj_age g)%N then map fst (filter (fun x => (fst x + lj_age g <? now)%N) rest) else []).

Inductive ljev :=
| LTau
| LWrite (p : bytes)      (* a line was written to the log *)
| LReject (p : bytes)     (* Write returned an error, which zap drops *)
| LRotate (now : N)       (* the log was renamed to the backup of that time *)
| LMill (now : N)         (* the removing goroutine looked at the directory *)
| LRemove (t : N)         (* it removed a backup *)
| LExit.                  (* the process ended *)

Definition jset (s : ljst) (cur : option bytes) (old : list (N * bytes)) (pc : ljpc) (op : option N) (ml : bool) : ljst :=
  {| j_cur := cur; j_old := old; j_pc := pc; j_open := op; j_mill := ml; j_rm := j_rm s |}.

Inductive lj_step (g : ljcfg) (s : ljst) : ljev -> ljst -> Prop :=
(** Write *)
| lj_reject p : j_pc s = PcIdle -> (lj_max g < blen p)%N -> lj_step g s (LReject p) s
| lj_begin_open p n : j_pc s = PcIdle -> (blen p <= lj_max g)%N -> j_open s = Some n ->
    lj_step g s LTau (jset s (j_cur s) (j_old s) (PcReady p) (j_open s) (j_mill s))
| lj_begin_closed p : j_pc s = PcIdle -> (blen p <= lj_max g)%N -> j_open s = None ->
    lj_step g s LTau (jset s (j_cur s) (j_old s) (PcOpening p) None true)
(** openExistingOrNew *)
| lj_open_missing p : j_pc s = PcOpening p -> j_cur s = None ->
    lj_step g s LTau (jset s (Some []) (j_old s) (PcReady p) (Some 0%N) (j_mill s))
| lj_open_full p c : j_pc s = PcOpening p -> j_cur s = Some c -> (lj_max g <= blen c + blen p)%N ->
    lj_step g s LTau (jset s (j_cur s) (j_old s) (PcRotate p) None (j_mill s))
| lj_open_existing p c : j_pc s = PcOpening p -> j_cur s = Some c -> (blen c + blen p < lj_max g)%N ->
    lj_step g s LTau (jset s (j_cur s) (j_old s) (PcReady p) (Some (blen c)) (j_mill s))
(** the rest of Write *)
| lj_full p n : j_pc s = PcReady p -> j_open s = Some n -> (lj_max g < n + blen p)%N ->
    lj_step g s LTau (jset s (j_cur s) (j_old s) (PcRotate p) (j_open s) (j_mill s))
| lj_write p n : j_pc s = PcReady p -> j_open s = Some n -> (n + blen p <= lj_max g)%N ->
    lj_step g s (LWrite p) (jset s (Some (text (j_cur s) ++ p)) (j_old s) PcIdle (Some (n + blen p)%N) (j_mill s))
(** rotate: close, openNew (rename, then create), mill *)
| lj_rename p c now : j_pc s = PcRotate p -> j_cur s = Some c ->
    lj_step g s (LRotate now) (jset s None (store_old now c (j_old s)) (PcNew p) None (j_mill s))
| lj_create p : j_pc s = PcNew p ->
    lj_step g s LTau (jset s (Some []) (j_old s) (PcReady p) (Some 0%N) true)
(** millRun *)
| lj_mill_look now : j_mill s = true -> j_rm s = None ->
    lj_step g s (LMill now) {| j_cur := j_cur s; j_old := j_old s; j_pc := j_pc s; j_open := j_open s; j_mill := false; j_rm := Some (to_remove g now (j_old s)) |}
| lj_mill_remove t r : j_rm s = Some (t :: r) ->
    lj_step g s (LRemove t) {| j_cur := j_cur s; j_old := del t (j_old s); j_pc := j_pc s; j_open := j_open s; j_mill := j_mill s; j_rm := Some r |}
| lj_mill_done : j_rm s = Some [] ->
    lj_step g s LTau {| j_cur := j_cur s; j_old := j_old s; j_pc := j_pc s; j_open := j_open s; j_mill := j_mill s; j_rm := None |}
(** the process ends, anywhere; the disk stays *)
| lj_exit : lj_step g s LExit {| j_cur := j_cur s; j_old := j_old s; j_pc := PcIdle; j_open := None; j_mill := false; j_rm := None |}.

(** The history of the directory, from an empty one. *)
Inductive lj_run (g : ljcfg) : list ljev -> ljst -> Prop :=
| ljr_start : lj_run g [] lj0
| ljr_step tr s ev s' : lj_run g tr s -> lj_step g s ev s' -> lj_run g (tr ++ [ev]) s'.
