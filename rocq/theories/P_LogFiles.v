(** P_LogFiles.v -- property theorems (generated by tools/gen_p.py from LogFilesPf.v).
    Each statement is repeated in full and closed by [exact]. *)
From Verif Require Import Base GoLib LogFiles LogFilesSpec LogFilesProofs.
Local Open Scope list_scope.
From Verif Require Import LogFilesPf.

(** C130: at every moment of every history of processes, and whenever they ended: logs/infohash.log is what was written since the last
    rotation, every backup is what was written between two rotations, in order, and a stretch that has no backup was removed. *)
Theorem C130_files : forall g tr s, lj_run g tr s -> steady tr ->
  lines tr = concat (map snd (closed tr)) ++ open_lines tr /\
  text (j_cur s) = concat (open_lines tr) /\
  (forall f, In f (j_old s) -> exists x, In x (closed tr) /\ f = (fst x, concat (snd x))) /\
  (forall x, In x (closed tr) -> In (fst x, concat (snd x)) (j_old s) \/ In (LRemove (fst x)) tr).
Proof. exact C130_files_pf. Qed.
Print Assumptions C130_files.

(** C130: a backup is removed only after the remover saw that there were [lj_backups] newer ones, or that it was too old. *)
Theorem C130_removed_when_due : forall g tr1 t tr2 s, lj_run g (tr1 ++ LRemove t :: tr2) s -> due g tr1 t.
Proof. exact C130_removed_when_due_pf. Qed.
Print Assumptions C130_removed_when_due.

(** C130: the last [lj_backups] stretches that no look of the remover found too old are all there, whole. *)
Theorem C130_recent_kept : forall g tr s a b, lj_run g tr s -> steady tr -> closed tr = a ++ b -> length b <= lj_backups g ->
  (forall x now, In x b -> In (LMill now) tr -> (now <= fst x + lj_age g)%N) ->
  forall x, In x b -> In (fst x, concat (snd x)) (j_old s).
Proof. exact C130_recent_kept_pf. Qed.
Print Assumptions C130_recent_kept.

(** C130: nothing is lost until there have been more than [lj_backups] rotations or a backup became too old: the backups by age and then the log are
    everything ever written. *)
Theorem C130_nothing_lost : forall g tr s, lj_run g tr s -> steady tr -> length (closed tr) <= lj_backups g ->
  (forall x now, In x (closed tr) -> In (LMill now) tr -> (now <= fst x + lj_age g)%N) ->
  exists o, Permutation o (j_old s) /\ StronglySorted (fun x y => (fst x < fst y)%N) o /\ concat (map snd o) ++ text (j_cur s) = concat (lines tr).
Proof. exact C130_nothing_lost_pf. Qed.
Print Assumptions C130_nothing_lost.

(** C130: no file is larger than MaxSize, and whenever the remover is done there are at most MaxBackups backups: the info-hash log
    takes at most 2000 MiB of the disk then. *)
Theorem C130_bounded : forall tr s, lj_run zap_rotation tr s ->
  (blen (text (j_cur s)) <= 500 * 1024 * 1024)%N /\ (forall f, In f (j_old s) -> (blen (snd f) <= 500 * 1024 * 1024)%N) /\
  (tidy_now s -> length (j_old s) <= 3 /\ (blen (text (j_cur s)) + fold_right (fun f n => blen (snd f) + n) 0 (j_old s) <= 2000 * 1024 * 1024)%N).
Proof. exact C130_bounded_pf. Qed.
Print Assumptions C130_bounded.

(** C130: a line that is not longer than MaxSize can always be written, whatever happened before - no error, no new start of the process
    needed -, and a line is refused only if it is longer. *)
Theorem C130_writes_succeed : forall g tr s, lj_run g tr s ->
  (forall p, j_pc s = PcIdle -> (blen p <= lj_max g)%N -> exists tr' s', lj_run g (tr ++ tr') s' /\ j_pc s' = PcIdle /\ lines tr' = [p] /\
    (forall e, In e tr' -> match e with LReject _ | LExit => False | _ => True end) /\ (steady tr -> steady (tr ++ tr'))) /\
  (forall p, In (LReject p) tr -> (lj_max g < blen p)%N).
Proof. exact C130_writes_succeed_pf. Qed.
Print Assumptions C130_writes_succeed.

(** C130: that everything the crawler ever logged stays on the disk is false: after four rotations the oldest lines are removed, and
    a first line is in no file. *)
Theorem C130_all_kept_refuted : exists tr s p, lj_run zap_rotation tr s /\ steady tr /\ In p (lines tr) /\ tidy_now s /\
  exists c, In c p /\ ~ In c (text (j_cur s)) /\ forall f, In f (j_old s) -> ~ In c (snd f).
Proof. exact C130_all_kept_refuted_pf. Qed.
Print Assumptions C130_all_kept_refuted.

(** C130: that the files always hold an unbroken stretch of what was logged is false: the remover begins with the newest of the
    backups that are too many, and if the process ends in between, older ones stay. *)
Theorem C130_unbroken_refuted : exists tr s x1 x2 x3 rest, lj_run zap_rotation tr s /\ steady tr /\ closed tr = x1 :: x2 :: x3 :: rest /\
  In (fst x2) (map fst (j_old s)) /\ ~ In (fst x3) (map fst (j_old s)) /\ (forall x, In x rest -> In (fst x) (map fst (j_old s))) /\ rest <> [].
Proof. exact C130_unbroken_refuted_pf. Qed.
Print Assumptions C130_unbroken_refuted.

(** C130: without a steady clock even that is false: two rotations at the same time leave one backup, and the lines of the first are gone
    although nothing was removed. *)
Theorem C130_clock_refuted : exists tr s p, lj_run zap_rotation tr s /\ In p (lines tr) /\ (forall t, ~ In (LRemove t) tr) /\ length (closed tr) = 2 /\
  exists c, In c p /\ ~ In c (text (j_cur s)) /\ forall f, In f (j_old s) -> ~ In c (snd f).
Proof. exact C130_clock_refuted_pf. Qed.
Print Assumptions C130_clock_refuted.

(** C130: an example.  A line, the end of the process, a second process that adds a line: both are in the log. *)
Theorem C130_example : exists tr s, lj_run zap_rotation tr s /\ steady tr /\ lines tr = [B "one"; B "two"] /\ In LExit tr /\ text (j_cur s) = B "onetwo" /\ j_old s = [].
Proof. exact C130_example_pf. Qed.
Print Assumptions C130_example.

(** C130: the remover looks at the directory at most once for every rotation and every start of the process. *)
Theorem C130_looks_bounded : forall g tr s, lj_run g tr s ->
  times (fun e => match e with LMill _ => true | _ => false end) tr <=
  times (fun e => match e with LRotate _ => true | _ => false end) tr + times (fun e => match e with LExit => true | _ => false end) tr + 1.
Proof. exact C130_looks_bounded_pf. Qed.
Print Assumptions C130_looks_bounded.
