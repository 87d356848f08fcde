(** LogFilesSpec.v -- what C130 means. *)
From Verif Require Import Base LogFiles.
From Coq Require Export Sorting.Sorted Permutation.
Local Open Scope list_scope.

(** The lines written, in order. *)
Definition lines (tr : list ljev) : list bytes := flat_map (fun e => match e with LWrite p => [p] | _ => [] end) tr.
(** What was written between the rotations: the closed stretches, oldest first, each with the time of the rotation that ended
    it, and the stretch since the last one. *)
Definition stretch (a : list (N * list bytes) * list bytes) (e : ljev) : list (N * list bytes) * list bytes :=
  match e with LWrite p => (fst a, snd a ++ [p]) | LRotate t => (fst a ++ [(t, snd a)], []) | _ => a end.
Definition stretches (tr : list ljev) : list (N * list bytes) * list bytes := fold_left stretch tr ([], []).
Definition closed (tr : list ljev) : list (N * list bytes) := fst (stretches tr).
Definition open_lines (tr : list ljev) : list bytes := snd (stretches tr).
Definition as_file (x : N * list bytes) : N * bytes := (fst x, concat (snd x)).

(** The clock, as the rotations saw it, went forward by at least a millisecond from each to the next. *)
Definition steady (tr : list ljev) : Prop := forall tr1 t tr2, tr = tr1 ++ LRotate t :: tr2 -> forall x, In x (closed tr1) -> (fst x < t)%N.

(** At some look of the remover before, the backup [t] had [lj_backups] newer ones, or was older than the age. *)
Definition due (g : ljcfg) (tr : list ljev) (t : N) : Prop := exists tr1 now tr2, tr = tr1 ++ LMill now :: tr2 /\
  ((0 < lj_backups g /\ lj_backups g <= length (filter (fun x => t <? fst x)%N (closed tr1))) \/ ((0 < lj_age g)%N /\ (t + lj_age g < now)%N)).

(** The remover is done: nothing requested, nothing left to remove. *)
Definition tidy_now (s : ljst) : Prop := j_open s <> None /\ j_mill s = false /\ j_rm s = None.
