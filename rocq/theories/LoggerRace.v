(** LoggerRace.v -- model of concurrent calls of GetLogger (misc/logger.go:60-72): the unsynchronised first
    look-up, the lock, the second look-up, the creation and the store.

    A logger is identified by a number (its allocation).  [LgRead1] and [LgWrite] mean that the goroutine is
    inside the map access of :61 and :70 respectively; if two goroutines are inside such accesses
    of the same map and one is a write, the Go runtime may kill the process ("concurrent map read and
    map write").  Apart from that, the accesses take effect atomically in this model. *)
From Verif Require Import Base.
Local Open Scope list_scope.

Inductive lgpc :=
| LgRead1 (n : bytes)              (* :61 *)
| LgLock (n : bytes)               (* :64 *)
| LgRead2 (n : bytes)              (* :66 *)
| LgWrite (n : bytes) (id : nat)   (* :69-71 *)
| LgUnlock (n : bytes) (id : nat). (* the deferred Unlock of :65, about to return id *)

Record lgst := { lg_map : bytes -> option nat; lg_next : nat; lg_lock : bool; lg_thr : list lgpc }.
Definition lg0 : lgst := {| lg_map := fun _ => None; lg_next := 0; lg_lock := false; lg_thr := [] |}.

(** [Some (n, id)]: a call GetLogger(n) returned logger [id]. *)
Definition lgset (s : lgst) (m : bytes -> option nat) (nx : nat) (lk : bool) (t : list lgpc) : lgst :=
  {| lg_map := m; lg_next := nx; lg_lock := lk; lg_thr := t |}.
Definition mstore (m : bytes -> option nat) (k : bytes) (v : nat) : bytes -> option nat := fun k' => if beq k' k then Some v else m k'.

Inductive lg_step (s : lgst) : option (bytes * nat) -> lgst -> Prop :=
| lgs_call n : lg_step s None (lgset s (lg_map s) (lg_next s) (lg_lock s) (lg_thr s ++ [LgRead1 n]))
| lgs_hit l1 n l2 id : lg_thr s = l1 ++ LgRead1 n :: l2 -> lg_map s n = Some id ->
    lg_step s (Some (n, id)) (lgset s (lg_map s) (lg_next s) (lg_lock s) (l1 ++ l2))
| lgs_miss l1 n l2 : lg_thr s = l1 ++ LgRead1 n :: l2 -> lg_map s n = None ->
    lg_step s None (lgset s (lg_map s) (lg_next s) (lg_lock s) (l1 ++ LgLock n :: l2))
| lgs_lock l1 n l2 : lg_thr s = l1 ++ LgLock n :: l2 -> lg_lock s = false ->
    lg_step s None (lgset s (lg_map s) (lg_next s) true (l1 ++ LgRead2 n :: l2))
| lgs_hit2 l1 n l2 id : lg_thr s = l1 ++ LgRead2 n :: l2 -> lg_map s n = Some id ->
    lg_step s None (lgset s (lg_map s) (lg_next s) (lg_lock s) (l1 ++ LgUnlock n id :: l2))
| lgs_new l1 n l2 : lg_thr s = l1 ++ LgRead2 n :: l2 -> lg_map s n = None ->
    lg_step s None (lgset s (lg_map s) (S (lg_next s)) (lg_lock s) (l1 ++ LgWrite n (lg_next s) :: l2))
| lgs_write l1 n id l2 : lg_thr s = l1 ++ LgWrite n id :: l2 ->
    lg_step s None (lgset s (mstore (lg_map s) n id) (lg_next s) (lg_lock s) (l1 ++ LgUnlock n id :: l2))
| lgs_ret l1 n id l2 : lg_thr s = l1 ++ LgUnlock n id :: l2 ->
    lg_step s (Some (n, id)) (lgset s (lg_map s) (lg_next s) false (l1 ++ l2)).

(** Runs, with the returns seen so far. *)
Inductive lg_run : list (bytes * nat) -> lgst -> Prop :=
| lgr0 : lg_run [] lg0
| lgr_tau tr s s' : lg_run tr s -> lg_step s None s' -> lg_run tr s'
| lgr_ret tr s r s' : lg_run tr s -> lg_step s (Some r) s' -> lg_run (tr ++ [r]) s'.
