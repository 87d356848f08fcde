(** SyncMap.v -- model of misc/syncmap.go: any number of goroutines call Put, Get and Del on one
    SyncMap.  An access to the Go map is an interval (a begin and an end step), so that two accesses
    can overlap; its effect happens at the end step.  The mutex is Go's: Lock waits until it is free. *)
From Verif Require Import Base Node.
Local Open Scope list_scope.

Section SyncMap.
  Variable V : Type.

  Inductive smop := OpPut (k : bytes) (v : V) | OpGet (k : bytes) | OpDel (k : bytes).
  (** Program points: not in a call; before m.Lock() of Put, Get (:16, :22) and of Del (:33); the map
      access of Put (:17) and Get (:23) pending, in progress; the first look of Del (:29); its second
      look (:34) and the delete (:37); before the deferred Unlock, with the result of the call. *)
  Inductive smpc :=
  | MIdle
  | MPutLock (k : bytes) (v : V) | MPutReady (k : bytes) (v : V) | MPutting (k : bytes) (v : V)
  | MGetLock (k : bytes) | MGetReady (k : bytes) | MGetting (k : bytes)
  | MDelReady (k : bytes) | MDelLook (k : bytes) | MDelLock (k : bytes) | MDelReady2 (k : bytes) | MDelLook2 (k : bytes) | MDelReady3 (k : bytes) | MDeleting (k : bytes)
  | MUnlock (r : option V) | MReturn (r : option V).

  (** What happened: a call began, took effect (with the value a Get saw), returned. *)
  Inductive smev := EvCall (i : nat) (o : smop) | EvEffect (i : nat) (o : smop) (r : option V) | EvReturn (i : nat) (r : option V).

  Record sm := { m_map : bytes -> option V; m_owner : option nat; m_pcs : nat -> smpc; m_trace : list smev }.

  (** misc/syncmap.go:10-12 *)
  Definition NewSyncMap : sm := {| m_map := fun _ => None; m_owner := None; m_pcs := fun _ => MIdle; m_trace := [] |}.

  Definition goto (s : sm) (i : nat) (c : smpc) : sm := {| m_map := m_map s; m_owner := m_owner s; m_pcs := upd (m_pcs s) i c; m_trace := m_trace s |}.
  Definition lock (s : sm) (i : nat) : sm := {| m_map := m_map s; m_owner := Some i; m_pcs := m_pcs s; m_trace := m_trace s |}.
  Definition unlock (s : sm) : sm := {| m_map := m_map s; m_owner := None; m_pcs := m_pcs s; m_trace := m_trace s |}.
  Definition note (s : sm) (ev : smev) : sm := {| m_map := m_map s; m_owner := m_owner s; m_pcs := m_pcs s; m_trace := m_trace s ++ [ev] |}.
  Definition store (s : sm) (k : bytes) (v : option V) : sm :=
    {| m_map := fun k' => if beq k' k then v else m_map s k'; m_owner := m_owner s; m_pcs := m_pcs s; m_trace := m_trace s |}.

  Inductive sm_step (s : sm) : sm -> Prop :=
  (** misc/syncmap.go:14-18 *)
  | sm_put i k v : m_pcs s i = MIdle -> sm_step s (note (goto s i (MPutLock k v)) (EvCall i (OpPut k v)))
  | sm_put_lock i k v : m_pcs s i = MPutLock k v -> m_owner s = None -> sm_step s (lock (goto s i (MPutReady k v)) i)
  | sm_put_begin i k v : m_pcs s i = MPutReady k v -> sm_step s (goto s i (MPutting k v))
  | sm_put_end i k v : m_pcs s i = MPutting k v -> sm_step s (note (store (goto s i (MUnlock None)) k (Some v)) (EvEffect i (OpPut k v) None))
  (** :20-25 *)
  | sm_get i k : m_pcs s i = MIdle -> sm_step s (note (goto s i (MGetLock k)) (EvCall i (OpGet k)))
  | sm_get_lock i k : m_pcs s i = MGetLock k -> m_owner s = None -> sm_step s (lock (goto s i (MGetReady k)) i)
  | sm_get_begin i k : m_pcs s i = MGetReady k -> sm_step s (goto s i (MGetting k))
  | sm_get_end i k : m_pcs s i = MGetting k -> sm_step s (note (goto s i (MUnlock (m_map s k))) (EvEffect i (OpGet k) (m_map s k)))
  (** :28-38; :29 holds no lock *)
  | sm_del i k : m_pcs s i = MIdle -> sm_step s (note (goto s i (MDelReady k)) (EvCall i (OpDel k)))
  | sm_del_begin i k : m_pcs s i = MDelReady k -> sm_step s (goto s i (MDelLook k))
  | sm_del_miss i k : m_pcs s i = MDelLook k -> m_map s k = None -> sm_step s (note (goto s i (MReturn None)) (EvEffect i (OpDel k) None))
  | sm_del_hit i k : m_pcs s i = MDelLook k -> m_map s k <> None -> sm_step s (goto s i (MDelLock k))
  | sm_del_lock i k : m_pcs s i = MDelLock k -> m_owner s = None -> sm_step s (lock (goto s i (MDelReady2 k)) i)
  | sm_del_begin2 i k : m_pcs s i = MDelReady2 k -> sm_step s (goto s i (MDelLook2 k))
  | sm_del_miss2 i k : m_pcs s i = MDelLook2 k -> m_map s k = None -> sm_step s (note (goto s i (MUnlock None)) (EvEffect i (OpDel k) None))
  | sm_del_hit2 i k : m_pcs s i = MDelLook2 k -> m_map s k <> None -> sm_step s (goto s i (MDelReady3 k))
  | sm_del_begin3 i k : m_pcs s i = MDelReady3 k -> sm_step s (goto s i (MDeleting k))
  | sm_del_end i k : m_pcs s i = MDeleting k -> sm_step s (note (store (goto s i (MUnlock None)) k None) (EvEffect i (OpDel k) None))
  (** the deferred Unlock, and the return *)
  | sm_unlock i r : m_pcs s i = MUnlock r -> sm_step s (unlock (goto s i (MReturn r)))
  | sm_return i r : m_pcs s i = MReturn r -> sm_step s (note (goto s i MIdle) (EvReturn i r)).

  Inductive sm_reach : sm -> Prop :=
  | smr_init : sm_reach NewSyncMap
  | smr_step s s' : sm_reach s -> sm_step s s' -> sm_reach s'.
End SyncMap.
Arguments OpPut {V}. Arguments OpGet {V}. Arguments OpDel {V}.
Arguments MIdle {V}. Arguments MPutLock {V}. Arguments MPutReady {V}. Arguments MPutting {V}. Arguments MGetLock {V}. Arguments MGetReady {V}. Arguments MGetting {V}.
Arguments MDelReady {V}. Arguments MDelLook {V}. Arguments MDelLock {V}. Arguments MDelReady2 {V}. Arguments MDelLook2 {V}. Arguments MDelReady3 {V}. Arguments MDeleting {V}.
Arguments MUnlock {V}. Arguments MReturn {V}.
Arguments EvCall {V}. Arguments EvEffect {V}. Arguments EvReturn {V}.
Arguments m_map {V}. Arguments m_owner {V}. Arguments m_pcs {V}. Arguments m_trace {V}.
