(** SyncMapSpec.v -- vocabulary for C73-C74. *)
From Verif Require Import Base SyncMap.
Local Open Scope list_scope.

(** What Get(k) must return after the effects [l]: the value of the latest Put(k) unless a Del(k)
    came after it. *)
Definition latest {V} (l : list (smev V)) (k : bytes) : option V :=
  fold_left (fun cur ev => match ev with
             | EvEffect _ (OpPut k' v) _ => if beq k' k then Some v else cur
             | EvEffect _ (OpDel k') _ => if beq k' k then None else cur
             | _ => cur end) l None.

(** The events of goroutine i. *)
Definition of_thread {V} (i : nat) (l : list (smev V)) : list (smev V) :=
  filter (fun ev => Nat.eqb i (match ev with EvCall j _ | EvEffect j _ _ | EvReturn j _ => j end)) l.
(** Each call takes effect exactly once, between its begin and its return, and returns what the
    effect saw; [open]: the last call has not returned (it may or may not have taken effect). *)
Inductive calls {V} (i : nat) : list (smev V) -> Prop :=
| cl_nil : calls i []
| cl_call l o r : calls i l -> calls i (l ++ [EvCall i o; EvEffect i o r; EvReturn i r]).
Inductive open_calls {V} (i : nat) : list (smev V) -> Prop :=
| oc_none l : calls i l -> open_calls i l
| oc_call l o : calls i l -> open_calls i (l ++ [EvCall i o])
| oc_effect l o r : calls i l -> open_calls i (l ++ [EvCall i o; EvEffect i o r]).

(** Accesses to the Go map in progress, and data races: two at once, one of them writing. *)
Definition reads {V} (c : smpc V) : bool := match c with MGetting _ | MDelLook _ | MDelLook2 _ => true | _ => false end.
Definition writing {V} (c : smpc V) : bool := match c with MPutting _ _ | MDeleting _ => true | _ => false end.
Definition race {V} (s : sm V) (i j : nat) : Prop :=
  i <> j /\ writing (m_pcs s i) = true /\ (reads (m_pcs s j) = true \/ writing (m_pcs s j) = true).
(** The runs without data race (a racing access has no defined result). *)
Inductive calm_reach {V} : sm V -> Prop :=
| cr_init : calm_reach (NewSyncMap V)
| cr_step s s' : calm_reach s -> sm_step V s s' -> (forall i j, ~ race s' i j) -> calm_reach s'.
