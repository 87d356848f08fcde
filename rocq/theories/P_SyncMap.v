(** P_SyncMap.v -- property theorems (generated by tools/gen_p.py from SyncMapPf.v).
    Each statement is repeated in full and closed by [exact]. *)
From Verif Require Import Base Node SyncMap SyncMapSpec.
Local Open Scope list_scope.
From Verif Require Import SyncMapPf.

(** C73: SyncMap is linearizable: in every run without data race, every call takes effect exactly once
    between its begin and its return, and every Get returns the value of the latest Put of its key
    that took effect before it, unless a Del of the key came in between. *)
Theorem C73_linearizable : forall V (s : sm V), calm_reach s ->
  (forall i, open_calls i (of_thread i (m_trace s))) /\
  (forall pre i k r post, m_trace s = pre ++ EvEffect i (OpGet k) r :: post -> r = latest pre k).
Proof. exact C73_linearizable_pf. Qed.
Print Assumptions C73_linearizable.

(** C73: a run: Put, Get, Del, Get, and the results of the two Gets. *)
Theorem C73_example : exists s : sm nat, calm_reach s /\
  m_trace s = [EvCall 1 (OpPut k0 9); EvEffect 1 (OpPut k0 9) None; EvReturn 1 None; EvCall 2 (OpGet k0); EvEffect 2 (OpGet k0) (Some 9); EvReturn 2 (Some 9);
               EvCall 1 (OpDel k0); EvEffect 1 (OpDel k0) None; EvReturn 1 None; EvCall 2 (OpGet k0); EvEffect 2 (OpGet k0) None].
Proof. exact C73_example_pf. Qed.
Print Assumptions C73_example.

(** C74: what holds: a data race always involves the first, unlocked look of a Del; Put and Get never
    race with each other, nor do the locked parts of Del. *)
Theorem C74_only_del_races : forall V (s : sm V) i j, sm_reach V s -> race s i j -> exists k, m_pcs s j = MDelLook k.
Proof. exact C74_only_del_races_pf. Qed.
Print Assumptions C74_only_del_races.

(** C74: false in general: a Del looks at the map while a Put writes it. *)
Theorem C74_del_race_refuted : exists s : sm nat, sm_reach nat s /\ race s 1 2.
Proof. exact C74_del_race_refuted_pf. Qed.
Print Assumptions C74_del_race_refuted.
