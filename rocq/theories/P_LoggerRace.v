(** P_LoggerRace.v -- property theorems (generated by tools/gen_p.py from LoggerRacePf.v).
    Each statement is repeated in full and closed by [exact]. *)
From Verif Require Import Base LoggerRace.
Local Open Scope list_scope.
From Verif Require Import LoggerRacePf.

(** C85: in every schedule of any number of GetLogger calls, two calls return the same logger exactly when
    they asked for the same name - as long as the map accesses take effect atomically. *)
Theorem C85_one_logger_per_name : forall tr s n1 id1 n2 id2, lg_run tr s ->
  In (n1, id1) tr -> In (n2, id2) tr -> (id1 = id2 <-> n1 = n2).
Proof. exact C85_one_logger_per_name_pf. Qed.
Print Assumptions C85_one_logger_per_name.

(** C85 refuted as far as memory safety goes: the first look-up is not synchronised, so one goroutine can be
    reading the map while another one is writing it, which the Go runtime treats as a fatal error.  (This
    repository calls GetLogger only from package initialisers, where there is one goroutine.) *)
Theorem C85_map_race_refuted : forall n m, exists tr s t1 t2,
  lg_run tr s /\ nth_error (lg_thr s) 0 = Some t1 /\ nth_error (lg_thr s) 1 = Some t2 /\
  (exists id, t1 = LgWrite n id) /\ t2 = LgRead1 m.
Proof. exact C85_map_race_refuted_pf. Qed.
Print Assumptions C85_map_race_refuted.

(** Non-vacuity: two goroutines that both missed the cache get the same logger. *)
Theorem C85_example : forall n, exists s, lg_run [(n, 0); (n, 0)] s.
Proof. exact C85_example_pf. Qed.
Print Assumptions C85_example.
