(** P_LogReg.v -- property theorems (generated by tools/gen_p.py from LogRegPf.v).
    Each statement is repeated in full and closed by [exact]. *)
From Verif Require Import Base Logger LoggerPf LogReg LogRegSpec.
Local Open Scope list_scope.
From Verif Require Import LogRegPf.

(** C126: GetLogger returns one logger.  If the name was asked for before, it is the logger returned then, and no factory
    is called; otherwise it is a new one, for which the factory in force was called once, with that name and the level in
    force. *)
Theorem C126_get_logger : forall h names evs r, reg_run (h ++ [(CGetLogger names, evs)]) r ->
  exists l, ((was_got h (name_asked h names) l /\ evs = [LrGot names l]) \/
             ((forall l', ~ was_got h (name_asked h names) l') /\ evs = [LrMade l; LrGot names l] /\ ~ In (LrMade l) (events h) /\
              ml_factory l = factory_after console_factory h /\ ml_name l = name_asked h names /\ ml_level l = level_in_force INFO h)).
Proof. exact C126_get_logger_pf. Qed.
Print Assumptions C126_get_logger.

(** C126: so a name has one logger for the life of the process, whatever happens to levels and factories, and two names
    never share a logger. *)
Theorem C126_one_per_name : forall h r n1 l1 n2 l2, reg_run h r -> was_got h n1 l1 -> was_got h n2 l2 -> (n1 = n2 <-> l1 = l2) /\ In (LrMade l1) (events h).
Proof. exact C126_one_per_name_pf. Qed.
Print Assumptions C126_one_per_name.

(** C126: Close flushes every logger handed out so far, by whichever factory it was made, once, and nothing else; it
    changes nothing. *)
Theorem C126_close_flushes_all : forall h order evs r, reg_run (h ++ [(CClose order, evs)]) r ->
  (forall l, In (LrFlushed l) evs <-> exists name, was_got h name l) /\ NoDup evs /\ (forall e, In e evs -> exists l, e = LrFlushed l) /\
  (forall name l, was_got (h ++ [(CClose order, evs)]) name l <-> was_got h name l).
Proof. exact C126_close_flushes_all_pf. Qed.
Print Assumptions C126_close_flushes_all.

(** C126 refuted, "InitLogger makes the program log through the new factory": once a name was asked for - the package
    variables of this program ask for the default name before main runs - its logger stays the console logger, whatever
    factory with that default name, and whatever level, is installed later. *)
Theorem C126_init_logger_refuted : forall f lv, lf_default f = [] -> exists h r l, reg_run h r /\
  map fst h = [CGetLogger []; CInitLogger f lv; CGetLogger []] /\ In (LrGot [] l) (snd (last h (CSetLevel 0, []))) /\ ml_factory l = console_factory /\ ml_level l = INFO.
Proof. exact C126_init_logger_refuted_pf. Qed.
Print Assumptions C126_init_logger_refuted.

(** C126: a factory with a default name of its own does take over GetLogger(), and Close flushes both loggers. *)
Theorem C126_example : exists r a b, let f := {| lf_id := 1; lf_default := B "app" |} in
  reg_run [(CGetLogger [], [LrMade a; LrGot [] a]); (CInitLogger f DEBUG, []); (CGetLogger [], [LrMade b; LrGot [] b]); (CSetLevel ERROR, []); (CGetLogger [B "app"], [LrGot [B "app"] b]); (CClose [a; b], [LrFlushed a; LrFlushed b])] r /\
  ml_factory a = console_factory /\ ml_level a = INFO /\ ml_factory b = f /\ ml_level b = DEBUG /\ ml_name b = B "app".
Proof. exact C126_example_pf. Qed.
Print Assumptions C126_example.
