(** P_Config.v -- property theorems (generated by tools/gen_p.py from ConfigPf.v).
    Each statement is repeated in full and closed by [exact]. *)
From Verif Require Import Base Types Config.
Local Open Scope list_scope.
From Verif Require Import ConfigPf.

(** C79: once a section has been read, every later read of it - whatever other reads and resets happen in
    between, whatever the files say by then - returns the very same value and changes nothing. *)
Theorem C79_read_once : forall V (s s1 s2 : cfg V) key v l, getSubConfig s key = Ok (s1, v) -> crun s1 l s2 ->
  getSubConfig s2 key = Ok (s2, v).
Proof. exact C79_read_once_pf. Qed.
Print Assumptions C79_read_once.

(** C79, consequence for the program: in every successful start the port, the bootstrap nodes, both pool
    sizes, the queue size and the log level come from the file in ./conf (or the defaults); of the
    file given with --config only the pprof section is used; and the reads made by the goroutines
    change nothing in the shared map. *)
Theorem C79_config_flag : forall V (defaults f1 f2 : bytes -> res V) s u, startup defaults (RdOk f1) (RdOk f2) = Ok (s, u) ->
  f1 (B "dht") = Ok (us_port u) /\ us_nodes u = us_port u /\ us_krpc_pool u = us_port u /\
  f1 (B "fetchTorrent") = Ok (us_queue u) /\ us_fetch_pool u = us_queue u /\
  f1 (B "logger") = Ok (us_logger u) /\ f2 (B "pprof") = Ok (us_pprof u) /\
  (forall key, In key [B "dht"; B "fetchTorrent"; B "pprof"; B "logger"] -> exists v, getSubConfig s key = Ok (s, v)).
Proof. exact C79_config_flag_pf. Qed.
Print Assumptions C79_config_flag.

(** C79 refuted in the sense a user of --config expects: another port, other nodes, another level in that file
    are ignored. *)
Theorem C79_config_flag_ignored_refuted : exists (defaults f1 f2 : bytes -> res Z) s u,
  startup defaults (RdOk f1) (RdOk f2) = Ok (s, u) /\ f2 (B "dht") = Ok 2%Z /\ us_port u = 1%Z /\ us_nodes u = 1%Z /\ us_logger u = 1%Z /\ us_pprof u = 2%Z.
Proof. exact C79_config_flag_ignored_refuted_pf. Qed.
Print Assumptions C79_config_flag_ignored_refuted.

(** Non-vacuity of C79_read_once: the file changes between two reads. *)
Theorem C79_example : exists s s1 s2 l, getSubConfig s (B "dht") = Ok (s1, 1%Z) /\ crun s1 l s2 /\ cf_cur s2 (B "dht") = Ok 9%Z /\
  getSubConfig s2 (B "dht") = Ok (s2, 1%Z).
Proof. exact C79_example_pf. Qed.
Print Assumptions C79_example.

(** C79: reading the configuration: a file that can be read replaces what later first reads see; when there is
    none, it is created and the values stay as they were; when it cannot be created, or exists but cannot be read or parsed,
    the program panics with a message that says so.  No outcome touches the sections already read. *)
Theorem C79_reset : forall V (s : cfg V) r,
  (forall f, r = RdOk f -> exists s1, ResetConfig s r = Ok s1 /\ cf_cur s1 = f /\ cf_map s1 = cf_map s) /\
  (r = RdNotFound true -> ResetConfig s r = Ok s) /\
  (r = RdNotFound false -> ResetConfig s r = Panic (PBiz GenericErr (B "init flush config err"))) /\
  (r = RdError -> ResetConfig s r = Panic (PBiz GenericErr (B "read config panic"))).
Proof. exact C79_reset_pf. Qed.
Print Assumptions C79_reset.

(** C79: the first read of a section returns what the file (or the defaults) says, is remembered under
    its own key only, and panics with the name of the section if that cannot be understood. *)
Theorem C79_first_read : forall V (s : cfg V) key, cfg_get (cf_map s) key = None ->
  (forall v, cf_cur s key = Ok v -> exists s1, getSubConfig s key = Ok (s1, v) /\ cf_cur s1 = cf_cur s /\
     cfg_get (cf_map s1) key = Some v /\ (forall k, k <> key -> cfg_get (cf_map s1) k = cfg_get (cf_map s) k)) /\
  (forall e, cf_cur s key = Err e -> getSubConfig s key = Panic (PBiz GenericErr (B "cannot find " ++ key ++ B " config"))).
Proof. exact C79_first_read_pf. Qed.
Print Assumptions C79_first_read.
