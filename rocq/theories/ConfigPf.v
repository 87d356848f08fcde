(** ConfigPf.v -- proofs of C79 (configuration is read once). *)
From Verif Require Import Base Types Config.
Local Open Scope list_scope.

(** A history of section reads and resets, successful so far. *)
Inductive cop {V} := CGet (key : bytes) (v : V) | CReset (r : readres V).
Arguments cop : clear implicits.
Inductive crun {V} : cfg V -> list (cop V) -> cfg V -> Prop :=
| crn_nil s : crun s [] s
| crn_get s k s1 v l s' : getSubConfig s k = Ok (s1, v) -> crun s1 l s' -> crun s (CGet k v :: l) s'
| crn_reset s r s1 l s' : ResetConfig s r = Ok s1 -> crun s1 l s' -> crun s (CReset r :: l) s'.

Lemma beq_true a : forall b, beq a b = true <-> a = b.
Proof.
  induction a as [|x a IH]; intros [|y b]; cbn; try (split; congruence). rewrite andb_true_iff, IH, Ascii.eqb_eq. split; [intros [-> ->]; reflexivity|].
  intros E. injection E as -> ->. auto.
Qed.
Lemma get_spec {V} (s s1 : cfg V) k v : getSubConfig s k = Ok (s1, v) -> cfg_get (cf_map s1) k = Some v /\ cf_cur s1 = cf_cur s /\
  (forall k' v', cfg_get (cf_map s) k' = Some v' -> cfg_get (cf_map s1) k' = Some v') /\
  (cfg_get (cf_map s) k = Some v /\ s1 = s \/ cfg_get (cf_map s) k = None /\ cf_cur s k = Ok v).
Proof.
  unfold getSubConfig. destruct (cfg_get (cf_map s) k) as [w|] eqn:E.
  - intros H. injection H as <- <-. repeat split; auto.
  - destruct (cf_cur s k) as [w|e|p]; try discriminate. intros H. injection H as <- <-. cbn [cf_map cf_cur cfg_get].
    assert (Hb : beq k k = true) by (apply beq_true; reflexivity). rewrite Hb. repeat split; auto.
    intros k' v' Hk. destruct (beq k k') eqn:Ek; [|exact Hk]. apply beq_true in Ek. congruence.
Qed.
Lemma reset_map {V} (s s1 : cfg V) r : ResetConfig s r = Ok s1 -> cf_map s1 = cf_map s.
Proof. destruct r as [f|[]|]; cbn; intros H; try discriminate; injection H as <-; reflexivity. Qed.
Lemma crun_keeps {V} (s s' : cfg V) l : crun s l s' -> forall k v, cfg_get (cf_map s) k = Some v -> cfg_get (cf_map s') k = Some v.
Proof.
  induction 1 as [s|s k0 s1 v0 l s' E Hr IH|s r s1 l s' E Hr IH]; intros k v Hk; [exact Hk| |].
  - apply IH. apply get_spec in E as (_ & _ & E & _). auto.
  - apply IH. rewrite (reset_map _ _ _ E). exact Hk.
Qed.

(** C79: once a section has been read, every later read of it - whatever other reads and resets happen in
    between, whatever the files say by then - returns the very same value and changes nothing. *)
Lemma C79_read_once_pf : forall V (s s1 s2 : cfg V) key v l, getSubConfig s key = Ok (s1, v) -> crun s1 l s2 ->
  getSubConfig s2 key = Ok (s2, v).
Proof.
  intros V s s1 s2 key v l E Hr. apply get_spec in E as (E & _). pose proof (crun_keeps _ _ _ Hr _ _ E) as H.
  unfold getSubConfig. rewrite H. reflexivity.
Qed.

(** C79, consequence for the program: in every successful start the port, the bootstrap nodes, both pool
    sizes, the queue size and the log level come from the file in ./conf (or the defaults); of the
    file given with --config only the pprof section is used; and the reads made by the goroutines
    change nothing in the shared map. *)
Lemma C79_config_flag_pf : forall V (defaults f1 f2 : bytes -> res V) s u, startup defaults (RdOk f1) (RdOk f2) = Ok (s, u) ->
  f1 (B "dht") = Ok (us_port u) /\ us_nodes u = us_port u /\ us_krpc_pool u = us_port u /\
  f1 (B "fetchTorrent") = Ok (us_queue u) /\ us_fetch_pool u = us_queue u /\
  f1 (B "logger") = Ok (us_logger u) /\ f2 (B "pprof") = Ok (us_pprof u) /\
  (forall key, In key [B "dht"; B "fetchTorrent"; B "pprof"; B "logger"] -> exists v, getSubConfig s key = Ok (s, v)).
Proof.
  intros V df f1 f2 s u. unfold startup. cbn [ResetConfig bind cf_map cf_cur].
  unfold getSubConfig. cbn [cf_map cfg_get cf_cur].
  change dhtConfigKey with (B "dht"). change fetchTorrentConfigKey with (B "fetchTorrent"). change loggerConfigKey with (B "logger"). change pprofConfigKey with (B "pprof").
  destruct (f1 (B "dht")) as [vd|e|p]; cbn [bind]; try discriminate. cbn [cf_map cfg_get cf_cur].
  change (beq (B "dht") (B "fetchTorrent")) with false. cbv iota.
  destruct (f1 (B "fetchTorrent")) as [vf|e|p]; cbn [bind]; try discriminate. cbn [cf_map cfg_get cf_cur].
  change (beq (B "fetchTorrent") (B "logger")) with false. change (beq (B "dht") (B "logger")) with false. cbv iota.
  destruct (f1 (B "logger")) as [vl|e|p]; cbn [bind]; try discriminate. cbn [cf_map cfg_get cf_cur].
  change (beq (B "logger") (B "pprof")) with false. change (beq (B "fetchTorrent") (B "pprof")) with false. change (beq (B "dht") (B "pprof")) with false. cbv iota.
  destruct (f2 (B "pprof")) as [vp|e|p]; cbn [bind]; try discriminate.
  intros H. injection H as <- <-. cbn [us_port us_queue us_logger us_pprof us_nodes us_krpc_pool us_fetch_pool].
  repeat (split; [reflexivity|]). intros key [<-|[<-|[<-|[<-|[]]]]]; eexists; reflexivity.
Qed.

(** C79 refuted in the sense a user of --config expects: another port, other nodes, another level in that file
    are ignored. *)
Lemma C79_config_flag_ignored_refuted_pf : exists (defaults f1 f2 : bytes -> res Z) s u,
  startup defaults (RdOk f1) (RdOk f2) = Ok (s, u) /\ f2 (B "dht") = Ok 2%Z /\ us_port u = 1%Z /\ us_nodes u = 1%Z /\ us_logger u = 1%Z /\ us_pprof u = 2%Z.
Proof.
  exists (fun _ => Ok 0%Z), (fun _ => Ok 1%Z), (fun _ => Ok 2%Z). eexists _, _. split; [reflexivity|]. repeat split.
Qed.

(** Non-vacuity of C79_read_once: the file changes between two reads. *)
Lemma C79_example_pf : exists s s1 s2 l, getSubConfig s (B "dht") = Ok (s1, 1%Z) /\ crun s1 l s2 /\ cf_cur s2 (B "dht") = Ok 9%Z /\
  getSubConfig s2 (B "dht") = Ok (s2, 1%Z).
Proof.
  exists {| cf_map := []; cf_cur := fun _ => Ok 1%Z |}. eexists _, _, [CReset (RdOk (fun _ => Ok 9%Z)); CGet (B "pprof") 9%Z].
  split; [reflexivity|]. split; [eapply crn_reset; [reflexivity|]; eapply crn_get; [reflexivity|]; constructor|]. split; reflexivity.
Qed.

(** C79: reading the configuration: a file that can be read replaces what later first reads see; when there is
    none, it is created and the values stay as they were; when it cannot be created, or exists but cannot be read or parsed,
    the program panics with a message that says so.  No outcome touches the sections already read. *)
Lemma C79_reset_pf : forall V (s : cfg V) r,
  (forall f, r = RdOk f -> exists s1, ResetConfig s r = Ok s1 /\ cf_cur s1 = f /\ cf_map s1 = cf_map s) /\
  (r = RdNotFound true -> ResetConfig s r = Ok s) /\
  (r = RdNotFound false -> ResetConfig s r = Panic (PBiz GenericErr (B "init flush config err"))) /\
  (r = RdError -> ResetConfig s r = Panic (PBiz GenericErr (B "read config panic"))).
Proof. intros V s r. split; [intros f ->; eexists; split; [reflexivity|]; auto|]. split; [|split]; intros ->; reflexivity. Qed.

(** C79: the first read of a section returns what the file (or the defaults) says, is remembered under
    its own key only, and panics with the name of the section if that cannot be understood. *)
Lemma C79_first_read_pf : forall V (s : cfg V) key, cfg_get (cf_map s) key = None ->
  (forall v, cf_cur s key = Ok v -> exists s1, getSubConfig s key = Ok (s1, v) /\ cf_cur s1 = cf_cur s /\
     cfg_get (cf_map s1) key = Some v /\ (forall k, k <> key -> cfg_get (cf_map s1) k = cfg_get (cf_map s) k)) /\
  (forall e, cf_cur s key = Err e -> getSubConfig s key = Panic (PBiz GenericErr (B "cannot find " ++ key ++ B " config"))).
Proof.
  intros V s key E. unfold getSubConfig. rewrite E. split; [intros v ->|intros e ->; reflexivity].
  eexists. split; [reflexivity|]. cbn [cf_cur cf_map cfg_get]. split; [reflexivity|].
  assert (Hb : beq key key = true) by (apply beq_true; reflexivity). rewrite Hb. split; [reflexivity|]. intros k Hk.
  destruct (beq key k) eqn:Ek; [apply beq_true in Ek; congruence|reflexivity].
Qed.
