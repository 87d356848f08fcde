(** StartupSpec.v -- what a start of the program depends on, in the words of a user. *)
From Verif Require Import Base Node Krpc KrpcSpec Dht DhtSpec Conc ConcSpec Startup System.
Local Open Scope list_scope.

(** The configuration in force when the program starts: the file in ./conf, or the defaults if there is none and they
    could be written there; None: the program cannot start. *)
Definition in_force (v : surroundings) : option conf :=
  match su_file v with CfOk c => Some c | CfMissing true => Some defaults | _ => None end.
(** The configuration named with --config; with an empty name the one in force. *)
Definition named (v : surroundings) : option conf :=
  match su_flag v with [] => in_force v | f => su_named v f end.
(** The bootstrap hosts, from the configuration in force. *)
Definition hosts_configured (v : surroundings) (l : list bytes) : Prop :=
  exists c d, in_force v = Some c /\ cn_dht c = Some d /\ ds_nodes d = l.

(** The port can be used; the command can start.  [sec_port d] is the port meant by the number in the configuration:
    see C105_port_number. *)
Definition port_usable (v : surroundings) (p : Z) : Prop := (0 <= p <= 65535)%Z /\ su_can_listen v p = true.
(** Everything that has to be right for package initialisation and main.go. *)
Record initialises (v : surroundings) (d : dhtsec) (f : fetchsec) (lvl : bytes) : Prop := {
  in_conf : exists c, in_force v = Some c /\ cn_dht c = Some d /\ cn_fetch c = Some f /\ cn_logger c = Some lvl;
  in_port : port_usable v (sec_port d);
  in_queue : (0 <= fc_queue f)%Z }.
(** Everything that has to be right for the crawler to start, beyond that. *)
Record boots (v : surroundings) (d : dhtsec) (f : fetchsec) (pp : bool) (hosts : list udpaddr) : Prop := {
  bt_named : exists c, named v = Some c /\ cn_pprof c = Some pp;
  bt_hosts : Forall2 (fun n a => su_resolve v n = Some a) (ds_nodes d) hosts;
  bt_sends : forall i, i < length hosts -> e_sok (su_env v i) i = true;
  bt_pools : (0 <= ds_pool d)%Z /\ (0 <= fc_pool f)%Z }.

(** The queries among the effects, in order. *)
Definition queries (l : list eff) : list datagram := flat_map (fun x => match x with EfQuery g => [g] | _ => [] end) l.
(** The output. *)
Definition printed (l : list eff) : bytes := flat_map (fun x => match x with EfPrint o => o | _ => [] end) l.
