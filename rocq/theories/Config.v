(** Config.v -- model of config/config.go and of the order in which cmd/root.go, main.go and package dht use
    it.  A section value is an abstract [V]; what viper makes of the files (parsing, defaults, unmarshalling
    into the structs) is the input [cf_cur : key -> res V] it yields after each ReadInConfig. *)
From Verif Require Import Base Types.
Local Open Scope list_scope.

Section Config.
  Variable V : Type.
  (** configMap (config/config.go:20) and what viper.UnmarshalKey gives at the moment. *)
  Record cfg := { cf_map : list (bytes * V); cf_cur : bytes -> res V }.
  Fixpoint cfg_get (m : list (bytes * V)) (k : bytes) : option V :=
    match m with [] => None | (n, v) :: t => if beq n k then Some v else cfg_get t k end.

  (** config/config.go:105-116 *)
  Definition getSubConfig (s : cfg) (key : bytes) : res (cfg * V) :=
    match cfg_get (cf_map s) key with
    | Some v => Ok (s, v)
    | None =>
        match cf_cur s key with
        | Ok v => Ok ({| cf_map := (key, v) :: cf_map s; cf_cur := cf_cur s |}, v)
        | Err _ => Panic (PBiz GenericErr (B "cannot find " ++ key ++ B " config"))
        | Panic p => Panic p
        end
    end.

  (** Outcome of viper.ReadInConfig: the new contents; no file found, with the result of Mkdir and SafeWriteConfig
      (viper then goes on with what it had: the defaults); any other error. *)
  Inductive readres := RdOk (f : bytes -> res V) | RdNotFound (written : bool) | RdError.

  (** config/config.go:70-87; configMap is not touched. *)
  Definition ResetConfig (s : cfg) (r : readres) : res cfg :=
    match r with
    | RdOk f => Ok {| cf_map := cf_map s; cf_cur := f |}
    | RdNotFound true => Ok s
    | RdNotFound false => Panic (PBiz GenericErr (B "init flush config err"))
    | RdError => Panic (PBiz GenericErr (B "read config panic"))
    end.

  (** config/config.go:14-17 *)
  Definition dhtConfigKey : bytes := B "dht".
  Definition fetchTorrentConfigKey : bytes := B "fetchTorrent".
  Definition pprofConfigKey : bytes := B "pprof".
  Definition loggerConfigKey : bytes := B "logger".

  (** The values read during a run of the crawler command, in program order. *)
  Record used := { us_port : V; us_queue : V; us_logger : V; us_pprof : V; us_nodes : V; us_krpc_pool : V; us_fetch_pool : V }.

  (** config/config.go:46-68 init with [defaults] and the file in ./conf; dht/dht.go:12 and
      dht/fetchtorrent.go:14 (package variables, initialised before main starts); main.go:10; cmd/root.go:36-48 with
      the file named by --config; dht/krpc/server.go:38 and dht/fetchtorrent.go:18 (goroutines started at cmd/root.go:50). *)
  Definition startup (defaults : bytes -> res V) (file cfgfile : readres) : res (cfg * used) :=
    do s0 <- ResetConfig {| cf_map := []; cf_cur := defaults |} file;
    do (s1, port) <- getSubConfig s0 dhtConfigKey;
    do (s2, queue) <- getSubConfig s1 fetchTorrentConfigKey;
    do (s3, lg) <- getSubConfig s2 loggerConfigKey;
    do s4 <- ResetConfig s3 cfgfile;
    do (s5, pp) <- getSubConfig s4 pprofConfigKey;
    do (s6, nodes) <- getSubConfig s5 dhtConfigKey;
    do (s7, kp) <- getSubConfig s6 dhtConfigKey;
    do (s8, fp) <- getSubConfig s7 fetchTorrentConfigKey;
    Ok (s8, {| us_port := port; us_queue := queue; us_logger := lg; us_pprof := pp; us_nodes := nodes; us_krpc_pool := kp; us_fetch_pool := fp |}).
End Config.
Arguments cf_map {V}. Arguments cf_cur {V}. Arguments cfg_get {V}. Arguments getSubConfig {V}. Arguments ResetConfig {V}.
Arguments RdOk {V}. Arguments RdNotFound {V}. Arguments RdError {V}. Arguments startup {V}.
Arguments us_port {V}. Arguments us_queue {V}. Arguments us_logger {V}. Arguments us_pprof {V}. Arguments us_nodes {V}.
Arguments us_krpc_pool {V}. Arguments us_fetch_pool {V}.
