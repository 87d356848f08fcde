(** P_Logger.v -- property theorems (generated by tools/gen_p.py from LoggerPf.v).
    Each statement is repeated in full and closed by [exact]. *)
From Verif Require Import Base Logger LoggerSpec.
Local Open Scope list_scope.
Local Open Scope Z_scope.
From Verif Require Import LoggerPf.

(** C77: a call prints - exactly one line - if and only if the method's rank is at least the logger's
    level (any int), and nothing otherwise; it panics exactly when it is Panic and prints. *)
Theorem C77_filtering : forall m now c msg ctx,
  (lg_level c <= rank m ->
     fst (call_log m now c msg ctx) =
       now ++ B " " ++ tag m ++ B ": " ++ (match lg_prefix c with [] => [] | p => B "[" ++ p ++ B "]" end) ++ appendCtx msg ctx ++ crlf) /\
  (rank m < lg_level c -> fst (call_log m now c msg ctx) = []) /\
  (snd (call_log m now c msg ctx) = Some (PStr msg) <-> m = MPanic /\ lg_level c <= 4) /\
  (snd (call_log m now c msg ctx) <> Some (PStr msg) -> snd (call_log m now c msg ctx) = None).
Proof. exact C77_filtering_pf. Qed.
Print Assumptions C77_filtering.

(** Non-vacuity and a line in full. *)
Theorem C77_example :
  fst (Warn (B "12:00") {| lg_prefix := B "dht"; lg_level := INFO |} (B "slow") (Some [(B "peer", B "x"); (B "ms", B "7")]))
    = B "12:00   Warn: [dht]slow, peer:x|ms:7" ++ crlf /\
  Panic_ (B "12:00") {| lg_prefix := []; lg_level := TRACE |} (B "boom") None = ([], None).
Proof. exact C77_example_pf. Qed.
Print Assumptions C77_example.

(** C78: after any history, GetLogger returns a logger whose level is the one in force when that name
    was first asked for - for a new name, the level in force now; SetPrefix keeps it. *)
Theorem C78_level_is_frozen : forall l names,
  lg_level (snd (GetLogger (rrun l) names)) =
    match first_level INFO (key_of names) l with Some v => v | None => level_after INFO l end /\
  (forall p, lg_level (SetPrefix (snd (GetLogger (rrun l) names)) p) = lg_level (snd (GetLogger (rrun l) names))).
Proof. exact C78_level_is_frozen_pf. Qed.
Print Assumptions C78_level_is_frozen.

(** C78 refuted: SetLevel does not change the level of a logger in use, nor of what GetLogger returns for
    it; in particular in this program, where every logger comes from GetLogger() in a package
    initialiser, before main calls SetLevel, every logger stays at INFO whatever is configured. *)
Theorem C78_setlevel_refuted : forall level l,
  lg_level (snd (GetLogger (rrun (RGet [] :: l ++ [RSet level])) [])) = INFO /\
  (level <> INFO -> lg_level (snd (GetLogger (rrun (RGet [] :: l ++ [RSet level])) [])) <> level).
Proof. exact C78_setlevel_refuted_pf. Qed.
Print Assumptions C78_setlevel_refuted.

Theorem C78_example :
  lg_level (snd (GetLogger (rrun [RGet []; RSet DEBUG; RGet [B "x"]; RSet ERROR]) [B "x"])) = DEBUG /\
  lg_level (snd (GetLogger (rrun [RGet []; RSet DEBUG; RGet [B "x"]; RSet ERROR]) [B "y"])) = ERROR.
Proof. exact C78_example_pf. Qed.
Print Assumptions C78_example.

(** C83: the level names are understood in any ASCII letter case, and every other ASCII string - a typo, the
    empty string - silently means DEBUG, the most verbose level. *)
Theorem C83_level_names : forall uni name, is_ascii name = true ->
  (forall n v, In (n, v) level_names -> map lower_byte name = n -> TransLogLevel uni name = v) /\
  ((forall n v, In (n, v) level_names -> map lower_byte name <> n) -> TransLogLevel uni name = 0).
Proof. exact C83_level_names_pf. Qed.
Print Assumptions C83_level_names.

(** Non-vacuity: the level of the shipped default configuration, and a typo. *)
Theorem C83_example : forall uni, TransLogLevel uni (B "Info") = INFO /\ TransLogLevel uni (B "wArN") = WARN /\ TransLogLevel uni (B "warning") = DEBUG.
Proof. exact C83_example_pf. Qed.
Print Assumptions C83_example.

(** C84: for the zap logger the names are case sensitive, and WARN, TRACE and everything unknown mean INFO
    (zapcore numbers: debug -1, info 0, warn 1, error 2, panic 4). *)
Theorem C84_zap_level : forall s,
  (s = B "DEBUG" -> parseLogLevel s = -1) /\ (s = B "ERROR" -> parseLogLevel s = 2) /\ (s = B "PANIC" -> parseLogLevel s = 4) /\
  (~ In s [B "DEBUG"; B "ERROR"; B "PANIC"] -> parseLogLevel s = 0).
Proof. exact C84_zap_level_pf. Qed.
Print Assumptions C84_zap_level.

(** C84, the claim that each documented level name selects that level is false for WARN. *)
Theorem C84_warn_refuted : parseLogLevel (B "WARN") = 0 /\ parseLogLevel (B "WARN") <> 1 /\ parseLogLevel (B "debug") = 0.
Proof. exact C84_warn_refuted_pf. Qed.
Print Assumptions C84_warn_refuted.

(** C84: the names of the levels. *)
Theorem C84_example : map (fun s => parseLogLevel (B s)) ["DEBUG"; "INFO"; "WARN"; "ERROR"; "PANIC"; "TRACE"; "error"; ""]%string = [-1; 0; 0; 2; 4; 0; 0; 0]%Z.
Proof. exact C84_example_pf. Qed.
Print Assumptions C84_example.
