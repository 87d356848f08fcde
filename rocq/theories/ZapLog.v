(** ZapLog.v -- model of misc/zap.go: the logger that writes JSON lines to a file.

    zap's core, JSON encoder (production configuration, no caller, no name) and CheckedEntry are modelled as
    documented: an entry is written if its level is at least the core's, Panic panics in any case.
    The time stamp's text is an input.  Field values are strings and integers (the only ones the
    repository passes to this logger); the iteration order of the context map is an input.  Rotation of the file (lumberjack) is in LogFiles.v, write errors
    are not modelled; a written line is one Write call, which lumberjack serialises. *)
From Verif Require Import Base GoLib Types Logger.
Local Open Scope list_scope.

(** misc/zap.go:15-18; the file is logs/<name>.log *)
Record zlogger := { zl_prefix : bytes; zl_level : Z }.
(** misc/zap.go:74-92 *)
Definition NewZapLogger (logLevel : bytes) : zlogger := {| zl_prefix := []; zl_level := parseLogLevel logLevel |}.
Definition zap_file (name : bytes) : bytes := B "logs/" ++ name ++ B ".log".
(** misc/zap.go:67-72 *)
Definition ZSetPrefix (c : zlogger) (p : bytes) : zlogger := {| zl_prefix := B "[" ++ p ++ B "]"; zl_level := zl_level c |}.

Inductive jval := JStr (s : bytes) | JInt (z : Z).
Record zentry := { ze_level : Z; ze_msg : bytes; ze_fields : list (bytes * jval) }.

(** zapcore's level numbers; misc/zap.go:11-13 for Trace. *)
Definition zlevel (m : method) : Z := match m with MDebug => -1 | MInfo => 0 | MWarn => 1 | MError => 2 | MPanic => 4 | MTrace => 10 end.

(** misc/zap.go:109-120; the context in iteration order, None is nil. *)
Definition convert2slice (ctx : option (list (bytes * jval))) : list (bytes * jval) := match ctx with None => [] | Some l => l end.

(** misc/zap.go:20-60, the six methods: what is written, and the panic raised (the message with the prefix). *)
Definition zcall (m : method) (c : zlogger) (msg : bytes) (ctx : option (list (bytes * jval))) : option zentry * option gopanic :=
  let text := match zl_prefix c with [] => msg | p => p ++ msg end in
  (if (zl_level c <=? zlevel m)%Z then Some {| ze_level := zlevel m; ze_msg := text; ze_fields := convert2slice ctx |} else None,
   match m with MPanic => Some (PStr text) | _ => None end).

(** zapcore/json_encoder.go, tryAddRuneSelf and tryAddRuneError. *)
Definition quote : byte := byte_of 34.
Definition bslash : byte := byte_of 92.
Definition esc_ascii (c : byte) : bytes :=
  if ((32 <=? bval c) && negb (bval c =? 34) && negb (bval c =? 92))%N then [c]
  else if ((bval c =? 34) || (bval c =? 92))%N then [bslash; c]
  else if (bval c =? 10)%N then bslash :: B "n"
  else if (bval c =? 13)%N then bslash :: B "r"
  else if (bval c =? 9)%N then bslash :: B "t"
  else bslash :: B "u00" ++ hex_byte c.
(** zapcore/json_encoder.go, safeAddString. *)
Fixpoint esc_fuel (fuel : nat) (s : bytes) : bytes :=
  match fuel, s with
  | S f, c :: t =>
      if (bval c <? 128)%N then esc_ascii c ++ esc_fuel f t
      else let (r, n) := decode_rune s in
           if ((r =? RuneError)%N && (n =? 1))%nat then bslash :: B "ufffd" ++ esc_fuel f t
           else firstn n s ++ esc_fuel f (skipn n s)
  | _, _ => []
  end.
Definition json_escape (s : bytes) : bytes := esc_fuel (length s) s.

(** zapcore.Level.String *)
Definition level_text (z : Z) : bytes :=
  if (z =? -1)%Z then B "debug" else if (z =? 0)%Z then B "info" else if (z =? 1)%Z then B "warn" else if (z =? 2)%Z then B "error"
  else if (z =? 3)%Z then B "dpanic" else if (z =? 4)%Z then B "panic" else if (z =? 5)%Z then B "fatal" else B "Level(" ++ itoa z ++ B ")".

Definition quoted (s : bytes) : bytes := quote :: json_escape s ++ [quote].
Definition field_text (f : bytes * jval) : bytes := quoted (fst f) ++ B ":" ++ match snd f with JStr s => quoted s | JInt z => itoa z end.
(** zapcore/json_encoder.go, EncodeEntry with NewProductionEncoderConfig. *)
Definition line (now : bytes) (e : zentry) : bytes :=
  B "{" ++ quoted (B "level") ++ B ":" ++ quoted (level_text (ze_level e)) ++ B "," ++ quoted (B "ts") ++ B ":" ++ now ++
  B "," ++ quoted (B "msg") ++ B ":" ++ quoted (ze_msg e) ++ concat (map (fun f => B "," ++ field_text f) (ze_fields e)) ++ B "}" ++ [byte_of 10].
(** What one call appends to the file. *)
Definition written (now : bytes) (m : method) (c : zlogger) (msg : bytes) (ctx : option (list (bytes * jval))) : bytes :=
  match fst (zcall m c msg ctx) with Some e => line now e | None => [] end.

Example zt1 : written (B "1.5") MInfo (NewZapLogger (B "info")) (B "get_peer") (Some [(B "port", JInt 80); (B "a", JStr (B "x" ++ [quote; byte_of 1; byte_of 255]))]) =
  map (fun c => if Ascii.eqb c "'" then quote else c) (B "{'level':'info','ts':1.5,'msg':'get_peer','port':80,'a':'x\'\u0001\ufffd'}") ++ [byte_of 10].
Proof. vm_compute. reflexivity. Qed.
