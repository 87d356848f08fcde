(** Logger.v -- model of misc/logger.go (console logger, logger cache, level names) and of
    parseLogLevel in misc/zap.go.

    A LogLevel is a Go int ([Z]).  The time stamp, the texts of the context values
    (misc.ToString) and the iteration order of the context map are inputs.  Logger values are
    immutable records.  This file is about one goroutine at a time; the concurrent use of the cache
    is in LoggerRace.v. *)
From Verif Require Import Base.
Local Open Scope list_scope.
Local Open Scope Z_scope.

(** misc/logger.go:12-19 *)
Definition DEBUG : Z := 0. Definition INFO : Z := 1. Definition WARN : Z := 2.
Definition ERROR : Z := 3. Definition PANIC : Z := 4. Definition TRACE : Z := 5.

(** misc/logger.go:21-28, the map literal. *)
Definition logLevelMapping : list (bytes * Z) :=
  [(B "DEBUG", DEBUG); (B "INFO", INFO); (B "WARN", WARN); (B "ERROR", ERROR); (B "PANIC", PANIC); (B "TRACE", TRACE)].
Fixpoint lookup_level (m : list (bytes * Z)) (k : bytes) : Z :=
  match m with [] => 0 | (n, v) :: t => if beq n k then v else lookup_level t k end.

(** strings.ToUpper on a string of ASCII bytes; other strings go to the Unicode tables, an input. *)
Definition upper_byte (c : byte) : byte := if ((97 <=? bval c) && (bval c <=? 122))%N then byte_of (bval c - 32) else c.
Definition is_ascii (s : bytes) : bool := forallb (fun c => (bval c <? 128)%N) s.
Definition ToUpper (uni : bytes -> bytes) (s : bytes) : bytes := if is_ascii s then map upper_byte s else uni s.

(** misc/logger.go:87-89: a missing key reads as the zero value. *)
Definition TransLogLevel (uni : bytes -> bytes) (name : bytes) : Z := lookup_level logLevelMapping (ToUpper uni name).

(** misc/logger.go:134-137 *)
Record clogger := { lg_prefix : bytes; lg_level : Z }.
(** :139-144 *)
Definition SetPrefix (c : clogger) (p : bytes) : clogger := {| lg_prefix := p; lg_level := lg_level c |}.

(** :203-223: context entries in iteration order, values already turned into text. *)
Definition context := option (list (bytes * bytes)).
Fixpoint ctx_text (first : bool) (l : list (bytes * bytes)) : bytes :=
  match l with
  | [] => []
  | (k, v) :: t => (if first then [] else B "|") ++ k ++ B ":" ++ v ++ ctx_text false t
  end.
Definition appendCtx (msg : bytes) (ctx : context) : bytes :=
  match ctx with None => msg | Some l => msg ++ B ", " ++ ctx_text true l end.

(** %6s *)
Definition pad6 (s : bytes) : bytes := repeat (byte_of 32) (6 - length s) ++ s.
Definition crlf : bytes := [byte_of 13; byte_of 10].

(** :153-161: the bytes written to standard output. *)
Definition print_line (now : bytes) (c : clogger) (lvl msg : bytes) (ctx : context) : bytes :=
  match lg_prefix c with
  | [] => now ++ B " " ++ pad6 lvl ++ B ": " ++ appendCtx msg ctx ++ crlf
  | _ => now ++ B " " ++ pad6 lvl ++ B ": [" ++ lg_prefix c ++ B "]" ++ appendCtx msg ctx ++ crlf
  end.

(** The six methods (:146-151, :163-197). *)
Inductive method := MDebug | MInfo | MWarn | MError | MPanic | MTrace.

(** Result of a call: output, and the panic it raised. *)
Definition log_out := (bytes * option gopanic)%type.
Definition guarded (c : clogger) (lim : Z) (out : log_out) : log_out := if lg_level c >? lim then ([], None) else out.
Definition Debug now c msg ctx : log_out := guarded c DEBUG (print_line now c (B "Debug") msg ctx, None).
Definition Info now c msg ctx : log_out := guarded c INFO (print_line now c (B "Info") msg ctx, None).
Definition Warn now c msg ctx : log_out := guarded c WARN (print_line now c (B "Warn") msg ctx, None).
Definition Error_ now c msg ctx : log_out := guarded c ERROR (print_line now c (B "Error") msg ctx, None).
Definition Panic_ now c msg ctx : log_out := guarded c PANIC (print_line now c (B "Panic") msg ctx, Some (PStr msg)).
Definition Trace now c msg ctx : log_out := guarded c TRACE (print_line now c (B "Trace") msg ctx, None).
Definition call_log (m : method) : bytes -> clogger -> bytes -> context -> log_out :=
  match m with MDebug => Debug | MInfo => Info | MWarn => Warn | MError => Error_ | MPanic => Panic_ | MTrace => Trace end.

(** :46-56 bufferLogger: the cache and the level for new loggers. *)
Record registry := { rg_cache : list (bytes * clogger); rg_level : Z }.
Definition registry0 : registry := {| rg_cache := []; rg_level := INFO |}.
Fixpoint cache_get (m : list (bytes * clogger)) (k : bytes) : option clogger :=
  match m with [] => None | (n, v) :: t => if beq n k then Some v else cache_get t k end.

(** :127-132 NewLogger of the console factory. *)
Definition NewLogger (name : bytes) (level : Z) : clogger := {| lg_prefix := []; lg_level := level |}.

(** :60-72 *)
Definition mapLogger (b : registry) (name : bytes) : registry * clogger :=
  match cache_get (rg_cache b) name with
  | Some v => (b, v)
  | None => let lg := NewLogger name (rg_level b) in
            ({| rg_cache := (name, lg) :: rg_cache b; rg_level := rg_level b |}, lg)
  end.
(** :98-104; the default name of the console factory is "" (:123-125). *)
Definition GetLogger (b : registry) (names : list bytes) : registry * clogger :=
  mapLogger b (match names with [] => [] | n :: _ => n end).
(** :81-85, :106-108 *)
Definition SetLevel (b : registry) (level : Z) : registry := {| rg_cache := rg_cache b; rg_level := level |}.

(** misc/zap.go:94-107; zapcore's numbers: Debug -1, Info 0, Warn 1, Error 2, Panic 4. *)
Definition parseLogLevel (s : bytes) : Z :=
  if beq s (B "DEBUG") then -1 else if beq s (B "INFO") then 0 else if beq s (B "ERROR") then 2
  else if beq s (B "PANIC") then 4 else 0.
