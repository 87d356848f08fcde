(** LoggerSpec.v -- what C77, C78 and C83 mean. *)
From Verif Require Import Base Logger.
Local Open Scope list_scope.
Local Open Scope Z_scope.

(** The documented order: DEBUG < INFO < WARN < ERROR < PANIC < TRACE. *)
Definition rank (m : method) : Z := match m with MDebug => 0 | MInfo => 1 | MWarn => 2 | MError => 3 | MPanic => 4 | MTrace => 5 end.
(** The tag of a line, padded to six columns. *)
Definition tag (m : method) : bytes :=
  match m with MDebug => B " Debug" | MInfo => B "  Info" | MWarn => B "  Warn" | MError => B " Error" | MPanic => B " Panic" | MTrace => B " Trace" end.

(** A history of registry operations, latest last, and what it leaves. *)
Inductive rop := RGet (names : list bytes) | RSet (level : Z).
Definition rstep (b : registry) (o : rop) : registry := match o with RGet n => fst (GetLogger b n) | RSet l => SetLevel b l end.
Definition rrun (l : list rop) : registry := fold_left rstep l registry0.

(** Independent of the cache: the level in force (the last SetLevel, INFO before the first) ... *)
Fixpoint level_after (cur : Z) (l : list rop) : Z :=
  match l with [] => cur | RSet v :: t => level_after v t | RGet _ :: t => level_after cur t end.
(** ... and the level that was in force when the logger of a name was first asked for. *)
Definition key_of (names : list bytes) : bytes := match names with [] => [] | n :: _ => n end.
Fixpoint first_level (cur : Z) (name : bytes) (l : list rop) : option Z :=
  match l with
  | [] => None
  | RSet v :: t => first_level v name t
  | RGet n :: t => if beq (key_of n) name then Some cur else first_level cur name t
  end.

(** The documented level names, in lower case, and ASCII lower-casing. *)
Definition level_names : list (bytes * Z) :=
  [(B "debug", 0); (B "info", 1); (B "warn", 2); (B "error", 3); (B "panic", 4); (B "trace", 5)].
Definition lower_byte (c : byte) : byte := if ((65 <=? bval c) && (bval c <=? 90))%N then byte_of (bval c + 32) else c.
