(** LogReg.v -- model of the logger registry of misc/logger.go with any logger factories: InitLogger, GetLogger,
    SetLevel and Close as one goroutine uses them, in any order.  (Logger.v is the special case of the console factory;
    LoggerRace.v is about several goroutines.)
    A factory is known by the number of its interface value and its default name; what its NewLogger returns is a value of its own, told apart by the
    number of the call.  Flush of a logger is an event. *)
From Verif Require Import Base Logger.
Local Open Scope list_scope.

(** misc/logger.go:30-33 LoggerFactory; the logger made by one call of NewLogger, with the arguments of the call. *)
Record lfactory := { lf_id : nat; lf_default : bytes }.
Record mlogger := { ml_call : nat; ml_factory : lfactory; ml_name : bytes; ml_level : Z }.

(** :46-58, :109-125: the registry, the factory in force, and the number of NewLogger calls so far. *)
Record logreg := { lr_factory : lfactory; lr_level : Z; lr_cache : list (bytes * mlogger); lr_calls : nat }.
Definition console_factory : lfactory := {| lf_id := 0; lf_default := [] |}.
Definition logreg0 : logreg := {| lr_factory := console_factory; lr_level := INFO; lr_cache := []; lr_calls := 0 |}.

Fixpoint reg_get (m : list (bytes * mlogger)) (k : bytes) : option mlogger :=
  match m with [] => None | (n, v) :: t => if beq n k then Some v else reg_get t k end.

(** What the user and the factories see. *)
Inductive lrevent :=
| LrMade (l : mlogger)            (* NewLogger of the factory in force was called and returned [l] *)
| LrGot (names : list bytes) (l : mlogger)   (* GetLogger(names...) returned [l] *)
| LrFlushed (l : mlogger).        (* Flush of [l] was called *)

(** :60-72 mapLogger *)
Definition reg_map (r : logreg) (name : bytes) : logreg * mlogger * list lrevent :=
  match reg_get (lr_cache r) name with
  | Some v => (r, v, [])
  | None =>
      let l := {| ml_call := lr_calls r; ml_factory := lr_factory r; ml_name := name; ml_level := lr_level r |} in
      ({| lr_factory := lr_factory r; lr_level := lr_level r; lr_cache := (name, l) :: lr_cache r; lr_calls := S (lr_calls r) |}, l, [LrMade l])
  end.

(** The calls of the API.  Close ranges over a map: [order] is the iteration order. *)
Inductive lrcall := CGetLogger (names : list bytes) | CSetLevel (lv : Z) | CInitLogger (f : lfactory) (lv : Z) | CClose (order : list mlogger).

Inductive reg_step : logreg -> lrcall -> list lrevent -> logreg -> Prop :=
| rs_get r names r' l evs :                          (* :98-104 *)
    reg_map r (match names with [] => lf_default (lr_factory r) | n :: _ => n end) = (r', l, evs) ->
    reg_step r (CGetLogger names) (evs ++ [LrGot names l]) r'
| rs_level r lv :                                    (* :81-85, :106-108 *)
    reg_step r (CSetLevel lv) [] {| lr_factory := lr_factory r; lr_level := lv; lr_cache := lr_cache r; lr_calls := lr_calls r |}
| rs_init r f lv :                                   (* :92-95 *)
    reg_step r (CInitLogger f lv) [] {| lr_factory := f; lr_level := lv; lr_cache := lr_cache r; lr_calls := lr_calls r |}
| rs_close r order :                                 (* :74-79, :110-112 *)
    Permutation order (map snd (lr_cache r)) ->
    reg_step r (CClose order) (map LrFlushed order) r.

(** A history of calls with what each brought about. *)
Inductive reg_run : list (lrcall * list lrevent) -> logreg -> Prop :=
| rr_start : reg_run [] logreg0
| rr_step h r c evs r' : reg_run h r -> reg_step r c evs r' -> reg_run (h ++ [(c, evs)]) r'.
