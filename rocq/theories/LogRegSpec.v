(** LogRegSpec.v -- which factory and which level are in force, read off the calls made so far. *)
From Verif Require Import Base Logger LogReg.
Local Open Scope list_scope.

Definition history := list (lrcall * list lrevent).
(** The factory last installed, the level last set. *)
Fixpoint factory_after (f : lfactory) (h : history) : lfactory :=
  match h with [] => f | (CInitLogger g _, _) :: t => factory_after g t | _ :: t => factory_after f t end.
Fixpoint level_in_force (lv : Z) (h : history) : Z :=
  match h with [] => lv | (CInitLogger _ v, _) :: t => level_in_force v t | (CSetLevel v, _) :: t => level_in_force v t | _ :: t => level_in_force lv t end.
(** The name GetLogger(names...) asks for. *)
Definition name_asked (h : history) (names : list bytes) : bytes :=
  match names with n :: _ => n | [] => lf_default (factory_after console_factory h) end.

Definition events (h : history) : list lrevent := flat_map snd h.
(** After [h], GetLogger for [name] has returned [l]. *)
Definition was_got (h : history) (name : bytes) (l : mlogger) : Prop :=
  exists h1 names evs h2, h = h1 ++ (CGetLogger names, evs) :: h2 /\ In (LrGot names l) evs /\ name_asked h1 names = name.
