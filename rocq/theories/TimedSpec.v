(** TimedSpec.v -- what C117 is about, apart from the model: a peer's bytes come in runs, each with the
    millisecond at which it can be read, counted from the moment the connection is there. *)
From Verif Require Import Base.
Local Open Scope list_scope.

(** What comes before second one is over: everything up to the first run that comes too late. *)
Fixpoint heard (l : list (N * bytes)) : list bytes :=
  match l with
  | [] => []
  | (at_, x) :: t => if (at_ <? 1000)%N then x :: heard t else []
  end.

(** An initial part of that, perhaps ending within a run. *)
Inductive heard_part : list bytes -> list (N * bytes) -> Prop :=
| hp_end l : heard_part [] l
| hp_within at_ x y l : (at_ < 1000)%N -> x <> [] -> heard_part [x] ((at_, x ++ y) :: l)
| hp_more at_ x sc l : (at_ < 1000)%N -> heard_part sc l -> heard_part (x :: sc) ((at_, x) :: l).

(** The sum of the own delays of the first n steps. *)
Fixpoint delays (lag dur : nat -> N) (n : nat) : N :=
  match n with
  | O => 0%N
  | S m => (delays lag dur m + (lag m + dur m))%N
  end.
