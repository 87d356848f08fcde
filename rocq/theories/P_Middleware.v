(** P_Middleware.v -- property theorems (generated by tools/gen_p.py from MiddlewarePf.v).
    Each statement is repeated in full and closed by [exact]. *)
From Verif Require Import Base Middleware.
Local Open Scope list_scope.
From Verif Require Import MiddlewarePf.

(** C35: whatever the handlers do, one dispatch terminates; if no handler panics, exactly
    the handlers 0, 1, ..., n-1 were invoked, once each and in this order; if one panics,
    the invoked handlers are a non-empty initial segment, once each and in order. *)
Theorem C35_each_once_in_order : forall (W R : Type) (chain : list (prog W R)) (w : W),
  exists c o, dispatch chain w = Some (c, o) /\
    match o with
    | None => c_started c = seq 0 (length chain)
    | Some _ => exists m, 1 <= m <= length chain /\ c_started c = seq 0 m
    end.
Proof. exact C35_each_once_in_order_pf. Qed.
Print Assumptions C35_each_once_in_order.

(** C36: if every middleware runs some code, calls Next once and runs some code, around a
    handler that does not call Next, the effect on the world and the response is that of
    the nested code: before-parts in registration order, the handler, after-parts in
    reverse order. *)
Theorem C36_onion : forall (W R : Type) (ms : list (prog W R * prog W R)) (h : prog W R) (w : W),
  Forall (fun m => straight (fst m) /\ straight (snd m)) ms -> straight h ->
  exists c, dispatch (map around ms ++ [h]) w = Some (c, None) /\ (c_world c, c_resp c) = onion ms h (w, None).
Proof. exact C36_onion_pf. Qed.
Print Assumptions C36_onion.

(** C37: the response left in the context after a dispatch is the one most recently passed
    to WriteAs by any handler of the chain, or nil if there was no WriteAs.  (Writes are
    recorded in order by the ghost list.) *)
Theorem C37_last_write_wins : forall (W R : Type) (chain : list (prog W R)) (w : W) c o,
  dispatch chain w = Some (c, o) -> c_resp c = last (c_writes c) None.
Proof. exact C37_last_write_wins_pf. Qed.
Print Assumptions C37_last_write_wins.

(** Examples (dht/krpc/middleware_test.go style): a middleware that does not call Next does
    not stop the chain, one that calls it twice runs the rest once, one writing after Next
    overrides the handler. *)
Theorem C35_example :
  dispatch [PRet; PNext (PNext PRet); PAct (fun w => w ++ [1]) PRet] [] =
    Some ({| c_index := 6; c_resp := None; c_world := [1]; c_started := [0; 1; 2]; c_writes := [] |} : ctx (list nat) nat, None).
Proof. exact C35_example_pf. Qed.
Print Assumptions C35_example.

Theorem C37_example : exists c : ctx nat nat, dispatch [PNext (PWrite (Some 7) PRet); PWrite (Some 5) PRet] 0 = Some (c, None) /\
  c_resp c = Some 7 /\ c_writes c = [Some 5; Some 7].
Proof. exact C37_example_pf. Qed.
Print Assumptions C37_example.

Theorem C36_example : exists c : ctx (list nat) nat,
  dispatch (map around [(PAct (fun w => w ++ [1]) PRet, PAct (fun w => w ++ [2]) PRet); (PAct (fun w => w ++ [3]) PRet, PWrite (Some 9) PRet)] ++ [PAct (fun w => w ++ [4]) PRet]) [] = Some (c, None) /\
  c_world c = [1; 3; 4; 2] /\ c_resp c = Some 9.
Proof. exact C36_example_pf. Qed.
Print Assumptions C36_example.
