(** BucketConcSpec.v -- what the methods of a bucket mean: a bucket is the list of the nodes it accepted. *)
From Verif Require Import Base GoLib Bencode Types Node RouteTable BucketConc.
Local Open Scope list_scope.

(** The result of a reading method on a bucket of capacity [c] that holds the nodes [l]. *)
Definition meaning (uf : N -> N -> bool) (c : nat) (l : list ninfo) (op : bop) (r : bres) : Prop :=
  match op with
  | OAdd _ => False
  | OExist n => exists b, r = RBool b /\ (b = true <-> exists x, In x l /\ Equals uf x n = true)
  | OIter => r = RCalls (map Some l ++ repeat None (c - length l))
  | OAll => r = RView (length l)
  | OSize => r = RNat (length l)
  | OFull => exists b, r = RBool b /\ (b = true <-> c <= length l)
  end.

(** Call number [i] behaves as if it took place at one moment between its start, when [from] nodes had been
    accepted, and its end, when [upto] had been. *)
Definition as_if_atomic (uf : N -> N -> bool) (c : nat) (acc : list (nat * ninfo)) (i : nat) (op : bop) (from upto : nat) (r : bres) : Prop :=
  from <= upto /\ upto <= length acc /\
  match op with
  | OAdd n => exists b, r = RBool b /\
      (if b then exists m, from <= m /\ m < upto /\ nth_error acc m = Some (i, n) else upto = c)
  | _ => exists m, from <= m /\ m <= upto /\ meaning uf c (firstn m (map snd acc)) op r
  end.
