(** RouteTable.v -- model of dht/routetable.go (buckets and routing table).

    Every exported method takes the table's RWMutex for its whole body (routetable.go
    :113,:127,:148,:214,:220), so each call is one atomic step of the model.
    NodeInfo values are immutable after creation, pointers are represented by values;
    a nil *NodeInfo argument is not modelled (no caller passes one). Logging is dropped. *)
From Verif Require Import Base GoLib Bencode Types Node.
Local Open Scope list_scope.

(** dht/routetable.go:13-18.  [bnodes] are the first [size] slots (size is their number),
    the remaining cap-size slots are nil. *)
Record bucket := { bnodes : list ninfo; bcap : nat }.

(** dht/routetable.go:20-26; a negative capacity makes [make] panic (see NewRouteTable). *)
Definition NewBucket (capacity : nat) : bucket := {| bnodes := []; bcap := capacity |}.

Section RT.
  (** Unicode folding oracle of strings.EqualFold, see Types.v. *)
  Variable uf : N -> N -> bool.

  (** dht/routetable.go:28-37 *)
  Definition bExist (b : bucket) (node : ninfo) : bool := existsb (fun n => Equals uf n node) (bnodes b).
  (** dht/routetable.go:39-45: what the handler is called with; nil slots included. *)
  Definition bIterator (b : bucket) : list (option ninfo) :=
    map Some (bnodes b) ++ repeat None (bcap b - length (bnodes b)).
  (** dht/routetable.go:67-71 *)
  Definition bSize (b : bucket) : nat := length (bnodes b).
  (** dht/routetable.go:73-84 *)
  Definition bFull (b : bucket) : bool := bcap b <=? bSize b.
  (** dht/routetable.go:47-59 *)
  Definition bAdd (b : bucket) (node : ninfo) : bucket * bool :=
    if bFull b then (b, false) else ({| bnodes := bnodes b ++ [node]; bcap := bcap b |}, true).
  (** dht/routetable.go:61-65 *)
  Definition bAll (b : bucket) : list ninfo := bnodes b.

  (** dht/routetable.go:86-94; [None] in the map is an absent key (nil *Bucket). *)
  Record rtable := {
    hnode : ninfo; rk : nat; nodeMap : nat -> option bucket;
    rsize : Z; rcapacity : Z; rlast : nat }.

  Definition bput (m : nat -> option bucket) (i : nat) (b : bucket) : nat -> option bucket :=
    fun j => if j =? i then Some b else m j.

  (** dht/routetable.go:96-110 *)
  Definition NewRouteTable (host : ninfo) (k capacity : Z) : res rtable :=
    if (k <? 0)%Z then Panic PRuntime else
    Ok {| hnode := host; rk := Z.to_nat k;
          nodeMap := bput (fun _ => None) 0 (fst (bAdd (NewBucket (Z.to_nat k)) host));
          rsize := 1; rcapacity := capacity; rlast := 0 |}.

  (** dht/routetable.go:139-145 *)
  Definition solveMaxPreLen (t : rtable) (id : bytes) : nat :=
    let p := solvePrefixLen id (nid (hnode t)) in if p <=? rlast t then p else rlast t.

  (** t.nodeMap[i] followed by a method call: nil pointer panic when absent. *)
  Definition bget (t : rtable) (i : nat) : res bucket :=
    match nodeMap t i with Some b => Ok b | None => Panic PRuntime end.

  (** dht/routetable.go:112-124 *)
  Definition Find (t : rtable) (id : bytes) : res (option ninfo) :=
    do b <- bget t (solveMaxPreLen t id);
    Ok (find (fun n => EqualFold uf (nid n) id) (bAll b)).

  (** dht/routetable.go:126-137; the loop counts pLen down, [S p] stands for pLen = p
      and 0 for pLen = -1. *)
  Fixpoint closest_loop (t : rtable) (k : nat) (pl : nat) (nodes : list ninfo) : res (list ninfo) :=
    match pl with
    | O => Ok nodes
    | S p => if length nodes <=? k then (do b <- bget t p; closest_loop t k p (nodes ++ bAll b)) else Ok nodes
    end.
  Definition FindClosest (t : rtable) (id : bytes) (k : Z) : res (list ninfo) :=
    if (k <? 0)%Z then Panic PRuntime (* make([]*NodeInfo, 0, k) *)
    else closest_loop t (Z.to_nat k) (S (solveMaxPreLen t id)) [].

  (** dht/routetable.go:205-211 (only its nil dereferences matter, the sum is logged) *)
  Fixpoint nodeCount_upto (t : rtable) (n : nat) : res nat :=
    match n with
    | O => Ok 0
    | S m => do a <- nodeCount_upto t m; do b <- bget t m; Ok (a + bSize b)
    end.
  Definition nodeCount (t : rtable) : res nat := nodeCount_upto t (S (rlast t)).

  Definition set_bucket (t : rtable) (i : nat) (b : bucket) : rtable :=
    {| hnode := hnode t; rk := rk t; nodeMap := bput (nodeMap t) i b; rsize := rsize t;
       rcapacity := rcapacity t; rlast := rlast t |}.
  Definition set_size (t : rtable) (z : Z) : rtable :=
    {| hnode := hnode t; rk := rk t; nodeMap := nodeMap t; rsize := z;
       rcapacity := rcapacity t; rlast := rlast t |}.

  (** dht/routetable.go:183-190: the two new buckets of a split, before redistribution. *)
  Definition split_empty (t : rtable) (src : bucket) : rtable :=
    {| hnode := hnode t; rk := rk t;
       nodeMap := bput (bput (nodeMap t) (rlast t) (NewBucket (rk t))) (S (rlast t)) (NewBucket (rk t));
       rsize := rsize t - Z.of_nat (bSize src); rcapacity := rcapacity t; rlast := S (rlast t) |}.

  Definition e_bucket_full : option goerr := Some (ENew (B "the bucket is full")).
  Definition e_table_full : option goerr := Some (ENew (B "full route table")).

  (** dht/routetable.go:154-175 addNode and :178-203 addNodeWithsplitBucket (inlined
      where it is called); [fuel] bounds the nesting of splits.  The result is the new
      table and the returned error (None = nil). *)
  Fixpoint addNode (fuel : nat) (t : rtable) (node : ninfo) (preLen : nat) : res (rtable * option goerr) :=
    do b <- bget t preLen;
    if (rlast t <=? preLen) && negb (bExist b node) && bFull b then
      (* addNodeWithsplitBucket *)
      if (rcapacity t <=? Z.of_nat (rlast t))%Z then Ok (t, e_table_full)
      else match fuel with
      | O => Panic PFuel
      | S f =>
          do src <- bget t (rlast t);
          do t2 <- fold_left (fun r n =>
                     do t1 <- r;
                     do x <- addNode f t1 n (solveMaxPreLen t1 (nid n));
                     Ok (fst x)) (bAll src) (Ok (split_empty t src));
          do x <- addNode f t2 node (solveMaxPreLen t2 (nid node));
          do _ <- nodeCount (fst x);
          Ok (fst x, None)
      end
    else if bFull b then Ok (t, e_bucket_full)
    else if negb (bExist b node) then
      (let (b', ok) := bAdd b node in
       if ok then Ok (set_size (set_bucket t preLen b') (rsize t + 1), None) else Ok (t, e_bucket_full))
    else Ok (set_size t (rsize t + 1), None).

  (** dht/routetable.go:147-151 *)
  Definition AddNode (t : rtable) (node : ninfo) : res (rtable * option goerr) :=
    addNode (Z.to_nat (rcapacity t - Z.of_nat (rlast t))) t node (solveMaxPreLen t (nid node)).

  (** dht/routetable.go:213-217 *)
  Definition Size (t : rtable) : Z := rsize t.
  (** dht/routetable.go:219-223 *)
  Definition Full (t : rtable) : res bool :=
    if (rcapacity t <=? Z.of_nat (rlast t))%Z then do b <- bget t (rlast t); Ok (bFull b) else Ok false.

  (** A history of AddNode calls, and the tables they can produce. *)
  Inductive rt_reach (host : ninfo) (k capacity : Z) : rtable -> Prop :=
  | rtr_new t : NewRouteTable host k capacity = Ok t -> rt_reach host k capacity t
  | rtr_add t node t' e : rt_reach host k capacity t -> AddNode t node = Ok (t', e) -> rt_reach host k capacity t'.
End RT.
