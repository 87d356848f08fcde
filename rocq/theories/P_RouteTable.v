(** P_RouteTable.v -- property theorems (generated by tools/gen_p.py from RouteTablePf.v).
    Each statement is repeated in full and closed by [exact]. *)
From Verif Require Import Base GoLib Bencode Types TypesPf Node NodePf RouteTable RouteTableProofs.
Local Open Scope list_scope.
From Verif Require Import RouteTablePf.

(** C24: in every reachable table a node is stored only in the bucket whose index is the
    number of leading bits its id shares with the local id, capped at the last bucket; and
    no bucket holds two nodes that compare equal (in either order). *)
Theorem C24_bucket_of_distance : forall uf host k capacity t, rt_reach uf host k capacity t ->
  forall i, (forall n, In n (bucket_nodes t i) -> i = Nat.min (lcp (bits_of (nid n)) (bits_of (nid host))) (rlast t)) /\
            (forall l1 a l2 b l3, bucket_nodes t i = l1 ++ a :: l2 ++ b :: l3 -> Equals uf a b = false /\ Equals uf b a = false).
Proof. exact C24_bucket_of_distance_pf. Qed.
Print Assumptions C24_bucket_of_distance.

(** C25: at most k nodes per bucket, buckets 0..max(0,capacity) only, hence at most
    k*(max(0,capacity)+1) nodes in total. *)
Theorem C25_table_bounded : forall uf host k capacity t, rt_reach uf host k capacity t ->
  (forall i, length (bucket_nodes t i) <= Z.to_nat k) /\
  (Z.of_nat (rlast t) <= Z.max 0 capacity)%Z /\
  (forall i, rlast t < i -> bucket_nodes t i = []) /\
  (Z.of_nat (length (stored t)) <= k * (Z.max 0 capacity + 1))%Z.
Proof. exact C25_table_bounded_pf. Qed.
Print Assumptions C25_table_bounded.

(** C26: AddNode never loses or duplicates a stored node: afterwards the table stores what
    it stored before, plus at most the new node; and for k >= 1 the local node is stored in
    every reachable table. *)
Theorem C26_no_eviction : forall uf host k capacity t, rt_reach uf host k capacity t ->
  (forall n t' e, AddNode uf t n = Ok (t', e) ->
     Permutation (stored t') (stored t) \/ Permutation (stored t') (n :: stored t)) /\
  ((1 <= k)%Z -> In host (stored t)).
Proof. exact C26_no_eviction_pf. Qed.
Print Assumptions C26_no_eviction.

(** C27: (1) an error leaves the table exactly as it was; (2) there is an error exactly when
    the node's bucket is full and either holds an equal node, or is not the last one, or no
    further split is allowed; (3) after nil an equal node is stored, except when a split
    happened and the node's bucket after it is full of other nodes. *)
Theorem C27_add_result : forall uf host k capacity t n t' e, rt_reach uf host k capacity t ->
  AddNode uf t n = Ok (t', e) ->
  let home s := bucket_nodes s (Nat.min (lcp (bits_of (nid n)) (bits_of (nid host))) (rlast s)) in
  let present s := exists m, In m (home s) /\ Equals uf m n = true in
  (e <> None -> t' = t) /\
  (e <> None <-> Z.of_nat (length (home t)) = k /\
     (present t \/ lcp (bits_of (nid n)) (bits_of (nid host)) < rlast t \/ (capacity <= Z.of_nat (rlast t))%Z)) /\
  (e = None -> present t' \/ (rlast t < rlast t' /\ Z.of_nat (length (home t')) = k /\ Permutation (stored t') (stored t))) /\
  (e = None -> rlast t' = rlast t -> present t').
Proof. exact C27_add_result_pf. Qed.
Print Assumptions C27_add_result.

(** C24-C27 non-vacuity: five calls, three buckets after two splits. *)
Theorem C24_example : forall uf, exists t, rt_reach uf (nd 64 1) 2 8 t /\
  rlast t = 2 /\ map (bucket_nodes t) [0; 1; 2; 3] = [[]; [nd 0 2; nd 1 3]; [nd 64 1; nd 96 4]; []].
Proof. exact C24_example_pf. Qed.
Print Assumptions C24_example.

(** C27: for k >= 1 and a capacity of at most the bit length of the local id (8 times its
    bytes), nil without the node being stored means that the table is full afterwards. *)
Theorem C27_dropped_only_when_full : forall uf host k capacity t n t', rt_reach uf host k capacity t ->
  (1 <= k)%Z -> (capacity <= 8 * Z.of_nat (length (nid host)))%Z ->
  AddNode uf t n = Ok (t', None) ->
  (exists m, In m (stored t') /\ Equals uf m n = true) \/ Full t' = Ok true.
Proof. exact C27_dropped_only_when_full_pf. Qed.
Print Assumptions C27_dropped_only_when_full.

(** C27 refuted: nil is returned and no equal node is in the table (the split used up the
    capacity). *)
Theorem C27_nil_means_stored_refuted : forall uf,
  exists t n t', rt_reach uf (nd 64 1) 2 1 t /\ AddNode uf t n = Ok (t', None) /\ existsb (fun m => Equals uf m n) (stored t') = false.
Proof. exact C27_nil_means_stored_refuted_pf. Qed.
Print Assumptions C27_nil_means_stored_refuted.

(** C28: what Size counts.  One call changes (Size - number of stored nodes) by exactly one
    when it returns nil although an equal node was stored already, and not at all
    otherwise; initially the difference is 0 (1 when k = 0). *)
Theorem C28_size_drift : forall uf host k capacity t, rt_reach uf host k capacity t ->
  let drift s := (Size s - Z.of_nat (length (stored s)))%Z in
  (forall n t' e, AddNode uf t n = Ok (t', e) ->
     drift t' = (drift t + if match e with None => true | _ => false end &&
        existsb (fun m => Equals uf m n) (bucket_nodes t (Nat.min (lcp (bits_of (nid n)) (bits_of (nid host))) (rlast t))) then 1 else 0)%Z) /\
  (forall t0, NewRouteTable host k capacity = Ok t0 -> drift t0 = (if k =? 0 then 1 else 0)%Z) /\
  (0 <= drift t)%Z.
Proof. exact C28_size_drift_pf. Qed.
Print Assumptions C28_size_drift.

(** C28 refuted: adding the local node again makes Size 2 with one node stored. *)
Theorem C28_size_refuted : forall uf, exists t, rt_reach uf (nd 64 1) 2 8 t /\ Size t = 2%Z /\ stored t = [nd 64 1].
Proof. exact C28_size_refuted_pf. Qed.
Print Assumptions C28_size_refuted.

(** C29: Find never panics; what it returns is stored and has an id that compares equal;
    it returns nil only if no node with exactly this id is stored. *)
Theorem C29_find : forall uf host k capacity t id, rt_reach uf host k capacity t ->
  exists r, Find uf t id = Ok r /\
    (forall n, r = Some n -> In n (stored t) /\ EqualFold uf (nid n) id = true) /\
    (r = None -> forall n, In n (stored t) -> nid n <> id).
Proof. exact C29_find_pf. Qed.
Print Assumptions C29_find.

(** C29 refuted: with two stored nodes whose binary ids consist of bytes that are not valid
    UTF-8, Find returns the wrong one although the right one is stored. *)
Theorem C29_find_exact_refuted : forall uf,
  let h := {| nid := repeat (byte_of 255) 20; naddr := mkaddr (v4 10 0 0 1) 1 |} in
  let m := {| nid := repeat (byte_of 254) 20; naddr := mkaddr (v4 10 0 0 1) 2 |} in
  exists t, rt_reach uf h 4 8 t /\ nid h <> nid m /\ In m (stored t) /\ Find uf t (nid m) = Ok (Some h).
Proof. exact C29_find_exact_refuted_pf. Qed.
Print Assumptions C29_find_exact_refuted.

(** C30: for n >= 0 FindClosest returns duplicate-free stored nodes; whenever x comes before
    y, either both are in the same bucket or x shares strictly more leading bits with the
    requested id than y; and a stored node of a bucket not above the id's own that is
    missing from the result shares strictly fewer bits with the id than every returned
    node, and then more than n nodes were returned. *)
Theorem C30_find_closest : forall uf host k capacity t id n, rt_reach uf host k capacity t -> (0 <= n)%Z ->
  exists l, FindClosest t id n = Ok l /\ NoDup l /\ (forall x, In x l -> In x (stored t) /\ home_of host t (nid x) <= home_of host t id) /\
    (forall l1 x l2 y l3, l = l1 ++ x :: l2 ++ y :: l3 ->
       home_of host t (nid x) = home_of host t (nid y) \/ lcp (bits_of (nid y)) (bits_of id) < lcp (bits_of (nid x)) (bits_of id)) /\
    (forall x, In x (stored t) -> home_of host t (nid x) <= home_of host t id -> ~ In x l ->
       (n < Z.of_nat (length l))%Z /\ forall y, In y l -> lcp (bits_of (nid x)) (bits_of id) < lcp (bits_of (nid y)) (bits_of id)).
Proof. exact C30_find_closest_pf. Qed.
Print Assumptions C30_find_closest.

(** C30 refuted: (1) more than n nodes are returned; (2) a node that shares fewer bits with
    the id than a stored one is returned in its place. *)
Theorem C30_n_closest_refuted : forall uf,
  (exists t l, rt_reach uf (nd 64 1) 2 8 t /\ FindClosest t (nid (nd 0 9)) 1 = Ok l /\ length l = 2) /\
  (exists t l x y, rt_reach uf (nd 64 1) 1 8 t /\ FindClosest t (nid (nd 96 9)) 3 = Ok l /\
     In x l /\ In y (stored t) /\ ~ In y l /\ lcp (bits_of (nid x)) (bits_of (nid (nd 96 9))) < lcp (bits_of (nid y)) (bits_of (nid (nd 96 9)))).
Proof. exact C30_n_closest_refuted_pf. Qed.
Print Assumptions C30_n_closest_refuted.

(** C31: construction panics exactly for negative k; on every reachable table AddNode, Find,
    Full and Size return, FindClosest returns for n >= 0 (and panics for n < 0). *)
Theorem C31_total : forall uf host k capacity,
  (NewRouteTable host k capacity = Panic PRuntime <-> (k < 0)%Z) /\
  ((0 <= k)%Z -> exists t, NewRouteTable host k capacity = Ok t) /\
  forall t, rt_reach uf host k capacity t ->
    (forall n, exists t' e, AddNode uf t n = Ok (t', e) /\ rt_reach uf host k capacity t' /\ rlast t <= rlast t') /\
    (forall id, exists r, Find uf t id = Ok r) /\
    (forall id n, (exists l, FindClosest t id n = Ok l) <-> (0 <= n)%Z) /\
    Full t = Ok ((capacity <=? Z.of_nat (rlast t))%Z && (Z.to_nat k <=? length (bucket_nodes t (rlast t)))).
Proof. exact C31_total_pf. Qed.
Print Assumptions C31_total.

(** C25, C26, C31: the table after four calls with k = 2, capacity 8 (the one of C24_example): two
    splits, four nodes stored (the fifth is refused); a further call splits again and evicts nothing. *)
Theorem C25_example : forall uf, exists t, rt_reach uf (nd 64 1) 2 8 t /\ rlast t = 2 /\ length (stored t) = 4 /\ length (bucket_nodes t 2) = 2.
Proof. exact C25_example_pf. Qed.
Print Assumptions C25_example.

Theorem C26_example : forall uf, exists t t1 t2, rt_reach uf (nd 64 1) 2 8 t /\
  AddNode uf t (nd 65 7) = Ok (t1, None) /\ stored t = [nd 0 2; nd 1 3; nd 64 1; nd 96 4] /\ stored t1 = [nd 0 2; nd 1 3; nd 96 4; nd 64 1; nd 65 7] /\
  AddNode uf t (nd 2 5) = Ok (t2, e_bucket_full) /\ stored t2 = stored t.
Proof. exact C26_example_pf. Qed.
Print Assumptions C26_example.

(** C27: a call that stores the node after a split, one refused because the bucket is full, one
    refused because the table is full. *)
Theorem C27_example : forall uf,
  (exists t t', rt_reach uf (nd 64 1) 2 8 t /\ AddNode uf t (nd 1 3) = Ok (t', None) /\ rlast t = 0 /\ rlast t' = 2 /\ In (nd 1 3) (stored t') /\ (8 <= 8 * Z.of_nat (length (nid (nd 64 1))))%Z) /\
  (exists t, rt_reach uf (nd 64 1) 2 8 t /\ AddNode uf t (nd 2 5) = Ok (t, e_bucket_full)) /\
  (exists t, rt_reach uf (nd 64 1) 2 0 t /\ AddNode uf t (nd 66 5) = Ok (t, e_table_full)).
Proof. exact C27_example_pf. Qed.
Print Assumptions C27_example.

(** C28: Size and the number of stored nodes agree here, after one split and one refusal, and differ by
    one after a node was added twice. *)
Theorem C28_example : forall uf,
  (exists t, rt_reach uf (nd 64 1) 2 8 t /\ Size t = 4%Z /\ length (stored t) = 4) /\
  (exists t, rt_reach uf (nd 64 1) 4 8 t /\ Size t = 3%Z /\ stored t = [nd 64 1; nd 0 2]).
Proof. exact C28_example_pf. Qed.
Print Assumptions C28_example.

(** C29: a stored id is found, one that is not stored is not. *)
Theorem C29_example : forall uf, exists t, rt_reach uf (nd 64 1) 2 8 t /\
  Find uf t (nid (nd 96 0)) = Ok (Some (nd 96 4)) /\ Find uf t (nid (nd 99 0)) = Ok None.
Proof. exact C29_example_pf. Qed.
Print Assumptions C29_example.

(** C30: two queries on a table with three buckets: one ends before the table is exhausted. *)
Theorem C30_example : forall uf, exists t, rt_reach uf (nd 64 1) 2 8 t /\
  FindClosest t (nid (nd 65 0)) 1 = Ok [nd 64 1; nd 96 4] /\ FindClosest t (nid (nd 65 0)) 8 = Ok [nd 64 1; nd 96 4; nd 0 2; nd 1 3].
Proof. exact C30_example_pf. Qed.
Print Assumptions C30_example.

(** C31: a table that is full, one that is not, and the two panics. *)
Theorem C31_example : forall uf,
  (exists t, rt_reach uf (nd 64 1) 2 0 t /\ Full t = Ok true /\ FindClosest t (nid (nd 65 0)) (-1) = Panic PRuntime) /\
  (exists t, rt_reach uf (nd 64 1) 2 8 t /\ Full t = Ok false) /\ NewRouteTable (nd 64 1) (-1) 8 = Panic PRuntime.
Proof. exact C31_example_pf. Qed.
Print Assumptions C31_example.
