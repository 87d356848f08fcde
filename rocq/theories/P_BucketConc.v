(** P_BucketConc.v -- property theorems (generated by tools/gen_p.py from BucketConcPf.v).
    Each statement is repeated in full and closed by [exact]. *)
From Verif Require Import Base GoLib Bencode Types Node RouteTable RouteTableProofs BucketConc BucketConcSpec.
Local Open Scope list_scope.
From Verif Require Import BucketConcPf.

(** C94: a bucket shared by any number of goroutines never panics and behaves as if each call took
    place at one moment between its start and its return: Add returns true iff it is the one that stored its
    node, which takes a place of its own; Add returns false only when the bucket is full; the
    other methods return what they mean for the nodes accepted at that moment. *)
Theorem C94_bucket_linearizable : forall uf c s, breach uf c s ->
  length (b_acc s) <= c /\ NoDup (map fst (b_acc s)) /\
  (forall i n, In (i, n) (b_acc s) -> exists x, nth_error (b_calls s) i = Some x /\ c_op x = OAdd n) /\
  (forall i x, nth_error (b_calls s) i = Some x -> c_pc x <> BPanic) /\
  (forall i x upto r, nth_error (b_calls s) i = Some x -> c_pc x = BDone upto r -> as_if_atomic uf c (b_acc s) i (c_op x) (c_from x) upto r).
Proof. exact C94_bucket_linearizable_pf. Qed.
Print Assumptions C94_bucket_linearizable.

(** C94: the slice returned by All stays valid: from then on and whatever is added, its elements are the
    first nodes the bucket accepted, as many as there were. *)
Theorem C94_all_stays_valid : forall uf c s s' i x upto k, breach uf c s ->
  nth_error (b_calls s) i = Some x -> c_op x = OAll -> c_pc x = BDone upto (RView k) -> bsteps uf s s' ->
  c_from x <= k /\ k <= upto /\ firstn k (b_slots s') = map Some (firstn k (map snd (b_acc s))) /\ length (firstn k (b_slots s')) = k.
Proof. exact C94_all_stays_valid_pf. Qed.
Print Assumptions C94_all_stays_valid.

(** C94: no deadlock: as long as a call has not returned, some step other than a new call is possible. *)
Theorem C94_bucket_progress : forall uf c s i x, breach uf c s -> nth_error (b_calls s) i = Some x -> (forall u r, c_pc x <> BDone u r) ->
  exists s', bstep uf s s' /\ length (b_calls s') = length (b_calls s).
Proof. exact C94_bucket_progress_pf. Qed.
Print Assumptions C94_bucket_progress.

Theorem C94_bucket_sequential : forall uf c ns n, let b := bAdds (NewBucket c) ns in
  bAll b = firstn c ns /\ bSize b = Nat.min c (length ns) /\ (bFull b = true <-> c <= length ns) /\
  (snd (bAdd b n) = true <-> length ns < c) /\
  (bExist uf b n = true <-> exists x, In x (firstn c ns) /\ Equals uf x n = true) /\
  bIterator b = map Some (firstn c ns) ++ repeat None (c - length ns).
Proof. exact C94_bucket_sequential_pf. Qed.
Print Assumptions C94_bucket_sequential.

Theorem C94_iterator_nil_example : forall p, bIterator (bAdds (NewBucket 2) [bk_node p]) = [Some (bk_node p); None].
Proof. exact C94_iterator_nil_example_pf. Qed.
Print Assumptions C94_iterator_nil_example.

Theorem C94_example : forall uf, exists s, breach uf 1 s /\ bk_done 0 s = Some (BDone 1 (RBool true)) /\ bk_done 1 s = Some (BDone 1 (RBool false)) /\
  bk_done 2 s = Some (BDone 1 (RView 1)) /\ b_slots s = [Some (bk_node 1)].
Proof. exact C94_example_pf. Qed.
Print Assumptions C94_example.
