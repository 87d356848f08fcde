(** RouteTablePf.v -- proofs of C24-C31 (routing table). *)
From Verif Require Import Base GoLib Bencode Types TypesPf Node NodePf RouteTable RouteTableProofs.
Local Open Scope list_scope.

Lemma Equals_refl uf n : Equals uf n n = true.
Proof. unfold Equals. rewrite !EqualFold_refl. reflexivity. Qed.
Lemma Equals_sym uf n m : Equals uf n m = Equals uf m n.
Proof. unfold Equals. rewrite (EqualFold_sym uf (nid n)), (EqualFold_sym uf (addr_string (naddr n))). reflexivity. Qed.

Lemma smpl_lcp uf host k capacity t id : rt_reach uf host k capacity t ->
  solveMaxPreLen t id = Nat.min (lcp (bits_of id) (bits_of (nid host))) (rlast t).
Proof.
  intros Hr. destruct (reach_conf _ _ _ _ _ Hr) as (<- & _). rewrite smpl_min, solvePrefixLen_lcp. reflexivity.
Qed.

(** C24: in every reachable table a node is stored only in the bucket whose index is the
    number of leading bits its id shares with the local id, capped at the last bucket; and
    no bucket holds two nodes that compare equal (in either order). *)
Lemma C24_bucket_of_distance_pf : forall uf host k capacity t, rt_reach uf host k capacity t ->
  forall i, (forall n, In n (bucket_nodes t i) -> i = Nat.min (lcp (bits_of (nid n)) (bits_of (nid host))) (rlast t)) /\
            (forall l1 a l2 b l3, bucket_nodes t i = l1 ++ a :: l2 ++ b :: l3 -> Equals uf a b = false /\ Equals uf b a = false).
Proof.
  intros uf host k capacity t Hr i. pose proof (reach_inv _ _ _ _ _ Hr) as HI. split.
  - intros n Hn. destruct (in_bucket_nodes uf t n i HI Hn) as (_ & E & _). rewrite E. eapply smpl_lcp. exact Hr.
  - intros l1 a l2 b l3 E. assert (H : Equals uf a b = false); [|split; [exact H|rewrite Equals_sym; exact H]].
    destruct (le_lt_dec i (rlast t)) as [Hi|Hi].
    + destruct (inv_in _ _ HI i Hi) as (bk & Hb & _ & _ & _ & Hd). unfold bucket_nodes in E. rewrite Hb in E. rewrite E in Hd.
      replace (l1 ++ a :: l2 ++ b :: l3) with ((l1 ++ a :: l2) ++ b :: l3) in Hd by (rewrite <- app_assoc; reflexivity).
      apply fop_mid in Hd. rewrite Forall_forall in Hd. apply Hd. apply in_app_iff. right. left. reflexivity.
    + unfold bucket_nodes in E. rewrite (inv_out _ _ HI i Hi) in E. destruct l1; discriminate.
Qed.

Lemma concat_len_bound {A} (f : nat -> list A) k n : (forall i, length (f i) <= k) -> forall a, length (concat (map f (seq a n))) <= k * n.
Proof.
  intros H. induction n as [|n IH]; intros a; cbn [seq map concat]; [cbn; lia|]. rewrite app_length. specialize (H a) as Ha.
  specialize (IH (S a)). lia.
Qed.

(** C25: at most k nodes per bucket, buckets 0..max(0,capacity) only, hence at most
    k*(max(0,capacity)+1) nodes in total. *)
Lemma C25_table_bounded_pf : forall uf host k capacity t, rt_reach uf host k capacity t ->
  (forall i, length (bucket_nodes t i) <= Z.to_nat k) /\
  (Z.of_nat (rlast t) <= Z.max 0 capacity)%Z /\
  (forall i, rlast t < i -> bucket_nodes t i = []) /\
  (Z.of_nat (length (stored t)) <= k * (Z.max 0 capacity + 1))%Z.
Proof.
  intros uf host k capacity t Hr. pose proof (reach_inv _ _ _ _ _ Hr) as HI. destruct (reach_conf _ _ _ _ _ Hr) as (Hh & Hk & Hc & Hk0).
  assert (Hb : forall i, length (bucket_nodes t i) <= Z.to_nat k).
  { intros i. destruct (le_lt_dec i (rlast t)) as [Hi|Hi].
    - destruct (inv_in _ _ HI i Hi) as (b & Hb & _ & Hl & _). unfold bucket_nodes. rewrite Hb. lia.
    - unfold bucket_nodes. rewrite (inv_out _ _ HI i Hi). cbn. lia. }
  pose proof (inv_cap _ _ HI) as Hcap. rewrite Hc in Hcap.
  split; [exact Hb|]. split; [exact Hcap|]. split.
  - intros i Hi. unfold bucket_nodes. rewrite (inv_out _ _ HI i Hi). reflexivity.
  - unfold stored. pose proof (concat_len_bound _ _ (S (rlast t)) Hb 0) as H. nia.
Qed.

(** C26: AddNode never loses or duplicates a stored node: afterwards the table stores what
    it stored before, plus at most the new node; and for k >= 1 the local node is stored in
    every reachable table. *)
Lemma C26_no_eviction_pf : forall uf host k capacity t, rt_reach uf host k capacity t ->
  (forall n t' e, AddNode uf t n = Ok (t', e) ->
     Permutation (stored t') (stored t) \/ Permutation (stored t') (n :: stored t)) /\
  ((1 <= k)%Z -> In host (stored t)).
Proof.
  intros uf host k capacity t Hr.
  assert (Hstep : forall t, Inv uf t -> forall n t' e, AddNode uf t n = Ok (t', e) ->
     Permutation (stored t') (stored t) \/ Permutation (stored t') (n :: stored t)).
  { intros s HI n t' e E. destruct (AddNode_spec uf s n HI) as (t2 & e2 & E2 & _ & _ & _ & Ho).
    assert (t2 = t') by congruence. subst t2. destruct Ho; auto. }
  split; [apply Hstep; eapply reach_inv; exact Hr|].
  intros Hk. induction Hr as [t E|t n t' e Hr IH E].
  - unfold NewRouteTable in E. destruct (Z.ltb_spec k 0); [discriminate|]. injection E as <-.
    unfold stored. cbn [rlast seq map concat]. unfold bucket_nodes. cbn [nodeMap]. rewrite bput_eq.
    unfold bAdd, bFull, bSize, NewBucket. cbn [bnodes bcap length]. destruct (Nat.leb_spec (Z.to_nat k) 0); [lia|].
    left. reflexivity.
  - destruct (Hstep t (reach_inv _ _ _ _ _ Hr) n t' e E) as [H|H]; eapply Permutation_in; try (symmetry; exact H).
    + exact IH.
    + right. exact IH.
Qed.

(** C27: (1) an error leaves the table exactly as it was; (2) there is an error exactly when
    the node's bucket is full and either holds an equal node, or is not the last one, or no
    further split is allowed; (3) after nil an equal node is stored, except when a split
    happened and the node's bucket after it is full of other nodes. *)
Lemma C27_add_result_pf : forall uf host k capacity t n t' e, rt_reach uf host k capacity t ->
  AddNode uf t n = Ok (t', e) ->
  let home s := bucket_nodes s (Nat.min (lcp (bits_of (nid n)) (bits_of (nid host))) (rlast s)) in
  let present s := exists m, In m (home s) /\ Equals uf m n = true in
  (e <> None -> t' = t) /\
  (e <> None <-> Z.of_nat (length (home t)) = k /\
     (present t \/ lcp (bits_of (nid n)) (bits_of (nid host)) < rlast t \/ (capacity <= Z.of_nat (rlast t))%Z)) /\
  (e = None -> present t' \/ (rlast t < rlast t' /\ Z.of_nat (length (home t')) = k /\ Permutation (stored t') (stored t))) /\
  (e = None -> rlast t' = rlast t -> present t').
Proof.
  intros uf host k capacity t n t' e Hr E home present.
  pose proof (reach_inv _ _ _ _ _ Hr) as HI. destruct (reach_conf _ _ _ _ _ Hr) as (Hh & Hk & Hc & Hk0).
  destruct (AddNode_spec uf t n HI) as (t2 & e2 & E2 & HI' & (Hh' & Hk' & Hc') & Hl & Ho).
  assert (t2 = t' /\ e2 = e) as [-> ->] by (split; congruence). clear E2.
  assert (Hhome : forall s b, hnode s = host -> nodeMap s (solveMaxPreLen s (nid n)) = Some b -> home s = bnodes b).
  { intros s b Hs Hb. unfold home, bucket_nodes. rewrite <- solvePrefixLen_lcp, <- Hs, <- smpl_min, Hb. reflexivity. }
  assert (Hpres : forall s b, hnode s = host -> nodeMap s (solveMaxPreLen s (nid n)) = Some b -> (present s <-> bExist uf b n = true)).
  { intros s b Hs Hb. unfold present. rewrite (Hhome s b Hs Hb). unfold bExist. rewrite existsb_exists. reflexivity. }
  assert (Hfull : forall s b, Inv uf s -> rk s = Z.to_nat k -> hnode s = host -> nodeMap s (solveMaxPreLen s (nid n)) = Some b -> (bFull b = true <-> Z.of_nat (length (home s)) = k)).
  { intros s b HIs Hks Hs Hb. rewrite (Hhome s b Hs Hb). destruct (inv_in _ _ HIs _ (smpl_le s (nid n))) as (b' & Hb' & Hbc & Hbl & _).
    assert (b' = b) by congruence. subst b'. unfold bFull, bSize. rewrite Nat.leb_le. lia. }
  assert (Hlcp : solveMaxPreLen t (nid n) = Nat.min (lcp (bits_of (nid n)) (bits_of (nid host))) (rlast t)) by (eapply smpl_lcp; exact Hr).
  assert (Hh2 : hnode t' = host) by congruence. assert (Hk2 : rk t' = Z.to_nat k) by congruence.
  destruct Ho as [b e Hb Hf He|b Hb Hf He|t' b b' Hb He Hb' Hin Hp Hs Hiff Hfl|t' b b' Hb Hf He Hlt Hlb Hcb Hb' Hf' He' Hp Hs Hcl].
  - split; [reflexivity|]. split; [|split; [discriminate|discriminate]]. split; [intros _|discriminate].
    split; [apply (Hfull t b); assumption|].
    destruct (bExist uf b n) eqn:Hx; [left; apply (Hpres t b); assumption|right].
    destruct (Nat.lt_ge_cases (lcp (bits_of (nid n)) (bits_of (nid host))) (rlast t)) as [H|H]; [left; exact H|right].
    rewrite <- Hc. apply He; [reflexivity|]. lia.
  - split; [congruence|]. split; [|split].
    + split; [congruence|]. intros [H1 _]. apply (Hfull t b) in H1; try assumption. congruence.
    + intros _. left. apply (Hpres _ b); assumption.
    + intros _ _. apply (Hpres _ b); assumption.
  - assert (Hpr : present t') by (exists n; rewrite (Hhome t' b' Hh2 Hb'); split; [exact Hin|apply Equals_refl]).
    split; [congruence|]. split; [|split; auto]. split; [congruence|]. intros [H1 H2]. apply (Hfull t b) in H1; try assumption.
    destruct (Hfl H1) as [F1 F2]. destruct H2 as [H2|[H2|H2]]; [apply (Hpres t b) in H2; try assumption; congruence|lia|lia].
  - split; [congruence|]. split; [|split].
    + split; [congruence|]. intros [H1 H2]. destruct H2 as [H2|[H2|H2]]; [apply (Hpres t b) in H2; try assumption; congruence|lia|lia].
    + intros _. right. split; [exact Hlt|]. split; [apply (Hfull t' b'); assumption|exact Hp].
    + intros _ H. lia.
Qed.

(** Histories as lists, to exhibit reachable tables. *)
Fixpoint add_all (uf : N -> N -> bool) (t : rtable) (l : list ninfo) : res rtable :=
  match l with [] => Ok t | n :: r => do x <- AddNode uf t n; add_all uf (fst x) r end.
Lemma add_all_reach uf host k capacity l : forall t t', rt_reach uf host k capacity t -> add_all uf t l = Ok t' -> rt_reach uf host k capacity t'.
Proof.
  induction l as [|n l IH]; intros t t' Hr E; cbn [add_all] in E; [injection E as <-; exact Hr|].
  destruct (AddNode uf t n) as [[t1 e]|e|p] eqn:E1; cbn [bind fst] in E; try discriminate.
  eapply IH; [|exact E]. eapply rtr_add; [exact Hr|exact E1].
Qed.
Definition table_of (uf : N -> N -> bool) (host : ninfo) (k capacity : Z) (l : list ninfo) : res rtable :=
  do t <- NewRouteTable host k capacity; add_all uf t l.
Lemma table_of_reach uf host k capacity l t : table_of uf host k capacity l = Ok t -> rt_reach uf host k capacity t.
Proof.
  unfold table_of. destruct (NewRouteTable host k capacity) as [t0|e|p] eqn:E; cbn [bind]; try discriminate.
  apply add_all_reach. apply rtr_new. exact E.
Qed.

(** Sample nodes: a 20-byte id starting with the given byte, and a port. *)
Definition nd (c : N) (p : Z) : ninfo :=
  {| nid := byte_of c :: repeat (byte_of 64) 19; naddr := mkaddr (v4 10 0 0 1) p |}.
Definition get_or {A} (r : res A) (d : A) : A := match r with Ok a => a | _ => d end.
Definition dummy_rt : rtable := {| hnode := nd 0 0; rk := 0; nodeMap := fun _ => None; rsize := 0; rcapacity := 0; rlast := 0 |}.
Lemma table_of_ok uf host k capacity l : (0 <= k)%Z -> exists t, table_of uf host k capacity l = Ok t /\ rt_reach uf host k capacity t.
Proof.
  intros Hk. unfold table_of. destruct (NewRouteTable host k capacity) as [t0|e|p] eqn:E0; cbn [bind].
  2,3: unfold NewRouteTable in E0; destruct (Z.ltb_spec k 0); [lia|discriminate].
  assert (Hr : rt_reach uf host k capacity t0) by (apply rtr_new; exact E0). clear E0. revert t0 Hr.
  induction l as [|n l IH]; intros t Hr; cbn [add_all]; [exists t; auto|].
  destruct (AddNode_spec uf t n (reach_inv _ _ _ _ _ Hr)) as (t1 & e & E & _). rewrite E. cbn [bind fst].
  apply IH. eapply rtr_add; [exact Hr|exact E].
Qed.
(** The table after a list of AddNode calls (used for the examples). *)
Definition tab uf host k capacity l : rtable := get_or (table_of uf host k capacity l) dummy_rt.
Lemma tab_reach uf host k capacity l : (0 <= k)%Z -> rt_reach uf host k capacity (tab uf host k capacity l).
Proof. intros Hk. destruct (table_of_ok uf host k capacity l Hk) as (t & E & Hr). unfold tab. rewrite E. exact Hr. Qed.

(** C24-C27 non-vacuity: five calls, three buckets after two splits. *)
Lemma C24_example_pf : forall uf, exists t, rt_reach uf (nd 64 1) 2 8 t /\
  rlast t = 2 /\ map (bucket_nodes t) [0; 1; 2; 3] = [[]; [nd 0 2; nd 1 3]; [nd 64 1; nd 96 4]; []].
Proof.
  intros uf. exists (tab uf (nd 64 1) 2 8 [nd 0 2; nd 1 3; nd 96 4; nd 2 5]). split; [apply tab_reach; lia|]. vm_compute. split; reflexivity.
Qed.

Lemma distinct_NoDup uf l : distinct uf l -> NoDup l.
Proof.
  unfold distinct. induction 1 as [|a l Ha Hl IH]; constructor; [|exact IH]. intros Hin. rewrite Forall_forall in Ha. specialize (Ha a Hin).
  rewrite Equals_refl in Ha. discriminate.
Qed.

(** C27: for k >= 1 and a capacity of at most the bit length of the local id (8 times its
    bytes), nil without the node being stored means that the table is full afterwards. *)
Lemma C27_dropped_only_when_full_pf : forall uf host k capacity t n t', rt_reach uf host k capacity t ->
  (1 <= k)%Z -> (capacity <= 8 * Z.of_nat (length (nid host)))%Z ->
  AddNode uf t n = Ok (t', None) ->
  (exists m, In m (stored t') /\ Equals uf m n = true) \/ Full t' = Ok true.
Proof.
  intros uf host k capacity t n t' Hr Hk1 Hbits E.
  pose proof (reach_inv _ _ _ _ _ Hr) as HI. destruct (reach_conf _ _ _ _ _ Hr) as (Hh & Hk & Hc & Hk0).
  destruct (C26_no_eviction_pf uf host k capacity t Hr) as (_ & Hhost). specialize (Hhost Hk1).
  destruct (AddNode_spec uf t n HI) as (t2 & e2 & E2 & HI' & (Hh' & Hk' & Hc') & Hl & Ho).
  assert (t2 = t' /\ e2 = None) as [-> ->] by (split; congruence). clear E2.
  remember (None : option goerr) as e0 eqn:Ee0.
  destruct Ho as [b e Hb Hf He|b Hb Hf He|t' b b' Hb He Hb' Hin Hp Hs Hiff Hfl|t' b b' Hb Hf He Hlt Hlb Hcb Hb' Hf' He' Hp Hs Hcl]; [discriminate| | |].
  - left. unfold bExist in He. apply existsb_exists in He as (m & Hm & He). exists m. split; [|exact He].
    apply (in_bucket_nodes uf t m (solveMaxPreLen t (nid n)) HI). unfold bucket_nodes. rewrite Hb. exact Hm.
  - left. exists n. split; [|apply Equals_refl]. apply (in_bucket_nodes uf t' n (solveMaxPreLen t' (nid n)) HI'). unfold bucket_nodes. rewrite Hb'. exact Hin.
  - right. destruct (Nat.eq_dec (solveMaxPreLen t' (nid n)) (rlast t')) as [Ei|Ei].
    + unfold Full. specialize (Hcl Ei). apply Z.leb_le in Hcl. rewrite Hcl. unfold bget. rewrite <- Ei, Hb'. cbn [bind]. rewrite Hf'. reflexivity.
    + exfalso. set (i := solveMaxPreLen t' (nid n)) in *.
      pose proof (smpl_le t' (nid n)) as Hile. fold i in Hile.
      pose proof (inv_cap _ _ HI') as Hcap'. 
      assert (Hself : forall s, hnode s = host -> solveMaxPreLen s (nid host) = Nat.min (8 * length (nid host)) (rlast s)).
      { intros s Hs'. rewrite smpl_min, Hs'. destruct (C18_prefix_length_pf (nid host) [] []) as (_ & _ & _ & ->). reflexivity. }
      assert (Hlast' : (Z.of_nat (rlast t') <= capacity)%Z) by lia.
      assert (Hhl : In host (bucket_nodes t (rlast t))).
      { apply (in_stored uf) in Hhost; [|exact HI]. rewrite (Hself t Hh) in Hhost. replace (Nat.min _ (rlast t)) with (rlast t) in Hhost by lia. exact Hhost. }
      destruct (inv_in _ _ HI' i Hile) as (b2 & Hb2 & Hbc2 & Hbl2 & Hbp2 & Hbd2).
      assert (b2 = b') by congruence. subst b2.
      destruct (inv_in _ _ HI (rlast t) (le_n _)) as (b0 & Hb0 & _ & Hbl0 & _ & Hbd0).
      assert (Hinc : incl (host :: bnodes b') (bnodes b0)).
      { intros x [<-|Hx]; [unfold bucket_nodes in Hhl; rewrite Hb0 in Hhl; exact Hhl|].
        rewrite Forall_forall in Hbp2. specialize (Hbp2 x Hx). cbv beta in Hbp2.
        assert (Hst : In x (stored t)).
        { eapply Permutation_in; [exact Hp|]. apply (in_bucket_nodes uf t' x i HI'). unfold bucket_nodes. rewrite Hb2. exact Hx. }
        apply (in_stored uf) in Hst; [|exact HI].
        assert (Ex : solveMaxPreLen t (nid x) = rlast t).
        { rewrite smpl_min in Hbp2 |- *. unfold i in *. rewrite smpl_min in *. rewrite Hh' in *. rewrite Hh in *. lia. }
        rewrite Ex in Hst. unfold bucket_nodes in Hst. rewrite Hb0 in Hst. exact Hst. }
      assert (Hnd : NoDup (host :: bnodes b')).
      { constructor; [|eapply distinct_NoDup; exact Hbd2]. intros Hx. rewrite Forall_forall in Hbp2. specialize (Hbp2 host Hx). cbv beta in Hbp2.
        rewrite Hself in Hbp2 by congruence. lia. }
      pose proof (NoDup_incl_length Hnd Hinc) as Hlen. cbn [length] in Hlen.
      unfold bFull, bSize in Hf'. apply Nat.leb_le in Hf'. lia.
Qed.

(** C27 refuted: nil is returned and no equal node is in the table (the split used up the
    capacity). *)
Lemma C27_nil_means_stored_refuted_pf : forall uf,
  exists t n t', rt_reach uf (nd 64 1) 2 1 t /\ AddNode uf t n = Ok (t', None) /\ existsb (fun m => Equals uf m n) (stored t') = false.
Proof.
  intros uf. exists (tab uf (nd 64 1) 2 1 [nd 65 2]), (nd 66 9), (fst (get_or (AddNode uf (tab uf (nd 64 1) 2 1 [nd 65 2]) (nd 66 9)) (dummy_rt, None))).
  split; [apply tab_reach; lia|]. split; vm_compute; reflexivity.
Qed.

(** C28: what Size counts.  One call changes (Size - number of stored nodes) by exactly one
    when it returns nil although an equal node was stored already, and not at all
    otherwise; initially the difference is 0 (1 when k = 0). *)
Lemma C28_size_drift_pf : forall uf host k capacity t, rt_reach uf host k capacity t ->
  let drift s := (Size s - Z.of_nat (length (stored s)))%Z in
  (forall n t' e, AddNode uf t n = Ok (t', e) ->
     drift t' = (drift t + if match e with None => true | _ => false end &&
        existsb (fun m => Equals uf m n) (bucket_nodes t (Nat.min (lcp (bits_of (nid n)) (bits_of (nid host))) (rlast t))) then 1 else 0)%Z) /\
  (forall t0, NewRouteTable host k capacity = Ok t0 -> drift t0 = (if k =? 0 then 1 else 0)%Z) /\
  (0 <= drift t)%Z.
Proof.
  intros uf host k capacity t Hr drift.
  assert (Hstep : forall t, rt_reach uf host k capacity t -> forall n t' e, AddNode uf t n = Ok (t', e) ->
     drift t' = (drift t + if match e with None => true | _ => false end &&
        existsb (fun m => Equals uf m n) (bucket_nodes t (Nat.min (lcp (bits_of (nid n)) (bits_of (nid host))) (rlast t))) then 1 else 0)%Z).
  { clear t Hr. intros t Hr n t' e E. pose proof (reach_inv _ _ _ _ _ Hr) as HI.
    destruct (AddNode_spec uf t n HI) as (t2 & e2 & E2 & _ & _ & _ & Ho).
    assert (t2 = t' /\ e2 = e) as [-> ->] by (split; congruence).
    rewrite <- (smpl_lcp _ _ _ _ _ _ Hr). unfold drift, Size.
    destruct Ho as [b e Hb Hf He|b Hb Hf He|t' b b' Hb He Hb' Hin Hp Hs Hiff Hfl|t' b b' Hb Hf He Hlt Hlb Hcb Hb' Hf' He' Hp Hs Hcl];
      unfold bucket_nodes; rewrite Hb; unfold bExist in He; cbn [andb].
    - lia.
    - rewrite He. unfold stored. cbn [set_size rsize rlast nodeMap]. unfold bucket_nodes. cbn [set_size nodeMap]. lia.
    - rewrite He, Hs. apply Permutation_length in Hp. rewrite Hp. cbn [length]. lia.
    - rewrite He, Hs. apply Permutation_length in Hp. rewrite Hp. lia. }
  assert (Hnew : forall t0, NewRouteTable host k capacity = Ok t0 -> drift t0 = (if k =? 0 then 1 else 0)%Z).
  { intros t0 E. unfold NewRouteTable in E. destruct (Z.ltb_spec k 0) as [H|H]; [discriminate|]. injection E as <-.
    unfold drift, Size, stored. cbn [rsize rlast seq map concat]. unfold bucket_nodes. cbn [nodeMap]. rewrite bput_eq.
    unfold bAdd, bFull, bSize, NewBucket. cbn [bnodes bcap length].
    destruct (Z.eqb_spec k 0) as [->|Hk]; [reflexivity|]. destruct (Nat.leb_spec (Z.to_nat k) 0); [lia|]. reflexivity. }
  split; [apply Hstep; exact Hr|]. split; [exact Hnew|].
  induction Hr as [t E|t n t' e Hr IH E].
  - rewrite (Hnew t E). destruct (k =? 0)%Z; lia.
  - rewrite (Hstep t Hr n t' e E). destruct (_ && _); lia.
Qed.

(** C28 refuted: adding the local node again makes Size 2 with one node stored. *)
Lemma C28_size_refuted_pf : forall uf, exists t, rt_reach uf (nd 64 1) 2 8 t /\ Size t = 2%Z /\ stored t = [nd 64 1].
Proof.
  intros uf. exists (tab uf (nd 64 1) 2 8 [nd 64 1]). split; [apply tab_reach; lia|]. vm_compute. split; reflexivity.
Qed.

(** C29: Find never panics; what it returns is stored and has an id that compares equal;
    it returns nil only if no node with exactly this id is stored. *)
Lemma C29_find_pf : forall uf host k capacity t id, rt_reach uf host k capacity t ->
  exists r, Find uf t id = Ok r /\
    (forall n, r = Some n -> In n (stored t) /\ EqualFold uf (nid n) id = true) /\
    (r = None -> forall n, In n (stored t) -> nid n <> id).
Proof.
  intros uf host k capacity t id Hr. pose proof (reach_inv _ _ _ _ _ Hr) as HI.
  unfold Find, bget. destruct (inv_in _ _ HI _ (smpl_le t id)) as (b & Hb & _ & _ & _ & _). rewrite Hb. cbn [bind].
  eexists. split; [reflexivity|]. split.
  - intros n E. apply find_some in E as [H1 H2]. split; [|exact H2].
    apply (in_bucket_nodes uf t n (solveMaxPreLen t id) HI). unfold bucket_nodes. rewrite Hb. exact H1.
  - intros E n Hn Eid. apply (in_stored uf) in Hn; [|exact HI]. rewrite Eid in Hn. unfold bucket_nodes in Hn. rewrite Hb in Hn.
    pose proof (find_none _ _ E n Hn) as Hf. cbv beta in Hf. rewrite Eid, EqualFold_refl in Hf. discriminate.
Qed.

(** C29 refuted: with two stored nodes whose binary ids consist of bytes that are not valid
    UTF-8, Find returns the wrong one although the right one is stored. *)
Lemma C29_find_exact_refuted_pf : forall uf,
  let h := {| nid := repeat (byte_of 255) 20; naddr := mkaddr (v4 10 0 0 1) 1 |} in
  let m := {| nid := repeat (byte_of 254) 20; naddr := mkaddr (v4 10 0 0 1) 2 |} in
  exists t, rt_reach uf h 4 8 t /\ nid h <> nid m /\ In m (stored t) /\ Find uf t (nid m) = Ok (Some h).
Proof.
  intros uf h m. exists (tab uf h 4 8 [m]). split; [apply tab_reach; lia|]. split; [discriminate|].
  split; [vm_compute; right; left; reflexivity|vm_compute; reflexivity].
Qed.

Lemma closest_loop_spec uf t k : Inv uf t -> forall pl acc, pl <= S (rlast t) ->
  exists m r, m <= pl /\ closest_loop t k pl acc = Ok (acc ++ r) /\ r = concat (map (bucket_nodes t) (rev (seq m (pl - m)))) /\
    (m = 0 \/ k < length (acc ++ r)) /\
    (forall m', m < m' -> m' <= pl -> length (acc ++ concat (map (bucket_nodes t) (rev (seq m' (pl - m'))))) <= k).
Proof.
  intros HI. induction pl as [|p IH]; intros acc Hp; cbn [closest_loop].
  - exists 0, []. rewrite app_nil_r. repeat split; auto. intros; lia.
  - destruct (Nat.leb_spec (length acc) k) as [Hl|Hl].
    + destruct (inv_in _ _ HI p ltac:(lia)) as (b & Hb & _). unfold bget. rewrite Hb. cbn [bind].
      destruct (IH (acc ++ bAll b) ltac:(lia)) as (m & r & Hm & E & Er & Hstop & Hmin).
      assert (Eb : bucket_nodes t p = bAll b) by (unfold bucket_nodes, bAll; rewrite Hb; reflexivity).
      assert (Hseq : forall m', m' <= p -> concat (map (bucket_nodes t) (rev (seq m' (S p - m')))) = bAll b ++ concat (map (bucket_nodes t) (rev (seq m' (p - m'))))).
      { intros m' Hm'. replace (S p - m') with (S (p - m')) by lia. rewrite seq_S, rev_app_distr. cbn [rev app map concat].
        replace (m' + (p - m')) with p by lia. rewrite Eb. reflexivity. }
      exists m, (bAll b ++ r). split; [lia|]. rewrite app_assoc. split; [exact E|]. split; [rewrite Er, Hseq by exact Hm; reflexivity|].
      split; [exact Hstop|]. intros m' H1 H2. destruct (Nat.eq_dec m' (S p)) as [->|Hne].
      * rewrite Nat.sub_diag. cbn [seq rev map concat]. rewrite app_nil_r. exact Hl.
      * rewrite Hseq by lia. rewrite app_assoc. apply Hmin; lia.
    + exists (S p), []. rewrite Nat.sub_diag, app_nil_r. split; [lia|]. split; [reflexivity|]. split; [reflexivity|]. split; [right; exact Hl|]. intros; lia.
Qed.

Lemma prefix_bucket t id n i : i = solveMaxPreLen t (nid n) -> i <= solveMaxPreLen t id ->
  i <= solvePrefixLen (nid n) id /\ (i < solveMaxPreLen t id -> solvePrefixLen (nid n) id = i).
Proof.
  intros Ei Hle. rewrite smpl_min in *. set (h := nid (hnode t)) in *.
  destruct (C18_prefix_length_pf (nid n) h id) as (_ & _ & U1 & _).
  destruct (C18_prefix_length_pf (nid n) id h) as (_ & _ & U2 & _).
  destruct (C18_prefix_length_pf h id h) as (_ & S1 & _ & _). lia.
Qed.

Lemma NoDup_app' {A} (a b : list A) : NoDup a -> NoDup b -> (forall x, In x a -> In x b -> False) -> NoDup (a ++ b).
Proof.
  intros Ha Hb H. induction Ha as [|x a Hx Ha IH]; cbn [app]; [exact Hb|]. constructor.
  - rewrite in_app_iff. intros [Hi|Hi]; [contradiction|]. eapply H; [left; reflexivity|exact Hi].
  - apply IH. intros y Hy. apply H. right. exact Hy.
Qed.

(** The bucket of a node or id, as C24 gives it. *)
Definition home_of (host : ninfo) (t : rtable) (id : bytes) : nat := Nat.min (lcp (bits_of id) (bits_of (nid host))) (rlast t).

(** C30: for n >= 0 FindClosest returns duplicate-free stored nodes; whenever x comes before
    y, either both are in the same bucket or x shares strictly more leading bits with the
    requested id than y; and a stored node of a bucket not above the id's own that is
    missing from the result shares strictly fewer bits with the id than every returned
    node, and then more than n nodes were returned. *)
Lemma C30_find_closest_pf : forall uf host k capacity t id n, rt_reach uf host k capacity t -> (0 <= n)%Z ->
  exists l, FindClosest t id n = Ok l /\ NoDup l /\ (forall x, In x l -> In x (stored t) /\ home_of host t (nid x) <= home_of host t id) /\
    (forall l1 x l2 y l3, l = l1 ++ x :: l2 ++ y :: l3 ->
       home_of host t (nid x) = home_of host t (nid y) \/ lcp (bits_of (nid y)) (bits_of id) < lcp (bits_of (nid x)) (bits_of id)) /\
    (forall x, In x (stored t) -> home_of host t (nid x) <= home_of host t id -> ~ In x l ->
       (n < Z.of_nat (length l))%Z /\ forall y, In y l -> lcp (bits_of (nid x)) (bits_of id) < lcp (bits_of (nid y)) (bits_of id)).
Proof.
  intros uf host k capacity t id n Hr Hn. pose proof (reach_inv _ _ _ _ _ Hr) as HI.
  unfold FindClosest. destruct (Z.ltb_spec n 0) as [|_]; [lia|].
  assert (Hho : forall s, home_of host t s = solveMaxPreLen t s) by (intros s; symmetry; eapply smpl_lcp; exact Hr).
  set (p := solveMaxPreLen t id) in *. pose proof (smpl_le t id) as Hple. fold p in Hple.
  destruct (closest_loop_spec uf t (Z.to_nat n) HI (S p) [] ltac:(lia)) as (m & l & Hm & E & El & Hstop & Hmin).
  cbn [app] in *. exists l. split; [exact E|].
  (* membership: bucket index between m and p *)
  assert (Hin : forall x, In x l <-> In x (stored t) /\ m <= solveMaxPreLen t (nid x) <= p).
  { intros x. rewrite El, in_concat. split.
    - intros (q & Hq & Hx). apply in_map_iff in Hq as (i & <- & Hi). apply in_rev, in_seq in Hi.
      destruct (in_bucket_nodes uf t x i HI Hx) as (H1 & H2 & H3). split; [exact H1|]. lia.
    - intros (Hx & Hb). exists (bucket_nodes t (solveMaxPreLen t (nid x))). split.
      + apply in_map. rewrite <- in_rev. apply in_seq. lia.
      + apply (in_stored uf); assumption. }
  assert (Hnd : forall a c, NoDup (concat (map (bucket_nodes t) (rev (seq a c)))) ).
  { intros a c. induction c as [|c IH]; [constructor|]. rewrite seq_S, rev_app_distr. cbn [rev app map concat].
    apply NoDup_app'; [|exact IH|].
    - destruct (le_lt_dec (a + c) (rlast t)) as [Hi|Hi].
      + destruct (inv_in _ _ HI _ Hi) as (b & Hb & _ & _ & _ & Hd). unfold bucket_nodes. rewrite Hb. eapply distinct_NoDup. exact Hd.
      + unfold bucket_nodes. rewrite (inv_out _ _ HI _ Hi). constructor.
    - intros x H1 H2. apply (in_bucket_nodes uf) in H1 as (_ & H1 & _); [|exact HI].
      apply in_concat in H2 as (q & Hq & Hx). apply in_map_iff in Hq as (i & <- & Hi). apply in_rev, in_seq in Hi.
      apply (in_bucket_nodes uf) in Hx as (_ & Hx & _); [|exact HI]. lia. }
  assert (Hord : forall c a l1 x l2 y l3, concat (map (bucket_nodes t) (rev (seq a c))) = l1 ++ x :: l2 ++ y :: l3 ->
      solveMaxPreLen t (nid y) <= solveMaxPreLen t (nid x)).
  { intros c a. induction c as [|c IH]; intros l1 x l2 y l3 H; [destruct l1; discriminate|].
    rewrite seq_S, rev_app_distr in H. cbn [rev app map concat] in H.
    assert (Hall : forall z, In z (bucket_nodes t (a + c)) -> solveMaxPreLen t (nid z) = a + c).
    { intros z Hz. apply (in_bucket_nodes uf) in Hz as (_ & -> & _); [reflexivity|exact HI]. }
    assert (Hlow : forall z, In z (concat (map (bucket_nodes t) (rev (seq a c)))) -> solveMaxPreLen t (nid z) < a + c).
    { intros z Hz. apply in_concat in Hz as (q & Hq & Hx). apply in_map_iff in Hq as (i & <- & Hi). apply in_rev, in_seq in Hi.
      apply (in_bucket_nodes uf) in Hx as (_ & Hx & _); [|exact HI]. lia. }
    assert (Hy : In y (bucket_nodes t (a + c)) \/ In y (concat (map (bucket_nodes t) (rev (seq a c))))).
    { apply in_app_iff. rewrite H. apply in_app_iff. right. right. apply in_app_iff. right. left. reflexivity. }
    revert l1 H. induction (bucket_nodes t (a + c)) as [|z bz IHz]; intros l1 H; cbn [app] in H.
    - eapply IH. exact H.
    - destruct l1 as [|w l1]; cbn [app] in H; injection H as <- H.
      + rewrite (Hall z (or_introl eq_refl)). destruct Hy as [Hy|Hy]; [rewrite (Hall y Hy); lia|apply Hlow in Hy; lia].
      + eapply IHz; [intros q Hq; apply Hall; right; exact Hq| |exact H].
        apply in_app_iff. rewrite H. apply in_app_iff. right. right. apply in_app_iff. right. left. reflexivity. }
  split; [rewrite El; apply Hnd|]. split; [|split].
  - intros x Hx. apply Hin in Hx. rewrite !Hho. fold p. tauto.
  - intros l1 x l2 y l3 H. rewrite !Hho. rewrite <- !solvePrefixLen_lcp.
    assert (Hx : In x l) by (rewrite H; apply in_app_iff; right; left; reflexivity).
    assert (Hy : In y l) by (rewrite H; apply in_app_iff; right; right; apply in_app_iff; right; left; reflexivity).
    apply Hin in Hx as (Hx1 & Hx2). apply Hin in Hy as (Hy1 & Hy2).
    assert (Hle : solveMaxPreLen t (nid y) <= solveMaxPreLen t (nid x)) by (eapply Hord; rewrite <- El; exact H).
    destruct (Nat.eq_dec (solveMaxPreLen t (nid x)) (solveMaxPreLen t (nid y))) as [|Hne]; [left; assumption|right].
    destruct (prefix_bucket t id x _ eq_refl ltac:(fold p; lia)) as (A1 & _).
    destruct (prefix_bucket t id y _ eq_refl ltac:(fold p; lia)) as (_ & A2). fold p in A2. rewrite A2 by lia. lia.
  - intros x Hx Hb Hni. rewrite !Hho in Hb. fold p in Hb.
    assert (Hlt : solveMaxPreLen t (nid x) < m). { destruct (le_lt_dec m (solveMaxPreLen t (nid x))); [|assumption]. exfalso. apply Hni, Hin. split; [exact Hx|lia]. }
    split; [destruct Hstop; lia|]. intros y Hy. rewrite <- !solvePrefixLen_lcp. apply Hin in Hy as (_ & Hy).
    destruct (prefix_bucket t id y _ eq_refl ltac:(fold p; lia)) as (A1 & _).
    destruct (prefix_bucket t id x _ eq_refl ltac:(fold p; lia)) as (_ & A2). fold p in A2. rewrite A2 by lia. lia.
Qed.

(** C30 refuted: (1) more than n nodes are returned; (2) a node that shares fewer bits with
    the id than a stored one is returned in its place. *)
Lemma C30_n_closest_refuted_pf : forall uf,
  (exists t l, rt_reach uf (nd 64 1) 2 8 t /\ FindClosest t (nid (nd 0 9)) 1 = Ok l /\ length l = 2) /\
  (exists t l x y, rt_reach uf (nd 64 1) 1 8 t /\ FindClosest t (nid (nd 96 9)) 3 = Ok l /\
     In x l /\ In y (stored t) /\ ~ In y l /\ lcp (bits_of (nid x)) (bits_of (nid (nd 96 9))) < lcp (bits_of (nid y)) (bits_of (nid (nd 96 9)))).
Proof.
  intros uf. split.
  - exists (tab uf (nd 64 1) 2 8 [nd 0 2; nd 1 3]), [nd 0 2; nd 1 3]. split; [apply tab_reach; lia|]. vm_compute. split; reflexivity.
  - exists (tab uf (nd 64 1) 1 8 [nd 0 2; nd 97 3; nd 80 4]).
    exists [nd 97 3; nd 0 2], (nd 0 2), (nd 64 1). split; [apply tab_reach; lia|]. split; [vm_compute; reflexivity|].
    split; [right; left; reflexivity|]. split; [vm_compute; tauto|]. split; [|vm_compute; lia].
    intros [H|[H|[]]]; discriminate.
Qed.

(** C31: construction panics exactly for negative k; on every reachable table AddNode, Find,
    Full and Size return, FindClosest returns for n >= 0 (and panics for n < 0). *)
Lemma C31_total_pf : forall uf host k capacity,
  (NewRouteTable host k capacity = Panic PRuntime <-> (k < 0)%Z) /\
  ((0 <= k)%Z -> exists t, NewRouteTable host k capacity = Ok t) /\
  forall t, rt_reach uf host k capacity t ->
    (forall n, exists t' e, AddNode uf t n = Ok (t', e) /\ rt_reach uf host k capacity t' /\ rlast t <= rlast t') /\
    (forall id, exists r, Find uf t id = Ok r) /\
    (forall id n, (exists l, FindClosest t id n = Ok l) <-> (0 <= n)%Z) /\
    Full t = Ok ((capacity <=? Z.of_nat (rlast t))%Z && (Z.to_nat k <=? length (bucket_nodes t (rlast t)))).
Proof.
  intros uf host k capacity. unfold NewRouteTable at 1 2. destruct (Z.ltb_spec k 0) as [H|H].
  - split; [split; auto|]. split; [lia|]. intros t Hr. destruct (reach_conf _ _ _ _ _ Hr). lia.
  - split; [split; [discriminate|lia]|]. split; [eauto|]. intros t Hr. pose proof (reach_inv _ _ _ _ _ Hr) as HI.
    destruct (reach_conf _ _ _ _ _ Hr) as (Hh & Hk & Hc & _). repeat split.
    + intros n. destruct (AddNode_spec uf t n HI) as (t' & e & E & _ & _ & Hl & _). exists t', e. split; [exact E|].
      split; [eapply rtr_add; eassumption|exact Hl].
    + intros id. destruct (C29_find_pf uf host k capacity t id Hr) as (r & E & _). eauto.
    + intros (l & E). unfold FindClosest in E. destruct (Z.ltb_spec n 0); [discriminate|lia].
    + intros Hn. destruct (C30_find_closest_pf uf host k capacity t id n Hr Hn) as (l & E & _). eauto.
    + unfold Full. rewrite Hc. destruct (capacity <=? Z.of_nat (rlast t))%Z; [|reflexivity].
      destruct (inv_in _ _ HI (rlast t) (le_n _)) as (b & Hb & Hbc & _). unfold bget. rewrite Hb. cbn [bind andb].
      unfold bFull, bSize, bucket_nodes. rewrite Hb, Hbc, Hk. reflexivity.
Qed.

(** C25, C26, C31: the table after four calls with k = 2, capacity 8 (the one of C24_example): two
    splits, four nodes stored (the fifth is refused); a further call splits again and evicts nothing. *)
Lemma C25_example_pf : forall uf, exists t, rt_reach uf (nd 64 1) 2 8 t /\ rlast t = 2 /\ length (stored t) = 4 /\ length (bucket_nodes t 2) = 2.
Proof.
  intros uf. exists (tab uf (nd 64 1) 2 8 [nd 0 2; nd 1 3; nd 96 4; nd 2 5]). split; [apply tab_reach; lia|]. vm_compute. repeat split; reflexivity.
Qed.
Lemma C26_example_pf : forall uf, exists t t1 t2, rt_reach uf (nd 64 1) 2 8 t /\
  AddNode uf t (nd 65 7) = Ok (t1, None) /\ stored t = [nd 0 2; nd 1 3; nd 64 1; nd 96 4] /\ stored t1 = [nd 0 2; nd 1 3; nd 96 4; nd 64 1; nd 65 7] /\
  AddNode uf t (nd 2 5) = Ok (t2, e_bucket_full) /\ stored t2 = stored t.
Proof.
  intros uf. exists (tab uf (nd 64 1) 2 8 [nd 0 2; nd 1 3; nd 96 4; nd 2 5]).
  exists (fst (get_or (AddNode uf (tab uf (nd 64 1) 2 8 [nd 0 2; nd 1 3; nd 96 4; nd 2 5]) (nd 65 7)) (dummy_rt, None))).
  exists (fst (get_or (AddNode uf (tab uf (nd 64 1) 2 8 [nd 0 2; nd 1 3; nd 96 4; nd 2 5]) (nd 2 5)) (dummy_rt, None))).
  split; [apply tab_reach; lia|]. vm_compute. repeat split; reflexivity.
Qed.
(** C27: a call that stores the node after a split, one refused because the bucket is full, one
    refused because the table is full. *)
Lemma C27_example_pf : forall uf,
  (exists t t', rt_reach uf (nd 64 1) 2 8 t /\ AddNode uf t (nd 1 3) = Ok (t', None) /\ rlast t = 0 /\ rlast t' = 2 /\ In (nd 1 3) (stored t') /\ (8 <= 8 * Z.of_nat (length (nid (nd 64 1))))%Z) /\
  (exists t, rt_reach uf (nd 64 1) 2 8 t /\ AddNode uf t (nd 2 5) = Ok (t, e_bucket_full)) /\
  (exists t, rt_reach uf (nd 64 1) 2 0 t /\ AddNode uf t (nd 66 5) = Ok (t, e_table_full)).
Proof.
  intros uf. split; [|split].
  - exists (tab uf (nd 64 1) 2 8 [nd 0 2]), (fst (get_or (AddNode uf (tab uf (nd 64 1) 2 8 [nd 0 2]) (nd 1 3)) (dummy_rt, None))).
    split; [apply tab_reach; lia|]. split; [vm_compute; reflexivity|]. split; [vm_compute; reflexivity|]. split; [vm_compute; reflexivity|].
    split; [|vm_compute; discriminate]. vm_compute. tauto.
  - exists (tab uf (nd 64 1) 2 8 [nd 0 2; nd 1 3; nd 96 4]). split; [apply tab_reach; lia|]. vm_compute. reflexivity.
  - exists (tab uf (nd 64 1) 2 0 [nd 65 2]). split; [apply tab_reach; lia|]. vm_compute. reflexivity.
Qed.
(** C28: Size and the number of stored nodes agree here, after one split and one refusal, and differ by
    one after a node was added twice. *)
Lemma C28_example_pf : forall uf,
  (exists t, rt_reach uf (nd 64 1) 2 8 t /\ Size t = 4%Z /\ length (stored t) = 4) /\
  (exists t, rt_reach uf (nd 64 1) 4 8 t /\ Size t = 3%Z /\ stored t = [nd 64 1; nd 0 2]).
Proof.
  intros uf. split.
  - exists (tab uf (nd 64 1) 2 8 [nd 0 2; nd 1 3; nd 96 4; nd 2 5]). split; [apply tab_reach; lia|]. vm_compute. split; reflexivity.
  - exists (tab uf (nd 64 1) 4 8 [nd 0 2; nd 0 2]). split; [apply tab_reach; lia|]. vm_compute. split; reflexivity.
Qed.
(** C29: a stored id is found, one that is not stored is not. *)
Lemma C29_example_pf : forall uf, exists t, rt_reach uf (nd 64 1) 2 8 t /\
  Find uf t (nid (nd 96 0)) = Ok (Some (nd 96 4)) /\ Find uf t (nid (nd 99 0)) = Ok None.
Proof.
  intros uf. exists (tab uf (nd 64 1) 2 8 [nd 0 2; nd 1 3; nd 96 4; nd 2 5]). split; [apply tab_reach; lia|]. vm_compute. split; reflexivity.
Qed.
(** C30: two queries on a table with three buckets: one ends before the table is exhausted. *)
Lemma C30_example_pf : forall uf, exists t, rt_reach uf (nd 64 1) 2 8 t /\
  FindClosest t (nid (nd 65 0)) 1 = Ok [nd 64 1; nd 96 4] /\ FindClosest t (nid (nd 65 0)) 8 = Ok [nd 64 1; nd 96 4; nd 0 2; nd 1 3].
Proof.
  intros uf. exists (tab uf (nd 64 1) 2 8 [nd 0 2; nd 1 3; nd 96 4; nd 2 5]). split; [apply tab_reach; lia|]. vm_compute. split; reflexivity.
Qed.
(** C31: a table that is full, one that is not, and the two panics. *)
Lemma C31_example_pf : forall uf,
  (exists t, rt_reach uf (nd 64 1) 2 0 t /\ Full t = Ok true /\ FindClosest t (nid (nd 65 0)) (-1) = Panic PRuntime) /\
  (exists t, rt_reach uf (nd 64 1) 2 8 t /\ Full t = Ok false) /\ NewRouteTable (nd 64 1) (-1) 8 = Panic PRuntime.
Proof.
  intros uf. split; [|split; [|reflexivity]].
  - exists (tab uf (nd 64 1) 2 0 [nd 65 2]). split; [apply tab_reach; lia|]. vm_compute. split; reflexivity.
  - exists (tab uf (nd 64 1) 2 8 [nd 0 2; nd 1 3; nd 96 4; nd 2 5]). split; [apply tab_reach; lia|]. vm_compute. reflexivity.
Qed.
