(** RouteTableProofs.v -- invariants of the routing table. *)
From Verif Require Import Base GoLib Bencode Types TypesPf Node RouteTable.
Local Open Scope list_scope.

(** ** Specification vocabulary *)

(** The nodes stored in bucket [i], and in the whole table. *)
Definition bucket_nodes (t : rtable) (i : nat) : list ninfo :=
  match nodeMap t i with Some b => bnodes b | None => [] end.
Definition stored (t : rtable) : list ninfo := concat (map (bucket_nodes t) (seq 0 (S (rlast t)))).
(** No two entries compare equal. *)
Definition distinct (uf : N -> N -> bool) (l : list ninfo) : Prop := ForallOrdPairs (fun a b => Equals uf a b = false) l.

Record Inv (uf : N -> N -> bool) (t : rtable) : Prop := {
  inv_in : forall i, i <= rlast t -> exists b, nodeMap t i = Some b /\ bcap b = rk t /\ length (bnodes b) <= rk t /\
             Forall (fun n => solveMaxPreLen t (nid n) = i) (bnodes b) /\ distinct uf (bnodes b);
  inv_out : forall i, rlast t < i -> nodeMap t i = None;
  inv_cap : (Z.of_nat (rlast t) <= Z.max 0 (rcapacity t))%Z }.

(** Same parameters. *)
Definition same_conf (t t' : rtable) : Prop := hnode t' = hnode t /\ rk t' = rk t /\ rcapacity t' = rcapacity t.

Lemma smpl_min t id : solveMaxPreLen t id = Nat.min (solvePrefixLen id (nid (hnode t))) (rlast t).
Proof. unfold solveMaxPreLen. cbv zeta. destruct (Nat.leb_spec (solvePrefixLen id (nid (hnode t))) (rlast t)); lia. Qed.
Lemma smpl_le t id : solveMaxPreLen t id <= rlast t.
Proof. rewrite smpl_min. lia. Qed.

Lemma fop_snoc {A} (R : A -> A -> Prop) l x : ForallOrdPairs R l -> Forall (fun a => R a x) l -> ForallOrdPairs R (l ++ [x]).
Proof.
  induction 1 as [|a l Ha Hl IH]; intros Hf; cbn [app].
  - repeat constructor.
  - inversion Hf; subst. constructor; [|apply IH; assumption]. apply Forall_app. split; [exact Ha|]. repeat constructor. assumption.
Qed.
Lemma fop_filter {A} (R : A -> A -> Prop) p l : ForallOrdPairs R l -> ForallOrdPairs R (filter p l).
Proof.
  induction 1 as [|a l Ha Hl IH]; cbn [filter]; [constructor|]. destruct (p a); [|exact IH]. constructor; [|exact IH].
  rewrite Forall_forall in *. intros x Hx. apply filter_In in Hx as [Hx _]. auto.
Qed.
Lemma fop_mid {A} (R : A -> A -> Prop) l x l' : ForallOrdPairs R (l ++ x :: l') -> Forall (fun a => R a x) l.
Proof.
  induction l as [|a l IH]; cbn [app]; intros H; [constructor|]. inversion H as [|? ? Ha Hl]; subst. constructor.
  - rewrite Forall_forall in Ha. apply Ha. apply in_app_iff. right. left. reflexivity.
  - apply IH. exact Hl.
Qed.

Lemma existsb_forall_false {A} (p : A -> bool) l : existsb p l = false <-> Forall (fun a => p a = false) l.
Proof.
  induction l as [|a l IH]; cbn [existsb]; [split; auto|]. rewrite orb_false_iff, IH. split; intros H.
  - constructor; tauto.
  - inversion H; auto.
Qed.

Lemma filter_length_le' {A} (p : A -> bool) l : length (filter p l) <= length l.
Proof. induction l as [|a l IH]; cbn [filter length]; [lia|]. destruct (p a); cbn [length]; lia. Qed.

Lemma concat_upd {A} (f g : nat -> list A) n i x : i < n -> (forall j, j <> i -> g j = f j) -> g i = f i ++ [x] ->
  Permutation (concat (map g (seq 0 n))) (x :: concat (map f (seq 0 n))).
Proof.
  intros Hi Hj Hg.
  assert (Es : seq 0 n = seq 0 i ++ i :: seq (S i) (n - S i)).
  { replace n with (i + S (n - S i)) at 1 by lia. rewrite seq_app. cbn [seq plus]. reflexivity. }
  assert (Ef : forall a m, (a + m <= i \/ i < a) -> map g (seq a m) = map f (seq a m)).
  { intros a m Hm. apply map_ext_in. intros j Hin. apply in_seq in Hin. apply Hj. lia. }
  rewrite Es, !map_app, !concat_app. cbn [map concat]. rewrite (Ef 0 i) by lia. rewrite (Ef (S i)) by lia. rewrite Hg.
  rewrite <- app_assoc. cbn [app]. rewrite Permutation_middle. apply Permutation_app_head. symmetry. apply Permutation_middle.
Qed.

Section Pf.
  Variable uf : N -> N -> bool.

  (** State after redistributing [done] out of the source bucket [src] of [t]. *)
  Record redis (t : rtable) (src : bucket) (done : list ninfo) (t1 : rtable) : Prop := {
    rd_conf : same_conf t t1;
    rd_last : rlast t1 = S (rlast t);
    rd_size : rsize t1 = (rsize t - Z.of_nat (length (bnodes src)) + Z.of_nat (length done))%Z;
    rd_low : nodeMap t1 (rlast t) = Some {| bnodes := filter (fun n => solveMaxPreLen t1 (nid n) =? rlast t) done; bcap := rk t |};
    rd_high : nodeMap t1 (S (rlast t)) = Some {| bnodes := filter (fun n => negb (solveMaxPreLen t1 (nid n) =? rlast t)) done; bcap := rk t |};
    rd_other : forall i, i <> rlast t -> i <> S (rlast t) -> nodeMap t1 i = nodeMap t i }.

  Lemma smpl_conf t t' id : hnode t' = hnode t -> rlast t' = rlast t -> solveMaxPreLen t' id = solveMaxPreLen t id.
  Proof. intros H1 H2. rewrite !smpl_min, H1, H2. reflexivity. Qed.

  Lemma bput_eq m i b : bput m i b i = Some b.
  Proof. unfold bput. rewrite Nat.eqb_refl. reflexivity. Qed.
  Lemma bput_neq m i b j : j <> i -> bput m i b j = m j.
  Proof. intros H. unfold bput. apply Nat.eqb_neq in H. rewrite H. reflexivity. Qed.

  Lemma redis_start t src : redis t src [] (split_empty t src).
  Proof.
    constructor; cbn [split_empty hnode rk nodeMap rsize rcapacity rlast filter length].
    - repeat split.
    - reflexivity.
    - unfold bSize. cbn. lia.
    - rewrite bput_neq by lia. apply bput_eq.
    - apply bput_eq.
    - intros i H1 H2. rewrite bput_neq by exact H2. apply bput_neq. exact H1.
  Qed.

  (** Adding one node to a non-full bucket that does not contain it. *)
  Lemma addNode_add f t node i b : nodeMap t i = Some b -> bFull b = false -> bExist uf b node = false ->
    addNode uf f t node i = Ok (set_size (set_bucket t i {| bnodes := bnodes b ++ [node]; bcap := bcap b |}) (rsize t + 1), None).
  Proof.
    intros Hb Hf He. unfold bget.
    destruct f; cbn [addNode]; unfold bget; rewrite Hb; cbn [bind]; rewrite Hf, He, andb_false_r; unfold bAdd; rewrite Hf; reflexivity.
  Qed.

  Lemma redis_step f t src done n rest t1 : Inv uf t -> nodeMap t (rlast t) = Some src ->
    bnodes src = done ++ n :: rest -> redis t src done t1 ->
    exists t2, addNode uf f t1 n (solveMaxPreLen t1 (nid n)) = Ok (t2, None) /\ redis t src (done ++ [n]) t2.
  Proof.
    intros HI Hsrc Hd [Hc Hl Hs Hlow Hhigh Hoth].
    destruct (inv_in _ _ HI (rlast t) (le_n _)) as (b & Hb & Hbc & Hbl & Hbp & Hbd).
    assert (b = src) by congruence. subst b. clear Hb.
    assert (Hlen : length done < rk t). { rewrite Hd, app_length in Hbl. cbn in Hbl. lia. }
    rewrite Hd in Hbp, Hbd. pose proof (fop_mid _ _ _ _ Hbd) as Hne.
    apply Forall_app in Hbp as [_ Hbp]. inversion Hbp as [|? ? Hn _]; subst.
    destruct Hc as (Hh & Hk & Hcap).
    assert (Hcases : solveMaxPreLen t1 (nid n) = rlast t \/ solveMaxPreLen t1 (nid n) = S (rlast t)).
    { rewrite smpl_min in *. rewrite Hh, Hl. lia. }
    assert (Hadd : forall i q, nodeMap t1 i = Some {| bnodes := filter q done; bcap := rk t |} ->
       addNode uf f t1 n i = Ok (set_size (set_bucket t1 i {| bnodes := filter q done ++ [n]; bcap := rk t |}) (rsize t1 + 1), None)).
    { intros i q Hi. rewrite (addNode_add f t1 n i _ Hi).
      - reflexivity.
      - unfold bFull, bSize. cbn [bnodes bcap]. apply Nat.leb_gt. pose proof (filter_length_le' q done). lia.
      - unfold bExist. cbn [bnodes]. apply existsb_forall_false. rewrite Forall_forall in *. intros a Ha.
        apply filter_In in Ha as [Ha _]. apply Hne. exact Ha. }
    destruct Hcases as [E|E]; rewrite E.
    - eexists. split; [apply Hadd; exact Hlow|].
      constructor; cbn [set_size set_bucket hnode rk nodeMap rsize rcapacity rlast].
      + repeat split; assumption.
      + exact Hl.
      + rewrite Hs, app_length. cbn [length]. lia.
      + rewrite bput_eq. f_equal. f_equal.
        symmetry. rewrite (filter_ext _ (fun x => solveMaxPreLen t1 (nid x) =? rlast t)) by (intros a; rewrite (smpl_conf t1) by reflexivity; reflexivity). rewrite filter_app. cbn [filter]. rewrite E, Nat.eqb_refl. reflexivity.
      + rewrite bput_neq by lia. rewrite Hhigh. f_equal. f_equal.
        symmetry. rewrite (filter_ext _ (fun x => negb (solveMaxPreLen t1 (nid x) =? rlast t))) by (intros a; rewrite (smpl_conf t1) by reflexivity; reflexivity). rewrite filter_app. cbn [filter].
        rewrite E, Nat.eqb_refl. cbn [negb]. apply app_nil_r.
      + intros i H1 H2. rewrite bput_neq by exact H1. apply Hoth; assumption.
    - eexists. split; [apply Hadd; exact Hhigh|].
      assert (E' : (S (rlast t) =? rlast t) = false) by (apply Nat.eqb_neq; lia).
      constructor; cbn [set_size set_bucket hnode rk nodeMap rsize rcapacity rlast].
      + repeat split; assumption.
      + exact Hl.
      + rewrite Hs, app_length. cbn [length]. lia.
      + rewrite bput_neq by lia. rewrite Hlow. f_equal. f_equal.
        symmetry. rewrite (filter_ext _ (fun x => solveMaxPreLen t1 (nid x) =? rlast t)) by (intros a; rewrite (smpl_conf t1) by reflexivity; reflexivity). rewrite filter_app. cbn [filter].
        rewrite E, E'. apply app_nil_r.
      + rewrite bput_eq. f_equal. f_equal.
        symmetry. rewrite (filter_ext _ (fun x => negb (solveMaxPreLen t1 (nid x) =? rlast t))) by (intros a; rewrite (smpl_conf t1) by reflexivity; reflexivity). rewrite filter_app. cbn [filter]. rewrite E, E'. reflexivity.
      + intros i H1 H2. rewrite bput_neq by exact H2. apply Hoth; assumption.
  Qed.

  Lemma redis_fold f t src rest : Inv uf t -> nodeMap t (rlast t) = Some src -> forall done t1,
    bnodes src = done ++ rest -> redis t src done t1 ->
    exists t2, fold_left (fun r n => do t1 <- r; do x <- addNode uf f t1 n (solveMaxPreLen t1 (nid n)); Ok (fst x)) rest (Ok t1) = Ok t2 /\
      redis t src (bnodes src) t2.
  Proof.
    intros HI Hsrc. induction rest as [|n rest IH]; intros done t1 Hd Hr.
    - exists t1. split; [reflexivity|]. rewrite app_nil_r in Hd. rewrite Hd. exact Hr.
    - destruct (redis_step f t src done n rest t1 HI Hsrc Hd Hr) as (t2 & E & Hr2).
      cbn [fold_left bind]. rewrite E. cbn [bind fst]. apply (IH (done ++ [n])); [|exact Hr2].
      rewrite <- app_assoc. exact Hd.
  Qed.

  Lemma redis_inv t src t1 : Inv uf t -> nodeMap t (rlast t) = Some src -> (Z.of_nat (rlast t) < rcapacity t)%Z ->
    redis t src (bnodes src) t1 -> Inv uf t1 /\ Permutation (stored t1) (stored t) /\ rsize t1 = rsize t.
  Proof.
    intros HI Hsrc Hcap [(Hh & Hk & Hcc) Hl Hs Hlow Hhigh Hoth].
    destruct (inv_in _ _ HI (rlast t) (le_n _)) as (b & Hb & Hbc & Hbl & Hbp & Hbd).
    assert (b = src) by congruence. subst b. clear Hb.
    assert (Hcases : Forall (fun n => solveMaxPreLen t1 (nid n) = rlast t \/ solveMaxPreLen t1 (nid n) = S (rlast t)) (bnodes src)).
    { rewrite Forall_forall in *. intros n Hn. specialize (Hbp n Hn). cbv beta in *. rewrite smpl_min in *. rewrite Hh, Hl. lia. }
    split; [constructor|split].
    - intros i Hi. rewrite Hl in Hi. rewrite Hk.
      destruct (Nat.eq_dec i (rlast t)) as [->|H1]; [|destruct (Nat.eq_dec i (S (rlast t))) as [->|H2]].
      + eexists. split; [exact Hlow|]. cbn [bnodes bcap]. split; [reflexivity|].
        split; [etransitivity; [apply filter_length_le'|exact Hbl]|]. split; [|apply fop_filter; exact Hbd].
        rewrite Forall_forall. intros n Hn. apply filter_In in Hn as [_ Hn]. apply Nat.eqb_eq. exact Hn.
      + eexists. split; [exact Hhigh|]. cbn [bnodes bcap]. split; [reflexivity|].
        split; [etransitivity; [apply filter_length_le'|exact Hbl]|]. split; [|apply fop_filter; exact Hbd].
        rewrite Forall_forall in *. intros n Hn. apply filter_In in Hn as [Hn Hq].
        destruct (Hcases n Hn) as [E|E]; [rewrite E, Nat.eqb_refl in Hq; discriminate|exact E].
      + destruct (inv_in _ _ HI i ltac:(lia)) as (b & Hb & Hbc' & Hbl' & Hbp' & Hbd').
        exists b. rewrite Hoth by assumption. split; [exact Hb|]. split; [congruence|]. split; [exact Hbl'|]. split; [|exact Hbd'].
        rewrite Forall_forall in *. intros n Hn. specialize (Hbp' n Hn). cbv beta in *. rewrite smpl_min in *. rewrite Hh, Hl. lia.
    - intros i Hi. rewrite Hoth by lia. apply (inv_out _ _ HI). lia.
    - rewrite Hl, Hcc. lia.
    - unfold stored. rewrite Hl. rewrite (seq_S (S (rlast t))), (seq_S (rlast t)). cbn [plus].
      rewrite !map_app, !concat_app. cbn [map concat]. rewrite !app_nil_r, <- app_assoc.
      assert (E : map (bucket_nodes t1) (seq 0 (rlast t)) = map (bucket_nodes t) (seq 0 (rlast t))).
      { apply map_ext_in. intros j Hj. apply in_seq in Hj. unfold bucket_nodes. rewrite Hoth by lia. reflexivity. }
      rewrite E. apply Permutation_app_head.
      assert (E1 : bucket_nodes t (rlast t) = bnodes src) by (unfold bucket_nodes; rewrite Hsrc; reflexivity).
      assert (E2 : bucket_nodes t1 (rlast t) = filter (fun n => solveMaxPreLen t1 (nid n) =? rlast t) (bnodes src)) by (unfold bucket_nodes; rewrite Hlow; reflexivity).
      assert (E3 : bucket_nodes t1 (S (rlast t)) = filter (fun n => negb (solveMaxPreLen t1 (nid n) =? rlast t)) (bnodes src)) by (unfold bucket_nodes; rewrite Hhigh; reflexivity).
      rewrite E1, E2, E3. clear. induction (bnodes src) as [|n l IH]; [reflexivity|]. cbn [filter].
      destruct (solveMaxPreLen t1 (nid n) =? rlast t); cbn [negb app].
      + constructor. exact IH.
      + rewrite <- Permutation_middle. constructor. exact IH.
    - rewrite Hs. lia.
  Qed.

  Lemma nodeCount_ok t : Inv uf t -> exists n, nodeCount t = Ok n /\ n = length (stored t).
  Proof.
    intros HI. unfold nodeCount, stored.
    assert (H : forall m, m <= S (rlast t) -> nodeCount_upto t m = Ok (length (concat (map (bucket_nodes t) (seq 0 m))))).
    { induction m as [|m IH]; intros Hm; [reflexivity|]. cbn [nodeCount_upto]. rewrite IH by lia. cbn [bind].
      destruct (inv_in _ _ HI m ltac:(lia)) as (b & Hb & _). unfold bget. rewrite Hb. cbn [bind].
      rewrite seq_S, map_app, concat_app, app_length. cbn [plus map concat]. unfold bucket_nodes at 3. rewrite Hb, app_nil_r. reflexivity. }
    eexists. split; [apply H; lia|reflexivity].
  Qed.

  (** What one AddNode call can do. *)
  Inductive outcome (t : rtable) (node : ninfo) : rtable -> option goerr -> Prop :=
  | oc_refused b e : nodeMap t (solveMaxPreLen t (nid node)) = Some b -> bFull b = true -> 
      (bExist uf b node = false -> solveMaxPreLen t (nid node) = rlast t -> (rcapacity t <= Z.of_nat (rlast t))%Z) ->
      outcome t node t (Some e)
  | oc_dup b : nodeMap t (solveMaxPreLen t (nid node)) = Some b -> bFull b = false -> bExist uf b node = true ->
      outcome t node (set_size t (rsize t + 1)) None
  | oc_added t' b b' : nodeMap t (solveMaxPreLen t (nid node)) = Some b -> bExist uf b node = false ->
      nodeMap t' (solveMaxPreLen t' (nid node)) = Some b' -> In node (bnodes b') ->
      Permutation (stored t') (node :: stored t) -> rsize t' = (rsize t + 1)%Z ->
      (rlast t' = rlast t <-> bFull b = false) ->
      (bFull b = true -> solveMaxPreLen t (nid node) = rlast t /\ (Z.of_nat (rlast t) < rcapacity t)%Z) ->
      outcome t node t' None
  | oc_dropped t' b b' : nodeMap t (solveMaxPreLen t (nid node)) = Some b -> bFull b = true -> bExist uf b node = false ->
      rlast t < rlast t' -> solveMaxPreLen t (nid node) = rlast t -> (Z.of_nat (rlast t) < rcapacity t)%Z ->
      nodeMap t' (solveMaxPreLen t' (nid node)) = Some b' -> bFull b' = true -> bExist uf b' node = false ->
      Permutation (stored t') (stored t) -> rsize t' = rsize t ->
      (solveMaxPreLen t' (nid node) = rlast t' -> (rcapacity t' <= Z.of_nat (rlast t'))%Z) ->
      outcome t node t' None.

  Lemma add_inv t node b : Inv uf t -> nodeMap t (solveMaxPreLen t (nid node)) = Some b -> bFull b = false -> bExist uf b node = false ->
    Inv uf (set_size (set_bucket t (solveMaxPreLen t (nid node)) {| bnodes := bnodes b ++ [node]; bcap := bcap b |}) (rsize t + 1)).
  Proof.
    intros HI Hb Hf He. set (i := solveMaxPreLen t (nid node)) in *.
    assert (Hile : i <= rlast t) by apply smpl_le.
    destruct (inv_in _ _ HI i Hile) as (b0 & Hb0 & Hbc & Hbl & Hbp & Hbd). assert (b0 = b) by congruence. subst b0.
    constructor; cbn [set_size set_bucket hnode rk nodeMap rsize rcapacity rlast].
    - intros j Hj. destruct (Nat.eq_dec j i) as [->|Hne].
      + rewrite bput_eq. eexists. split; [reflexivity|]. cbn [bnodes bcap]. split; [exact Hbc|].
        unfold bFull, bSize in Hf. apply Nat.leb_gt in Hf. split; [rewrite app_length; cbn [length]; lia|]. split.
        * apply Forall_app. split; [exact Hbp|]. constructor; [reflexivity|constructor].
        * apply fop_snoc; [exact Hbd|]. apply existsb_forall_false. exact He.
      + rewrite bput_neq by exact Hne. apply (inv_in _ _ HI). exact Hj.
    - intros j Hj. rewrite bput_neq by lia. apply (inv_out _ _ HI). exact Hj.
    - apply (inv_cap _ _ HI).
  Qed.

  Lemma addNode_spec f : forall t node, Inv uf t -> (rcapacity t - Z.of_nat (rlast t) <= Z.of_nat f)%Z ->
    exists t' e, addNode uf f t node (solveMaxPreLen t (nid node)) = Ok (t', e) /\ Inv uf t' /\ same_conf t t' /\
      rlast t <= rlast t' /\ outcome t node t' e.
  Proof.
    induction f as [|f IH]; intros t node HI Hfuel.
    all: destruct (inv_in _ _ HI _ (smpl_le t (nid node))) as (b & Hb & Hbc & Hbl & Hbp & Hbd).
    all: assert (Hsame : same_conf t t) by (repeat split).
    all: destruct (bFull b) eqn:Hfull; [|
      destruct (bExist uf b node) eqn:Hex; [
        exists (set_size t (rsize t + 1)), None; split; [cbn [addNode]; unfold bget; rewrite Hb; cbn [bind]; rewrite Hfull, Hex, andb_false_r; reflexivity|];
        split; [destruct HI; constructor; assumption|]; split; [repeat split|]; split; [apply le_n|]; eapply oc_dup; eassumption |
        eexists _, None; split; [rewrite (addNode_add _ _ _ _ _ Hb Hfull Hex); reflexivity|];
        split; [apply add_inv; assumption|]; split; [repeat split|]; split; [apply le_n|];
        eapply oc_added; [exact Hb|exact Hex|exact (bput_eq _ _ _)|
          cbn [bnodes]; apply in_app_iff; right; left; reflexivity| |reflexivity|cbn; tauto|congruence];
        unfold stored; cbn [set_size set_bucket rlast];
        apply (concat_upd (bucket_nodes t) _ _ (solveMaxPreLen t (nid node)));
          [pose proof (smpl_le t (nid node)); lia|intros j Hj; unfold bucket_nodes; cbn [set_size set_bucket nodeMap]; rewrite bput_neq by exact Hj; reflexivity|
           unfold bucket_nodes; cbn [set_size set_bucket nodeMap]; rewrite bput_eq, Hb; reflexivity]]].
    all: destruct (Nat.leb_spec (rlast t) (solveMaxPreLen t (nid node))) as [Hlast|Hlast].
    2,4: eexists t, _; (split; [cbn [addNode]; unfold bget; rewrite Hb; cbn [bind]; rewrite Hfull;
       apply Nat.leb_gt in Hlast; rewrite Hlast; reflexivity|]); (split; [exact HI|]); (split; [exact Hsame|]); (split; [apply le_n|]);
       eapply oc_refused; [exact Hb|exact Hfull|intros _ E; lia].
    all: destruct (bExist uf b node) eqn:Hex.
    1,3: eexists t, _; (split; [cbn [addNode]; unfold bget; rewrite Hb; cbn [bind]; rewrite Hfull, Hex, andb_false_r; reflexivity|]);
       (split; [exact HI|]); (split; [exact Hsame|]); (split; [apply le_n|]); eapply oc_refused; [exact Hb|exact Hfull|congruence].
    all: destruct (Z.leb_spec (rcapacity t) (Z.of_nat (rlast t))) as [Hcap|Hcap].
    1,3: eexists t, _; (split; [cbn [addNode]; unfold bget; rewrite Hb; cbn [bind]; rewrite Hfull, Hex;
       apply Nat.leb_le in Hlast; rewrite Hlast; cbn [andb negb]; apply Z.leb_le in Hcap; rewrite Hcap; reflexivity|]);
       (split; [exact HI|]); (split; [exact Hsame|]); (split; [apply le_n|]); eapply oc_refused; [exact Hb|exact Hfull|intros; exact Hcap].
    1: lia.
    assert (El : solveMaxPreLen t (nid node) = rlast t) by (pose proof (smpl_le t (nid node)); lia).
    rewrite El in Hb.
    destruct (redis_fold f t b (bnodes b) HI Hb [] (split_empty t b) eq_refl (redis_start t b)) as (t2 & Efold & Hrd).
    destruct (redis_inv t b t2 HI Hb ltac:(lia) Hrd) as (HI2 & Hperm & Hsz).
    pose proof (rd_conf _ _ _ _ Hrd) as (Hh & Hk & Hcc). pose proof (rd_last _ _ _ _ Hrd) as Hl2.
    destruct (IH t2 node HI2 ltac:(lia)) as (t3 & e & E3 & HI3 & (Hh3 & Hk3 & Hc3) & Hl3 & Hout).
    destruct (nodeCount_ok t3 HI3) as (nc & Enc & _).
    exists t3, None. split.
    { rewrite El. cbn [addNode]. unfold bget at 1. rewrite Hb. cbn [bind]. rewrite Hfull, Hex, Nat.leb_refl. cbn [andb negb].
      apply Z.leb_gt in Hcap. rewrite Hcap. unfold bget. rewrite Hb. cbn [bind]. unfold bAll. rewrite Efold. cbn [bind].
      rewrite E3. cbn [bind fst]. rewrite Enc. reflexivity. }
    split; [exact HI3|]. split; [repeat split; congruence|]. split; [lia|].
    (* after the redistribution no bucket the node can go to contains an equal node *)
    assert (Hex2 : forall b2, nodeMap t2 (solveMaxPreLen t2 (nid node)) = Some b2 -> bExist uf b2 node = false).
    { intros b2 Hb2. assert (Hcases : solveMaxPreLen t2 (nid node) = rlast t \/ solveMaxPreLen t2 (nid node) = S (rlast t)).
      { rewrite smpl_min in *. rewrite Hh, Hl2. lia. }
      unfold bExist in *. rewrite existsb_forall_false in *. rewrite Forall_forall in *.
      destruct Hcases as [E|E]; rewrite E in Hb2.
      - rewrite (rd_low _ _ _ _ Hrd) in Hb2. injection Hb2 as <-. cbn [bnodes]. intros a Ha. apply filter_In in Ha as [Ha _]. auto.
      - rewrite (rd_high _ _ _ _ Hrd) in Hb2. injection Hb2 as <-. cbn [bnodes]. intros a Ha. apply filter_In in Ha as [Ha _]. auto. }
    rewrite <- El in Hb.
    destruct Hout as [b2 e2 Hb2 Hf2 He2|b2 Hb2 Hf2 He2|t4 b2 b2' Hb2 He2 Hb2' Hin Hp2 Hs2 Hiff Hfl|t4 b2 b2' Hb2 Hf2 He2 Hlt Hlb Hcb Hb2' Hf2' He2' Hp2 Hs2 Hc2].
    - eapply oc_dropped; [exact Hb|exact Hfull|exact Hex|lia|exact El|exact Hcap|exact Hb2|exact Hf2|apply Hex2; exact Hb2|exact Hperm|exact Hsz|intros Hx; apply He2; [apply Hex2; exact Hb2|exact Hx]].
    - rewrite (Hex2 _ Hb2) in He2. discriminate.
    - eapply oc_added; [exact Hb|exact Hex|exact Hb2'|exact Hin| |lia|split; [intros; lia|congruence]|intros _; split; [exact El|exact Hcap]].
      rewrite Hp2, Hperm. reflexivity.
    - eapply oc_dropped; [exact Hb|exact Hfull|exact Hex|lia|exact El|exact Hcap|exact Hb2'|exact Hf2'|exact He2'|rewrite Hp2; exact Hperm|lia|exact Hc2].
  Qed.

  Lemma AddNode_spec t node : Inv uf t -> exists t' e, AddNode uf t node = Ok (t', e) /\ Inv uf t' /\ same_conf t t' /\
      rlast t <= rlast t' /\ outcome t node t' e.
  Proof. intros HI. apply addNode_spec; [exact HI|lia]. Qed.

  Lemma new_inv host k capacity t : NewRouteTable host k capacity = Ok t -> Inv uf t.
  Proof.
    unfold NewRouteTable. destruct (Z.ltb_spec k 0) as [H|H]; [discriminate|]. intros E. injection E as <-.
    constructor; cbn [hnode rk nodeMap rsize rcapacity rlast].
    - intros i Hi. assert (i = 0) by lia. subst i. rewrite bput_eq. eexists. split; [reflexivity|].
      unfold bAdd, bFull, bSize, NewBucket. cbn [bnodes bcap length].
      destruct (Nat.leb_spec (Z.to_nat k) 0) as [Hk|Hk]; cbn [fst bnodes bcap app length].
      + repeat split; try lia; constructor.
      + repeat split; try lia; repeat constructor. rewrite smpl_min. cbn [rlast]. lia.
    - intros i Hi. rewrite bput_neq by lia. reflexivity.
    - lia.
  Qed.

  Lemma reach_inv host k capacity t : rt_reach uf host k capacity t -> Inv uf t.
  Proof.
    induction 1 as [t E|t node t' e Hr IH E]; [eapply new_inv; exact E|].
    destruct (AddNode_spec t node IH) as (t2 & e2 & E2 & HI & _). congruence.
  Qed.

  Lemma reach_conf host k capacity t : rt_reach uf host k capacity t -> hnode t = host /\ rk t = Z.to_nat k /\ rcapacity t = capacity /\ (0 <= k)%Z.
  Proof.
    induction 1 as [t E|t node t' e Hr IH E].
    - unfold NewRouteTable in E. destruct (Z.ltb_spec k 0); [discriminate|]. injection E as <-. repeat split. lia.
    - destruct (AddNode_spec t node (reach_inv _ _ _ _ Hr)) as (t2 & e2 & E2 & HI & (H1 & H2 & H3) & _).
      assert (t2 = t') by congruence. subst t2. destruct IH as (I1 & I2 & I3 & I4). repeat split; congruence.
  Qed.

  Lemma in_stored t n : Inv uf t -> In n (stored t) <-> In n (bucket_nodes t (solveMaxPreLen t (nid n))).
  Proof.
    intros HI. unfold stored. rewrite in_concat. split.
    - intros (l & Hl & Hn). apply in_map_iff in Hl as (i & <- & Hi). apply in_seq in Hi.
      destruct (inv_in _ _ HI i ltac:(lia)) as (b & Hb & _ & _ & Hbp & _). unfold bucket_nodes in *. rewrite Hb in Hn.
      rewrite Forall_forall in Hbp. rewrite (Hbp n Hn), Hb. exact Hn.
    - intros Hn. exists (bucket_nodes t (solveMaxPreLen t (nid n))). split; [|exact Hn]. apply in_map, in_seq.
      pose proof (smpl_le t (nid n)). lia.
  Qed.

  Lemma in_bucket_nodes t n i : Inv uf t -> In n (bucket_nodes t i) -> In n (stored t) /\ i = solveMaxPreLen t (nid n) /\ i <= rlast t.
  Proof.
    intros HI Hn. destruct (le_lt_dec i (rlast t)) as [Hi|Hi].
    - destruct (inv_in _ _ HI i Hi) as (b & Hb & _ & _ & Hbp & _).
      assert (i = solveMaxPreLen t (nid n)). { unfold bucket_nodes in Hn. rewrite Hb in Hn. rewrite Forall_forall in Hbp. symmetry. auto. }
      split; [|split; [assumption|exact Hi]]. apply in_stored; [exact HI|]. rewrite <- H. exact Hn.
    - unfold bucket_nodes in Hn. rewrite (inv_out _ _ HI i Hi) in Hn. destruct Hn.
  Qed.
End Pf.
