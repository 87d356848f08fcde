(** BucketConcPf.v -- a bucket under concurrent use (C94). *)
From Verif Require Import Base GoLib Bencode Types Node RouteTable RouteTableProofs BucketConc BucketConcSpec.
Local Open Scope list_scope.

Lemma NoDup_app_snoc' {X} (l : list X) x : NoDup l -> ~ In x l -> NoDup (l ++ [x]).
Proof.
  intros H Hn. apply NoDup_rev in H. rewrite <- (rev_involutive (l ++ [x])). apply NoDup_rev. rewrite rev_app_distr. cbn. constructor; [rewrite <- in_rev; exact Hn|exact H].
Qed.

Section Inv.
Variable uf : N -> N -> bool.
Variable c : nat.

Definition reading (pc : bpc) : bool := match pc with BFull | BRead _ _ | BRUnlock _ => true | _ => false end.
Definition writing (pc : bpc) : bool := match pc with BCheck | BStore | BInc | BUnlock _ => true | _ => false end.
Definition nodes (acc : list (nat * ninfo)) := map snd acc.
Definition normal (acc : list (nat * ninfo)) : list (option ninfo) := map Some (nodes acc) ++ repeat None (c - length acc).

(** what a call knows *)
Definition pok (acc : list (nat * ninfo)) (i : nat) (x : bcall) : Prop :=
  c_from x <= length acc /\
  match c_pc x with
  | B0 => True
  | BFull | BLock | BCheck => is_add (c_op x) = true
  | BFullDone f => is_add (c_op x) = true /\ (f = true -> length acc = c)
  | BStore => is_add (c_op x) = true /\ length acc < c
  | BInc => is_add (c_op x) = true /\ length acc < c
  | BUnlock r => exists n, c_op x = OAdd n /\ if r then exists m, c_from x <= m /\ nth_error acc m = Some (i, n) else length acc = c
  | BRead k seen => is_add (c_op x) = false /\ k <= c /\
      match c_op x with OIter => seen = firstn k (normal acc) | OExist n => k <= length acc /\ forall y, In y (firstn k (nodes acc)) -> Equals uf y n = false | _ => True end
  | BRUnlock r => is_add (c_op x) = false /\ exists m, c_from x <= m /\ m <= length acc /\ meaning uf c (firstn m (nodes acc)) (c_op x) r
  | BPanic => False
  | BDone upto r => as_if_atomic uf c acc i (c_op x) (c_from x) upto r
  end.

Definition mem (s : bstate) : Prop :=
  match b_writer s with
  | None => b_slots s = normal (b_acc s)
  | Some w => exists x, nth_error (b_calls s) w = Some x /\
      match c_pc x with
      | BInc => exists n, c_op x = OAdd n /\ b_slots s = map Some (nodes (b_acc s) ++ [n]) ++ repeat None (c - S (length (b_acc s)))
      | _ => b_slots s = normal (b_acc s)
      end
  end.

Record binv (s : bstate) : Prop := {
  v_cap : b_cap s = c;
  v_size : b_size s = length (b_acc s);
  v_le : length (b_acc s) <= c;
  v_mem : mem s;
  v_excl : b_writer s <> None -> b_readers s = [];
  v_lock : forall i x, nth_error (b_calls s) i = Some x -> (reading (c_pc x) = true <-> In i (b_readers s)) /\ (writing (c_pc x) = true <-> b_writer s = Some i);
  v_some : forall i, In i (b_readers s) \/ b_writer s = Some i -> exists x, nth_error (b_calls s) i = Some x;
  v_calls : forall i x, nth_error (b_calls s) i = Some x -> pok (b_acc s) i x;
  v_acc : forall i n, In (i, n) (b_acc s) -> exists x, nth_error (b_calls s) i = Some x /\ c_op x = OAdd n /\
            (c_pc x = BUnlock true \/ exists u, c_pc x = BDone u (RBool true));
  v_nodup : NoDup (map fst (b_acc s)) }.

Lemma firstn_snoc_le {X} m (l : list X) x : m <= length l -> firstn m (l ++ [x]) = firstn m l.
Proof. intros H. rewrite firstn_app. replace (m - length l) with 0 by lia. rewrite firstn_O, app_nil_r. reflexivity. Qed.

Lemma pok_mono acc i x y : pok acc i x -> reading (c_pc x) = false -> writing (c_pc x) = false -> length acc < c -> pok (acc ++ [y]) i x.
Proof.
  unfold pok. intros [H0 H] Hr Hw Hlt. rewrite app_length. cbn [length]. split; [lia|]. destruct (c_pc x); try discriminate; try exact H.
  - destruct H as [H1 H2]. split; [exact H1|]. intros E. specialize (H2 E). lia.
  - destruct H as (H1 & H2 & H3). split; [exact H1|]. split; [rewrite app_length; lia|]. destruct (c_op x).
    + destruct H3 as (b & -> & H3). exists b. split; [reflexivity|]. destruct b; [|exact H3]. destruct H3 as (m & A & B & C). exists m. split; [exact A|]. split; [exact B|]. rewrite nth_error_app1; [exact C|lia].
    + destruct H3 as (m & A & B & C). exists m. split; [exact A|]. split; [exact B|]. rewrite map_app. cbn [map]. rewrite firstn_snoc_le; [exact C|rewrite map_length; lia].
    + destruct H3 as (m & A & B & C). exists m. split; [exact A|]. split; [exact B|]. rewrite map_app. cbn [map]. rewrite firstn_snoc_le; [exact C|rewrite map_length; lia].
    + destruct H3 as (m & A & B & C). exists m. split; [exact A|]. split; [exact B|]. rewrite map_app. cbn [map]. rewrite firstn_snoc_le; [exact C|rewrite map_length; lia].
    + destruct H3 as (m & A & B & C). exists m. split; [exact A|]. split; [exact B|]. rewrite map_app. cbn [map]. rewrite firstn_snoc_le; [exact C|rewrite map_length; lia].
    + destruct H3 as (m & A & B & C). exists m. split; [exact A|]. split; [exact B|]. rewrite map_app. cbn [map]. rewrite firstn_snoc_le; [exact C|rewrite map_length; lia].
Qed.

Lemma nth_mid {X} (l1 : list X) x l2 : nth_error (l1 ++ x :: l2) (length l1) = Some x.
Proof. rewrite nth_error_app2 by lia. rewrite Nat.sub_diag. reflexivity. Qed.
Lemma nth_other {X} (l1 : list X) x y l2 i : i <> length l1 -> nth_error (l1 ++ x :: l2) i = nth_error (l1 ++ y :: l2) i.
Proof.
  intros H. destruct (Nat.lt_ge_cases i (length l1)) as [Hlt|Hge]; [rewrite !nth_error_app1 by exact Hlt; reflexivity|].
  rewrite !nth_error_app2 by exact Hge. destruct (i - length l1) as [|j] eqn:E; [lia|]. reflexivity.
Qed.
Lemma nth_split_cases {X} (l1 : list X) x y l2 i z : nth_error (l1 ++ y :: l2) i = Some z -> (i = length l1 /\ z = y) \/ (i <> length l1 /\ nth_error (l1 ++ x :: l2) i = Some z).
Proof.
  intros H. destruct (Nat.eq_dec i (length l1)) as [->|Hn]; [left; rewrite nth_mid in H; injection H as <-; auto|right].
  split; [exact Hn|]. rewrite <- H. apply nth_other. exact Hn.
Qed.

Lemma normal_length acc : length acc <= c -> length (normal acc) = c.
Proof. intros H. unfold normal, nodes. rewrite app_length, !map_length, repeat_length. lia. Qed.

(** One move of a call that leaves the memory alone. *)
Lemma move s l1 x l2 pc r w : binv s -> b_calls s = l1 ++ x :: l2 ->
  (b_slots s = normal (b_acc s) \/ (pc = BInc)) -> pc <> BInc -> c_pc x <> BInc ->
  (w <> None -> r = []) ->
  (forall j, j <> length l1 -> (In j r <-> In j (b_readers s)) /\ (w = Some j <-> b_writer s = Some j)) ->
  (reading pc = true <-> In (length l1) r) -> (writing pc = true <-> w = Some (length l1)) ->
  pok (b_acc s) (length l1) {| c_op := c_op x; c_from := c_from x; c_pc := pc |} ->
  (c_pc x = BUnlock true \/ (exists u, c_pc x = BDone u (RBool true)) -> pc = BUnlock true \/ exists u, pc = BDone u (RBool true)) ->
  binv (goto (with_lock s r w) l1 x l2 pc).
Proof.
  intros [V1 V2 V3 V4 V5 V6 V7 V8 V9 V10] E Hm Hp Hx Hex Hoth Hrd Hwr Hpok Hacc. unfold goto, with_lock. constructor; cbn [b_cap b_size b_acc b_slots b_writer b_readers b_calls]; try assumption.
  - unfold mem. cbn [b_cap b_size b_acc b_slots b_writer b_readers b_calls]. destruct Hm as [Hm|Hm]; [|contradiction].
    destruct w as [w|]; [|exact Hm]. destruct (Nat.eq_dec w (length l1)) as [->|Hn].
    + rewrite nth_mid. eexists. split; [reflexivity|]. cbn [c_pc]. destruct pc; try exact Hm. contradiction.
    + destruct (Hoth w Hn) as [_ Hw]. destruct (V7 w) as (y & Hy); [right; apply Hw; reflexivity|]. rewrite E in Hy. exists y. split; [rewrite <- Hy; apply nth_other; exact Hn|].
      unfold mem in V4. rewrite (proj1 Hw eq_refl) in V4. destruct V4 as (y' & Hy' & V4). rewrite E in Hy'. rewrite Hy in Hy'. injection Hy' as <-. exact V4.
  - intros i y Hy. destruct (nth_split_cases l1 x _ l2 i y Hy) as [[-> ->]|[Hn Hy']]; [cbn [c_pc]; auto|]. rewrite <- E in Hy'. destruct (V6 i y Hy') as [A B], (Hoth i Hn) as [C D]. rewrite A, B, C, D. tauto.
  - intros i Hi. destruct (Nat.eq_dec i (length l1)) as [->|Hn]; [rewrite nth_mid; eauto|].
    destruct (Hoth i Hn) as [C D]. rewrite (nth_other _ _ x) by exact Hn. rewrite <- E. apply V7. rewrite <- C, <- D. exact Hi.
  - intros i y Hy. destruct (nth_split_cases l1 x _ l2 i y Hy) as [[-> ->]|[Hn Hy']]; [exact Hpok|]. rewrite <- E in Hy'. apply V8. exact Hy'.
  - intros i n Hin. destruct (V9 i n Hin) as (y & Hy & Hop & Hpc). rewrite E in Hy. destruct (Nat.eq_dec i (length l1)) as [->|Hn].
    + rewrite nth_mid in Hy. injection Hy as <-. rewrite nth_mid. eexists. split; [reflexivity|]. cbn [c_op c_pc]. split; [exact Hop|apply Hacc; exact Hpc].
    + exists y. rewrite (nth_other _ _ x) by exact Hn. auto.
Qed.

Lemma mem_normal s : binv s -> (forall i x, nth_error (b_calls s) i = Some x -> b_writer s = Some i -> c_pc x <> BInc) -> b_slots s = normal (b_acc s).
Proof.
  intros HI H. pose proof (v_mem _ HI) as Hm. unfold mem in Hm. destruct (b_writer s) as [w|]; [|exact Hm].
  destruct Hm as (x & Hx & Hm). specialize (H _ _ Hx eq_refl). destruct (c_pc x); try exact Hm. contradiction.
Qed.
Lemma mem_reader s i x : binv s -> nth_error (b_calls s) i = Some x -> reading (c_pc x) = true -> b_writer s = None /\ b_slots s = normal (b_acc s).
Proof.
  intros HI Hx Hr. apply (proj1 (v_lock _ HI _ _ Hx)) in Hr. assert (E : b_writer s = None).
  { destruct (b_writer s) eqn:E; [|reflexivity]. rewrite (v_excl _ HI) in Hr by congruence. elim Hr. }
  split; [exact E|]. apply mem_normal; [exact HI|]. intros j y _ Hw. congruence.
Qed.
Lemma mem_writer s i x : binv s -> nth_error (b_calls s) i = Some x -> writing (c_pc x) = true -> c_pc x <> BInc -> b_writer s = Some i /\ b_slots s = normal (b_acc s).
Proof.
  intros HI Hx Hr Hn. apply (proj2 (v_lock _ HI _ _ Hx)) in Hr. split; [exact Hr|]. apply mem_normal; [exact HI|]. intros j y Hy Hw. rewrite Hr in Hw. injection Hw as <-. congruence.
Qed.

Ltac at_call E Hx := match type of E with b_calls ?s = ?l1 ++ ?x :: ?l2 => assert (Hx : nth_error (b_calls s) (length l1) = Some x) by (rewrite E; apply nth_mid) end.

Lemma remove_other i j (l : list nat) : j <> i -> (In j (remove Nat.eq_dec i l) <-> In j l).
Proof. intros H. split; [intros Hin; eapply in_remove; exact Hin|intros Hin; apply in_in_remove; assumption]. Qed.

Lemma bstep_inv s s' : binv s -> bstep uf s s' -> binv s'.
Proof.
  intros HI Hs. pose proof HI as [V1 V2 V3 V4 V5 V6 V7 V8 V9 V10].
  destruct Hs as [op|l1 x l2 E Hpc Hw|l1 x l2 i seen r E Hpc Hb|l1 x l2 i seen i' seen' E Hpc Hb|l1 x l2 i seen E Hpc Hb|l1 x l2 r E Hpc|l1 x l2 E Hpc|l1 x l2 f E Hpc|l1 x l2 E Hpc Hw Hr|l1 x l2 E Hpc|l1 x l2 n E Hpc Hop Hlt|l1 x l2 E Hpc Hge|l1 x l2 n E Hpc Hop|l1 x l2 r E Hpc].
  - (* call *) 
    assert (Hnth : forall i y, nth_error (b_calls s ++ [{| c_op := op; c_from := length (b_acc s); c_pc := B0 |}]) i = Some y ->
       nth_error (b_calls s) i = Some y \/ (i = length (b_calls s) /\ y = {| c_op := op; c_from := length (b_acc s); c_pc := B0 |})).
    { intros i y Hy. destruct (Nat.lt_ge_cases i (length (b_calls s))); [rewrite nth_error_app1 in Hy by assumption; auto|].
      rewrite nth_error_app2 in Hy by assumption. destruct (i - length (b_calls s)) as [|j] eqn:Ej; [|destruct j; discriminate]. right. split; [lia|]. injection Hy as <-. reflexivity. }
    assert (Hold : forall i y, nth_error (b_calls s) i = Some y -> nth_error (b_calls s ++ [{| c_op := op; c_from := length (b_acc s); c_pc := B0 |}]) i = Some y).
    { intros i y Hy. rewrite nth_error_app1; [exact Hy|]. apply nth_error_Some. congruence. }
    constructor; cbn [b_cap b_size b_acc b_slots b_writer b_readers b_calls]; try assumption.
    + unfold mem in *. cbn [b_cap b_size b_acc b_slots b_writer b_readers b_calls]. destruct (b_writer s); [|exact V4]. destruct V4 as (y & Hy & V4). exists y. split; [apply Hold; exact Hy|exact V4].
    + intros i y Hy. destruct (Hnth i y Hy) as [Hy'|[-> ->]]; [apply V6; exact Hy'|]. cbn [c_pc reading writing].
      assert (Hno : ~ (In (length (b_calls s)) (b_readers s) \/ b_writer s = Some (length (b_calls s)))).
      { intros Hin. destruct (V7 _ Hin) as (y & Hy'). apply nth_error_Some in Hy' as Hl || (assert (Hl : length (b_calls s) < length (b_calls s)) by (apply nth_error_Some; congruence); lia). }
      split; (split; [discriminate|intros H; exfalso; apply Hno; auto]).
    + intros i Hi. destruct (V7 i Hi) as (y & Hy). exists y. apply Hold. exact Hy.
    + intros i y Hy. destruct (Hnth i y Hy) as [Hy'|[-> ->]]; [apply V8; exact Hy'|]. split; [cbn; lia|exact I].
    + intros i n Hin. destruct (V9 i n Hin) as (y & Hy & H). exists y. split; [apply Hold; exact Hy|exact H].
  - (* rlock *) at_call E Hx. assert (Hn : b_slots s = normal (b_acc s)) by (apply mem_normal; [exact HI|]; intros j y _ Hj; congruence). apply (move _ _ _ _ _ _ _ HI E (or_introl Hn)); try assumption; try congruence.
    + destruct (is_add (c_op x)); discriminate.
    + intros j Hj. cbn [In]. split; [intuition lia|]. rewrite Hw. reflexivity.
    + split; [intros _; left; reflexivity|]. destruct (is_add (c_op x)); reflexivity.
    + split; [destruct (is_add (c_op x)); discriminate|discriminate].
    + pose proof (V8 _ _ Hx) as [H0 _]. split; [exact H0|]. cbn [c_pc c_op]. destruct (is_add (c_op x)) eqn:Ea; [first [exact Ea|reflexivity]|]. split; [first [exact Ea|reflexivity]|]. split; [lia|].
      destruct (c_op x); try exact I; [split; [lia|intros y []]|reflexivity].
    + rewrite Hpc. intros [H|[u H]]; discriminate.
  - (* read result *) at_call E Hx. destruct (mem_reader _ _ _ HI Hx ltac:(rewrite Hpc; reflexivity)) as [Hw Hn].
    replace (goto s l1 x l2 (BRUnlock r)) with (goto (with_lock s (b_readers s) (b_writer s)) l1 x l2 (BRUnlock r)) by reflexivity.
    pose proof (V6 _ _ Hx) as [L1 L2]. rewrite Hpc in L1, L2.
    apply (move _ _ _ _ _ _ _ HI E (or_introl Hn)); try assumption; try congruence; try tauto; try discriminate.
    + pose proof (V8 _ _ Hx) as [H0 H]. rewrite Hpc in H. destruct H as (Ha & Hk & H). split; [exact H0|]. cbn [c_pc c_op c_from]. split; [exact Ha|]. exists (length (b_acc s)). split; [exact H0|]. split; [lia|].
      replace (firstn (length (b_acc s)) (nodes (b_acc s))) with (nodes (b_acc s)) by (unfold nodes; rewrite firstn_all2; [reflexivity|rewrite map_length; lia]).
      unfold bread in Hb. destruct (c_op x) as [n|n| | | |]; cbn [meaning]; try discriminate.
      * destruct H as [Hi Hall]. destruct (i <? b_size s) eqn:Ei.
        -- destruct (nth_error (b_slots s) i) as [[z|]|] eqn:Ez; try discriminate. destruct (Equals uf z n) eqn:Eq; [|discriminate]. injection Hb as <-.
           exists true. split; [reflexivity|]. split; [intros _|reflexivity]. exists z. split; [|exact Eq]. apply Nat.ltb_lt in Ei. rewrite V2 in Ei. rewrite Hn in Ez. unfold normal in Ez.
           rewrite nth_error_app1 in Ez by (unfold nodes; rewrite !map_length; exact Ei). rewrite nth_error_map in Ez. destruct (nth_error (nodes (b_acc s)) i) eqn:En; [|discriminate]. injection Ez as ->. eapply nth_error_In. exact En.
        -- injection Hb as <-. exists false. split; [reflexivity|]. split; [discriminate|]. intros (y & Hy & Eq). apply Nat.ltb_ge in Ei. rewrite V2 in Ei. assert (i = length (b_acc s)) by lia. subst i.
           rewrite (Hall y) in Eq; [discriminate|]. unfold nodes. rewrite firstn_all2; [exact Hy|rewrite map_length; lia].
      * destruct (nth_error (b_slots s) i) eqn:Ei; [discriminate|]. injection Hb as <-. rewrite Hn in Ei. apply nth_error_None in Ei. rewrite H. rewrite firstn_all2 by exact Ei. unfold normal, nodes. rewrite map_length. reflexivity.
      * injection Hb as <-. rewrite V2. unfold nodes. rewrite map_length. reflexivity.
      * injection Hb as <-. rewrite V2. unfold nodes. rewrite map_length. reflexivity.
      * injection Hb as <-. eexists. split; [reflexivity|]. rewrite Nat.leb_le, V1, V2. unfold nodes. rewrite map_length. reflexivity.
    + rewrite Hpc. intros [H|[u H]]; discriminate.
  - (* loop *) at_call E Hx. destruct (mem_reader _ _ _ HI Hx ltac:(rewrite Hpc; reflexivity)) as [Hw Hn].
    replace (goto s l1 x l2 (BRead i' seen')) with (goto (with_lock s (b_readers s) (b_writer s)) l1 x l2 (BRead i' seen')) by reflexivity.
    pose proof (V6 _ _ Hx) as [L1 L2]. rewrite Hpc in L1, L2.
    apply (move _ _ _ _ _ _ _ HI E (or_introl Hn)); try assumption; try congruence; try tauto; try discriminate.
    + pose proof (V8 _ _ Hx) as [H0 H]. rewrite Hpc in H. destruct H as (Ha & Hk & H). split; [exact H0|]. cbn [c_pc c_op c_from]. split; [exact Ha|].
      unfold bread in Hb. destruct (c_op x) as [n|n| | | |]; try discriminate.
      * destruct H as [Hi Hall]. destruct (i <? b_size s) eqn:Ei; [|discriminate].
        destruct (nth_error (b_slots s) i) as [[z|]|] eqn:Ez; try discriminate. destruct (Equals uf z n) eqn:Eq; [discriminate|]. injection Hb as <- <-. apply Nat.ltb_lt in Ei. rewrite V2 in Ei.
        split; [lia|]. split; [lia|]. intros y Hy. rewrite Hn in Ez. unfold normal in Ez.
        rewrite nth_error_app1 in Ez by (unfold nodes; rewrite !map_length; exact Ei). rewrite nth_error_map in Ez. destruct (nth_error (nodes (b_acc s)) i) eqn:En; [|discriminate]. injection Ez as ->.
        destruct (nth_error_split _ _ En) as (a & b & Eab & Hlen). rewrite Eab in Hy. replace (S i) with (length (a ++ [z])) in Hy by (rewrite app_length; cbn; lia).
        change (a ++ z :: b) with (a ++ [z] ++ b) in Hy. rewrite app_assoc, firstn_app, firstn_all, Nat.sub_diag, firstn_O, app_nil_r in Hy. apply in_app_iff in Hy. destruct Hy as [Hy|[<-|[]]]; [|exact Eq].
        apply Hall. rewrite Eab, <- Hlen, firstn_app, firstn_all, Nat.sub_diag, firstn_O, app_nil_r. exact Hy.
      * destruct (nth_error (b_slots s) i) as [v|] eqn:Ei; [|discriminate]. injection Hb as <- <-. rewrite Hn in Ei. assert (Hlt : i < length (normal (b_acc s))) by (apply nth_error_Some; congruence). rewrite normal_length in Hlt by exact V3.
        split; [lia|]. rewrite H. destruct (nth_error_split _ _ Ei) as (a & b & Eab & Hlen). rewrite Eab, <- Hlen. rewrite firstn_app, firstn_all, Nat.sub_diag, firstn_O, app_nil_r.
        change (a ++ v :: b) with (a ++ [v] ++ b). rewrite app_assoc. replace (S (length a)) with (length (a ++ [v])) by (rewrite app_length; cbn; lia).
        rewrite firstn_app, firstn_all, Nat.sub_diag, firstn_O, app_nil_r. reflexivity.
    + rewrite Hpc. intros [H|[u H]]; discriminate.
  - (* panic *) exfalso. at_call E Hx. destruct (mem_reader _ _ _ HI Hx ltac:(rewrite Hpc; reflexivity)) as [Hw Hn].
    pose proof (V8 _ _ Hx) as [H0 H]. rewrite Hpc in H. destruct H as (Ha & Hk & H).
    unfold bread in Hb. destruct (c_op x) as [n|n| | | |]; try discriminate.
    + destruct (i <? b_size s) eqn:Ei; [|discriminate]. apply Nat.ltb_lt in Ei. rewrite V2 in Ei.
      assert (exists z, nth_error (b_slots s) i = Some (Some z)) as (z & Ez).
      { rewrite Hn. unfold normal. rewrite nth_error_app1 by (unfold nodes; rewrite !map_length; exact Ei). rewrite nth_error_map.
        destruct (nth_error (nodes (b_acc s)) i) eqn:En; [eexists; reflexivity|]. apply nth_error_None in En. unfold nodes in En. rewrite map_length in En. lia. }
      rewrite Ez in Hb. destruct (Equals uf z n); discriminate.
    + destruct (nth_error (b_slots s) i); discriminate.
  - (* runlock *) at_call E Hx. destruct (mem_reader _ _ _ HI Hx ltac:(rewrite Hpc; reflexivity)) as [Hw Hn].
    apply (move _ _ _ _ _ _ _ HI E (or_introl Hn)); try assumption; try congruence; try discriminate.
    + intros j Hj. split; [apply remove_other; exact Hj|reflexivity].
    + split; [discriminate|]. intros H. elim (remove_In _ _ _ H).
    + rewrite Hw. split; discriminate.
    + pose proof (V8 _ _ Hx) as [H0 H]. rewrite Hpc in H. destruct H as (Ha & m & A & B & C). split; [exact H0|]. cbn [c_pc c_op c_from]. split; [exact H0|]. split; [lia|].
      destruct (c_op x); try discriminate; exists m; auto.
    + rewrite Hpc. intros [H|[u H]]; discriminate.
  - (* Full *) at_call E Hx. destruct (mem_reader _ _ _ HI Hx ltac:(rewrite Hpc; reflexivity)) as [Hw Hn].
    apply (move _ _ _ _ _ _ _ HI E (or_introl Hn)); try assumption; try congruence; try discriminate.
    + intros j Hj. split; [apply remove_other; exact Hj|reflexivity].
    + split; [discriminate|]. intros H. elim (remove_In _ _ _ H).
    + rewrite Hw. split; discriminate.
    + pose proof (V8 _ _ Hx) as [H0 H]. rewrite Hpc in H. split; [exact H0|]. cbn [c_pc c_op c_from]. split; [exact H|]. intros Hf. apply Nat.leb_le in Hf. rewrite V1, V2 in Hf. lia.
    + rewrite Hpc. intros [H|[u H]]; discriminate.
  - (* Full done *) at_call E Hx.
    pose proof (V6 _ _ Hx) as [L1 L2]. rewrite Hpc in L1, L2. pose proof (V8 _ _ Hx) as [H0 H]. rewrite Hpc in H. destruct H as [Ha H].
    set (pc := if f then BDone (length (b_acc s)) (RBool false) else BLock).
    assert (Hq : reading pc = false /\ writing pc = false /\ pc <> BInc) by (unfold pc; destruct f; repeat split; discriminate). destruct Hq as (Q1 & Q2 & Q3).
    assert (Hpok : pok (b_acc s) (length l1) {| c_op := c_op x; c_from := c_from x; c_pc := pc |}).
    { split; [exact H0|]. cbn [c_pc c_op c_from]. unfold pc. destruct f; [|exact Ha]. split; [exact H0|]. split; [lia|]. destruct (c_op x); try discriminate. exists false. split; [reflexivity|]. apply H. reflexivity. }
    clearbody pc. constructor; cbn [goto b_cap b_size b_acc b_slots b_writer b_readers b_calls]; try assumption.
    + unfold mem in *. cbn [goto b_cap b_size b_acc b_slots b_writer b_readers b_calls]. destruct (b_writer s) as [w|] eqn:Ew; [|exact V4]. destruct V4 as (y & Hy & V4).
      assert (w <> length l1) by (intros ->; destruct L2 as [_ L2]; specialize (L2 eq_refl); discriminate).
      exists y. split; [rewrite (nth_other _ _ x) by assumption; rewrite <- E; exact Hy|exact V4].
    + intros i y Hy. destruct (nth_split_cases l1 x _ l2 i y Hy) as [[-> ->]|[Hn Hy']]; [cbn [c_pc]; rewrite Q1, Q2; split; [exact L1|exact L2]|]. rewrite <- E in Hy'. apply V6. exact Hy'.
    + intros i Hi. destruct (V7 i Hi) as (y & Hy). destruct (Nat.eq_dec i (length l1)) as [->|Hn]; [rewrite nth_mid; eauto|]. exists y. rewrite (nth_other _ _ x) by assumption. rewrite <- E. exact Hy.
    + intros i y Hy. destruct (nth_split_cases l1 x _ l2 i y Hy) as [[-> ->]|[Hn Hy']]; [exact Hpok|]. rewrite <- E in Hy'. apply V8. exact Hy'.
    + intros i n Hin. destruct (V9 i n Hin) as (y & Hy & Hop & Hq). destruct (Nat.eq_dec i (length l1)) as [->|Hn].
      * rewrite Hx in Hy. injection Hy as <-. rewrite Hpc in Hq. destruct Hq as [Hq|[u Hq]]; discriminate.
      * exists y. rewrite (nth_other _ _ x) by assumption. rewrite <- E. auto.
  - (* lock *) at_call E Hx. assert (Hn : b_slots s = normal (b_acc s)) by (apply mem_normal; [exact HI|]; intros j y _ Hj; congruence). apply (move _ _ _ _ _ _ _ HI E (or_introl Hn)); try assumption; try congruence; try discriminate.
    + intros j Hj. rewrite Hr, Hw. split; [reflexivity|]. split; [congruence|discriminate].
    + split; [discriminate|intros []].
    + split; reflexivity.
    + pose proof (V8 _ _ Hx) as [H0 H]. rewrite Hpc in H. split; [exact H0|exact H].
    + rewrite Hpc. intros [H|[u H]]; discriminate.
  - (* check *) at_call E Hx. destruct (mem_writer _ _ _ HI Hx ltac:(rewrite Hpc; reflexivity) ltac:(rewrite Hpc; discriminate)) as [Hw Hn].
    pose proof (V6 _ _ Hx) as [L1 L2]. rewrite Hpc in L1, L2.
    set (pc := if b_cap s <=? b_size s then BUnlock false else BStore).
    replace (goto s l1 x l2 pc) with (goto (with_lock s (b_readers s) (b_writer s)) l1 x l2 pc) by reflexivity.
    assert (Hq : reading pc = false /\ writing pc = true /\ pc <> BInc) by (unfold pc; destruct (_ <=? _); repeat split; discriminate). destruct Hq as (Q1 & Q2 & Q3).
    apply (move _ _ _ _ _ _ _ HI E (or_introl Hn)); try assumption; try congruence; try tauto; try discriminate.
    + rewrite Q1. exact L1.
    + pose proof (V8 _ _ Hx) as [H0 H]. rewrite Hpc in H. split; [exact H0|]. cbn [c_pc c_op c_from]. unfold pc. rewrite V1, V2. destruct (Nat.leb_spec c (length (b_acc s))).
      * destruct (c_op x); try discriminate. eexists. split; [reflexivity|]. lia.
      * split; [exact H|lia].
    + rewrite Hpc. intros [H|[u H]]; discriminate.
  - (* store *) at_call E Hx. destruct (mem_writer _ _ _ HI Hx ltac:(rewrite Hpc; reflexivity) ltac:(rewrite Hpc; discriminate)) as [Hw Hn].
    pose proof (V6 _ _ Hx) as [L1 L2]. rewrite Hpc in L1, L2.
    pose proof (V8 _ _ Hx) as Hp. unfold pok in Hp. rewrite Hpc in Hp. destruct Hp as (H0 & Ha' & Hlt').
    constructor; cbn [goto b_cap b_size b_acc b_slots b_writer b_readers b_calls]; try assumption.
    + unfold mem. cbn [goto b_cap b_size b_acc b_slots b_writer b_readers b_calls]. rewrite Hw, nth_mid. eexists. split; [reflexivity|]. cbn [c_pc c_op]. exists n. split; [exact Hop|].
      unfold bset. rewrite V2, Hn. unfold normal. assert (Hl : length (map Some (nodes (b_acc s))) = length (b_acc s)) by (unfold nodes; rewrite !map_length; reflexivity).
      rewrite <- Hl at 1. rewrite firstn_app, firstn_all, Nat.sub_diag, firstn_O, app_nil_r. rewrite skipn_app, skipn_all2 by lia. rewrite Hl. cbn [app].
      rewrite map_app. cbn [map]. rewrite <- app_assoc. cbn [app]. f_equal. f_equal. replace (S (length (b_acc s)) - length (b_acc s)) with 1 by lia.
      replace (c - length (b_acc s)) with (S (c - S (length (b_acc s)))) by lia. reflexivity.
    + intros i y Hy. destruct (nth_split_cases l1 x _ l2 i y Hy) as [[-> ->]|[Hne Hy']]; [cbn [c_pc reading writing]; split; [exact L1|exact L2]|]. rewrite <- E in Hy'. apply V6. exact Hy'.
    + intros i Hi. destruct (V7 i Hi) as (y & Hy). destruct (Nat.eq_dec i (length l1)) as [->|Hne]; [rewrite nth_mid; eauto|]. exists y. rewrite (nth_other _ _ x) by assumption. rewrite <- E. exact Hy.
    + intros i y Hy. destruct (nth_split_cases l1 x _ l2 i y Hy) as [[-> ->]|[Hne Hy']]; [|rewrite <- E in Hy'; apply V8; exact Hy']. split; [exact H0|]. cbn [c_pc c_op]. auto.
    + intros i m Hin. destruct (V9 i m Hin) as (y & Hy & Hop' & Hq). destruct (Nat.eq_dec i (length l1)) as [->|Hne].
      * rewrite Hx in Hy. injection Hy as <-. rewrite Hpc in Hq. destruct Hq as [Hq|[u Hq]]; discriminate.
      * exists y. rewrite (nth_other _ _ x) by assumption. rewrite <- E. auto.
  - (* store panic *) exfalso. at_call E Hx. destruct (mem_writer _ _ _ HI Hx ltac:(rewrite Hpc; reflexivity) ltac:(rewrite Hpc; discriminate)) as [Hw Hn].
    pose proof (V8 _ _ Hx) as Hp. unfold pok in Hp. rewrite Hpc in Hp. destruct Hp as (_ & _ & Hlt). rewrite Hn, normal_length, V2 in Hge by exact V3. lia.
  - (* inc *) at_call E Hx. pose proof (V6 _ _ Hx) as [L1 L2]. rewrite Hpc in L1, L2.
    assert (Hw : b_writer s = Some (length l1)) by (apply L2; reflexivity).
    pose proof (V8 _ _ Hx) as Hp. unfold pok in Hp. rewrite Hpc in Hp. destruct Hp as (H0 & Ha & Hlt).
    unfold mem in V4. rewrite Hw in V4. destruct V4 as (y & Hy & V4). rewrite Hx in Hy. injection Hy as <-. rewrite Hpc in V4. destruct V4 as (n' & Hop' & V4). rewrite Hop in Hop'. injection Hop' as <-.
    assert (Hlen : length (b_acc s ++ [(length l1, n)]) = S (length (b_acc s))) by (rewrite app_length; cbn; lia).
    constructor; cbn [goto b_cap b_size b_acc b_slots b_writer b_readers b_calls]; try assumption.
    + rewrite V2, Hlen. reflexivity.
    + rewrite Hlen. lia.
    + unfold mem. cbn [goto b_cap b_size b_acc b_slots b_writer b_readers b_calls]. rewrite Hw, nth_mid. eexists. split; [reflexivity|]. cbn [c_pc]. rewrite V4. unfold normal, nodes. rewrite (map_app snd), Hlen. reflexivity.
    + intros i y Hy. destruct (nth_split_cases l1 x _ l2 i y Hy) as [[-> ->]|[Hne Hy']]; [cbn [c_pc reading writing]; split; [exact L1|exact L2]|]. rewrite <- E in Hy'. apply V6. exact Hy'.
    + intros i Hi. destruct (V7 i Hi) as (y & Hy). destruct (Nat.eq_dec i (length l1)) as [->|Hne]; [rewrite nth_mid; eauto|]. exists y. rewrite (nth_other _ _ x) by assumption. rewrite <- E. exact Hy.
    + intros i y Hy. destruct (nth_split_cases l1 x _ l2 i y Hy) as [[-> ->]|[Hne Hy']].
      * split; [cbn [c_from]; lia|]. cbn [c_pc c_op c_from]. exists n. split; [exact Hop|]. exists (length (b_acc s)). split; [exact H0|]. apply nth_mid.
      * rewrite <- E in Hy'. apply pok_mono; [apply V8; exact Hy'| | |exact Hlt].
        -- destruct (reading (c_pc y)) eqn:Er; [|reflexivity]. apply (proj1 (V6 _ _ Hy')) in Er. rewrite V5 in Er by congruence. elim Er.
        -- destruct (writing (c_pc y)) eqn:Er; [|reflexivity]. apply (proj2 (V6 _ _ Hy')) in Er. congruence.
    + intros i m Hin. apply in_app_iff in Hin. destruct Hin as [Hin|[Hin|[]]].
      * destruct (V9 i m Hin) as (y & Hy & Hop' & Hq). destruct (Nat.eq_dec i (length l1)) as [->|Hne].
        -- rewrite Hx in Hy. injection Hy as <-. rewrite Hpc in Hq. destruct Hq as [Hq|[u Hq]]; discriminate.
        -- exists y. rewrite (nth_other _ _ x) by assumption. rewrite <- E. auto.
      * injection Hin as <- <-. rewrite nth_mid. eexists. split; [reflexivity|]. cbn [c_op c_pc]. auto.
    + rewrite map_app. cbn [map fst]. apply NoDup_app_snoc'; [exact V10|]. intros Hin. apply in_map_iff in Hin. destruct Hin as ([i m] & Ei & Hin). cbn in Ei. subst i.
      destruct (V9 _ _ Hin) as (y & Hy & _ & Hq). rewrite Hx in Hy. injection Hy as <-. rewrite Hpc in Hq. destruct Hq as [Hq|[u Hq]]; discriminate.
  - (* unlock *) at_call E Hx. destruct (mem_writer _ _ _ HI Hx ltac:(rewrite Hpc; reflexivity) ltac:(rewrite Hpc; discriminate)) as [Hw Hn].
    pose proof (V6 _ _ Hx) as [L1 L2]. rewrite Hpc in L1, L2.
    apply (move _ _ _ _ _ _ _ HI E (or_introl Hn)); try assumption; try congruence; try tauto; try discriminate.
    + intros j Hj. split; [reflexivity|]. rewrite Hw. split; [discriminate|]. congruence.
    + split; discriminate.
    + pose proof (V8 _ _ Hx) as Hp. unfold pok in Hp. rewrite Hpc in Hp. destruct Hp as (H0 & n & Hop & H). split; [exact H0|]. cbn [c_pc c_op c_from]. split; [exact H0|]. split; [lia|].
      rewrite Hop. exists r. split; [reflexivity|]. destruct r; [|exact H]. destruct H as (m & A & B). exists m. split; [exact A|]. split; [|exact B]. apply nth_error_Some. congruence.
    + rewrite Hpc. intros [H|[u H]]; [injection H as ->; right; eauto|discriminate].
Qed.
Lemma breach_inv s : breach uf c s -> binv s.
Proof.
  induction 1 as [|s s' _ IH Hs]; [|eapply bstep_inv; eassumption].
  constructor; cbn; try lia; try tauto.
  - unfold mem. cbn. unfold normal. cbn. rewrite Nat.sub_0_r. reflexivity.
  - intros i x H. destruct i; discriminate.
  - intros i [[]|H]; discriminate.
  - intros i x H. destruct i; discriminate.
  - constructor.
Qed.
End Inv.

(** C94: a bucket shared by any number of goroutines never panics and behaves as if each call took
    place at one moment between its start and its return: Add returns true iff it is the one that stored its
    node, which takes a place of its own; Add returns false only when the bucket is full; the
    other methods return what they mean for the nodes accepted at that moment. *)
Lemma C94_bucket_linearizable_pf : forall uf c s, breach uf c s ->
  length (b_acc s) <= c /\ NoDup (map fst (b_acc s)) /\
  (forall i n, In (i, n) (b_acc s) -> exists x, nth_error (b_calls s) i = Some x /\ c_op x = OAdd n) /\
  (forall i x, nth_error (b_calls s) i = Some x -> c_pc x <> BPanic) /\
  (forall i x upto r, nth_error (b_calls s) i = Some x -> c_pc x = BDone upto r -> as_if_atomic uf c (b_acc s) i (c_op x) (c_from x) upto r).
Proof.
  intros uf c s Hr. pose proof (breach_inv _ _ _ Hr) as [V1 V2 V3 V4 V5 V6 V7 V8 V9 V10].
  split; [exact V3|]. split; [exact V10|]. split; [|split].
  - intros i n Hin. destruct (V9 i n Hin) as (x & Hx & Hop & _). eauto.
  - intros i x Hx E. destruct (V8 _ _ Hx) as [_ H]. rewrite E in H. exact H.
  - intros i x u r Hx E. destruct (V8 _ _ Hx) as [_ H]. rewrite E in H. exact H.
Qed.

Lemma bstep_acc uf s s' : bstep uf s s' -> exists more, b_acc s' = b_acc s ++ more.
Proof. intros H; destruct H; cbn [goto with_lock b_acc]; try (exists []; symmetry; apply app_nil_r); eexists; reflexivity. Qed.
Lemma bsteps_acc uf s s' : bsteps uf s s' -> exists more, b_acc s' = b_acc s ++ more.
Proof.
  induction 1 as [s|s s1 s2 _ [m1 E1] H2]; [exists []; symmetry; apply app_nil_r|]. destruct (bstep_acc _ _ _ H2) as [m2 E2]. exists (m1 ++ m2). rewrite E2, E1, app_assoc. reflexivity.
Qed.
Lemma bsteps_reach uf c s s' : breach uf c s -> bsteps uf s s' -> breach uf c s'.
Proof. intros Hr Hs. induction Hs as [s|s s1 s2 _ IH H2]; [exact Hr|]. eapply br_step; [apply IH; exact Hr|exact H2]. Qed.
Lemma slots_prefix uf c s : breach uf c s -> forall k, k <= length (b_acc s) -> firstn k (b_slots s) = map Some (firstn k (map snd (b_acc s))).
Proof.
  intros Hr k Hk. pose proof (breach_inv _ _ _ Hr) as HI. pose proof (v_mem _ _ _ HI) as Hm. unfold mem in Hm.
  assert (Hgen : forall l rest, firstn k (map Some (map snd (b_acc s) ++ l) ++ rest) = map Some (firstn k (map snd (b_acc s))) :> list (option ninfo)).
  { intros l rest. rewrite firstn_app. replace (k - _) with 0 by (rewrite map_length, app_length, map_length; lia). rewrite firstn_O, app_nil_r. rewrite firstn_map, firstn_app.
    replace (k - length (map snd (b_acc s))) with 0 by (rewrite map_length; lia). rewrite firstn_O, app_nil_r. reflexivity. }
  assert (Hn : b_slots s = normal c (b_acc s) -> firstn k (b_slots s) = map Some (firstn k (map snd (b_acc s)))).
  { intros ->. unfold normal, nodes. rewrite <- (Hgen [] (repeat None (c - length (b_acc s)))), app_nil_r. reflexivity. }
  destruct (b_writer s) as [w|]; [|apply Hn; exact Hm]. destruct Hm as (x & _ & Hm). destruct (c_pc x); try (apply Hn; exact Hm).
  destruct Hm as (n & _ & ->). apply Hgen.
Qed.

(** C94: the slice returned by All stays valid: from then on and whatever is added, its elements are the
    first nodes the bucket accepted, as many as there were. *)
Lemma C94_all_stays_valid_pf : forall uf c s s' i x upto k, breach uf c s ->
  nth_error (b_calls s) i = Some x -> c_op x = OAll -> c_pc x = BDone upto (RView k) -> bsteps uf s s' ->
  c_from x <= k /\ k <= upto /\ firstn k (b_slots s') = map Some (firstn k (map snd (b_acc s))) /\ length (firstn k (b_slots s')) = k.
Proof.
  intros uf c s s' i x upto k Hr Hx Hop Hpc Hs.
  destruct (C94_bucket_linearizable_pf _ _ _ Hr) as (_ & _ & _ & _ & H). pose proof (H _ _ _ _ Hx Hpc) as (A & B & C). rewrite Hop in C. destruct C as (m & C1 & C2 & C3). cbn [meaning] in C3.
  injection C3 as ->. rewrite firstn_length, map_length. rewrite Nat.min_l by lia. split; [exact C1|]. split; [exact C2|].
  destruct (bsteps_acc _ _ _ Hs) as [more E]. assert (Hk : m <= length (b_acc s')) by (rewrite E, app_length; lia).
  rewrite (slots_prefix _ _ _ (bsteps_reach _ _ _ _ Hr Hs) m Hk). rewrite E, map_app, firstn_app. replace (m - _) with 0 by (rewrite map_length; lia). rewrite firstn_O, app_nil_r.
  split; [reflexivity|]. rewrite map_length, firstn_length, map_length. lia.
Qed.

(** C94: no deadlock: as long as a call has not returned, some step other than a new call is possible. *)
Lemma C94_bucket_progress_pf : forall uf c s i x, breach uf c s -> nth_error (b_calls s) i = Some x -> (forall u r, c_pc x <> BDone u r) ->
  exists s', bstep uf s s' /\ length (b_calls s') = length (b_calls s).
Proof.
  intros uf c s i x Hr Hx Hnd. pose proof (breach_inv _ _ _ Hr) as HI. pose proof HI as [V1 V2 V3 V4 V5 V6 V7 V8 V9 V10].
  assert (Hsplit : forall j y, nth_error (b_calls s) j = Some y -> exists l1 l2, b_calls s = l1 ++ y :: l2 /\ length l1 = j) by (intros; apply nth_error_split; assumption).
  assert (Hlen : forall s1 l1 (y : bcall) l2 pc, b_calls s = l1 ++ y :: l2 -> length (b_calls (goto s1 l1 y l2 pc)) = length (b_calls s)).
  { intros s1 l1 y l2 pc E. cbn [goto b_calls]. rewrite E, !app_length. reflexivity. }
  assert (Hreader : forall j y, nth_error (b_calls s) j = Some y -> reading (c_pc y) = true -> exists s', bstep uf s s' /\ length (b_calls s') = length (b_calls s)).
  { intros j y Hy Hread. destruct (Hsplit _ _ Hy) as (l1 & l2 & E & _). destruct (c_pc y) as [| | | | | | | |k seen|r| |] eqn:Ey; try discriminate.
    - eexists. split; [eapply bs_full; eassumption|eapply Hlen; exact E].
    - destruct (bread uf s (c_op y) k seen) as [[r|i' seen']|] eqn:Eb.
      + eexists. split; [eapply bs_read; eassumption|eapply Hlen; exact E].
      + eexists. split; [eapply bs_loop; eassumption|eapply Hlen; exact E].
      + eexists. split; [eapply bs_read_panic; eassumption|eapply Hlen; exact E].
    - eexists. split; [eapply bs_runlock; eassumption|eapply Hlen; exact E]. }
  assert (Hwriter : forall j y, nth_error (b_calls s) j = Some y -> writing (c_pc y) = true -> exists s', bstep uf s s' /\ length (b_calls s') = length (b_calls s)).
  { intros j y Hy Hread. destruct (Hsplit _ _ Hy) as (l1 & l2 & E & _). pose proof (V8 _ _ Hy) as [_ Hp].
    destruct (c_pc y) as [| | | | | | | |k seen|r| |] eqn:Ey; try discriminate.
    - eexists. split; [eapply bs_check; eassumption|eapply Hlen; exact E].
    - destruct Hp as [Ha _]. destruct (c_op y) as [n| | | | |] eqn:Eo; try discriminate. destruct (Nat.lt_ge_cases (b_size s) (length (b_slots s))).
      + eexists. split; [eapply bs_store; eassumption|]. cbn [goto b_calls]. rewrite E, !app_length. reflexivity.
      + eexists. split; [eapply bs_store_panic; eassumption|eapply Hlen; exact E].
    - destruct Hp as [Ha _]. destruct (c_op y) as [n| | | | |] eqn:Eo; try discriminate.
      eexists. split; [eapply bs_inc; eassumption|]. cbn [goto b_calls]. rewrite E, !app_length. reflexivity.
    - eexists. split; [eapply bs_unlock; eassumption|eapply Hlen; exact E]. }
  destruct (b_writer s) as [w|] eqn:Ew.
  { destruct (V7 w (or_intror eq_refl)) as (y & Hy). eapply Hwriter; [exact Hy|]. apply (V6 _ _ Hy). reflexivity. }
  destruct (b_readers s) as [|j js] eqn:Er.
  2:{ destruct (V7 j (or_introl (or_introl eq_refl))) as (y & Hy). eapply Hreader; [exact Hy|]. apply (V6 _ _ Hy). left. reflexivity. }
  destruct (Hsplit _ _ Hx) as (l1 & l2 & E & _). pose proof (V8 _ _ Hx) as [_ Hp]. destruct (c_pc x) as [| |f| | | | |r|k seen|r| |u r] eqn:Ey;
    try (eapply Hreader; [exact Hx|rewrite Ey; reflexivity]); try (eapply Hwriter; [exact Hx|rewrite Ey; reflexivity]).
  - eexists. split; [eapply bs_rlock; eassumption|eapply Hlen; exact E].
  - eexists. split; [eapply bs_full_done; eassumption|eapply Hlen; exact E].
  - eexists. split; [eapply bs_lock; eassumption|eapply Hlen; exact E].
  - elim Hp.
  - elim (Hnd u r eq_refl).
Qed.

(** C94, used by one goroutine (as under the lock of the routing table): after any calls of Add on a new
    bucket of capacity c, the first c nodes are stored, and Iterator calls its handler once for each of
    them and then with nil for each free place. *)
Definition bAdds (b : bucket) (ns : list ninfo) : bucket := fold_left (fun b n => fst (bAdd b n)) ns b.
Lemma C94_bucket_sequential_pf : forall uf c ns n, let b := bAdds (NewBucket c) ns in
  bAll b = firstn c ns /\ bSize b = Nat.min c (length ns) /\ (bFull b = true <-> c <= length ns) /\
  (snd (bAdd b n) = true <-> length ns < c) /\
  (bExist uf b n = true <-> exists x, In x (firstn c ns) /\ Equals uf x n = true) /\
  bIterator b = map Some (firstn c ns) ++ repeat None (c - length ns).
Proof.
  intros uf c ns n b.
  assert (Hb : forall l p, length p <= c -> bAdds {| bnodes := p; bcap := c |} l = {| bnodes := firstn c (p ++ l); bcap := c |}).
  { induction l as [|x l IH]; intros p Hp; cbn [bAdds fold_left].
    - rewrite app_nil_r, firstn_all2 by exact Hp. reflexivity.
    - unfold bAdd, bFull, bSize. cbn [bcap bnodes]. destruct (Nat.leb_spec c (length p)).
      + cbn [fst]. unfold bAdds in IH. rewrite IH by exact Hp. assert (length p = c) by lia. subst c. rewrite !firstn_app, !Nat.sub_diag, !firstn_O. reflexivity.
      + cbn [fst]. unfold bAdds in IH. rewrite IH by (rewrite app_length; cbn; lia). rewrite <- app_assoc. reflexivity. }
  assert (E : b = {| bnodes := firstn c ns; bcap := c |}) by (apply (Hb ns []); cbn; lia).
  rewrite E. unfold bAll, bSize, bFull, bExist, bIterator, bAdd, bFull, bSize. cbn [bnodes bcap]. rewrite firstn_length.
  split; [reflexivity|]. split; [reflexivity|]. split; [rewrite Nat.leb_le; lia|]. split.
  { destruct (Nat.leb_spec c (Nat.min c (length ns))); cbn [snd]; split; intros; try discriminate; try reflexivity; lia. }
  split; [rewrite existsb_exists; reflexivity|]. f_equal. f_equal. lia.
Qed.
Definition bk_node (p : Z) : ninfo := {| nid := B "aaaaaaaaaaaaaaaaaaaa"; naddr := mkaddr (B "1234") p |}.
Lemma C94_iterator_nil_example_pf : forall p, bIterator (bAdds (NewBucket 2) [bk_node p]) = [Some (bk_node p); None].
Proof. reflexivity. Qed.

Local Ltac fin := first [reflexivity|apply (le_n 1)|idtac].
(** Two Adds and an All on a bucket with one place, interleaved: the hypotheses above are met. *)
Definition bk_done (i : nat) (s : bstate) : option bpc := option_map c_pc (nth_error (b_calls s) i).
Lemma C94_example_pf : forall uf, exists s, breach uf 1 s /\ bk_done 0 s = Some (BDone 1 (RBool true)) /\ bk_done 1 s = Some (BDone 1 (RBool false)) /\
  bk_done 2 s = Some (BDone 1 (RView 1)) /\ b_slots s = [Some (bk_node 1)].
Proof.
  intros uf. pose proof (br_new uf 1) as H. cbv in H.
  eapply br_step in H; [|eapply (bs_call uf _ (OAdd (bk_node 1))); fin]; cbv in H. eapply br_step in H; [|eapply (bs_call uf _ (OAdd (bk_node 2))); fin]; cbv in H.
  eapply br_step in H; [|eapply (bs_rlock uf _ [] _ [_]); fin]; cbv in H.
  eapply br_step in H; [|eapply (bs_rlock uf _ [_] _ []); fin]; cbv in H.
  eapply br_step in H; [|eapply (bs_full uf _ [] _ [_]); fin]; cbv in H.
  eapply br_step in H; [|eapply (bs_full uf _ [_] _ []); fin]; cbv in H.
  eapply br_step in H; [|eapply (bs_full_done uf _ [] _ [_]); fin]; cbv in H.
  eapply br_step in H; [|eapply (bs_full_done uf _ [_] _ []); fin]; cbv in H.
  eapply br_step in H; [|eapply (bs_lock uf _ [] _ [_]); fin]; cbv in H.
  eapply br_step in H; [|eapply (bs_check uf _ [] _ [_]); fin]; cbv in H.
  eapply br_step in H; [|eapply (bs_store uf _ [] _ [_]); fin]; cbv in H.
  eapply br_step in H; [|eapply (bs_inc uf _ [] _ [_]); fin]; cbv in H.
  eapply br_step in H; [|eapply (bs_unlock uf _ [] _ [_]); fin]; cbv in H.
  eapply br_step in H; [|eapply (bs_call uf _ OAll); fin]; cbv in H.
  eapply br_step in H; [|eapply (bs_lock uf _ [_] _ [_]); fin]; cbv in H.
  eapply br_step in H; [|eapply (bs_check uf _ [_] _ [_]); fin]; cbv in H.
  eapply br_step in H; [|eapply (bs_unlock uf _ [_] _ [_]); fin]; cbv in H.
  eapply br_step in H; [|eapply (bs_rlock uf _ [_; _] _ []); fin]; cbv in H.
  eapply br_step in H; [|eapply (bs_read uf _ [_; _] _ []); fin]; cbv in H.
  eapply br_step in H; [|eapply (bs_runlock uf _ [_; _] _ []); fin]; cbv in H.
  eexists. split; [exact H|]. repeat split; reflexivity.
Qed.
