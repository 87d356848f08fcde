(** MiddlewarePf.v -- proofs of C35-C37 (middleware dispatch). *)
From Verif Require Import Base Middleware.
Local Open Scope list_scope.

Section Gen.
  Context {W R : Type}.
  Variable chain : list (prog W R).
  Let L := length chain.
  Variable r0 : option R.

  (** Invariant inside a handler body. *)
  Definition body_inv (c : ctx W R) : Prop :=
    1 <= c_index c /\ c_started c = seq 0 (Nat.min (c_index c) L) /\ c_resp c = last (c_writes c) r0.
  Definition entry_inv (c : ctx W R) : Prop :=
    1 <= c_index c /\ c_started c = seq 0 (Nat.min (c_index c - 1) L) /\ c_resp c = last (c_writes c) r0.
  Definition post (c c' : ctx W R) (o : option gopanic) : Prop :=
    c_index c <= c_index c' /\ c_resp c' = last (c_writes c') r0 /\
    match o with
    | None => L < c_index c' /\ c_started c' = seq 0 L
    | Some _ => exists m, 1 <= m <= L /\ c_started c' = seq 0 m
    end.

  Lemma last_snoc {A} (l : list A) x d : last (l ++ [x]) d = x.
  Proof. induction l as [|a l IH]; [reflexivity|]. cbn [app]. destruct (l ++ [x]) eqn:E; [destruct l; discriminate|]. cbn [last] in *. exact IH. Qed.

  Lemma exec_ok i (next : ctx W R -> out W R) : 1 <= L ->
    (forall c, body_inv c -> i <= c_index c -> exists c' o, next c = Some (c', o) /\ post c c' o) ->
    forall p c, body_inv c -> i <= c_index c ->
      exists c' o, exec next p c = Some (c', o) /\ c_index c <= c_index c' /\
        match o with None => body_inv c' | Some _ => (exists m, 1 <= m <= L /\ c_started c' = seq 0 m) /\ c_resp c' = last (c_writes c') r0 end.
  Proof.
    intros HL Hnext. induction p as [|q|f k IH|k IH|r k IH|k IH]; intros c Hb Hi; cbn [exec].
    - exists c, None. auto.
    - exists c, (Some q). destruct Hb as (H1 & H2 & H3). repeat split; auto. exists (Nat.min (c_index c) L). split; [lia|exact H2].
    - destruct (IH {| c_index := c_index c; c_resp := c_resp c; c_world := f (c_world c); c_started := c_started c; c_writes := c_writes c |} Hb Hi) as (c' & o & E & H). eauto.
    - apply IH; assumption.
    - destruct Hb as (H1 & H2 & H3).
      destruct (IH {| c_index := c_index c; c_resp := r; c_world := c_world c; c_started := c_started c; c_writes := c_writes c ++ [r] |}) as (c' & o & E & H).
      + split; [exact H1|]. split; [exact H2|]. cbn [c_resp c_writes]. symmetry. apply last_snoc.
      + exact Hi.
      + exists c', o. auto.
    - destruct (Hnext c Hb Hi) as (c' & o & E & Hp1 & Hp2 & Hp3). rewrite E. destruct o as [q|].
      + exists c', (Some q). repeat split; auto.
      + destruct Hp3 as [Hlt Hst]. destruct (IH c') as (c2 & o2 & E2 & Hle & Hpost).
        * split; [lia|]. split; [|exact Hp2]. rewrite Hst. f_equal. lia.
        * lia.
        * exists c2, o2. split; [exact E2|]. split; [lia|exact Hpost].
  Qed.

  Lemma loop_ok f : forall c, entry_inv c -> S L - c_index c <= f ->
    exists c' o, loop f chain c = Some (c', o) /\ post c c' o.
  Proof.
    induction f as [|f IH]; intros c (H1 & H2 & H3) Hf; cbn [loop].
    - assert (Hn : nth_error chain (c_index c - 1) = None) by (apply nth_error_None; fold L; lia). rewrite Hn.
      exists c, None. split; [reflexivity|]. split; [lia|]. split; [exact H3|]. split; [lia|]. rewrite H2. f_equal. lia.
    - destruct (nth_error chain (c_index c - 1)) as [h|] eqn:Eh.
      + assert (Hpos : c_index c - 1 < L) by (apply nth_error_Some; congruence).
        set (c1 := {| c_index := c_index c; c_resp := c_resp c; c_world := c_world c; c_started := c_started c ++ [c_index c - 1]; c_writes := c_writes c |}).
        assert (Hb1 : body_inv c1).
        { split; [exact H1|]. split; [|exact H3]. cbn [c1 c_started c_index]. rewrite H2.
          replace (Nat.min (c_index c - 1) L) with (c_index c - 1) by lia. replace (Nat.min (c_index c) L) with (S (c_index c - 1)) by lia.
          rewrite seq_S. reflexivity. }
        destruct (exec_ok (c_index c) (fun c' => loop f chain (incr c')) ltac:(lia)) with (p := h) (c := c1) as (c2 & o & E & Hle & Hpost).
        { intros c' (B1 & B2 & B3) Hi'. destruct (IH (incr c')) as (c2 & o & E & P1 & P2 & P3).
          - split; [cbn; lia|]. cbn [incr c_index c_started c_resp c_writes]. split; [|exact B3]. rewrite B2. f_equal. lia.
          - cbn [incr c_index]. lia.
          - exists c2, o. split; [exact E|]. split; [cbn [incr c_index] in P1; lia|]. split; [exact P2|exact P3]. }
        { exact Hb1. } { cbn; lia. }
        rewrite E. cbn [c1 c_index] in Hle. destruct o as [q|].
        * exists c2, (Some q). split; [reflexivity|]. destruct Hpost as [Hm Hr]. split; [exact Hle|]. split; [exact Hr|exact Hm].
        * destruct Hpost as (B1 & B2 & B3). destruct (IH (incr c2)) as (c3 & o & E3 & P1 & P2 & P3).
          -- split; [cbn; lia|]. cbn [incr c_index c_started c_resp c_writes]. split; [|exact B3]. rewrite B2. f_equal. lia.
          -- cbn [incr c_index]. lia.
          -- exists c3, o. split; [exact E3|]. split; [cbn [incr c_index] in P1; lia|]. split; [exact P2|exact P3].
      + apply nth_error_None in Eh. fold L in Eh. exists c, None. split; [reflexivity|]. split; [lia|]. split; [exact H3|]. split; [lia|]. rewrite H2. f_equal. lia.
  Qed.
End Gen.

(** C35: whatever the handlers do, one dispatch terminates; if no handler panics, exactly
    the handlers 0, 1, ..., n-1 were invoked, once each and in this order; if one panics,
    the invoked handlers are a non-empty initial segment, once each and in order. *)
Lemma C35_each_once_in_order_pf : forall (W R : Type) (chain : list (prog W R)) (w : W),
  exists c o, dispatch chain w = Some (c, o) /\
    match o with
    | None => c_started c = seq 0 (length chain)
    | Some _ => exists m, 1 <= m <= length chain /\ c_started c = seq 0 m
    end.
Proof.
  intros W R chain w. unfold dispatch, Next.
  destruct (loop_ok chain None (S (length chain)) (incr (NewReqContext None w))) as (c & o & E & _ & _ & H).
  - split; [cbn; lia|]. split; reflexivity.
  - cbn. lia.
  - exists c, o. split; [exact E|]. destruct o; [exact H|]. destruct H as [_ H]. exact H.
Qed.

(** Specification for C36: straight-line programs (neither Next nor panic), their effect
    on (world, response), and the onion. *)
Fixpoint straight {W R} (p : prog W R) : Prop :=
  match p with
  | PRet => True | PPanic _ => False | PNext _ => False
  | PAct _ k => straight k | PWrite _ k => straight k
  | PLook k => forall w r, straight (k w r)
  end.
Fixpoint effect {W R} (p : prog W R) (s : W * option R) : W * option R :=
  match p with
  | PRet => s | PPanic _ => s | PNext _ => s
  | PAct f k => effect k (f (fst s), snd s)
  | PWrite r k => effect k (fst s, r)
  | PLook k => effect (k (fst s) (snd s)) s
  end.
Fixpoint andthen {W R} (p q : prog W R) : prog W R :=
  match p with
  | PRet => q | PPanic x => PPanic x | PNext k => PNext (andthen k q)
  | PAct f k => PAct f (andthen k q) | PWrite r k => PWrite r (andthen k q)
  | PLook k => PLook (fun w r => andthen (k w r) q)
  end.
(** A middleware that runs [pre], calls Next once, then runs [post]. *)
Definition around {W R} (m : prog W R * prog W R) : prog W R := andthen (fst m) (PNext (snd m)).
Fixpoint onion {W R} (ms : list (prog W R * prog W R)) (h : prog W R) (s : W * option R) : W * option R :=
  match ms with
  | [] => effect h s
  | m :: t => effect (snd m) (onion t h (effect (fst m) s))
  end.

Lemma exec_straight {W R} (next : ctx W R -> out W R) p : straight p -> forall c,
  exists c', exec next p c = Some (c', None) /\ (c_world c', c_resp c') = effect p (c_world c, c_resp c) /\ c_index c' = c_index c.
Proof.
  induction p as [|q|f k IH|k IH|r k IH|k IH]; cbn [straight exec effect]; intros H c; try contradiction.
  - exists c. auto.
  - destruct (IH H {| c_index := c_index c; c_resp := c_resp c; c_world := f (c_world c); c_started := c_started c; c_writes := c_writes c |}) as (c' & E & F & G). eauto.
  - cbn [fst snd]. apply IH. apply H.
  - destruct (IH H {| c_index := c_index c; c_resp := r; c_world := c_world c; c_started := c_started c; c_writes := c_writes c ++ [r] |}) as (c' & E & F & G). eauto.
Qed.

Lemma exec_andthen {W R} (next : ctx W R -> out W R) p q : straight p -> forall c,
  exists c', exec next (andthen p q) c = exec next q c' /\ (c_world c', c_resp c') = effect p (c_world c, c_resp c) /\ c_index c' = c_index c.
Proof.
  induction p as [|x|f k IH|k IH|r k IH|k IH]; cbn [straight andthen exec effect]; intros H c; try contradiction.
  - exists c. auto.
  - destruct (IH H {| c_index := c_index c; c_resp := c_resp c; c_world := f (c_world c); c_started := c_started c; c_writes := c_writes c |}) as (c' & E & F & G). eauto.
  - cbn [fst snd]. apply IH. apply H.
  - destruct (IH H {| c_index := c_index c; c_resp := r; c_world := c_world c; c_started := c_started c; c_writes := c_writes c ++ [r] |}) as (c' & E & F & G). eauto.
Qed.

Lemma onion_loop {W R} (all : list (prog W R)) h : straight h -> forall ms f (c : ctx W R),
  Forall (fun m => straight (fst m) /\ straight (snd m)) ms ->
  1 <= c_index c -> skipn (c_index c - 1) all = map around ms ++ [h] -> S (length ms) <= f ->
  exists c', loop f all c = Some (c', None) /\ (c_world c', c_resp c') = onion ms h (c_world c, c_resp c) /\ length all < c_index c'.
Proof.
  intros Hh. induction ms as [|m ms IH]; intros f c Hms Hi Hs Hf; (destruct f as [|f]; [cbn in Hf; lia|]); cbn [loop].
  - assert (Hn : nth_error all (c_index c - 1) = Some h).
    { rewrite <- (firstn_skipn (c_index c - 1) all), Hs. rewrite nth_error_app2; rewrite firstn_length.
      - assert (Hlen : length (skipn (c_index c - 1) all) = 1) by (rewrite Hs; reflexivity). rewrite skipn_length in Hlen.
        replace (c_index c - 1 - Nat.min (c_index c - 1) (length all)) with 0 by lia. reflexivity.
      - lia. }
    assert (Hlen : length (skipn (c_index c - 1) all) = 1) by (rewrite Hs; reflexivity). rewrite skipn_length in Hlen.
    rewrite Hn.
    match goal with |- context[exec ?nx h ?c1] => destruct (exec_straight nx h Hh c1) as (c2 & E & F & G) end. rewrite E.
    cbn [c_index c_world c_resp] in F, G.
    assert (Hend : nth_error all (c_index (incr c2) - 1) = None) by (apply nth_error_None; cbn [incr c_index]; lia).
    exists (incr c2). destruct f as [|f]; cbn [loop]; rewrite Hend; (split; [reflexivity|]); (split; [exact F|cbn [incr c_index]; lia]).
  - assert (Hsk : skipn (c_index c - 1) all = around m :: (map around ms ++ [h])) by exact Hs.
    assert (Hlen : c_index c - 1 < length all).
    { destruct (le_lt_dec (length all) (c_index c - 1)) as [Hle|]; [|assumption]. rewrite skipn_all2 in Hsk by exact Hle. discriminate. }
    assert (Hn : nth_error all (c_index c - 1) = Some (around m)).
    { rewrite <- (firstn_skipn (c_index c - 1) all), Hsk. rewrite nth_error_app2; rewrite firstn_length; [|lia].
      replace (c_index c - 1 - Nat.min (c_index c - 1) (length all)) with 0 by lia. reflexivity. }
    rewrite Hn. inversion Hms as [|? ? [Hpre Hpost] Hms']; subst. unfold around at 1.
    match goal with |- context[exec ?nx (andthen (fst m) ?q) ?c1] => destruct (exec_andthen nx (fst m) q Hpre c1) as (c2 & E & F & G) end. rewrite E.
    cbn [c_index c_world c_resp] in F, G. cbn [exec].
    destruct (IH f (incr c2) Hms') as (c3 & E3 & F3 & G3).
    + cbn; lia.
    + cbn [incr c_index]. rewrite G. replace (S (c_index c) - 1) with (S (c_index c - 1)) by lia.
      change (S (c_index c - 1)) with (1 + (c_index c - 1)).
      assert (Hsk1 : forall (l : list (prog W R)) n a t, skipn n l = a :: t -> skipn (S n) l = t).
      { clear. induction l as [|x l IHl]; intros n a t Hx; [rewrite skipn_nil in Hx; discriminate|]. destruct n as [|n]; cbn [skipn] in *; [congruence|eapply IHl; exact Hx]. }
      eapply Hsk1. exact Hsk.
    + cbn [length] in Hf. lia.
    + rewrite E3. match goal with |- context[exec ?nx (snd m) c3] => destruct (exec_straight nx (snd m) Hpost c3) as (c4 & E4 & F4 & G4) end. rewrite E4.
      assert (Hend : nth_error all (c_index (incr c4) - 1) = None) by (apply nth_error_None; cbn [incr c_index]; lia).
      exists (incr c4). split; [destruct f as [|f]; cbn [loop]; rewrite Hend; reflexivity|]. split; [|cbn [incr c_index]; lia].
      cbn [incr c_world c_resp onion]. rewrite F4, F3. cbn [incr c_world c_resp]. rewrite F. reflexivity.
Qed.

(** C36: if every middleware runs some code, calls Next once and runs some code, around a
    handler that does not call Next, the effect on the world and the response is that of
    the nested code: before-parts in registration order, the handler, after-parts in
    reverse order. *)
Lemma C36_onion_pf : forall (W R : Type) (ms : list (prog W R * prog W R)) (h : prog W R) (w : W),
  Forall (fun m => straight (fst m) /\ straight (snd m)) ms -> straight h ->
  exists c, dispatch (map around ms ++ [h]) w = Some (c, None) /\ (c_world c, c_resp c) = onion ms h (w, None).
Proof.
  intros W R ms h w Hms Hh. unfold dispatch, Next.
  destruct (onion_loop (map around ms ++ [h]) h Hh ms (S (length (map around ms ++ [h]))) (incr (NewReqContext None w)) Hms) as (c & E & F & _).
  - cbn. lia.
  - reflexivity.
  - rewrite app_length, map_length. cbn. lia.
  - exists c. split; [exact E|exact F].
Qed.

(** C37: the response left in the context after a dispatch is the one most recently passed
    to WriteAs by any handler of the chain, or nil if there was no WriteAs.  (Writes are
    recorded in order by the ghost list.) *)
Lemma C37_last_write_wins_pf : forall (W R : Type) (chain : list (prog W R)) (w : W) c o,
  dispatch chain w = Some (c, o) -> c_resp c = last (c_writes c) None.
Proof.
  intros W R chain w c o E. unfold dispatch, Next in E.
  destruct (loop_ok chain None (S (length chain)) (incr (NewReqContext None w))) as (c2 & o2 & E2 & _ & H & _).
  - split; [cbn; lia|]. split; reflexivity.
  - cbn. lia.
  - congruence.
Qed.

(** Examples (dht/krpc/middleware_test.go style): a middleware that does not call Next does
    not stop the chain, one that calls it twice runs the rest once, one writing after Next
    overrides the handler. *)
Lemma C35_example_pf :
  dispatch [PRet; PNext (PNext PRet); PAct (fun w => w ++ [1]) PRet] [] =
    Some ({| c_index := 6; c_resp := None; c_world := [1]; c_started := [0; 1; 2]; c_writes := [] |} : ctx (list nat) nat, None).
Proof. vm_compute. reflexivity. Qed.
Lemma C37_example_pf : exists c : ctx nat nat, dispatch [PNext (PWrite (Some 7) PRet); PWrite (Some 5) PRet] 0 = Some (c, None) /\
  c_resp c = Some 7 /\ c_writes c = [Some 5; Some 7].
Proof. eexists. split; [vm_compute; reflexivity|]. split; reflexivity. Qed.
Lemma C36_example_pf : exists c : ctx (list nat) nat,
  dispatch (map around [(PAct (fun w => w ++ [1]) PRet, PAct (fun w => w ++ [2]) PRet); (PAct (fun w => w ++ [3]) PRet, PWrite (Some 9) PRet)] ++ [PAct (fun w => w ++ [4]) PRet]) [] = Some (c, None) /\
  c_world c = [1; 3; 4; 2] /\ c_resp c = Some 9.
Proof. eexists. split; [vm_compute; reflexivity|]. split; reflexivity. Qed.
