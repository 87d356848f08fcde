(** DhtProofs.v -- lemmas about Dht.v. *)
From Verif Require Import Base GoLib Bencode BencodeSpec BencodeProofs BencodePf Types TypesPf Node NodePf RouteTable RouteTableProofs RouteTablePf Middleware MiddlewarePf Krpc KrpcSpec KrpcProofs Dht DhtSpec.
Local Open Scope list_scope.

(** ** The length of an encoding does not depend on the iteration order *)
Definition sz (v : val) : nat := match encodeItem v with Ok s => length s | _ => 0 end.
Definition ksz (k : bytes) : nat := match EncodeString k with Ok s => length s | _ => 0 end.

Lemma items_sz l s : encode_items encodeItem l = Ok s -> length s = list_sum (map sz l).
Proof.
  revert s. induction l as [|x l IH]; intros s E.
  - injection E as <-. reflexivity.
  - rewrite encode_items_cons in E. destruct (encodeItem x) as [a|?|?] eqn:Ex; cbn [bind] in E; try discriminate.
    destruct (encode_items encodeItem l) as [b|?|?] eqn:El; cbn [bind] in E; try discriminate. injection E as <-.
    rewrite app_length, (IH b eq_refl). cbn [map list_sum fold_right]. unfold sz at 2. rewrite Ex. reflexivity.
Qed.
Lemma entries_sz l s : encode_entries encodeItem l = Ok s -> length s = list_sum (map (fun e => ksz (fst e) + sz (snd e)) l).
Proof.
  revert s. induction l as [|[k x] l IH]; intros s E.
  - injection E as <-. reflexivity.
  - rewrite encode_entries_cons in E. destruct (EncodeString k) as [kk|?|?] eqn:Ek; cbn [bind] in E; try discriminate.
    destruct (encodeItem x) as [a|?|?] eqn:Ex; cbn [bind] in E; try discriminate.
    destruct (encode_entries encodeItem l) as [b|?|?] eqn:El; cbn [bind] in E; try discriminate. injection E as <-.
    rewrite !app_length, (IH b eq_refl). cbn [map fst snd].
    match goal with |- context[list_sum (?a :: ?t)] => change (list_sum (a :: t)) with (a + list_sum t) end.
    assert (E1 : sz x = length a) by (unfold sz; rewrite Ex; reflexivity). assert (E2 : ksz k = length kk) by (unfold ksz; rewrite Ek; reflexivity). rewrite E1, E2. unfold EncodeString in Ek. injection Ek as <-. rewrite !app_length. cbn [length B list_ascii_of_string]. lia.
Qed.

Lemma list_sum_perm l l' : Permutation l l' -> list_sum l = list_sum l'.
Proof. induction 1; cbn [list_sum fold_right] in *; unfold list_sum in *; cbn [fold_right]; lia. Qed.

Lemma enc_in l b kx : encode_entries encodeItem l = Ok b -> In kx l -> exists a, encodeItem (snd kx) = Ok a.
Proof.
  revert b. induction l as [|[k x] l IH]; intros b E Hin; [destruct Hin|]. rewrite encode_entries_cons in E. unfold EncodeString in E. cbn [bind] in E.
  destruct (encodeItem x) as [ax|?|?] eqn:Ex; cbn [bind] in E; try discriminate.
  destruct (encode_entries encodeItem l) as [bl|?|?]; cbn [bind] in E; try discriminate.
  destruct Hin as [<-|Hin]; [exists ax; exact Ex|]. eapply IH; [reflexivity|exact Hin].
Qed.

Lemma veq_sz v : forall v' s s', veq v v' -> encodeItem v = Ok s -> encodeItem v' = Ok s' -> length s = length s'.
Proof.
  induction v as [z|k|l IH|d IH| | | |k] using val_ind'; intros v' s s' H E E'; inversion H as [| |l0 l' Hl E1 E2|d0 d' Hd E1 E2| | | |]; subst; try congruence.
  - cbn [encodeItem] in *. destruct (encode_items encodeItem l) as [b|?|?] eqn:Eb; cbn [bind] in E; try discriminate. injection E as <-.
    destruct (encode_items encodeItem l') as [b'|?|?] eqn:Eb'; cbn [bind] in E'; try discriminate. injection E' as <-.
    cbn [app length]. f_equal. rewrite !app_length. f_equal. clear H.
    revert l' b b' Hl Eb Eb'. induction IH as [|x l Hx _ IHl]; intros l' b b' Hl Eb Eb'; inversion Hl as [|? y ? l2 Hxy Hl2]; subst.
    + congruence.
    + rewrite encode_items_cons in Eb, Eb'. destruct (encodeItem x) as [a|?|?] eqn:Ex; cbn [bind] in Eb; try discriminate.
      destruct (encode_items encodeItem l) as [c|?|?] eqn:El; cbn [bind] in Eb; try discriminate. injection Eb as <-.
      destruct (encodeItem y) as [a'|?|?] eqn:Ey; cbn [bind] in Eb'; try discriminate.
      destruct (encode_items encodeItem l2) as [c'|?|?] eqn:El2; cbn [bind] in Eb'; try discriminate. injection Eb' as <-.
      rewrite !app_length. rewrite (Hx y a a' Hxy eq_refl Ey). f_equal. eapply IHl; eauto.
  - cbn [encodeItem] in *. destruct (encode_entries encodeItem d) as [b|?|?] eqn:Eb; cbn [bind] in E; try discriminate. injection E as <-.
    destruct (encode_entries encodeItem d') as [b'|?|?] eqn:Eb'; cbn [bind] in E'; try discriminate. injection E' as <-.
    cbn [app length]. f_equal. rewrite !app_length. f_equal.
    rewrite (entries_sz _ _ Eb), (entries_sz _ _ Eb'). inversion Hd as [? ? d'' Hp Hf]; subst.
    rewrite (list_sum_perm _ _ (Permutation_map _ Hp)). f_equal.
    assert (IH'' : forall kx, In kx d'' -> forall v' s s', veq (snd kx) v' -> encodeItem (snd kx) = Ok s -> encodeItem v' = Ok s' -> length s = length s').
    { intros kx Hin. rewrite Forall_forall in IH. apply IH. eapply Permutation_in; [symmetry; exact Hp|exact Hin]. }
    assert (Henc : forall kx, In kx d'' -> exists a, encodeItem (snd kx) = Ok a).
    { intros kx Hin. eapply enc_in; [exact Eb|]. eapply Permutation_in; [symmetry; exact Hp|exact Hin]. }
    assert (Henc' : forall kx, In kx d' -> exists a, encodeItem (snd kx) = Ok a).
    { intros kx Hin'. eapply enc_in; [exact Eb'|exact Hin']. }
    clear Hp Hd H Eb Eb' IH. induction Hf as [|[k x] [k' x'] l l' [Ek Hv] Hf IHf]; [reflexivity|]. cbn [map]. cbn [fst snd] in *. subst k'.
    f_equal.
    + f_equal. destruct (Henc (k, x)) as [a Ea]; [left; reflexivity|]. destruct (Henc' (k, x')) as [a' Ea']; [left; reflexivity|]. cbn [snd] in *.
      unfold sz. rewrite Ea, Ea'. apply (IH'' (k, x) (or_introl eq_refl) x' a a'); assumption.
    + apply IHf; [intros kx Hin; apply IH''; right; exact Hin|intros kx Hin; apply Henc; right; exact Hin|intros kx Hin; apply Henc'; right; exact Hin].
Qed.

Lemma encode_now_len {A H} e (He : env_ok e) (w : world A H) d s s' : EncodeDict (Some d) = Ok s -> encode_now e w d = Ok s' -> length s' = length s.
Proof.
  intros E E'. unfold encode_now in E'. symmetry. eapply (veq_sz (VDict d) (VDict (e_ord e (length (w_sent w)) d))).
  - constructor. apply He.
  - exact E.
  - exact E'.
Qed.

(** ** Programs whose actions all lie in a relation *)
Section Acts.
  Context {W R : Type}.
  Variable Rel : W -> W -> Prop.
  Hypothesis Rrefl : forall w, Rel w w.
  Hypothesis Rtrans : forall a b c, Rel a b -> Rel b c -> Rel a c.
  Inductive acts : prog W R -> Prop :=
  | ac_ret : acts PRet
  | ac_panic p : acts (PPanic p)
  | ac_act f k : (forall w, Rel w (f w)) -> acts k -> acts (PAct f k)
  | ac_look k : (forall w r, acts (k w r)) -> acts (PLook k)
  | ac_write r k : acts k -> acts (PWrite r k)
  | ac_next k : acts k -> acts (PNext k).
  Lemma exec_acts (next : ctx W R -> out W R) :
    (forall c c' o, next c = Some (c', o) -> Rel (c_world c) (c_world c')) ->
    forall p, acts p -> forall c c' o, exec next p c = Some (c', o) -> Rel (c_world c) (c_world c').
  Proof.
    intros Hn p Hp. induction Hp as [|p|f k Hf Hk IH|k Hk IH|r k Hk IH|k Hk IH]; intros c c' o E; cbn [exec] in E.
    - injection E as <- _. apply Rrefl.
    - injection E as <- _. apply Rrefl.
    - apply IH in E. cbn [c_world] in E. eapply Rtrans; [apply Hf|exact E].
    - eapply IH. exact E.
    - apply IH in E. exact E.
    - destruct (next c) as [[c2 [q|]]|] eqn:En; try discriminate.
      + injection E as <- _. eapply Hn. exact En.
      + eapply Rtrans; [eapply Hn; exact En|eapply IH; exact E].
  Qed.
  Lemma loop_acts (chain : list (prog W R)) : Forall acts chain -> forall f c c' o, loop f chain c = Some (c', o) -> Rel (c_world c) (c_world c').
  Proof.
    intros Hc. induction f as [|f IH]; intros c c' o E; cbn [loop] in E.
    - destruct (nth_error chain (c_index c - 1)); [discriminate|]. injection E as <- _. apply Rrefl.
    - destruct (nth_error chain (c_index c - 1)) as [h|] eqn:Eh; [|injection E as <- _; apply Rrefl].
      assert (Hh : acts h) by (rewrite Forall_forall in Hc; apply Hc; eapply nth_error_In; exact Eh).
      match type of E with match exec ?nx h ?c1 with _ => _ end = _ => destruct (exec nx h c1) as [[c2 o2]|] eqn:Ex; [|discriminate] end.
      apply exec_acts in Ex; [|intros x y z Hx; apply IH in Hx; exact Hx|exact Hh]. cbn [c_world] in Ex.
      destruct o2; [injection E as <- _; exact Ex|]. apply IH in E. eapply Rtrans; eassumption.
  Qed.
End Acts.
Lemma run_chain_acts {A H} (Rel : world A H -> world A H -> Prop) (Rrefl : forall w, Rel w w) (Rtrans : forall a b c, Rel a b -> Rel b c -> Rel a c)
  (chain : list (prog (world A H) response)) r0 w : Forall (acts Rel) chain -> Rel w (fst (run_chain chain r0 w)).
Proof.
  intros Hc. unfold run_chain, Middleware.Next.
  destruct (loop _ chain (incr (NewReqContext r0 w))) as [[c [p|]]|] eqn:E; cbn [fst];
    [apply loop_acts with (Rel := Rel) in E; assumption..|apply Rrefl].
Qed.

(** ** The crawler's server *)
Definition rset := [B "ping"; B "find_node"; B "get_peers"; B "announce_peer"].
Lemma run_server_ok e : exists s, Run_server e = Ok s /\
  s_router s (B "ping") = Some HPing /\ s_router s (B "find_node") = Some HFindNode /\ s_router s (B "get_peers") = Some HGetPeers /\
  s_router s (B "announce_peer") = Some HAnnounce /\ (forall q, ~ In q rset -> s_router s q = None) /\ s_reqchain s = [] /\ s_respchain s = [].
Proof.
  assert (Hr : forall (s0 : server hid) q h, In q rset -> RegisteHandler e s0 q (Some h) = Ok {| s_router := mput (s_router s0) q h; s_reqchain := s_reqchain s0; s_respchain := s_respchain s0 |}).
  { intros s0 q h Hin. unfold RegisteHandler. destruct (contains_supported (e_uf e) q) as [[-> _]|[_ Hn]]; [reflexivity|].
    elim Hn. exists q. split; [exact Hin|]. apply EqualFold_refl. }
  unfold Run_server. rewrite !Hr by (cbn; tauto). cbn [bind]. rewrite !Hr by (cbn; tauto). cbn [bind]. rewrite !Hr by (cbn; tauto). cbn [bind]. rewrite !Hr by (cbn; tauto).
  eexists. split; [reflexivity|]. cbn [s_router s_reqchain s_respchain]. repeat split.
  intros q Hn. unfold mput, rset in *. cbn [In] in Hn.
  destruct (beq q (B "announce_peer")) eqn:E1; [apply beq_eq in E1; subst; tauto|].
  destruct (beq q (B "get_peers")) eqn:E2; [apply beq_eq in E2; subst; tauto|].
  destruct (beq q (B "find_node")) eqn:E3; [apply beq_eq in E3; subst; tauto|].
  destruct (beq q (B "ping")) eqn:E4; [apply beq_eq in E4; subst; tauto|]. reflexivity.
Qed.
