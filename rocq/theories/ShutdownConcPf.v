(** ShutdownConcPf.v -- proofs of C121 (the shutdown API used by several goroutines). *)
From Verif Require Import Base WorkPool Shutdown ShutdownPf ShutdownConc.
Local Open Scope list_scope.

(** ** Slices *)
Definition below (h hn : hdr) : Prop := h_arr h = h_arr hn -> h_len h <= h_len hn.

Lemma contents_len s h : length (contents s h) = h_len h.
Proof. unfold contents. rewrite map_length, seq_length. reflexivity. Qed.
Lemma put_other m a i fs h : (h_arr h = a -> h_len h <= i) -> map (put_at m a i fs (h_arr h)) (seq 0 (h_len h)) = map (m (h_arr h)) (seq 0 (h_len h)).
Proof.
  intros H. apply map_ext_in. intros j Hj. apply in_seq in Hj. unfold put_at.
  destruct (Nat.eqb_spec (h_arr h) a) as [E|E]; [|reflexivity]. specialize (H E). destruct (Nat.leb_spec i j); [lia|reflexivity].
Qed.
Lemma put_here m a i fs : map (put_at m a i fs a) (seq 0 (i + length fs)) = map (m a) (seq 0 i) ++ fs.
Proof.
  rewrite seq_app, map_app. f_equal.
  - apply map_ext_in. intros j Hj. apply in_seq in Hj. unfold put_at. rewrite Nat.eqb_refl. destruct (Nat.leb_spec i j); [lia|reflexivity].
  - cbn [plus]. assert (G : forall fs' k, map (fun j => nth (j - k) fs' 0) (seq k (length fs')) = fs').
    { induction fs' as [|f t IH]; intros k; [reflexivity|]. cbn [length seq map]. rewrite Nat.sub_diag. cbn [nth]. f_equal.
      transitivity (map (fun j => nth (j - S k) t 0) (seq (S k) (length t))); [|apply IH]. apply map_ext_in. intros j Hj. apply in_seq in Hj. replace (j - k) with (S (j - S k)) by lia. reflexivity. }
    transitivity (map (fun j => nth (j - i) fs 0) (seq i (length fs))); [|apply G]. apply map_ext_in. intros j Hj. apply in_seq in Hj. unfold put_at. rewrite Nat.eqb_refl.
    destruct (Nat.leb_spec i j); [|lia]. destruct (Nat.ltb_spec j (i + length fs)); [reflexivity|lia].
Qed.

(** ** The invariant *)
Definition pending (s : sx) (hn : hdr) : Prop := exists fs, In (RgStore fs hn) (x_regs s).
Definition left_of (q : wait) : list nat :=
  match q_run q with LpAdd | LpRange => q_before q | LpLoop _ i => skipn i (q_before q) | _ => [] end.

Record qown (q : wait) : Prop := {
  qo_calls : Permutation (q_before q) (q_calls q ++ names (q_gos q) is_start ++ left_of q);
  qo_ended : Permutation (q_calls q) (q_ended q ++ names (q_gos q) is_run);
  qo_wg : match q_run q with LpIdle | LpAdd => q_gos q = [] /\ q_wg q = 0 | _ => q_wg q = length (q_gos q) + length (left_of q) end;
  qo_done : match q_run q with LpSend | LpGone => q_gos q = [] | _ => True end }.

Definition qpc_ok (q : wait) : Prop :=
  match q_pc q with
  | WEnter | WSel _ | WGot | WPanicked => q = wset_pc wait0 (q_pc q) LpIdle
  | WWoken true | WReturned true => q_run q = LpGone
  | _ => q_run q <> LpIdle
  end.

Record qinv (s : sx) (q : wait) : Prop := {
  qi_pc : qpc_ok q;
  qi_own : q_late q = false -> qown q;
  qi_pre : exists later, x_registered s = q_before q ++ later;
  qi_cur : q_late q = false -> match q_run q with LpAdd | LpRange => x_registered s = q_before q | _ => True end;
  qi_loop : forall h i, q_run q = LpLoop h i -> h_arr h < x_next s /\ below h (x_hdr s) /\ (forall hn, pending s hn -> below h hn) /\ i <= h_len h /\
    (q_late q = false -> contents s h = q_before q) }.

Record xinv (s : sx) : Prop := {
  xi_hdr : contents s (x_hdr s) = x_registered s;
  xi_arr : h_arr (x_hdr s) < x_next s;
  xi_reg : match x_regs s with
           | [] | [RgRead _] => True
           | [RgApp fs h] => h = x_hdr s
           | [RgStore fs h] => contents s h = x_registered s ++ fs /\ h_arr h < x_next s /\ below (x_hdr s) h
           | _ => False
           end;
  xi_q : forall q, In q (x_waits s) -> qinv s q }.

(** qinv depends only on some parts of the state. *)
Lemma qinv_frame s s' q : x_arr s' = x_arr s -> x_next s' = x_next s -> x_hdr s' = x_hdr s -> x_registered s' = x_registered s ->
  (forall hn, pending s' hn -> pending s hn) -> qinv s q -> qinv s' q.
Proof.
  intros E1 E2 E3 E4 Hp []. constructor; try assumption.
  - rewrite E4. assumption.
  - rewrite E4. assumption.
  - intros h i E. destruct (qi_loop0 h i E) as (A & B0 & C & D & F). rewrite E2, E3. split; [exact A|]. split; [exact B0|]. split; [auto|]. split; [exact D|].
    unfold contents in *. rewrite E1. exact F.
Qed.

Lemma skipn_cons_nth (l : list nat) i d : i < length l -> skipn i l = nth i l d :: skipn (S i) l.
Proof. revert l. induction i as [|i IH]; intros [|x l] H; cbn in H; try lia; [reflexivity|]. cbn [skipn nth]. apply IH. lia. Qed.
Lemma contents_nth s h i : i < h_len h -> nth i (contents s h) 0 = x_arr s (h_arr h) i.
Proof.
  intros H. unfold contents. rewrite (nth_indep _ 0 (x_arr s (h_arr h) 0)); [|rewrite map_length, seq_length; exact H].
  rewrite map_nth, seq_nth; [reflexivity|exact H].
Qed.

Lemma own_step s q q' : xinv s -> qinv s q -> q_step s q q' -> qinv s q'.
Proof.
  intros Hx [] Hs.
  destruct Hs as [Ep|c Ep Hd Hc|c Ep Hd Hc|Ep|Ep Er|Er|Er|h i Er Hi|h Er|Er Ew|l1 f l2 Eg|l1 f l2 Eg|l1 f l2 n Eg Ew].
  - unfold qpc_ok in *. rewrite Ep in *. rewrite qi_pc0 in *. constructor; cbn in *; try assumption; try reflexivity; try discriminate. intros _. constructor; cbn; auto.
  - unfold qpc_ok in *. rewrite Ep in *. rewrite qi_pc0 in *. constructor; cbn in *; try assumption; try reflexivity; try discriminate. intros _. constructor; cbn; auto.
  - unfold qpc_ok in *. rewrite Ep in *. rewrite qi_pc0 in *. constructor; cbn in *; try assumption; try reflexivity; try discriminate. intros _. constructor; cbn; auto.
  - unfold qpc_ok in *. rewrite Ep in *. constructor; cbn in *; try assumption. intros L. destruct (qi_own0 L). constructor; assumption.
  - unfold qpc_ok in *. rewrite Ep in *. constructor; cbn in *; try assumption; try discriminate; try reflexivity; try (intros _; exact I).
    intros L. destruct (qi_own0 L). unfold left_of in *. rewrite Er in *. constructor; cbn; unfold left_of; cbn; assumption.
  - constructor; cbn; try assumption; try discriminate.
    + unfold qpc_ok in *. cbn. destruct (q_pc q) as [| | | |[]|[]|]; try discriminate; try congruence; rewrite qi_pc0 in Er; discriminate.
    + intros L. destruct (qi_own0 L). specialize (qi_cur0 L). unfold left_of in *. rewrite Er in *. constructor; cbn; unfold left_of; cbn; try assumption; try exact I.
      destruct qo_wg0 as [-> ->]. cbn. rewrite <- qi_cur0, <- (xi_hdr s Hx), contents_len. reflexivity.
    + intros L. specialize (qi_cur0 L). rewrite Er in qi_cur0. exact qi_cur0.
  - constructor; cbn; try assumption; try (intros _; exact I).
    + unfold qpc_ok in *. cbn. destruct (q_pc q) as [| | | |[]|[]|]; try discriminate; try congruence; rewrite qi_pc0 in Er; discriminate.
    + intros L. destruct (qi_own0 L). unfold left_of in *. rewrite Er in *. constructor; cbn; unfold left_of; cbn; try assumption; try exact I.
    + intros h i E. injection E as <- <-. split; [apply xi_arr; exact Hx|]. split; [intros _; lia|]. split.
      * intros hn [fs Hin]. pose proof (xi_reg s Hx) as Hr. destruct (x_regs s) as [|[fs0|fs0 h0|fs0 h0] [|? ?]]; try contradiction; destruct Hin as [E|[]]; try discriminate E.
        injection E as -> ->. apply Hr.
      * split; [lia|]. intros L. specialize (qi_cur0 L). rewrite Er in qi_cur0. rewrite <- qi_cur0. apply (xi_hdr s Hx).
  - destruct (qi_loop0 h i Er) as (A & B0 & C & D & F). constructor; cbn; try assumption; try (intros _; exact I).
    + unfold qpc_ok in *. cbn. destruct (q_pc q) as [| | | |[]|[]|]; try discriminate; try congruence; rewrite qi_pc0 in Er; discriminate.
    + intros L. destruct (qi_own0 L). specialize (F L). unfold left_of in *. rewrite Er in *.
      assert (Es : skipn i (q_before q) = x_arr s (h_arr h) i :: skipn (S i) (q_before q)).
      { rewrite (skipn_cons_nth (q_before q) i 0) by (rewrite <- F, contents_len; exact Hi). rewrite <- F at 1. rewrite contents_nth by exact Hi. reflexivity. }
      rewrite Es in *. constructor; unfold left_of; cbn [q_run wset_go q_before q_calls q_gos q_ended q_wg]; try assumption; try exact I.
      * rewrite names_app, names_cons. cbn [is_start app]. rewrite <- app_assoc. exact qo_calls0.
      * rewrite names_app, names_cons. cbn [is_run app]. rewrite app_nil_r. exact qo_ended0.
      * rewrite app_length. cbn [length] in *. lia.
    + intros h0 i0 E. injection E as <- <-. split; [exact A|]. split; [exact B0|]. split; [exact C|]. split; [lia|exact F].
  - destruct (qi_loop0 h (h_len h) Er) as (A & B0 & C & D & F). constructor; cbn; try assumption; try discriminate; try (intros _; exact I).
    + unfold qpc_ok in *. cbn. destruct (q_pc q) as [| | | |[]|[]|]; try discriminate; try congruence; rewrite qi_pc0 in Er; discriminate.
    + intros L. destruct (qi_own0 L). specialize (F L). unfold left_of in *. rewrite Er in *.
      assert (Es : skipn (h_len h) (q_before q) = []) by (apply skipn_all2; rewrite <- F, contents_len; lia). rewrite Es in *.
      constructor; cbn; unfold left_of; cbn; try assumption; exact I.
  - constructor; cbn; try assumption; try discriminate; try (intros _; exact I).
    + unfold qpc_ok in *. cbn. destruct (q_pc q) as [| | | |[]|[]|]; try discriminate; try congruence; rewrite qi_pc0 in Er; discriminate.
    + intros L. destruct (qi_own0 L). unfold left_of in *. rewrite Er in *. constructor; cbn; unfold left_of; cbn; try assumption.
      cbn [length] in qo_wg0. destruct (q_gos q); [reflexivity|cbn [length] in qo_wg0; lia].
  - constructor; cbn; try assumption.
    + unfold qpc_ok in *. cbn. destruct (q_pc q) as [| | | |[]|[]|]; try assumption; rewrite qi_pc0 in Eg; destruct l1; discriminate.
    + intros L. destruct (qi_own0 L). unfold left_of in *. rewrite Eg in *. constructor; cbn; unfold left_of; cbn [q_run wset_go q_before q_calls q_gos q_ended q_wg]; try assumption.
      * rewrite names_app, names_cons in *. cbn [is_start app] in *. rewrite <- !app_assoc in *. cbn [app] in *.
        eapply Permutation_trans; [exact qo_calls0|]. apply Permutation_app_head. apply Permutation_sym, Permutation_middle.
      * rewrite names_app, names_cons in *. cbn [is_run app] in *.
        eapply Permutation_trans; [apply Permutation_sym, Permutation_cons_append|].
        rewrite app_assoc. apply Permutation_cons_app. rewrite <- app_assoc. exact qo_ended0.
      * destruct (q_run q); cbn [length] in *; try (exfalso; destruct l1; destruct qo_wg0; discriminate); rewrite !app_length in *; cbn [length] in *; exact qo_wg0.
      * destruct (q_run q); try exact I; destruct l1; discriminate.
  - constructor; cbn; try assumption.
    + unfold qpc_ok in *. cbn. destruct (q_pc q) as [| | | |[]|[]|]; try assumption; rewrite qi_pc0 in Eg; destruct l1; discriminate.
    + intros L. destruct (qi_own0 L). unfold left_of in *. rewrite Eg in *. constructor; cbn; unfold left_of; cbn [q_run wset_go q_before q_calls q_gos q_ended q_wg]; try assumption.
      * rewrite names_app, names_cons in *. cbn [is_start app] in *. exact qo_calls0.
      * rewrite names_app, names_cons in *. cbn [is_run app] in *.
        eapply Permutation_trans; [exact qo_ended0|]. rewrite <- app_assoc. apply Permutation_app_head. cbn [app]. apply Permutation_sym, Permutation_middle.
      * destruct (q_run q); cbn [length] in *; try (exfalso; destruct l1; destruct qo_wg0; discriminate); rewrite !app_length in *; cbn [length] in *; exact qo_wg0.
      * destruct (q_run q); try exact I; destruct l1; discriminate.
  - constructor; cbn; try assumption.
    + unfold qpc_ok in *. cbn. destruct (q_pc q) as [| | | |[]|[]|]; try assumption; rewrite qi_pc0 in Eg; destruct l1; discriminate.
    + intros L. destruct (qi_own0 L). unfold left_of in *. rewrite Eg in *. constructor; cbn; unfold left_of; cbn [q_run wset_go q_before q_calls q_gos q_ended q_wg]; try assumption.
      * rewrite names_app, names_cons in *. cbn [is_start app] in *. exact qo_calls0.
      * rewrite names_app, names_cons in *. cbn [is_run app] in *. exact qo_ended0.
      * destruct (q_run q); cbn [length] in *; try (exfalso; destruct l1; destruct qo_wg0; discriminate); rewrite !app_length in *; cbn [length] in *; lia.
      * destruct (q_run q); try exact I; destruct l1; discriminate.
Qed.

Lemma one_reg (l1 : list regpc) r l2 : length (l1 ++ r :: l2) <= 1 -> l1 = [] /\ l2 = [].
Proof. rewrite app_length. cbn [length]. destruct l1; cbn; [|lia]. destruct l2; cbn; [auto|lia]. Qed.

Lemma replaced s l1 q l2 q' : xinv s -> x_waits s = l1 ++ q :: l2 -> (qinv s q -> qinv s q') -> forall x, In x (l1 ++ q' :: l2) -> qinv s x.
Proof.
  intros Hx E Hq x Hin. apply in_app_or in Hin as [H|[<-|H]].
  - apply (xi_q s Hx). rewrite E. apply in_or_app. left. exact H.
  - apply Hq. apply (xi_q s Hx). rewrite E. apply in_or_app. right. left. reflexivity.
  - apply (xi_q s Hx). rewrite E. apply in_or_app. right. right. exact H.
Qed.

Lemma xinv_waits s ws st sg tk : xinv s -> (forall x, In x ws -> qinv s x) -> xinv (set_waits s ws st sg tk).
Proof.
  intros [] H. constructor; cbn; try assumption. intros q Hq. apply (qinv_frame s); try reflexivity; [|apply H; exact Hq]. intros hn Hp. exact Hp.
Qed.

Lemma xinv_step s s' : xinv s -> length (x_regs s) <= 1 -> x_step s s' -> length (x_regs s') <= 1 -> xinv s'.
Proof.
  intros Hx H1 Hs H2. pose proof Hx as [].
  destruct Hs as [fs Hd|l1 fs l2 Hd E|l1 fs h l2 Hd E Hc|l1 fs h l2 cap Hd E Hc Hc2|l1 fs h l2 Hd E|c Hd|c Hd Hn|Hd|Hd|l1 q q' l2 Hd E Hq|l1 q l2 c Hd E Hp Hsg|l1 q l2 Hd E Hp|l1 q l2 b Hd E Hp|l1 q l2 g1 f g2 Hd E Eg|l1 q l2 g1 f g2 Hd E Eg Ew].
  - cbn in H2. rewrite app_length in H2. cbn in H2. assert (En : x_regs s = []) by (destruct (x_regs s); [reflexivity|cbn in H2; lia]).
    constructor; cbn; rewrite ?En; try assumption; try exact I. intros q Hq. apply (qinv_frame s); try reflexivity; [|apply xi_q0; exact Hq].
    intros hn [fs' Hin]. cbn in Hin. rewrite ?En in Hin. destruct Hin as [F|[]]. discriminate.
  - cbn in H2. apply one_reg in H2 as [-> ->]. constructor; cbn; try assumption; try reflexivity. intros q Hq. apply (qinv_frame s); try reflexivity; [|apply xi_q0; exact Hq].
    intros hn [fs' Hin]. cbn in Hin. destruct Hin as [F|[]]. discriminate.
  - cbn in H2. apply one_reg in H2 as [-> ->]. cbn [app] in E. rewrite E in xi_reg0. subst h.
    assert (Hk : forall h', h_arr h' < x_next s -> below h' (x_hdr s) -> contents (set_regs s (put_at (x_arr s) (h_arr (x_hdr s)) (h_len (x_hdr s)) fs) (x_next s) ([] ++ [RgStore fs {| h_arr := h_arr (x_hdr s); h_len := h_len (x_hdr s) + length fs; h_cap := h_cap (x_hdr s) |}])) h' = contents s h').
    { intros h' _ Hb. unfold contents. cbn. apply put_other. exact Hb. }
    constructor.
    + rewrite Hk; [exact xi_hdr0|exact xi_arr0|intros _; apply Nat.le_refl].
    + exact xi_arr0.
    + cbn [app set_regs x_regs x_registered x_next x_hdr]. split; [|split; [exact xi_arr0|intros _; cbn; lia]]. unfold contents at 1. cbn [h_arr h_len x_arr set_regs]. rewrite put_here. fold (contents s (x_hdr s)). rewrite xi_hdr0. reflexivity.
    + intros q Hq. destruct (xi_q0 q Hq). constructor; try assumption. intros h i Er. destruct (qi_loop0 h i Er) as (A & B0 & C & D & F).
      split; [exact A|]. split; [exact B0|]. split.
      * intros hn [fs' Hin]. destruct Hin as [F'|[]]. injection F' as <- <-. intros Ea. cbn in Ea |- *. specialize (B0 Ea). lia.
      * split; [exact D|]. intros L. rewrite Hk; auto.
  - cbn in H2. apply one_reg in H2 as [-> ->]. cbn [app] in E. rewrite E in xi_reg0. subst h.
    assert (Hk : forall h', h_arr h' < x_next s -> contents (set_regs s (put_at (x_arr s) (x_next s) 0 (contents s (x_hdr s) ++ fs)) (S (x_next s)) ([] ++ [RgStore fs {| h_arr := x_next s; h_len := h_len (x_hdr s) + length fs; h_cap := cap |}])) h' = contents s h').
    { intros h' Hl. unfold contents at 1. cbn. apply put_other. lia. }
    constructor.
    + rewrite Hk; [exact xi_hdr0|exact xi_arr0].
    + cbn. lia.
    + cbn [app set_regs x_regs x_registered x_next x_hdr]. split; [|split; [cbn; lia|intros F; cbn in F; lia]]. unfold contents at 1. cbn [h_arr h_len x_arr set_regs].
      replace (h_len (x_hdr s) + length fs) with (0 + length (contents s (x_hdr s) ++ fs)) by (rewrite app_length, contents_len; lia).
      rewrite put_here. cbn [seq map app]. rewrite xi_hdr0. reflexivity.
    + intros q Hq. destruct (xi_q0 q Hq). constructor; try assumption. intros h i Er. destruct (qi_loop0 h i Er) as (A & B0 & C & D & F).
      split; [cbn; lia|]. split; [exact B0|]. split.
      * intros hn [fs' Hin]. destruct Hin as [F'|[]]. injection F' as <- <-. intros Ea. cbn in Ea. lia.
      * split; [exact D|]. intros L. rewrite Hk; auto.
  - rewrite E in H1. apply one_reg in H1 as [-> ->]. cbn [app] in *. rewrite E in xi_reg0. destruct xi_reg0 as (R1 & R2 & R3).
    constructor; cbn; try assumption; try exact I.
    intros q' Hq'. apply in_map_iff in Hq' as (q & <- & Hq). destruct (xi_q0 q Hq). constructor; cbn.
    + unfold qpc_ok in *. cbn. destruct (q_pc q) as [| | | |[]|[]|]; try assumption; rewrite qi_pc0; reflexivity.
    + intros L. apply orb_false_iff in L as [L _]. destruct (qi_own0 L). constructor; assumption.
    + destruct qi_pre0 as [later ->]. exists (later ++ fs). rewrite app_assoc. reflexivity.
    + intros L. apply orb_false_iff in L as [_ L]. destruct (q_run q); try exact I; discriminate.
    + intros h0 i Er. destruct (qi_loop0 h0 i Er) as (A & B0 & C & D & F). split; [exact A|]. split; [apply C; exists fs; rewrite E; left; reflexivity|].
      split; [intros hn [fs' []]|]. split; [exact D|]. intros L. apply orb_false_iff in L as [L _]. exact (F L).
  - constructor; cbn; try assumption. intros q Hq. apply (qinv_frame s); try reflexivity; [|apply xi_q0; exact Hq]. intros hn Hp. exact Hp.
  - constructor; cbn; try assumption. intros q Hq. apply (qinv_frame s); try reflexivity; [|apply xi_q0; exact Hq]. intros hn Hp. exact Hp.
  - constructor; cbn; try assumption. intros q Hq. apply (qinv_frame s); try reflexivity; [|apply xi_q0; exact Hq]. intros hn Hp. exact Hp.
  - apply xinv_waits; [exact Hx|]. intros q Hq. apply in_app_or in Hq as [Hq|[<-|[]]]; [apply xi_q0; exact Hq|]. constructor; cbn; try discriminate; try (intros _; exact I).
    + reflexivity.
    + intros _. constructor; cbn; auto.
    + exists (x_registered s). reflexivity.
  - apply xinv_waits; [exact Hx|]. eapply replaced; [exact Hx|exact E|]. intros Hi. eapply own_step; eassumption.
  - apply xinv_waits; [exact Hx|]. eapply replaced; [exact Hx|exact E|]. intros []. unfold qpc_ok in *. rewrite Hp in *. rewrite qi_pc0 in *.
    constructor; cbn in *; try assumption; try reflexivity; try discriminate. intros _. constructor; cbn; auto.
  - apply xinv_waits; [exact Hx|]. eapply replaced; [exact Hx|exact E|]. intros []. unfold qpc_ok in *. rewrite Hp in *. rewrite qi_pc0 in *.
    constructor; cbn in *; try discriminate; try reflexivity.
    + intros _. constructor; cbn; auto.
    + exists []. rewrite app_nil_r. reflexivity.
  - apply xinv_waits; [exact Hx|]. eapply replaced; [exact Hx|exact E|]. intros []. unfold qpc_ok in *. rewrite Hp in *. constructor; cbn in *; try assumption.
    intros L. destruct (qi_own0 L). constructor; assumption.
  - constructor; cbn; try assumption. intros q0 Hq. apply (qinv_frame s); try reflexivity; [|apply xi_q0; exact Hq]. intros hn Hp. exact Hp.
  - constructor; cbn; try assumption. intros q0 Hq. apply (qinv_frame s); try reflexivity; [|apply xi_q0; exact Hq]. intros hn Hp. exact Hp.
Qed.

Lemma serial_len c s : serial_reach c s -> length (x_regs s) <= 1.
Proof. intros H. destruct H; [cbn; lia|assumption]. Qed.
Lemma serial_xinv c s : serial_reach c s -> xinv s.
Proof.
  induction 1 as [|s s' Hr IH Hs Hl].
  - constructor; cbn; try reflexivity; try lia; try exact I.
  - eapply xinv_step; [exact IH|eapply serial_len; exact Hr|exact Hs|exact Hl].
Qed.

(** C121: registrations that do not overlap are all kept: at every moment of every such run - with any
    number of WaitShutdown calls, signals and contexts in between - the slice holds exactly the functions
    of the completed registrations, in order. *)
Lemma C121_registrations_kept_pf : forall c s, serial_reach c s -> contents s (x_hdr s) = x_registered s.
Proof. intros c s Hr. apply serial_xinv in Hr as []. assumption. Qed.

(** C121: and then each WaitShutdown call treats the functions registered before it began cleaning - they are
    the first ones of all those registered - on its own, whatever other calls do: it calls each at most
    once, and if it returns without timeout (and no registration slipped in before it read the slice) it has called each exactly once and each
    has returned. *)
Lemma C121_each_call_cleans_pf : forall c s q, serial_reach c s -> In q (x_waits s) ->
  (exists later, x_registered s = q_before q ++ later) /\
  (q_late q = false ->
     (exists uncalled, Permutation (q_before q) (q_calls q ++ uncalled)) /\ (exists unfinished, Permutation (q_calls q) (q_ended q ++ unfinished)) /\
     (q_pc q = WReturned true -> Permutation (q_calls q) (q_before q) /\ Permutation (q_ended q) (q_before q))).
Proof.
  intros c s q Hr Hq. apply serial_xinv in Hr as []. destruct (xi_q0 q Hq). split; [exact qi_pre0|]. intros L. destruct (qi_own0 L).
  split; [eexists; exact qo_calls0|]. split; [eexists; exact qo_ended0|]. intros Ep. unfold qpc_ok in qi_pc0. rewrite Ep in qi_pc0.
  unfold left_of in *. rewrite qi_pc0 in *. rewrite qo_done0 in *. cbn in qo_calls0, qo_ended0. rewrite app_nil_r in *.
  split; [apply Permutation_sym; exact qo_calls0|]. eapply Permutation_trans; [apply Permutation_sym; exact qo_ended0|apply Permutation_sym; exact qo_calls0].
Qed.

(** ** Signals and contexts *)
Definition went_on (q : wait) : bool := match q_pc q with WEnter | WSel _ => false | _ => true end.

Lemma went_mid l1 q l2 : length (filter went_on (l1 ++ q :: l2)) = length (filter went_on (l1 ++ l2)) + (if went_on q then 1 else 0).
Proof. rewrite !filter_app, !app_length. cbn [filter]. destruct (went_on q); cbn [length]; lia. Qed.
Lemma went_mark l : length (filter went_on (map mark l)) = length (filter went_on l).
Proof. induction l as [|q l IH]; [reflexivity|]. cbn [map filter]. change (went_on (mark q)) with (went_on q). destruct (went_on q); cbn [length]; congruence. Qed.

Definition ginv (s : sx) : Prop :=
  x_taken s + (if x_sig s then 1 else 0) <= x_sigs s /\ ((forall k, x_done s k = false) -> length (filter went_on (x_waits s)) <= x_taken s).
Lemma ginv_step s s' : ginv s -> x_step s s' -> ginv s'.
Proof.
  intros [G1 G2] Hs.
  destruct Hs as [fs Hd|l1 fs l2 Hd E|l1 fs h l2 Hd E Hc|l1 fs h l2 cap Hd E Hc Hc2|l1 fs h l2 Hd E|c Hd|c Hd Hn|Hd|Hd|l1 q q' l2 Hd E Hq|l1 q l2 c Hd E Hp Hsg|l1 q l2 Hd E Hp|l1 q l2 b Hd E Hp|l1 q l2 g1 f g2 Hd E Eg|l1 q l2 g1 f g2 Hd E Eg Ew];
    split; cbn [x_taken x_sig x_sigs x_done x_waits set_regs set_waits set_envt stored_hdr die]; try assumption.
  - intros Hn. rewrite went_mark. auto.
  - intros Hc. specialize (Hc c). rewrite Nat.eqb_refl in Hc. discriminate.
  - destruct (x_sig s); lia.
  - intros Hn. specialize (G2 Hn). rewrite went_mid. cbn. rewrite app_nil_r. lia.
  - intros Hn. specialize (G2 Hn). rewrite E in G2. rewrite went_mid in *.
    assert (went_on q' = went_on q); [|destruct (went_on q'), (went_on q); lia || discriminate].
    destruct Hq as [Ep|c Ep Hdn Hc|c Ep Hdn Hc|Ep|Ep Er|Er|Er|h i Er Hi|h Er|Er Ew|l3 f l4 Eg|l3 f l4 Eg|l3 f l4 n Eg Ew]; unfold went_on; cbn [q_pc wset_pc wset_go]; rewrite ?Ep; try reflexivity; rewrite Hn in Hdn; discriminate.
  - rewrite Hsg in G1. lia.
  - intros Hn. specialize (G2 Hn). rewrite E in G2. rewrite went_mid in *. destruct (went_on q), (went_on (wset_pc q WGot (q_run q))); lia.
  - intros Hn. specialize (G2 Hn). rewrite E in G2. rewrite went_mid in *. unfold went_on at 2 in G2. rewrite Hp in G2. exact G2.
  - intros Hn. specialize (G2 Hn). rewrite E in G2. rewrite went_mid in *. unfold went_on at 2 in G2. rewrite Hp in G2. exact G2.
Qed.

(** C121: a signal is used up by one call: as long as no context is done, no more calls of WaitShutdown go
    on than signals were sent - in every run, overlapping registrations or not. *)
Lemma C121_signal_wakes_one_pf : forall c s, x_reach c s -> (forall k, x_done s k = false) -> length (filter went_on (x_waits s)) <= x_sigs s.
Proof.
  intros c s Hr Hn. assert (G : ginv s).
  { clear Hn. induction Hr as [|s s' Hr IH Hs]; [split; cbn; lia|]. eapply ginv_step; eassumption. }
  destruct G as [G1 G2]. specialize (G2 Hn). lia.
Qed.

(** C121: while the context is never replaced, no call panics. *)
Inductive fixed_reach (c : nat) : sx -> Prop :=
| fr_init : fixed_reach c (sx0 c)
| fr_step s s' : fixed_reach c s -> x_step s s' -> x_ctx s' = c -> fixed_reach c s'.
Definition finv (c : nat) (q : wait) : Prop := match q_pc q with WSel k => k = c | WPanicked => False | _ => True end.
Lemma C121_fixed_context_pf : forall c s q, fixed_reach c s -> In q (x_waits s) -> q_pc q <> WPanicked.
Proof.
  intros c s q Hr Hq. assert (G : x_ctx s = c /\ forall q, In q (x_waits s) -> finv c q).
  { clear q Hq. induction Hr as [|s s' Hr [IH1 IH2] Hs Hc]; [split; [reflexivity|intros q []]|]. split; [exact Hc|].
    assert (Hmid : forall l1 q l2 q', x_waits s = l1 ++ q :: l2 -> (finv c q -> finv c q') -> forall x, In x (l1 ++ q' :: l2) -> finv c x).
    { intros l1 q l2 q' E Hf x Hin. apply in_app_or in Hin as [H|[<-|H]]; [|apply Hf|]; apply IH2; rewrite E; apply in_or_app; cbn; auto. }
    destruct Hs as [fs Hd|l1 fs l2 Hd E|l1 fs h l2 Hd E Hcp|l1 fs h l2 cap Hd E Hcp Hc2|l1 fs h l2 Hd E|k Hd|k Hd Hn|Hd|Hd|l1 q q' l2 Hd E Hq|l1 q l2 k Hd E Hp Hsg|l1 q l2 Hd E Hp|l1 q l2 b Hd E Hp|l1 q l2 g1 f g2 Hd E Eg|l1 q l2 g1 f g2 Hd E Eg Ew];
      cbn [x_waits set_regs set_waits set_envt stored_hdr die]; try assumption.
    - intros q' Hq'. apply in_map_iff in Hq' as (q & <- & Hq). exact (IH2 q Hq).
    - intros q Hq. apply in_app_or in Hq as [Hq|[<-|[]]]; [apply IH2; exact Hq|exact I].
    - apply (Hmid l1 q l2 q' E). intros Hf. unfold finv in *.
      destruct Hq as [Ep|k Ep Hdn Hcx|k Ep Hdn Hcx|Ep|Ep Er|Er|Er|h i Er Hi|h Er|Er Ew|l3 f l4 Eg|l3 f l4 Eg|l3 f l4 n Eg Ew]; cbn [q_pc wset_pc wset_go]; try assumption; try exact I.
      rewrite Ep in Hf. subst k. rewrite IH1 in Hcx. congruence.
    - apply (Hmid l1 q l2 _ E). intros _. exact I.
    - apply (Hmid l1 q l2 _ E). intros _. exact I.
    - apply (Hmid l1 q l2 _ E). intros _. exact I. }
  destruct G as [_ G]. specialize (G q Hq). unfold finv in G. intros E. rewrite E in G. exact G.
Qed.

(** ** The status *)
Definition cls (q : wait) : nat := match q_pc q with WClean | WWoken _ => 1 | WReturned _ => 2 | _ => 0 end.
Definition stinv (s : sx) : Prop :=
  match x_status s with
  | Running => forall q, In q (x_waits s) -> cls q = 0
  | Shutdowning => exists q, In q (x_waits s) /\ cls q = 1
  | Shutdowned => exists q, In q (x_waits s) /\ cls q = 2
  end.
Lemma cls_step s q q' : q_step s q q' -> cls q' = cls q.
Proof. intros H. destruct H; unfold cls; cbn [wset_pc wset_go q_pc]; try reflexivity; match goal with H : q_pc q = _ |- _ => rewrite H end; reflexivity. Qed.
Lemma in_mid_w (x : wait) l1 q l2 : In x (l1 ++ q :: l2) <-> x = q \/ In x (l1 ++ l2).
Proof. rewrite !in_app_iff. cbn [In]. intuition congruence. Qed.
Lemma stinv_same s s' : x_status s' = x_status s -> (forall q, In q (x_waits s') -> exists q0, In q0 (x_waits s) /\ cls q0 = cls q \/ cls q = 0) ->
  (forall q, In q (x_waits s) -> exists q', In q' (x_waits s') /\ cls q' = cls q) -> stinv s -> stinv s'.
Proof.
  intros E H1 H2. unfold stinv. rewrite E. destruct (x_status s).
  - intros H q Hq. destruct (H1 q Hq) as (q0 & [[Hq0 <-]|Hc]); [apply H; exact Hq0|exact Hc].
  - intros (q & Hq & Hc). destruct (H2 q Hq) as (q' & Hq' & Hc'). exists q'. split; [exact Hq'|congruence].
  - intros (q & Hq & Hc). destruct (H2 q Hq) as (q' & Hq' & Hc'). exists q'. split; [exact Hq'|congruence].
Qed.
Lemma stinv_swap s s' l1 q q' l2 : x_status s' = x_status s -> x_waits s = l1 ++ q :: l2 -> x_waits s' = l1 ++ q' :: l2 -> cls q' = cls q -> stinv s -> stinv s'.
Proof.
  intros E E1 E2 Ec. apply stinv_same; [exact E| |]; rewrite E1, E2; intros x Hx; apply in_mid_w in Hx; destruct Hx as [->|Hx].
  - exists q. left. split; [apply in_mid_w; auto|congruence].
  - exists x. left. split; [apply in_mid_w; auto|reflexivity].
  - exists q'. split; [apply in_mid_w; auto|congruence].
  - exists x. split; [apply in_mid_w; auto|reflexivity].
Qed.
Lemma stinv_step s s' : stinv s -> x_step s s' -> stinv s'.
Proof.
  intros HI Hst. destruct Hst as [fs Hd|l1 fs l2 Hd Hr|l1 fs h l2 Hd Hr Hc|l1 fs h l2 cap Hd Hr Hc Hc2|l1 fs h l2 Hd Hr|c Hd|c Hd Hc|Hd|Hd|l1 q q' l2 Hd Hw Hq|l1 q l2 c Hd Hw Hq Hs|l1 q l2 Hd Hw Hq|l1 q l2 b Hd Hw Hq|l1 q l2 g1 f g2 Hd Hw Hq|l1 q l2 g1 f g2 Hd Hw Hq Hz]; try exact HI.
  - revert HI. apply stinv_same; [reflexivity| |]; cbn [stored_hdr x_waits]; intros q Hq.
    + apply in_map_iff in Hq as (q0 & <- & Hq0). exists q0. left. split; [exact Hq0|reflexivity].
    + exists (mark q). split; [apply in_map; exact Hq|reflexivity].
  - revert HI. apply stinv_same; [reflexivity| |]; cbn [set_waits x_waits]; intros q Hq.
    + apply in_app_iff in Hq as [Hq|[<-|[]]]; [exists q; left; auto|exists wait0; right; reflexivity].
    + exists q. split; [apply in_app_iff; auto|reflexivity].
  - eapply (stinv_swap s _ l1 q q' l2); [reflexivity|exact Hw|reflexivity|exact (cls_step _ _ _ Hq)|exact HI].
  - eapply (stinv_swap s _ l1 q _ l2); [reflexivity|exact Hw|reflexivity| |exact HI]. unfold cls. cbn [wset_pc q_pc]. rewrite Hq. reflexivity.
  - unfold stinv. cbn [set_waits x_status x_waits]. eexists. split; [apply in_mid_w; left; reflexivity|reflexivity].
  - unfold stinv. cbn [set_waits x_status x_waits]. eexists. split; [apply in_mid_w; left; reflexivity|reflexivity].
Qed.

(** C121: the status: Running as long as no call of WaitShutdown has begun to clean; Shutdowning only while some call cleans; Shutdowned
    only when some call has returned - so Shutdowned once every call that began has returned. *)
Lemma C121_status_pf : forall c s, x_reach c s ->
  let cleaning := fun q => q_pc q = WClean \/ exists b, q_pc q = WWoken b in let returned := fun q => exists b, q_pc q = WReturned b in
  (x_status s = Running <-> forall q, In q (x_waits s) -> ~ cleaning q /\ ~ returned q) /\
  (x_status s = Shutdowning -> exists q, In q (x_waits s) /\ cleaning q) /\ (x_status s = Shutdowned -> exists q, In q (x_waits s) /\ returned q) /\
  ((exists q, In q (x_waits s) /\ returned q) -> (forall q, In q (x_waits s) -> ~ cleaning q) -> x_status s = Shutdowned).
Proof.
  intros c s Hr cleaning returned.
  assert (HI : stinv s) by (induction Hr as [|s s' Hr IH Hst]; [intros q []|eapply stinv_step; eassumption]).
  assert (H1 : forall q, cls q = 1 <-> cleaning q).
  { intros q. unfold cls, cleaning. destruct (q_pc q); split; intros H; try discriminate H; try reflexivity; eauto; destruct H as [H|[b' H]]; discriminate H. }
  assert (H2 : forall q, cls q = 2 <-> returned q).
  { intros q. unfold cls, returned. destruct (q_pc q); split; intros H; try discriminate H; try reflexivity; eauto; destruct H as [b' H]; discriminate H. }
  unfold stinv in HI. split; [|split; [|split]].
  - split.
    + intros E q Hq. rewrite E in HI. specialize (HI q Hq). rewrite <- H1, <- H2. lia.
    + intros H. destruct (x_status s); [reflexivity|exfalso..]; destruct HI as (q & Hq & Hc); destruct (H q Hq) as [Ha Hb]; [apply Ha, H1, Hc|apply Hb, H2, Hc].
  - intros E. rewrite E in HI. destruct HI as (q & Hq & Hc). exists q. split; [exact Hq|apply H1, Hc].
  - intros E. rewrite E in HI. destruct HI as (q & Hq & Hc). exists q. split; [exact Hq|apply H2, Hc].
  - intros (q & Hq & Hret) Hno. destruct (x_status s); [|exfalso|reflexivity].
    + exfalso. apply H2 in Hret. specialize (HI q Hq). lia.
    + destruct HI as (q' & Hq' & Hc). apply (Hno q' Hq'), H1, Hc.
Qed.

(** ** Concrete runs: an executable form of the steps *)
Fixpoint cut_at {X} (i : nat) (l : list X) : option (list X * X * list X) :=
  match l, i with
  | [], _ => None
  | x :: t, 0 => Some ([], x, t)
  | x :: t, S j => match cut_at j t with Some (a, y, b) => Some (x :: a, y, b) | None => None end
  end.
Lemma cut_at_ok {X} i : forall (l : list X) a y b, cut_at i l = Some (a, y, b) -> l = a ++ y :: b.
Proof.
  induction i as [|i IH]; intros [|x t] a y b H; cbn in H; try discriminate; [injection H as <- <- <-; reflexivity|].
  destruct (cut_at i t) as [[[a0 y0] b0]|] eqn:E; [|discriminate]. injection H as <- <- <-. apply IH in E. rewrite E. reflexivity.
Qed.
Inductive qact := KSelect | KDone | KTimeout | KMeet | KAdd | KRange | KLaunch | KLaunched | KWaited | KCall (j : nat) | KEnd (j : nat) | KWg (j : nat).
Definition qexec (s : sx) (q : wait) (k : qact) : option wait :=
  match k, q_pc q, q_run q with
  | KSelect, WEnter, _ => Some (wset_pc q (WSel (x_ctx s)) (q_run q))
  | KDone, WSel c, _ => if x_done s c then if x_done s (x_ctx s) then Some (wset_pc q WGot (q_run q)) else Some (wset_pc q WPanicked (q_run q)) else None
  | KTimeout, WClean, _ => Some (wset_pc q (WWoken false) (q_run q))
  | KMeet, WClean, LpSend => Some (wset_pc q (WWoken true) LpGone)
  | KAdd, _, LpAdd => Some (wset_go q LpRange (q_gos q) (q_wg q + h_len (x_hdr s)) (q_calls q) (q_ended q))
  | KRange, _, LpRange => Some (wset_go q (LpLoop (x_hdr s) 0) (q_gos q) (q_wg q) (q_calls q) (q_ended q))
  | KLaunch, _, LpLoop h i => if i <? h_len h then Some (wset_go q (LpLoop h (S i)) (q_gos q ++ [(x_arr s (h_arr h) i, CStart)]) (q_wg q) (q_calls q) (q_ended q)) else None
  | KLaunched, _, LpLoop h i => if i =? h_len h then Some (wset_go q LpWait (q_gos q) (q_wg q) (q_calls q) (q_ended q)) else None
  | KWaited, _, LpWait => if q_wg q =? 0 then Some (wset_go q LpSend (q_gos q) (q_wg q) (q_calls q) (q_ended q)) else None
  | KCall j, _, _ => match cut_at j (q_gos q) with Some (a, (f, CStart), b) => Some (wset_go q (q_run q) (a ++ (f, CRun) :: b) (q_wg q) (q_calls q ++ [f]) (q_ended q)) | _ => None end
  | KEnd j, _, _ => match cut_at j (q_gos q) with Some (a, (f, CRun), b) => Some (wset_go q (q_run q) (a ++ (f, CEnd) :: b) (q_wg q) (q_calls q) (q_ended q ++ [f])) | _ => None end
  | KWg j, _, _ => match cut_at j (q_gos q), q_wg q with Some (a, (f, CEnd), b), S n => Some (wset_go q (q_run q) (a ++ b) n (q_calls q) (q_ended q)) | _, _ => None end
  | _, _, _ => None
  end.
Lemma qexec_ok s q k q' : qexec s q k = Some q' -> q_step s q q'.
Proof.
  unfold qexec. intros H. destruct k.
  - destruct (q_pc q) eqn:E; try discriminate. injection H as <-. apply qs_select. exact E.
  - destruct (q_pc q) eqn:E; try discriminate. destruct (x_done s c) eqn:D; [|discriminate]. destruct (x_done s (x_ctx s)) eqn:D2; injection H as <-.
    + eapply qs_done; eassumption.
    + eapply qs_done_panic; eassumption.
  - destruct (q_pc q) eqn:E; try discriminate. injection H as <-. apply qs_timeout. exact E.
  - destruct (q_pc q) eqn:E; try discriminate. destruct (q_run q) eqn:R; try discriminate. injection H as <-. apply qs_meet; assumption.
  - assert (R : q_run q = LpAdd) by (destruct (q_pc q), (q_run q); discriminate || reflexivity). rewrite R in H. destruct (q_pc q); injection H as <-; apply qs_add; exact R.
  - assert (R : q_run q = LpRange) by (destruct (q_pc q), (q_run q); discriminate || reflexivity). rewrite R in H. destruct (q_pc q); injection H as <-; apply qs_range; exact R.
  - assert (R : exists h i, q_run q = LpLoop h i) by (destruct (q_pc q), (q_run q); try discriminate; eauto). destruct R as (h & i & R). rewrite R in H.
    destruct (Nat.ltb_spec i (h_len h)); [|destruct (q_pc q); discriminate]. destruct (q_pc q); injection H as <-; apply qs_launch; assumption.
  - assert (R : exists h i, q_run q = LpLoop h i) by (destruct (q_pc q), (q_run q); try discriminate; eauto). destruct R as (h & i & R). rewrite R in H.
    destruct (Nat.eqb_spec i (h_len h)) as [Ei|]; [|destruct (q_pc q); discriminate]. rewrite Ei in R. destruct (q_pc q); injection H as <-; eapply qs_launched; exact R.
  - assert (R : q_run q = LpWait) by (destruct (q_pc q), (q_run q); discriminate || reflexivity). rewrite R in H.
    destruct (Nat.eqb_spec (q_wg q) 0); [|destruct (q_pc q); discriminate]. destruct (q_pc q); injection H as <-; apply qs_waited; assumption.
  - assert (H' : match cut_at j (q_gos q) with Some (a, (f, CStart), b) => Some (wset_go q (q_run q) (a ++ (f, CRun) :: b) (q_wg q) (q_calls q ++ [f]) (q_ended q)) | _ => None end = Some q') by (destruct (q_pc q); exact H).
    destruct (cut_at j (q_gos q)) as [[[a [f []]] b]|] eqn:E; try discriminate. injection H' as <-. apply cut_at_ok in E. apply qs_call. exact E.
  - assert (H' : match cut_at j (q_gos q) with Some (a, (f, CRun), b) => Some (wset_go q (q_run q) (a ++ (f, CEnd) :: b) (q_wg q) (q_calls q) (q_ended q ++ [f])) | _ => None end = Some q') by (destruct (q_pc q); exact H).
    destruct (cut_at j (q_gos q)) as [[[a [f []]] b]|] eqn:E; try discriminate. injection H' as <-. apply cut_at_ok in E. apply qs_end. exact E.
  - assert (H' : match cut_at j (q_gos q), q_wg q with Some (a, (f, CEnd), b), S n => Some (wset_go q (q_run q) (a ++ b) n (q_calls q) (q_ended q)) | _, _ => None end = Some q') by (destruct (q_pc q); exact H).
    destruct (cut_at j (q_gos q)) as [[[a [f []]] b]|] eqn:E; try discriminate. destruct (q_wg q) eqn:W; [discriminate|]. injection H' as <-. apply cut_at_ok in E. eapply qs_wgdone; eassumption.
Qed.

Inductive xact := AReg (fs : list nat) | ARead (i : nat) | APut (i : nat) | AGrow (i cap : nat) | AStore (i : nat) | AInit (c : nat) | ACancel (c : nat) | ASignal | AWait
  | AOwn (i : nat) (k : qact) | AGot (i : nat) | ABegin (i : nat) | AReturn (i : nat).
Definition xexec (s : sx) (a : xact) : option sx :=
  if x_dead s then None else
  match a with
  | AReg fs => Some (set_regs s (x_arr s) (x_next s) (x_regs s ++ [RgRead fs]))
  | ARead i => match cut_at i (x_regs s) with Some (l1, RgRead fs, l2) => Some (set_regs s (x_arr s) (x_next s) (l1 ++ RgApp fs (x_hdr s) :: l2)) | _ => None end
  | APut i => match cut_at i (x_regs s) with
      | Some (l1, RgApp fs h, l2) => if h_len h + length fs <=? h_cap h then Some (set_regs s (put_at (x_arr s) (h_arr h) (h_len h) fs) (x_next s)
          (l1 ++ RgStore fs {| h_arr := h_arr h; h_len := h_len h + length fs; h_cap := h_cap h |} :: l2)) else None
      | _ => None end
  | AGrow i cap => match cut_at i (x_regs s) with
      | Some (l1, RgApp fs h, l2) => if (h_cap h <? h_len h + length fs) && (h_len h + length fs <=? cap) then Some (set_regs s (put_at (x_arr s) (x_next s) 0 (contents s h ++ fs)) (S (x_next s))
          (l1 ++ RgStore fs {| h_arr := x_next s; h_len := h_len h + length fs; h_cap := cap |} :: l2)) else None
      | _ => None end
  | AStore i => match cut_at i (x_regs s) with Some (l1, RgStore fs h, l2) => Some (stored_hdr s h (l1 ++ l2) fs) | _ => None end
  | AInit c => Some (set_envt s c (x_done s) (x_sig s) (x_sigs s))
  | ACancel 0 => None
  | ACancel c => Some (set_envt s (x_ctx s) (fun k => (k =? c) || x_done s k) (x_sig s) (x_sigs s))
  | ASignal => Some (set_envt s (x_ctx s) (x_done s) true (S (x_sigs s)))
  | AWait => Some (set_waits s (x_waits s ++ [wait0]) (x_status s) (x_sig s) (x_taken s))
  | AOwn i k => match cut_at i (x_waits s) with
      | Some (l1, q, l2) => match qexec s q k with Some q' => Some (set_waits s (l1 ++ q' :: l2) (x_status s) (x_sig s) (x_taken s)) | None => None end
      | None => None end
  | AGot i => match cut_at i (x_waits s) with
      | Some (l1, q, l2) => match q_pc q, x_sig s with WSel _, true => Some (set_waits s (l1 ++ wset_pc q WGot (q_run q) :: l2) (x_status s) false (S (x_taken s))) | _, _ => None end
      | None => None end
  | ABegin i => match cut_at i (x_waits s) with
      | Some (l1, q, l2) => match q_pc q with WGot => Some (set_waits s (l1 ++ {| q_pc := WClean; q_run := LpAdd; q_gos := q_gos q; q_wg := q_wg q; q_before := x_registered s; q_late := q_late q;
                                    q_calls := q_calls q; q_ended := q_ended q |} :: l2) Shutdowning (x_sig s) (x_taken s)) | _ => None end
      | None => None end
  | AReturn i => match cut_at i (x_waits s) with
      | Some (l1, q, l2) => match q_pc q with WWoken b => Some (set_waits s (l1 ++ wset_pc q (WReturned b) (q_run q) :: l2) Shutdowned (x_sig s) (x_taken s)) | _ => None end
      | None => None end
  end.
Lemma xexec_ok s a s' : xexec s a = Some s' -> x_step s s'.
Proof.
  unfold xexec. destruct (x_dead s) eqn:Hd; [discriminate|]. intros H. destruct a as [fs|i|i|i cap|i|c|c| | |i k|i|i|i].
  - injection H as <-. apply xs_reg. exact Hd.
  - destruct (cut_at i (x_regs s)) as [[[l1 [fs|fs h|fs h]] l2]|] eqn:E; try discriminate. injection H as <-. apply cut_at_ok in E. apply xs_reg_read; assumption.
  - destruct (cut_at i (x_regs s)) as [[[l1 [fs|fs h|fs h]] l2]|] eqn:E; try discriminate. destruct (Nat.leb_spec (h_len h + length fs) (h_cap h)); [|discriminate].
    injection H as <-. apply cut_at_ok in E. apply xs_reg_put; assumption.
  - destruct (cut_at i (x_regs s)) as [[[l1 [fs|fs h|fs h]] l2]|] eqn:E; try discriminate.
    destruct (Nat.ltb_spec (h_cap h) (h_len h + length fs)); [|discriminate]. destruct (Nat.leb_spec (h_len h + length fs) cap); [|discriminate].
    injection H as <-. apply cut_at_ok in E. apply xs_reg_grow; assumption.
  - destruct (cut_at i (x_regs s)) as [[[l1 [fs|fs h|fs h]] l2]|] eqn:E; try discriminate. injection H as <-. apply cut_at_ok in E. apply xs_reg_store; assumption.
  - injection H as <-. apply xs_init. exact Hd.
  - destruct c as [|c]; [discriminate|]. injection H as <-. apply (xs_cancel s (S c)); [exact Hd|discriminate].
  - injection H as <-. apply xs_signal. exact Hd.
  - injection H as <-. apply xs_wait. exact Hd.
  - destruct (cut_at i (x_waits s)) as [[[l1 q] l2]|] eqn:E; [|discriminate]. destruct (qexec s q k) as [q'|] eqn:Q; [|discriminate]. injection H as <-.
    apply cut_at_ok in E. eapply xs_own; [exact Hd|exact E|eapply qexec_ok; exact Q].
  - destruct (cut_at i (x_waits s)) as [[[l1 q] l2]|] eqn:E; [|discriminate]. destruct (q_pc q) eqn:P; try discriminate. destruct (x_sig s) eqn:G; [|discriminate]. injection H as <-.
    apply cut_at_ok in E. eapply xs_gotsig; eassumption.
  - destruct (cut_at i (x_waits s)) as [[[l1 q] l2]|] eqn:E; [|discriminate]. destruct (q_pc q) eqn:P; try discriminate. injection H as <-. apply cut_at_ok in E. apply xs_begin; assumption.
  - destruct (cut_at i (x_waits s)) as [[[l1 q] l2]|] eqn:E; [|discriminate]. destruct (q_pc q) eqn:P; try discriminate. injection H as <-. apply cut_at_ok in E. apply xs_return; assumption.
Qed.
(** Runs a schedule; [ser]: refuses overlapping registrations. *)
Fixpoint xrun (ser : bool) (s : sx) (l : list xact) : option sx :=
  match l with
  | [] => Some s
  | a :: t => match xexec s a with Some s' => if negb ser || (length (x_regs s') <=? 1) then xrun ser s' t else None | None => None end
  end.
Lemma xrun_reach c l : forall s s', x_reach c s -> xrun false s l = Some s' -> x_reach c s'.
Proof.
  induction l as [|a l IH]; intros s s' Hr H; cbn in H; [injection H as <-; exact Hr|]. destruct (xexec s a) as [s1|] eqn:E; [|discriminate].
  apply (IH s1); [eapply xr_step; [exact Hr|eapply xexec_ok; exact E]|exact H].
Qed.
Lemma xrun_serial c l : forall s s', serial_reach c s -> xrun true s l = Some s' -> serial_reach c s'.
Proof.
  induction l as [|a l IH]; intros s s' Hr H; cbn in H; [injection H as <-; exact Hr|]. destruct (xexec s a) as [s1|] eqn:E; [|discriminate].
  destruct (Nat.leb_spec (length (x_regs s1)) 1); [|discriminate]. apply (IH s1); [eapply xsr_step; [exact Hr|eapply xexec_ok; exact E|assumption]|exact H].
Qed.
Definition after (ser : bool) (c : nat) (l : list xact) : sx := match xrun ser (sx0 c) l with Some s => s | None => sx0 c end.
Lemma after_serial c l : serial_reach c (after true c l).
Proof. unfold after. destruct (xrun true (sx0 c) l) as [s|] eqn:E; [eapply xrun_serial; [apply xsr_init|exact E]|apply xsr_init]. Qed.
Lemma after_reach c l : x_reach c (after false c l).
Proof. unfold after. destruct (xrun false (sx0 c) l) as [s|] eqn:E; [eapply xrun_reach; [apply xr_init|exact E]|apply xr_init]. Qed.

Definition reg7 : list xact := [AReg [7]; ARead 0; AGrow 0 1; AStore 0].
Definition cleaning (i : nat) : list xact :=
  [ABegin i; AOwn i KAdd; AOwn i KRange; AOwn i KLaunch; AOwn i KLaunched; AOwn i (KCall 0); AOwn i (KEnd 0); AOwn i (KWg 0); AOwn i KWaited; AOwn i KMeet; AReturn i].
Definition two : list xact := reg7 ++ [AWait; AWait; AOwn 0 KSelect; AOwn 1 KSelect].

(** C121: with serial registrations, two calls and one cancellation: both return without timeout, and each
    has called the function. *)
Lemma C121_example_pf : exists s q1 q2, serial_reach 1 s /\ x_waits s = [q1; q2] /\ x_registered s = [7] /\
  q_pc q1 = WReturned true /\ q_late q1 = false /\ q_calls q1 = [7] /\ q_pc q2 = WReturned true /\ q_late q2 = false /\ q_calls q2 = [7].
Proof.
  exists (after true 1 (two ++ [ACancel 1; AOwn 0 KDone; AOwn 1 KDone] ++ cleaning 0 ++ cleaning 1)). eexists. eexists.
  split; [apply after_serial|]. vm_compute. repeat split.
Qed.

(** C121, "a clean function runs once per shutdown" is false: in that run the one registered function ran
    twice; and the status goes back from Shutdowned to Shutdowning. *)
Lemma C121_once_per_process_refuted_pf :
  (exists s, serial_reach 1 s /\ x_registered s = [7] /\ concat (map q_calls (x_waits s)) = [7; 7]) /\
  (exists s s', serial_reach 1 s /\ x_status s = Shutdowned /\ x_step s s' /\ x_status s' = Shutdowning).
Proof.
  split.
  - destruct C121_example_pf as (s & q1 & q2 & Hr & Hw & Hg & _ & _ & H1 & _ & _ & H2). exists s. split; [exact Hr|]. split; [exact Hg|]. rewrite Hw. cbn. rewrite H1, H2. reflexivity.
  - exists (after true 1 (two ++ [ACancel 1; AOwn 0 KDone; AOwn 1 KDone] ++ cleaning 0)). eexists. split; [apply after_serial|]. split; [vm_compute; reflexivity|].
    split; [apply (xexec_ok _ (ABegin 1)); vm_compute; reflexivity|reflexivity].
Qed.

(** C121, registrations that overlap can be lost although both calls returned: at the first registrations each
    of two goroutines makes an array of its own; later (in the second run) both write the same free slot of the array. *)
Lemma C121_overlapping_registrations_refuted_pf :
  (exists s q, x_reach 1 s /\ x_regs s = [] /\ x_registered s = [7; 8] /\ contents s (x_hdr s) = [8] /\
     x_waits s = [q] /\ q_pc q = WReturned true /\ q_calls q = [8]) /\
  (exists s, x_reach 1 s /\ x_regs s = [] /\ x_registered s = [5; 7; 8] /\ contents s (x_hdr s) = [5; 7]).
Proof.
  split.
  - exists (after false 1 ([AReg [7]; AReg [8]; ARead 0; ARead 1; AGrow 0 1; AGrow 1 1; AStore 0; AStore 0; AWait; AOwn 0 KSelect; ACancel 1; AOwn 0 KDone] ++ cleaning 0)).
    eexists. split; [apply after_reach|]. vm_compute. repeat split.
  - exists (after false 1 [AReg [5]; ARead 0; AGrow 0 4; AStore 0; AReg [7]; AReg [8]; ARead 0; ARead 1; APut 1; APut 0; AStore 0; AStore 0]).
    split; [apply after_reach|]. vm_compute. repeat split.
Qed.

Lemma blocked s q c : q_pc q = WSel c -> q_run q = LpIdle -> q_gos q = [] -> x_done s c = false -> forall q', ~ q_step s q q'.
Proof.
  intros Ep Er Eg Hd q' H. destruct H; try congruence.
  all: rewrite Eg in *; destruct l1; discriminate.
Qed.

(** C121, "a signal stops every waiting call" is false: of two waiting calls one goes on, the other has no
    step left even though two signals were sent (the second was dropped). *)
Lemma C121_signal_stops_all_refuted_pf : exists s q1 q2, serial_reach 1 s /\ x_sigs s = 2 /\ x_sig s = false /\ x_waits s = [q1; q2] /\ q_pc q1 = WReturned true /\
  q_pc q2 = WSel 1 /\ forall q', ~ q_step s q2 q'.
Proof.
  exists (after true 1 (two ++ [ASignal; ASignal; AGot 0] ++ cleaning 0)). eexists. eexists. split; [apply after_serial|].
  do 3 (split; [vm_compute; reflexivity|]). split; [reflexivity|]. split; [reflexivity|]. eapply blocked; reflexivity || (vm_compute; reflexivity).
Qed.

(** C121, "InitShutdownCtx makes WaitShutdown obey the new context" is false for a call that is already
    waiting: cancelling the new context does not move it, cancelling the old one makes it panic. *)
Lemma C121_replaced_context_refuted_pf :
  (exists s q, serial_reach 1 s /\ x_ctx s = 2 /\ x_done s 2 = true /\ x_waits s = [q] /\ q_pc q = WSel 1 /\ forall q', ~ q_step s q q') /\
  (exists s q, serial_reach 1 s /\ x_ctx s = 2 /\ x_done s 1 = true /\ x_waits s = [q] /\ q_pc q = WPanicked).
Proof.
  split.
  - exists (after true 1 [AWait; AOwn 0 KSelect; AInit 2; ACancel 2]). eexists. split; [apply after_serial|]. do 3 (split; [vm_compute; reflexivity|]). split; [reflexivity|].
    eapply blocked; reflexivity || (vm_compute; reflexivity).
  - exists (after true 1 [AWait; AOwn 0 KSelect; AInit 2; ACancel 1; AOwn 0 KDone]). eexists. split; [apply after_serial|]. vm_compute. repeat split.
Qed.

(** C121: the hypotheses of the last two theorems are met: one signal, one call gone on; and a fixed context. *)
Lemma C121_signal_example_pf : exists s, x_reach 1 s /\ fixed_reach 1 (sx0 1) /\ x_sigs s = 1 /\ length (filter went_on (x_waits s)) = 1 /\ length (x_waits s) = 2 /\ forall k, x_done s k = false.
Proof.
  exists (after false 1 (two ++ [ASignal; AGot 0])). split; [apply after_reach|]. split; [apply fr_init|]. do 3 (split; [vm_compute; reflexivity|]). intros k. reflexivity.
Qed.
