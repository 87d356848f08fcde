(** SessionProofs.v -- lemmas for C110 and C111. *)
From Verif Require Import Base GoLib Bencode BencodeSpec BencodeProofs BencodePf Types TypesPf Krpc KrpcProofs BytesPool BytesPoolPf Sha1 PeerWire PeerWirePf Fetch FetchSpec FetchProofs SessionSpec.
Local Open Scope list_scope.

(** * The handshake *)

Lemma decode_rune_width b t : 1 <= snd (decode_rune (b :: t)) <= length (b :: t) /\
  (snd (decode_rune (b :: t)) = 1 -> (bval b < 128)%N /\ fst (decode_rune (b :: t)) = bval b \/ fst (decode_rune (b :: t)) = RuneError).
Proof.
  unfold decode_rune. cbv zeta. destruct (N.ltb_spec (bval b) 128) as [H|H]; [cbn; split; [lia|auto]|].
  repeat (match goal with |- context [if ?c then _ else _] => destruct c | |- context [match t with _ => _ end] => destruct t as [|? t] | |- context [match ?l with [] => _ | _ :: _ => _ end] => is_var l; destruct l end);
    cbn [fst snd length]; (split; [lia|intros E; try (right; reflexivity); lia]).
Qed.

Lemma runes_fuel_len f : forall t, length (runes_fuel f t) <= length t.
Proof.
  induction f as [|f IH]; intros [|b t]; cbn [runes_fuel length]; try lia.
  pose proof (decode_rune_width b t) as [H1 _]. destruct (decode_rune (b :: t)) as [r n]. cbn [snd] in H1. cbn [length].
  specialize (IH (skipn n (b :: t))). rewrite skipn_length in IH. cbn [length] in IH. lia.
Qed.

Lemma fold_short uf s : sane_folding uf -> ascii_string s -> forall f t, length t <= length s -> length t <= f ->
  fold_list uf (map bval s) (runes_fuel f t) = true -> ascii_string t.
Proof.
  intros Hu Hs. induction Hs as [|c s Hc Hs IH]; intros f t Hl Hf E.
  - destruct t; [constructor|cbn in Hl; lia].
  - destruct t as [|b t]; [constructor|]. destruct f as [|f]; [cbn in Hf; lia|]. cbn [runes_fuel map] in E.
    pose proof (decode_rune_width b t) as [H1 H2]. destruct (decode_rune (b :: t)) as [r n]. cbn [fst snd] in *.
    cbn [fold_list] in E. apply andb_true_iff in E as [E1 E2].
    assert (Hlen : length (map bval s) = length (runes_fuel f (skipn n (b :: t)))).
    { clear - E2. revert E2. generalize (map bval s) (runes_fuel f (skipn n (b :: t))). induction l as [|x l IH]; intros [|y l'] E; cbn in *; try discriminate; [reflexivity|].
      apply andb_true_iff in E as [_ E]. f_equal. apply IH. exact E. }
    rewrite map_length in Hlen. pose proof (runes_fuel_len f (skipn n (b :: t))) as Hr. rewrite skipn_length in Hr. cbn [length] in *.
    assert (n = 1) as -> by lia. cbn [skipn] in *. destruct (H2 eq_refl) as [[Hb ->]| ->].
    + constructor; [exact Hb|]. apply (IH f); [lia|lia|exact E2].
    + exfalso. unfold rune_fold, RuneError in E1. change (N_of_ascii c) with (bval c) in Hc.
      destruct (N.eqb_spec (bval c) 65533); [lia|]. rewrite N.min_l, N.max_r in E1 by lia.
      cbn [N.ltb] in E1. change (65533 <? 128)%N with false in E1. cbv iota in E1. rewrite Hu in E1 by exact Hc. discriminate.
Qed.

Lemma proto_ascii : ascii_string supportProtocolName.
Proof. unfold ascii_string, supportProtocolName. repeat constructor; vm_compute; reflexivity. Qed.

Lemma small_lower l : map small l = map lower l.
Proof. reflexivity. Qed.

Lemma proto_check uf name : sane_folding uf -> length name <= 19 ->
  (EqualFold uf supportProtocolName name = true <-> names_bittorrent name).
Proof.
  intros Hu Hl. split.
  - intros E. assert (Ha : ascii_string name).
    { unfold EqualFold in E. rewrite (runes_ascii _ proto_ascii) in E. eapply (fold_short uf _ Hu proto_ascii (length name)); [exact Hl|lia|exact E]. }
    destruct (C17_equal_fold_pf uf supportProtocolName name) as (_ & _ & H). apply (H proto_ascii Ha) in E. unfold names_bittorrent. symmetry. exact E.
  - intros E. assert (Ha : ascii_string name).
    { unfold names_bittorrent in E. apply Forall_forall. intros c Hc.
      assert (Hin : In (small c) (map small (B "BitTorrent protocol"))) by (rewrite <- E; apply in_map; exact Hc).
      unfold small at 1 in Hin. destruct ((65 <=? N_of_ascii c) && (N_of_ascii c <=? 90))%N eqn:Ec; [apply andb_true_iff in Ec as [_ Ec]; apply N.leb_le in Ec; lia|].
      vm_compute in Hin. repeat (destruct Hin as [<-|Hin]; [vm_compute; reflexivity|]). destruct Hin. }
    destruct (C17_equal_fold_pf uf supportProtocolName name) as (_ & _ & H). apply (H proto_ascii Ha). symmetry. exact E.
Qed.

(** The checks of handshakePeer on the 68 bytes. *)
Definition hs_fine (uf : N -> N -> bool) (data : bytes) : bool :=
  match parseHandShakeMsg data with
  | Ok h => EqualFold uf supportProtocolName (hs_protocol h) && match SupportExtended h with Ok x => x | _ => false end
  | _ => false
  end.

Lemma testbit_land16_iff c : N.testbit (N_of_ascii c) 4 = true <-> (0 <? N.land (bval c) 16)%N = true.
Proof.
  split; [apply testbit_land16|]. intros H. apply N.ltb_lt in H. destruct (N.testbit (N_of_ascii c) 4) eqn:E; [reflexivity|].
  assert (N.land (bval c) 16 = 0)%N; [|lia]. apply N.bits_inj. intros n. rewrite N.land_spec, N.bits_0.
  destruct (N.eq_dec n 4) as [->|Hn]; [change (bval c) with (N_of_ascii c); rewrite E; reflexivity|].
  change 16%N with (2 ^ 4)%N. rewrite N.pow2_bits_false by congruence. apply andb_false_r.
Qed.

Lemma hs_fine_iff uf data : sane_folding uf -> length data = 68 ->
  (hs_fine uf data = true <-> exists name a r5 b ids, data = ascii_of_nat 19 :: name ++ a ++ r5 :: b ++ ids /\
    names_bittorrent name /\ length a = 5 /\ length b = 2 /\ length ids = 40 /\ N.testbit (N_of_ascii r5) 4 = true).
Proof.
  intros Hu Hl. unfold hs_fine. destruct data as [|c rest]; [discriminate|].
  destruct (C52_parse_domain_pf (c :: rest)) as [_ H]. destruct (H c rest eq_refl Hl) as [H1 H2]. clear H.
  assert (Hname : forall name, names_bittorrent name -> length name = 19).
  { intros name Hn. apply (f_equal (@length byte)) in Hn. rewrite !map_length in Hn. rewrite Hn. reflexivity. }
  destruct (Nat.le_gt_cases (nat_of_ascii c) 19) as [Hc|Hc].
  - destruct (H1 Hc) as (h & -> & Hlp & Hlr & Hli & Hlid & tail & Ht). split.
    + intros E. apply andb_true_iff in E as [E1 E2]. apply proto_check in E1; [|exact Hu|lia]. pose proof (Hname _ E1) as Hn19.
      assert (c = ascii_of_nat 19) as -> by (rewrite <- (ascii_nat_embedding c); f_equal; lia).
      assert (Hl5 : 5 < length (hs_rbytes h)) by lia. destruct (nth_error (hs_rbytes h) 5) as [r5|] eqn:E5; [|apply nth_error_None in E5; lia].
      destruct (nth_error_split _ _ E5) as (a & b & Eab & Ha).
      exists (hs_protocol h), a, r5, b, (hs_infohash h ++ hs_peerid h ++ tail). split; [rewrite Ht, Eab, <- app_assoc; reflexivity|].
      split; [exact E1|]. split; [exact Ha|]. rewrite Eab, app_length in Hlr. cbn [length] in Hlr. split; [lia|].
      cbn [length] in Hl. rewrite Ht, !app_length, Eab, app_length in Hl. cbn [length] in Hl.
      split; [rewrite !app_length; lia|]. apply testbit_land16_iff. unfold SupportExtended, idx in E2. rewrite E5 in E2. cbn [bind] in E2. exact E2.
    + intros (name & a & r5 & b & ids & E & Hn & Ha & Hb & Hids & Hbit). injection E as -> E.
      pose proof (Hname _ Hn) as Hn19. change (nat_of_ascii (ascii_of_nat 19)) with 19 in Hlp.
      rewrite Ht in E. apply app_inj_len in E as [E1 E2]; [|congruence].
      replace (a ++ r5 :: b ++ ids) with ((a ++ r5 :: b) ++ ids) in E2 by (rewrite <- app_assoc; reflexivity).
      apply app_inj_len in E2 as [E2 _]; [|rewrite app_length; cbn [length]; lia].
      rewrite E1. apply andb_true_iff. split; [apply proto_check; [exact Hu|lia|exact Hn]|].
      unfold SupportExtended. rewrite E2. unfold idx. rewrite nth_error_app2 by lia. rewrite Ha, Nat.sub_diag. cbn [nth_error bind].
      apply testbit_land16_iff. exact Hbit.
  - rewrite (H2 Hc). split; [discriminate|]. intros (name & a & r5 & b & ids & E & _). injection E as -> _.
    change (nat_of_ascii (ascii_of_nat 19)) with 19 in Hc. lia.
Qed.

(** The first 68 bytes of what arrived, padded with zeros. *)
Definition arrived68 (seg : bytes) : bytes := firstn 68 seg ++ repeat (byte_of 0) (68 - length (firstn 68 seg)).
Lemma arrived68_spec seg : arrived68 seg = firstn 68 (seg ++ repeat (ascii_of_nat 0) 68) /\ length (arrived68 seg) = 68.
Proof.
  unfold arrived68. rewrite firstn_length. split.
  - rewrite firstn_app. f_equal. change (byte_of 0) with (ascii_of_nat 0).
    replace (68 - Nat.min 68 (length seg)) with (68 - length seg) by lia.
    assert (H : forall (x : byte) n k, k <= n -> firstn k (repeat x n) = repeat x k).
    { intros x n. induction n as [|n IH]; intros [|k] Hk; cbn; try reflexivity; [lia|]. f_equal. apply IH. lia. }
    symmetry. apply H. lia.
  - rewrite app_length, firstn_length, repeat_length. lia.
Qed.

Lemma accepted_iff uf seg : sane_folding uf -> (hs_fine uf (arrived68 seg) = true <-> accepted seg).
Proof.
  intros Hu. destruct (arrived68_spec seg) as [E L]. rewrite (hs_fine_iff uf _ Hu L). unfold accepted. rewrite <- E. reflexivity.
Qed.

(** What handshakePeer does once its message is out. *)
Definition after_handshake (e : fenv) (s : fstate) : fstate * fres unit :=
  match f_script s with
  | [] => (set_io s [] (CRead handShakeLen), FPanic (PStr (B "get handshake response err")))
  | seg :: rest =>
      let s1 := set_io s (match skipn handShakeLen seg with [] => rest | _ => skipn handShakeLen seg :: rest end) (CRead handShakeLen) in
      (s1, if hs_fine (e_fold e) (arrived68 seg) then FOk tt else
           match parseHandShakeMsg (arrived68 seg) with
           | Ok h => if negb (EqualFold (e_fold e) supportProtocolName (hs_protocol h))
                     then FPanic (PStr (B "get handshake not support bittoroute protocol"))
                     else FPanic (PStr (B "get handshake not support extended protocol"))
           | Err x => FErr x
           | Panic x => FPanic x
           end)
  end.

Lemma parse_rbytes data h : parseHandShakeMsg data = Ok h -> exists x, SupportExtended h = Ok x.
Proof.
  intros E. destruct (C52_parse_domain_pf data) as [H1 H2]. destruct (Nat.eq_dec (length data) 68) as [Hl|Hl]; [|rewrite (H1 Hl) in E; discriminate].
  destruct data as [|c rest]; [discriminate|]. destruct (H2 c rest eq_refl Hl) as [H3 H4].
  destruct (Nat.le_gt_cases (nat_of_ascii c) 19) as [Hc|Hc]; [|rewrite (H4 Hc) in E; discriminate].
  destruct (H3 Hc) as (h' & E' & _ & Hr & _). rewrite E' in E. injection E as ->. unfold SupportExtended, idx.
  destruct (nth_error (hs_rbytes h) 5) as [r|] eqn:E5; [|apply nth_error_None in E5; lia]. cbn [bind]. eauto.
Qed.

Lemma parse_no_err data x : parseHandShakeMsg data <> Err x.
Proof.
  destruct (C52_parse_domain_pf data) as [H1 H2]. destruct (Nat.eq_dec (length data) 68) as [Hl|Hl]; [|rewrite (H1 Hl); discriminate].
  destruct data as [|c rest]; [discriminate|]. destruct (H2 c rest eq_refl Hl) as [H3 H4].
  destruct (Nat.le_gt_cases (nat_of_ascii c) 19) as [Hc|Hc]; [|rewrite (H4 Hc); discriminate].
  destruct (H3 Hc) as (h' & E' & _). rewrite E'. discriminate.
Qed.

Lemma handshake_eq e peerId infoHash s : length peerId = 20 -> length infoHash = 20 ->
  handshakePeer e peerId infoHash s =
    match e_write e (length (f_trace s)) with
    | WOk => after_handshake e (set_io s (f_script s) (CWrite (our_handshake peerId infoHash)))
    | WErr => (set_io s (f_script s) (CWrite (our_handshake peerId infoHash)), FPanic (PStr (B "write handshake err")))
    | WBlock => (set_io s (f_script s) (CWrite (our_handshake peerId infoHash)), FStop BlockedWrite)
    end.
Proof.
  intros Hp Hi. unfold handshakePeer, mbind at 1, lift at 1.
  destruct (C52_handshake_roundtrip_pf peerId infoHash Hp Hi) as (msg & _ & E & _). rewrite E.
  rewrite (hs_is _ _ _ E). unfold mbind at 1, m_write. destruct (e_write e (length (f_trace s))); [|reflexivity|reflexivity].
  cbn [negb]. unfold m_recv. change (handShakeLen =? 0) with false. cbv iota. unfold after_handshake. cbn [set_io f_script].
  destruct (f_script s) as [|seg rest]; [reflexivity|]. unfold handShakeLen. fold (arrived68 seg).
  unfold mbind at 1, lift at 1. unfold hs_fine.
  destruct (parseHandShakeMsg (arrived68 seg)) as [h|x|x] eqn:Ep; [|exfalso; eapply parse_no_err; exact Ep|reflexivity].
  destruct (EqualFold (e_fold e) supportProtocolName (hs_protocol h)); cbn [negb andb]; [|reflexivity].
  destruct (parse_rbytes _ _ Ep) as (b & Eb). unfold mbind, lift. rewrite Eb. destruct b; reflexivity.
Qed.

Lemma handshake_bad_ids e peerId infoHash s : length peerId <> 20 \/ length infoHash <> 20 ->
  handshakePeer e peerId infoHash s = (s, FPanic (PStr (B "wrong peerId or infohash"))).
Proof. intros H. unfold handshakePeer, mbind at 1, lift at 1. rewrite (C52_wrong_lengths_panic_pf _ _ H). reflexivity. Qed.

(** Changing the forty bytes of ids changes nothing. *)
Lemma hs_same_28 a t t' : length a = 28 -> length t = 40 -> length t' = 40 ->
  forall uf, hs_fine uf (arrived68 (a ++ t)) = hs_fine uf (arrived68 (a ++ t')).
Proof.
  intros Ha Ht Ht' uf.
  assert (E : forall x, length x = 40 -> arrived68 (a ++ x) = a ++ x).
  { intros x Hx. unfold arrived68. rewrite firstn_all2 by (rewrite app_length; lia). rewrite app_length. replace (68 - (length a + length x)) with 0 by lia. apply app_nil_r. }
  rewrite !E by assumption. destruct a as [|c a]; [discriminate|]. cbn [app length] in *.
  assert (K : forall x, length x = 40 -> exists h, (nat_of_ascii c <= 19 -> parseHandShakeMsg (c :: a ++ x) = Ok h /\
     hs_protocol h = firstn (nat_of_ascii c) a /\ hs_rbytes h = firstn 8 (skipn (nat_of_ascii c) a)) /\
     (19 < nat_of_ascii c -> parseHandShakeMsg (c :: a ++ x) = Panic PRuntime)).
  { intros x Hx. destruct (C52_parse_domain_pf (c :: a ++ x)) as [_ H2].
    destruct (H2 c (a ++ x) eq_refl ltac:(cbn [length]; rewrite app_length; lia)) as [H3 H4].
    destruct (Nat.le_gt_cases (nat_of_ascii c) 19) as [Hc|Hc].
    - destruct (H3 Hc) as (h & E1 & L1 & L2 & L3 & L4 & tail & E2). exists h. split; [|lia]. intros _. split; [exact E1|].
      rewrite <- (firstn_skipn (nat_of_ascii c) a) in E2 at 1. rewrite <- app_assoc in E2.
      apply app_inj_len in E2 as [E2 E3]; [|rewrite firstn_length; lia]. split; [auto|].
      rewrite <- (firstn_skipn 8 (skipn (nat_of_ascii c) a)) in E3 at 1. rewrite <- app_assoc in E3.
      apply app_inj_len in E3 as [E3 _]; [auto|]. rewrite firstn_length, skipn_length. lia.
    - exists {| hs_protocol := []; hs_rbytes := []; hs_infohash := []; hs_peerid := [] |}. split; [lia|]. intros _. apply H4. exact Hc. }
  destruct (K t Ht) as (h & K1 & K2). destruct (K t' Ht') as (h' & K1' & K2'). unfold hs_fine.
  destruct (Nat.le_gt_cases (nat_of_ascii c) 19) as [Hc|Hc].
  - destruct (K1 Hc) as (-> & P1 & R1). destruct (K1' Hc) as (-> & P1' & R1'). unfold SupportExtended. rewrite P1, P1', R1, R1'. reflexivity.
  - rewrite (K2 Hc), (K2' Hc). reflexivity.
Qed.

(** * The result is never longer than what was received *)

Definition plen (o : option slc) : nat := match o with Some b => Z.to_nat (s_len b) | None => 0 end.
Definition psum (l : list (option slc)) : nat := list_sum (map plen l).
Definition weight (s : fstate) : nat := psum (f_meta s) + length (concat (f_script s)).
Definition wstep {A} (m : M A) : Prop := forall s s' r, m s = (s', r) -> weight s' <= weight s.

Lemma w_bind {A C} (m : M A) (k : A -> M C) : wstep m -> (forall a, wstep (k a)) -> wstep (mbind m k).
Proof.
  intros Hm Hk s s' r E. unfold mbind in E. destruct (m s) as [s1 [a|x|p|x]] eqn:E1; specialize (Hm _ _ _ E1);
    [specialize (Hk a _ _ _ E); lia|injection E as <- <-; exact Hm..].
Qed.
Lemma w_same {A} (m : M A) : (forall s s' r, m s = (s', r) -> f_meta s' = f_meta s /\ f_script s' = f_script s) -> wstep m.
Proof. intros H s s' r E. destruct (H _ _ _ E) as [H1 H2]. unfold weight. rewrite H1, H2. lia. Qed.
Lemma w_lift {A} (x : res A) : wstep (lift x). Proof. apply w_same. intros s s' r E. injection E as <- <-. auto. Qed.
Lemma w_ret {A} (x : A) : wstep (ret x). Proof. apply w_same. intros s s' r E. injection E as <- <-. auto. Qed.
Lemma w_mpanic {A} x : wstep (@mpanic A x). Proof. apply w_same. intros s s' r E. injection E as <- <-. auto. Qed.
Lemma w_interfere e : wstep (interfere e).
Proof. apply w_same. intros s s' r E. unfold interfere in E. destruct (e_intf e (f_tick s) (f_pool s, f_heap s)). injection E as <- <-. auto. Qed.
Lemma w_get e n : wstep (m_get e n).
Proof. apply w_bind; [apply w_interfere|]. intros _. apply w_same. intros s s' r E. destruct (GetBySize _ _ _) as [[[p h] b]| |]; injection E as <- <-; auto. Qed.
Lemma w_put e b : wstep (m_put e b).
Proof. apply w_bind; [apply w_interfere|]. intros _. apply w_same. intros s s' r E. injection E as <- <-. auto. Qed.
Lemma w_show b : wstep (m_show b). Proof. apply w_same. intros s s' r E. injection E as <- <-. auto. Qed.
Lemma w_ord e : wstep (m_ord e). Proof. apply w_same. intros s s' r E. injection E as <- <-. auto. Qed.
Lemma w_make e a b : wstep (m_make e a b).
Proof. apply w_same. intros s s' r E. unfold m_make in E. destruct (_ || _); [injection E as <- <-; auto|]. destruct (e_mem e (a * b)); injection E as <- <-; auto. Qed.
Lemma w_write e b : wstep (m_write e b).
Proof. apply w_same. intros s s' r E. unfold m_write in E. destruct (e_write e (length (f_trace s))); injection E as <- <-; auto. Qed.

(** Bytes delivered are bytes consumed. *)
Lemma recv_weight want s s' r : m_recv want s = (s', r) -> weight s' + match r with FOk d => length d | _ => 0 end <= weight s.
Proof.
  unfold m_recv. destruct (want =? 0); [intros E; injection E as <- <-; unfold weight; cbn [set_io f_meta f_script length]; lia|].
  destruct (f_script s) as [|seg rest] eqn:Es; intros E; injection E as <- <-; unfold weight; cbn [set_io f_meta f_script]; rewrite Es; [lia|].
  cbn [concat]. rewrite app_length, firstn_length. pose proof (skipn_length want seg) as Hs.
  destruct (skipn want seg) as [|x l] eqn:El; cbn [concat length] in *; rewrite ?app_length; cbn [length]; lia.
Qed.
Lemma read_weight e b s s' r : m_read e b s = (s', r) -> weight s' + match r with FOk n => n | _ => 0 end <= weight s.
Proof.
  unfold m_read, mbind. destruct (interfere e s) as [s1 r1] eqn:E1. pose proof (w_interfere e _ _ _ E1) as H1.
  destruct r1; try (intros E; injection E as <- <-; lia).
  destruct (m_recv (Z.to_nat (s_len b)) s1) as [s2 r2] eqn:E2. pose proof (recv_weight _ _ _ _ E2) as H2.
  destruct r2; intros E; injection E as <- <-; unfold weight in *; cbn [set_ph f_meta f_script]; lia.
Qed.
Lemma w_read e b : wstep (m_read e b).
Proof. intros s s' r E. apply read_weight in E. lia. Qed.

Lemma readBytes_weight e s s' r : readBytesByPrefixLenMsg e s = (s', r) ->
  weight s' + match r with FOk (Some b) => Z.to_nat (s_len b) | _ => 0 end <= weight s.
Proof.
  intros E. unfold readBytesByPrefixLenMsg in E.
  unfold mbind at 1 in E. destruct (m_get e PrefixLen s) as [s1 r1] eqn:E1. pose proof (w_get _ _ _ _ _ E1) as H1.
  destruct r1 as [pre|x|x|x]; try (injection E as <- <-; lia).
  unfold mbind at 1 in E. destruct (m_read e pre s1) as [s2 r2] eqn:E2. pose proof (w_read _ _ _ _ _ E2) as H2.
  destruct r2 as [n|x|x|x]; try (injection E as <- <-; lia).
  unfold mbind at 1 in E. cbn [m_show] in E. unfold mbind at 1, lift at 1 in E.
  destruct (Uint32 (h_read (f_heap s2) pre)) as [k| |]; try (injection E as <- <-; lia).
  destruct (k =? 0)%N; [injection E as <- <-; lia|].
  unfold mbind at 1 in E. destruct (m_put e pre s2) as [s3 r3] eqn:E3. pose proof (w_put _ _ _ _ _ E3) as H3.
  destruct r3 as [u|x|x|x]; try (injection E as <- <-; lia).
  destruct (Z.to_N maxReadLength <? k)%N; [injection E as <- <-; lia|].
  unfold mbind at 1 in E. destruct (m_get e maxReadLength s3) as [s4 r4] eqn:E4. pose proof (w_get _ _ _ _ _ E4) as H4.
  destruct r4 as [buf|x|x|x]; try (injection E as <- <-; lia).
  unfold mbind at 1 in E. destruct (m_read e buf s4) as [s5 r5] eqn:E5. pose proof (read_weight _ _ _ _ _ E5) as H5.
  destruct r5 as [m|x|x|x]; injection E as <- <-; cbn [s_len]; lia.
Qed.

Lemma psum_set l i x : psum (list_set l i x) <= psum l + plen x.
Proof.
  revert i. induction l as [|y l IH]; intros [|i]; cbn [list_set]; try lia.
  - change (psum (x :: l)) with (plen x + psum l). change (psum (y :: l)) with (plen y + psum l). lia.
  - specialize (IH i). change (psum (y :: list_set l i x)) with (plen y + psum (list_set l i x)). change (psum (y :: l)) with (plen y + psum l). lia.
Qed.
Lemma psum_none n : psum (repeat None n) = 0.
Proof. induction n as [|n IH]; [reflexivity|]. cbn. exact IH. Qed.

Lemma w_requests e is : wstep (request_pieces e is).
Proof.
  induction is as [|i t IH]; cbn [request_pieces]; [apply w_ret|]. apply w_bind; [apply w_ord|]. intros o. apply w_bind; [apply w_lift|]. intros m.
  apply w_bind; [apply w_write|]. intros [|]; [exact IH|apply w_mpanic].
Qed.

Lemma parse_off data m off : parseExtendedFetchMetaMsg data = Ok m -> fm_data m = Some off -> 2 <= off < length data.
Proof.
  unfold parseExtendedFetchMetaMsg. destruct (idx data 0) as [t| |]; [|discriminate..]. cbn [bind].
  destruct (negb (ExtendedPeerMsg =? bval t)%N); [discriminate|]. destruct (idx data 1) as [i| |]; [|discriminate..]. cbn [bind].
  destruct (DecodeDictNoLimit (skipn 2 data)) as [[d n]| |]; [|discriminate..]. cbv zeta.
  destruct (Nat.leb_spec (length data) (n + 2)) as [H|H].
  - destruct (GetInteger d (B "msg_type")); [|discriminate..]. cbn [bind]. destruct (GetInteger d (B "piece")); [|discriminate..]. cbn [bind].
    intros E. injection E as <-. discriminate.
  - destruct (GetInteger d (B "total_size")); [|discriminate..]. cbn [bind].
    destruct (GetInteger d (B "msg_type")); [|discriminate..]. cbn [bind]. destruct (GetInteger d (B "piece")); [|discriminate..]. cbn [bind].
    intros E. injection E as <-. cbn [fm_data]. intros E. injection E as <-. lia.
Qed.

Lemma handle_weight e b s s' r : handle_msg e b s = (s', r) -> weight s' <= weight s + Z.to_nat (s_len b).
Proof.
  intros E. unfold handle_msg, mbind at 1 in E. cbn [m_show] in E. unfold mbind at 1, lift at 1 in E.
  destruct (parsePrefixLenMsg (h_read (f_heap s) b)) as [ty| |]; try (injection E as <- <-; lia).
  destruct (ty =? ExtendedPeerMsg)%N; [|injection E as <- <-; lia].
  unfold handleExtendedMsg, mbind at 1, lift at 1 in E. destruct (idx (h_read (f_heap s) b) 1) as [id| |]; try (injection E as <- <-; lia).
  destruct (bval id =? 0)%N; [|destruct (bval id =? 1)%N; [|injection E as <- <-; lia]].
  - unfold handle_ext_handshake, mbind at 1, lift at 1 in E. destruct (parseExtendedHandShake (h_read (f_heap s) b)) as [dict| |]; try (injection E as <- <-; lia).
    destruct (negb (Exist dict (B "metadata_size"))); [injection E as <- <-; lia|].
    unfold mbind at 1, lift at 1 in E. destruct (GetInteger dict (B "metadata_size")) as [sz| |]; try (injection E as <- <-; lia).
    match type of E with ?m s = _ => assert (H : wstep m) end; [|specialize (H _ _ _ E); lia].
    apply w_bind; [apply w_same; intros x x' y Ex; injection Ex as <- <-; auto|]. intros _.
    apply w_bind; [apply w_make|]. intros _.
    apply w_bind; [intros x x' y Ex; injection Ex as <- <-; unfold weight; cbn [set_meta f_meta f_script]; rewrite psum_none; lia|]. intros _.
    apply w_bind; [apply w_make|]. intros _.
    apply w_bind; [apply w_same; intros x x' y Ex; injection Ex as <- <-; auto|]. intros _. apply w_requests.
  - unfold handle_piece, mbind at 1, lift at 1 in E. destruct (parseExtendedFetchMetaMsg (h_read (f_heap s) b)) as [m| |] eqn:Em; try (injection E as <- <-; lia).
    destruct (negb (fm_type m =? ExData)%Z); [injection E as <- <-; lia|]. cbv zeta in E.
    destruct (_ || _); [injection E as <- <-; lia|].
    set (pc := match fm_data m with Some off => _ | None => _ end) in E.
    assert (Hpc : plen pc <= Z.to_nat (s_len b)).
    { subst pc. destruct (fm_data m) as [off|]; cbn [plen s_len]; lia. }
    pose proof (psum_set (f_meta s) (Z.to_nat (fm_piece m)) pc) as Hs.
    destruct (_ <=? _)%Z; injection E as <- <-; unfold weight; cbn [set_meta f_meta f_script]; lia.
Qed.

Lemma w_handler e : wstep (readMetaDataHandler e).
Proof.
  intros s s' r E. unfold readMetaDataHandler in E. destruct (readBytesByPrefixLenMsg e s) as [s1 r1] eqn:E1.
  pose proof (readBytes_weight _ _ _ _ E1) as H1. destruct r1 as [[b|]|x|x|x]; try (injection E as <- <-; lia).
  unfold with_put in E. destruct (handle_msg e b s1) as [s2 r2] eqn:E2. pose proof (handle_weight _ _ _ _ _ E2) as H2.
  destruct (m_put e b s2) as [s3 r3] eqn:E3. pose proof (w_put _ _ _ _ _ E3) as H3. cbn [fst] in E.
  destruct r2; try (injection E as <- <-; lia); destruct (0 <? s_cap b)%Z; injection E as <- <-; lia.
Qed.
Lemma w_loop e : forall f, wstep (readMetaDataLoop e f).
Proof.
  induction f as [|f IH]; intros s s' r E; cbn [readMetaDataLoop] in E; [injection E as <- <-; lia|].
  destruct (_ && _); [|injection E as <- <-; lia]. eapply (w_bind _ _ (w_handler e) (fun _ => IH)); exact E.
Qed.

Lemma merge_length e : forall n j s acc s' d, merge e (seq j n) acc s = (s', FOk d) ->
  length d <= length acc + psum (firstn n (skipn j (f_meta s))).
Proof.
  induction n as [|n IH]; intros j s acc s' d E; cbn [seq merge] in E; [injection E as <- <-; lia|].
  unfold mbind at 1 in E. destruct (interfere e s) as [s1 r1] eqn:E1.
  assert (Hm : f_meta s1 = f_meta s) by (unfold interfere in E1; destruct (e_intf e (f_tick s) (f_pool s, f_heap s)); injection E1 as <- _; reflexivity).
  destruct r1; try discriminate. rewrite Hm in E. destruct (nth_error (f_meta s) j) as [o|] eqn:En; [|discriminate].
  assert (Hsk : skipn j (f_meta s) = o :: skipn (S j) (f_meta s)).
  { clear - En. revert j En. generalize (f_meta s). induction l as [|y l IH]; intros [|j] En; try discriminate; [injection En as ->; reflexivity|]. cbn in *. apply IH. exact En. }
  assert (Hp : psum (firstn (S n) (skipn j (f_meta s))) = plen o + psum (firstn n (skipn (S j) (f_meta s)))) by (rewrite Hsk; reflexivity).
  rewrite Hp. destruct o as [b|]; apply IH in E; rewrite Hm in E; cbn [plen]; [|lia].
  rewrite app_length in E. unfold h_read in E. rewrite firstn_length in E. lia.
Qed.

Lemma psum_firstn n : forall l, psum (firstn n l) <= psum l.
Proof.
  induction n as [|n IH]; intros [|x l]; cbn [firstn]; [lia|apply Nat.le_0_l|lia|].
  specialize (IH l). change (psum (x :: firstn n l)) with (plen x + psum (firstn n l)). change (psum (x :: l)) with (plen x + psum l). lia.
Qed.

Lemma w_after e : wstep (after_handshake e).
Proof.
  intros s s' r. unfold after_handshake. destruct (f_script s) as [|seg rest] eqn:Es; intros E; apply (f_equal fst) in E; cbn [fst] in E; subst s';
    unfold weight; cbn [set_io f_meta f_script]; rewrite Es; [lia|]. generalize handShakeLen. intros n.
  cbn [concat]. rewrite app_length. pose proof (skipn_length n seg) as Hs.
  destruct (skipn n seg) as [|y l] eqn:El; cbn [concat length] in *; rewrite ?app_length; cbn [length]; lia.
Qed.

Lemma fetch_weight e p h script peerId infoHash s d :
  FetchMetaData e p h (Some script) peerId infoHash = (s, FOk d) -> length d <= length (concat script).
Proof.
  unfold FetchMetaData. set (s0 := NewPeerConn p h script).
  assert (H0 : weight s0 = length (concat script)) by (unfold weight, s0, NewPeerConn; cbn [f_meta f_script]; rewrite psum_none; reflexivity).
  intros E. destruct (fetch_body e peerId infoHash s0) as [sb rb] eqn:Eb. destruct rb as [d'|x|x|x]; try discriminate. injection E as _ ->.
  unfold fetch_body, mbind at 1 in Eb. destruct (handshakePeer e peerId infoHash s0) as [s1 [u| | |]] eqn:E1; try discriminate.
  assert (H1 : weight s1 <= weight s0).
  { revert E1. destruct (Nat.eq_dec (length peerId) 20) as [Hp|Hp]; [|rewrite handshake_bad_ids by auto; discriminate].
    destruct (Nat.eq_dec (length infoHash) 20) as [Hi|Hi]; [|rewrite handshake_bad_ids by auto; discriminate].
    rewrite (handshake_eq e _ _ _ Hp Hi). destruct (e_write e (length (f_trace s0))); try discriminate. intros E. apply w_after in E. exact E. }
  unfold mbind at 1 in Eb. destruct (initialMessages e s1) as [s2 [u2| | |]] eqn:E2; try discriminate.
  assert (H2 : weight s2 <= weight s1).
  { revert E2. apply w_bind; [apply w_ord|]. intros o. apply w_bind; [apply w_lift|]. intros m. apply w_bind; [apply w_write|].
    intros [|]; [apply w_ret|apply w_mpanic]. }
  unfold mbind at 1 in Eb. destruct (readMetaDataLoop e (loop_fuel (f_script s2)) s2) as [s3 [u3| | |]] eqn:E3; try discriminate.
  pose proof (w_loop e _ _ _ _ E3) as H3. cbn beta in Eb. destruct (negb (CompledMetaData s3)); [discriminate|].
  unfold mbind at 1 in Eb. destruct (m_make e 1 (f_size s3) s3) as [s4 r4] eqn:E4.
  assert (s4 = s3) as -> by (unfold m_make in E4; destruct (_ || _); [|destruct (e_mem e _)]; injection E4 as <- _; reflexivity).
  destruct r4; try discriminate. unfold mbind at 1 in Eb.
  destruct (merge e (seq 0 (length (f_req s3))) [] s3) as [s5 [res| | |]] eqn:E5; try discriminate.
  destruct (negb (beq infoHash (GenerateInfoHash res))); [discriminate|]. injection Eb as _ ->.
  apply merge_length in E5. cbn [skipn length] in E5. pose proof (psum_firstn (length (f_req s3)) (f_meta s3)). unfold weight in *. lia.
Qed.
