(** NetAddrPf.v -- proofs of C123 and C124 (addresses as text). *)
From Verif Require Import Base GoLib Bencode BencodeSpec Types TypesPf Node NodePf ErrorsPf Middleware Krpc KrpcSpec Dht FetchTorrent FetchTorrentSpec FetchTorrentPf NetAddr NetAddrSpec NetAddrProofs.
Local Open Scope list_scope.

(** ** Lemmas *)
Lemma is_v4_dec i : {is_v4 i} + {~ is_v4 i}.
Proof.
  unfold is_v4. destruct (Nat.eq_dec (length i) 4) as [H|H]; [left; left; exact H|].
  destruct (Nat.eq_dec (length i) 16) as [H6|H6]; [|right; intros [H1|[H1 _]]; congruence].
  destruct (list_eq_dec ascii_dec (firstn 12 i) (repeat (byte_of 0) 10 ++ [byte_of 255; byte_of 255])) as [E|E]; [left; right; split; assumption|].
  right. intros [H1|[_ H1]]; congruence.
Qed.
Lemma v4_shape i : is_v4 i -> exists a b c d, v4 i a b c d /\ wide i = v4prefix ++ [a; b; c; d].
Proof.
  intros [H|[H H2]].
  - destruct i as [|a [|b [|c [|d [|]]]]]; try discriminate H. exists a, b, c, d. split; [left; reflexivity|]. unfold wide, v4prefix. rewrite <- app_assoc. reflexivity.
  - rewrite <- (firstn_skipn 12 i). rewrite H2. assert (Hl : length (skipn 12 i) = 4) by (rewrite skipn_length; lia).
    destruct (skipn 12 i) as [|a [|b [|c [|d [|]]]]]; try discriminate Hl. exists a, b, c, d. split; [right; reflexivity|]. reflexivity.
Qed.
Lemma v4_is i a b c d : v4 i a b c d -> is_v4 i.
Proof. intros [->| ->]; [left|right]; [reflexivity|split; reflexivity]. Qed.
Lemma v6_shape i : length i = 4 \/ length i = 16 -> ~ is_v4 i -> v6 i /\ wide i = i.
Proof.
  intros [H|H] Hn; [elim Hn; left; exact H|]. split; [split; [exact H|intros E; apply Hn; right; split; assumption]|]. unfold wide. rewrite H. reflexivity.
Qed.
Lemma dotted_v4text a b c d : dotted a b c d = v4text a b c d.
Proof. unfold dotted, v4text. rewrite !itoa_bval. reflexivity. Qed.
Lemma ip6_first_sep i t : length i = 16 -> first_sep (ip6_text i ++ t) = Some ":"%char.
Proof.
  intros Hi. assert (Hh : forall s r, Forall (fun c => is_hexdigit c = true) s -> first_sep (s ++ r) = first_sep r).
  { intros s r. induction 1 as [|c s Hc _ IH]; [reflexivity|]. cbn [app first_sep].
    replace (Ascii.eqb c ".") with false by (symmetry; apply Ascii.eqb_neq; intros ->; discriminate).
    replace (Ascii.eqb c ":") with false by (symmetry; apply Ascii.eqb_neq; intros ->; discriminate). exact IH. }
  unfold ip6_text. pose proof (groups16_len 8 i Hi) as Hg. destruct (best_run 0 (groups16 i) (0, 0)) as [e0 n]. destruct (n <=? 1).
  - destruct (groups16 i) as [|g0 [|g1 gs]]; cbn [length] in Hg; try lia. cbn [map join concat]. rewrite <- !app_assoc. unfold hexnum at 1. rewrite Hh by apply hex_groups_chars. reflexivity.
  - destruct (firstn e0 (groups16 i)) as [|g0 [|g1 gs]]; cbn [map join concat app].
    + reflexivity.
    + rewrite <- !app_assoc. unfold hexnum at 1. rewrite Hh by apply hex_groups_chars. reflexivity.
    + rewrite <- !app_assoc. unfold hexnum at 1. rewrite Hh by apply hex_groups_chars. reflexivity.
Qed.
Lemma ip6_no_percent i : Forall (fun c => c <> "%"%char) (ip6_text i).
Proof.
  assert (Hj : forall l, Forall (fun c => c <> "%"%char) (join (B ":") (map hexnum l))).
  { intros l. destruct l as [|x l]; cbn [map join]; [constructor|].
    assert (Hx : forall n, Forall (fun c => c <> "%"%char) (hexnum n)) by (intros n; eapply Forall_impl; [|apply hex_groups_chars]; cbn beta; intros c H ->; discriminate).
    apply Forall_app. split; [apply Hx|]. induction l as [|y l IH]; cbn [map concat]; [constructor|]. apply Forall_app. split; [|exact IH]. constructor; [discriminate|apply Hx]. }
  unfold ip6_text. destruct (best_run 0 (groups16 i) (0, 0)) as [e0 n]. destruct (n <=? 1); [apply Hj|]. apply Forall_app. split; [apply Hj|]. apply Forall_app.
  split; [repeat constructor; discriminate|apply Hj].
Qed.
Lemma parse_v6text i z : length i = 16 -> (z = [] \/ Forall (fun c => c <> "%"%char) z) ->
  parseIPZone (match z with [] => ip6_text i | _ => ip6_text i ++ B "%" ++ z end) = Some {| ia_ip := i; ia_zone := z |}.
Proof.
  intros Hi Hz. unfold parseIPZone. destruct z as [|z0 z].
  - pose proof (ip6_first_sep i [] Hi) as Hs. rewrite app_nil_r in Hs. rewrite Hs. change (Ascii.eqb ":" ".") with false. cbv iota.
    unfold splitHostZone. rewrite (proj2 (last_none _ _) (ip6_no_percent i)). rewrite parse_ip6_text by exact Hi. reflexivity.
  - destruct Hz as [Hz|Hz]; [discriminate|]. rewrite ip6_first_sep by exact Hi. change (Ascii.eqb ":" ".") with false. cbv iota.
    unfold splitHostZone. change (B "%" ++ z0 :: z) with ("%"%char :: z0 :: z). rewrite last_app by exact Hz.
    destruct (length (ip6_text i)) as [|k] eqn:El.
    { apply length_zero_iff_nil in El. pose proof (ip6_colon i Hi) as Hc. rewrite El in Hc. destruct Hc. }
    rewrite <- El. assert (Ef : firstn (length (ip6_text i)) (ip6_text i ++ "%"%char :: z0 :: z) = ip6_text i) by (rewrite firstn_app, firstn_all, Nat.sub_diag; apply app_nil_r).
    rewrite Ef. replace (skipn (S (length (ip6_text i))) (ip6_text i ++ "%"%char :: z0 :: z)) with (z0 :: z).
    2: { rewrite skipn_app, skipn_all2 by lia. replace (S (length (ip6_text i)) - length (ip6_text i)) with 1 by lia. reflexivity. }
    rewrite parse_ip6_text by exact Hi. reflexivity.
Qed.

(** The host part of the text of an address. *)
Definition host_text (a : udpaddr) : bytes := match zone a with [] => ip_string (ip a) | z => ip_string (ip a) ++ B "%" ++ z end.
Definition hchars (v : Prop) (h : bytes) : Prop := Forall (fun c => c <> "["%char /\ c <> "]"%char) h /\ (v -> Forall (fun c => c <> ":"%char) h) /\ (~ v -> In ":"%char h).
Lemma host_parts a : sock_addr a ->
  addr_string a = JoinHostPort (host_text a) (itoa (port a)) /\ hchars (is_v4 (ip a)) (host_text a) /\ host_text a <> [] /\
  parseIPZone (host_text a) = Some {| ia_ip := wide (ip a); ia_zone := zone a |}.
Proof.
  intros [Hi Hp Hz]. split.
  { unfold addr_string, host_text. destruct (ip a) as [|i0 i] eqn:E; [cbn in Hi; destruct Hi; lia|]. reflexivity. }
  unfold host_text. destruct (is_v4_dec (ip a)) as [Hv|Hv].
  - assert (Ez : zone a = []) by tauto. rewrite Ez. destruct (v4_shape _ Hv) as (x & y & z & w & H4 & Ew). destruct (ip_string_v4 _ _ _ _ _ H4) as [E _].
    rewrite E, Ew, dotted_v4text, parse_v4text. split; [|split; [|reflexivity]].
    + rewrite <- dotted_v4text. pose proof (dotted_host x y z w) as Hh. split; [|split].
      * eapply Forall_impl; [|exact Hh]. unfold host_char. tauto.
      * intros _. eapply Forall_impl; [|exact Hh]. unfold host_char. tauto.
      * intros Hn. contradiction.
    + unfold v4text. pose proof (utoa_nonempty (bval x)). destruct (utoa (bval x)); [congruence|discriminate].
  - destruct (v6_shape _ Hi Hv) as [H6 Ew]. destruct (ip_string_v6 _ H6) as [E _]. rewrite E, Ew. destruct H6 as [Hl _].
    assert (Hzc : zone a = [] \/ Forall (fun c => c <> "%"%char) (zone a)) by (destruct Hz as [Hz|[_ Hz]]; [left; exact Hz|right; eapply Forall_impl; [|exact Hz]; cbn beta; tauto]).
    split; [|split; [|pose proof (parse_v6text (ip a) (zone a) Hl Hzc) as Hx; destruct (zone a); exact Hx]].
    + assert (Hc6 : Forall (fun c => c <> "["%char /\ c <> "]"%char) (ip6_text (ip a))) by apply ip6_chars. destruct (zone a) as [|z0 z] eqn:Ez.
      * split; [exact Hc6|]. split; [contradiction|]. intros _. apply ip6_colon. exact Hl.
      * destruct Hz as [Hz|[_ Hz]]; [discriminate|]. split; [|split; [contradiction|intros _; apply in_or_app; left; apply ip6_colon; exact Hl]].
        apply Forall_app. split; [exact Hc6|]. constructor; [split; discriminate|]. eapply Forall_impl; [|exact Hz]. cbn beta. tauto.
    + pose proof (ip6_colon _ Hl) as Hc. destruct (ip6_text (ip a)); [destruct Hc|]. destruct (zone a); discriminate.
Qed.
Lemma itoa_nocolon z : Forall (fun c => c <> ":"%char) (itoa z).
Proof. eapply Forall_impl; [|apply itoa_host]. unfold host_char. tauto. Qed.
Lemma split_join v h z : hchars v h -> {v} + {~ v} -> SplitHostPort (JoinHostPort h (itoa z)) = NOk (h, itoa z) /\ (existsb (fun c => Ascii.eqb c "[") (JoinHostPort h (itoa z)) = true <-> ~ v).
Proof.
  intros (H1 & H2 & H3) [Hv|Hv]; unfold JoinHostPort.
  - specialize (H2 Hv). replace (existsb (fun c => Ascii.eqb c ":") h) with false.
    2: { symmetry. destruct (existsb _ h) eqn:E; [|reflexivity]. apply existsb_exists in E as (c & Hin & Hc). apply Ascii.eqb_eq in Hc. subst c. rewrite Forall_forall in H2. elim (H2 _ Hin eq_refl). }
    split.
    + apply split_plain. apply Forall_app. split; [|apply itoa_host]. rewrite Forall_forall in *. intros c Hin. specialize (H1 _ Hin). specialize (H2 _ Hin). tauto.
    + split; [|tauto]. intros E. exfalso. apply existsb_exists in E as (c & Hin & Hc). apply Ascii.eqb_eq in Hc. subst c. apply in_app_or in Hin as [Hin|Hin].
      * rewrite Forall_forall in H1. elim (proj1 (H1 _ Hin) eq_refl).
      * apply in_app_or in Hin as [[Hin|[]]|Hin]; [discriminate|]. pose proof (itoa_host z) as Hh. rewrite Forall_forall in Hh. elim (proj1 (proj2 (Hh _ Hin)) eq_refl).
  - replace (existsb (fun c => Ascii.eqb c ":") h) with true.
    2: { symmetry. apply existsb_exists. exists ":"%char. split; [apply H3; exact Hv|reflexivity]. }
    split; [|split; [intros _; exact Hv|reflexivity]]. apply split_bracket; [|apply itoa_nocolon]. apply Forall_app. split; [exact H1|]. eapply Forall_impl; [|apply itoa_host]. unfold host_char. tauto.
Qed.

Lemma To4_wide i : length i = 4 \/ length i = 16 -> (To4 (wide i) <> [] <-> is_v4 i).
Proof.
  intros Hi. destruct (is_v4_dec i) as [Hv|Hv].
  - split; [auto|]. intros _. destruct (v4_shape _ Hv) as (a & b & c & d & _ & ->). discriminate.
  - split; [|contradiction]. intros H. exfalso. apply H. destruct (v6_shape _ Hi Hv) as [[Hl Hn] ->]. unfold To4. rewrite Hl. change (16 =? 4) with false. change (16 =? 16) with true. cbn [andb].
    fold v4prefix in Hn. apply beq_neq in Hn. rewrite Hn. reflexivity.
Qed.
Lemma wide_zero i : length i = 4 \/ length i = 16 -> (beq (wide i) v6zero = true <-> i = v6zero).
Proof.
  intros Hi. rewrite beq_eq. split; [|intros ->; reflexivity]. unfold wide. destruct Hi as [Hi|Hi]; rewrite Hi; [|auto]. intros E. discriminate E.
Qed.
(** What the literal text of an address resolves to, whatever the port. *)
Definition candidates (a : udpaddr) (p : Z) : list udpaddr :=
  {| ip := wide (ip a); port := p; zone := zone a |} :: (if beq (wide (ip a)) v6zero then [mkaddr v4zero p] else []).
Lemma addr_list nm net a z : sock_addr a -> net <> NetUdp4 ->
  internetAddrList nm net (JoinHostPort (host_text a) (itoa z)) =
  match LookupPort (nm_service nm) (itoa z) with NErr e => NErr e | NOk p => NOk (candidates a p) end.
Proof.
  intros Ha Hn. destruct (host_parts a Ha) as (_ & Hc & Hne & Hp). destruct (split_join _ _ z Hc (is_v4_dec (ip a))) as [Hs _].
  unfold internetAddrList. destruct (JoinHostPort (host_text a) (itoa z)) as [|s0 s] eqn:Es.
  { exfalso. unfold JoinHostPort in Es. destruct (existsb _ _); [discriminate|]. destruct (host_text a); discriminate. }
  rewrite Hs. cbn [nbind fst snd]. destruct (LookupPort (nm_service nm) (itoa z)) as [p|e]; [|reflexivity]. cbn [nbind fst snd].
  destruct (host_text a) as [|h0 h] eqn:Eh; [congruence|]. unfold lookupIPAddr. rewrite Hp. cbn [nbind ia_ip]. unfold candidates.
  destruct (beq (wide (ip a)) v6zero); destruct net; try congruence; reflexivity.
Qed.
Lemma lookup_small svc z : (0 <= z <= 65535)%Z -> LookupPort svc (itoa z) = NOk z.
Proof.
  intros H. unfold LookupPort. rewrite port_small by exact H. cbn [nbind]. replace ((z <? 0) || (65535 <? z))%Z with false; [reflexivity|]. symmetry. apply orb_false_iff. lia.
Qed.

(** ** C123 *)

(** C123: an address that a socket delivered, written as text, is read back as the same address, without asking any name
    service. *)
Lemma C123_read_back_pf : forall nm a, sock_addr a -> ResolveUDPAddr nm NetUdp (addr_string a) = NOk (widened a).
Proof.
  intros nm a Ha. destruct (host_parts a Ha) as (E & Hc & _). unfold ResolveUDPAddr. rewrite E, addr_list by (first [exact Ha|discriminate]). rewrite lookup_small by apply Ha. cbn [nbind].
  unfold forResolve. destruct (split_join _ _ (port a) Hc (is_v4_dec (ip a))) as [_ Hw]. pose proof (To4_wide _ (sa_ip a Ha)) as H4. pose proof (wide_zero _ (sa_ip a Ha)) as H0.
  unfold candidates, first_such, addr4. destruct (is_v4_dec (ip a)) as [Hv|Hv].
  - destruct (existsb _ (JoinHostPort _ _)); [exfalso; apply Hw; [reflexivity|exact Hv]|].
    cbn [filter ip]. assert (Hb : beq (To4 (wide (ip a))) [] = false) by (apply beq_neq; apply H4; exact Hv). rewrite Hb. reflexivity.
  - assert (Hw' : existsb (fun c => Ascii.eqb c "[") (JoinHostPort (host_text a) (itoa (port a))) = true) by (apply Hw; exact Hv). rewrite Hw'.
    cbn [filter ip]. assert (Hb : beq (To4 (wide (ip a))) [] = true). { destruct (beq (To4 (wide (ip a))) []) eqn:Eb; [reflexivity|]. apply beq_neq in Eb. apply H4 in Eb. contradiction. }
    rewrite Hb. cbn [negb]. reflexivity.
Qed.

(** C123: so the text names the address: two different addresses are never written alike, in the log or anywhere else. *)
Lemma C123_unambiguous_pf : forall a b, sock_addr a -> sock_addr b -> addr_string a = addr_string b -> widened a = widened b.
Proof.
  intros a b Ha Hb E. pose proof (C123_read_back_pf no_names a Ha) as H1. pose proof (C123_read_back_pf no_names b Hb) as H2. rewrite E, H2 in H1. congruence.
Qed.

Definition unupper (c : byte) : Prop := (N_of_ascii c < 65 \/ 90 < N_of_ascii c < 128)%N.
Lemma unupper_fold uf s t : Forall unupper s -> Forall unupper t -> EqualFold uf s t = true -> s = t.
Proof.
  assert (Hlow : forall s, Forall unupper s -> map lower s = s).
  { induction 1 as [|c s0 Hc Hs IH]; [reflexivity|]. cbn [map]. rewrite IH. f_equal. unfold lower. unfold unupper in Hc.
    destruct (N.leb_spec 65 (N_of_ascii c)); [|reflexivity]. destruct (N.leb_spec (N_of_ascii c) 90); [lia|reflexivity]. }
  intros Hs Ht E. destruct (C17_equal_fold_pf uf s t) as (_ & _ & H).
  assert (Ha : forall s, Forall unupper s -> ascii_string s) by (intros s0 H0; eapply Forall_impl; [|exact H0]; unfold unupper; intros c Hc; lia).
  apply (H (Ha _ Hs) (Ha _ Ht)) in E. rewrite !Hlow in E by assumption. exact E.
Qed.
Lemma digit_unupper c : is_hexdigit c = true -> unupper c.
Proof. unfold is_hexdigit, is_digit, unupper, bval. intros H. apply orb_true_iff in H as [H|H]; apply andb_true_iff in H as [H1 H2]; apply N.leb_le in H1, H2; lia. Qed.
Lemma utoa_unupper n : Forall unupper (utoa n).
Proof. eapply Forall_impl; [|apply utoa_digits]. cbn beta. intros c H. apply digit_unupper. unfold is_hexdigit. rewrite H. reflexivity. Qed.
Lemma itoa_unupper z : Forall unupper (itoa z).
Proof. unfold itoa. destruct (z <? 0)%Z; [constructor; [left; reflexivity|]|]; apply utoa_unupper. Qed.
Lemma hexnum_unupper l : Forall unupper (join (B ":") (map hexnum l)).
Proof.
  assert (Hx : forall n, Forall unupper (hexnum n)) by (intros n; eapply Forall_impl; [|apply hex_groups_chars]; cbn beta; apply digit_unupper).
  destruct l as [|x l]; cbn [map join]; [constructor|]. apply Forall_app. split; [apply Hx|].
  induction l as [|y l IH]; cbn [map concat]; [constructor|]. apply Forall_app. split; [|exact IH]. constructor; [left; reflexivity|apply Hx].
Qed.
Lemma addr_unupper a : sock_addr a -> zone a = [] -> Forall unupper (addr_string a).
Proof.
  intros Ha Hz. destruct (host_parts a Ha) as (E & _). rewrite E. unfold host_text. rewrite Hz.
  assert (Hh : Forall unupper (ip_string (ip a))).
  { destruct (is_v4_dec (ip a)) as [Hv|Hv].
    - destruct (v4_shape _ Hv) as (x & y & z & w & H4 & _). rewrite (proj1 (ip_string_v4 _ _ _ _ _ H4)), dotted_v4text. unfold v4text.
      repeat (apply Forall_app; split; [apply utoa_unupper|]; apply Forall_app; split; [repeat constructor; left; reflexivity|]). apply utoa_unupper.
    - destruct (v6_shape _ (sa_ip a Ha) Hv) as [H6 _]. rewrite (proj1 (ip_string_v6 _ H6)). unfold ip6_text. destruct (best_run 0 (groups16 (ip a)) (0, 0)) as [e0 n].
      destruct (n <=? 1); [apply hexnum_unupper|]. apply Forall_app. split; [apply hexnum_unupper|]. apply Forall_app. split; [repeat constructor; left; reflexivity|apply hexnum_unupper]. }
  unfold JoinHostPort. destruct (existsb _ _); repeat (apply Forall_app; split; try exact Hh; try apply itoa_unupper; try (repeat constructor; first [left; reflexivity|right; split; reflexivity])).
Qed.

(** C123: two nodes compare equal - the test by which the routing table recognises a node - exactly if their ids are
    equal up to case and their addresses are the same, for IPv4 and IPv6. *)
Lemma C123_same_node_pf : forall uf m n, sock_addr (naddr m) -> sock_addr (naddr n) -> zone (naddr m) = [] -> zone (naddr n) = [] ->
  (Equals uf m n = true <-> EqualFold uf (nid m) (nid n) = true /\ wide (ip (naddr m)) = wide (ip (naddr n)) /\ port (naddr m) = port (naddr n)).
Proof.
  intros uf m n Hm Hn Zm Zn. unfold Equals. rewrite andb_true_iff. split; intros [H1 H2]; (split; [exact H1|]).
  - apply unupper_fold in H2; [|apply addr_unupper; assumption..]. apply C123_unambiguous_pf in H2; [|assumption..]. unfold widened in H2. injection H2 as E1 E2 _. auto.
  - destruct H2 as [E1 E2]. assert (Et : addr_string (naddr m) = addr_string (naddr n)).
    { rewrite (proj1 (host_parts _ Hm)), (proj1 (host_parts _ Hn)). unfold host_text. rewrite Zm, Zn, E2. f_equal.
      assert (Hiff : is_v4 (ip (naddr m)) <-> is_v4 (ip (naddr n))) by (rewrite <- (To4_wide _ (sa_ip _ Hm)), <- (To4_wide _ (sa_ip _ Hn)), E1; reflexivity).
      destruct (is_v4_dec (ip (naddr m))) as [Hv|Hv].
      - destruct (v4_shape _ Hv) as (x & y & z & w & H4 & W1). destruct (v4_shape _ (proj1 Hiff Hv)) as (x' & y' & z' & w' & H4' & W2).
        rewrite (proj1 (ip_string_v4 _ _ _ _ _ H4)), (proj1 (ip_string_v4 _ _ _ _ _ H4')). rewrite W1, W2 in E1. apply app_inv_head in E1. congruence.
      - destruct (v6_shape _ (sa_ip _ Hm) Hv) as [_ W1]. destruct (v6_shape (ip (naddr n)) (sa_ip _ Hn)) as [_ W2]; [tauto|]. congruence. }
    rewrite Et. apply EqualFold_refl.
Qed.

(** C123: with "udp4", as for the crawler's own node, an IPv4 address is read back, and an IPv6 address is refused,
    except :: which is taken for 0.0.0.0. *)
Lemma C123_udp4_pf : forall nm a, sock_addr a ->
  (is_v4 (ip a) -> resolveHost nm (addr_string a) = Some (widened a)) /\
  (~ is_v4 (ip a) -> ip a <> repeat (byte_of 0) 16 -> resolveHost nm (addr_string a) = None) /\
  (ip a = repeat (byte_of 0) 16 -> resolveHost nm (addr_string a) = Some (mkaddr (wide (repeat (byte_of 0) 4)) (port a))).
Proof.
  intros nm a Ha. destruct (host_parts a Ha) as (E & Hc & Hne & Hp). destruct (split_join _ _ (port a) Hc (is_v4_dec (ip a))) as [Hs _].
  pose proof (To4_wide _ (sa_ip a Ha)) as H4. pose proof (wide_zero _ (sa_ip a Ha)) as H0.
  assert (Hl : internetAddrList nm NetUdp4 (addr_string a) = match filter (fun b => addr4 b) (candidates a (port a)) with [] => NErr NotSuitable | l => NOk l end).
  { unfold internetAddrList. rewrite E. destruct (JoinHostPort (host_text a) (itoa (port a))) as [|s0 s] eqn:Es.
    { exfalso. unfold JoinHostPort in Es. destruct (existsb _ _); [discriminate|]. destruct (host_text a); discriminate. }
    rewrite Hs. cbn [nbind fst snd]. rewrite lookup_small by apply Ha. cbn [nbind fst snd]. destruct (host_text a) as [|h0 h] eqn:Eh; [congruence|].
    unfold lookupIPAddr. rewrite Hp. cbn [nbind ia_ip]. unfold candidates. destruct (beq (wide (ip a)) v6zero); cbn [filter]; unfold is4, addr4; cbn [ia_ip ip mkaddr].
    - destruct (beq (To4 (wide (ip a))) []); reflexivity.
    - destruct (beq (To4 (wide (ip a))) []); reflexivity. }
  unfold resolveHost, ResolveUDPAddr. rewrite Hl. unfold candidates. split; [|split].
  - intros Hv. apply H4, beq_neq in Hv. unfold addr4 in *. cbn [filter ip]. rewrite Hv. cbn [negb].
    destruct (filter _ _); cbn [nbind]; unfold forResolve, first_such, addr4; cbn [filter ip]; rewrite Hv; reflexivity.
  - intros Hv Hz. assert (Hb : beq (To4 (wide (ip a))) [] = true) by (destruct (beq (To4 (wide (ip a))) []) eqn:Eb; [reflexivity|]; apply beq_neq in Eb; apply H4 in Eb; contradiction).
    assert (Hz2 : beq (wide (ip a)) v6zero = false) by (destruct (beq (wide (ip a)) v6zero); [exfalso; apply Hz, H0; reflexivity|reflexivity]).
    rewrite Hz2. unfold addr4. cbn [filter ip]. rewrite Hb. reflexivity.
  - intros Hz. rewrite Hz. reflexivity.
Qed.

(** C123: the cases occur, with the text in between. *)
Lemma C123_example_pf :
  (let a := mkaddr (map byte_of [10; 0; 0; 7]%N) 4711 in sock_addr a /\ is_v4 (ip a) /\ addr_string a = B "10.0.0.7:4711") /\
  (let a := {| ip := map byte_of [254; 128; 0; 0; 0; 0; 0; 0; 0; 0; 0; 0; 0; 0; 0; 10]%N; port := 65535; zone := B "eth0" |} in sock_addr a /\ ~ is_v4 (ip a) /\ addr_string a = B "[fe80::a%eth0]:65535") /\
  addr_string (mkaddr (repeat (byte_of 0) 16) 1) = B "[::]:1".
Proof.
  split; [|split]; [cbv zeta..|vm_compute; reflexivity].
  - split; [constructor; [left; reflexivity|cbn; lia|left; reflexivity]|]. split; [left; reflexivity|vm_compute; reflexivity].
  - assert (Hn : ~ is_v4 (map byte_of [254; 128; 0; 0; 0; 0; 0; 0; 0; 0; 0; 0; 0; 0; 0; 10]%N)) by (intros [H|[_ H]]; [discriminate H|vm_compute in H; discriminate H]).
    split; [constructor; [right; reflexivity|cbn; lia|right; split; [exact Hn|repeat constructor; discriminate]]|]. split; [exact Hn|vm_compute; reflexivity].
Qed.

(** ** C124 *)
Lemma lookup_num svc svc' z : LookupPort svc (itoa z) = LookupPort svc' (itoa z) /\
  ((exists p, LookupPort svc (itoa z) = NOk p /\ (0 <= p <= 65535)%Z) \/ LookupPort svc (itoa z) = NErr BadPort).
Proof.
  assert (H : exists p, parsePort (itoa z) = Some p).
  { destruct (Z_lt_ge_dec z 0) as [Hz|Hz]; [destruct (port_neg z Hz) as (p & E & _); eauto|].
    unfold itoa. replace (z <? 0)%Z with false by (symmetry; apply Z.ltb_ge; lia). rewrite parse_utoa. unfold port_signed.
    assert (Hex : forall s m, Forall (fun c => is_digit c = true) s -> exists r, port_digits m s = Some r).
    { induction s as [|x s IH]; intros m Hs; cbn [port_digits]; [eauto|]. inversion Hs as [|? ? Hx Hs']; subst. rewrite Hx.
      destruct (port_cutoff <=? m)%N; [eauto|]. destruct (_ <? _)%N; [eauto|]. apply IH; exact Hs'. }
    destruct (Hex _ 0%N (utoa_digits (Z.to_N z))) as [r ->]. eauto. }
  destruct H as [p E]. unfold LookupPort. rewrite E. cbn [nbind]. split; [reflexivity|].
  destruct ((p <? 0) || (65535 <? p))%Z eqn:Ep; [right; reflexivity|]. apply orb_false_iff in Ep. left. exists p. split; [reflexivity|]. lia.
Qed.
Lemma lookup_bad svc z : (z < 0 \/ 65535 < z < 4294967300)%Z -> LookupPort svc (itoa z) = NErr BadPort.
Proof.
  intros H. unfold LookupPort. destruct H as [H|H].
  - destruct (port_neg z H) as (p & -> & Hp). cbn [nbind]. replace (p <? 0)%Z with true by (symmetry; apply Z.ltb_lt; lia). reflexivity.
  - destruct (port_big z H) as (p & -> & Hp). cbn [nbind]. replace (65535 <? p)%Z with true by (symmetry; apply Z.ltb_lt; lia). rewrite orb_true_r. reflexivity.
Qed.

(** The port the announcement asks for: the UDP source port with implied_port > 0, otherwise the announced one. *)
Lemma fetch_shape (x : request hid * udpaddr) s : parseFetchAddr x = Ok s -> let body := dict_of (rq_body (fst x)) in
  exists tcp, field body "port" (VInt tcp) /\
  (((exists k, field body "implied_port" (VInt k) /\ (0 < k)%Z) /\ s = addr_string (snd x)) \/
   ((forall k, field body "implied_port" (VInt k) -> (k <= 0)%Z) /\ s = ip_string (ip (snd x)) ++ B ":" ++ itoa tcp)).
Proof.
  intros H body. unfold parseFetchAddr in H. fold body in H. destruct (GetInteger body (B "port")) as [tcp| |] eqn:Ep; cbn [bind] in H; try discriminate.
  exists tcp. split; [apply field_int; exact Ep|]. unfold Exist in H. destruct (dget body (B "implied_port")) as [v|] eqn:Ei.
  - destruct (GetInteger body (B "implied_port")) as [k| |] eqn:Ek; cbn [bind] in H; try discriminate. apply field_int in Ek.
    destruct (Z.ltb_spec 0 k) as [Hk|Hk]; injection H as <-; [left|right]; (split; [|reflexivity]); [exists k; auto|].
    intros k' Hk'. unfold field in *. rewrite Ek in Hk'. injection Hk' as <-. exact Hk.
  - cbn [bind] in H. injection H as <-. right. split; [|reflexivity]. intros k Hk. unfold field in Hk. rewrite Ei in Hk. discriminate.
Qed.
Lemma plain_dial nm a z : sock_addr a -> is_v4 (ip a) -> dial_tries nm (ip_string (ip a) ++ B ":" ++ itoa z) =
  match LookupPort (nm_service nm) (itoa z) with NErr e => NErr e | NOk p => NOk (candidates a p) end.
Proof.
  intros Ha Hv. unfold dial_tries. rewrite <- (addr_list nm NetTcp a z Ha ltac:(discriminate)). f_equal. unfold host_text. destruct (sa_zone a Ha) as [->|[Hn _]]; [|contradiction].
  unfold JoinHostPort. destruct (v4_shape _ Hv) as (x & y & u & w & H4 & _). rewrite (proj1 (ip_string_v4 _ _ _ _ _ H4)), no_colon by apply dotted_host. reflexivity.
Qed.
Lemma v6_dial nm a z : sock_addr a -> ~ is_v4 (ip a) -> dial_tries nm (ip_string (ip a) ++ B ":" ++ itoa z) = NErr ManyColons.
Proof.
  intros Ha Hv. destruct (v6_shape _ (sa_ip a Ha) Hv) as [H6 _]. rewrite (proj1 (ip_string_v6 _ H6)). destruct H6 as [Hl _].
  unfold dial_tries, internetAddrList. pose proof (ip6_colon _ Hl) as Hc. rewrite split_many; [|apply itoa_nocolon|exact Hc|].
  - destruct (ip6_text (ip a) ++ B ":" ++ itoa z) as [|c t] eqn:E; [destruct (ip6_text (ip a)); [destruct Hc|discriminate]|reflexivity].
  - pose proof (ip6_first _ [] Hl) as Hf. rewrite app_nil_r in Hf. exact Hf.
Qed.

(** C124: whatever an announcement says, the only machine the crawler can contact for it is the one that sent it: the
    connection is attempted to the source address of the packet and to no other, with a valid port, or not at all
    (malformed port; IPv6 without implied_port); no name service decides it. *)
Lemma C124_only_the_announcer_pf : forall nm (x : request hid * udpaddr) s, sock_addr (snd x) -> ~ no_machine (ip (snd x)) -> parseFetchAddr x = Ok s ->
  (exists p, dial_tries nm s = NOk [{| ip := wide (ip (snd x)); port := p; zone := zone (snd x) |}] /\ (0 <= p <= 65535)%Z) \/
  dial_tries nm s = NErr BadPort \/ (dial_tries nm s = NErr ManyColons /\ ~ is_v4 (ip (snd x))).
Proof.
  intros nm x s Ha Hm Hs. assert (Hz : beq (wide (ip (snd x))) v6zero = false) by (apply beq_neq; exact Hm).
  destruct (fetch_shape _ _ Hs) as (tcp & _ & [[_ ->]|[_ ->]]).
  - left. exists (port (snd x)). rewrite (proj1 (host_parts _ Ha)). unfold dial_tries. rewrite addr_list by (first [exact Ha|discriminate]).
    rewrite lookup_small by apply Ha. unfold candidates. rewrite Hz. split; [reflexivity|apply Ha].
  - destruct (is_v4_dec (ip (snd x))) as [Hv|Hv].
    + rewrite (plain_dial nm _ tcp Ha Hv). destruct (lookup_num (nm_service nm) (nm_service nm) tcp) as [_ [(p & -> & Hp)| ->]]; [|right; left; reflexivity].
      left. exists p. unfold candidates. rewrite Hz. split; [reflexivity|exact Hp].
    + right. right. rewrite (v6_dial nm _ tcp Ha Hv). auto.
Qed.

(** C124: ... at the port it asks for, if that is a port. *)
Lemma C124_port_pf : forall nm (x : request hid * udpaddr) s tcp, let body := dict_of (rq_body (fst x)) in let a := snd x in
  sock_addr a -> ~ no_machine (ip a) -> parseFetchAddr x = Ok s -> field body "port" (VInt tcp) ->
  (forall k, field body "implied_port" (VInt k) -> (0 < k)%Z -> dial_tries nm s = NOk [widened a]) /\
  ((forall k, field body "implied_port" (VInt k) -> (k <= 0)%Z) -> is_v4 (ip a) ->
    ((0 <= tcp <= 65535)%Z -> dial_tries nm s = NOk [{| ip := wide (ip a); port := tcp; zone := zone a |}]) /\
    ((tcp < 0 \/ 65535 < tcp < 4294967300)%Z -> dial_tries nm s = NErr BadPort)).
Proof.
  intros nm x s tcp body a Ha Hm Hs Hp. assert (Hz : beq (wide (ip a)) v6zero = false) by (apply beq_neq; exact Hm).
  destruct (fetch_shape _ _ Hs) as (tcp' & Hp' & Hc). fold body in Hp', Hc. unfold field in Hp, Hp'. rewrite Hp in Hp'. injection Hp' as <-. fold a in Hc. split.
  - intros k Hk Hpos. destruct Hc as [[_ ->]|[Hc _]]; [|specialize (Hc _ Hk); lia]. rewrite (proj1 (host_parts _ Ha)). unfold dial_tries. rewrite addr_list by (first [exact Ha|discriminate]).
    rewrite lookup_small by apply Ha. unfold candidates. rewrite Hz. reflexivity.
  - intros Hk Hv. destruct Hc as [[(k & Hk1 & Hk2) _]|[_ ->]]; [specialize (Hk _ Hk1); lia|]. rewrite (plain_dial nm _ tcp Ha Hv). split; intros Hr.
    + rewrite lookup_small by exact Hr. unfold candidates. rewrite Hz. reflexivity.
    + rewrite lookup_bad by exact Hr. reflexivity.
Qed.

(** C124: the text net.Dial splits is exactly what C65 calls an endpoint. *)
Lemma C124_endpoint_pf : forall s h p, SplitHostPort s = NOk (h, p) <-> endpoint s h p.
Proof.
  intros s h p. split.
  - intros H. apply split_inv in H as [[-> H]|(-> & H1 & H2)]; [apply ep_plain; exact H|apply ep_bracket; assumption].
  - intros [h' p' H|h' p' H1 H2]; [apply split_plain; exact H|apply split_bracket; assumption].
Qed.

(** C124 refuted, "a port number that is no port is refused": an announcement with port 4294967300 makes the crawler
    connect to port 4 of its sender (the number is read in 32 bits, which overflow). *)
Definition far_body (p : Z) : entries := [(B "id", VStr (B "abcdefghij0123456789")); (B "info_hash", VStr (B "h")); (B "port", VInt p); (B "token", VStr (B "t"))].
Definition far_announce (p : Z) : request hid * udpaddr :=
  ({| rq_tx := B "t"; rq_type := B "announce_peer"; rq_body := Some (far_body p); rq_handler := None |}, mkaddr (map byte_of [10; 0; 0; 7]%N) 4711).
Lemma C124_port_refuted_pf : forall nm, exists x s, sock_addr (snd x) /\ field (dict_of (rq_body (fst x))) "port" (VInt 4294967300) /\ parseFetchAddr x = Ok s /\
  s = B "10.0.0.7:4294967300" /\ dial_tries nm s = NOk [mkaddr (wide (ip (snd x))) 4].
Proof.
  intros nm. exists (far_announce 4294967300), (B "10.0.0.7:4294967300"). split; [constructor; [left; reflexivity|cbn; lia|left; reflexivity]|]. split; [reflexivity|].
  split; [vm_compute; reflexivity|]. split; [reflexivity|vm_compute; reflexivity].
Qed.

(** C124: announcements as they occur. *)
Lemma C124_example_pf : forall nm,
  (sock_addr (snd (far_announce 6881)) /\ ~ no_machine (ip (snd (far_announce 6881))) /\ parseFetchAddr (far_announce 6881) = Ok (B "10.0.0.7:6881") /\
   dial_tries nm (B "10.0.0.7:6881") = NOk [mkaddr (wide (map byte_of [10; 0; 0; 7]%N)) 6881]) /\
  (parseFetchAddr (far_announce (-1)) = Ok (B "10.0.0.7:-1") /\ dial_tries nm (B "10.0.0.7:-1") = NErr BadPort) /\
  dial_tries nm (B "2001:db8::1:6881") = NErr ManyColons /\
  dial_tries nm (B "[2001:db8::1]:4711") = NOk [mkaddr (map byte_of [32; 1; 13; 184; 0; 0; 0; 0; 0; 0; 0; 0; 0; 0; 0; 1]%N) 4711].
Proof.
  intros nm. split; [|split; [|split]].
  - split; [constructor; [left; reflexivity|cbn; lia|left; reflexivity]|]. split; [intros E; vm_compute in E; discriminate E|]. split; vm_compute; reflexivity.
  - split; vm_compute; reflexivity.
  - vm_compute. reflexivity.
  - vm_compute. reflexivity.
Qed.
