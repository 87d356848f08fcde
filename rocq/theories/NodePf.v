(** NodePf.v -- proofs of C18-C23 (prefix length, transaction ids, compact encodings). *)
From Verif Require Import Base GoLib Bencode Types Node.
Local Open Scope list_scope.

Arguments To4 : simpl never.
Arguments solvePrefixLen : simpl never.

(** ** C18 *)

(** Specification: the bits of a byte string, most significant first, and the length of
    the longest common prefix of two lists. *)
Definition byte_bits (b : byte) : list bool :=
  map (fun i => N.testbit (N_of_ascii b) i) [7;6;5;4;3;2;1;0]%N.
Definition bits_of (s : bytes) : list bool := concat (map byte_bits s).
Fixpoint lcp (a b : list bool) : nat :=
  match a, b with
  | x :: a', y :: b' => if Bool.eqb x y then S (lcp a' b') else 0
  | _, _ => 0
  end.

Definition all_bytes : list byte := map (fun n => ascii_of_nat n) (seq 0 256).
Lemma all_bytes_in c : In c all_bytes.
Proof.
  unfold all_bytes. apply in_map_iff. exists (nat_of_ascii c). split; [apply ascii_nat_embedding|].
  apply in_seq. pose proof (nat_ascii_bounded c). lia.
Qed.

Lemma byte_sweep : forallb (fun a => forallb (fun b =>
    if (bval (bxor a b) =? 0)%N then Ascii.eqb a b
    else (lz8 (bxor a b) =? lcp (byte_bits a) (byte_bits b)) && (lz8 (bxor a b) <? 8)) all_bytes) all_bytes = true.
Proof. vm_compute. reflexivity. Qed.

Lemma byte_xor a b :
  (bval (bxor a b) = 0%N /\ a = b) \/
  (bval (bxor a b) <> 0%N /\ lz8 (bxor a b) = lcp (byte_bits a) (byte_bits b) /\ lz8 (bxor a b) < 8).
Proof.
  pose proof byte_sweep as H. rewrite forallb_forall in H. specialize (H a (all_bytes_in a)).
  rewrite forallb_forall in H. specialize (H b (all_bytes_in b)).
  destruct (N.eqb_spec (bval (bxor a b)) 0) as [E|E].
  - left. split; [exact E|]. apply Ascii.eqb_eq. exact H.
  - right. apply andb_true_iff in H as [H1 H2]. apply Nat.eqb_eq in H1. apply Nat.ltb_lt in H2. auto.
Qed.

Lemma lcp_app_same p a b : lcp (p ++ a) (p ++ b) = length p + lcp a b.
Proof. induction p as [|x p IH]; [reflexivity|]. cbn [app lcp length]. rewrite eqb_reflx, IH. reflexivity. Qed.

Lemma lcp_app_lt a b x y : lcp a b < length a -> lcp a b < length b -> lcp (a ++ x) (b ++ y) = lcp a b.
Proof.
  revert b; induction a as [|c a IH]; destruct b as [|d b]; cbn [app lcp length]; intros H1 H2; try lia.
  destruct (Bool.eqb c d); [|reflexivity]. rewrite IH by lia. reflexivity.
Qed.

Lemma byte_bits_len b : length (byte_bits b) = 8.
Proof. reflexivity. Qed.

Lemma prefix_scan_lcp a : forall b i, prefix_scan i (Xor a b) = i * 8 + lcp (bits_of a) (bits_of b).
Proof.
  unfold bits_of. induction a as [|x a IH]; intros b i; cbn [Xor prefix_scan map concat].
  - cbn [lcp]. lia.
  - destruct b as [|y b]; cbn [prefix_scan map concat].
    + destruct (byte_bits x ++ concat (map byte_bits a)); cbn [lcp]; lia.
    + destruct (byte_xor x y) as [[E <-]|(E & El & Hl)].
      * rewrite E. cbn [N.eqb]. rewrite IH, lcp_app_same, byte_bits_len. lia.
      * apply N.eqb_neq in E. rewrite E. rewrite lcp_app_lt; rewrite ?byte_bits_len; lia.
Qed.

Lemma solvePrefixLen_lcp a b : solvePrefixLen a b = lcp (bits_of a) (bits_of b).
Proof. unfold solvePrefixLen. rewrite prefix_scan_lcp. lia. Qed.

Lemma lcp_sym a : forall b, lcp a b = lcp b a.
Proof.
  induction a as [|x a IH]; destruct b as [|y b]; try reflexivity. cbn [lcp].
  destruct x, y; cbn [Bool.eqb]; rewrite ?IH; reflexivity.
Qed.
Lemma lcp_ultra a : forall b c, Nat.min (lcp a b) (lcp b c) <= lcp a c.
Proof.
  induction a as [|x a IH]; intros b c; [cbn; lia|]. destruct b as [|y b]; [cbn; lia|]. destruct c as [|z c]; [cbn [lcp]; lia|].
  cbn [lcp]. specialize (IH b c). destruct x, y, z; cbn [Bool.eqb]; lia.
Qed.

(** C18: solvePrefixLen is the length of the longest common prefix of the bit strings; it
    is symmetric and satisfies the ultrametric inequality. *)
Lemma C18_prefix_length_pf : forall a b c,
  solvePrefixLen a b = lcp (bits_of a) (bits_of b) /\
  solvePrefixLen a b = solvePrefixLen b a /\
  Nat.min (solvePrefixLen a b) (solvePrefixLen b c) <= solvePrefixLen a c /\
  solvePrefixLen a a = 8 * length a.
Proof.
  intros a b c. rewrite !solvePrefixLen_lcp. split; [reflexivity|]. split; [apply lcp_sym|]. split; [apply lcp_ultra|].
  induction a as [|x a IH]; [reflexivity|]. unfold bits_of in *. cbn [map concat length].
  rewrite lcp_app_same, byte_bits_len, IH. lia.
Qed.

(** C18: what "longest common prefix" means: the first n bits agree and the next ones differ. *)
Lemma C18_prefix_characterised_pf : forall a b, length a = length b ->
  let n := solvePrefixLen a b in
  firstn n (bits_of a) = firstn n (bits_of b) /\
  (n < 8 * length a -> nth_error (bits_of a) n <> nth_error (bits_of b) n) /\ n <= 8 * length a.
Proof.
  intros a b Hl n. unfold n. clear n. rewrite solvePrefixLen_lcp.
  assert (Hbl : forall s, length (bits_of s) = 8 * length s).
  { intros s. induction s as [|x s IHs]; [reflexivity|]. unfold bits_of in *. cbn [map concat length]. rewrite app_length, byte_bits_len, IHs. lia. }
  rewrite <- Hbl. assert (Hll : length (bits_of a) = length (bits_of b)) by (rewrite !Hbl; lia).
  clear Hbl Hl. revert Hll. generalize (bits_of b). generalize (bits_of a). clear. intros a.
  induction a as [|x a IH]; intros b; destruct b as [|y b]; cbn [lcp length firstn nth_error]; intros Hl; try lia.
  - repeat split; lia.
  - destruct (Bool.eqb_spec x y) as [->|Hxy]; cbn [firstn nth_error].
    + destruct (IH b ltac:(lia)) as (H1 & H2 & H3). rewrite H1. split; [reflexivity|]. split; [intros H; apply H2; lia|lia].
    + split; [reflexivity|]. split; [intros _; congruence|lia].
Qed.

Lemma C18_example_pf : solvePrefixLen (B "abc") (B "abb") = 23 /\ solvePrefixLen [] (B "x") = 0 /\ solvePrefixLen (B "ab") (B "abc") = 16.
Proof. vm_compute. repeat split. Qed.

(** ** C19 *)

Definition nth_txid (init : N) (i : nat) : bytes := txid_string ((init + N.of_nat i) mod 65536).

Lemma nextVal_mod init i : nextVal ((init + N.of_nat i) mod 65536) = ((init + N.of_nat (S i)) mod 65536)%N.
Proof.
  unfold nextVal. rewrite N.add_mod_idemp_l by discriminate. f_equal. lia.
Qed.

(** Invariant of the generator: the number of completed calls determines the counter. *)
Definition tx_inv (init : N) (s : tx_state) : Prop :=
  exists n, tx_out s = map (nth_txid init) (seq 1 n) /\
  match tx_owner s with
  | None => tx_val s = ((init + N.of_nat n) mod 65536)%N /\
            forall t, tx_pcs s t = TIdle \/ tx_pcs s t = TWant
  | Some o => (forall t, t <> o -> tx_pcs s t = TIdle \/ tx_pcs s t = TWant) /\
      match tx_pcs s o with
      | TLocked => tx_val s = ((init + N.of_nat n) mod 65536)%N
      | TRead v => tx_val s = ((init + N.of_nat n) mod 65536)%N /\ v = ((init + N.of_nat n) mod 65536)%N
      | TWrote => tx_val s = ((init + N.of_nat (S n)) mod 65536)%N
      | TResult v => tx_val s = ((init + N.of_nat (S n)) mod 65536)%N /\ v = ((init + N.of_nat (S n)) mod 65536)%N
      | _ => False
      end
  end.

Lemma upd_eq {A} (f : nat -> A) t x : upd f t x t = x.
Proof. unfold upd. rewrite Nat.eqb_refl. reflexivity. Qed.
Lemma upd_neq {A} (f : nat -> A) t x t' : t' <> t -> upd f t x t' = f t'.
Proof. intros H. unfold upd. apply Nat.eqb_neq in H. rewrite H. reflexivity. Qed.

Lemma tx_inv_reach init s : (init < 65536)%N -> tx_reach init s -> tx_inv init s.
Proof.
  intros Hi H. induction H as [|s s' Hr (n & Hout & Hinv) Hstep].
  - exists 0. split; [reflexivity|]. cbn. rewrite N.mod_small by lia. split; [lia|auto].
  - destruct Hstep as [s t Hpc|s t Hpc Ho|s t Hpc|s t v Hpc|s t Hpc|s t v Hpc]; unfold tx_inv; cbn [tx_val tx_owner tx_pcs tx_out].
    + exists n. split; [exact Hout|]. destruct (tx_owner s) as [o|].
      * destruct Hinv as [H1 H2]. destruct (Nat.eq_dec t o) as [->|Hne]; [rewrite Hpc in H2; contradiction|].
        split.
        -- intros t' Ht'. destruct (Nat.eq_dec t' t) as [->|Hn']; [rewrite upd_eq; auto|rewrite upd_neq by exact Hn'; auto].
        -- rewrite upd_neq by congruence. exact H2.
      * destruct Hinv as [H1 H2]. split; [exact H1|]. intros t'.
        destruct (Nat.eq_dec t' t) as [->|Hn']; [rewrite upd_eq; auto|rewrite upd_neq by exact Hn'; auto].
    + exists n. split; [exact Hout|]. rewrite Ho in Hinv. destruct Hinv as [H1 H2]. split.
      * intros t' Ht'. rewrite upd_neq by exact Ht'. apply H2.
      * rewrite upd_eq. exact H1.
    + exists n. split; [exact Hout|]. destruct (tx_owner s) as [o|].
      * destruct Hinv as [H1 H2]. destruct (Nat.eq_dec t o) as [->|Hne].
        -- rewrite Hpc in H2. rewrite upd_eq. split; [|auto]. intros t' Ht'. rewrite upd_neq by exact Ht'. auto.
        -- destruct (H1 t Hne); congruence.
      * destruct Hinv as [_ H2]. destruct (H2 t); congruence.
    + exists n. split; [exact Hout|]. destruct (tx_owner s) as [o|].
      * destruct Hinv as [H1 H2]. destruct (Nat.eq_dec t o) as [->|Hne].
        -- rewrite Hpc in H2. rewrite upd_eq. split; [intros t' Ht'; rewrite upd_neq by exact Ht'; auto|].
           destruct H2 as [_ ->]. apply nextVal_mod.
        -- destruct (H1 t Hne); congruence.
      * destruct Hinv as [_ H2]. destruct (H2 t); congruence.
    + exists n. split; [exact Hout|]. destruct (tx_owner s) as [o|].
      * destruct Hinv as [H1 H2]. destruct (Nat.eq_dec t o) as [->|Hne].
        -- rewrite Hpc in H2. rewrite upd_eq. split; [intros t' Ht'; rewrite upd_neq by exact Ht'; auto|]. auto.
        -- destruct (H1 t Hne); congruence.
      * destruct Hinv as [_ H2]. destruct (H2 t); congruence.
    + exists (S n). destruct (tx_owner s) as [o|].
      * destruct Hinv as [H1 H2]. destruct (Nat.eq_dec t o) as [->|Hne].
        -- rewrite Hpc in H2. destruct H2 as [Hv ->]. split.
           ++ rewrite Hout, seq_S, map_app. reflexivity.
           ++ split; [exact Hv|]. intros t'. destruct (Nat.eq_dec t' o) as [->|Hn']; [rewrite upd_eq; auto|rewrite upd_neq by exact Hn'; auto].
        -- destruct (H1 t Hne); congruence.
      * destruct Hinv as [_ H2]. destruct (H2 t); congruence.
Qed.

(** C19: in every interleaving, the transaction ids handed out so far (in the order in
    which the calls held the lock) are those of init+1, init+2, ... modulo 65536. *)
Lemma C19_txids_sequential_pf : forall init s, (init < 65536)%N -> tx_reach init s ->
  tx_out s = map (fun i => txid_string ((init + N.of_nat i) mod 65536)) (seq 1 (length (tx_out s))).
Proof.
  intros init s Hi Hr. destruct (tx_inv_reach init s Hi Hr) as (n & Hout & _).
  rewrite Hout at 2. rewrite map_length, seq_length. exact Hout.
Qed.

Lemma txid_string_inj a b : (a < 65536)%N -> (b < 65536)%N -> txid_string a = txid_string b -> a = b.
Proof.
  intros Ha Hb H. unfold txid_string in H. apply hex_inj in H. unfold put_u16 in H. injection H as H1 H2.
  rewrite <- (get_put_u16 a Ha), <- (get_put_u16 b Hb). unfold put_u16 in *. rewrite H1, H2. reflexivity.
Qed.

(** C19: ids fewer than 65536 calls apart differ; ids 65536 calls apart are equal; every
    id is four lower-case hexadecimal digits. *)
Lemma C19_txids_distinct_pf : forall init s i j x y, (init < 65536)%N -> tx_reach init s ->
  nth_error (tx_out s) i = Some x -> nth_error (tx_out s) j = Some y -> i < j ->
  length x = 4 /\ Forall (fun c => is_hexdigit c = true) x /\
  ((N.of_nat j - N.of_nat i < 65536)%N -> x <> y) /\ ((N.of_nat j - N.of_nat i = 65536)%N -> x = y).
Proof.
  intros init s i j x y Hi Hr Hx Hy Hij. rewrite (C19_txids_sequential_pf init s Hi Hr) in Hx, Hy.
  assert (Hnth : forall k z n, nth_error (map (fun i => txid_string ((init + N.of_nat i) mod 65536)) (seq 1 n)) k = Some z ->
      z = txid_string ((init + N.of_nat (S k)) mod 65536)).
  { intros k z n H. rewrite nth_error_map in H. destruct (nth_error (seq 1 n) k) as [m|] eqn:E; [|discriminate].
    cbn in H. injection H as <-. assert (k < n) by (rewrite <- (seq_length n 1); apply nth_error_Some; congruence).
    rewrite (nth_error_nth' _ 0) in E by (rewrite seq_length; lia). injection E as <-. rewrite seq_nth by lia. reflexivity. }
  apply Hnth in Hx. apply Hnth in Hy. subst x y. split; [unfold txid_string; rewrite hex_length; reflexivity|].
  split; [apply hex_forall|].
  assert (Hm : forall a, (a mod 65536 < 65536)%N) by (intros; apply N.mod_lt; discriminate).
  split.
  - intros Hw E. apply txid_string_inj in E; [|apply Hm..].
    pose proof (N.div_mod (init + N.of_nat (S i)) 65536 ltac:(discriminate)).
    pose proof (N.div_mod (init + N.of_nat (S j)) 65536 ltac:(discriminate)). rewrite E in *.
    assert (65536 * ((init + N.of_nat (S j)) / 65536 - (init + N.of_nat (S i)) / 65536) = N.of_nat j - N.of_nat i)%N by lia.
    assert ((init + N.of_nat (S j)) / 65536 - (init + N.of_nat (S i)) / 65536 = 0)%N by lia. lia.
  - intros Hw. f_equal. replace (init + N.of_nat (S j))%N with (init + N.of_nat (S i) + 1 * 65536)%N by lia.
    rewrite N.mod_add by discriminate. reflexivity.
Qed.

Lemma tx_finish init s t : tx_reach init s -> tx_pcs s t = TWant -> tx_owner s = None ->
  exists s', tx_reach init s' /\ tx_val s' = nextVal (tx_val s) /\ tx_owner s' = None /\
    tx_out s' = tx_out s ++ [txid_string (nextVal (tx_val s))] /\ (forall u, u <> t -> tx_pcs s' u = tx_pcs s u).
Proof.
  intros Hr Hpc Ho.
  pose proof (txr_step _ _ _ Hr (tx_lock s t Hpc Ho)) as H1. set (s1 := Build_tx_state _ _ _ _) in H1.
  pose proof (txr_step _ _ _ H1 (tx_read s1 t (upd_eq _ _ _))) as H2. set (s2 := Build_tx_state _ _ _ _) in H2.
  pose proof (txr_step _ _ _ H2 (tx_write s2 t _ (upd_eq _ _ _))) as H3. set (s3 := Build_tx_state _ _ _ _) in H3.
  pose proof (txr_step _ _ _ H3 (tx_result s3 t (upd_eq _ _ _))) as H4. set (s4 := Build_tx_state _ _ _ _) in H4.
  pose proof (txr_step _ _ _ H4 (tx_unlock s4 t _ (upd_eq _ _ _))) as H5. set (s5 := Build_tx_state _ _ _ _) in H5.
  exists s5. split; [exact H5|]. unfold s5, s4, s3, s2, s1. cbn [tx_val tx_owner tx_pcs tx_out]. repeat split.
  intros u Hu. rewrite !upd_neq by exact Hu. reflexivity.
Qed.

(** C19 non-vacuity: two overlapping calls. *)
Lemma C19_example_pf : exists s, tx_reach 100 s /\ tx_out s = [B "0065"; B "0066"].
Proof.
  pose proof (txr_step _ _ _ (txr_init 100) (tx_call (tx_init 100) 0 eq_refl)) as H1.
  match type of H1 with tx_reach _ ?x => pose proof (txr_step _ _ _ H1 (tx_call x 1 eq_refl)) as H2 end.
  destruct (tx_finish _ _ 1 H2 eq_refl eq_refl) as (s & Hr & Hv & Ho & Hout & Hp).
  destruct (tx_finish _ s 0 Hr) as (s' & Hr' & _ & _ & Hout' & _).
  - rewrite Hp by lia. reflexivity.
  - exact Ho.
  - exists s'. split; [exact Hr'|]. rewrite Hout', Hout, Hv. vm_compute. reflexivity.
Qed.

(** ** C20-C22 *)

(** A node as the compact format can represent it. *)
Definition compact_node (n : ninfo) : Prop :=
  length (nid n) = 20 /\ length (ip (naddr n)) = 4 /\ (0 <= port (naddr n) < 65536)%Z /\ zone (naddr n) = [].

Lemma To4_4 i : length i = 4 -> To4 i = i.
Proof. intros H. unfold To4. rewrite H. reflexivity. Qed.

Lemma u16_of_int_small p : (0 <= p < 65536)%Z -> u16_of_int p = Z.to_N p.
Proof. intros H. unfold u16_of_int. rewrite Z.mod_small by lia. reflexivity. Qed.

Lemma skipn_app_n {A} n (x y : list A) : length x = n -> skipn n (x ++ y) = y.
Proof. intros <-. rewrite skipn_app, skipn_all, Nat.sub_diag. reflexivity. Qed.
Lemma firstn_app_n {A} n (x y : list A) : length x = n -> firstn n (x ++ y) = x.
Proof. intros <-. rewrite firstn_app, firstn_all, Nat.sub_diag. cbn [firstn]. apply app_nil_r. Qed.

Lemma parse_node26_app id4 i4 a b : length id4 = 20 -> length i4 = 4 ->
  parse_node26 (id4 ++ i4 ++ [a; b]) = Ok {| nid := id4; naddr := mkaddr i4 (Z.of_N (get_u16 a b)) |}.
Proof.
  intros H1 H2. unfold parse_node26.
  assert (Hs : slice (id4 ++ i4 ++ [a; b]) 20 26 = i4 ++ [a; b]).
  { unfold slice. rewrite (skipn_app_n 20 id4) by exact H1.
    apply firstn_all2. rewrite app_length. cbn. lia. }
  rewrite Hs. cbv zeta. destruct i4 as [|x0 [|x1 [|x2 [|x3 [|]]]]]; try discriminate. cbn [app].
  change (idx [x0; x1; x2; x3; a; b] 4) with (@Ok byte a). change (idx [x0; x1; x2; x3; a; b] 5) with (@Ok byte b).
  cbn [bind firstn]. unfold slice. rewrite Nat.sub_0_r. change (skipn 0 ?l) with l. rewrite (firstn_app_n 20 id4) by exact H1. reflexivity.
Qed.

Definition entry26 (v : ninfo) : bytes := nid v ++ To4 (ip (naddr v)) ++ put_u16 (u16_of_int (port (naddr v))).

Lemma entry26_len v : length (nid v) = 20 -> length (To4 (ip (naddr v))) = 4 -> length (entry26 v) = 26.
Proof. intros H1 H2. unfold entry26. rewrite !app_length, H1, H2. reflexivity. Qed.

Lemma joinNodeInfos_cons v l : joinNodeInfos (v :: l) = entry26 v ++ joinNodeInfos l.
Proof. reflexivity. Qed.

Lemma parse_nodes_S n c t : length c = 26 ->
  parse_nodes (S n) (c ++ t) = do x <- parse_node26 c; do r <- parse_nodes n t; Ok (x :: r).
Proof.
  intros Hc. cbn [parse_nodes].
  destruct (Nat.ltb_spec (length (c ++ t)) 26) as [H|_]; [rewrite app_length in H; lia|].
  rewrite (firstn_app_n 26 c), (skipn_app_n 26 c) by exact Hc. reflexivity.
Qed.

(** C20: joining nodes with 20-byte ids, IPv4 addresses and 16-bit ports and parsing the
    result gives back the same nodes. *)
Lemma C20_node_info_roundtrip_pf : forall ns, Forall compact_node ns -> parseNodeInfo (joinNodeInfos ns) = Ok ns.
Proof.
  intros ns H.
  assert (Hp : parse_nodes (length ns) (joinNodeInfos ns) = Ok ns /\ length (joinNodeInfos ns) = 26 * length ns).
  { induction H as [|v ns (Hid & Hip & Hport & Hz) Hf [IH1 IH2]]; [split; reflexivity|].
    rewrite joinNodeInfos_cons. cbn [length].
    assert (Hl : length (entry26 v) = 26) by (apply entry26_len; [exact Hid|rewrite To4_4 by exact Hip; exact Hip]).
    split.
    - rewrite parse_nodes_S by exact Hl. unfold entry26. rewrite To4_4 by exact Hip. rewrite u16_of_int_small by exact Hport.
      unfold put_u16. rewrite parse_node26_app by assumption. cbn [bind]. rewrite IH1. cbn [bind]. f_equal. f_equal.
      rewrite get_put_u16 by lia. rewrite Z2N.id by lia. destruct v as [i [a p z]]. cbn in *. subst z. reflexivity.
    - rewrite app_length, IH2, Hl. lia. }
  destruct Hp as [H1 H2]. unfold parseNodeInfo. rewrite H2.
  replace (26 * length ns / 26) with (length ns) by (rewrite Nat.mul_comm, Nat.div_mul; lia). exact H1.
Qed.

Definition v4 (a b c d : N) : bytes := [byte_of a; byte_of b; byte_of c; byte_of d].
Lemma C20_example_pf : Forall compact_node
  [{| nid := repeat (byte_of 250) 20; naddr := mkaddr (v4 10 0 0 1) 65535 |};
   {| nid := repeat (byte_of 0) 20; naddr := mkaddr (v4 255 1 2 3) 0 |}].
Proof. repeat constructor; cbn; lia. Qed.

Lemma split26 (l : bytes) : 26 <= length l -> exists i4 p4 a b t, l = (i4 ++ p4 ++ [a; b]) ++ t /\ length i4 = 20 /\ length p4 = 4.
Proof.
  intros H. exists (firstn 20 l), (firstn 4 (skipn 20 l)).
  assert (H24 : exists a b t, skipn 24 l = a :: b :: t).
  { assert (Hs : length (skipn 24 l) >= 2) by (rewrite skipn_length; lia).
    destruct (skipn 24 l) as [|a [|b t]]; cbn in Hs; try lia. eauto. }
  destruct H24 as (a & b & t & E). exists a, b, t.
  split; [|split; [apply firstn_length_le; lia|apply firstn_length_le; rewrite skipn_length; lia]].
  rewrite <- !app_assoc. cbn [app]. rewrite <- E.
  replace (skipn 24 l) with (skipn 4 (skipn 20 l)).
  2: { clear. do 20 (destruct l as [|? l]; [reflexivity|]). reflexivity. }
  rewrite firstn_skipn, firstn_skipn. reflexivity.
Qed.

(** C21: parsing is total: it yields exactly len/26 nodes, each representable, and joining
    them again gives the input without its last len mod 26 bytes. *)
Lemma C21_parse_node_info_total_pf : forall s, exists ns, parseNodeInfo s = Ok ns /\
  length ns = length s / 26 /\ Forall compact_node ns /\ joinNodeInfos ns = firstn (26 * (length s / 26)) s.
Proof.
  intros s. unfold parseNodeInfo.
  assert (Hgen : forall n s, 26 * n <= length s -> exists ns, parse_nodes n s = Ok ns /\ length ns = n /\
     Forall compact_node ns /\ joinNodeInfos ns = firstn (26 * n) s).
  { clear s. induction n as [|n IH]; intros s Hs.
    - exists []. repeat split. constructor.
    - destruct (split26 s ltac:(lia)) as (i4 & p4 & a & b & t & -> & H1 & H2).
      assert (Hc : length (i4 ++ p4 ++ [a; b]) = 26) by (rewrite !app_length, H1, H2; reflexivity).
      rewrite parse_nodes_S by exact Hc. rewrite parse_node26_app by assumption. cbn [bind].
      destruct (IH t) as (ns & -> & Hl & Hf & Hj); [rewrite app_length in Hs; lia|]. cbn [bind].
      pose proof (get_u16_lt a b) as Hu.
      eexists. split; [reflexivity|]. split; [cbn [length]; congruence|]. split.
      + constructor; [|exact Hf]. unfold compact_node. cbn. split; [exact H1|]. split; [exact H2|]. split; [lia|reflexivity].
      + rewrite joinNodeInfos_cons, Hj. unfold entry26. cbn [nid naddr ip port mkaddr].
        rewrite To4_4 by exact H2. rewrite u16_of_int_small by lia. rewrite N2Z.id, put_get_u16.
        replace (26 * S n) with (length (i4 ++ p4 ++ [a; b]) + 26 * n) by lia.
        rewrite firstn_app_2. reflexivity. }
  apply Hgen. rewrite (Nat.div_mod_eq (length s) 26) at 2. lia.
Qed.

(** C22, what joinNodeInfos really produces per node. *)
Lemma C22_join_lengths_pf : forall ns,
  length (joinNodeInfos ns) = list_sum (map (fun v => length (nid v) + length (To4 (ip (naddr v))) + 2) ns) /\
  (Forall (fun v => length (nid v) = 20 /\ length (To4 (ip (naddr v))) = 4) ns -> length (joinNodeInfos ns) = 26 * length ns).
Proof.
  intros ns. assert (H : length (joinNodeInfos ns) = list_sum (map (fun v => length (nid v) + length (To4 (ip (naddr v))) + 2) ns)).
  { induction ns as [|v ns IH]; [reflexivity|]. rewrite joinNodeInfos_cons, app_length, IH. unfold entry26.
    rewrite !app_length. cbn [map list_sum fold_right length put_u16]. unfold list_sum. cbn. lia. }
  split; [exact H|]. intros Hf. rewrite H. induction Hf as [|v ns [H1 H2] Hf IH]; [reflexivity|].
  cbn [map length]. change (list_sum (?a :: ?l)) with (a + list_sum l). rewrite H1, H2, IH; [lia|].
  clear - H. rewrite joinNodeInfos_cons, app_length in H. cbn [map] in H.
  change (list_sum (?a :: ?l)) with (a + list_sum l) in H. unfold entry26 in H. rewrite !app_length in H. cbn [length put_u16] in H. lia.
Qed.

(** C22 refuted: an IPv6 node takes 22 bytes, a short id misaligns everything after it,
    and two different ports give the same encoding. *)
Lemma C22_aligned_refuted_pf :
  (exists v, length (nid v) = 20 /\ length (ip (naddr v)) = 16 /\ length (joinNodeInfos [v]) = 22) /\
  (exists v w, length (nid v) = 19 /\ compact_node w /\ parseNodeInfo (joinNodeInfos [v; w]) <> Ok [v; w]) /\
  (exists v w, port (naddr v) <> port (naddr w) /\ nid v = nid w /\ ip (naddr v) = ip (naddr w) /\ joinNodeInfos [v] = joinNodeInfos [w]).
Proof.
  split; [|split].
  - exists {| nid := repeat (byte_of 1) 20; naddr := mkaddr (repeat (byte_of 0) 15 ++ [byte_of 1]) 6881 |}.
    vm_compute. repeat split.
  - exists {| nid := repeat (byte_of 1) 19; naddr := mkaddr (v4 1 2 3 4) 1 |},
           {| nid := repeat (byte_of 2) 20; naddr := mkaddr (v4 1 2 3 4) 1 |}.
    split; [reflexivity|]. split; [repeat split; cbn; lia|]. vm_compute. discriminate.
  - exists {| nid := repeat (byte_of 1) 20; naddr := mkaddr (v4 1 2 3 4) 1 |},
           {| nid := repeat (byte_of 1) 20; naddr := mkaddr (v4 1 2 3 4) 65537 |}.
    split; [discriminate|]. repeat split.
Qed.

(** ** C23 *)

Definition compact_addr (a : udpaddr) : Prop := length (ip a) = 4 /\ (0 <= port a < 65536)%Z /\ zone a = [].

Lemma parsePeerInfo_cons slack s t : parsePeerInfo slack (VStr s :: t) =
  do a <- parse_peer slack s; do r <- parsePeerInfo slack t; Ok (a :: r).
Proof. reflexivity. Qed.

(** C23: for every capacity the runtime may give to []byte(val), IPv4 addresses with 16-bit
    ports survive joinPeerInfos followed by parsePeerInfo. *)
Lemma C23_peer_info_roundtrip_pf : forall slack l, Forall compact_addr l -> parsePeerInfo slack (joinPeerInfos l) = Ok l.
Proof.
  intros slack l H. induction H as [|a l (Hip & Hp & Hz) Hf IH]; [reflexivity|].
  unfold joinPeerInfos in *. cbn [map]. rewrite parsePeerInfo_cons, IH. rewrite To4_4 by exact Hip.
  rewrite u16_of_int_small by exact Hp.
  destruct a as [i p z]. cbn [ip port zone] in *. subst z. destruct i as [|x0 [|x1 [|x2 [|x3 [|]]]]]; try discriminate.
  unfold parse_peer, put_u16. cbn [app length].
  destruct (Nat.ltb_spec (Nat.max 6 (slack 6)) 6); [lia|].
  cbv zeta. cbn [app]. unfold idx. cbn [nth_error bind firstn]. rewrite get_put_u16 by lia. rewrite Z2N.id by lia. reflexivity.
Qed.

(** C23: every entry of at least 6 bytes yields the address of its first 6 bytes, whatever
    follows; shorter entries panic or are padded with zeros; a non-string entry panics
    with a *misc.Error. *)
Lemma C23_parse_peer_info_pf : forall slack t,
  (forall x0 x1 x2 x3 p1 p2 more, parsePeerInfo slack (VStr ([x0; x1; x2; x3; p1; p2] ++ more) :: t) =
     do r <- parsePeerInfo slack t; Ok (mkaddr [x0; x1; x2; x3] (Z.of_N (bval p1 * 256 + bval p2)) :: r)) /\
  (forall s, length s < 6 -> parsePeerInfo slack (VStr s :: t) = Panic PRuntime \/
     parsePeerInfo slack (VStr s :: t) = parsePeerInfo slack (VStr (s ++ repeat (byte_of 0) 6) :: t)) /\
  (forall v, (forall s, v <> VStr s) -> exists msg, parsePeerInfo slack (v :: t) = Panic (PBiz 201 msg)).
Proof.
  intros slack t.
  assert (Hsix : forall x0 x1 x2 x3 p1 p2 more, parse_peer slack ([x0; x1; x2; x3; p1; p2] ++ more) =
      Ok (mkaddr [x0; x1; x2; x3] (Z.of_N (bval p1 * 256 + bval p2)))).
  { intros. unfold parse_peer. cbn [app length].
    destruct (Nat.ltb_spec (Nat.max (S (S (S (S (S (S (length more))))))) (slack (S (S (S (S (S (S (length more))))))))) 6); [lia|].
    reflexivity. }
  split; [|split].
  - intros. rewrite parsePeerInfo_cons, Hsix. reflexivity.
  - intros s Hs. rewrite !parsePeerInfo_cons.
    assert (Hc : parse_peer slack s = Panic PRuntime \/ parse_peer slack s = parse_peer slack (s ++ repeat (byte_of 0) 6)).
    { unfold parse_peer. destruct (Nat.ltb_spec (Nat.max (length s) (slack (length s))) 6) as [H|H]; [left; reflexivity|right].
      destruct (Nat.ltb_spec (Nat.max (length (s ++ repeat (byte_of 0) 6)) (slack (length (s ++ repeat (byte_of 0) 6)))) 6) as [H'|H'];
        [rewrite app_length in H'; cbn [length repeat] in H'; lia|].
      cbv zeta. destruct s as [|x0 [|x1 [|x2 [|x3 [|x4 [|]]]]]]; cbn in Hs; try lia; reflexivity. }
    destruct Hc as [-> | ->]; [left; reflexivity|right; reflexivity].
  - intros v Hv. destruct v; try (eexists; reflexivity). exfalso. eapply Hv. reflexivity.
Qed.

Lemma C23_example_pf : parsePeerInfo (fun n => 8) [VStr (B "1db6c0")] = Ok [mkaddr (B "1db6") (99 * 256 + 48)] /\
  compact_addr (mkaddr (B "1db6") (99 * 256 + 48)) /\ parsePeerInfo (fun n => n) [VStr (B "1db")] = Panic PRuntime.
Proof. split; [vm_compute; reflexivity|]. split; [repeat split; cbn; lia|vm_compute; reflexivity]. Qed.

(** C21: 58 bytes are two nodes and six ignored bytes. *)
Lemma C21_example_pf : parseNodeInfo (B "aaaaaaaaaaaaaaaaaaaa123456bbbbbbbbbbbbbbbbbbbb7890ABsurplus") =
  Ok [{| nid := B "aaaaaaaaaaaaaaaaaaaa"; naddr := mkaddr (B "1234") 13622 |}; {| nid := B "bbbbbbbbbbbbbbbbbbbb"; naddr := mkaddr (B "7890") 16706 |}].
Proof. vm_compute. reflexivity. Qed.
(** C22: two nodes, one of them with a 16-byte (mapped) address. *)
Lemma C22_example_pf :
  let ns := [{| nid := repeat (byte_of 250) 20; naddr := mkaddr (v4 10 0 0 1) 65535 |}; {| nid := repeat (byte_of 0) 20; naddr := mkaddr (v4prefix ++ v4 255 1 2 3) 1 |}] in
  Forall (fun v => length (nid v) = 20 /\ length (To4 (ip (naddr v))) = 4) ns /\ length (joinNodeInfos ns) = 52.
Proof. cbv zeta. split; [repeat constructor|vm_compute; reflexivity]. Qed.
