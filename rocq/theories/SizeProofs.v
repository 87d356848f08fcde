(** SizeProofs.v -- the length of bencodings (for C104). *)
From Verif Require Import Base GoLib Bencode BencodeSpec BencodeProofs BencodePf Types Node Krpc KrpcSpec KrpcProofs CodecSpec CodecPf.
Local Open Scope list_scope.

Definition ssize (n : nat) : nat := length (utoa (N.of_nat n)) + 1 + n.
Fixpoint wsize (v : val) : nat :=
  match v with
  | VInt z => length (itoa z) + 2
  | VStr s => ssize (length s)
  | VList l => 2 + fold_right (fun x n => wsize x + n) 0 l
  | VDict d => 2 + fold_right (fun p n => ssize (length (fst p)) + wsize (snd p) + n) 0 d
  | _ => 0
  end.
Definition esize (d : entries) : nat := fold_right (fun p n => ssize (length (fst p)) + wsize (snd p) + n) 0 d.

Lemma decimal_itoa ds z : decimal ds z -> ds = itoa z.
Proof.
  intros [(n & Hd & ->)|(ds' & n & -> & Hd & Hn & ->)]; apply decimal_nat_iff in Hd; subst.
  - unfold itoa. replace (Z.of_N n <? 0)%Z with false by (symmetry; apply Z.ltb_ge; lia). rewrite N2Z.id. reflexivity.
  - unfold itoa. replace (- Z.of_N n <? 0)%Z with true by (symmetry; apply Z.ltb_lt; lia). rewrite Z.opp_involutive, N2Z.id. reflexivity.
Qed.

Lemma bencoding_size :
  (forall v s, bencoding v s -> length s = wsize v) /\
  (forall l s, bencoding_items l s -> length s = fold_right (fun x n => wsize x + n) 0 l) /\
  (forall d s, bencoding_entries d s -> length s = esize d).
Proof.
  apply bencoding_mutind.
  - intros z ds Hd Hz. cbn [wsize length]. rewrite app_length. cbn [length]. apply decimal_itoa in Hd. subst ds. lia.
  - intros s ds Hd. apply decimal_nat_iff in Hd. subst ds. rewrite app_length. cbn [wsize length]. unfold ssize. lia.
  - intros l s Hl IH. cbn [wsize length]. rewrite app_length. cbn [length]. lia.
  - intros d s Hl IH Hn. cbn [wsize length]. rewrite app_length. cbn [length]. fold (esize d). lia.
  - reflexivity.
  - intros v l s t Hv IHv Hl IHl. rewrite app_length. cbn [fold_right]. lia.
  - reflexivity.
  - intros k v d sk s t Hk IHk Hv IHv Hd IHd. rewrite !app_length. unfold esize. cbn [fold_right fst snd]. fold (esize d). cbn [wsize] in IHk. lia.
Qed.

Lemma esize_perm d d' : Permutation d d' -> esize d = esize d'.
Proof. induction 1; unfold esize in *; cbn [fold_right]; lia. Qed.
Lemma veq_size v : forall v', veq v v' -> wsize v = wsize v'.
Proof.
  induction v as [z|k|l IH|d IH| | | |k] using val_ind'; intros v' H;
    inversion H as [| |l0 l' Hl E1 E2|d0 d' Hd E1 E2| | | |]; subst; try reflexivity.
  - cbn [wsize]. f_equal. clear H. revert l' Hl. induction IH as [|x l Hx IHl IH2]; intros l' Hl; inversion Hl as [|? y ? l'' Hxy Hl2]; subst; [reflexivity|].
    cbn [fold_right]. rewrite (Hx _ Hxy), (IH2 _ Hl2). reflexivity.
  - cbn [wsize]. f_equal. inversion Hd as [? ? d'' Hp Hf]; subst. fold (esize d). fold (esize d'). rewrite (esize_perm _ _ Hp).
    assert (IH' : Forall (fun e => forall v', veq (snd e) v' -> wsize (snd e) = wsize v') d'').
    { rewrite Forall_forall in *. intros e He. apply IH. eapply Permutation_in; [symmetry; exact Hp|exact He]. }
    clear - IH' Hf. induction Hf as [|e e' l l' [Ek Hv] Hf IHf]; [reflexivity|]. inversion IH'; subst. unfold esize in *. cbn [fold_right]. rewrite Ek, (IHf H2), (H1 _ Hv). reflexivity.
Qed.
Lemma carries_size b d : carries b d -> length b = 2 + esize d.
Proof.
  intros [(d' & Hd & Hb) _]. rewrite (proj1 bencoding_size _ _ Hb). rewrite <- (veq_size (VDict d) (VDict d') (veq_dict _ _ Hd)). reflexivity.
Qed.

(** Number of digits. *)
Lemma utoa_fuel_len f : forall n k, (n < 10 ^ N.of_nat k)%N -> 0 < k -> length (utoa_fuel f n) <= k.
Proof.
  induction f as [|f IH]; intros n k Hn Hk; cbn [utoa_fuel length]; [lia|].
  destruct (N.ltb_spec n 10) as [Hl|Hl]; [cbn [length]; lia|]. rewrite app_length. cbn [length].
  destruct k as [|[|k]]; [lia|cbn in Hn; lia|].
  assert (length (utoa_fuel f (n / 10)) <= S k); [|lia]. apply IH; [|lia]. apply N.div_lt_upper_bound; [lia|].
  replace (10 * 10 ^ N.of_nat (S k))%N with (10 ^ N.of_nat (S (S k)))%N; [exact Hn|]. rewrite (Nat2N.inj_succ (S k)), N.pow_succ_r'. reflexivity.
Qed.
Lemma utoa_len n k : (n < 10 ^ N.of_nat k)%N -> 0 < k -> length (utoa n) <= k.
Proof. apply utoa_fuel_len. Qed.
Lemma ssize_fits n : (Z.of_nat n <= max_int)%Z -> ssize n <= n + 20.
Proof.
  intros H. unfold ssize. assert (length (utoa (N.of_nat n)) <= 19); [|lia]. apply utoa_len; [|lia].
  change (10 ^ N.of_nat 19)%N with 10000000000000000000%N. unfold max_int in H. lia.
Qed.
Lemma ssize_small n : (Z.of_nat n < 10000)%Z -> ssize n <= n + 5.
Proof.
  intros H. unfold ssize. assert (length (utoa (N.of_nat n)) <= 4); [|lia]. apply utoa_len; [|lia].
  change (10 ^ N.of_nat 4)%N with 10000%N. lia.
Qed.

(** The fields of a dictionary take room in it. *)
Definition eweight (d : entries) : nat := fold_right (fun p n => length (fst p) + 2 + weight (snd p) + n) 0 d.
Lemma eweight_perm d d' : Permutation d d' -> eweight d = eweight d'.
Proof. induction 1; unfold eweight in *; cbn [fold_right]; lia. Qed.
Lemma eweight_app a b : eweight (a ++ b) = eweight a + eweight b.
Proof. induction a as [|x a IH]; [reflexivity|]. unfold eweight in *. cbn [app fold_right]. lia. Qed.
Lemma incl_perm {X} (l d : list X) : NoDup l -> incl l d -> exists r, Permutation d (l ++ r).
Proof.
  revert d. induction l as [|x l IH]; intros d Hn Hi; [exists d; reflexivity|]. inversion Hn as [|? ? Hx Hn']; subst.
  destruct (in_split x d (Hi x (or_introl eq_refl))) as (d1 & d2 & ->).
  destruct (IH (d1 ++ d2) Hn') as (r & Hr).
  { intros y Hy. pose proof (Hi y (or_intror Hy)) as Hin. apply in_app_iff in Hin. destruct Hin as [Hin|[<-|Hin]]; [apply in_app_iff; auto|contradiction|apply in_app_iff; auto]. }
  exists r. cbn [app]. rewrite <- Hr. symmetry. apply Permutation_middle.
Qed.
Lemma fields_weight l d : NoDup l -> incl l d -> S (eweight l) <= weight (VDict d).
Proof.
  intros Hn Hi. destruct (incl_perm _ _ Hn Hi) as (r & Hr). cbn [weight]. fold (eweight d). rewrite (eweight_perm _ _ Hr), eweight_app. lia.
Qed.
