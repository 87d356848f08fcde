(** TypesPf.v -- proofs of the accessor properties C14-C17. *)
From Verif Require Import Base GoLib Bencode Types.
From Verif Require Import BencodeSpec BencodeProofs.
Local Open Scope list_scope.

Arguments rune_fold : simpl never.

(** "the key is present with value v" for a map with distinct keys *)
Lemma dget_binding d k v : NoDup (map fst d) -> (dget d k = Some v <-> In (k, v) d).
Proof. apply dget_In. Qed.

(** C14: each typed getter returns x exactly when the map binds the key to a value of
    that type; in every other case it panics with a *misc.Error of code 201. *)
Lemma C14_typed_getters_pf : forall d k, NoDup (map fst d) ->
  (forall z, GetInteger d k = Ok z <-> In (k, VInt z) d) /\
  (forall s, GetString d k = Ok s <-> In (k, VStr s) d) /\
  (forall l, GetList d k = Ok (Some l) <-> In (k, VList l) d) /\
  (forall x, GetDict d k = Ok (Some x) <-> In (k, VDict x) d) /\
  (GetList d k = Ok None <-> In (k, VNilList) d) /\ (GetDict d k = Ok None <-> In (k, VNilDict) d) /\
  (forall v, GetVal d k = Ok v <-> In (k, v) d) /\
  ((forall z, ~ In (k, VInt z) d) -> GetInteger d k = Panic (PBiz 201 (if Exist d k then k ++ B "'s val cannot match type of int" else B "cannot find " ++ k ++ B "'s val"))) /\
  ((forall s, ~ In (k, VStr s) d) -> GetString d k = Panic (PBiz 201 (if Exist d k then k ++ B "'s val cannot match type of string" else B "cannot find " ++ k ++ B "'s val"))) /\
  ((forall l, ~ In (k, VList l) d) -> ~ In (k, VNilList) d -> GetList d k = Panic (PBiz 201 (if Exist d k then k ++ B "'s val cannot match type of List" else B "cannot find " ++ k ++ B "'s val"))) /\
  ((forall x, ~ In (k, VDict x) d) -> ~ In (k, VNilDict) d -> GetDict d k = Panic (PBiz 201 (if Exist d k then k ++ B "'s val cannot match type of Dict" else B "cannot find " ++ k ++ B "'s val"))) /\
  ((forall v, ~ In (k, v) d) -> GetVal d k = Panic (PBiz 201 (B "cannot find " ++ k ++ B "'s val"))).
Proof.
  intros d k Hn.
  assert (Hb : forall v, dget d k = Some v <-> In (k, v) d) by (intros; apply dget_In; exact Hn).
  unfold Exist, GetInteger, GetString, GetList, GetDict, GetVal, PanicBizErr.
  destruct (dget d k) as [v|] eqn:E; cbn [bind].
  - assert (Hv : forall v', In (k, v') d <-> v = v') by (intros v'; rewrite <- Hb; split; congruence).
    destruct v; repeat match goal with |- _ /\ _ => split end; intros;
      try (rewrite Hv; split; intros; congruence);
      try reflexivity;
      exfalso;
      match goal with
      | H : _ |- False => eapply H; apply Hv; reflexivity
      end.
  - assert (Hv : forall v', ~ In (k, v') d) by (intros v' H; apply Hb in H; discriminate).
    repeat match goal with |- _ /\ _ => split end; intros; try reflexivity;
      (split; [discriminate|]; intros H; exfalso; eapply Hv; exact H).
Qed.

Lemma C14_example_pf :
  GetInteger [(B "a", VStr (B "x")); (B "n", VInt 7)] (B "n") = Ok 7%Z /\
  GetInteger [(B "a", VStr (B "x"))] (B "a") = Panic (PBiz 201 (B "a's val cannot match type of int")) /\
  GetString [] (B "t") = Panic (PBiz 201 (B "cannot find t's val")).
Proof. vm_compute. repeat split. Qed.

(** C15: the defaulting getters are total functions (no panic is possible in their type);
    they return the stored value when it has the right type and the default otherwise. *)
Lemma C15_defaulting_getters_pf : forall d k, NoDup (map fst d) ->
  (forall z dflt, In (k, VInt z) d -> GetIntegerOrDefault d k dflt = z) /\
  (forall dflt, (forall z, ~ In (k, VInt z) d) -> GetIntegerOrDefault d k dflt = dflt) /\
  (forall s dflt, In (k, VStr s) d -> GetStringOrDefault d k dflt = s) /\
  (forall dflt, (forall s, ~ In (k, VStr s) d) -> GetStringOrDefault d k dflt = dflt) /\
  (forall v dflt, In (k, v) d -> GetValOrDefault d k dflt = v).
Proof.
  intros d k Hn. unfold GetIntegerOrDefault, GetStringOrDefault, GetValOrDefault.
  assert (Hb : forall v, dget d k = Some v <-> In (k, v) d) by (intros; apply dget_In; exact Hn).
  split; [|split; [|split; [|split]]].
  - intros z dflt H. apply Hb in H. rewrite H. reflexivity.
  - intros dflt H. destruct (dget d k) as [[z| | | | | | |]|] eqn:E; try reflexivity. exfalso. eapply H, Hb. reflexivity.
  - intros z dflt H. apply Hb in H. rewrite H. reflexivity.
  - intros dflt H. destruct (dget d k) as [[|s| | | | | |]|] eqn:E; try reflexivity. exfalso. eapply H, Hb. reflexivity.
  - intros v dflt H. apply Hb in H. rewrite H. reflexivity.
Qed.

(** C15, GetValOrDefault refuted: for a missing key it returns nil whatever the default. *)
Lemma C15_get_val_or_default_refuted_pf : forall d k dflt, ~ In k (map fst d) -> GetValOrDefault d k dflt = VNil.
Proof.
  intros d k dflt H. unfold GetValOrDefault. apply dget_none in H. rewrite H. reflexivity.
Qed.
Lemma C15_refuted_example_pf : GetValOrDefault [(B "b", VInt 2)] (B "a") (VInt 1) = VNil /\ VNil <> VInt 1.
Proof. split; [reflexivity|discriminate]. Qed.

(** C16: for i >= 0, Exist(i) iff GetVal(i) does not panic; typed getters return the
    element exactly when it has the type. *)
Lemma C16_list_access_pf : forall l i, (0 <= i)%Z ->
  (LExist l i = true <-> exists v, LGetVal l i = Ok v) /\
  (LExist l i = false <-> LGetVal l i = Panic PRuntime) /\
  (forall v, LGetVal l i = Ok v <-> nth_error l (Z.to_nat i) = Some v) /\
  (forall z, LGetInteger l i = Ok z <-> nth_error l (Z.to_nat i) = Some (VInt z)) /\
  (forall s, LGetString l i = Ok s <-> nth_error l (Z.to_nat i) = Some (VStr s)) /\
  (forall x, LGetList l i = Ok (Some x) <-> nth_error l (Z.to_nat i) = Some (VList x)) /\
  (forall x, LGetDict l i = Ok (Some x) <-> nth_error l (Z.to_nat i) = Some (VDict x)) /\
  (LGetList l i = Ok None <-> nth_error l (Z.to_nat i) = Some VNilList) /\
  (LGetDict l i = Ok None <-> nth_error l (Z.to_nat i) = Some VNilDict) /\
  (forall v, nth_error l (Z.to_nat i) = Some v ->
     ((forall z, v <> VInt z) -> LGetInteger l i = Panic (PBiz 201 (B "val cannot match type of int"))) /\
     ((forall s, v <> VStr s) -> LGetString l i = Panic (PBiz 201 (B "val cannot match type of string"))) /\
     ((forall x, v <> VList x) -> v <> VNilList -> LGetList l i = Panic (PBiz 201 (B "val cannot match type of List"))) /\
     ((forall x, v <> VDict x) -> v <> VNilDict -> LGetDict l i = Panic (PBiz 201 (B "val cannot match type of Dict")))).
Proof.
  intros l i Hi. unfold PanicBizErr, LGetInteger, LGetString, LGetList, LGetDict, LGetVal, LExist, idx.
  destruct (Z.ltb_spec i 0) as [Hneg|_]; [lia|].
  destruct (nth_error l (Z.to_nat i)) as [v|] eqn:E; cbn [bind].
  - assert (Hlt : Z.to_nat i < length l) by (apply nth_error_Some; congruence).
    split; [split; [eauto|intros _; apply Z.ltb_lt; lia]|].
    split; [split; [intros H; apply Z.ltb_ge in H; lia|discriminate]|].
    repeat match goal with |- _ /\ _ => split end; intros;
      try (destruct v; split; intros H; unfold PanicBizErr in *; congruence);
      match goal with H : Some v = Some ?v' |- _ => injection H as <- end;
      repeat match goal with |- _ /\ _ => split end; intros;
      destruct v; first [reflexivity | exfalso; match goal with H : forall _, _ <> _ |- _ => eapply H; reflexivity | H : _ <> _ |- _ => apply H; reflexivity end].
  - apply nth_error_None in E.
    split; [split; [intros H; apply Z.ltb_lt in H; lia|intros [v H]; discriminate]|].
    split; [split; [reflexivity|intros _; apply Z.ltb_ge; lia]|].
    repeat match goal with |- _ /\ _ => split end; intros; try discriminate; split; intros H; discriminate.
Qed.

(** C16 refuted for negative indices: Exist says yes, GetVal panics - for every list. *)
Lemma C16_negative_index_refuted_pf : forall l i, (i < 0)%Z -> LExist l i = true /\ LGetVal l i = Panic PRuntime.
Proof.
  intros l i Hi. unfold LExist, LGetVal. split; [apply Z.ltb_lt; lia|].
  destruct (Z.ltb_spec i 0); [reflexivity|lia].
Qed.
Lemma C16_example_pf : LExist [VInt 1] 0 = true /\ LExist [] (-1) = true /\ LGetVal [] (-1) = Panic PRuntime.
Proof. vm_compute. repeat split. Qed.

(** ** C17 *)

Lemma rune_fold_refl uf a : rune_fold uf a a = true.
Proof. unfold rune_fold. rewrite N.eqb_refl. reflexivity. Qed.

Lemma rune_fold_sym uf a b : rune_fold uf a b = rune_fold uf b a.
Proof. unfold rune_fold. rewrite (N.eqb_sym b a), (N.min_comm b a), (N.max_comm b a). reflexivity. Qed.

Lemma fold_list_refl uf a : fold_list uf a a = true.
Proof. induction a as [|x a IH]; [reflexivity|]. cbn [fold_list]. rewrite rune_fold_refl. exact IH. Qed.

Lemma fold_list_sym uf a : forall b, fold_list uf a b = fold_list uf b a.
Proof.
  induction a as [|x a IH]; destruct b as [|y b]; try reflexivity. cbn [fold_list].
  rewrite (rune_fold_sym uf x y), IH. reflexivity.
Qed.

Lemma EqualFold_refl uf s : EqualFold uf s s = true.
Proof. apply fold_list_refl. Qed.
Lemma EqualFold_sym uf s t : EqualFold uf s t = EqualFold uf t s.
Proof. apply fold_list_sym. Qed.

Definition ascii_string (s : bytes) : Prop := Forall (fun c => (N_of_ascii c < 128)%N) s.
(** ASCII lower-casing of one byte. *)
Definition lower (c : byte) : byte :=
  if ((65 <=? N_of_ascii c) && (N_of_ascii c <=? 90))%N then ascii_of_N (N_of_ascii c + 32) else c.

Lemma runes_fuel_ascii s : forall f, ascii_string s -> length s <= f -> runes_fuel f s = map bval s.
Proof.
  induction s as [|c s IH]; intros f Ha Hf.
  - destruct f; reflexivity.
  - destruct f as [|f]; [cbn in Hf; lia|]. inversion Ha as [|? ? Hc Hs]; subst. cbn [runes_fuel decode_rune].
    cbv zeta. change (N_of_ascii c) with (bval c) in Hc. destruct (N.ltb_spec (bval c) 128); [|lia].
    cbn [skipn map]. rewrite IH; [reflexivity|exact Hs|cbn in Hf; lia].
Qed.

Lemma runes_ascii s : ascii_string s -> runes s = map bval s.
Proof. intros H. apply runes_fuel_ascii; [exact H|lia]. Qed.

Lemma rune_fold_ascii uf c d : (bval c < 128)%N -> (bval d < 128)%N ->
  (rune_fold uf (bval c) (bval d) = true <-> lower c = lower d).
Proof.
  intros Hc Hd. unfold rune_fold, lower. fold (bval c). fold (bval d). cbv zeta.
  assert (Hasc : forall n, (n < 256)%N -> bval (ascii_of_N n) = n) by (intros n Hn; apply N_ascii_embedding; exact Hn).
  destruct (N.eqb_spec (bval c) (bval d)) as [E|E].
  - apply bval_inj in E. subst. tauto.
  - destruct (N.ltb_spec (N.max (bval c) (bval d)) 128) as [_|H]; [|lia].
    split.
    + intros H. apply andb_true_iff in H as [H H3]. apply andb_true_iff in H as [H1 H2].
      apply N.leb_le in H1, H2. apply N.eqb_eq in H3.
      destruct (N.le_gt_cases (bval c) (bval d)) as [Hle|Hgt].
      * rewrite N.min_l in * by lia. rewrite N.max_r in * by lia.
        destruct ((65 <=? bval c) && (bval c <=? 90))%N eqn:Ec; [|lia].
        destruct ((65 <=? bval d) && (bval d <=? 90))%N eqn:Ed; [lia|].
        apply bval_inj. rewrite Hasc by lia. lia.
      * rewrite N.min_r in * by lia. rewrite N.max_l in * by lia.
        destruct ((65 <=? bval c) && (bval c <=? 90))%N eqn:Ec; [lia|].
        destruct ((65 <=? bval d) && (bval d <=? 90))%N eqn:Ed; [|lia].
        apply bval_inj. rewrite Hasc by lia. lia.
    + intros H. apply (f_equal bval) in H.
      destruct ((65 <=? bval c) && (bval c <=? 90))%N eqn:Ec; destruct ((65 <=? bval d) && (bval d <=? 90))%N eqn:Ed;
        rewrite ?Hasc in H by lia; try lia.
Qed.

(** C17: the comparison behind ContainsString, NodeInfo.Equals, Find and the handshake
    check is reflexive and symmetric, and on ASCII strings it is equality up to case. *)
Lemma C17_equal_fold_pf : forall uf s t,
  EqualFold uf s s = true /\ EqualFold uf s t = EqualFold uf t s /\
  (ascii_string s -> ascii_string t -> (EqualFold uf s t = true <-> map lower s = map lower t)).
Proof.
  intros uf s t. split; [apply EqualFold_refl|]. split; [apply EqualFold_sym|].
  intros Hs Ht. unfold EqualFold. rewrite !runes_ascii by assumption.
  revert t Ht. induction Hs as [|c s Hc Hs IH]; intros t Ht; destruct Ht as [|d t Hd Ht]; cbn [map fold_list]; try (split; [discriminate|discriminate]); [tauto|].
  rewrite andb_true_iff, IH by exact Ht. rewrite rune_fold_ascii by assumption.
  split; [intros [-> ->]; reflexivity|intros H; injection H; auto].
Qed.

(** Bytes that never start a valid UTF-8 sequence. *)
Definition invalid_lead (c : byte) : Prop := (128 <= N_of_ascii c < 194)%N \/ (245 <= N_of_ascii c)%N.

Lemma runes_fuel_invalid s : forall f, Forall invalid_lead s -> length s <= f -> runes_fuel f s = repeat RuneError (length s).
Proof.
  induction s as [|c s IH]; intros f Ha Hf.
  - destruct f; reflexivity.
  - destruct f as [|f]; [cbn in Hf; lia|]. inversion Ha as [|? ? Hc Hs]; subst. cbn [runes_fuel length repeat].
    assert (E : decode_rune (c :: s) = (RuneError, 1)).
    { cbn [decode_rune]. cbv zeta. unfold invalid_lead in Hc. fold (bval c) in Hc.
      destruct (N.ltb_spec (bval c) 128); [lia|]. destruct (N.ltb_spec (bval c) 194); [reflexivity|].
      destruct (N.ltb_spec (bval c) 224); [lia|]. destruct (N.ltb_spec (bval c) 240); [lia|].
      destruct (N.ltb_spec (bval c) 245); [lia|]. reflexivity. }
    rewrite E. cbn [skipn]. rewrite IH; [reflexivity|exact Hs|cbn in Hf; lia].
Qed.

(** C17, finding: any two strings of equal length made of such bytes compare equal, so
    distinct binary node ids are identified. *)
Lemma C17_binary_ids_confused_pf : forall uf s t, length s = length t ->
  Forall invalid_lead s -> Forall invalid_lead t -> EqualFold uf s t = true.
Proof.
  intros uf s t Hl Hs Ht. unfold EqualFold, runes. rewrite !runes_fuel_invalid by (assumption || lia).
  rewrite Hl. apply fold_list_refl.
Qed.

Lemma C17_exact_equality_refuted_pf : forall uf, exists s t, length s = 20 /\ length t = 20 /\ s <> t /\ EqualFold uf s t = true.
Proof.
  intros uf. exists (repeat (ascii_of_N 128) 20), (repeat (ascii_of_N 129) 20).
  split; [reflexivity|]. split; [reflexivity|]. split; [discriminate|].
  apply C17_binary_ids_confused_pf; [reflexivity|apply Forall_forall; intros x Hx; apply repeat_spec in Hx; subst; left; split; vm_compute; congruence..].
Qed.

(** C17: ContainsString answers whether some element compares equal, and panics with a
    *misc.Error when it meets a non-string first. *)
Lemma C17_contains_string_pf : forall uf l target,
  (ContainsString uf l target = Ok true <->
     exists a s b, l = map VStr a ++ VStr s :: b /\ EqualFold uf s target = true /\ Forall (fun x => EqualFold uf x target = false) a) /\
  (ContainsString uf l target = Ok false <->
     exists a, l = map VStr a /\ Forall (fun x => EqualFold uf x target = false) a) /\
  (forall p, ContainsString uf l target = Panic p -> exists msg, p = PBiz 201 msg).
Proof.
  intros uf l target. unfold ContainsString. induction l as [|v l (IH1 & IH2 & IH3)]; cbn [contains_from].
  - split; [|split].
    + split; [discriminate|]. intros (a & s & b & E & _). destruct a; discriminate.
    + split; [intros _; exists []; auto|reflexivity].
    + discriminate.
  - destruct v as [z|s|x|x| | | |k];
      try (split; [|split];
           [split; [discriminate|intros ([|a0 a] & s & b & E & _); discriminate]
           |split; [discriminate|intros ([|a0 a] & E & _); discriminate]
           |intros p E; injection E as <-; eexists; reflexivity]).
    destruct (EqualFold uf s target) eqn:Es.
    + split; [|split].
      * split; [|reflexivity]. intros _. exists [], s, l. auto.
      * split; [discriminate|]. intros ([|a0 a] & E & Hf); [discriminate|]. injection E as -> ->.
        inversion Hf; subst. congruence.
      * discriminate.
    + split; [|split].
      * rewrite IH1. split.
        -- intros (a & s' & b & -> & H1 & H2). exists (s :: a), s', b. auto.
        -- intros ([|a0 a] & s' & b & E & H1 & H2).
           ++ injection E as -> ->. congruence.
           ++ injection E as -> ->. inversion H2; subst. exists a, s', b. auto.
      * rewrite IH2. split.
        -- intros (a & -> & H). exists (s :: a). auto.
        -- intros ([|a0 a] & E & H); [discriminate|]. injection E as -> ->. inversion H; subst. exists a. auto.
      * exact IH3.
Qed.

Lemma C17_contains_example_pf : forall uf,
  ContainsString uf [VStr (B "ping"); VInt 3] (B "PING") = Ok true /\
  ContainsString uf [VInt 3; VStr (B "ping")] (B "PING") = Panic (PBiz 201 (B "val cannot match type of string")).
Proof. intros uf. vm_compute. repeat split. Qed.
