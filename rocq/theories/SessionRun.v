(** SessionRun.v -- lemmas for C111: messages as a function, and the connection following it. *)
From Verif Require Import Base GoLib Bencode BencodeSpec BencodeProofs BencodePf Types TypesPf Krpc KrpcProofs BytesPool Sha1 PeerWire PeerWirePf Fetch FetchSpec FetchProofs FetchPf CodecPf SessionSpec SessionProofs.
Local Open Scope list_scope.

(** * Messages *)
Definition hear (s : sess) (m : bytes) : option (sess * list nat) :=
  match m with
  | [] => Some (s, [])
  | c :: t =>
      if negb (bval c =? ExtendedPeerMsg)%N then Some (s, []) else
      match t with
      | [] => None
      | i :: _ =>
          if (bval i =? 0)%N then
            match parseExtendedHandShake m with
            | Ok dict =>
                match dget dict (B "metadata_size") with
                | Some (VInt size) =>
                    if (piece_count size <? 0)%Z || (2 ^ 48 <? 24 * piece_count size)%Z then None
                    else Some ({| announced := size; slots := repeat None (Z.to_nat (piece_count size)) |}, seq 0 (Z.to_nat (piece_count size)))
                | _ => None
                end
            | _ => None
            end
          else if (bval i =? 1)%N then
            match parseExtendedFetchMetaMsg m with
            | Ok f =>
                if negb (fm_type f =? ExData)%Z then Some (s, []) else
                if (fm_piece f <? 0)%Z || (Z.of_nat (length (slots s)) <=? fm_piece f)%Z then None else
                Some ({| announced := announced s; slots := list_set (slots s) (Z.to_nat (fm_piece f)) (Some (payload m f)) |}, [])
            | _ => None
            end
          else Some (s, [])
      end
  end.

(** Rounded up to whole pieces, for every size. *)
Lemma piece_count_iff size k : piece_count size = k <-> pieces_needed size k.
Proof.
  assert (H : pieces_needed size (piece_count size)).
  { unfold pieces_needed, piece_count, SizeOf16KB. change (16 * 1024)%Z with 16384%Z.
    pose proof (Z.quot_rem size 16384 ltac:(lia)). pose proof (Z.rem_bound_abs size 16384 ltac:(lia)).
    destruct (Z.ltb_spec 0 (Z.rem size 16384)); lia. }
  split; [intros <-; exact H|]. intros H'. unfold pieces_needed in *. lia.
Qed.

Lemma xitem_no_nil : 
  (forall inp v rest u, xitem inp v rest u -> v <> VNilDict) /\
  (forall inp l rest u, xitems inp l rest u -> True) /\
  (forall inp ps rest u, xpairs inp ps rest u -> forall k v, In (k, v) ps -> v <> VNilDict).
Proof.
  apply xitem_mutind; intros; try discriminate; try exact I; try contradiction.
  match goal with H : In _ (_ :: _) |- _ => destruct H as [H|H]; [injection H as -> ->; assumption|eauto] end.
Qed.
Lemma xdict_no_nil inp d rest u k v : xitem inp (VDict d) rest u -> dget d k = Some v -> v <> VNilDict.
Proof.
  intros H E. inversion H as [| | |inp' ps r u' Hp]; subst. 
  destruct (mkdict_denotes ps) as [Hn Hd]. apply dget_In in E; [|exact Hn]. apply Hd in E.
  eapply (proj2 (proj2 xitem_no_nil) _ _ _ _ Hp k).
  clear - E. unfold last_value in E. revert E. assert (G : forall ps acc, fold_left (fun acc p => if bytes_eq_dec (fst p) k then Some (snd p) else acc) ps acc = Some v -> acc = Some v \/ In (k, v) ps).
  { clear ps. induction ps as [|[k' v'] ps IH]; intros acc E; cbn [fold_left fst snd] in E; [auto|]. apply IH in E as [E|E]; [|right; right; exact E].
    destruct (bytes_eq_dec k' k) as [->|]; [injection E as ->; right; left; reflexivity|auto]. }
  intros E. apply G in E as [E|E]; [discriminate|exact E].
Qed.
Lemma xdict_nodup inp d rest u : xitem inp (VDict d) rest u -> NoDup (map fst d).
Proof. intros H. inversion H as [| | |inp' ps r u' Hp]; subst. apply mkdict_denotes. Qed.
Lemma item_nodup inp d rest u : item inp (VDict d) rest u -> NoDup (map fst d).
Proof. intros H. inversion H as [| | |inp' ps d' r u' Hp Hd]; subst. apply Hd. Qed.

Lemma fits_tl c m : fits (c :: m) -> fits m.
Proof. unfold fits. cbn [length]. lia. Qed.

(** The extended handshake. *)
Lemma parse_ext_iff enc size : fits enc ->
  ((exists dict, parseExtendedHandShake (ascii_of_nat 20 :: ascii_of_nat 0 :: enc) = Ok dict /\ dget dict (B "metadata_size") = Some (VInt size)) <->
   exists d u m, item enc (VDict d) [] u /\ ends_with_e enc /\ In (B "m", VDict m) d /\ In (B "metadata_size", VInt size) d).
Proof.
  intros Hf. unfold parseExtendedHandShake, idx. cbn [nth_error bind].
  change (negb (ExtendedPeerMsg =? bval (ascii_of_nat 20))%N || negb (0 =? bval (ascii_of_nat 0))%N) with false. cbv iota. cbn [skipn].
  split.
  - intros (dict & E & Es). destruct (DecodeDict enc) as [g|x|x] eqn:Ed; [|discriminate..].
    apply DecodeDict_iff in Ed as (_ & He & d & rest & u & Hx & Eg); [|exact Hf].
    destruct rest as [|r0 rest]; subst g; cbn [dict_of] in E.
    + unfold GetDict, GetVal in E. destruct (dget d (B "m")) as [v|] eqn:Em; [|discriminate]. cbn [bind] in E.
      destruct v as [| | |m| | | |]; try discriminate; [|destruct (xdict_no_nil _ _ _ _ _ _ Hx Em eq_refl)].
      injection E as <-. unfold NewBaseExHandShakeMsg in Es. cbn [dict_of dict_val] in Es.
      rewrite (dset_same d _ _ (xdict_nodup _ _ _ _ Hx) Em) in Es.
      exists d, u, m. split; [apply x_to_item; exact Hx|]. split; [exact He|].
      split; apply dget_In; try assumption; eapply xdict_nodup; exact Hx.
    + discriminate.
  - intros (d & u & m & Hi & He & Hm & Hs). pose proof (item_nodup _ _ _ _ Hi) as Hn.
    apply (proj1 item_to_x) in Hi as (v' & Hv & Hx). inversion Hv as [| | |l0 d' Hd| | | |]; subst.
    assert (Ed : DecodeDict enc = Ok (Some d')).
    { apply DecodeDict_iff; [exact Hf|]. split; [|split; [exact He|exists d', [], u; auto]].
      destruct enc as [|c [|c' enc]]; [inversion Hx| |cbn [length]; lia]. exfalso.
      destruct He as ([|y [|]] & E); try discriminate. injection E as ->. inversion Hx; subst; try discriminate. }
    rewrite Ed. cbn [dict_of]. apply dget_In in Hm; [|exact Hn]. apply dget_In in Hs; [|exact Hn].
    destruct (deq_dget_dict _ _ _ _ Hn Hd Hm) as (m' & Em' & _).
    unfold GetDict, GetVal. rewrite Em'. cbn [bind]. eexists. split; [reflexivity|]. unfold NewBaseExHandShakeMsg. cbn [dict_of dict_val].
    rewrite (dset_same d' _ _ (xdict_nodup _ _ _ _ Hx) Em').
    destruct (deq_dget _ _ _ _ Hn Hd Hs) as (w & Ew & Hw). inversion Hw; subst. exact Ew.
Qed.

(** A message of the metadata extension. *)
Lemma parse_fetch_iff enc ty i data : fits enc ->
  ((exists f, parseExtendedFetchMetaMsg (ascii_of_nat 20 :: ascii_of_nat 1 :: enc) = Ok f /\ fm_type f = ty /\ fm_piece f = i /\
      payload (ascii_of_nat 20 :: ascii_of_nat 1 :: enc) f = data) <->
   exists d u, item enc (VDict d) data u /\ In (B "msg_type", VInt ty) d /\ In (B "piece", VInt i) d /\
     (data <> [] -> exists t, In (B "total_size", VInt t) d)).
Proof.
  intros Hf. unfold parseExtendedFetchMetaMsg, idx. cbn [nth_error bind].
  change (negb (ExtendedPeerMsg =? bval (ascii_of_nat 20))%N) with false. cbv iota. cbn [skipn].
  assert (GI : forall d k z, NoDup (map fst d) -> (GetInteger d k = Ok z <-> In (k, VInt z) d)).
  { intros d k z Hn. split; [|apply getint_in; exact Hn]. unfold GetInteger, GetVal. destruct (dget d k) as [v|] eqn:E; [|discriminate]. cbn [bind].
    destruct v; try discriminate. intros H. injection H as ->. apply dget_In; assumption. }
  split.
  - intros (f & E & <- & <- & Hp). destruct (DecodeDictNoLimit enc) as [[d n]|x|x] eqn:Ed; [|discriminate..].
    apply DecodeDictNoLimit_iff in Ed as (_ & rest & u & Hx & ->); [|exact Hf]. pose proof (xdict_nodup _ _ _ _ Hx) as Hn.
    pose proof (proj1 x_consumed _ _ _ _ Hx) as [[[c Hc] Hu] Hlt].
    assert (Hrest : length rest <= length enc) by (rewrite Hc, app_length; lia).
    exists d, u. cbv zeta in E. destruct (Nat.leb_spec (length (ascii_of_nat 20 :: ascii_of_nat 1 :: enc)) (length enc - length rest + u + 2)) as [Hl|Hl]; cbn [length] in Hl.
    + assert (rest = []) as -> by (destruct u; [destruct rest; [reflexivity|cbn [length] in *; lia]|apply Hu; lia]).
      destruct (GetInteger d (B "msg_type")) as [ty| |] eqn:E1; [|discriminate..]. cbn [bind] in E.
      destruct (GetInteger d (B "piece")) as [pc| |] eqn:E2; [|discriminate..]. cbn [bind] in E. injection E as <-. cbn [fm_type fm_piece payload fm_data] in *. subst data.
      split; [apply x_to_item; exact Hx|]. split; [apply GI; assumption|]. split; [apply GI; assumption|]. intros H. elim H. reflexivity.
    + assert (u = 0) as -> by (destruct u; [reflexivity|]; rewrite Hu in Hl by lia; cbn [length] in Hl; lia).
      destruct (GetInteger d (B "total_size")) as [tt| |] eqn:E0; [|discriminate..]. cbn [bind] in E.
      destruct (GetInteger d (B "msg_type")) as [ty| |] eqn:E1; [|discriminate..]. cbn [bind] in E.
      destruct (GetInteger d (B "piece")) as [pc| |] eqn:E2; [|discriminate..]. cbn [bind] in E. injection E as <-. cbn [fm_type fm_piece payload fm_data] in *.
      assert (data = rest) as ->.
      { subst data. replace (length enc - length rest + 0 + 2) with (S (S (length c))) by (rewrite Hc, app_length; lia). cbn [skipn]. rewrite Hc. apply skipn_len_app. }
      split; [apply x_to_item; exact Hx|]. split; [apply GI; assumption|]. split; [apply GI; assumption|]. intros _. exists tt. apply GI; assumption.
  - intros (d & u & Hi & H1 & H2 & H3). pose proof (item_nodup _ _ _ _ Hi) as Hn.
    apply (proj1 item_to_x) in Hi as (v' & Hv & Hx). inversion Hv as [| | |l0 d' Hd| | | |]; subst.
    assert (T : forall k z, In (k, VInt z) d -> GetInteger d' k = Ok z) by (intros k z H; eapply getint_deq; [exact Hn|exact Hd|]; apply dget_In; assumption).
    pose proof (proj1 x_consumed _ _ _ _ Hx) as [[[c Hc] Hu] Hlt].
    assert (Hr : length data <= length enc) by (rewrite Hc, app_length; lia).
    assert (Ed : DecodeDictNoLimit enc = Ok (d', length enc - length data + u)).
    { apply DecodeDictNoLimit_iff; [exact Hf|]. split; [|eauto].
      destruct enc as [|x [|y enc]]; [inversion Hx| |cbn [length]; lia]. exfalso.
      inversion Hx as [| | |inp ps r u' Hxp]; subst. apply xpairs_nil in Hxp as (-> & -> & ->). specialize (T _ _ H1). discriminate. }
    rewrite Ed. cbv zeta. rewrite (T _ _ H1), (T _ _ H2). cbn [bind].
    destruct (Nat.leb_spec (length (ascii_of_nat 20 :: ascii_of_nat 1 :: enc)) (length enc - length data + u + 2)) as [Hl|Hl]; cbn [length] in Hl.
    + eexists. split; [reflexivity|]. cbn [fm_type fm_piece payload fm_data]. split; [reflexivity|]. split; [reflexivity|].
      symmetry. destruct u; [destruct data; [reflexivity|cbn [length] in *; lia]|apply Hu; lia].
    + assert (u = 0) as -> by (destruct u; [reflexivity|]; rewrite Hu in Hl by lia; cbn [length] in Hl; lia).
      destruct H3 as (t & H3); [intros ->; cbn [length] in Hl; lia|]. rewrite (T _ _ H3). cbn [bind].
      eexists. split; [reflexivity|]. cbn [fm_type fm_piece payload fm_data]. split; [reflexivity|]. split; [reflexivity|].
      replace (length enc - length data + 0 + 2) with (S (S (length c))) by (rewrite Hc, app_length; lia). cbn [skipn]. rewrite Hc. apply skipn_len_app.
Qed.

Lemma list_set_split {A} (a : list A) x b y : list_set (a ++ x :: b) (length a) y = a ++ y :: b.
Proof. induction a as [|z a IH]; cbn [app length list_set]; [reflexivity|]. rewrite IH. reflexivity. Qed.
Lemma split_at {A} (l : list A) i : i < length l -> exists a x b, l = a ++ x :: b /\ length a = i.
Proof.
  intros H. destruct (nth_error l i) as [x|] eqn:E; [|apply nth_error_None in E; lia].
  apply nth_error_split in E as (a & b & -> & <-). eauto.
Qed.

Theorem hear_iff s m s' asked : fits m -> (hear s m = Some (s', asked) <-> hears s m s' asked).
Proof.
  intros Hf. destruct m as [|c t]; cbn [hear].
  { split; [intros E; injection E as <- <-; constructor|]. intros H. inversion H; reflexivity. }
  destruct (N.eqb_spec (bval c) ExtendedPeerMsg) as [Ec|Ec]; cbn [negb].
  2: { assert (Hc : c <> ascii_of_nat 20) by (intros ->; apply Ec; reflexivity).
       split; [intros E; injection E as <- <-; constructor; exact Hc|]. intros H. inversion H; subst; try congruence. }
  assert (c = ascii_of_nat 20) as -> by (apply bval_inj; rewrite Ec; reflexivity). clear Ec.
  destruct t as [|i enc]; [split; [discriminate|intros H; inversion H; congruence]|].
  assert (Hfe : fits enc) by (eapply fits_tl, fits_tl; exact Hf).
  destruct (N.eqb_spec (bval i) 0) as [Ei|Ei].
  { assert (i = ascii_of_nat 0) as -> by (apply bval_inj; rewrite Ei; reflexivity). clear Ei.
    split.
    - destruct (parseExtendedHandShake _) as [dict| |] eqn:Ep; [|discriminate..].
      destruct (dget dict (B "metadata_size")) as [[size| | | | | | |]|] eqn:Es; try discriminate.
      destruct (Z.ltb_spec (piece_count size) 0) as [H0|H0]; [discriminate|].
      destruct (Z.ltb_spec (2 ^ 48) (24 * piece_count size)) as [H1|H1]; [discriminate|]. cbn [orb]. intros E. injection E as <- <-.
      destruct (proj1 (parse_ext_iff enc size Hfe)) as (d & u & m & Hi & He & Hm & Hs); [eauto|].
      eapply h_announce; try eassumption; [|lia]. rewrite Z2Nat.id by exact H0. apply piece_count_iff. reflexivity.
    - intros H. inversion H as [| | |enc' d u m size k Hi He Hm Hs Hk Hb| |]; subst; try congruence.
      destruct (proj2 (parse_ext_iff enc size Hfe)) as (dict & Ep & Es); [eauto 8|]. rewrite Ep, Es.
      apply piece_count_iff in Hk. rewrite Hk. destruct (Z.ltb_spec (Z.of_nat k) 0); [lia|]. destruct (Z.ltb_spec (2 ^ 48) (24 * Z.of_nat k)); [lia|].
      cbn [orb]. rewrite Nat2Z.id. reflexivity. }
  destruct (N.eqb_spec (bval i) 1) as [Ei1|Ei1].
  2: { assert (i <> ascii_of_nat 0 /\ i <> ascii_of_nat 1) as [N0 N1] by (split; intros ->; [apply Ei|apply Ei1]; reflexivity).
       split; [intros E; injection E as <- <-; constructor; assumption|]. intros H. inversion H; subst; try congruence. }
  assert (i = ascii_of_nat 1) as -> by (apply bval_inj; rewrite Ei1; reflexivity). clear Ei Ei1.
  split.
  - destruct (parseExtendedFetchMetaMsg _) as [f| |] eqn:Ep; [|discriminate..].
    destruct (proj1 (parse_fetch_iff enc (fm_type f) (fm_piece f) (payload (ascii_of_nat 20 :: ascii_of_nat 1 :: enc) f) Hfe)) as (d & u & Hi & H1 & H2 & H3); [eauto|].
    unfold ExData. destruct (Z.eqb_spec (fm_type f) 1) as [Et|Et]; cbn [negb].
    + destruct (Z.ltb_spec (fm_piece f) 0) as [G0|G0]; [discriminate|].
      destruct (Z.leb_spec (Z.of_nat (length (slots s))) (fm_piece f)) as [G1|G1]; [discriminate|]. cbn [orb]. intros E. injection E as <- <-.
      destruct (split_at (slots s) (Z.to_nat (fm_piece f)) ltac:(lia)) as (a & x & b & Es & Ea). rewrite Es, <- Ea, list_set_split.
      eapply h_data; try eassumption; [rewrite <- Et; exact H1|]. rewrite Ea, Z2Nat.id by exact G0. exact H2.
    + intros E. injection E as <- <-. eapply h_not_data; eassumption.
  - intros H. inversion H as [| | | |enc' d pay u a x b Hi H1 H2 H3 Es|enc' d pay u ty i Hi H1 Hne H2 H3]; subst; try congruence.
    + destruct (proj2 (parse_fetch_iff enc 1 (Z.of_nat (length a)) pay Hfe)) as (f & Ep & Ef1 & Ef2 & Ef3); [eauto 8|].
      rewrite Ep, Ef1, Ef2, Ef3. cbn [Z.eqb ExData negb Pos.eqb]. destruct (Z.ltb_spec (Z.of_nat (length a)) 0); [lia|]. rewrite Es, app_length. cbn [length].
      destruct (Z.leb_spec (Z.of_nat (length a + S (length b))) (Z.of_nat (length a))); [lia|]. cbn [orb]. rewrite Nat2Z.id, list_set_split. reflexivity.
    + destruct (proj2 (parse_fetch_iff enc ty i pay Hfe)) as (f & Ep & Ef1 & Ef2 & Ef3); [eauto 8|].
      rewrite Ep, Ef1. unfold ExData. destruct (Z.eqb_spec ty 1); [contradiction|]. reflexivity.
Qed.

(** * The connection *)
Definition filled (x : option bytes) : bool := match x with Some _ => true | None => false end.
Definition sent (e : fenv) (i : nat) (m : bytes) : Prop := exists n, withExtendedFetchMetaMsg (e_ford e n) 1 ExRequest (Z.of_nat i) 0 [] = Ok m.

Lemma complete_iff s : complete s <-> forallb filled (slots s) = true.
Proof.
  unfold complete. rewrite forallb_forall. split; intros H x Hx; specialize (H x Hx); destruct x; cbn in *; congruence.
Qed.
Lemma completed_iff s st : f_req st = map filled (slots s) -> CompledMetaData st = forallb filled (slots s).
Proof. intros E. unfold CompledMetaData. rewrite E. clear E. induction (slots s) as [|x l IH]; [reflexivity|]. cbn. rewrite IH. reflexivity. Qed.

Lemma getint_no_err d k x : GetInteger d k <> Err x.
Proof. unfold GetInteger, GetVal. destruct (dget d k) as [v|]; [destruct v|]; discriminate. Qed.
Lemma getdict_no_err d k x : GetDict d k <> Err x.
Proof. unfold GetDict, GetVal. destruct (dget d k) as [v|]; [destruct v|]; discriminate. Qed.
Lemma parse_ext_no_err m x : parseExtendedHandShake m <> Err x.
Proof.
  unfold parseExtendedHandShake, idx. destruct (nth_error m 0); [|discriminate]. cbn [bind]. destruct (nth_error m 1); [|discriminate]. cbn [bind].
  destruct (_ || _); [discriminate|]. destruct (DecodeDict (skipn 2 m)) as [g| |]; [|discriminate..].
  destruct (GetDict (dict_of g) (B "m")) eqn:E; [discriminate|exfalso; eapply getdict_no_err; exact E|discriminate].
Qed.
Lemma parse_fetch_no_err m x : parseExtendedFetchMetaMsg m <> Err x.
Proof.
  unfold parseExtendedFetchMetaMsg, idx. destruct (nth_error m 0); [|discriminate]. cbn [bind]. destruct (negb _); [discriminate|].
  destruct (nth_error m 1); [|discriminate]. cbn [bind]. destruct (DecodeDictNoLimit (skipn 2 m)) as [[d n]| |]; [|discriminate..]. cbv zeta.
  assert (H : forall (A : Type) k (f : Z -> res A), (forall z, f z <> Err x) -> bind (GetInteger d k) f <> Err x).
  { intros A k f Hf. destruct (GetInteger d k) eqn:E; cbn [bind]; [apply Hf|exfalso; eapply getint_no_err; exact E|discriminate]. }
  destruct (_ <=? _); repeat (apply H; intros ?); discriminate.
Qed.
Lemma parse_fetch_off m f off : parseExtendedFetchMetaMsg m = Ok f -> fm_data f = Some off -> off <= length m.
Proof. intros E1 E2. pose proof (parse_off _ _ _ E1 E2). lia. Qed.

Lemma map_list_set {A C} (g : A -> C) l i x : map g (list_set l i x) = list_set (map g l) i (g x).
Proof. revert i. induction l as [|y l IH]; intros [|i]; cbn; try reflexivity. rewrite IH. reflexivity. Qed.
Lemma list_set_len {A} (l : list A) i x : length (list_set l i x) = length l.
Proof. revert i. induction l as [|y l IH]; intros [|i]; cbn; try reflexivity. rewrite IH. reflexivity. Qed.

Lemma written_writes l : written (map CWrite l) = l.
Proof. induction l as [|x l IH]; [reflexivity|]. cbn. f_equal. exact IH. Qed.

(** One message against the state of the connection. *)
Lemma handle_hear e b st s m : calm e -> h_read (f_heap st) b = m -> s_len b = Z.of_nat (length m) -> (0 <= s_off b)%Z -> m <> [] ->
  f_size st = announced s -> f_req st = map filled (slots s) -> length (slots s) <= length (f_meta st) ->
  match hear s m with
  | None => exists st' x, handle_msg e b st = (st', FPanic x) /\ wr st' = wr st
  | Some (s', asked) => exists st' msgs, handle_msg e b st = (st', FOk tt) /\
      f_size st' = announced s' /\ f_req st' = map filled (slots s') /\ length (slots s') <= length (f_meta st') /\
      wr st' = wr st ++ msgs /\ Forall2 (sent e) asked msgs /\
      forall i p, nth_error (slots s') i = Some (Some p) ->
        (exists sl, nth_error (f_meta st') i = Some (Some sl) /\ s_arr sl = s_arr b /\ h_read (f_heap st) sl = p) \/
        (nth_error (f_meta st') i = Some None /\ p = []) \/
        (nth_error (slots s) i = Some (Some p) /\ nth_error (f_meta st') i = nth_error (f_meta st) i)
  end.
Proof.
  intros Hc Hr Hlb Hob Hne Hz Hq Hl. destruct m as [|c t]; [congruence|].
  assert (EH : handle_msg e b st = (if (bval c =? ExtendedPeerMsg)%N then handleExtendedMsg e b (c :: t) else ret tt) st).
  { unfold handle_msg, mbind, m_show, lift, parsePrefixLenMsg. rewrite Hr. reflexivity. }
  rewrite EH. clear EH.
  assert (Quiet : exists st' msgs, ret tt st = (st', FOk tt) /\ f_size st' = announced s /\ f_req st' = map filled (slots s) /\ length (slots s) <= length (f_meta st') /\
    wr st' = wr st ++ msgs /\ Forall2 (sent e) [] msgs /\
    forall i p, nth_error (slots s) i = Some (Some p) ->
        (exists sl, nth_error (f_meta st') i = Some (Some sl) /\ s_arr sl = s_arr b /\ h_read (f_heap st) sl = p) \/
        (nth_error (f_meta st') i = Some None /\ p = []) \/
        (nth_error (slots s) i = Some (Some p) /\ nth_error (f_meta st') i = nth_error (f_meta st) i)).
  { exists st, []. rewrite app_nil_r. repeat split; auto. }
  cbn [hear]. destruct (N.eqb_spec (bval c) ExtendedPeerMsg) as [Ec|Ec]; cbn [negb]; [|exact Quiet].
  destruct t as [|i enc]; [eexists st, _; split; reflexivity|].
  assert (EH : handleExtendedMsg e b (c :: i :: enc) st =
    (if (bval i =? 0)%N then handle_ext_handshake e (c :: i :: enc) else if (bval i =? 1)%N then handle_piece b (c :: i :: enc) else ret tt) st) by reflexivity.
  rewrite EH. clear EH. destruct (N.eqb_spec (bval i) 0) as [Ei|Ei].
  - unfold handle_ext_handshake, mbind, lift.
    destruct (parseExtendedHandShake (c :: i :: enc)) as [dict|x|x] eqn:Ep; [|exfalso; eapply parse_ext_no_err; exact Ep|eexists st, _; split; reflexivity].
    unfold Exist, GetInteger, GetVal. destruct (dget dict (B "metadata_size")) as [v|] eqn:Es; cbn [negb]; [|eexists st, _; split; reflexivity].
    cbn [bind].
    destruct v as [size| | | | | | |]; try (eexists st, _; split; reflexivity).
    cbv zeta. set (n := piece_count size). unfold m_make.
    destruct (Z.ltb_spec n 0) as [H0|H0]; cbn [orb]; [eexists _, _; split; reflexivity|].
    destruct (Z.ltb_spec (2 ^ 48) (24 * n)) as [H1|H1]; [eexists _, _; split; reflexivity|].
    rewrite (ca_mem e Hc).
    destruct (Z.ltb_spec (2 ^ 48) (1 * n)); [lia|]. rewrite (ca_mem e Hc).
    match goal with |- exists x y, request_pieces e (seq 0 _) ?st0 = _ /\ _ => destruct (requests_run e (seq 0 (Z.to_nat n)) Hc) with (s := st0) as (s9 & msgs9 & E & P & T & F) end.
    { intros j Hj. apply in_seq in Hj. unfold max_int. lia. }
    destruct P as (P1 & P2 & P3). cbn [set_meta f_meta f_size f_req f_trace] in P1, P2, P3, T.
    exists s9, msgs9. split; [exact E|]. cbn [announced slots]. split; [exact P2|]. split; [rewrite P3; clear; induction (Z.to_nat n) as [|k IH]; [reflexivity|]; cbn; rewrite <- IH; reflexivity|].
    split; [rewrite P1, !repeat_length; lia|]. split; [unfold wr; rewrite T, written_app, written_writes; reflexivity|]. split; [exact F|].
    intros j p Hj. apply nth_error_In, repeat_spec in Hj. discriminate.
  - destruct (N.eqb_spec (bval i) 1) as [Ei1|Ei1]; [|exact Quiet].
    unfold handle_piece, mbind, lift.
    destruct (parseExtendedFetchMetaMsg (c :: i :: enc)) as [f|x|x] eqn:Ep; [|exfalso; eapply parse_fetch_no_err; exact Ep|eexists st, _; split; reflexivity].
    destruct (negb (fm_type f =? ExData)%Z); [exact Quiet|]. cbv zeta.
    set (pc := match fm_data f with Some off => _ | None => _ end).
    destruct (Z.ltb_spec (fm_piece f) 0) as [H0|H0]; cbn [orb]; [eexists _, _; split; reflexivity|].
    assert (Lq : length (f_req st) = length (slots s)) by (rewrite Hq; apply map_length). rewrite Lq.
    destruct (Z.leb_spec (Z.of_nat (length (f_meta st))) (fm_piece f)) as [H1|H1].
    { destruct (Z.leb_spec (Z.of_nat (length (slots s))) (fm_piece f)); [|lia]. eexists _, _; split; reflexivity. }
    destruct (Z.leb_spec (Z.of_nat (length (slots s))) (fm_piece f)) as [H2|H2]; [eexists _, _; split; reflexivity|].
    eexists _, []. split; [reflexivity|]. cbn [set_meta f_size f_req f_meta announced slots].
    split; [exact Hz|]. split; [rewrite Hq, map_list_set; reflexivity|]. split; [rewrite !list_set_len; exact Hl|].
    split; [rewrite app_nil_r; reflexivity|]. split; [constructor|].
    intros j p Hj. destruct (Nat.eq_dec j (Z.to_nat (fm_piece f))) as [->|Hd].
    + rewrite list_set_nth_eq in Hj by lia. injection Hj as <-. rewrite list_set_nth_eq by lia.
      unfold pc, payload. destruct (fm_data f) as [off|] eqn:Eo; [left|right; left; auto].
      eexists. split; [reflexivity|]. cbn [s_arr]. split; [reflexivity|].
      pose proof (parse_fetch_off _ _ _ Ep Eo) as Ho. rewrite <- Hr in *. unfold h_read in *. cbn [s_len s_off s_arr].
      rewrite skipn_firstn_comm, <- skipn_add. f_equal; [|f_equal; lia]. rewrite Hlb. lia.
    + rewrite list_set_nth_neq in Hj by auto. rewrite list_set_nth_neq by auto. right. right. auto.
Qed.

(** The state of the connection agrees with the state of the session; data lies in the buffers [used]. *)
Record linked (s : sess) (st : fstate) (used : list slc) : Prop := {
  lk_size : f_size st = announced s; lk_req : f_req st = map filled (slots s); lk_len : length (slots s) <= length (f_meta st);
  lk_data : forall i p, nth_error (slots s) i = Some (Some p) ->
    (exists sl, nth_error (f_meta st) i = Some (Some sl) /\ In (s_arr sl) (arrs used) /\ h_read (f_heap st) sl = p) \/
    (nth_error (f_meta st) i = Some None /\ p = []) }.

Lemma linked_keep s st st' used used' (X : nat -> Prop) : linked s st used -> samep st st' -> kept X st st' ->
  (forall a, In a (arrs used) -> X a /\ a < h_next (f_heap st)) -> (forall a, In a (arrs used) -> In a (arrs used')) -> linked s st' used'.
Proof.
  intros [H1 H2 H3 H4] (P1 & P2 & P3) [_ K] HX Hu. constructor; rewrite ?P1, ?P2, ?P3; auto.
  intros i p Hi. destruct (H4 i p Hi) as [(sl & E1 & E2 & E3)|H]; [left|right; exact H]. exists sl. split; [exact E1|]. split; [auto|].
  rewrite <- E3. unfold h_read. rewrite K; [reflexivity|apply HX, E2..].
Qed.

Lemma linked_none s st used : linked s st used -> (forall x, In x (slots s) -> x = None) -> linked s st [].
Proof.
  intros [H1 H2 H3 H4] H. constructor; auto. intros i p Hi. apply nth_error_In in Hi. apply H in Hi. discriminate.
Qed.

Lemma handler_too_long e st m rest : alone e -> ownable st -> f_script st = frame m :: rest -> (N.of_nat (length m) < 2 ^ 32)%N -> Z.to_nat 32768 < length m ->
  exists st' x, readMetaDataHandler e st = (st', FPanic x) /\ wr st' = wr st.
Proof.
  intros Ha O Hsc Hn Hl. apply ownable_iff in O. destruct (C55_frame_reading_pf e st (length m) m rest Ha O Hsc Hn) as (_ & H & _).
  destruct (H Hl) as (s1 & E). exists s1. eexists. unfold readMetaDataHandler. rewrite E. split; [reflexivity|]. eapply wr_reads. exact E.
Qed.

Lemma handler_over e st : alone e -> ownable st -> f_script st = [] -> exists st' x, readMetaDataHandler e st = (st', FPanic x) /\ wr st' = wr st.
Proof.
  intros Ha (q4 & q32 & O) Hsc. destruct (readBytesByPrefixLenMsg e st) as [s1 r1] eqn:E.
  assert (Er : exists x, r1 = FErr x).
  { unfold readBytesByPrefixLenMsg, mbind at 1 in E. destruct (get_alone e PrefixLen st q4 q32 [] Ha (or_introl eq_refl) O) as (s2 & pre & E1 & U1 & _ & _ & S1 & _).
    rewrite E1 in E. rewrite Hsc in S1. unfold mbind at 1, m_read, mbind at 1 in E. destruct (tick_alone e s2 Ha) as (s3 & E3 & _ & _ & S3 & _). rewrite E3 in E.
    unfold mbind, m_recv in E. destruct U1 as (Ul & _). rewrite Ul in E. change (Z.to_nat PrefixLen =? 0) with false in E. cbv iota in E. rewrite S3, S1 in E. injection E as _ <-. eauto. }
  destruct Er as (x & ->). exists s1. eexists. unfold readMetaDataHandler. rewrite E. split; [reflexivity|]. eapply wr_reads. exact E.
Qed.

Definition cost (m : bytes) : nat := match m with [] => 0 | _ => 1 end.

Lemma step_hear e st s m rest q4 fresh used : alone e -> calm e -> own st q4 (fresh ++ used) [] -> linked s st used ->
  f_script st = frame m :: rest -> length m <= Z.to_nat 32768 -> (m = [] \/ fresh <> [] \/ used = []) ->
  match hear s m with
  | None => exists st' x, readMetaDataHandler e st = (st', FPanic x) /\ wr st' = wr st
  | Some (s', asked) => exists st' q4' fresh' used' msgs, readMetaDataHandler e st = (st', FOk tt) /\
      own st' q4' (fresh' ++ used') [] /\ linked s' st' used' /\ f_script st' = rest /\
      wr st' = wr st ++ msgs /\ Forall2 (sent e) asked msgs /\ length fresh <= length fresh' + cost m
  end.
Proof.
  intros Ha Hc O L Hsc Hl Hroom. destruct m as [|c t].
  - cbn [hear]. change (frame []) with (be32 0) in Hsc.
    destruct (handler_keepalive e st q4 (fresh ++ used) rest Ha O Hsc) as (s1 & E1 & W1 & O1 & S1 & P1 & K1).
    exists s1, (tl q4), fresh, used, []. split; [exact E1|]. split; [exact O1|]. split.
    { eapply linked_keep; try eassumption; [|auto]. intros a Hin.
      assert (Hin' : In a (arrs (fresh ++ used))) by (rewrite arrs_app; apply in_app_iff; auto).
      split; [eapply own_disj; eassumption|]. eapply own_lt; [exact O|]. cbn [app]. rewrite arrs_app. apply in_app_iff. auto. }
    split; [exact S1|]. split; [rewrite app_nil_r; exact W1|]. split; [constructor|]. lia.
  - set (m := c :: t) in *.
    destruct (handler_frame e st q4 (fresh ++ used) m rest Ha O Hsc ltac:(cbn; lia) Hl) as (s1 & b & R1 & L1 & F1 & Q1 & P1 & W1 & K).
    destruct L as [Z1 Z2 Z3 Z4]. pose proof P1 as (P11 & P12 & P13).
    pose proof (handle_hear e b s1 s m Hc R1 L1 F1 ltac:(discriminate) ltac:(congruence) ltac:(congruence) ltac:(rewrite P11; exact Z3)) as HH.
    destruct (hear s m) as [[s' asked]|].
    2: { destruct HH as (s2 & x & E2 & W2). destruct (K s2 (FPanic x) E2 ltac:(discriminate)) as (s3 & q4' & E3 & _ & _ & W3 & _).
         exists s3, x. split; [exact E3|congruence]. }
    destruct HH as (s2 & msgs & E2 & A1 & A2 & A3 & A4 & A5 & A6).
    destruct (K s2 (FOk tt) E2 ltac:(discriminate)) as (s3 & q4' & E3 & O3 & (P31 & P32 & P33) & W3 & H3 & S3 & [K3 K3']).
    assert (Hused : forall a, In a (arrs used) -> ~ In a (arrs q4) /\ a < h_next (f_heap st)).
    { intros a Hin. assert (Hin' : In a (arrs (fresh ++ used))) by (rewrite arrs_app; apply in_app_iff; auto).
      split; [eapply own_disj; eassumption|]. eapply own_lt; [exact O|]. cbn [app]. rewrite arrs_app. apply in_app_iff. auto. }
    assert (Hb : forall a, In a (arrs used) -> a <> s_arr b).
    { intros a Hin ->. destruct Hroom as [|[Hf|Hu]]; [discriminate| |rewrite Hu in Hin; destruct Hin].
      destruct fresh as [|f0 fresh]; [congruence|]. destruct Q1 as [Q1|[Q1 _]]; [|discriminate]. cbn [app tl] in Q1. injection Q1 as Ef.
      assert (Es : s_arr f0 = s_arr b) by (rewrite Ef; reflexivity).
      pose proof (o_nd _ _ _ _ O) as Hnd. cbn [app] in Hnd. rewrite !map_app in Hnd. cbn [map] in Hnd.
      apply NoDup_remove_2 in Hnd. apply Hnd. apply in_app_iff. right. rewrite map_app, in_app_iff. right. rewrite Es. exact Hin. }
    assert (Hq : tl (fresh ++ used) ++ [full_slice b] = tl fresh ++ (used ++ [full_slice b])).
    { destruct fresh as [|f0 fresh]; cbn [app tl]; [|rewrite <- app_assoc; reflexivity].
      destruct Hroom as [|[Hf|Hu]]; [discriminate|congruence|subst used; reflexivity]. }
    rewrite Hq in O3.
    exists s3, q4', (tl fresh), (used ++ [full_slice b]), msgs. split; [exact E3|]. split; [exact O3|]. split.
    { constructor; [congruence|congruence|rewrite P31; exact A3|]. intros i p Hi. rewrite P31, H3.
      destruct (A6 i p Hi) as [(sl & B1 & B2 & B3)|[B|[B1 B2]]].
      - left. exists sl. split; [exact B1|]. split; [|exact B3]. rewrite arrs_app, in_app_iff. right. left. rewrite B2. reflexivity.
      - right. exact B.
      - rewrite B2, P11. destruct (Z4 i p B1) as [(sl & C1 & C2 & C3)|C]; [left|right; exact C]. exists sl. split; [exact C1|].
        split; [rewrite arrs_app, in_app_iff; auto|]. rewrite <- C3, <- H3. unfold h_read. rewrite K3'; [reflexivity| |apply Hused; exact C2].
        split; [apply Hused; exact C2|apply Hb; exact C2]. }
    split; [exact S3|]. split; [congruence|]. split; [exact A5|]. destruct fresh; cbn [tl length cost]; unfold m, cost; lia.
Qed.


Lemma spoken_cons m l : spoken (m :: l) = cost m + spoken l.
Proof. unfold spoken. cbn [filter]. destruct m; cbn [length Nat.eqb negb]; reflexivity. Qed.

Lemma hear_small s m s' asked : fits m -> hear s m = Some (s', asked) -> (forall size, announces m size -> (size <= 16384)%Z) ->
  length (slots s) <= 1 -> length (slots s') <= 1.
Proof.
  intros Hf E Hs Hl. apply hear_iff in E; [|exact Hf]. inversion E as [| | |enc d u mm size k H1 H2 H3 H4 H5|enc d pay u a x b H1 H2 H3 H4 H5|]; subst; auto.
  - cbn [slots]. rewrite repeat_length. specialize (Hs size). assert (size <= 16384)%Z by (apply Hs; exists enc, d, u, mm; auto).
    unfold pieces_needed in H5. lia.
  - cbn [slots]. rewrite H5 in Hl. rewrite app_length in *. exact Hl.
Qed.

Lemma loop_session e : alone e -> calm e -> forall bodies s st q4 fresh used f,
  own st q4 (fresh ++ used) [] -> linked s st used -> f_script st = map frame bodies -> length bodies < f ->
  Forall (fun m => (N.of_nat (length m) < 2 ^ 32)%N) bodies ->
  (spoken bodies <= length fresh \/ small_only bodies /\ length (slots s) <= 1 /\ (complete s \/ used = [])) ->
  exists out asked st' r msgs, session s bodies out asked /\ readMetaDataLoop e f st = (st', r) /\ wr st' = wr st ++ msgs /\ Forall2 (sent e) asked msgs /\
    match out with None => exists x, r = FPanic x | Some s' => r = FOk tt /\ exists used', linked s' st' used' end.
Proof.
  intros Ha Hc. induction bodies as [|m t IH]; intros s st q4 fresh used f O L Hsc Hf Hbig Hroom;
    (destruct f as [|f]; [cbn in Hf; lia|]);
    (destruct (forallb filled (slots s)) eqn:Ecm;
      [exists (Some s), [], st, (FOk tt), []; split; [constructor; apply complete_iff; exact Ecm|];
       split; [apply loop_done; rewrite (completed_iff s) by apply L; exact Ecm|]; split; [rewrite app_nil_r; reflexivity|];
       split; [constructor|]; split; [reflexivity|]; eauto|]);
    (assert (Hnc : ~ complete s) by (rewrite complete_iff; congruence));
    (assert (Hst : CompledMetaData st = false) by (rewrite (completed_iff s) by apply L; exact Ecm));
    cbn [readMetaDataLoop]; rewrite Hst, (ca_exp e Hc); cbn [negb andb]; unfold mbind.
  - destruct (handler_over e st Ha ltac:(eexists; eexists; exact O) Hsc) as (st' & x & E & W). rewrite E.
    exists None, [], st', (FPanic x), []. split; [constructor; exact Hnc|]. split; [reflexivity|]. split; [rewrite app_nil_r; exact W|]. split; [constructor|]. eauto.
  - apply Forall_cons_iff in Hbig as [Hbm Hbig]. cbn [map] in Hsc. rewrite spoken_cons in Hroom.
    destruct (Nat.le_gt_cases (length m) (Z.to_nat 32768)) as [Hl|Hl].
    2: { destruct (handler_too_long e st m _ Ha ltac:(eexists; eexists; exact O) Hsc Hbm Hl) as (st' & x & E & W). rewrite E.
         exists None, [], st', (FPanic x), []. split; [apply se_fail; auto|]. split; [reflexivity|]. split; [rewrite app_nil_r; exact W|]. split; [constructor|]. eauto. }
    pose proof (fits_small m Hl) as Hfit.
    assert (Hr : m = [] \/ fresh <> [] \/ used = []).
    { destruct Hroom as [Hr|(_ & _ & [Hr|Hr])]; [|contradiction|auto]. destruct m; [auto|]. right. left. intros ->. cbn in Hr. lia. }
    pose proof (step_hear e st s m _ q4 fresh used Ha Hc O L Hsc Hl Hr) as HS.
    destruct (hear s m) as [[s' asked]|] eqn:Eh.
    2: { destruct HS as (st' & x & E & W). rewrite E. exists None, [], st', (FPanic x), []. split.
         { apply se_fail; [exact Hnc|]. right. intros s' asked H. apply hear_iff in H; [congruence|exact Hfit]. }
         split; [reflexivity|]. split; [rewrite app_nil_r; exact W|]. split; [constructor|]. eauto. }
    destruct HS as (st1 & q4' & fresh' & used' & msgs & E & O' & L' & S' & W & F & Hroom'). rewrite E.
    assert (K : exists fr us, own st1 q4' (fr ++ us) [] /\ linked s' st1 us /\
      (spoken t <= length fr \/ small_only t /\ length (slots s') <= 1 /\ (complete s' \/ us = []))).
    { destruct Hroom as [Hr'|(Hsm & Hsl & _)]; [exists fresh', used'; split; [exact O'|]; split; [exact L'|left; lia]|].
      assert (Hs1 : length (slots s') <= 1) by (eapply hear_small; try eassumption; intros size; apply Hsm; left; reflexivity).
      assert (Hsm' : small_only t) by (intros m' size Hin; apply Hsm; right; exact Hin).
      destruct (forallb filled (slots s')) eqn:Ec'; [exists fresh', used'; split; [exact O'|]; split; [exact L'|right; split; [exact Hsm'|split; [exact Hs1|left; apply complete_iff; exact Ec']]]|].
      exists (fresh' ++ used'), []. rewrite app_nil_r. split; [exact O'|]. split; [|right; auto].
      eapply linked_none; [exact L'|]. destruct (slots s') as [|[y|] [|]]; cbn in Ec', Hs1; try discriminate; try lia. intros x [<-|[]]. reflexivity. }
    destruct K as (fr & us & O1 & L1 & R1).
    destruct (IH s' st1 q4' fr us f O1 L1 S' ltac:(cbn in Hf; lia) Hbig R1) as (out & more & st' & r & msgs' & H1 & H2 & H3 & H4 & H5).
    exists out, (asked ++ more), st', r, (msgs ++ msgs'). split; [apply (se_hear s m s' asked t out more); auto; apply hear_iff; assumption|].
    split; [exact H2|]. split; [rewrite H3, W, app_assoc; reflexivity|]. split; [apply Forall2_app; assumption|exact H5].
Qed.

Lemma merge_linked e s used : alone e -> complete s -> forall n j st acc, linked s st used -> j + n = length (slots s) ->
  exists st', merge e (seq j n) acc st = (st', FOk (acc ++ concat (map (fun x => match x with Some b => b | None => [] end) (skipn j (slots s))))) /\ f_trace st' = f_trace st.
Proof.
  intros Ha Hcm. induction n as [|n IH]; intros j st acc L Hj.
  - exists st. cbn [seq merge]. rewrite skipn_all2 by lia. cbn. rewrite app_nil_r. split; reflexivity.
  - cbn [seq merge]. unfold mbind at 1. destruct (tick_alone e st Ha) as (s1 & E1 & Hp & Hh & Hs & Ht & (Hm & Hz & Hq)). rewrite E1.
    destruct (split_at (slots s) j ltac:(lia)) as (a & x & b & Es & Ea).
    assert (Hn : nth_error (slots s) j = Some x) by (rewrite Es, <- Ea, nth_error_app2, Nat.sub_diag by lia; reflexivity).
    assert (Esk : skipn j (slots s) = x :: skipn (S j) (slots s)).
    { rewrite Es, <- Ea. rewrite skipn_len_app. replace (S (length a)) with (length a + 1) by lia. rewrite skipn_add, skipn_len_app. reflexivity. }
    destruct x as [p|]; [|exfalso; apply (Hcm None); [apply nth_error_In in Hn; exact Hn|reflexivity]].
    assert (L1 : linked s s1 used).
    { destruct L as [Z1 Z2 Z3 Z4]. constructor; [congruence|congruence|rewrite Hm; exact Z3|]. rewrite Hm, Hh. exact Z4. }
    rewrite Esk. cbn [map concat]. destruct (lk_data _ _ _ L j p Hn) as [(sl & C1 & _ & C3)|[C1 C2]]; rewrite Hm, C1.
    + rewrite Hh, C3. destruct (IH (S j) s1 (acc ++ p) L1 ltac:(lia)) as (st' & E & T). exists st'. rewrite E, <- app_assoc. split; [reflexivity|congruence].
    + subst p. destruct (IH (S j) s1 acc L1 ltac:(lia)) as (st' & E & T). exists st'. rewrite E. split; [reflexivity|congruence].
Qed.

Lemma complete_session s msgs s' asked : session s msgs (Some s') asked -> complete s'.
Proof. intros H. remember (Some s') as out eqn:E. induction H; try discriminate; [injection E as ->; assumption|auto]. Qed.

Theorem fetch_session e p h hs bodies peerId infoHash : alone e -> calm e -> sane_folding (e_fold e) -> sound_pool p h ->
  length peerId = 20 -> length infoHash = 20 -> length hs <= 68 -> accepted hs ->
  Forall (fun m => (N.of_nat (length m) < 2 ^ 32)%N) bodies ->
  (spoken bodies <= length (chan_of (p_chans p) 32768) \/ small_only bodies) ->
  exists s r out asked ext msgs, FetchMetaData e p h (Some (hs :: map frame bodies)) peerId infoHash = (s, r) /\
    session first_contact bodies out asked /\ verdict sha1 infoHash out r /\
    written (f_trace s) = our_handshake peerId infoHash :: ext :: msgs /\ our_ext_handshake ext /\ Forall2 is_request asked msgs.
Proof.
  intros Ha Hc Hu Hsp Hp Hi Hl Hacc Hbig Hroom. unfold FetchMetaData. set (s0 := NewPeerConn p h _).
  assert (O0 : own s0 (chan_of (p_chans p) 4) (chan_of (p_chans p) 32768) []).
  { destruct Hsp as (H1 & H2 & H3 & H4 & H5 & H6). constructor; auto. }
  assert (E1 : exists s1, handshakePeer e peerId infoHash s0 = (s1, FOk tt) /\ f_script s1 = map frame bodies /\ samep s0 s1 /\ f_pool s1 = f_pool s0 /\ f_heap s1 = f_heap s0 /\
    wr s1 = [our_handshake peerId infoHash]).
  { rewrite (handshake_eq e _ _ _ Hp Hi), (ca_write e Hc). unfold after_handshake, s0. cbn [set_io f_script NewPeerConn].
    apply (accepted_iff (e_fold e)) in Hacc; [|exact Hu]. rewrite Hacc. rewrite skipn_all2 by (unfold handShakeLen; lia).
    eexists. split; [reflexivity|]. cbn [set_io f_script f_pool f_heap]. split; [reflexivity|]. split; [repeat split|]. split; [reflexivity|]. split; reflexivity. }
  destruct E1 as (s1 & E1 & S1 & P1 & G1 & G1' & W1).
  destruct (initial_run e s1 Hc) as (s2 & E2 & S2 & P2 & G2 & G2' & wn & ext & WM & W2).
  assert (P02 : samep s0 s2) by (eapply samep_trans; eassumption).
  assert (O2 : own s2 (chan_of (p_chans p) 4) (chan_of (p_chans p) 32768 ++ []) []).
  { rewrite app_nil_r. destruct O0 as [Omax Oc4 Oc32 Ou4 Ol4 Ou32 Ol32 Oh Ond]. constructor; rewrite ?G2, ?G2', ?G1, ?G1'; auto. }
  rewrite S1 in S2.
  assert (L2 : linked first_contact s2 []).
  { destruct P02 as (Q1 & Q2 & Q3). constructor; [rewrite Q2; reflexivity|rewrite Q3; reflexivity|rewrite Q1; cbn; lia|].
    intros [|[|i]] q Hq; discriminate. }
  destruct (loop_session e Ha Hc bodies first_contact s2 _ _ _ (loop_fuel (f_script s2)) O2 L2 S2) as (out & asked & s3 & r3 & msgs & Hses & E3 & W3 & F3 & Hout).
  { unfold loop_fuel. fold (mu (f_script s2)). pose proof (mu_length (f_script s2)) as Hm. rewrite S2 in Hm at 1. rewrite map_length in Hm. lia. }
  { exact Hbig. }
  { destruct Hroom as [H|H]; [left; exact H|right; split; [exact H|]; split; [cbn; lia|right; reflexivity]]. }
  assert (Hreq : Forall2 is_request asked msgs).
  { assert (Hb : Forall (fun i => (Z.of_nat i <= max_int)%Z) asked).
    { clear - Hses. induction Hses as [s msgs Hd|s Hn|s m s' asked t out more Hn Hl Hh Hs IH|s m t Hn Hf]; try constructor. apply Forall_app. split; [|exact IH].
      inversion Hh as [| | |enc d u mm size k H1 H2 H3 H4 H5 H6| |]; subst; try constructor. apply Forall_forall. intros i Hin. apply in_seq in Hin. unfold max_int. lia. }
    clear - F3 Hb Hc. induction F3 as [|i m is ms H F IH]; [constructor|]. apply Forall_cons_iff in Hb as [Hb1 Hb]. constructor; [|apply IH; exact Hb].
    destruct H as (n & H). eapply request_is; [apply (ca_ord e Hc)|exact Hb1|exact H]. }
  assert (Hext : our_ext_handshake ext) by (eapply ext_is; [apply (ca_ord e Hc)|exact WM]).
  unfold fetch_body, mbind at 1. rewrite E1. unfold mbind at 1. rewrite E2. unfold mbind at 1. rewrite E3.
  assert (Wr3 : wr s3 = our_handshake peerId infoHash :: ext :: msgs) by (rewrite W3, W2, W1; reflexivity).
  assert (Wend : forall st, f_trace st = f_trace s3 -> written (f_trace (set_io st (f_script st) CClose)) = our_handshake peerId infoHash :: ext :: msgs).
  { intros st Et. cbn [set_io f_trace]. rewrite Et, written_app. fold (wr s3). rewrite Wr3. cbn. rewrite app_nil_r. reflexivity. }
  destruct out as [s'|].
  2: { destruct Hout as (x & ->). eexists _, _, None, asked, ext, msgs. split; [reflexivity|]. split; [exact Hses|]. split; [reflexivity|]. split; [apply Wend; reflexivity|]. auto. }
  destruct Hout as (-> & used & L3). pose proof (complete_session _ _ _ _ Hses) as Hcm.
  rewrite (completed_iff s') by apply L3. rewrite (proj1 (complete_iff s') Hcm). cbn [negb].
  unfold mbind at 1, m_make. rewrite (lk_size _ _ _ L3).
  destruct (Z.ltb_spec (announced s') 0) as [Hz|Hz]; cbn [orb].
  { eexists _, _, (Some s'), asked, ext, msgs. split; [reflexivity|]. split; [exact Hses|]. split; [split; [reflexivity|lia]|]. split; [apply Wend; reflexivity|]. auto. }
  destruct (Z.ltb_spec (2 ^ 48) (1 * announced s')) as [Hz'|Hz'].
  { eexists _, _, (Some s'), asked, ext, msgs. split; [reflexivity|]. split; [exact Hses|]. split; [split; [reflexivity|lia]|]. split; [apply Wend; reflexivity|]. auto. }
  rewrite (ca_mem e Hc). unfold mbind at 1. rewrite (lk_req _ _ _ L3), map_length.
  destruct (merge_linked e s' used Ha Hcm (length (slots s')) 0 s3 [] L3 ltac:(lia)) as (s4 & E4 & T4). rewrite E4. cbn [app skipn]. fold (content s').
  unfold GenerateInfoHash. destruct (beq infoHash (sha1 (content s'))) eqn:Eb; cbn [negb].
  - apply beq_eq in Eb. eexists _, _, (Some s'), asked, ext, msgs. split; [reflexivity|]. split; [exact Hses|]. split; [|split; [apply Wend; exact T4|auto]].
    split; [lia|]. intros _. split; [reflexivity|]. intros H. congruence.
  - eexists _, _, (Some s'), asked, ext, msgs. split; [reflexivity|]. split; [exact Hses|]. split; [|split; [apply Wend; exact T4|auto]].
    split; [lia|]. intros _. split; [|reflexivity]. intros H. rewrite H, beq_refl in Eb. discriminate.
Qed.
