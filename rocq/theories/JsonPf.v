(** JsonPf.v -- C118: the texts of messages and log values. *)
From Coq Require Import Sorted.
From Verif Require Import Base GoLib FileSys Bencode BencodeSpec BencodeProofs BencodePf Types Logger ErrorsPf ZapLog ZapLogSpec ZapLogProofs ZapLogPf Krpc KrpcProofs Json JsonSpec JsonProofs.
Local Open Scope list_scope.

Lemma utf8_plain v : utf8_value v -> plain v.
Proof.
  induction v as [z|s|l IH|d IH| | | |k] using val_ind'; intros H; inversion H as [| |? Hl|? Hl]; subst; constructor.
  - intros v Hv. rewrite Forall_forall in IH. apply IH; [exact Hv|apply Hl, Hv].
  - intros k v Hv. rewrite Forall_forall in IH. apply (IH (k, v) Hv). apply (Hl k v Hv).
Qed.

(** C118: the text of every value is JSON that stands for it, with the bytes that are not UTF-8
    replaced by U+FFFD; the text of a UTF-8 value stands for exactly this value. *)
Lemma C118_json_pf : forall v, plain v ->
  (exists v', repaired_value v v' /\ jtext (json v) v') /\ (utf8_value v -> jtext (json v) v).
Proof.
  intros v Hp. destruct (json_means v Hp) as (v' & H1 & H2). split; [exists v'; auto|]. intros Hu. rewrite (repaired_same v Hu v' H1) in H2. exact H2.
Qed.

(** C118: it is one line without control characters, whatever bytes the value holds. *)
Lemma C118_one_line_pf : forall v, Forall (fun c => 32 <= bval c)%N (json v).
Proof. intros v. eapply Forall_impl; [|apply json_noctl]. intros c H. unfold control in H. apply N.ltb_ge in H. exact H. Qed.

(** C118: it does not depend on the order in which the entries of a dictionary are visited. *)
Lemma C118_order_free_pf : forall v v', go_value v -> veq v v' -> json v = json v'.
Proof.
  intros v. induction v as [z|s|l IH|d IH| | | |k] using val_ind'; intros v' Hg H; inversion H as [| |? l' Hl|? d' Hd| | | |]; subst; try reflexivity; inversion Hg as [| |? Hv|? Hn Hv| | | |]; subst.
  - cbn [json]. do 3 f_equal. clear H Hg. induction Hl as [|x y l l' Hxy _ IHl]; [reflexivity|]. inversion IH as [|? ? Hx IH']; subst. cbn [map]. f_equal; [apply Hx; [apply Hv; left; reflexivity|exact Hxy]|apply IHl; [exact IH'|intros; apply Hv; right; assumption]].
  - cbn [json]. do 4 f_equal. destruct Hd as [d d' d'' Hp Hf]. transitivity (ksort (map (fun e => (fst e, json (snd e))) d'')).
    + apply ksort_canonical; [apply Permutation_map, Hp|]. rewrite map_map. cbn [fst]. exact Hn.
    + f_equal. assert (IH2 : Forall (fun e => forall v', go_value (snd e) -> veq (snd e) v' -> json (snd e) = json v') d'') by (eapply Permutation_Forall; eassumption).
      assert (Hv2 : forall e, In e d'' -> go_value (snd e)) by (intros [k v] Hin; apply (Hv k v); eapply Permutation_in; [symmetry; exact Hp|exact Hin]).
      clear - Hf IH2 Hv2. induction Hf as [|x y l l' [Hk Hxy] _ IHl]; [reflexivity|]. inversion IH2 as [|? ? Hx IH']; subst. cbn [map]. f_equal; [f_equal; [exact Hk|apply Hx; [apply Hv2; left; reflexivity|exact Hxy]]|apply IHl; [exact IH'|intros; apply Hv2; right; assumption]].
Qed.

Lemma text_inj v : forall v' r r', utf8_value v -> utf8_value v' -> stop r -> stop r' -> json v ++ r = json v' ++ r' -> veq v v' /\ r = r'.
Proof.
  induction v as [z|s|l IH|d IH| | | |k] using val_ind'; intros v' r r' Hu Hu' Hr Hr' E; try (inversion Hu; fail); destruct (json_head v' Hu') as (c & t & Ec & Hc).
  - destruct Hc as [z' c Hc|s'|l'|d'].
    + assert (X : forall a b r r', Forall numch a -> Forall numch b -> stop r -> stop r' -> a ++ r = b ++ r' -> a = b /\ r = r').
      { clear. induction a as [|x a IH]; intros [|y b] r r' Ha Hb Hr Hr' E; cbn [app] in E.
        - auto.
        - subst r. inversion Hb; subst. destruct (Hr ltac:(assumption)).
        - subst r'. inversion Ha; subst. destruct (Hr' ltac:(assumption)).
        - injection E as <- E. inversion Ha; inversion Hb; subst. destruct (IH b r r') as [-> ->]; auto. }
      cbn [json] in E. apply X in E as [E ->]; [|apply itoa_numeric|apply itoa_numeric|exact Hr|exact Hr']. apply itoa_inj in E. subst z'. split; [constructor|reflexivity].
    + exfalso. destruct (itoa_head z) as (c & t' & Ez & Hz). cbn [json] in E, Ec. rewrite Ez in E. injection E as -> _. destruct Hz as [H|[H|[H|[H|H]]]]; discriminate.
    + exfalso. destruct (itoa_head z) as (c & t' & Ez & Hz). cbn [json] in E, Ec. rewrite Ez in E. injection E as -> _. destruct Hz as [H|[H|[H|[H|H]]]]; discriminate.
    + exfalso. destruct (itoa_head z) as (c & t' & Ez & Hz). cbn [json] in E, Ec. rewrite Ez in E. injection E as -> _. destruct Hz as [H|[H|[H|[H|H]]]]; discriminate.
  - rewrite Ec in E. destruct Hc as [z' c Hc|s'|l'|d'].
    + exfalso. injection E as <- _. destruct Hc as [H|[H|[H|[H|H]]]]; discriminate.
    + rewrite <- Ec in E. inversion Hu; inversion Hu'; subst. apply jquoted_inj in E as [-> ->]; [|assumption|assumption]. split; [constructor|reflexivity].
    + discriminate E.
    + discriminate E.
  - rewrite Ec in E. destruct Hc as [z' c Hc|s'|l'|d'].
    + exfalso. injection E as <- _. destruct Hc as [H|[H|[H|[H|H]]]]; discriminate.
    + discriminate E.
    + rewrite <- Ec in E. cbn [json] in E. rewrite <- !app_assoc in E. apply app_inv_head in E. inversion Hu as [| |? Hl|]; inversion Hu' as [| |? Hl'|]; subst.
      apply (join_inj json veq utf8_value "]"%char) in E as [E1 E2].
      * split; [constructor; exact E1|exact E2].
      * left; reflexivity.
      * intros x Hx. destruct (json_head x Hx) as (b & u & Eb & Hb). exists b, u. split; [exact Eb|]. eapply jhead_not; [exact Hb|left; left; reflexivity].
      * eapply Forall_impl; [|exact IH]. intros x Hx. exact Hx.
      * rewrite Forall_forall. exact Hl.
      * rewrite Forall_forall. exact Hl'.
    + discriminate E.
  - rewrite Ec in E. destruct Hc as [z' c Hc|s'|l'|d'].
    + exfalso. injection E as <- _. destruct Hc as [H|[H|[H|[H|H]]]]; discriminate.
    + discriminate E.
    + discriminate E.
    + rewrite <- Ec in E. rewrite !json_dict in E. rewrite <- !app_assoc in E. apply app_inv_head in E. inversion Hu as [| | |? Hl]; inversion Hu' as [| | |? Hl']; subst.
      apply (join_inj pair_text (fun e e' => fst e = fst e' /\ veq (snd e) (snd e')) (fun e => utf8 (fst e) /\ utf8_value (snd e)) "}"%char) in E as [E1 E2].
      * split; [|exact E2]. constructor. destruct (Permutation_Forall2 (ksort_perm d') (l2 := ksort d) (P := fun e' e => fst e = fst e' /\ veq (snd e) (snd e'))) as (d2 & Hp & Hf).
        { clear - E1. induction E1; constructor; auto. }
        apply (deq_intro d d' d2); [rewrite <- Hp; symmetry; apply ksort_perm|]. clear - Hf. induction Hf; constructor; auto.
      * right; reflexivity.
      * intros x Hx. exists quote. eexists. split; [reflexivity|discriminate].
      * eapply Permutation_Forall; [symmetry; apply ksort_perm|]. eapply Forall_impl; [|exact IH]. intros [k v] Hv [k' v'] r1 r1' [H1 H2] [H3 H4] H5 H6 H7. cbn [fst snd] in *. unfold pair_text, jentry in H7. cbn [fst snd] in H7. rewrite <- !app_assoc in H7.
        apply jquoted_inj in H7 as [-> H7]; [|assumption|assumption]. apply app_inv_head in H7. destruct (Hv v' r1 r1' H2 H4 H5 H6 H7) as [H8 H9]. split; [split; [reflexivity|exact H8]|exact H9].
      * eapply Permutation_Forall; [symmetry; apply ksort_perm|]. rewrite Forall_forall. intros [k v] Hin. apply (Hl k v Hin).
      * eapply Permutation_Forall; [symmetry; apply ksort_perm|]. rewrite Forall_forall. intros [k v] Hin. apply (Hl' k v Hin).
Qed.

(** C118: values of UTF-8 strings with the same text are equal. *)
Lemma C118_faithful_pf : forall v v', utf8_value v -> utf8_value v' -> json v = json v' -> veq v v'.
Proof. intros v v' H H' E. apply (text_inj v v' [] [] H H' I I). rewrite !app_nil_r. exact E. Qed.

(** C118: the String of a response is the JSON text of the dictionary that is sent for it, and determines it. *)
Lemma C118_response_pf : forall r r' d d', resp_RawData r = Ok d -> resp_RawData r' = Ok d' ->
  resp_String r = Ok (json (VDict d)) /\ (utf8_value (VDict d) -> jtext (json (VDict d)) (VDict d)) /\
  (utf8_value (VDict d) -> utf8_value (VDict d') -> resp_String r = resp_String r' -> deq d d').
Proof.
  intros r r' d d' E E'. split; [unfold resp_String; rewrite E; reflexivity|]. split; [intros H; apply (C118_json_pf (VDict d) (utf8_plain _ H)); exact H|].
  intros H H' X. unfold resp_String in X. rewrite E, E' in X. cbn [bind] in X. assert (X' : json (VDict d) = json (VDict d')) by congruence. clear X. rename X' into X. apply C118_faithful_pf in X; [|exact H|exact H']. inversion X; assumption.
Qed.

(** C118: a console line stays one line if no plain string in it holds a line break: dictionaries, lists and numbers in the
    context cannot break it, whatever strings they hold. *)
Lemma C118_console_one_line_pf : forall now c lvl msg d,
  let fine := Forall (fun b => 32 <= bval b)%N in
  fine now -> fine (lg_prefix c) -> fine lvl -> fine msg ->
  (forall k v, In (k, v) d -> fine k /\ match v with VStr s => fine s | _ => True end) ->
  exists t, print_line now c lvl msg (ctx_of (Some d)) = t ++ crlf /\ fine t.
Proof.
  intros now c lvl msg d fine Hn Hc Hl Hm Hd.
  assert (App : forall a b, fine a -> fine b -> fine (a ++ b)) by (intros; apply Forall_app; split; assumption).
  assert (BF : forall s, forallb (fun b => 32 <=? bval b)%N (B s) = true -> fine (B s)) by (intros s H; apply Forall_forall; intros x Hx; rewrite forallb_forall in H; apply N.leb_le, H, Hx).
  assert (Pad : fine (pad6 lvl)) by (apply App; [apply Forall_forall; intros x Hx; apply repeat_spec in Hx; subst x; vm_compute; discriminate|exact Hl]).
  assert (Ctx : forall b, fine (ctx_text b (map (fun e => (fst e, text_of (snd e))) d))).
  { clear - Hd App BF fine. induction d as [|[k v] d IH]; intros b; cbn [map ctx_text]; [constructor|]. destruct (Hd k v (or_introl eq_refl)) as [Hk Hv]. cbn [fst snd].
    assert (Hx : fine (text_of v)) by (destruct v; try exact Hv; apply C118_one_line_pf).
    repeat apply App; try assumption; try (apply BF; reflexivity); [destruct b; [constructor|apply BF; reflexivity]|apply IH; intros; apply Hd; right; assumption]. }
  assert (AC : fine (appendCtx msg (ctx_of (Some d)))) by (cbn [appendCtx ctx_of]; repeat apply App; try assumption; [apply BF; reflexivity|apply Ctx]).
  unfold print_line. destruct (lg_prefix c) as [|p ps] eqn:Ep; eexists; (split; [rewrite !app_assoc; reflexivity|]); repeat (first [assumption|apply BF; reflexivity|apply App]).
Qed.

(** The zap logger's lines. *)
Lemma zjs_ascii c t s : (bval c < 128)%N -> jstring t s -> jstring (esc_ascii c ++ t) (c :: s).
Proof.
  intros Hc H. unfold esc_ascii. destruct (_ && _)%N eqn:E1.
  { apply andb_true_iff in E1 as [E1 E3]. apply andb_true_iff in E1 as [E1 E2]. apply N.leb_le in E1. apply negb_true_iff, N.eqb_neq in E2, E3. apply js_plain; assumption. }
  clear E1. destruct ((bval c =? 34) || (bval c =? 92))%N eqn:E1.
  { apply orb_true_iff in E1 as [E1|E1]; apply N.eqb_eq in E1; apply bval_byte in E1; try lia; subst c; apply js_escape; [|exact H| |exact H]; cbn; auto. }
  destruct (N.eqb_spec (bval c) 10) as [E|_]; [apply bval_byte in E; [|lia]; subst c; apply js_escape; [cbn; auto 10|exact H]|].
  destruct (N.eqb_spec (bval c) 13) as [E|_]; [apply bval_byte in E; [|lia]; subst c; apply js_escape; [cbn; auto 10|exact H]|].
  destruct (N.eqb_spec (bval c) 9) as [E|_]; [apply bval_byte in E; [|lia]; subst c; apply js_escape; [cbn; auto 10|exact H]|].
  rewrite <- app_comm_cons, <- app_assoc. apply js_u00; assumption.
Qed.
Lemma zesc_means f : forall s, length s <= f -> exists t, repaired s t /\ jstring (esc_fuel f s) t.
Proof.
  induction f as [|f IH]; intros s Hs; [destruct s; [|cbn in Hs; lia]; exists []; split; constructor|].
  destruct s as [|c t]; [exists []; split; constructor|]. cbn [length] in Hs. cbn [esc_fuel]. destruct (N.ltb_spec (bval c) 128) as [H|H].
  - destruct (IH t ltac:(lia)) as (u & Hu & Ju). exists (c :: u). split; [|apply zjs_ascii; assumption].
    assert (E : decode_rune (c :: t) = (bval c, 1)) by (cbn [decode_rune]; cbv zeta; destruct (N.ltb_spec (bval c) 128); [reflexivity|lia]).
    apply (rp_good (c :: t) 1 u); [lia|rewrite E; reflexivity|rewrite E; unfold RuneError; intros X; injection X; lia|exact Hu].
  - destruct (decode_high c t H) as [E|(r & n & E & Hn & Hf)].
    + rewrite E, N.eqb_refl. cbn [Nat.eqb andb]. destruct (IH t ltac:(lia)) as (u & Hu & Ju). exists (utf8_of 65533 ++ u). split; [apply rp_bad; assumption|].
      change (bslash :: B "ufffd" ++ esc_fuel f t) with (byte_of 92 :: "u"%char :: "f"%char :: "f"%char :: "f"%char :: "d"%char :: esc_fuel f t).
      apply (js_unicode _ _ _ _ 15 15 15 13); try (right; split; [lia|left; reflexivity]); [right; lia|exact Ju].
    + rewrite E. destruct (Nat.eqb_spec n 1); [lia|]. rewrite andb_false_r.
      destruct (IH (skipn n (c :: t))) as (u & Hu & Ju); [rewrite skipn_length; cbn [length]; lia|]. exists (firstn n (c :: t) ++ u). split; [|apply js_high; assumption].
      apply rp_good; [lia|rewrite E; reflexivity|rewrite E; intros X; injection X; lia|exact Hu].
Qed.
Lemma zfield_means f : exists f', repaired (fst f) (fst f') /\ repaired_value (match snd f with JStr s => VStr s | JInt z => VInt z end) (snd f') /\ jmember (field_text f) f'.
Proof.
  destruct f as [k v]. cbn [fst snd]. destruct (zesc_means (length k) k (le_n _)) as (k' & Hk & Jk). destruct v as [s|z].
  - destruct (zesc_means (length s) s (le_n _)) as (s' & Hs & Js). exists (k', VStr s'). cbn [fst snd]. split; [exact Hk|]. split; [constructor; exact Hs|].
    change (field_text (k, JStr s)) with (byte_of 34 :: (esc_fuel (length k) k ++ [byte_of 34]) ++ B ":" ++ byte_of 34 :: esc_fuel (length s) s ++ [byte_of 34]).
    rewrite <- app_assoc. apply jm; [exact Jk|]. constructor. exact Js.
  - exists (k', VInt z). cbn [fst snd]. split; [exact Hk|]. split; [constructor|].
    change (field_text (k, JInt z)) with (byte_of 34 :: (esc_fuel (length k) k ++ [byte_of 34]) ++ B ":" ++ itoa z).
    rewrite <- app_assoc. apply jm; [exact Jk|]. constructor. apply decimal_iff. reflexivity.
Qed.

(** C107: every line of a log file is a JSON object of the level, the time, the message and the fields, in this order, each
    standing for what was logged (bytes that are not UTF-8 replaced by U+FFFD). *)
Lemma C107_line_is_json_pf : forall now m c msg ctx, (zl_level c <= zlevel m)%Z ->
  exists tl tm ts msg' fs, written now m c msg ctx =
      B "{" ++ commas (tl :: (byte_of 34 :: B "ts" ++ [byte_of 34] ++ B ":" ++ now) :: tm :: ts) ++ B "}" ++ [byte_of 10] /\
    jmember tl (B "level", VStr (match m with MDebug => B "debug" | MInfo => B "info" | MWarn => B "warn" | MError => B "error" | MPanic => B "panic" | MTrace => B "Level(10)" end)) /\
    jmember tm (B "msg", VStr msg') /\ repaired (zl_prefix c ++ msg) msg' /\ Forall2 jmember ts fs /\
    Forall2 (fun f f' => repaired (fst f) (fst f') /\ repaired_value (match snd f with JStr s => VStr s | JInt z => VInt z end) (snd f'))
      (match ctx with Some l => l | None => [] end) fs.
Proof.
  intros now m c msg ctx Hl. destruct (C107_what_is_written_pf m c msg ctx) as [H _]. specialize (H Hl). unfold written. rewrite H. clear H. unfold line. cbn [ze_level ze_msg ze_fields].
  set (l := match ctx with Some l => l | None => [] end). clearbody l.
  assert (F : exists fs, Forall2 jmember (map field_text l) fs /\ Forall2 (fun f f' => repaired (fst f) (fst f') /\ repaired_value (match snd f with JStr s => VStr s | JInt z => VInt z end) (snd f')) l fs).
  { induction l as [|f l (fs & IH1 & IH2)]; [exists []; split; constructor|]. destruct (zfield_means f) as (f' & H1 & H2 & H3). exists (f' :: fs). split; constructor; auto. }
  destruct F as (fs & F1 & F2). destruct (zesc_means _ (zl_prefix c ++ msg) (le_n _)) as (msg' & Hm & Jm).
  exists (quoted (B "level") ++ B ":" ++ quoted (level_text (zlevel m))), (quoted (B "msg") ++ B ":" ++ quoted (zl_prefix c ++ msg)), (map field_text l), msg', fs.
  split; [|split; [|split; [|split; [exact Hm|split; [exact F1|exact F2]]]]].
  - assert (C : forall x, commas (x :: map field_text l) = x ++ concat (map (fun f => B "," ++ field_text f) l)).
    { clear. induction l as [|f l IH]; intros x; [cbn; rewrite app_nil_r; reflexivity|]. cbn [map concat]. change (x ++ B "," ++ commas (field_text f :: map field_text l) = x ++ (B "," ++ field_text f) ++ concat (map (fun f => B "," ++ field_text f) l)). rewrite IH, <- app_assoc. reflexivity. }
    change (commas ((quoted (B "level") ++ B ":" ++ quoted (level_text (zlevel m))) :: (byte_of 34 :: B "ts" ++ [byte_of 34] ++ B ":" ++ now) :: (quoted (B "msg") ++ B ":" ++ quoted (zl_prefix c ++ msg)) :: map field_text l))
      with ((quoted (B "level") ++ B ":" ++ quoted (level_text (zlevel m))) ++ B "," ++ (byte_of 34 :: B "ts" ++ [byte_of 34] ++ B ":" ++ now) ++ B "," ++ commas ((quoted (B "msg") ++ B ":" ++ quoted (zl_prefix c ++ msg)) :: map field_text l)).
    rewrite C. change (quoted (B "ts")) with (byte_of 34 :: B "ts" ++ [byte_of 34]). rewrite <- !app_assoc. cbn [app]. rewrite <- !app_assoc. reflexivity.
  - destruct (zfield_means (B "level", JStr (level_text (zlevel m)))) as (f' & H1 & H2 & H3).
    assert (E : f' = (B "level", VStr (level_text (zlevel m)))).
    { destruct f' as [k' v']. cbn [fst snd] in *. apply repaired_utf8 in H1; [|apply utf8_ascii; repeat constructor]. subst k'. inversion H2 as [|? ? H4| |]; subst. apply repaired_utf8 in H4; [subst; reflexivity|]. apply utf8_ascii. destruct m; repeat constructor. }
    subst f'. replace (match m with MDebug => _ | _ => _ end) with (level_text (zlevel m)) by (destruct m; reflexivity). exact H3.
  - change (quoted (B "msg") ++ B ":" ++ quoted (zl_prefix c ++ msg)) with (byte_of 34 :: B "msg" ++ [byte_of 34] ++ B ":" ++ byte_of 34 :: esc_fuel (length (zl_prefix c ++ msg)) (zl_prefix c ++ msg) ++ [byte_of 34]).
    apply jm; [|constructor; exact Jm]. cbn [B list_ascii_of_string]. repeat (apply js_plain; [vm_compute; discriminate|discriminate|discriminate|]). constructor.
Qed.

(** C118: an example: a reply whose dictionary is shown with its keys in order. *)
Lemma C118_example_pf :
  let r := WithResponse (B "aa") (Some [(B "nodes", VStr (B "n<m")); (B "id", VStr (B "me"))]) in
  (exists d, resp_RawData r = Ok d /\ utf8_value (VDict d) /\ go_value (VDict d)) /\
  resp_String r = Ok (map (fun c => if Ascii.eqb c "'" then quote else c) (B "{'r':{'id':'me','nodes':'n\u003cm'},'t':'aa','y':'r'}")).
Proof.
  cbv zeta. split; [|vm_compute; reflexivity]. eexists. split; [reflexivity|].
  assert (U : forall s : bytes, forallb (fun c => bval c <? 128)%N s = true -> utf8 s) by (intros s H; apply utf8_ascii, Forall_forall; intros x Hx; rewrite forallb_forall in H; apply N.ltb_lt, H, Hx).
  split.
  - constructor. intros k v [E|[E|[E|[]]]]; injection E as <- <-; (split; [apply U; reflexivity|]); try (constructor; apply U; reflexivity).
    constructor. intros k v [E|[E|[]]]; injection E as <- <-; (split; [apply U; reflexivity|]); constructor; apply U; reflexivity.
  - apply go_valueb_ok. vm_compute. reflexivity.
Qed.

(** C118: the String of a request says nothing: it is the same for all. *)
Lemma C118_request_refuted_pf : exists r r' : request nat, rq_tx r <> rq_tx r' /\ rq_type r <> rq_type r' /\ req_String r = req_String r'.
Proof.
  exists {| rq_tx := B "a"; rq_type := B "ping"; rq_body := None; rq_handler := None |}, {| rq_tx := B "b"; rq_type := B "find_node"; rq_body := None; rq_handler := None |}.
  split; [discriminate|]. split; [discriminate|reflexivity].
Qed.

(** C118: responses with different ids can have the same String (ids are raw bytes). *)
Lemma C118_raw_bytes_refuted_pf : exists a b, a <> b /\ length a = 20 /\ length b = 20 /\
  resp_String (WithResponse (B "aa") (Some [(B "id", VStr a)])) = resp_String (WithResponse (B "aa") (Some [(B "id", VStr b)])).
Proof. exists (repeat (byte_of 255) 20), (repeat (byte_of 254) 20). split; [discriminate|]. split; [reflexivity|]. split; [reflexivity|]. vm_compute. reflexivity. Qed.

(** C118: console lines can be forged: for every line any logger of the crawler could print there is a ping query, of not
    much more bytes, for which the crawler prints the line of an ordinary ping followed by that line. *)
Lemma C118_forged_line_refuted_pf : forall now now' c lvl msg ctx, length (print_line now' c lvl msg ctx) <= 400 ->
  exists packet d txId, length packet <= 600 /\ DecodeDict packet = Ok (Some d) /\
    dget d (B "y") = Some (VStr (B "q")) /\ dget d (B "q") = Some (VStr (B "ping")) /\ dget d (B "t") = Some (VStr txId) /\
    ping_log now txId = ping_log now (B "x") ++ print_line now' c lvl msg ctx.
Proof.
  intros now now' c lvl msg ctx Hlen. assert (S : exists t, print_line now' c lvl msg ctx = t ++ crlf) by (unfold print_line; destruct (lg_prefix c); eexists; rewrite !app_assoc; reflexivity).
  destruct S as (t & Et). rewrite Et in *. rewrite app_length in Hlen. cbn [length crlf] in Hlen.
  set (tx := B "x" ++ crlf ++ t). set (d0 := [(B "t", VStr tx); (B "y", VStr (B "q")); (B "q", VStr (B "ping")); (B "a", VDict [(B "id", VStr (repeat "i"%char 20))])]).
  assert (Hg : go_value (VDict d0)).
  { unfold d0. constructor; [cbn [map fst]; repeat (constructor; [intros H; cbn in H; intuition discriminate|]); constructor|]. intros k v [E|[E|[E|[E|[]]]]]; injection E as <- <-; try constructor; [repeat (constructor; [intros H; cbn in H; intuition discriminate|]); constructor|]. intros k v [E|[]]; injection E as <- <-; constructor. }
  assert (Hp : plain (VDict d0)).
  { unfold d0. constructor. intros k v [E|[E|[E|[E|[]]]]]; injection E as <- <-; constructor. intros k v [E|[]]; injection E as <- <-; constructor. }
  destruct (C05_dict_roundtrip_pf d0 d0 Hg Hp) as (s & Es & Hs).
  { apply deq_refl. }
  assert (Ls : length s <= 600).
  { assert (H1 : length (itoa (Z.of_nat (length tx))) <= 3).
    { assert (F : forallb (fun n => length (itoa (Z.of_nat n)) <=? 3) (seq 0 450) = true) by (vm_compute; reflexivity).
      rewrite forallb_forall in F. apply Nat.leb_le, F, in_seq. unfold tx. rewrite !app_length. cbn [length B list_ascii_of_string crlf]. lia. }
    assert (H2 : length tx <= 410) by (unfold tx; rewrite !app_length; cbn [length B list_ascii_of_string crlf]; lia).
    clearbody tx. unfold d0 in Es. unfold EncodeDict, encodeItem, encode_entries, EncodeString in Es. cbn -[itoa] in Es. injection Es as <-.
    repeat (rewrite app_length || cbn [length app B list_ascii_of_string]). change (length (itoa 20)) with 2. change (length (itoa 4)) with 1. change (length (itoa 1)) with 1. lia. }
  destruct Hs as (r & Hr & Hd & _); [unfold fits; assert (600 <= max_int)%Z by (vm_compute; discriminate); lia|]. exists s, r, tx. split; [exact Ls|]. split; [exact Hd|].
  assert (Nd : NoDup (map fst d0)) by (inversion Hg; assumption).
  split; [eapply deq_dget_str; [exact Nd|exact Hr|reflexivity]|]. split; [eapply deq_dget_str; [exact Nd|exact Hr|reflexivity]|]. split; [eapply deq_dget_str; [exact Nd|exact Hr|reflexivity]|].
  assert (PL : exists p, forall x, ping_log now x = p ++ x ++ crlf).
  { exists (now ++ B " " ++ pad6 (B "Info") ++ B ": [" ++ B "dht" ++ B "]" ++ B "get ping request" ++ B ", " ++ B "txId" ++ B ":"). intros x.
    transitivity (now ++ B " " ++ pad6 (B "Info") ++ B ": [" ++ B "dht" ++ B "]" ++ (B "get ping request" ++ B ", " ++ ctx_text true [(B "txId", x)]) ++ crlf); [reflexivity|].
    cbn [ctx_text]. rewrite <- !app_assoc. reflexivity. }
  destruct PL as (p & PL). rewrite !PL. unfold tx. rewrite <- !app_assoc. reflexivity.
Qed.
