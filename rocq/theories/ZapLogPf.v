(** ZapLogPf.v -- proofs of C107 (the file logger). *)
From Verif Require Import Base GoLib Types Logger ErrorsPf ZapLog ZapLogSpec ZapLogProofs.
Local Open Scope list_scope.

(** C107: what a call writes, for each of the six methods and every logger: at most one entry, with the method's level, the prefix before the message and
    every context entry once, exactly if the level is at least the logger's.  Panic panics in any case, with the prefixed message, and no other method does.  A logger made
    with any level name writes errors unless the name is PANIC, and always panics and traces. *)
Lemma C107_what_is_written_pf : forall m c msg ctx,
  ((zl_level c <= zlevel m)%Z -> fst (zcall m c msg ctx) = Some {| ze_level := zlevel m; ze_msg := zl_prefix c ++ msg; ze_fields := match ctx with Some l => l | None => [] end |}) /\
  ((zlevel m < zl_level c)%Z -> fst (zcall m c msg ctx) = None) /\
  (snd (zcall m c msg ctx) = match m with MPanic => Some (PStr (zl_prefix c ++ msg)) | _ => None end) /\
  (forall name, In m [MPanic; MTrace] \/ m = MError /\ name <> B "PANIC" -> (zl_level (NewZapLogger name) <= zlevel m)%Z).
Proof.
  intros m c msg ctx. unfold zcall. cbv zeta. cbn [fst snd].
  assert (Et : match zl_prefix c with [] => msg | p :: q => (p :: q) ++ msg end = zl_prefix c ++ msg) by (destruct (zl_prefix c); reflexivity).
  rewrite !Et. split; [|split; [|split; [reflexivity|]]].
  - intros H. apply Z.leb_le in H. rewrite H. reflexivity.
  - intros H. apply Z.leb_gt in H. rewrite H. reflexivity.
  - intros name H. unfold NewZapLogger, parseLogLevel. cbn [zl_level].
    destruct (beq name (B "DEBUG")), (beq name (B "INFO")), (beq name (B "ERROR")); try (destruct H as [[<-|[<-|[]]]|[-> _]]; cbn; lia).
    destruct (beq name (B "PANIC")) eqn:E; destruct H as [[<-|[<-|[]]]|[-> Hn]]; cbn; try lia. elim Hn. apply beq_eq. exact E.
Qed.

(** C107: a new prefix replaces the old one, in brackets; the level stays. *)
Lemma C107_prefix_pf : forall c p q m msg ctx, ZSetPrefix (ZSetPrefix c p) q = ZSetPrefix c q /\
  (forall e, fst (zcall m (ZSetPrefix c q) msg ctx) = Some e -> ze_msg e = B "[" ++ q ++ B "]" ++ msg).
Proof.
  intros c p q m msg ctx. split; [reflexivity|]. intros e H. pose proof (C107_what_is_written_pf m (ZSetPrefix c q) msg ctx) as (H1 & H2 & _).
  destruct (Z.le_gt_cases (zl_level (ZSetPrefix c q)) (zlevel m)) as [Hl|Hl]; [rewrite (H1 Hl) in H|rewrite (H2 Hl) in H; discriminate]. injection H as <-. cbn [ze_msg ZSetPrefix zl_prefix]. rewrite <- !app_assoc. reflexivity.
Qed.

Lemma noctl_app a b : Forall (fun c => control c = false) a -> Forall (fun c => control c = false) b -> Forall (fun c => control c = false) (a ++ b).
Proof. intros. apply Forall_app. auto. Qed.
Lemma esc_noctl t : esc_ok t -> Forall (fun c => control c = false) t.
Proof. induction 1; repeat constructor; auto. Qed.
Lemma quoted_noctl s : Forall (fun c => control c = false) (quoted s).
Proof. unfold quoted. constructor; [reflexivity|]. apply noctl_app; [apply esc_noctl, json_escape_ok|repeat constructor]. Qed.
Lemma digits_noctl n : Forall (fun c => control c = false) (utoa n).
Proof. eapply Forall_impl; [|apply utoa_digits]. intros c H. unfold is_digit in H. unfold control. apply andb_true_iff in H as [H _]. apply N.leb_le in H. apply N.ltb_ge. lia. Qed.
Lemma itoa_noctl z : Forall (fun c => control c = false) (itoa z).
Proof. unfold itoa. destruct (z <? 0)%Z; [constructor; [reflexivity|]|]; apply digits_noctl. Qed.
Lemma B_noctl s : forallb (fun c => negb (control c)) (B s) = true -> Forall (fun c => control c = false) (B s).
Proof. intros H. apply Forall_forall. intros c Hc. rewrite forallb_forall in H. specialize (H c Hc). destruct (control c); [discriminate|reflexivity]. Qed.
Lemma numeric_noctl s : numeric s -> Forall (fun c => control c = false) s.
Proof.
  intros H. eapply Forall_impl; [|exact H]. intros c [Hd|[->|[->|[->| ->]]]]; try reflexivity.
  unfold is_digit in Hd. unfold control. apply andb_true_iff in Hd as [Hd _]. apply N.leb_le in Hd. apply N.ltb_ge. lia.
Qed.

(** C107: every call adds nothing or one line: whatever bytes a message or a context contains, the text
    ends with a line break and contains no other control character: entries cannot be forged by what is logged. *)
Lemma C107_one_line_pf : forall now m c msg ctx, numeric now ->
  written now m c msg ctx = [] \/ exists text, written now m c msg ctx = text ++ [byte_of 10] /\ Forall (fun b => control b = false) text.
Proof.
  intros now m c msg ctx Hn. unfold written. destruct (fst (zcall m c msg ctx)) as [e|]; [|auto]. right. unfold line.
  exists (B "{" ++ quoted (B "level") ++ B ":" ++ quoted (level_text (ze_level e)) ++ B "," ++ quoted (B "ts") ++ B ":" ++ now ++
    B "," ++ quoted (B "msg") ++ B ":" ++ quoted (ze_msg e) ++ concat (map (fun f => B "," ++ field_text f) (ze_fields e)) ++ B "}"). split.
  - rewrite <- !app_assoc. reflexivity.
  - repeat first [apply noctl_app | apply quoted_noctl | apply numeric_noctl; assumption | (apply B_noctl; reflexivity)].
    induction (ze_fields e) as [|[k v] l IH]; cbn [map concat]; [constructor|]. apply noctl_app; [|exact IH].
    unfold field_text. cbn [fst snd]. repeat first [apply noctl_app | apply quoted_noctl | (apply B_noctl; reflexivity)].
    destruct v; [apply quoted_noctl|apply itoa_noctl].
Qed.

Lemma class_split (P : byte -> Prop) a b : forall c d r r', Forall P a -> Forall P b -> ~ P c -> ~ P d -> a ++ c :: r = b ++ d :: r' -> a = b /\ c = d /\ r = r'.
Proof.
  revert b. induction a as [|x a IH]; intros [|y b] c d r r' Ha Hb Hc Hd E; cbn [app] in E.
  - injection E as -> ->. auto.
  - injection E as -> _. inversion Hb; subst. contradiction.
  - injection E as <- _. inversion Ha; subst. contradiction.
  - injection E as <- E. inversion Ha; inversion Hb; subst. destruct (IH b c d r r') as (-> & -> & ->); auto.
Qed.
Definition numch (c : byte) : Prop := is_digit c = true \/ c = byte_of 46 \/ c = byte_of 101 \/ c = byte_of 43 \/ c = byte_of 45.
Lemma itoa_numeric z : Forall numch (itoa z).
Proof.
  assert (H : forall n, Forall numch (utoa n)) by (intros n; eapply Forall_impl; [|apply utoa_digits]; intros c Hc; left; exact Hc).
  unfold itoa. destruct (z <? 0)%Z; [constructor; [right; right; right; right; reflexivity|apply H]|apply H].
Qed.
Lemma not_num c : In c [byte_of 44; byte_of 125; quote] -> ~ numch c.
Proof. intros [<-|[<-|[<-|[]]]] [H|[H|[H|[H|H]]]]; discriminate. Qed.

(** The text after a value: another field or the end. *)
Definition rest_text (l : list (bytes * jval)) : bytes := concat (map (fun f => B "," ++ field_text f) l) ++ B "}" ++ [byte_of 10].
Lemma rest_head l : exists c r, rest_text l = c :: r /\ In c [byte_of 44; byte_of 125; quote].
Proof. destruct l as [|f l]; unfold rest_text; cbn [map concat app]; eexists; eexists; split; try reflexivity; cbn; auto. Qed.
Lemma rest_inj l : forall l', Forall (fun f => utf8 (fst f) /\ utf8_val (snd f)) l -> Forall (fun f => utf8 (fst f) /\ utf8_val (snd f)) l' -> rest_text l = rest_text l' -> l = l'.
Proof.
  induction l as [|[k v] l IH]; intros [|[k' v'] l'] Hu Hu' E; [reflexivity| | |].
  - unfold rest_text in E. cbn [map concat app B list_ascii_of_string] in E. discriminate.
  - unfold rest_text in E. cbn [map concat app B list_ascii_of_string] in E. discriminate.
  - inversion Hu as [|? ? [Hk Hv] Hl]; inversion Hu' as [|? ? [Hk' Hv'] Hl']; subst. cbn [fst snd] in *.
    assert (E1 : B "," ++ quoted k ++ B ":" ++ (match v with JStr s => quoted s | JInt z => itoa z end) ++ rest_text l =
                 B "," ++ quoted k' ++ B ":" ++ (match v' with JStr s => quoted s | JInt z => itoa z end) ++ rest_text l').
    { unfold rest_text in *. cbn [map concat] in E. unfold field_text in E. cbn [fst snd] in E. rewrite <- !app_assoc in E. unfold field_text. exact E. }
    apply app_inv_head in E1. apply quoted_inj in E1 as [-> E1]; [|assumption|assumption]. apply app_inv_head in E1.
    destruct v as [s|z], v' as [s'|z'].
    + apply quoted_inj in E1 as [-> E1]; [|assumption|assumption]. rewrite (IH _ Hl Hl' E1). reflexivity.
    + exfalso. unfold quoted in E1. cbn [app] in E1. pose proof (itoa_numeric z') as Hz. destruct (itoa z') as [|c t]; [|].
      * cbn [app] in E1. destruct (rest_head l') as (c & r & Er & Hc). rewrite Er in E1. injection E1 as <- _. unfold rest_text in Er. destruct l'; discriminate.
      * cbn [app] in E1. injection E1 as <- _. inversion Hz as [|? ? Hq _]; subst. revert Hq. apply not_num. cbn. auto.
    + exfalso. unfold quoted in E1. cbn [app] in E1. pose proof (itoa_numeric z) as Hz. destruct (itoa z) as [|c t]; [|].
      * cbn [app] in E1. destruct (rest_head l) as (c & r & Er & Hc). rewrite Er in E1. injection E1 as -> _. unfold rest_text in Er. destruct l; discriminate.
      * cbn [app] in E1. injection E1 as -> _. inversion Hz as [|? ? Hq _]; subst. revert Hq. apply not_num. cbn. auto.
    + destruct (rest_head l) as (c & r & Er & Hc). destruct (rest_head l') as (c' & r' & Er' & Hc'). rewrite Er, Er' in E1.
      apply (class_split numch) in E1 as (Ez & -> & ->); [|apply itoa_numeric|apply itoa_numeric|apply not_num; exact Hc|apply not_num; exact Hc'].
      apply itoa_inj in Ez. subst z'. rewrite <- Er' in Er. rewrite (IH _ Hl Hl' Er). reflexivity.
Qed.

(** C107: a line determines the entry it was written for: time stamp, level, message and all fields (of valid UTF-8), for entries written by the six methods. *)
Lemma C107_lines_identify_entries_pf : forall now now' e e', numeric now -> numeric now' -> (exists m, ze_level e = zlevel m) -> (exists m, ze_level e' = zlevel m) -> utf8_entry e -> utf8_entry e' ->
  line now e = line now' e' -> now = now' /\ e = e'.
Proof.
  intros now now' e e' Hn Hn' (m & Em) (m' & Em') [Hm Hf] [Hm' Hf'] E. unfold line in E.
  apply app_inv_head in E. apply app_inv_head in E. apply app_inv_head in E.
  apply quoted_inj in E as [El E]; [| |].
  - do 3 apply app_inv_head in E. cbn [app B list_ascii_of_string] in E.
    apply (class_split numch) in E as (-> & _ & E); [|exact Hn|exact Hn'|apply not_num; cbn; auto|apply not_num; cbn; auto]. split; [reflexivity|].
    apply app_inv_head in E. injection E as E.
    assert (E' : quoted (ze_msg e) ++ rest_text (ze_fields e) = quoted (ze_msg e') ++ rest_text (ze_fields e')) by (unfold quoted, rest_text; cbn [app]; f_equal; exact E).
    clear E. rename E' into E. apply quoted_inj in E as [E1 E]; [|exact Hm|exact Hm'].
    apply (rest_inj (ze_fields e) (ze_fields e')) in E; [|exact Hf|exact Hf'].
    destruct e as [l x f], e' as [l' x' f']. cbn [ze_level ze_msg ze_fields] in *. subst. f_equal. destruct m, m'; try reflexivity; discriminate El.
  - rewrite Em. apply utf8_ascii. destruct m; repeat constructor.
  - rewrite Em'. apply utf8_ascii. destruct m'; repeat constructor.
Qed.

(** C107: this is false of strings that are not UTF-8, such as raw info hashes: different messages give the same line. *)
Lemma C107_raw_bytes_refuted_pf : forall now, exists c msg msg', msg <> msg' /\ written now MInfo c msg None = written now MInfo c msg' None /\ written now MInfo c msg None <> [].
Proof. intros now. exists (NewZapLogger (B "info")), [byte_of 255], [byte_of 254]. split; [discriminate|]. split; [reflexivity|discriminate]. Qed.

(** C107: an example: a message with a line break is one line. *)
Lemma C107_example_pf : written (B "1.5") MWarn (ZSetPrefix (NewZapLogger (B "WARN")) (B "dht")) (B "a" ++ [byte_of 10] ++ B "b") (Some [(B "port", JInt (-1))]) =
  map (fun c => if Ascii.eqb c "'" then quote else c) (B "{'level':'warn','ts':1.5,'msg':'[dht]a\nb','port':-1}") ++ [byte_of 10] /\
  numeric (B "1.5") /\ utf8_entry {| ze_level := 1; ze_msg := B "x"; ze_fields := [(B "port", JInt (-1))] |}.
Proof.
  split; [vm_compute; reflexivity|]. split.
  - unfold numeric. cbn [B list_ascii_of_string]. constructor; [left; reflexivity|]. constructor; [right; left; reflexivity|]. constructor; [left; reflexivity|constructor].
  - split; [apply utf8_ascii; repeat constructor|]. constructor; [|constructor]. split; [apply utf8_ascii; repeat constructor|exact I].
Qed.
