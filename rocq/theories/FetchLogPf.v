(** FetchLogPf.v -- proofs of C135 (what a download prints). *)
From Verif Require Import Base GoLib Bencode BencodeSpec Types Logger Node Json ConsoleLog Krpc BytesPool Sha1 PeerWire Fetch FetchSpec FetchProofs FetchPf FetchLog FetchLogSpec FetchLogProofs.
Local Open Scope list_scope.

(** C135: the function with the log calls returns what FetchMetaData returns and leaves the same connection and memory. *)
Lemma C135_same_download_pf : forall e laddr txt ptxt p h peer peerId infoHash,
  fst (FetchMetaData_log e laddr txt ptxt p h peer peerId infoHash) = FetchMetaData e p h peer peerId infoHash.
Proof.
  intros. destruct peer as [script|]; [|reflexivity]. unfold FetchMetaData_log, FetchMetaData. pose proof (sm_body e laddr txt peerId infoHash (NewPeerConn p h script)) as H.
  destruct (fetch_body_log e laddr txt peerId infoHash (NewPeerConn p h script)) as [[s r] o]. cbn [fst] in H. rewrite <- H. destruct r; reflexivity.
Qed.

(** C135: the lines are the transcript of the greeting and of the messages the loop looked at, followed by the closing line. *)
Lemma C135_transcript_pf : forall e laddr txt ptxt p h script peerId infoHash s r o, (forall n d, deq d (e_ford e n d)) ->
  FetchMetaData_log e laddr txt ptxt p h (Some script) peerId infoHash = ((s, r), o) ->
  exists how body closing, lines_of o = body ++ closing /\ transcript laddr peerId infoHash how (seen_of o) body /\ closes laddr infoHash (f_size s) how r closing.
Proof.
  intros e laddr txt ptxt p h script peerId infoHash s r o Hord E. unfold FetchMetaData_log in E.
  destruct (fetch_body_log e laddr txt peerId infoHash (NewPeerConn p h script)) as [[s1 r1] o1] eqn:E1. apply body_lines in E1; [|exact Hord].
  destruct E1 as (how & b1 & b2 & El & T & M). destruct r1 as [d|x|q|x]; injection E as <- <- <-; exists how, b1.
  - destruct M as [-> ->]. exists [fline laddr MInfo "chesum metadata match" [(B "infohash", VStr (hex infoHash))]]. split; [exact El|]. split; [exact T|]. constructor.
  - destruct M as [-> [[-> ->]|[-> ->]]]; eexists; (split; [exact El|]); (split; [exact T|]); constructor.
  - exists (b2 ++ [fline laddr MError "FetchMetaData err" [(B "err", VStr (panic_said ptxt q))]]).
    rewrite lines_app, seen_app, El, <- app_assoc. cbn [lines_of seen_of flat_map app]. rewrite !app_nil_r. split; [reflexivity|]. split; [exact T|].
    destruct q as [c m| |m|]; destruct M as [Hh ->]; cbn [app]; try (apply cl_dies; exact Hh). subst how. apply cl_panics.
  - destruct M as [Hh ->]. exists []. split; [exact El|]. split; [exact T|]. apply cl_hangs. exact Hh.
Qed.

(** How the lines before the closing line may look. *)
Definition calm_line (en : centry) : Prop := ce_m en <> MPanic /\ ~ closing_line en.
Definition body_ok (how : ending) (o : list centry) : Prop :=
  match how with
  | Panics m => exists pre en, o = pre ++ [en] /\ Forall calm_line pre /\ ce_m en = MPanic /\ ce_msg en = m /\ ~ closing_line en
  | _ => Forall calm_line o
  end.
Lemma calm_fline laddr m msg ctx : m <> MPanic -> existsb (beq (B msg)) [B "chesum metadata match"; B "chesum metadata not match"; B "FetchMetaData err"] = false -> calm_line (fline laddr m msg ctx).
Proof. intros Hm Hc. split; [exact Hm|]. intros [_ H]. cbn [ce_msg fline] in H. assert (T : existsb (beq (B msg)) [B "chesum metadata match"; B "chesum metadata not match"; B "FetchMetaData err"] = true) by (apply existsb_exists; exists (B msg); split; [exact H|apply beq_refl]). congruence. Qed.
Lemma panic_fline laddr msg ctx : existsb (beq (B msg)) [B "chesum metadata match"; B "chesum metadata not match"; B "FetchMetaData err"] = false -> body_ok (Panics (B msg)) [fline laddr MPanic msg ctx].
Proof.
  intros Hc. exists [], (fline laddr MPanic msg ctx). split; [reflexivity|]. split; [constructor|]. split; [reflexivity|]. split; [reflexivity|].
  intros [_ H]. cbn [ce_msg fline] in H. assert (T : existsb (beq (B msg)) [B "chesum metadata match"; B "chesum metadata not match"; B "FetchMetaData err"] = true) by (apply existsb_exists; exists (B msg); split; [exact H|apply beq_refl]). congruence.
Qed.
Lemma panic_wline msg ctx : body_ok (Panics (B msg)) [wline msg ctx].
Proof. exists [], (wline msg ctx). split; [reflexivity|]. split; [constructor|]. split; [reflexivity|]. split; [reflexivity|]. intros [H _]. discriminate H. Qed.
Lemma body_ok_app how o1 o : Forall calm_line o1 -> body_ok how o -> body_ok how (o1 ++ o).
Proof.
  intros H1 H2. destruct how as [|m|]; cbn in *; [apply Forall_app; auto| |apply Forall_app; auto].
  destruct H2 as (pre & en & -> & Hp & K). exists (o1 ++ pre), en. rewrite app_assoc. split; [reflexivity|]. split; [apply Forall_app; auto|exact K].
Qed.
Lemma about_ok laddr how body o : about laddr how body o -> body_ok how o.
Proof.
  intros H. destruct H; try (cbn [body_ok]; constructor; fail); try apply panic_wline; try (cbn [body_ok]; constructor; [apply calm_fline; [discriminate|reflexivity]|constructor]; fail).
  - apply (body_ok_app how [fline laddr MInfo "get extended handshake" [(B "exHandShakeResp", VStr t)]]); [constructor; [apply calm_fline; [discriminate|reflexivity]|constructor]|].
    match goal with A : asking _ _ _ _ |- _ => destruct A end; try (cbn [body_ok]; constructor; fail); try (apply panic_fline; reflexivity). cbn [body_ok]. constructor; [apply calm_fline; [discriminate|reflexivity]|constructor].
  - cbn [body_ok]. constructor; [apply calm_fline; [discriminate|reflexivity]|]. constructor; [apply calm_fline; [discriminate|reflexivity]|constructor].
  - match goal with A : how = _ \/ how = _ |- _ => destruct A as [-> | ->] end; cbn [body_ok]; (constructor; [apply calm_fline; [discriminate|reflexivity]|constructor]).
Qed.
Lemma conv_ok laddr how l o : conversation laddr how l o -> body_ok how o.
Proof.
  induction 1 as [|how l o _ IH|how body l o1 o A _ IH|how body o A _]; [constructor|exact IH| |eapply about_ok; exact A]. apply body_ok_app; [exact (about_ok _ _ _ _ A)|exact IH].
Qed.
Lemma transcript_ok laddr peerId infoHash how l o : transcript laddr peerId infoHash how l o -> body_ok how o.
Proof.
  intros [how' o' G _|how' l' o' C|l' o' t C|l' o' C].
  - destruct G as [|Ha|msg t Hm|msg t Hm|]; try constructor; try apply panic_wline; cbn [In] in Hm; intuition subst; apply panic_fline; reflexivity.
  - eapply conv_ok. exact C.
  - apply body_ok_app; [exact (conv_ok _ _ _ _ C)|]. apply panic_fline. reflexivity.
  - exact (conv_ok _ _ _ _ C).
Qed.

(** C135: a dialled download prints at most one closing line, as its last line, and the result tells which. *)
Lemma C135_closing_line_pf : forall e laddr txt ptxt p h script peerId infoHash s r o, (forall n d, deq d (e_ford e n d)) ->
  FetchMetaData_log e laddr txt ptxt p h (Some script) peerId infoHash = ((s, r), o) ->
  exists body closing, lines_of o = body ++ closing /\ Forall (fun en => ~ closing_line en) body /\
    match r with
    | FOk _ => closing = [fline laddr MInfo "chesum metadata match" [(B "infohash", VStr (hex infoHash))]]
    | FErr er => (er = ENew (B "check sum err") /\ closing = [fline laddr MError "chesum metadata not match" [(B "metasize", VInt (f_size s))]]) \/
                 (er = ENew (B "FetchMetaData err") /\ exists t, closing = [fline laddr MError "FetchMetaData err" [(B "err", VStr t)]]) \/
                 (er = ENew (B "cannot completed download metadata") /\ closing = [])
    | FStop _ => closing = []
    | FPanic _ => False
    end.
Proof.
  intros e laddr txt ptxt p h script peerId infoHash s r o Hord E. destruct (C135_transcript_pf _ _ _ _ _ _ _ _ _ _ _ _ Hord E) as (how & body & closing & El & T & C).
  exists body, closing. split; [exact El|]. split.
  - apply transcript_ok in T. assert (W : forall l, Forall calm_line l -> Forall (fun en => ~ closing_line en) l) by (intros l; apply Forall_impl; intros en [_ H]; exact H).
    destruct how as [|m|]; [apply W; exact T| |apply W; exact T]. destruct T as (pre & en & -> & Hp & _ & _ & Hn). apply Forall_app. split; [apply W; exact Hp|]. constructor; [exact Hn|constructor].
  - destruct C; eauto 8.
Qed.

Lemma split_unique {A} (P : A -> Prop) (pre l1 l2 : list A) en x : Forall P pre -> ~ P x -> pre ++ en = l1 ++ x :: l2 -> exists m, l1 = pre ++ m /\ en = m ++ x :: l2.
Proof.
  revert l1. induction pre as [|y pre IH]; intros l1 Hp Hx E; cbn [app] in E; [exists l1; auto|]. inversion Hp as [|? ? Hy Hp']; subst. destruct l1 as [|z l1]; injection E as <- E; [contradiction|].
  destruct (IH l1 Hp' Hx E) as (m & -> & ->). exists m. auto.
Qed.
(** C135: a line at level PANIC is followed by exactly one line: the closing line that repeats its message as the error,
    and the download fails. *)
Lemma C135_panic_is_last_pf : forall e laddr txt ptxt p h script peerId infoHash s r o before en after, (forall n d, deq d (e_ford e n d)) ->
  FetchMetaData_log e laddr txt ptxt p h (Some script) peerId infoHash = ((s, r), o) -> lines_of o = before ++ en :: after -> ce_m en = MPanic ->
  r = FErr (ENew (B "FetchMetaData err")) /\ after = [fline laddr MError "FetchMetaData err" [(B "err", VStr (ce_msg en))]].
Proof.
  intros e laddr txt ptxt p h script peerId infoHash s r o before en after Hord E El Hm. destruct (C135_transcript_pf _ _ _ _ _ _ _ _ _ _ _ _ Hord E) as (how & body & closing & El' & T & C).
  rewrite El' in El. clear El'. apply transcript_ok in T.
  assert (N : forall l, Forall calm_line l -> Forall (fun x => ce_m x <> MPanic) l) by (intros l; apply Forall_impl; intros x [H _]; exact H).
  assert (X : how <> Dies -> how <> Goes -> exists m, how = Panics m) by (destruct how; eauto; congruence).
  assert (K : (how = Goes \/ how = Dies) -> False).
  { intros Hh. assert (F : Forall (fun x => ce_m x <> MPanic) body) by (apply N; destruct Hh; subst how; exact T).
    destruct (split_unique _ _ _ _ _ _ F (fun H => H Hm) El) as (m & -> & ->). remember (m ++ en :: after) as cl eqn:Ecl. destruct C; destruct m as [|y m]; cbn in Ecl; try discriminate; try (injection Ecl as <- _; discriminate Hm); try (injection Ecl as _ Ecl; destruct m; discriminate Ecl). }
  destruct how as [|m|]; [exfalso; auto| |exfalso; auto]. destruct T as (pre & en' & -> & Hp & H1 & H2 & _).
  rewrite <- app_assoc in El. destruct (split_unique _ _ _ _ _ _ (N _ Hp) (fun H => H Hm) El) as (l & -> & El2). cbn [app] in El2.
  inversion C as [| | |m' Em Er Ec|how t [Hh|Hh] Eh|how x [Hh|Hh] Eh]; subst; try discriminate. destruct l as [|y l]; cbn [app] in El2.
  - injection El2 as <- <-. split; reflexivity.
  - injection El2 as <- El2. destruct l as [|z l]; cbn [app] in El2; [injection El2 as <- _; discriminate Hm|]. injection El2 as _ El2. destruct l; discriminate El2.
Qed.

(** C135: concrete downloads.  [at0]: the address; [said]: the texts of structs and errors. *)
Definition at0 : bytes := B "1.2.3.4:6881".
Definition said : nat -> bytes := fun _ => B "x".
Definition died : gopanic -> bytes := fun _ => B "boom".
Definition lines0 (e : fenv) (peer : option (list bytes)) (infoHash : bytes) : list (method * bytes) :=
  map (fun en => (ce_m en, ce_msg en)) (lines_of (snd (FetchMetaData_log e at0 said died pool0 heap0 peer LocalPeerId infoHash))).
Definition late : fenv :=
  {| e_intf := fun _ x => x; e_exp := fun _ => true; e_write := fun _ => WOk; e_mem := fun _ => true; e_ford := fun _ d => d; e_fold := fun _ _ => false |}.
Definition stuck : fenv :=
  {| e_intf := fun _ x => x; e_exp := fun _ => false; e_write := fun n => if 2 <? n then WBlock else WOk; e_mem := fun _ => true; e_ford := fun _ d => d; e_fold := fun _ _ => false |}.
(** C135: a download that succeeds, one whose peer hangs up, one with a wrong checksum, and one with other messages. *)
Lemma C135_examples_pf :
  lines0 calm0 (Some script1) (sha1 meta1) =
    [(MInfo, B "get extended handshake"); (MInfo, B "request pieces"); (MInfo, B "fetch extended msg"); (MInfo, B "chesum metadata match")] /\
  lines0 calm0 (Some [hs0]) (sha1 meta1) = [(MPanic, B "read prefix length err"); (MError, B "FetchMetaData err")] /\
  lines0 calm0 (Some [hs0; frame (ext_of (B "15")); frame (data_of (B "0") (B "15") (B "d4:name5:hellOe"))]) (sha1 meta1) =
    [(MInfo, B "get extended handshake"); (MInfo, B "request pieces"); (MInfo, B "fetch extended msg"); (MError, B "chesum metadata not match")] /\
  lines0 calm0 (Some [hs0; frame [ascii_of_nat 1]; be32 0; frame [ascii_of_nat 20; ascii_of_nat 7]; frame [ascii_of_nat 20; ascii_of_nat 2]; frame (ascii_of_nat 20 :: ascii_of_nat 0 :: B "d1:mdee"); frame []]) (sha1 meta1) =
    [(MInfo, B "fetch bep3 msg"); (MInfo, B "fetch pexExtendedId wrong extend msg"); (MInfo, B "fetch pexExtendedId extend msg"); (MInfo, B "get extended handshake");
     (MPanic, B "get extended handshake wrong format"); (MError, B "FetchMetaData err")] /\
  lines0 calm0 (Some [hs0; frame [ascii_of_nat 20]]) (sha1 meta1) = [(MError, B "FetchMetaData err")].
Proof. repeat split; vm_compute; reflexivity. Qed.

(** C135: not every failed download leaves a trace in the log.  A failed dial prints nothing; so does a peer whose download
    runs out of time before it is complete (only the lines of its messages appear, none of them tells of a failure);
    and a download that blocks in a write never prints its end. *)
Lemma C135_silent_failure_refuted_pf :
  (forall e laddr txt ptxt p h peerId infoHash, lines_of (snd (FetchMetaData_log e laddr txt ptxt p h None peerId infoHash)) = [] /\
     exists s err, fst (FetchMetaData_log e laddr txt ptxt p h None peerId infoHash) = (s, FErr err)) /\
  (exists s, FetchMetaData late pool0 heap0 (Some [hs0]) LocalPeerId (sha1 meta1) = (s, FErr (ENew (B "cannot completed download metadata")))) /\
  lines0 late (Some [hs0]) (sha1 meta1) = [] /\
  (exists s, FetchMetaData stuck pool0 heap0 (Some script1) LocalPeerId (sha1 meta1) = (s, FStop BlockedWrite)) /\
  lines0 stuck (Some script1) (sha1 meta1) = [(MInfo, B "get extended handshake")].
Proof.
  split; [intros; split; [reflexivity|]; eexists _, _; reflexivity|]. split; [apply result_err_spec; vm_compute; reflexivity|]. split; [vm_compute; reflexivity|]. split; [|vm_compute; reflexivity].
  assert (H : match snd (FetchMetaData stuck pool0 heap0 (Some script1) LocalPeerId (sha1 meta1)) with FStop BlockedWrite => true | _ => false end = true) by (vm_compute; reflexivity).
  destruct (FetchMetaData stuck pool0 heap0 (Some script1) LocalPeerId (sha1 meta1)) as [s r]. cbn [snd] in H. exists s. destruct r as [| | |[]]; try discriminate. reflexivity.
Qed.
