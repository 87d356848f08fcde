(** LoggerPf.v -- proofs of C77, C78, C83 (logger). *)
From Verif Require Import Base Logger LoggerSpec.
Local Open Scope list_scope.
Local Open Scope Z_scope.

(** C77: a call prints - exactly one line - if and only if the method's rank is at least the logger's
    level (any int), and nothing otherwise; it panics exactly when it is Panic and prints. *)
Lemma C77_filtering_pf : forall m now c msg ctx,
  (lg_level c <= rank m ->
     fst (call_log m now c msg ctx) =
       now ++ B " " ++ tag m ++ B ": " ++ (match lg_prefix c with [] => [] | p => B "[" ++ p ++ B "]" end) ++ appendCtx msg ctx ++ crlf) /\
  (rank m < lg_level c -> fst (call_log m now c msg ctx) = []) /\
  (snd (call_log m now c msg ctx) = Some (PStr msg) <-> m = MPanic /\ lg_level c <= 4) /\
  (snd (call_log m now c msg ctx) <> Some (PStr msg) -> snd (call_log m now c msg ctx) = None).
Proof.
  intros m now c msg ctx.
  assert (G : forall lim out, guarded c lim out = if lg_level c <=? lim then out else ([], None)).
  { intros. unfold guarded. rewrite Z.gtb_ltb. destruct (Z.ltb_spec lim (lg_level c)); destruct (Z.leb_spec (lg_level c) lim); try reflexivity; lia. }
  destruct m; cbn [call_log rank tag]; unfold Debug, Info, Warn, Error_, Panic_, Trace; rewrite G; unfold DEBUG, INFO, WARN, ERROR, PANIC, TRACE;
    match goal with |- context [lg_level c <=? ?k] => destruct (Z.leb_spec (lg_level c) k) end; cbn [fst snd];
    (split; [intros; try lia; try (unfold print_line; destruct (lg_prefix c); rewrite <- ?app_assoc; reflexivity)|]); (split; [intros; try lia; reflexivity|]);
    (split; [split; [intros E; first [discriminate E|split; [reflexivity|lia]]|intros [E1 E2]; first [discriminate E1|reflexivity|lia]]|]); intros; congruence.
Qed.

(** Non-vacuity and a line in full. *)
Lemma C77_example_pf :
  fst (Warn (B "12:00") {| lg_prefix := B "dht"; lg_level := INFO |} (B "slow") (Some [(B "peer", B "x"); (B "ms", B "7")]))
    = B "12:00   Warn: [dht]slow, peer:x|ms:7" ++ crlf /\
  Panic_ (B "12:00") {| lg_prefix := []; lg_level := TRACE |} (B "boom") None = ([], None).
Proof. split; reflexivity. Qed.

Lemma beq_true a : forall b, beq a b = true <-> a = b.
Proof.
  induction a as [|x a IH]; intros [|y b]; cbn; try (split; congruence). rewrite andb_true_iff, IH, Ascii.eqb_eq. split; [intros [-> ->]; reflexivity|].
  intros E. injection E as -> ->. auto.
Qed.

Lemma rrun_from l : forall b, rg_level (fold_left rstep l b) = level_after (rg_level b) l /\
  forall name, cache_get (rg_cache (fold_left rstep l b)) name =
    match cache_get (rg_cache b) name with
    | Some v => Some v
    | None => match first_level (rg_level b) name l with Some v => Some {| lg_prefix := []; lg_level := v |} | None => None end
    end.
Proof.
  induction l as [|o l IH]; intros b; cbn [fold_left level_after first_level].
  - split; [reflexivity|]. intros name. destruct (cache_get _ name); reflexivity.
  - destruct o as [n|v]; cbn [rstep].
    + destruct (IH (fst (GetLogger b n))) as [I1 I2]. unfold GetLogger, mapLogger in *. change (match n with [] => [] | n0 :: _ => n0 end) with (key_of n) in *.
      destruct (cache_get (rg_cache b) (key_of n)) as [v|] eqn:E; cbn [fst] in *.
      * split; [exact I1|]. intros name. rewrite I2. destruct (cache_get (rg_cache b) name) eqn:En; [reflexivity|].
        destruct (beq (key_of n) name) eqn:Eb; [|reflexivity]. apply beq_true in Eb. congruence.
      * cbn [rg_level rg_cache cache_get] in *. split; [exact I1|]. intros name. rewrite I2.
        destruct (beq (key_of n) name) eqn:Eb; [|reflexivity]. apply beq_true in Eb. subst name. rewrite E. reflexivity.
    + destruct (IH (SetLevel b v)) as [I1 I2]. cbn [SetLevel rg_level rg_cache] in *. split; [exact I1|]. intros name. rewrite I2. reflexivity.
Qed.

(** C78: after any history, GetLogger returns a logger whose level is the one in force when that name
    was first asked for - for a new name, the level in force now; SetPrefix keeps it. *)
Lemma C78_level_is_frozen_pf : forall l names,
  lg_level (snd (GetLogger (rrun l) names)) =
    match first_level INFO (key_of names) l with Some v => v | None => level_after INFO l end /\
  (forall p, lg_level (SetPrefix (snd (GetLogger (rrun l) names)) p) = lg_level (snd (GetLogger (rrun l) names))).
Proof.
  intros l names. split; [|reflexivity]. destruct (rrun_from l registry0) as [H1 H2]. fold (rrun l) in H1, H2.
  unfold GetLogger, mapLogger. fold (key_of names). rewrite H2. cbn [registry0 rg_cache cache_get rg_level].
  destruct (first_level INFO (key_of names) l); [reflexivity|]. cbn [snd NewLogger lg_level]. exact H1.
Qed.

(** C78 refuted: SetLevel does not change the level of a logger in use, nor of what GetLogger returns for
    it; in particular in this program, where every logger comes from GetLogger() in a package
    initialiser, before main calls SetLevel, every logger stays at INFO whatever is configured. *)
Lemma C78_setlevel_refuted_pf : forall level l,
  lg_level (snd (GetLogger (rrun (RGet [] :: l ++ [RSet level])) [])) = INFO /\
  (level <> INFO -> lg_level (snd (GetLogger (rrun (RGet [] :: l ++ [RSet level])) [])) <> level).
Proof.
  intros level l. destruct (C78_level_is_frozen_pf (RGet [] :: l ++ [RSet level]) []) as [H _]. rewrite H. cbn [first_level key_of beq].
  split; [reflexivity|congruence].
Qed.

Lemma C78_example_pf :
  lg_level (snd (GetLogger (rrun [RGet []; RSet DEBUG; RGet [B "x"]; RSet ERROR]) [B "x"])) = DEBUG /\
  lg_level (snd (GetLogger (rrun [RGet []; RSet DEBUG; RGet [B "x"]; RSet ERROR]) [B "y"])) = ERROR.
Proof. split; reflexivity. Qed.

Definition all_ascii : list byte := map ascii_of_nat (seq 0 128).
Lemma all_ascii_in c : (bval c <? 128)%N = true -> In c all_ascii.
Proof.
  intros H. unfold all_ascii. apply in_map_iff. exists (nat_of_ascii c). split; [apply ascii_nat_embedding|]. apply in_seq.
  unfold bval in H. unfold nat_of_ascii. lia.
Qed.
Lemma case_table : forallb (fun c => forallb (fun d => Bool.eqb (Ascii.eqb (upper_byte c) (upper_byte d)) (Ascii.eqb (lower_byte c) (lower_byte d))) all_ascii) all_ascii = true.
Proof. vm_compute. reflexivity. Qed.
Lemma upper_lower_eq c d : (bval c <? 128)%N = true -> (bval d <? 128)%N = true -> Ascii.eqb (upper_byte c) (upper_byte d) = Ascii.eqb (lower_byte c) (lower_byte d).
Proof.
  intros Hc Hd. pose proof case_table as T. rewrite forallb_forall in T. specialize (T c (all_ascii_in c Hc)). rewrite forallb_forall in T.
  specialize (T d (all_ascii_in d Hd)). apply Bool.eqb_prop in T. exact T.
Qed.
Lemma upper_lower_beq a : forall b, is_ascii a = true -> is_ascii b = true -> beq (map upper_byte a) (map upper_byte b) = beq (map lower_byte a) (map lower_byte b).
Proof.
  induction a as [|x a IH]; intros [|y b] Ha Hb; try reflexivity. cbn [is_ascii forallb] in Ha, Hb. apply andb_prop in Ha as [Ha1 Ha2]. apply andb_prop in Hb as [Hb1 Hb2].
  cbn [map beq]. rewrite (IH b Ha2 Hb2), (upper_lower_eq x y Ha1 Hb1). reflexivity.
Qed.
Lemma beq_sym' a : forall b, beq a b = beq b a.
Proof. induction a as [|x a IH]; intros [|y b]; try reflexivity. cbn. rewrite IH, Ascii.eqb_sym. reflexivity. Qed.

(** C83: the level names are understood in any ASCII letter case, and every other ASCII string - a typo, the
    empty string - silently means DEBUG, the most verbose level. *)
Lemma C83_level_names_pf : forall uni name, is_ascii name = true ->
  (forall n v, In (n, v) level_names -> map lower_byte name = n -> TransLogLevel uni name = v) /\
  ((forall n v, In (n, v) level_names -> map lower_byte name <> n) -> TransLogLevel uni name = 0).
Proof.
  intros uni name Ha. unfold TransLogLevel, ToUpper. rewrite Ha.
  assert (K : forall N0 n, is_ascii N0 = true -> map upper_byte N0 = N0 -> map lower_byte N0 = n -> beq N0 (map upper_byte name) = beq n (map lower_byte name)).
  { intros N0 n H1 H2 H3. rewrite <- H2, <- H3. rewrite beq_sym'. rewrite upper_lower_beq by assumption. apply beq_sym'. }
  unfold logLevelMapping. cbn [lookup_level].
  rewrite (K (B "DEBUG") (B "debug")), (K (B "INFO") (B "info")), (K (B "WARN") (B "warn")), (K (B "ERROR") (B "error")), (K (B "PANIC") (B "panic")), (K (B "TRACE") (B "trace")) by reflexivity.
  clear K. split.
  - intros n v Hin E. rewrite E. cbn [level_names In] in Hin.
    repeat (destruct Hin as [Hin|Hin]; [apply pair_equal_spec in Hin as [<- <-]; reflexivity|]). contradiction.
  - intros Hno. repeat match goal with |- context [beq ?a (map lower_byte name)] =>
      let E := fresh in destruct (beq a (map lower_byte name)) eqn:E;
      [exfalso; apply beq_true in E; eapply Hno; [|symmetry; exact E]; cbn [level_names In]; eauto 10|clear E] end. reflexivity.
Qed.

(** Non-vacuity: the level of the shipped default configuration, and a typo. *)
Lemma C83_example_pf : forall uni, TransLogLevel uni (B "Info") = INFO /\ TransLogLevel uni (B "wArN") = WARN /\ TransLogLevel uni (B "warning") = DEBUG.
Proof. intros uni. repeat split. Qed.

(** C84: for the zap logger the names are case sensitive, and WARN, TRACE and everything unknown mean INFO
    (zapcore numbers: debug -1, info 0, warn 1, error 2, panic 4). *)
Lemma C84_zap_level_pf : forall s,
  (s = B "DEBUG" -> parseLogLevel s = -1) /\ (s = B "ERROR" -> parseLogLevel s = 2) /\ (s = B "PANIC" -> parseLogLevel s = 4) /\
  (~ In s [B "DEBUG"; B "ERROR"; B "PANIC"] -> parseLogLevel s = 0).
Proof.
  intros s. split; [intros ->; reflexivity|]. split; [intros ->; reflexivity|]. split; [intros ->; reflexivity|]. intros Hn. unfold parseLogLevel.
  repeat match goal with |- context [beq s ?a] => let E := fresh in destruct (beq s a) eqn:E; [apply beq_true in E; subst s; first [reflexivity|exfalso; apply Hn; cbn; tauto]|clear E] end.
  reflexivity.
Qed.
(** C84, the claim that each documented level name selects that level is false for WARN. *)
Lemma C84_warn_refuted_pf : parseLogLevel (B "WARN") = 0 /\ parseLogLevel (B "WARN") <> 1 /\ parseLogLevel (B "debug") = 0.
Proof. repeat split. discriminate. Qed.

(** C84: the names of the levels. *)
Lemma C84_example_pf : map (fun s => parseLogLevel (B s)) ["DEBUG"; "INFO"; "WARN"; "ERROR"; "PANIC"; "TRACE"; "error"; ""]%string = [-1; 0; 0; 2; 4; 0; 0; 0]%Z.
Proof. vm_compute. reflexivity. Qed.
