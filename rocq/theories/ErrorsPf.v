(** ErrorsPf.v -- proofs of C103 (error values and their texts). *)
From Verif Require Import Base GoLib Types Krpc Errors.
Local Open Scope list_scope.

(** Specification: what an error has to report - the texts of plain values, the message of every misc.Error and
    everything its parameters have to report, to any depth. *)
Inductive reports : any -> bytes -> Prop :=
| rp_str s : reports (AStr s) s
| rp_err t : reports (AErr t) t
| rp_stringer t : reports (AStringer t) t
| rp_json t : reports (AJson t) t
| rp_jsonerr t : reports (AJsonErr t) t
| rp_msg c m x p : reports (AMisc (MError c m x p)) m
| rp_param c m l p v t : In v l -> reports v t -> reports (AMisc (MError c m (Some l) p)) t.
Definition contains (whole part : bytes) : Prop := exists a b, whole = a ++ part ++ b.

Lemma contains_refl a : contains a a.
Proof. exists [], []. rewrite app_nil_r. reflexivity. Qed.
Lemma contains_app_l a b c : contains a c -> contains (a ++ b) c.
Proof. intros (x & y & ->). exists x, (y ++ b). rewrite <- !app_assoc. reflexivity. Qed.
Lemma contains_app_r a b c : contains b c -> contains (a ++ b) c.
Proof. intros (x & y & ->). exists (a ++ x), y. rewrite <- !app_assoc. reflexivity. Qed.

Definition params_text (stack : list nat -> bytes) (at_ : list nat) : nat -> list any -> bytes :=
  fix go (n : nat) (l : list any) : bytes := match l with [] => [] | v :: t => ToString stack (n :: at_) v ++ B "|" ++ go (S n) t end.
Lemma error_text_eq stack at_ c m x p : ErrorText stack at_ (MError c m x p) =
  itoa c ++ B ": " ++ m ++ (match x with None => [] | Some l => B ", params: " ++ params_text stack at_ 0 l end) ++ crlf ++ B "stacks:" ++ crlf ++ stack at_.
Proof. destruct x; reflexivity. Qed.
Lemma params_contains stack at_ v l t : In v l -> (forall n, contains (ToString stack (n :: at_) v) t) -> forall n, contains (params_text stack at_ n l) t.
Proof.
  intros Hin Hv. induction l as [|w l IH]; [destruct Hin|]. intros n. cbn [params_text]. destruct Hin as [->|Hin].
  - apply contains_app_l. apply Hv.
  - apply contains_app_r, contains_app_r. apply (IH Hin).
Qed.

Lemma reports_contains stack v t : reports v t -> forall at_, contains (ToString stack at_ v) t.
Proof.
  induction 1 as [s|t|t|t|t|c m x p|c m l p v t Hin H IH]; intros at_; try apply contains_refl;
    match goal with |- contains (ToString _ _ (AMisc ?e)) _ => change (ToString stack at_ (AMisc e)) with (ErrorText stack at_ e) end; rewrite error_text_eq.
  - apply contains_app_r, contains_app_r, contains_app_l, contains_refl.
  - apply contains_app_r, contains_app_r, contains_app_r, contains_app_l, contains_app_r. eapply params_contains; [exact Hin|]. intros n. apply IH.
Qed.

(** C103: the text of an error contains everything it has to report, however deeply errors are nested in the
    parameters of errors, whatever the stack traces look like. *)
Lemma C103_nothing_hidden_pf : forall stack v t, reports v t -> contains (ToString stack [] v) t.
Proof. intros stack v t H. apply reports_contains. exact H. Qed.

(** C103: PanicSysErrNonNil and PanicBizErrNonNil return normally exactly when the error is nil; otherwise
    they panic with an error of code 201 whose text starts with the code and the message and contains
    what the parameters and the error have to report.  PanicSysErr and PanicBizErr always panic so. *)
Definition good_panic (o : outcome) (msg : bytes) (params : list any) : Prop :=
  exists e, o = Panicked e /\ forall stack,
    (exists rest, ErrorText stack [] e = B "201: " ++ msg ++ rest) /\
    (forall v t, In v params -> reports v t -> contains (ErrorText stack [] e) t).
Lemma new_error_good msg ps b : good_panic (Panicked (NewError GenericErr msg b ps)) msg ps.
Proof.
  eexists. split; [reflexivity|]. intros stack. split.
  - unfold NewError. rewrite error_text_eq. change (itoa GenericErr) with (B "201"). eexists. change (B "201: ") with (B "201" ++ B ": "). rewrite <- !app_assoc. reflexivity.
  - intros v t Hin Hr. apply (reports_contains stack (AMisc (NewError GenericErr msg b ps)) t). unfold NewError. destruct ps; [destruct Hin|]. eapply rp_param; eassumption.
Qed.
Lemma C103_panics_iff_error_pf : forall msg params,
  (PanicSysErrNonNil None msg params = Returned /\ PanicBizErrNonNil None msg params = Returned) /\
  (forall err, good_panic (PanicSysErrNonNil (Some err) msg params) msg (params ++ [err]) /\
               good_panic (PanicBizErrNonNil (Some err) msg params) msg (params ++ [err])) /\
  good_panic (PanicSysErr msg params) msg params /\ good_panic (PanicBizErrWith msg params) msg params.
Proof. intros msg ps. repeat split; intros; apply new_error_good. Qed.

(** C103: the code and the message come first, so errors with different codes never have the same text. *)
Lemma utoa_no c n : is_digit c = false -> ~ In c (utoa n).
Proof. intros Hc H. pose proof (utoa_digits n) as F. rewrite Forall_forall in F. specialize (F _ H). congruence. Qed.
Lemma itoa_no_colon z : ~ In ":"%char (itoa z).
Proof. unfold itoa. destruct (z <? 0)%Z; [intros [H|H]; [discriminate H|]|intros H]; revert H; apply utoa_no; reflexivity. Qed.
Lemma utoa_inj a b : utoa a = utoa b -> a = b.
Proof. intros E. apply (f_equal (udigits 0)) in E. rewrite !utoa_value in E. congruence. Qed.
Lemma itoa_inj a b : itoa a = itoa b -> a = b.
Proof.
  unfold itoa. destruct (Z.ltb_spec a 0) as [Ha|Ha], (Z.ltb_spec b 0) as [Hb|Hb]; intros E.
  - injection E as E. apply utoa_inj in E. lia.
  - exfalso. apply (utoa_no "-" (Z.to_N b) eq_refl). rewrite <- E. left. reflexivity.
  - exfalso. apply (utoa_no "-" (Z.to_N a) eq_refl). rewrite E. left. reflexivity.
  - apply utoa_inj in E. lia.
Qed.
Lemma split_colon (a b x y : bytes) : ~ In ":"%char a -> ~ In ":"%char b -> a ++ ":"%char :: x = b ++ ":"%char :: y -> a = b.
Proof.
  revert b. induction a as [|c a IH]; intros [|d b] Ha Hb E; cbn in E.
  - reflexivity.
  - injection E as <- _. elim Hb. left. reflexivity.
  - injection E as -> _. elim Ha. left. reflexivity.
  - injection E as <- E. f_equal. apply IH with (2 := fun H => Hb (or_intror H)); [intros H; apply Ha; right; exact H|exact E].
Qed.
Lemma C103_code_first_pf : forall stack stack' e e', ErrorText stack [] e = ErrorText stack' [] e' -> m_code e = m_code e'.
Proof.
  intros stack stack' [c m x p] [c' m' x' p'] E. rewrite !error_text_eq in E. cbn [m_code].
  apply itoa_inj. eapply split_colon; [apply itoa_no_colon|apply itoa_no_colon|exact E].
Qed.

(** C103 refuted for "business errors print no stack" (printStack false): the flag has no effect, every
    text ends in a stack trace. *)
Lemma C103_no_stack_refuted_pf : forall stack at_ c m x p,
  ErrorText stack at_ (MError c m x p) = ErrorText stack at_ (MError c m x (negb p)) /\
  exists before, ErrorText stack at_ (MError c m x p) = before ++ crlf ++ B "stacks:" ++ crlf ++ stack at_.
Proof.
  intros stack at_ c m x p. rewrite !error_text_eq. split; [reflexivity|].
  exists (itoa c ++ B ": " ++ m ++ match x with None => [] | Some l => B ", params: " ++ params_text stack at_ 0 l end).
  rewrite <- !app_assoc. reflexivity.
Qed.

(** C103 refuted for telling parameters apart: the separator is not escaped. *)
Lemma C103_params_ambiguous_refuted_pf : forall stack, exists ps qs, ps <> qs /\ length ps <> length qs /\
  ErrorText stack [] (NewError GenericErr (B "m") true ps) = ErrorText stack [] (NewError GenericErr (B "m") true qs).
Proof. intros stack. exists [AStr (B "a|b")], [AStr (B "a"); AStr (B "b")]. split; [discriminate|]. split; [discriminate|]. reflexivity. Qed.

(** C103: the error replies of the KRPC server carry exactly this text. *)
Lemma C103_wire_text_pf : forall (e : env) code msg b, error_text e code msg = ErrorText (fun _ => e_stack e) [] (NewError code msg b []).
Proof. intros e c m b. reflexivity. Qed.

(** Non-vacuity: an error of another package, wrapped twice. *)
Lemma C103_example_pf : exists e1 e2,
  PanicSysErrNonNil (Some (AErr (B "EOF"))) (B "read torrent file err") [AStr (B "a.torrent")] = Panicked e1 /\
  PanicBizErrNonNil (Some (AMisc e1)) (B "listing failed") [] = Panicked e2 /\
  reports (AMisc e2) (B "EOF") /\ reports (AMisc e2) (B "read torrent file err") /\
  ErrorText (fun _ => B "T") [] e2 = B "201: listing failed, params: 201: read torrent file err, params: a.torrent|EOF|" ++ crlf ++ B "stacks:" ++ crlf ++ B "T|" ++ crlf ++ B "stacks:" ++ crlf ++ B "T".
Proof.
  eexists _, _. split; [reflexivity|]. split; [reflexivity|].
  split; [eapply rp_param; [left; reflexivity|]; eapply rp_param; [right; left; reflexivity|]; constructor|].
  split; [eapply rp_param; [left; reflexivity|]; constructor|]. reflexivity.
Qed.
