(** P_Errors.v -- property theorems (generated by tools/gen_p.py from ErrorsPf.v).
    Each statement is repeated in full and closed by [exact]. *)
From Verif Require Import Base GoLib Types Krpc Errors.
Local Open Scope list_scope.
From Verif Require Import ErrorsPf.

(** C103: the text of an error contains everything it has to report, however deeply errors are nested in the
    parameters of errors, whatever the stack traces look like. *)
Theorem C103_nothing_hidden : forall stack v t, reports v t -> contains (ToString stack [] v) t.
Proof. exact C103_nothing_hidden_pf. Qed.
Print Assumptions C103_nothing_hidden.

Theorem C103_panics_iff_error : forall msg params,
  (PanicSysErrNonNil None msg params = Returned /\ PanicBizErrNonNil None msg params = Returned) /\
  (forall err, good_panic (PanicSysErrNonNil (Some err) msg params) msg (params ++ [err]) /\
               good_panic (PanicBizErrNonNil (Some err) msg params) msg (params ++ [err])) /\
  good_panic (PanicSysErr msg params) msg params /\ good_panic (PanicBizErrWith msg params) msg params.
Proof. exact C103_panics_iff_error_pf. Qed.
Print Assumptions C103_panics_iff_error.

Theorem C103_code_first : forall stack stack' e e', ErrorText stack [] e = ErrorText stack' [] e' -> m_code e = m_code e'.
Proof. exact C103_code_first_pf. Qed.
Print Assumptions C103_code_first.

(** C103 refuted for "business errors print no stack" (printStack false): the flag has no effect, every
    text ends in a stack trace. *)
Theorem C103_no_stack_refuted : forall stack at_ c m x p,
  ErrorText stack at_ (MError c m x p) = ErrorText stack at_ (MError c m x (negb p)) /\
  exists before, ErrorText stack at_ (MError c m x p) = before ++ crlf ++ B "stacks:" ++ crlf ++ stack at_.
Proof. exact C103_no_stack_refuted_pf. Qed.
Print Assumptions C103_no_stack_refuted.

(** C103 refuted for telling parameters apart: the separator is not escaped. *)
Theorem C103_params_ambiguous_refuted : forall stack, exists ps qs, ps <> qs /\ length ps <> length qs /\
  ErrorText stack [] (NewError GenericErr (B "m") true ps) = ErrorText stack [] (NewError GenericErr (B "m") true qs).
Proof. exact C103_params_ambiguous_refuted_pf. Qed.
Print Assumptions C103_params_ambiguous_refuted.

(** C103: the error replies of the KRPC server carry exactly this text. *)
Theorem C103_wire_text : forall (e : env) code msg b, error_text e code msg = ErrorText (fun _ => e_stack e) [] (NewError code msg b []).
Proof. exact C103_wire_text_pf. Qed.
Print Assumptions C103_wire_text.

(** Non-vacuity: an error of another package, wrapped twice. *)
Theorem C103_example : exists e1 e2,
  PanicSysErrNonNil (Some (AErr (B "EOF"))) (B "read torrent file err") [AStr (B "a.torrent")] = Panicked e1 /\
  PanicBizErrNonNil (Some (AMisc e1)) (B "listing failed") [] = Panicked e2 /\
  reports (AMisc e2) (B "EOF") /\ reports (AMisc e2) (B "read torrent file err") /\
  ErrorText (fun _ => B "T") [] e2 = B "201: listing failed, params: 201: read torrent file err, params: a.torrent|EOF|" ++ crlf ++ B "stacks:" ++ crlf ++ B "T|" ++ crlf ++ B "stacks:" ++ crlf ++ B "T".
Proof. exact C103_example_pf. Qed.
Print Assumptions C103_example.
