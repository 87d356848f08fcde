(** Errors.v -- model of misc/errors.go and misc/strings.go:10-25 (ToString). *)
From Verif Require Import Base GoLib Types.
Local Open Scope list_scope.

(** A value passed as [interface{}], seen through what ToString can ask of it: a string; an error of another
    package, by the text its Error method gives; a fmt.Stringer, by its text; anything else, by the bytes
    json.Marshal gives or the text of the error it gives; or a misc.Error.  A nil *misc.Error stored in an
    interface is not modelled (its Error method panics). *)
Inductive any :=
| AStr (s : bytes)
| AErr (text : bytes)
| AStringer (text : bytes)
| AJson (r : bytes)
| AJsonErr (text : bytes)
| AMisc (e : merror)
(** misc/errors.go:18-23; [None] is the nil context. *)
with merror := MError (code : Z) (msg : bytes) (context : option (list any)) (printStack : bool).

Definition m_code (e : merror) : Z := let 'MError c _ _ _ := e in c.
Definition m_msg (e : merror) : bytes := let 'MError _ m _ _ := e in m.
Definition m_context (e : merror) : option (list any) := let 'MError _ _ x _ := e in x.
Definition m_print (e : merror) : bool := let 'MError _ _ _ p := e in p.

(** misc/errors.go:37-44; the variadic parameters arrive as a slice that is nil when there are none. *)
Definition NewError (code : Z) (msg : bytes) (printStack : bool) (params : list any) : merror :=
  MError code msg (match params with [] => None | _ => Some params end) printStack.

Definition crlf : bytes := [byte_of 13; byte_of 10].

Section Text.
  (** The text of debug.Stack() at a call of Error, given by the positions of the parameters it is nested in. *)
  Variable stack : list nat -> bytes.

  (** misc/strings.go:10-25 *)
  Fixpoint ToString (at_ : list nat) (v : any) : bytes :=
    match v with
    | AStr s => s
    | AErr t => t
    | AStringer t => t
    | AJson r => r
    | AJsonErr t => t
    | AMisc e => ErrorText at_ e
    end
  (** misc/errors.go:25-35 *)
  with ErrorText (at_ : list nat) (e : merror) : bytes :=
    match e with
    | MError code msg ctx _ =>
        itoa code ++ B ": " ++ msg ++
        (match ctx with
         | None => []
         | Some l => B ", params: " ++
             (fix go (n : nat) (l : list any) : bytes :=
                match l with [] => [] | v :: t => ToString (n :: at_) v ++ B "|" ++ go (S n) t end) 0 l
         end) ++
        crlf ++ B "stacks:" ++ crlf ++ stack at_
    end.
End Text.

(** Outcome of a call that panics with a *misc.Error or returns. *)
Inductive outcome := Returned | Panicked (e : merror).

(** misc/errors.go:46-48 *)
Definition PanicSysErr (msg : bytes) (params : list any) : outcome := Panicked (NewError GenericErr msg true params).
(** misc/errors.go:50-55; [None] is the nil error. *)
Definition PanicSysErrNonNil (err : option any) (msg : bytes) (params : list any) : outcome :=
  match err with None => Returned | Some e => Panicked (NewError GenericErr msg true (params ++ [e])) end.
(** misc/errors.go:57-62 *)
Definition PanicBizErrNonNil (err : option any) (msg : bytes) (params : list any) : outcome :=
  match err with None => Returned | Some e => Panicked (NewError GenericErr msg false (params ++ [e])) end.
(** misc/errors.go:64-66 (PanicBizErr; Types.PanicBizErr is the case without parameters). *)
Definition PanicBizErrWith (msg : bytes) (params : list any) : outcome := Panicked (NewError GenericErr msg false params).
