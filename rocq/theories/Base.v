(** Base.v -- bytes, Go results, small list helpers shared by the whole model.

    Nothing in this file models repository code by itself; it fixes how Go
    values are represented:
      - a Go [byte] is an [ascii] (8 bits), a Go [string]/[[]byte] value is [list ascii];
      - a Go call returns [Ok], returns a non-nil [error] ([Err]) or panics ([Panic]);
      - [PFuel] is not a Go panic: it marks that a fuelled model function ran out of
        fuel, and theorems exclude it. *)
From Coq Require Export String.
From Coq Require Export List Arith NArith ZArith Lia Bool Ascii Permutation.
From Coq Require Export ZifyBool ZifyNat ZifyN.
Export ListNotations.
Local Open Scope list_scope.

Notation byte := ascii.
Notation bytes := (list ascii).

(** String literals as byte strings: [B "ping"]. *)
Definition B (s : string) : bytes := list_ascii_of_string s.

(** Numeric value of a byte, and the byte of a number (mod 256). *)
Definition bval (b : byte) : N := N_of_ascii b.
Definition byte_of (n : N) : byte := ascii_of_N (n mod 256).

(** Boolean equality of byte strings (Go [==] on strings, bytes.Equal). *)
Fixpoint beq (a b : bytes) : bool :=
  match a, b with
  | [], [] => true
  | x :: a', y :: b' => Ascii.eqb x y && beq a' b'
  | _, _ => false
  end.

(** Go errors that the modelled code distinguishes. *)
Inductive goerr :=
| EWrongParam            (* misc.WrongDecodeParamErr *)
| ENum                   (* *strconv.NumError *)
| ENew (msg : bytes)     (* errors.New(msg) *)
| EIO.                   (* error of an external call: socket, file, timeout *)

(** Go panics that the modelled code distinguishes. *)
Inductive gopanic :=
| PBiz (code : Z) (msg : bytes)  (* panic( *misc.Error{code,msg} ) *)
| PRuntime                       (* runtime.Error: index/slice bounds, nil dereference, failed type assertion, bad make *)
| PStr (msg : bytes)             (* panic(string): Logger.Panic, RegisteHandler, AsyncSubmit *)
| PFuel.                         (* model artefact: out of fuel *)

Inductive res (A : Type) :=
| Ok (a : A)
| Err (e : goerr)
| Panic (p : gopanic).
Arguments Ok {A} a. Arguments Err {A} e. Arguments Panic {A} p.

Definition bind {A C} (r : res A) (f : A -> res C) : res C :=
  match r with Ok a => f a | Err e => Err e | Panic p => Panic p end.
Notation "'do' x <- r ; k" := (bind r (fun x => k)) (at level 200, x pattern, r at level 100, k at level 200, right associativity).

(** A result that a Go program can really produce (no model artefact). *)
Definition no_fuel {A} (r : res A) : Prop := r <> Panic PFuel.
(** A call that returns to its caller, with or without error. *)
Definition returns {A} (r : res A) : Prop := forall p, r <> Panic p.

(** Go's [int] is 64 bits wide in this model (GOARCH amd64/arm64). *)
Definition min_int : Z := (- 2 ^ 63)%Z.
Definition max_int : Z := (2 ^ 63 - 1)%Z.
Definition is_int (z : Z) : Prop := (min_int <= z <= max_int)%Z.
Definition is_intb (z : Z) : bool := ((min_int <=? z) && (z <=? max_int))%Z.
(** Two's complement wrap-around of int arithmetic. *)
Definition wrap (z : Z) : Z := ((z + 2 ^ 63) mod 2 ^ 64 - 2 ^ 63)%Z.

(** [src[i]] on a string or slice: runtime panic when out of range. *)
Definition idx {A} (src : list A) (i : nat) : res A :=
  match nth_error src i with Some c => Ok c | None => Panic PRuntime end.

(** [s[i:j]] on a string with 0 <= i <= j <= len already checked. *)
Definition slice {A} (src : list A) (i j : nat) : list A := firstn (j - i) (skipn i src).

(** Replace position [i]; identity when out of range (callers check the range first). *)
Fixpoint list_set {A} (l : list A) (i : nat) (x : A) : list A :=
  match l, i with
  | [], _ => []
  | _ :: t, O => x :: t
  | h :: t, S i' => h :: list_set t i' x
  end.

(** ** Lemmas *)

Lemma beq_refl a : beq a a = true.
Proof. induction a as [|x a IH]; cbn [beq]; [reflexivity|]. rewrite Ascii.eqb_refl. exact IH. Qed.

Lemma beq_eq a b : beq a b = true <-> a = b.
Proof.
  split; [|intros ->; apply beq_refl].
  revert b; induction a as [|x a IH]; destruct b as [|y b]; cbn [beq]; intros H; try discriminate; [reflexivity|].
  apply andb_true_iff in H as [H1 H2]. apply Ascii.eqb_eq in H1. rewrite H1, (IH b H2). reflexivity.
Qed.

Lemma beq_neq a b : beq a b = false <-> a <> b.
Proof.
  split.
  - intros H E. apply beq_eq in E. congruence.
  - intros H. destruct (beq a b) eqn:E; [|reflexivity]. apply beq_eq in E. contradiction.
Qed.

Lemma beq_sym a b : beq a b = beq b a.
Proof.
  destruct (beq a b) eqn:E.
  - apply beq_eq in E. subst. symmetry. apply beq_refl.
  - symmetry. apply beq_neq. apply beq_neq in E. congruence.
Qed.

Definition bytes_eq_dec (a b : bytes) : {a = b} + {a <> b} := list_eq_dec ascii_dec a b.

Lemma bval_lt b : (bval b < 256)%N.
Proof. unfold bval. apply N_ascii_bounded. Qed.

Lemma byte_of_bval b : byte_of (bval b) = b.
Proof.
  unfold byte_of. rewrite N.mod_small by apply bval_lt. unfold bval. apply ascii_N_embedding.
Qed.

Lemma bval_byte_of n : bval (byte_of n) = (n mod 256)%N.
Proof.
  unfold bval, byte_of. apply N_ascii_embedding. apply N.mod_lt. discriminate.
Qed.

Lemma bval_inj a b : bval a = bval b -> a = b.
Proof. intros H. rewrite <- (byte_of_bval a), <- (byte_of_bval b), H. reflexivity. Qed.

Lemma idx_lt {A} (l : list A) i : i < length l -> exists c, idx l i = Ok c /\ nth_error l i = Some c.
Proof.
  intros H. unfold idx. destruct (nth_error l i) as [c|] eqn:E; [eauto|].
  apply nth_error_None in E. lia.
Qed.

Lemma idx_ge {A} (l : list A) i : length l <= i -> idx l i = Panic PRuntime.
Proof. intros H. unfold idx. apply nth_error_None in H. rewrite H. reflexivity. Qed.

Lemma idx_ok {A} (l : list A) i c : idx l i = Ok c <-> nth_error l i = Some c.
Proof. unfold idx. destruct (nth_error l i); split; congruence. Qed.

Lemma idx_app_r {A} (p l : list A) i : idx (p ++ l) (length p + i) = idx l i.
Proof. unfold idx. rewrite nth_error_app2 by lia. replace (length p + i - length p) with i by lia. reflexivity. Qed.

Lemma skipn_app_len {A} (p l : list A) i : skipn (length p + i) (p ++ l) = skipn i l.
Proof.
  rewrite skipn_app. rewrite skipn_all2 by lia. cbn [app]. f_equal. lia.
Qed.

Lemma slice_app_r {A} (p l : list A) i j : slice (p ++ l) (length p + i) (length p + j) = slice l i j.
Proof. unfold slice. rewrite skipn_app_len. f_equal. lia. Qed.

Lemma wrap_id z : is_int z -> wrap z = z.
Proof.
  unfold is_int, min_int, max_int, wrap. intros H. rewrite Z.mod_small; lia.
Qed.

Lemma is_intb_spec z : is_intb z = true <-> is_int z.
Proof. unfold is_intb, is_int. rewrite andb_true_iff, !Z.leb_le. reflexivity. Qed.

Lemma list_set_length {A} (l : list A) i x : length (list_set l i x) = length l.
Proof. revert i; induction l as [|h t IH]; destruct i as [|i]; cbn [list_set length]; congruence. Qed.

Lemma list_set_nth_eq {A} (l : list A) i x : i < length l -> nth_error (list_set l i x) i = Some x.
Proof.
  revert i; induction l as [|h t IH]; destruct i as [|i]; cbn [list_set length nth_error]; intros H; try lia.
  - reflexivity.
  - apply IH. lia.
Qed.

Lemma list_set_nth_neq {A} (l : list A) i j x : i <> j -> nth_error (list_set l i x) j = nth_error l j.
Proof.
  revert i j; induction l as [|h t IH]; destruct i as [|i]; destruct j as [|j]; cbn [list_set nth_error]; intros H; try congruence; try reflexivity.
  apply IH. congruence.
Qed.

Lemma Permutation_in_iff {A} (l l' : list A) x : Permutation l l' -> (In x l <-> In x l').
Proof. intros H; split; apply Permutation_in; [exact H|symmetry; exact H]. Qed.
