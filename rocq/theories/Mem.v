(** Mem.v -- misc/strings.go:27-39: conversions between strings and slices that share memory.

    Strings and slices are headers over blocks of memory, as in Go's runtime: two and three words.  Addresses are
    (block, offset) pairs; the garbage collector and unsafe pointers other than those of strings.go are not modelled. *)
From Verif Require Import Base GoLib.
Local Open Scope list_scope.

(** A block and whether it is writable (string literals are not). *)
Record block := { bk_data : bytes; bk_rw : bool }.
Definition memory := list block.
(** A machine word: a pointer or a number. *)
Inductive word := WPtr (b off : nat) | WNum (n : nat).

(** reflect.StringHeader and reflect.SliceHeader *)
Record gostr := { s_blk : nat; s_off : nat; s_len : nat }.
Record goslice := { l_blk : nat; l_off : nat; l_len : nat; l_cap : nat }.
Definition str_words (s : gostr) : list word := [WPtr (s_blk s) (s_off s); WNum (s_len s)].
Definition slice_words (l : goslice) : list word := [WPtr (l_blk l) (l_off l); WNum (l_len l); WNum (l_cap l)].
Definition str_at (w : list word) : option gostr :=
  match w with WPtr b o :: WNum n :: _ => Some {| s_blk := b; s_off := o; s_len := n |} | _ => None end.
Definition slice_at (w : list word) : option goslice :=
  match w with WPtr b o :: WNum n :: WNum c :: _ => Some {| l_blk := b; l_off := o; l_len := n; l_cap := c |} | _ => None end.

(** misc/strings.go:31-35: x is the string's two words, h its words with the length once more. *)
Definition Str2Bytes (s : gostr) : option goslice :=
  match str_words s with [x0; x1] => slice_at [x0; x1; x1] | _ => None end.
(** misc/strings.go:37-39: the first words of the slice read as a string. *)
Definition Bytes2Str (l : goslice) : option gostr := str_at (slice_words l).

Definition bytes_at (m : memory) (b off len : nat) : bytes :=
  match nth_error m b with Some k => firstn len (skipn off (bk_data k)) | None => [] end.
Definition str_text (m : memory) (s : gostr) : bytes := bytes_at m (s_blk s) (s_off s) (s_len s).
Definition slice_bytes (m : memory) (l : goslice) : bytes := bytes_at m (l_blk l) (l_off l) (l_len l).

(** Storing bytes at an address. *)
Fixpoint store (data : bytes) (i : nat) (bs : bytes) : bytes :=
  match bs with [] => data | c :: t => store (list_set data i c) (S i) t end.

(** What a program can do with strings and slices; the results go to new registers. *)
Inductive op :=
| OLit (bs : bytes)                  (* a string literal *)
| OMake (n cap : nat)                (* make([]byte, n, cap) *)
| OBytes (s cap : nat)               (* []byte(s); the runtime chooses the capacity *)
| OString (l : nat)                  (* string(l) *)
| OSubStr (s i j : nat)              (* s[i:j] *)
| OSlice (l i j : nat)               (* l[i:j] *)
| OStr2Bytes (s : nat)
| OBytes2Str (l : nat)
| OSet (l i : nat) (c : byte)        (* l[i] = c *)
| OAppend (l : nat) (bs : bytes) (grown : nat) (* append(l, bs...); capacity if it has to grow *)
| OHex (s : nat).                    (* Str2Hex *)

Record cfg := { c_mem : memory; c_strs : list gostr; c_slcs : list goslice }.
Definition cfg0 : cfg := {| c_mem := []; c_strs := []; c_slcs := [] |}.
(** [Crash]: a store to read-only memory, which ends the process whatever deferred functions recover. *)
Inductive outcome := Run (c : cfg) | Panics | Crash | NoProgram.

Definition new_str (c : cfg) (data : bytes) (rw : bool) : cfg :=
  {| c_mem := c_mem c ++ [{| bk_data := data; bk_rw := rw |}];
     c_strs := c_strs c ++ [{| s_blk := length (c_mem c); s_off := 0; s_len := length data |}]; c_slcs := c_slcs c |}.
Definition new_slice (c : cfg) (data : bytes) (n : nat) : cfg :=
  {| c_mem := c_mem c ++ [{| bk_data := data; bk_rw := true |}]; c_strs := c_strs c;
     c_slcs := c_slcs c ++ [{| l_blk := length (c_mem c); l_off := 0; l_len := n; l_cap := length data |}] |}.
Definition add_str (c : cfg) (s : gostr) : cfg := {| c_mem := c_mem c; c_strs := c_strs c ++ [s]; c_slcs := c_slcs c |}.
Definition add_slice (c : cfg) (l : goslice) : cfg := {| c_mem := c_mem c; c_strs := c_strs c; c_slcs := c_slcs c ++ [l] |}.
Definition poke (c : cfg) (b i : nat) (bs : bytes) : outcome :=
  match bs with [] => Run c | _ =>
    match nth_error (c_mem c) b with
    | Some k => if bk_rw k then Run {| c_mem := list_set (c_mem c) b {| bk_data := store (bk_data k) i bs; bk_rw := true |}; c_strs := c_strs c; c_slcs := c_slcs c |} else Crash
    | None => Crash
    end
  end.
Definition on {A} (x : option A) (f : A -> outcome) : outcome := match x with Some a => f a | None => NoProgram end.
Definition after (o : outcome) (f : cfg -> outcome) : outcome := match o with Run c => f c | x => x end.
Definition zero_bytes (n : nat) : bytes := repeat (byte_of 0) n.

Definition exec (c : cfg) (o : op) : outcome :=
  match o with
  | OLit bs => Run (new_str c bs false)
  | OMake n cap => if (n <=? cap)%nat then Run (new_slice c (zero_bytes cap) n) else Panics
  | OBytes s cap => on (nth_error (c_strs c) s) (fun s => let t := str_text (c_mem c) s in Run (new_slice c (t ++ zero_bytes (cap - length t)) (length t)))
  | OString l => on (nth_error (c_slcs c) l) (fun l => Run (new_str c (slice_bytes (c_mem c) l) true))
  | OSubStr s i j => on (nth_error (c_strs c) s) (fun s =>
      if ((i <=? j) && (j <=? s_len s))%nat then Run (add_str c {| s_blk := s_blk s; s_off := s_off s + i; s_len := j - i |}) else Panics)
  | OSlice l i j => on (nth_error (c_slcs c) l) (fun l =>
      if ((i <=? j) && (j <=? l_cap l))%nat then Run (add_slice c {| l_blk := l_blk l; l_off := l_off l + i; l_len := j - i; l_cap := l_cap l - i |}) else Panics)
  | OStr2Bytes s => on (nth_error (c_strs c) s) (fun s => on (Str2Bytes s) (fun l => Run (add_slice c l)))
  | OBytes2Str l => on (nth_error (c_slcs c) l) (fun l => on (Bytes2Str l) (fun s => Run (add_str c s)))
  | OSet l i x => on (nth_error (c_slcs c) l) (fun l => if (i <? l_len l)%nat then poke c (l_blk l) (l_off l + i) [x] else Panics)
  | OAppend l bs grown => on (nth_error (c_slcs c) l) (fun l =>
      let n := l_len l + length bs in
      if (n <=? l_cap l)%nat
      then after (poke c (l_blk l) (l_off l + l_len l) bs) (fun c => Run (add_slice c {| l_blk := l_blk l; l_off := l_off l; l_len := n; l_cap := l_cap l |}))
      else Run (new_slice c (slice_bytes (c_mem c) l ++ bs ++ zero_bytes (grown - n)) n))
  (* misc/strings.go:27-29 *)
  | OHex s => on (nth_error (c_strs c) s) (fun s => on (Str2Bytes s) (fun l => Run (new_str c (hex (slice_bytes (c_mem c) l)) true)))
  end.
Fixpoint exec_all (c : cfg) (os : list op) : outcome :=
  match os with [] => Run c | o :: t => after (exec c o) (fun c => exec_all c t) end.

Example mt1 : exec_all cfg0 [OLit (B "abc"); OBytes 0 0; OBytes2Str 0; OSet 0 1 "X"%char] =
  Run {| c_mem := [{| bk_data := B "abc"; bk_rw := false |}; {| bk_data := B "aXc"; bk_rw := true |}];
         c_strs := [{| s_blk := 0; s_off := 0; s_len := 3 |}; {| s_blk := 1; s_off := 0; s_len := 3 |}];
         c_slcs := [{| l_blk := 1; l_off := 0; l_len := 3; l_cap := 3 |}] |}.
Proof. reflexivity. Qed.
