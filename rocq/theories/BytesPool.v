(** BytesPool.v -- model of misc/bytespool.go with buffer identities.

    Every method performs one sync.Map access that returns the canonical channel of a
    width and one non-blocking channel operation; the channel operation is its
    linearisation point, so each call is one atomic step of the model. *)
From Verif Require Import Base.
Local Open Scope list_scope.
Local Open Scope Z_scope.

(** A Go slice header: backing array, offset, length, capacity. *)
Record slc := { s_arr : nat; s_off : Z; s_len : Z; s_cap : Z }.

(** The heap: contents of every backing array allocated so far ([next] arrays). *)
Record heap := { h_next : nat; h_data : nat -> bytes }.
Definition h_alloc (h : heap) (n : Z) : heap * slc :=
  ({| h_next := S (h_next h); h_data := fun a => if Nat.eqb a (h_next h) then repeat (byte_of 0) (Z.to_nat n) else h_data h a |},
   {| s_arr := h_next h; s_off := 0; s_len := n; s_cap := n |}).
Definition h_set (h : heap) (a : nat) (d : bytes) : heap :=
  {| h_next := h_next h; h_data := fun a' => if Nat.eqb a' a then d else h_data h a' |}.
(** The bytes a slice shows. *)
Definition h_read (h : heap) (s : slc) : bytes :=
  firstn (Z.to_nat (s_len s)) (skipn (Z.to_nat (s_off s)) (h_data h (s_arr s))).

(** misc/bytespool.go:7-12: channels by width (an absent channel is created empty on first
    use, so absent and empty need not be told apart). *)
Record pool := { p_chans : list (Z * list slc); p_width : Z; p_max : nat }.

(** misc/bytespool.go:63-71 loadOrStore: contents of the channel of width [i]. *)
Fixpoint chan_of (c : list (Z * list slc)) (i : Z) : list slc :=
  match c with
  | [] => []
  | (w, l) :: t => if w =? i then l else chan_of t i
  end.
Fixpoint chan_upd (c : list (Z * list slc)) (i : Z) (f : list slc -> list slc) : list (Z * list slc) :=
  match c with
  | [] => [(i, f [])]
  | (w, l) :: t => if w =? i then (w, f l) :: t else (w, l) :: chan_upd t i f
  end.

(** misc/bytespool.go:16-24; a negative maxSize makes make(chan) panic. *)
Definition NewBytesPool (maxSize width : Z) : res pool :=
  if maxSize <? 0 then Panic PRuntime
  else Ok {| p_chans := [(width, [])]; p_width := width; p_max := Z.to_nat maxSize |}.

(** misc/bytespool.go:39-48; make([]byte, size) panics for a negative size.  (The runtime's
    out-of-memory failure for huge sizes is not modelled.) *)
Definition GetBySize (p : pool) (h : heap) (size : Z) : res (pool * heap * slc) :=
  match chan_of (p_chans p) size with
  | b :: _ => Ok ({| p_chans := chan_upd (p_chans p) size (@tl slc); p_width := p_width p; p_max := p_max p |}, h, b)
  | [] => if size <? 0 then Panic PRuntime else
          let (h', b) := h_alloc h size in Ok (p, h', b)
  end.

(** misc/bytespool.go:28-37 *)
Definition Get (p : pool) (h : heap) : res (pool * heap * slc) := GetBySize p h (p_width p).

(** b[:cap(b)] *)
Definition full_slice (b : slc) : slc := {| s_arr := s_arr b; s_off := s_off b; s_len := s_cap b; s_cap := s_cap b |}.

(** misc/bytespool.go:52-61 *)
Definition Put (p : pool) (b : slc) : pool :=
  if Nat.ltb (length (chan_of (p_chans p) (s_cap b))) (p_max p)
  then {| p_chans := chan_upd (p_chans p) (s_cap b) (fun l => l ++ [full_slice b]); p_width := p_width p; p_max := p_max p |}
  else p.
