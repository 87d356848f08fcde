(** BucketConc.v -- dht/routetable.go:13-84, one Bucket used by any number of goroutines.

    RouteTable.v treats a bucket as a list because the table's own lock serialises every use.  A Bucket
    has a lock of its own; here its methods run concurrently, every access to [nodes] or [size] and
    every lock operation being a step.  The RWMutex is modelled by the set of readers and the
    writer (each identified by the number of its call); the preference for waiting writers is left
    out, which only allows more schedules.  A nil argument is not modelled; the handler of Iterator
    is represented by the list of its arguments. *)
From Verif Require Import Base GoLib Bencode Types Node RouteTable.
Local Open Scope list_scope.

(** The calls. *)
Inductive bop := OAdd (n : ninfo) | OExist (n : ninfo) | OIter | OAll | OSize | OFull.
(** What they return: [RView k] is the slice nodes[:k], which shares the bucket's array;
    [RCalls] the arguments of the handler. *)
Inductive bres := RBool (b : bool) | RNat (k : nat) | RView (k : nat) | RCalls (l : list (option ninfo)).

Inductive bpc :=
| B0                                        (* called *)
| BFull                                     (* Add: holds the read lock in b.Full(), :74-76 *)
| BFullDone (full : bool)                   (* Add: b.Full() has its result, :48 *)
| BLock                                     (* Add: at b.Lock(), :52 *)
| BCheck                                    (* Add: holds the lock, :53 *)
| BStore                                    (* Add: :56 *)
| BInc                                      (* Add: :57 *)
| BUnlock (r : bool)                        (* Add: the deferred Unlock *)
| BRead (i : nat) (seen : list (option ninfo))  (* a reading method: holds the read lock, loop counter, handler calls *)
| BRUnlock (r : bres)                       (* the deferred RUnlock *)
| BPanic                                    (* index out of range or nil pointer *)
| BDone (upto : nat) (r : bres).            (* returned; ghost: accepted nodes so far *)

(** ghost: [c_from] is the number of nodes accepted when the call was made *)
Record bcall := { c_op : bop; c_from : nat; c_pc : bpc }.

(** The bucket: the array, size, the holders of the lock; ghost: the accepted nodes with the number of the call. *)
Record bstate := { b_slots : list (option ninfo); b_size : nat; b_cap : nat; b_readers : list nat; b_writer : option nat;
                   b_acc : list (nat * ninfo); b_calls : list bcall }.

(** dht/routetable.go:20-26 *)
Definition bnew (c : nat) : bstate :=
  {| b_slots := repeat None c; b_size := 0; b_cap := c; b_readers := []; b_writer := None; b_acc := []; b_calls := [] |}.

(** What an iteration of a reading method does. *)
Inductive bnext := NRes (r : bres) | NLoop (i : nat) (seen : list (option ninfo)).

Section Steps.
  Variable uf : N -> N -> bool.

  (** One step of the body of a reading method: its result, or the next loop iteration; None panics.
      dht/routetable.go:31-36, :42-44, :64, :70, :80 *)
  Definition bread (s : bstate) (op : bop) (i : nat) (seen : list (option ninfo)) : option bnext :=
    match op with
    | OExist n =>
        if i <? b_size s then
          match nth_error (b_slots s) i with
          | Some (Some x) => if Equals uf x n then Some (NRes (RBool true)) else Some (NLoop (S i) seen)
          | _ => None
          end
        else Some (NRes (RBool false))
    | OIter =>
        match nth_error (b_slots s) i with
        | Some v => Some (NLoop (S i) (seen ++ [v]))
        | None => Some (NRes (RCalls seen))
        end
    | OAll => Some (NRes (RView (b_size s)))
    | OSize => Some (NRes (RNat (b_size s)))
    | OFull => Some (NRes (RBool (b_cap s <=? b_size s)))
    | OAdd _ => None
    end.
  Definition is_add (op : bop) : bool := match op with OAdd _ => true | _ => false end.

  Definition bset (l : list (option ninfo)) (i : nat) (v : option ninfo) : list (option ninfo) := firstn i l ++ v :: skipn (S i) l.

  (** The state after call [i] moved to [pc]. *)
  Definition goto (s : bstate) (l1 : list bcall) (c : bcall) (l2 : list bcall) (pc : bpc) : bstate :=
    {| b_slots := b_slots s; b_size := b_size s; b_cap := b_cap s; b_readers := b_readers s; b_writer := b_writer s; b_acc := b_acc s;
       b_calls := l1 ++ {| c_op := c_op c; c_from := c_from c; c_pc := pc |} :: l2 |}.
  Definition with_lock (s : bstate) (r : list nat) (w : option nat) : bstate :=
    {| b_slots := b_slots s; b_size := b_size s; b_cap := b_cap s; b_readers := r; b_writer := w; b_acc := b_acc s; b_calls := b_calls s |}.

  Inductive bstep (s : bstate) : bstate -> Prop :=
  | bs_call op : bstep s
      {| b_slots := b_slots s; b_size := b_size s; b_cap := b_cap s; b_readers := b_readers s; b_writer := b_writer s; b_acc := b_acc s;
         b_calls := b_calls s ++ [{| c_op := op; c_from := length (b_acc s); c_pc := B0 |}] |}
  (** RLock *)
  | bs_rlock l1 c l2 : b_calls s = l1 ++ c :: l2 -> c_pc c = B0 -> b_writer s = None ->
      bstep s (goto (with_lock s (length l1 :: b_readers s) None) l1 c l2 (if is_add (c_op c) then BFull else BRead 0 []))
  | bs_read l1 c l2 i seen r : b_calls s = l1 ++ c :: l2 -> c_pc c = BRead i seen -> bread s (c_op c) i seen = Some (NRes r) ->
      bstep s (goto s l1 c l2 (BRUnlock r))
  | bs_loop l1 c l2 i seen i' seen' : b_calls s = l1 ++ c :: l2 -> c_pc c = BRead i seen -> bread s (c_op c) i seen = Some (NLoop i' seen') ->
      bstep s (goto s l1 c l2 (BRead i' seen'))
  | bs_read_panic l1 c l2 i seen : b_calls s = l1 ++ c :: l2 -> c_pc c = BRead i seen -> bread s (c_op c) i seen = None ->
      bstep s (goto s l1 c l2 BPanic)
  | bs_runlock l1 c l2 r : b_calls s = l1 ++ c :: l2 -> c_pc c = BRUnlock r ->
      bstep s (goto (with_lock s (remove Nat.eq_dec (length l1) (b_readers s)) (b_writer s)) l1 c l2 (BDone (length (b_acc s)) r))
  (** Add: :74-76, :48-50 *)
  | bs_full l1 c l2 : b_calls s = l1 ++ c :: l2 -> c_pc c = BFull ->
      bstep s (goto (with_lock s (remove Nat.eq_dec (length l1) (b_readers s)) (b_writer s)) l1 c l2 (BFullDone (b_cap s <=? b_size s)))
  | bs_full_done l1 c l2 f : b_calls s = l1 ++ c :: l2 -> c_pc c = BFullDone f ->
      bstep s (goto s l1 c l2 (if f then BDone (length (b_acc s)) (RBool false) else BLock))
  (** Lock *)
  | bs_lock l1 c l2 : b_calls s = l1 ++ c :: l2 -> c_pc c = BLock -> b_writer s = None -> b_readers s = [] ->
      bstep s (goto (with_lock s [] (Some (length l1))) l1 c l2 BCheck)
  (** :53-55 *)
  | bs_check l1 c l2 : b_calls s = l1 ++ c :: l2 -> c_pc c = BCheck ->
      bstep s (goto s l1 c l2 (if b_cap s <=? b_size s then BUnlock false else BStore))
  (** :56 *)
  | bs_store l1 c l2 n : b_calls s = l1 ++ c :: l2 -> c_pc c = BStore -> c_op c = OAdd n -> b_size s < length (b_slots s) ->
      bstep s (goto {| b_slots := bset (b_slots s) (b_size s) (Some n); b_size := b_size s; b_cap := b_cap s; b_readers := b_readers s;
                       b_writer := b_writer s; b_acc := b_acc s; b_calls := b_calls s |} l1 c l2 BInc)
  | bs_store_panic l1 c l2 : b_calls s = l1 ++ c :: l2 -> c_pc c = BStore -> length (b_slots s) <= b_size s ->
      bstep s (goto s l1 c l2 BPanic)
  (** :57 *)
  | bs_inc l1 c l2 n : b_calls s = l1 ++ c :: l2 -> c_pc c = BInc -> c_op c = OAdd n ->
      bstep s (goto {| b_slots := b_slots s; b_size := S (b_size s); b_cap := b_cap s; b_readers := b_readers s;
                       b_writer := b_writer s; b_acc := b_acc s ++ [(length l1, n)]; b_calls := b_calls s |} l1 c l2 (BUnlock true))
  | bs_unlock l1 c l2 r : b_calls s = l1 ++ c :: l2 -> c_pc c = BUnlock r ->
      bstep s (goto (with_lock s (b_readers s) None) l1 c l2 (BDone (length (b_acc s)) (RBool r))).

  Inductive breach (c : nat) : bstate -> Prop :=
  | br_new : breach c (bnew c)
  | br_step s s' : breach c s -> bstep s s' -> breach c s'.
  Inductive bsteps : bstate -> bstate -> Prop :=
  | bss_refl s : bsteps s s
  | bss_step s s' s'' : bsteps s s' -> bstep s' s'' -> bsteps s s''.
End Steps.
