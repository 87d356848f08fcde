(** BencodeSpec.v -- what bencode is, independently of the implementation.

    Nothing here mentions the encoder or the decoder of Bencode.v; only the type
    [val] of Go values is shared. *)
From Verif Require Import Base Bencode.
Local Open Scope list_scope.

(** ** Decimal notation *)

(** The digit character c stands for d. *)
Definition digit_is (c : byte) (d : N) : Prop := N_of_ascii c = (48 + d)%N /\ (d < 10)%N.

(** [digits ds n]: ds is a sequence of decimal digits with positional value n. *)
Inductive digits : bytes -> N -> Prop :=
| digits_nil : digits [] 0
| digits_snoc ds n c d : digits ds n -> digit_is c d -> digits (ds ++ [c]) (10 * n + d)%N.

(** A natural number in canonical decimal notation: no leading zero. *)
Definition decimal_nat (ds : bytes) (n : N) : Prop :=
  digits ds n /\ ds <> [] /\ (forall t, ds = "0"%char :: t -> t = []).

(** An integer in canonical decimal notation: no leading zero, no "-0". *)
Definition decimal (s : bytes) (z : Z) : Prop :=
  (exists n, decimal_nat s n /\ z = Z.of_N n) \/
  (exists ds n, s = "-"%char :: ds /\ decimal_nat ds n /\ (0 < n)%N /\ z = (- Z.of_N n)%Z).

(** ** BEP-3 bencoding (dictionary keys distinct; their order is left open) *)
Inductive bencoding : val -> bytes -> Prop :=
| be_int z ds : decimal ds z -> is_int z -> bencoding (VInt z) ("i"%char :: ds ++ ["e"%char])
| be_str s ds : decimal_nat ds (N.of_nat (length s)) -> bencoding (VStr s) (ds ++ ":"%char :: s)
| be_list l s : bencoding_items l s -> bencoding (VList l) ("l"%char :: s ++ ["e"%char])
| be_dict d s : bencoding_entries d s -> NoDup (map fst d) -> bencoding (VDict d) ("d"%char :: s ++ ["e"%char])
with bencoding_items : list val -> bytes -> Prop :=
| bi_nil : bencoding_items [] []
| bi_cons v l s t : bencoding v s -> bencoding_items l t -> bencoding_items (v :: l) (s ++ t)
with bencoding_entries : list (bytes * val) -> bytes -> Prop :=
| bd_nil : bencoding_entries [] []
| bd_cons k v d sk s t : bencoding (VStr k) sk -> bencoding v s -> bencoding_entries d t ->
    bencoding_entries ((k, v) :: d) (sk ++ s ++ t).

(** Additional BEP-3 requirement: keys sorted as raw strings. *)
Fixpoint bytes_lt (a b : bytes) : Prop :=
  match a, b with
  | [], _ :: _ => True
  | x :: a', y :: b' => (N_of_ascii x < N_of_ascii y)%N \/ (x = y /\ bytes_lt a' b')
  | _, _ => False
  end.
Fixpoint sorted_keys (d : list (bytes * val)) : Prop :=
  match d with
  | (k1, _) :: (((k2, _) :: _) as t) => bytes_lt k1 k2 /\ sorted_keys t
  | _ => True
  end.

(** ** The values a bencoder can represent *)
Inductive plain : val -> Prop :=
| plain_int z : plain (VInt z)
| plain_str s : plain (VStr s)
| plain_list l : (forall v, In v l -> plain v) -> plain (VList l)
| plain_dict d : (forall k v, In (k, v) d -> plain v) -> plain (VDict d).

(** Go invariants of such values: ints are 64 bit, map keys are distinct. *)
Inductive go_value : val -> Prop :=
| gv_int z : is_int z -> go_value (VInt z)
| gv_str s : go_value (VStr s)
| gv_list l : (forall v, In v l -> go_value v) -> go_value (VList l)
| gv_dict d : NoDup (map fst d) -> (forall k v, In (k, v) d -> go_value v) -> go_value (VDict d)
| gv_nil_list : go_value VNilList
| gv_nil_dict : go_value VNilDict
| gv_nil : go_value VNil
| gv_other k : go_value (VOther k).

(** ** Equality of Go values (reflect.DeepEqual): dictionaries are unordered *)
Inductive veq : val -> val -> Prop :=
| veq_int z : veq (VInt z) (VInt z)
| veq_str s : veq (VStr s) (VStr s)
| veq_list l l' : Forall2 veq l l' -> veq (VList l) (VList l')
| veq_dict d d' : deq d d' -> veq (VDict d) (VDict d')
| veq_nil_list : veq VNilList VNilList
| veq_nil_dict : veq VNilDict VNilDict
| veq_nil : veq VNil VNil
| veq_other k : veq (VOther k) (VOther k)
with deq : list (bytes * val) -> list (bytes * val) -> Prop :=
| deq_intro d d' d'' :
    Permutation d d'' ->
    Forall2 (fun e e' => fst e = fst e' /\ veq (snd e) (snd e')) d'' d' ->
    deq d d'.

(** ** The dialect the decoder accepts *)

(** Integer bodies: canonical decimals, or '+' and any digits. *)
Definition lenient_int (body : bytes) (z : Z) : Prop :=
  is_int z /\
  (decimal body z \/ exists ds n, body = "+"%char :: ds /\ ds <> [] /\ digits ds n /\ z = Z.of_N n).

(** The dictionary denoted by a sequence of pairs: the last value of a key wins. *)
Definition last_value (ps : list (bytes * val)) (k : bytes) : option val :=
  fold_left (fun acc p => if bytes_eq_dec (fst p) k then Some (snd p) else acc) ps None.
Definition denotes (ps d : list (bytes * val)) : Prop :=
  NoDup (map fst d) /\ forall k v, In (k, v) d <-> last_value ps k = Some v.

(** [item inp v rest u]: at the front of [inp] stands an item for [v], followed by
    [rest]; [u] containers were still open when the input ended (then rest = []). *)
Inductive item : bytes -> val -> bytes -> nat -> Prop :=
| it_int body rest z : lenient_int body z ->
    item ("i"%char :: body ++ "e"%char :: rest) (VInt z) rest 0
| it_str ds s rest : digits ds (N.of_nat (length s)) -> ds <> [] -> rest <> [] ->
    item (ds ++ ":"%char :: s ++ rest) (VStr s) rest 0
| it_list inp l rest u : items inp l rest u -> item ("l"%char :: inp) (VList l) rest u
| it_dict inp ps d rest u : pairs inp ps rest u -> denotes ps d -> item ("d"%char :: inp) (VDict d) rest u
with items : bytes -> list val -> bytes -> nat -> Prop :=
| its_close rest : items ("e"%char :: rest) [] rest 0
| its_open : items [] [] [] 1
| its_cons inp v mid u l rest u' : item inp v mid u -> items mid l rest u' -> items inp (v :: l) rest (u + u')
with pairs : bytes -> list (bytes * val) -> bytes -> nat -> Prop :=
| ps_close rest : pairs ("e"%char :: rest) [] rest 0
| ps_open : pairs [] [] [] 1
| ps_cons inp k mid v mid' u ps rest u' :
    item inp (VStr k) mid 0 -> item mid v mid' u -> pairs mid' ps rest u' ->
    pairs inp ((k, v) :: ps) rest (u + u').

(** ** Hostile inputs *)

(** Every Go string satisfies this: len is an int. *)
Definition fits (src : bytes) : Prop := (Z.of_nat (length src) <= max_int)%Z.

(** A decimal string length that fits an int but makes position + length + 1
    overflow the 64-bit int. *)
Definition length_overflow (src : bytes) : Prop :=
  exists pre ds n t, src = pre ++ ds ++ ":"%char :: t /\ digits ds n /\ (Z.of_N n <= max_int)%Z /\
    (max_int < Z.of_nat (length pre + length ds) + Z.of_N n + 1)%Z.

(** An integer whose terminating 'e' is missing: everything after an 'i' is free of 'e'. *)
Definition truncated_integer (src : bytes) : Prop :=
  exists pre l, src = pre ++ "i"%char :: l /\ ~ In "e"%char l.

Definition ends_with_e (src : bytes) : Prop := exists a, src = a ++ ["e"%char].

(** [occurs x v]: the value [x] occurs in [v] (as [v] itself, or inside a container). *)
Inductive occurs (x : val) : val -> Prop :=
| occ_here : occurs x x
| occ_list l v : In v l -> occurs x v -> occurs x (VList l)
| occ_dict d k v : In (k, v) d -> occurs x v -> occurs x (VDict d).

(** Values on which encoding panics / is refused with an error. *)
Definition panicking_leaf (x : val) : Prop :=
  x = VNil \/ x = VOther KNamedInt \/ x = VOther KNamedString.
Definition refused_leaf (x : val) : Prop :=
  x = VNilList \/ x = VNilDict \/ x = VOther KOtherSlice \/ x = VOther KOtherMap \/ x = VOther KOtherKind.
