(** Bencode.v -- model of misc/beancode.go.

    A Go [interface{}] that can occur inside a [Dict] or [List] is a [val].
    A Go map is an association list; the order of the list is the order in which
    [range] visits it (Go leaves that order unspecified, so theorems quantify over
    all orders, see [veq] in BencodeSpec.v).  Integers are 64-bit (see [is_int]).
    Not modelled: the Go stack limit, the cost of string concatenation. *)
From Verif Require Import Base GoLib.
Local Open Scope list_scope.

(** Dynamic types other than int, string, List, Dict that reflect.Kind separates
    (misc/beancode.go:131-150). *)
Inductive okind :=
| KNamedInt      (* named type of kind Int: item.( int ) panics, :133 *)
| KNamedString   (* named type of kind String: item.(string) panics, :135 *)
| KOtherSlice    (* slice that is not misc.List, :137-141 *)
| KOtherMap      (* map that is not misc.Dict, :143-147 *)
| KOtherKind.    (* any other kind, :148-149 *)

(** misc/types.go:5 [Dict], :76 [List]; nil slices and nil maps are distinguished. *)
Inductive val :=
| VInt (z : Z)
| VStr (s : bytes)
| VList (l : list val)
| VDict (d : list (bytes * val))
| VNilList
| VNilDict
| VNil                       (* nil interface *)
| VOther (k : okind).

Notation entries := (list (bytes * val)).
(** A value of Go type misc.Dict: [None] is the nil map. *)
Notation gdict := (option (list (bytes * val))).

(** Map update [m[k] = v] (used at misc/beancode.go:294). *)
Fixpoint dset (d : entries) (k : bytes) (v : val) : entries :=
  match d with
  | [] => [(k, v)]
  | (k', v') :: t => if beq k' k then (k', v) :: t else (k', v') :: dset t k v
  end.

(** Map lookup [v, ok := m[k]]. *)
Fixpoint dget (d : entries) (k : bytes) : option val :=
  match d with
  | [] => None
  | (k', v) :: t => if beq k' k then Some v else dget t k
  end.

(** misc/beancode.go:12-14 *)
Definition EncodeInteger (src : Z) : res bytes := Ok (B "i" ++ itoa src ++ B "e").

(** misc/beancode.go:64-66 *)
Definition EncodeString (src : bytes) : res bytes :=
  Ok (itoa (Z.of_nat (length src)) ++ B ":" ++ src).

(** Loop of EncodeSlice, misc/beancode.go:115-122 ([f] is encodeItem). *)
Definition encode_items (f : val -> res bytes) : list val -> res bytes :=
  fix go l := match l with
              | [] => Ok []
              | x :: t => do a <- f x; do b <- go t; Ok (a ++ b)
              end.

(** Loop of EncodeDict, misc/beancode.go:212-225 ([f] is encodeItem). *)
Definition encode_entries (f : val -> res bytes) : entries -> res bytes :=
  fix go d := match d with
              | [] => Ok []
              | (k, v) :: t =>
                  do ktmp <- EncodeString k; do vtmp <- f v; do b <- go t;
                  Ok (ktmp ++ vtmp ++ b)
              end.

(** misc/beancode.go:127-152.  [reflect.TypeOf(nil).Kind()] is a nil dereference (:128-131). *)
Fixpoint encodeItem (item : val) : res bytes :=
  match item with
  | VInt z => EncodeInteger z
  | VStr s => EncodeString s
  | VList l => do body <- encode_items encodeItem l; Ok (B "l" ++ body ++ B "e")
  | VNilList => Err EWrongParam
  | VDict d => do body <- encode_entries encodeItem d; Ok (B "d" ++ body ++ B "e")
  | VNilDict => Err EWrongParam
  | VNil => Panic PRuntime
  | VOther KNamedInt => Panic PRuntime
  | VOther KNamedString => Panic PRuntime
  | VOther _ => Err EWrongParam
  end.

(** misc/beancode.go:109-125; [None] is the nil List. *)
Definition EncodeSlice (src : option (list val)) : res bytes :=
  match src with
  | None => Err EWrongParam
  | Some l => do body <- encode_items encodeItem l; Ok (B "l" ++ body ++ B "e")
  end.

(** misc/beancode.go:207-227; [None] is the nil Dict. *)
Definition EncodeDict (src : gdict) : res bytes :=
  match src with
  | None => Err EWrongParam
  | Some d => do body <- encode_entries encodeItem d; Ok (B "d" ++ body ++ B "e")
  end.

(** misc/beancode.go:41-51, the scanning loop of innerDecodeInteger: returns the
    index of the first 'e' (or len(src)), or an error for -0.. / 0<digit>. *)
Fixpoint int_loop (fuel : nat) (src : bytes) (i : nat) : res nat :=
  match fuel with
  | O => Panic PFuel
  | S f =>
      if i <? length src then
        do c <- idx src i;
        if Ascii.eqb c "e" then Ok i else
        do p <- idx src (i - 1);
        if Ascii.eqb p "-" && Ascii.eqb c "0" then Err EWrongParam else
        if Ascii.eqb p "i" && Ascii.eqb c "0" then
          do n <- idx src (i + 1);
          if negb (Ascii.eqb n "e") then Err EWrongParam else int_loop f src (S i)
        else int_loop f src (S i)
      else Ok i
  end.

(** misc/beancode.go:34-62.  [i > start] at :53 always holds. *)
Definition innerDecodeInteger (src : bytes) (start : nat) : res (Z * nat) :=
  do c0 <- idx src start;
  if negb (Ascii.eqb c0 "i") then Err EWrongParam else
  do i <- int_loop (S (length src)) src (S start);
  do c <- idx src i;
  if Ascii.eqb c "e" then
    match atoi (slice src (S start) i) with
    | Ok r => Ok (r, S i)
    | Err _ => Err EWrongParam
    | Panic p => Panic p
    end
  else Err EWrongParam.

(** misc/beancode.go:16-32 *)
Definition DecodeInteger (src : bytes) : res Z :=
  if length src <? 2 then Err EWrongParam else
  do c0 <- idx src 0;
  do cl <- idx src (length src - 1);
  if negb (Ascii.eqb c0 "i") || negb (Ascii.eqb cl "e") then Err EWrongParam else
  match innerDecodeInteger src 0 with
  | Ok (r, next) => if next =? length src then Ok r else Err EWrongParam
  | Err _ => Err EWrongParam
  | Panic p => Panic p
  end.

(** misc/beancode.go:68-88.  [subs[1]] panics when there is no ':' (:83). *)
Definition DecodeString (src : bytes) : res bytes :=
  if length src <? 2 then Err EWrongParam else
  let subs := split_on ":" src in
  if (length subs <? 1) || (2 <? length subs) then Err EWrongParam else
  do s0 <- idx subs 0;
  match atoi s0 with
  | Ok slen =>
      do s1 <- idx subs 1;
      if negb (Z.of_nat (length s1) =? slen)%Z then Err EWrongParam else Ok s1
  | Err _ => Err EWrongParam
  | Panic p => Panic p
  end.

(** misc/beancode.go:301-308 with end = len(str) (the only call, :91), so the test
    [i <= end] is implied by [i < len(str)]; [None] is -1. *)
Fixpoint index_byte (l : bytes) (i : nat) (ch : byte) : option nat :=
  match l with
  | [] => None
  | c :: t => if Ascii.eqb c ch then Some i else index_byte t (S i) ch
  end.
Definition indexFirstByteInStr (str : bytes) (start : nat) (ch : byte) : option nat :=
  index_byte (skipn start str) start ch.

(** misc/beancode.go:90-107.  [idx + slen + 1] is 64-bit arithmetic; the slice
    expression at :106 panics when the wrapped end lies before idx+1. *)
Definition innerDecodeString (src : bytes) (start : nat) : res (bytes * nat) :=
  match indexFirstByteInStr src start ":" with
  | None => Err EWrongParam
  | Some ix =>
      if ix <=? start then Err EWrongParam else
      match atoi (slice src start ix) with
      | Err e => Err e
      | Panic p => Panic p
      | Ok slen =>
          let start' := wrap (Z.of_nat ix + slen + 1) in
          if (Z.of_nat (length src) <=? start')%Z then Err EWrongParam else
          if (start' <? Z.of_nat ix + 1)%Z then Panic PRuntime else
          Ok (slice src (ix + 1) (Z.to_nat start'), Z.to_nat start')
      end
  end.

(** misc/beancode.go:193-205 (decodeItem), :175-191 (innerDecodeSlice and its loop),
    :269-299 (innerDecodeDict and its loop).  [fuel] bounds the number of nested
    calls plus loop iterations; [dec_fuel] below always suffices (proved). *)
Fixpoint decodeItem (fuel : nat) (src : bytes) (i : nat) {struct fuel} : res (val * nat) :=
  match fuel with
  | O => Panic PFuel
  | S f =>
      do c <- idx src i;
      if Ascii.eqb c "i" then do (z, n) <- innerDecodeInteger src i; Ok (VInt z, n)
      else if Ascii.eqb c "l" then do (l, n) <- sliceLoop f src (S i) []; Ok (VList l, n)
      else if Ascii.eqb c "d" then do (d, n) <- dictLoop f src (S i) []; Ok (VDict d, n)
      else if is_digit c then do (s, n) <- innerDecodeString src i; Ok (VStr s, n)
      else Err EWrongParam
  end
with sliceLoop (fuel : nat) (src : bytes) (i : nat) (result : list val) {struct fuel} : res (list val * nat) :=
  match fuel with
  | O => Panic PFuel
  | S f =>
      if i <? length src then
        do c <- idx src i;
        if Ascii.eqb c "e" then Ok (result, S i) else
        do (tmp, nextIdx) <- decodeItem f src i;
        sliceLoop f src nextIdx (result ++ [tmp])
      else Ok (result, S i)
  end
with dictLoop (fuel : nat) (src : bytes) (i : nat) (result : entries) {struct fuel} : res (entries * nat) :=
  match fuel with
  | O => Panic PFuel
  | S f =>
      if i <? length src then
        do c <- idx src i;
        if Ascii.eqb c "e" then Ok (result, S i) else
        do (ktmp, next) <- decodeItem f src i;
        match ktmp with
        | VStr key =>
            do (v, next') <- decodeItem f src next;
            dictLoop f src next' (dset result key v)
        | _ => Err EWrongParam
        end
      else Ok (result, S i)
  end.

Definition dec_fuel (src : bytes) : nat := 2 * length src + 2.

(** misc/beancode.go:175-191; first character already tested by the callers and again at :176. *)
Definition innerDecodeSlice (src : bytes) (start : nat) : res (list val * nat) :=
  do c <- idx src start;
  if negb (Ascii.eqb c "l") then Err EWrongParam else sliceLoop (dec_fuel src) src (S start) [].

(** misc/beancode.go:269-299 *)
Definition innerDecodeDict (src : bytes) (start : nat) : res (entries * nat) :=
  do c <- idx src start;
  if negb (Ascii.eqb c "d") then Err EWrongParam else dictLoop (dec_fuel src) src (S start) [].

(** misc/beancode.go:154-173 *)
Definition DecodeSlice (src : bytes) : res (list val) :=
  if length src <? 2 then Err EWrongParam else
  do c0 <- idx src 0;
  do cl <- idx src (length src - 1);
  if negb (Ascii.eqb c0 "l") || negb (Ascii.eqb cl "e") then Err EWrongParam else
  do (result, next) <- innerDecodeSlice src 0;
  if negb (next =? length src) then Err EWrongParam else Ok result.

(** misc/beancode.go:229-247.  When [next < len(src)] and err is nil the function
    returns (nil, nil) (:242-244): a nil Dict without an error. *)
Definition DecodeDict (src : bytes) : res gdict :=
  if length src <? 2 then Err EWrongParam else
  do c0 <- idx src 0;
  do cl <- idx src (length src - 1);
  if negb (Ascii.eqb c0 "d") || negb (Ascii.eqb cl "e") then Err EWrongParam else
  do (result, next) <- innerDecodeDict src 0;
  if next <? length src then Ok None else Ok (Some result).

(** misc/beancode.go:249-267 *)
Definition DecodeDictNoLimit (src : bytes) : res (entries * nat) :=
  if length src <? 2 then Err EWrongParam else
  do c0 <- idx src 0;
  if negb (Ascii.eqb c0 "d") then Err EWrongParam else
  innerDecodeDict src 0.

(** Tests (not proofs) against misc/beancode_test.go. *)
Example t1 : DecodeDict (B "d4:spaml1:a1:be3:aged4:mathi10e7:englishi20eee")
  = Ok (Some [(B "spam", VList [VStr (B "a"); VStr (B "b")]); (B "age", VDict [(B "math", VInt 10); (B "english", VInt 20)])]).
Proof. vm_compute. reflexivity. Qed.
Example t2 : DecodeSlice (B "li10e") = Err EWrongParam. Proof. vm_compute. reflexivity. Qed.
Example t3 : DecodeSlice (B "li-0e1:2222e") = Err EWrongParam. Proof. vm_compute. reflexivity. Qed.
Example t4 : DecodeInteger (B "i-3e") = Ok (-3)%Z. Proof. vm_compute. reflexivity. Qed.
Example t5 : map DecodeInteger [B ""; B "-3e"; B "i03e"; B "i00e"; B "i1.0e"; B "ife"; B "i-0e"] = repeat (Err EWrongParam) 7.
Proof. vm_compute. reflexivity. Qed.
Example t6 : map DecodeString [B "10:"; B "0:spam"; B "0spam"; B ":spam"] = repeat (Err EWrongParam) 4.
Proof. vm_compute. reflexivity. Qed.
Example t7 : DecodeDict (B "d1:name7:xiaohua:agei10ee") = Err EWrongParam. Proof. vm_compute. reflexivity. Qed.
