(** Types.v -- model of misc/types.go (Dict and List accessors) and of
    strings.EqualFold as they use it.

    A Dict receiver is an association list ([entries]); a nil map behaves like an
    empty one for every accessor below, so [dict_of] maps the nil Dict to []. *)
From Verif Require Import Base GoLib Bencode.
Local Open Scope list_scope.

Definition dict_of (d : gdict) : entries := match d with Some l => l | None => [] end.

(** misc/errors.go:8-16, :64-66: PanicBizErr(msg) panics with a *misc.Error of code 201. *)
Definition GenericErr : Z := 201%Z.
Definition ProtocolErr : Z := 203%Z.
Definition PanicBizErr {A} (msg : bytes) : res A := Panic (PBiz GenericErr msg).

(** misc/types.go:55-61 *)
Definition GetVal (d : entries) (key : bytes) : res val :=
  match dget d key with
  | Some v => Ok v
  | None => PanicBizErr (B "cannot find " ++ key ++ B "'s val")
  end.

(** misc/types.go:63-69.  The [val, exist :=] of :64 assigns the parameter, so a
    missing key yields the nil interface, not the default. *)
Definition GetValOrDefault (d : entries) (key : bytes) (dflt : val) : val :=
  match dget d key with
  | Some v => v
  | None => VNil
  end.

(** misc/types.go:7-13 *)
Definition GetInteger (d : entries) (key : bytes) : res Z :=
  do v <- GetVal d key;
  match v with VInt z => Ok z | _ => PanicBizErr (key ++ B "'s val cannot match type of int") end.

(** misc/types.go:15-21 *)
Definition GetString (d : entries) (key : bytes) : res bytes :=
  do v <- GetVal d key;
  match v with VStr s => Ok s | _ => PanicBizErr (key ++ B "'s val cannot match type of string") end.

(** misc/types.go:23-29 *)
Definition GetIntegerOrDefault (d : entries) (key : bytes) (dflt : Z) : Z :=
  match GetValOrDefault d key (VInt dflt) with VInt z => z | _ => dflt end.

(** misc/types.go:31-37 *)
Definition GetStringOrDefault (d : entries) (key : bytes) (dflt : bytes) : bytes :=
  match GetValOrDefault d key (VStr dflt) with VStr s => s | _ => dflt end.

(** misc/types.go:39-45; [None] is the nil List (the type assertion accepts it). *)
Definition GetList (d : entries) (key : bytes) : res (option (list val)) :=
  do v <- GetVal d key;
  match v with
  | VList l => Ok (Some l) | VNilList => Ok None
  | _ => PanicBizErr (key ++ B "'s val cannot match type of List")
  end.

(** misc/types.go:47-53; [None] is the nil Dict. *)
Definition GetDict (d : entries) (key : bytes) : res gdict :=
  do v <- GetVal d key;
  match v with
  | VDict l => Ok (Some l) | VNilDict => Ok None
  | _ => PanicBizErr (key ++ B "'s val cannot match type of Dict")
  end.

(** misc/types.go:71-74 *)
Definition Exist (d : entries) (key : bytes) : bool :=
  match dget d key with Some _ => true | None => false end.

(** ** List *)

(** misc/types.go:78-80; the index is a Go int. *)
Definition LGetVal (l : list val) (index : Z) : res val :=
  if (index <? 0)%Z then Panic PRuntime else idx l (Z.to_nat index).

(** misc/types.go:82-88, :90-96, :98-104, :106-112 *)
Definition LGetInteger (l : list val) (index : Z) : res Z :=
  do v <- LGetVal l index;
  match v with VInt z => Ok z | _ => PanicBizErr (B "val cannot match type of int") end.
Definition LGetString (l : list val) (index : Z) : res bytes :=
  do v <- LGetVal l index;
  match v with VStr s => Ok s | _ => PanicBizErr (B "val cannot match type of string") end.
Definition LGetList (l : list val) (index : Z) : res (option (list val)) :=
  do v <- LGetVal l index;
  match v with
  | VList x => Ok (Some x) | VNilList => Ok None
  | _ => PanicBizErr (B "val cannot match type of List")
  end.
Definition LGetDict (l : list val) (index : Z) : res gdict :=
  do v <- LGetVal l index;
  match v with
  | VDict x => Ok (Some x) | VNilDict => Ok None
  | _ => PanicBizErr (B "val cannot match type of Dict")
  end.

(** misc/types.go:114-116 *)
Definition LExist (l : list val) (index : Z) : bool := (index <? Z.of_nat (length l))%Z.

(** ** strings.EqualFold *)

(** utf8.DecodeRuneInString: the rune and the number of bytes consumed; an invalid
    encoding is RuneError (U+FFFD) of width 1. *)
Definition RuneError : N := 65533%N.
Definition inr (lo hi : N) (b : byte) : bool := ((lo <=? bval b) && (bval b <=? hi))%N.
Definition decode_rune (s : bytes) : N * nat :=
  match s with
  | [] => (RuneError, 0)
  | b0 :: t =>
      let c := bval b0 in
      if (c <? 128)%N then (c, 1)
      else if (c <? 194)%N then (RuneError, 1)                       (* 80-C1 *)
      else if (c <? 224)%N then                                      (* C2-DF *)
        match t with
        | b1 :: _ => if inr 128 191 b1 then (((c mod 32) * 64 + bval b1 mod 64)%N, 2) else (RuneError, 1)
        | _ => (RuneError, 1)
        end
      else if (c <? 240)%N then                                      (* E0-EF *)
        let lo := if (c =? 224)%N then 160%N else 128%N in
        let hi := if (c =? 237)%N then 159%N else 191%N in
        match t with
        | b1 :: b2 :: _ =>
            if inr lo hi b1 && inr 128 191 b2
            then ((((c mod 16) * 64 + bval b1 mod 64) * 64 + bval b2 mod 64)%N, 3) else (RuneError, 1)
        | _ => (RuneError, 1)
        end
      else if (c <? 245)%N then                                      (* F0-F4 *)
        let lo := if (c =? 240)%N then 144%N else 128%N in
        let hi := if (c =? 244)%N then 143%N else 191%N in
        match t with
        | b1 :: b2 :: b3 :: _ =>
            if inr lo hi b1 && inr 128 191 b2 && inr 128 191 b3
            then (((((c mod 8) * 64 + bval b1 mod 64) * 64 + bval b2 mod 64) * 64 + bval b3 mod 64)%N, 4)
            else (RuneError, 1)
        | _ => (RuneError, 1)
        end
      else (RuneError, 1)                                            (* F5-FF *)
  end.

(** The runes of a string in the order the loop of EqualFold meets them. *)
Fixpoint runes_fuel (fuel : nat) (s : bytes) : list N :=
  match fuel, s with
  | O, _ => []
  | _, [] => []
  | S f, _ => let (r, n) := decode_rune s in r :: runes_fuel f (skipn n s)
  end.
Definition runes (s : bytes) : list N := runes_fuel (length s) s.

Section Fold.
  (** Oracle: [uf sr tr] tells whether unicode.SimpleFold's orbit of [sr] contains
      [tr], for sr < tr and tr >= 128 (the Unicode tables are not modelled). *)
  Variable uf : N -> N -> bool.

  (** One comparison of the loop of strings.EqualFold. *)
  Definition rune_fold (a b : N) : bool :=
    if (a =? b)%N then true else
    let sr := N.min a b in
    let tr := N.max a b in
    if (tr <? 128)%N then ((65 <=? sr) && (sr <=? 90) && (tr =? sr + 32))%N
    else uf sr tr.

  Fixpoint fold_list (a b : list N) : bool :=
    match a, b with
    | [], [] => true
    | x :: a', y :: b' => rune_fold x y && fold_list a' b'
    | _, _ => false
    end.

  (** strings.EqualFold(s, t). *)
  Definition EqualFold (s t : bytes) : bool := fold_list (runes s) (runes t).

  (** misc/types.go:118-125 *)
  Fixpoint contains_from (l : list val) (target : bytes) : res bool :=
    match l with
    | [] => Ok false
    | VStr s :: t => if EqualFold s target then Ok true else contains_from t target
    | _ :: _ => PanicBizErr (B "val cannot match type of string")
    end.
  Definition ContainsString (l : list val) (target : bytes) : res bool := contains_from l target.
End Fold.
