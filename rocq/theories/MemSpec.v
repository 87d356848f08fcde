(** MemSpec.v -- what C119 is about: programs that keep to the rule for sharing conversions. *)
From Verif Require Import Base GoLib Mem.
Local Open Scope list_scope.

(** Each slice belongs to a family: the slices made from one make or one conversion by slicing and appending.
    The rule: nothing is stored into a family one of whose slices was given to Bytes2Str or that comes from Str2Bytes;
    appending counts as storing, except directly to the result of Str2Bytes. *)
Record book := { k_next : nat; k_family : list nat; k_frozen : list nat; k_direct : list bool }.
Definition book0 : book := {| k_next := 0; k_family := []; k_frozen := []; k_direct := [] |}.
Definition fresh (k : book) (frozen direct : bool) : book :=
  {| k_next := S (k_next k); k_family := k_family k ++ [k_next k]; k_frozen := if frozen then k_next k :: k_frozen k else k_frozen k; k_direct := k_direct k ++ [direct] |}.
Definition same (k : book) (f : nat) : book :=
  {| k_next := k_next k; k_family := k_family k ++ [f]; k_frozen := k_frozen k; k_direct := k_direct k ++ [false] |}.
Definition freeze (k : book) (f : nat) : book :=
  {| k_next := k_next k; k_family := k_family k; k_frozen := f :: k_frozen k; k_direct := k_direct k |}.

Inductive keeps_rule : book -> list op -> Prop :=
| kr_nil k : keeps_rule k []
| kr_str k o t : match o with OLit _ | OString _ | OSubStr _ _ _ | OHex _ => True | _ => False end -> keeps_rule k t -> keeps_rule k (o :: t)
| kr_new k o t : match o with OMake _ _ | OBytes _ _ => True | _ => False end -> keeps_rule (fresh k false false) t -> keeps_rule k (o :: t)
| kr_s2b k s t : keeps_rule (fresh k true true) t -> keeps_rule k (OStr2Bytes s :: t)
| kr_b2s k l f t : nth_error (k_family k) l = Some f -> keeps_rule (freeze k f) t -> keeps_rule k (OBytes2Str l :: t)
| kr_slice k l i j f t : nth_error (k_family k) l = Some f -> keeps_rule (same k f) t -> keeps_rule k (OSlice l i j :: t)
| kr_set k l i c f t : nth_error (k_family k) l = Some f -> ~ In f (k_frozen k) -> keeps_rule k t -> keeps_rule k (OSet l i c :: t)
| kr_append k l bs g f t : nth_error (k_family k) l = Some f -> ~ In f (k_frozen k) -> keeps_rule (same k f) t -> keeps_rule k (OAppend l bs g :: t)
| kr_append_direct k l bs g t : bs <> [] -> nth_error (k_direct k) l = Some true -> keeps_rule (fresh k false false) t -> keeps_rule k (OAppend l bs g :: t).

(** What a program sees of its strings. *)
Definition texts (c : cfg) : list bytes := map (str_text (c_mem c)) (c_strs c).
Definition contents (c : cfg) : list (bytes * nat) := map (fun l => (slice_bytes (c_mem c) l, l_cap l)) (c_slcs c).
(** The same program with conversions that copy. *)
Definition copying (o : op) : op :=
  match o with OStr2Bytes s => OBytes s 0 | OBytes2Str l => OString l | o => o end.
