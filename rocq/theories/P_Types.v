(** P_Types.v -- property theorems (generated by tools/gen_p.py from TypesPf.v).
    Each statement is repeated in full and closed by [exact]. *)
From Verif Require Import Base GoLib Bencode Types.
From Verif Require Import BencodeSpec BencodeProofs.
Local Open Scope list_scope.
From Verif Require Import TypesPf.

(** C14: each typed getter returns x exactly when the map binds the key to a value of
    that type; in every other case it panics with a *misc.Error of code 201. *)
Theorem C14_typed_getters : forall d k, NoDup (map fst d) ->
  (forall z, GetInteger d k = Ok z <-> In (k, VInt z) d) /\
  (forall s, GetString d k = Ok s <-> In (k, VStr s) d) /\
  (forall l, GetList d k = Ok (Some l) <-> In (k, VList l) d) /\
  (forall x, GetDict d k = Ok (Some x) <-> In (k, VDict x) d) /\
  (GetList d k = Ok None <-> In (k, VNilList) d) /\ (GetDict d k = Ok None <-> In (k, VNilDict) d) /\
  (forall v, GetVal d k = Ok v <-> In (k, v) d) /\
  ((forall z, ~ In (k, VInt z) d) -> GetInteger d k = Panic (PBiz 201 (if Exist d k then k ++ B "'s val cannot match type of int" else B "cannot find " ++ k ++ B "'s val"))) /\
  ((forall s, ~ In (k, VStr s) d) -> GetString d k = Panic (PBiz 201 (if Exist d k then k ++ B "'s val cannot match type of string" else B "cannot find " ++ k ++ B "'s val"))) /\
  ((forall l, ~ In (k, VList l) d) -> ~ In (k, VNilList) d -> GetList d k = Panic (PBiz 201 (if Exist d k then k ++ B "'s val cannot match type of List" else B "cannot find " ++ k ++ B "'s val"))) /\
  ((forall x, ~ In (k, VDict x) d) -> ~ In (k, VNilDict) d -> GetDict d k = Panic (PBiz 201 (if Exist d k then k ++ B "'s val cannot match type of Dict" else B "cannot find " ++ k ++ B "'s val"))) /\
  ((forall v, ~ In (k, v) d) -> GetVal d k = Panic (PBiz 201 (B "cannot find " ++ k ++ B "'s val"))).
Proof. exact C14_typed_getters_pf. Qed.
Print Assumptions C14_typed_getters.

Theorem C14_example :
  GetInteger [(B "a", VStr (B "x")); (B "n", VInt 7)] (B "n") = Ok 7%Z /\
  GetInteger [(B "a", VStr (B "x"))] (B "a") = Panic (PBiz 201 (B "a's val cannot match type of int")) /\
  GetString [] (B "t") = Panic (PBiz 201 (B "cannot find t's val")).
Proof. exact C14_example_pf. Qed.
Print Assumptions C14_example.

(** C15: the defaulting getters are total functions (no panic is possible in their type);
    they return the stored value when it has the right type and the default otherwise. *)
Theorem C15_defaulting_getters : forall d k, NoDup (map fst d) ->
  (forall z dflt, In (k, VInt z) d -> GetIntegerOrDefault d k dflt = z) /\
  (forall dflt, (forall z, ~ In (k, VInt z) d) -> GetIntegerOrDefault d k dflt = dflt) /\
  (forall s dflt, In (k, VStr s) d -> GetStringOrDefault d k dflt = s) /\
  (forall dflt, (forall s, ~ In (k, VStr s) d) -> GetStringOrDefault d k dflt = dflt) /\
  (forall v dflt, In (k, v) d -> GetValOrDefault d k dflt = v).
Proof. exact C15_defaulting_getters_pf. Qed.
Print Assumptions C15_defaulting_getters.

(** C15, GetValOrDefault refuted: for a missing key it returns nil whatever the default. *)
Theorem C15_get_val_or_default_refuted : forall d k dflt, ~ In k (map fst d) -> GetValOrDefault d k dflt = VNil.
Proof. exact C15_get_val_or_default_refuted_pf. Qed.
Print Assumptions C15_get_val_or_default_refuted.

Theorem C15_refuted_example : GetValOrDefault [(B "b", VInt 2)] (B "a") (VInt 1) = VNil /\ VNil <> VInt 1.
Proof. exact C15_refuted_example_pf. Qed.
Print Assumptions C15_refuted_example.

(** C16: for i >= 0, Exist(i) iff GetVal(i) does not panic; typed getters return the
    element exactly when it has the type. *)
Theorem C16_list_access : forall l i, (0 <= i)%Z ->
  (LExist l i = true <-> exists v, LGetVal l i = Ok v) /\
  (LExist l i = false <-> LGetVal l i = Panic PRuntime) /\
  (forall v, LGetVal l i = Ok v <-> nth_error l (Z.to_nat i) = Some v) /\
  (forall z, LGetInteger l i = Ok z <-> nth_error l (Z.to_nat i) = Some (VInt z)) /\
  (forall s, LGetString l i = Ok s <-> nth_error l (Z.to_nat i) = Some (VStr s)) /\
  (forall x, LGetList l i = Ok (Some x) <-> nth_error l (Z.to_nat i) = Some (VList x)) /\
  (forall x, LGetDict l i = Ok (Some x) <-> nth_error l (Z.to_nat i) = Some (VDict x)) /\
  (LGetList l i = Ok None <-> nth_error l (Z.to_nat i) = Some VNilList) /\
  (LGetDict l i = Ok None <-> nth_error l (Z.to_nat i) = Some VNilDict) /\
  (forall v, nth_error l (Z.to_nat i) = Some v ->
     ((forall z, v <> VInt z) -> LGetInteger l i = Panic (PBiz 201 (B "val cannot match type of int"))) /\
     ((forall s, v <> VStr s) -> LGetString l i = Panic (PBiz 201 (B "val cannot match type of string"))) /\
     ((forall x, v <> VList x) -> v <> VNilList -> LGetList l i = Panic (PBiz 201 (B "val cannot match type of List"))) /\
     ((forall x, v <> VDict x) -> v <> VNilDict -> LGetDict l i = Panic (PBiz 201 (B "val cannot match type of Dict")))).
Proof. exact C16_list_access_pf. Qed.
Print Assumptions C16_list_access.

(** C16 refuted for negative indices: Exist says yes, GetVal panics - for every list. *)
Theorem C16_negative_index_refuted : forall l i, (i < 0)%Z -> LExist l i = true /\ LGetVal l i = Panic PRuntime.
Proof. exact C16_negative_index_refuted_pf. Qed.
Print Assumptions C16_negative_index_refuted.

Theorem C16_example : LExist [VInt 1] 0 = true /\ LExist [] (-1) = true /\ LGetVal [] (-1) = Panic PRuntime.
Proof. exact C16_example_pf. Qed.
Print Assumptions C16_example.

(** C17: the comparison behind ContainsString, NodeInfo.Equals, Find and the handshake
    check is reflexive and symmetric, and on ASCII strings it is equality up to case. *)
Theorem C17_equal_fold : forall uf s t,
  EqualFold uf s s = true /\ EqualFold uf s t = EqualFold uf t s /\
  (ascii_string s -> ascii_string t -> (EqualFold uf s t = true <-> map lower s = map lower t)).
Proof. exact C17_equal_fold_pf. Qed.
Print Assumptions C17_equal_fold.

(** C17, finding: any two strings of equal length made of such bytes compare equal, so
    distinct binary node ids are identified. *)
Theorem C17_binary_ids_confused : forall uf s t, length s = length t ->
  Forall invalid_lead s -> Forall invalid_lead t -> EqualFold uf s t = true.
Proof. exact C17_binary_ids_confused_pf. Qed.
Print Assumptions C17_binary_ids_confused.

Theorem C17_exact_equality_refuted : forall uf, exists s t, length s = 20 /\ length t = 20 /\ s <> t /\ EqualFold uf s t = true.
Proof. exact C17_exact_equality_refuted_pf. Qed.
Print Assumptions C17_exact_equality_refuted.

(** C17: ContainsString answers whether some element compares equal, and panics with a
    *misc.Error when it meets a non-string first. *)
Theorem C17_contains_string : forall uf l target,
  (ContainsString uf l target = Ok true <->
     exists a s b, l = map VStr a ++ VStr s :: b /\ EqualFold uf s target = true /\ Forall (fun x => EqualFold uf x target = false) a) /\
  (ContainsString uf l target = Ok false <->
     exists a, l = map VStr a /\ Forall (fun x => EqualFold uf x target = false) a) /\
  (forall p, ContainsString uf l target = Panic p -> exists msg, p = PBiz 201 msg).
Proof. exact C17_contains_string_pf. Qed.
Print Assumptions C17_contains_string.

Theorem C17_contains_example : forall uf,
  ContainsString uf [VStr (B "ping"); VInt 3] (B "PING") = Ok true /\
  ContainsString uf [VInt 3; VStr (B "ping")] (B "PING") = Panic (PBiz 201 (B "val cannot match type of string")).
Proof. exact C17_contains_example_pf. Qed.
Print Assumptions C17_contains_example.
