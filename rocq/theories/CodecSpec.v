(** CodecSpec.v -- vocabulary for C100-C102. *)
From Verif Require Import Base Bencode BencodeSpec.
Local Open Scope list_scope.

(** [truncated v v']: v' is what remains of the container v when everything after some point is cut
    off: the elements before that point and, if the point lies within an element that is itself a
    container, what remains of that element. *)
Inductive truncated : val -> val -> Prop :=
| tr_list l l' : truncated_items l l' -> truncated (VList l) (VList l')
| tr_dict d d' : truncated_entries d d' -> truncated (VDict d) (VDict d')
with truncated_items : list val -> list val -> Prop :=
| ti_end l : truncated_items l []
| ti_in v v' l : truncated v v' -> truncated_items (v :: l) [v']
| ti_keep v l l' : truncated_items l l' -> truncated_items (v :: l) (v :: l')
with truncated_entries : list (bytes * val) -> list (bytes * val) -> Prop :=
| te_end d : truncated_entries d []
| te_in k v v' d : truncated v v' -> truncated_entries ((k, v) :: d) [(k, v')]
| te_keep k v d d' : truncated_entries d d' -> truncated_entries ((k, v) :: d) ((k, v) :: d').

(** [s] is a string or a key somewhere in [v]. *)
Inductive string_in (s : bytes) : val -> Prop :=
| si_here : string_in s (VStr s)
| si_list l v : In v l -> string_in s v -> string_in s (VList l)
| si_key d v : In (s, v) d -> string_in s (VDict d)
| si_dict d k v : In (k, v) d -> string_in s v -> string_in s (VDict d).

(** The size of a value: the bytes of all its strings and keys, 2 for each of these, 3 for each
    integer and 1 for each list or dictionary. *)
Fixpoint weight (v : val) : nat :=
  match v with
  | VInt _ => 3
  | VStr s => length s + 2
  | VList l => S (fold_right (fun x n => weight x + n) 0 l)
  | VDict d => S (fold_right (fun p n => length (fst p) + 2 + weight (snd p) + n) 0 d)
  | _ => 1
  end.

(** How deep the containers of a value are nested. *)
Fixpoint depth (v : val) : nat :=
  match v with
  | VList l => S (fold_right (fun x n => Nat.max (depth x) n) 0 l)
  | VDict d => S (fold_right (fun p n => Nat.max (depth (snd p)) n) 0 d)
  | _ => 0
  end.
