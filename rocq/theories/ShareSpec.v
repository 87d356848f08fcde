(** ShareSpec.v -- several downloads at once: what the others may do with the buffer pool all of them
    share.  The downloads own their connections; only the pool and the buffers are common. *)
From Verif Require Import Base BytesPool Fetch FetchSpec.
Local Open Scope list_scope.

(** One step of another download: take a buffer (a big one of 32768 bytes or one of 4), give back the
    i-th buffer the others hold, or receive data into it. *)
Inductive oact := OGet (big : bool) | OPut (i : nat) | OWrite (i : nat) (d : bytes).

(** The buffers the others hold.  They are written down in the pool record, under the width -1, which
    no code ever asks for. *)
Definition theirs (p : pool) : list slc := chan_of (p_chans p) (-1).
Definition set_theirs (p : pool) (l : list slc) : pool :=
  {| p_chans := chan_upd (p_chans p) (-1) (fun _ => l); p_width := p_width p; p_max := p_max p |}.

Definition other_step (x : pool * heap) (a : oact) : pool * heap :=
  let (p, h) := x in
  match a with
  | OGet big => match GetBySize p h (if big then 32768 else 4) with
                | Ok (p', h', b) => (set_theirs p' (theirs p' ++ [b]), h')
                | _ => (p, h)
                end
  | OPut i => match nth_error (theirs p) i with
              | Some b => (Put (set_theirs p (firstn i (theirs p) ++ skipn (S i) (theirs p))) b, h)
              | None => (p, h)
              end
  | OWrite i d => match nth_error (theirs p) i with
                  | Some b => if (Z.of_nat (length d) <=? s_cap b)%Z then (p, h_write h b d) else (p, h)
                  | None => (p, h)
                  end
  end.

(** The others follow [acts]: acts t is what they do just before the t-th access of this download to
    shared memory. *)
Definition sharing (e : fenv) (acts : nat -> list oact) : Prop :=
  forall t x, e_intf e t x = fold_left other_step (acts t) x.

(** How many big buffers the others take in all before access t. *)
Definition takes (l : list oact) : nat := length (filter (fun a => match a with OGet true => true | _ => false end) l).
Fixpoint taken (acts : nat -> list oact) (t : nat) : nat :=
  match t with 0 => 0 | S t => taken acts t + takes (acts t) end.

(** A sound pool some of whose buffers, whatever part of them is in use, are held by other downloads. *)
Definition sound_shared (p : pool) (h : heap) : Prop :=
  sound_pool p h /\ Forall (fun b => usable h 4 (full_slice b) \/ usable h 32768 (full_slice b)) (theirs p) /\
  NoDup (map s_arr (theirs p ++ chan_of (p_chans p) 4 ++ chan_of (p_chans p) 32768)).
