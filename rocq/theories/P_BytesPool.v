(** P_BytesPool.v -- property theorems (generated by tools/gen_p.py from BytesPoolPf.v).
    Each statement is repeated in full and closed by [exact]. *)
From Verif Require Import Base BytesPool.
Local Open Scope list_scope.
Local Open Scope Z_scope.
From Verif Require Import BytesPoolPf.

(** C32: after any history - including putting back slices of any shape and memory that
    never came from the pool - GetBySize(n) yields a slice of length and capacity n and
    Get() one of the default width; it never panics for n >= 0. *)
Theorem C32_requested_size : forall maxSize width c, creach maxSize width (fun _ => True) c ->
  (forall n p h b, GetBySize (c_pool c) (c_heap c) n = Ok (p, h, b) -> s_len b = n /\ s_cap b = n) /\
  (forall p h b, Get (c_pool c) (c_heap c) = Ok (p, h, b) -> s_len b = width /\ s_cap b = width) /\
  (forall n, 0 <= n -> exists r, GetBySize (c_pool c) (c_heap c) n = Ok r).
Proof. exact C32_requested_size_pf. Qed.
Print Assumptions C32_requested_size.

(** C33: if each held buffer is put back at most once per acquisition (in whatever
    re-sliced form), then at every moment the held buffers are pairwise distinct in
    memory and none of them is in the pool. *)
Theorem C33_single_owner : forall maxSize width c, creach maxSize width disciplined c ->
  (forall i j x y, nth_error (c_held c) i = Some x -> nth_error (c_held c) j = Some y -> i <> j -> s_arr x <> s_arr y) /\
  (forall x w y, In x (c_held c) -> In y (chan_of (p_chans (c_pool c)) w) -> s_arr x <> s_arr y).
Proof. exact C33_single_owner_pf. Qed.
Print Assumptions C33_single_owner.

(** C33 refuted without the discipline: putting one buffer twice hands the same memory to
    two clients. *)
Theorem C33_double_put_refuted : exists c x y, creach 10 4 (fun _ => True) c /\
  nth_error (c_held c) 0 = Some x /\ nth_error (c_held c) 1 = Some y /\ s_arr x = s_arr y.
Proof. exact C33_double_put_refuted_pf. Qed.
Print Assumptions C33_double_put_refuted.

(** C34: no width ever retains more than maxSize buffers; Put reads or writes no buffer
    content; a buffer put into a non-full channel comes back in first-in-first-out order
    showing whatever its array contains; and a buffer that is not recycled is zeroed. *)
Theorem C34_bounded_not_cleared : forall maxSize width c, creach maxSize width (fun _ => True) c ->
  (forall w, (length (chan_of (p_chans (c_pool c)) w) <= Z.to_nat maxSize)%nat) /\
  (forall b, chan_of (p_chans (c_pool c)) (s_cap b) = [] -> 1 <= maxSize ->
     exists p', GetBySize (Put (c_pool c) b) (c_heap c) (s_cap b) = Ok (p', c_heap c, full_slice b)) /\
  (forall n p h b, GetBySize (c_pool c) (c_heap c) n = Ok (p, h, b) ->
     (h = c_heap c /\ chan_of (p_chans (c_pool c)) n = b :: chan_of (p_chans p) n) \/
     (chan_of (p_chans (c_pool c)) n = [] /\ h_data h (s_arr b) = repeat (byte_of 0) (Z.to_nat n) /\ s_arr b = h_next (c_heap c))).
Proof. exact C34_bounded_not_cleared_pf. Qed.
Print Assumptions C34_bounded_not_cleared.

(** Non-vacuity, and the leak: a recycled buffer shows the bytes of its previous owner. *)
Theorem C34_example : exists c x, creach 10 4 disciplined c /\ c_held c = [x] /\ h_read (c_heap c) x = B "abcd".
Proof. exact C34_example_pf. Qed.
Print Assumptions C34_example.

(** C32: after a recycled, a fresh and a foreign buffer; the widths are those asked for. *)
Theorem C32_example : exists c, creach 10 4 (fun _ => True) c /\ map s_len (c_held c) = [4; 7; 7] /\ map s_arr (c_held c) = [0%nat; 1%nat; 5%nat].
Proof. exact C32_example_pf. Qed.
Print Assumptions C32_example.

(** C33: two held buffers and one in the pool, all different, after a disciplined history. *)
Theorem C33_example : exists c x, creach 10 4 disciplined c /\ map s_arr (c_held c) = [1%nat; 2%nat] /\ chan_of (p_chans (c_pool c)) 4 = [x] /\ s_arr x = 0%nat.
Proof. exact C33_example_pf. Qed.
Print Assumptions C33_example.
