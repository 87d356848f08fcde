(** BytesPoolPf.v -- proofs of C32-C34 (buffer pool). *)
From Verif Require Import Base BytesPool.
Local Open Scope list_scope.
Local Open Scope Z_scope.

(** The use of one pool by any number of clients: buffers are obtained, written, put back.
    [c_held] are the buffers obtained and not yet put back (one entry per acquisition). *)
Record client := { c_pool : pool; c_heap : heap; c_held : list slc }.
Inductive op :=
| OGet                         (* Get() *)
| OGetBySize (n : Z)           (* GetBySize(n) *)
| OPut (i : nat) (b : slc)     (* Put(b), b being a slice of the i-th held buffer *)
| OPutForeign (b : slc)        (* Put(b) of memory the client owns but did not get from the pool *)
| OWrite (a : nat) (d : bytes) (* overwrite an array *).

Definition remove_nth {A} (i : nat) (l : list A) : list A := firstn i l ++ skipn (S i) l.

(** One step; [disciplined] operations put back only what is held, once. *)
Inductive cstep : client -> op -> client -> option slc -> Prop :=
| cs_get c p h b : Get (c_pool c) (c_heap c) = Ok (p, h, b) ->
    cstep c OGet {| c_pool := p; c_heap := h; c_held := c_held c ++ [b] |} (Some b)
| cs_size c n p h b : GetBySize (c_pool c) (c_heap c) n = Ok (p, h, b) ->
    cstep c (OGetBySize n) {| c_pool := p; c_heap := h; c_held := c_held c ++ [b] |} (Some b)
| cs_put c i x b : nth_error (c_held c) i = Some x -> s_arr b = s_arr x ->
    cstep c (OPut i b) {| c_pool := Put (c_pool c) b; c_heap := c_heap c; c_held := remove_nth i (c_held c) |} None
| cs_foreign c b : cstep c (OPutForeign b) {| c_pool := Put (c_pool c) b; c_heap := c_heap c; c_held := c_held c |} None
| cs_write c a d : cstep c (OWrite a d) {| c_pool := c_pool c; c_heap := h_set (c_heap c) a d; c_held := c_held c |} None.

Definition disciplined (o : op) : Prop := match o with OPutForeign _ => False | _ => True end.

Inductive creach (maxSize width : Z) (ok : op -> Prop) : client -> Prop :=
| cr_new p h : NewBytesPool maxSize width = Ok p -> creach maxSize width ok {| c_pool := p; c_heap := h; c_held := [] |}
| cr_step c o c' r : creach maxSize width ok c -> ok o -> cstep c o c' r -> creach maxSize width ok c'.

Lemma chan_upd_perm_push c i s : Permutation (concat (map snd (chan_upd c i (fun l => l ++ [s])))) (s :: concat (map snd c)).
Proof.
  induction c as [|[w l] t IH]; cbn [chan_upd map snd concat app]; [reflexivity|].
  destruct (w =? i); cbn [map snd concat].
  - rewrite <- app_assoc. cbn [app]. symmetry. apply Permutation_middle.
  - rewrite IH. symmetry. apply Permutation_middle.
Qed.
Lemma chan_upd_perm_pop c i s r : chan_of c i = s :: r -> Permutation (concat (map snd c)) (s :: concat (map snd (chan_upd c i (@tl slc)))).
Proof.
  induction c as [|[w l] t IH]; cbn [chan_of chan_upd map snd concat]; [discriminate|].
  destruct (w =? i); intros H; cbn [map snd concat].
  - subst l. cbn [tl app]. reflexivity.
  - rewrite (IH H). symmetry. apply Permutation_middle.
Qed.
Lemma chan_of_upd c i f j : f [] = f (chan_of [] i) -> chan_of (chan_upd c i f) j = if i =? j then f (chan_of c i) else chan_of c j.
Proof.
  intros _. induction c as [|[w l] t IH]; cbn [chan_upd chan_of].
  - destruct (Z.eqb_spec i j); reflexivity.
  - destruct (Z.eqb_spec w i) as [->|Hw]; cbn [chan_of].
    + destruct (Z.eqb_spec i j) as [->|Hj]; reflexivity.
    + destruct (Z.eqb_spec w j) as [->|Hj].
      * destruct (Z.eqb_spec i j); [congruence|reflexivity].
      * exact IH.
Qed.

(** Channels of width w contain only slices of length and capacity w, at most maxSize. *)
Definition pinv (maxSize width : Z) (p : pool) : Prop :=
  p_width p = width /\ p_max p = Z.to_nat maxSize /\
  forall w, Forall (fun s => s_len s = w /\ s_cap s = w) (chan_of (p_chans p) w) /\ (length (chan_of (p_chans p) w) <= Z.to_nat maxSize)%nat.

Lemma put_pinv m w p b : pinv m w p -> pinv m w (Put p b).
Proof.
  intros (H1 & H2 & H3). unfold Put. destruct (Nat.ltb_spec (length (chan_of (p_chans p) (s_cap b))) (p_max p)) as [Hl|Hl]; [|repeat split; auto; apply H3].
  split; [exact H1|]. split; [exact H2|]. intros j. cbn [p_chans]. rewrite chan_of_upd by reflexivity.
  destruct (Z.eqb_spec (s_cap b) j) as [<-|Hj]; [|apply H3]. destruct (H3 (s_cap b)) as [F L]. split.
  - apply Forall_app. split; [exact F|]. repeat constructor.
  - rewrite app_length. cbn [length]. lia.
Qed.

Lemma getbysize_pinv m w p h n p' h' b : pinv m w p -> GetBySize p h n = Ok (p', h', b) ->
  pinv m w p' /\ s_len b = n /\ s_cap b = n.
Proof.
  intros (H1 & H2 & H3) E. unfold GetBySize in E. destruct (chan_of (p_chans p) n) as [|x r] eqn:Ec.
  - destruct (Z.ltb_spec n 0); [discriminate|]. cbn in E. injection E as <- <- <-. repeat split; auto; apply H3.
  - injection E as <- <- <-. pose proof (H3 n) as [F L]. rewrite Ec in F, L. apply Forall_cons_iff in F as [[F1 F2] F3].
    split; [|split; [exact F1|exact F2]]. split; [exact H1|]. split; [exact H2|]. intros j. cbn [p_chans]. rewrite chan_of_upd by reflexivity.
    destruct (Z.eqb_spec n j) as [<-|Hj]; [|apply H3]. rewrite Ec. cbn [tl]. split; [exact F3|cbn in L; lia].
Qed.

Lemma creach_pinv m w ok c : creach m w ok c -> pinv m w (c_pool c).
Proof.
  induction 1 as [p h E|c o c' r Hr IH Hok Hs].
  - unfold NewBytesPool in E. destruct (Z.ltb_spec m 0); [discriminate|]. injection E as <-. cbn [c_pool]. repeat split.
    + cbn [p_chans chan_of]. destruct (w =? w0); constructor.
    + cbn [p_chans chan_of]. destruct (w =? w0); cbn; lia.
  - destruct Hs as [c p h b E|c n p h b E|c i x b Hx Ha|c b|c a d]; cbn [c_pool].
    + eapply getbysize_pinv; [exact IH|exact E].
    + eapply getbysize_pinv; [exact IH|exact E].
    + apply put_pinv. exact IH.
    + apply put_pinv. exact IH.
    + exact IH.
Qed.

(** C32: after any history - including putting back slices of any shape and memory that
    never came from the pool - GetBySize(n) yields a slice of length and capacity n and
    Get() one of the default width; it never panics for n >= 0. *)
Lemma C32_requested_size_pf : forall maxSize width c, creach maxSize width (fun _ => True) c ->
  (forall n p h b, GetBySize (c_pool c) (c_heap c) n = Ok (p, h, b) -> s_len b = n /\ s_cap b = n) /\
  (forall p h b, Get (c_pool c) (c_heap c) = Ok (p, h, b) -> s_len b = width /\ s_cap b = width) /\
  (forall n, 0 <= n -> exists r, GetBySize (c_pool c) (c_heap c) n = Ok r).
Proof.
  intros m w c Hr. pose proof (creach_pinv _ _ _ _ Hr) as Hp. split; [|split].
  - intros n p h b E. eapply getbysize_pinv in E; [|exact Hp]. tauto.
  - intros p h b E. unfold Get in E. eapply getbysize_pinv in E; [|exact Hp]. destruct Hp as (Hw & _). rewrite Hw in E. tauto.
  - intros n Hn. unfold GetBySize. destruct (chan_of (p_chans (c_pool c)) n); [|eauto]. destruct (Z.ltb_spec n 0); [lia|]. cbn. eauto.
Qed.

(** All buffers in the pool. *)
Definition pooled (p : pool) : list slc := concat (map snd (p_chans p)).

Lemma remove_nth_perm {A} (l : list A) : forall i x, nth_error l i = Some x -> Permutation l (x :: remove_nth i l).
Proof.
  unfold remove_nth. induction l as [|a l IH]; intros [|i] x H; cbn [nth_error firstn skipn app] in *; try discriminate.
  - injection H as ->. reflexivity.
  - rewrite (IH i x H) at 1. apply perm_swap.
Qed.

Definition own (c : client) : Prop :=
  NoDup (map s_arr (c_held c ++ pooled (c_pool c))) /\ Forall (fun s => (s_arr s < h_next (c_heap c))%nat) (c_held c ++ pooled (c_pool c)).

Lemma own_perm l l' next : Permutation l l' -> (NoDup (map s_arr l) /\ Forall (fun s => (s_arr s < next)%nat) l) ->
  (NoDup (map s_arr l') /\ Forall (fun s => (s_arr s < next)%nat) l').
Proof.
  intros HP [H1 H2]. split.
  - eapply Permutation_NoDup; [apply Permutation_map; exact HP|exact H1].
  - eapply Permutation_Forall; eassumption.
Qed.

Lemma put_pooled p b : Permutation (pooled (Put p b)) (full_slice b :: pooled p) \/ Put p b = p.
Proof.
  unfold Put. destruct (Nat.ltb _ _); [left|right; reflexivity]. unfold pooled. cbn [p_chans]. apply chan_upd_perm_push.
Qed.

Lemma getbysize_own c n p h b : own c -> GetBySize (c_pool c) (c_heap c) n = Ok (p, h, b) ->
  own {| c_pool := p; c_heap := h; c_held := c_held c ++ [b] |}.
Proof.
  intros Ho E. unfold GetBySize in E. destruct (chan_of (p_chans (c_pool c)) n) as [|x r] eqn:Ec.
  - destruct (Z.ltb_spec n 0); [discriminate|]. cbn in E. injection E as <- <- <-. destruct Ho as [H1 H2].
    unfold own. cbn [c_held c_pool c_heap h_next]. set (b := {| s_arr := h_next (c_heap c); s_off := 0; s_len := n; s_cap := n |}).
    eapply (own_perm (b :: c_held c ++ pooled (c_pool c))).
    { rewrite <- app_assoc. cbn [app]. apply Permutation_middle. }
    rewrite Forall_forall in H2. split.
    + cbn [map]. constructor; [|exact H1]. intros Hin. apply in_map_iff in Hin as (s & Es & Hs). specialize (H2 s Hs). cbv beta in H2. cbn in Es. lia.
    + constructor; [cbn; lia|]. rewrite Forall_forall. intros s Hs. specialize (H2 s Hs). cbv beta in H2. lia.
  - injection E as <- <- <-. unfold own. cbn [c_held c_pool c_heap]. eapply own_perm; [|exact Ho].
    rewrite <- app_assoc. cbn [app]. apply Permutation_app_head. unfold pooled. cbn [p_chans]. eapply chan_upd_perm_pop. exact Ec.
Qed.

Lemma creach_own m w c : creach m w disciplined c -> own c.
Proof.
  induction 1 as [p h E|c o c' r Hr IH Hok Hs].
  - unfold NewBytesPool in E. destruct (Z.ltb_spec m 0); [discriminate|]. injection E as <-. unfold own, pooled. cbn. split; constructor.
  - destruct Hs as [c p h b E|c n p h b E|c i x b Hx Ha|c b|c a d]; cbn in Hok.
    + eapply getbysize_own; [exact IH|exact E].
    + eapply getbysize_own; [exact IH|exact E].
    + unfold own in *. cbn [c_held c_pool c_heap].
      pose proof (own_perm _ _ _ (Permutation_app_tail (pooled (c_pool c)) (remove_nth_perm _ _ _ Hx)) IH) as [H1 H2]. cbn [app] in H1, H2.
      destruct (put_pooled (c_pool c) b) as [Hp | ->].
      * eapply (own_perm (full_slice b :: remove_nth i (c_held c) ++ pooled (c_pool c))).
        { rewrite Hp. apply Permutation_middle. }
        cbn [map full_slice s_arr] in *. rewrite Ha. split; [exact H1|]. inversion H2; subst. constructor; [cbn; lia|assumption].
      * split; [inversion H1; assumption|inversion H2; assumption].
    + contradiction.
    + exact IH.
Qed.

Lemma nodup_app_l {A} (a b : list A) : NoDup (a ++ b) -> NoDup a.
Proof.
  induction a as [|x a IH]; cbn [app]; intros H; [constructor|]. inversion H as [|? ? H1 H2]; subst. constructor; [|auto].
  intros Hin. apply H1. apply in_app_iff. left. exact Hin.
Qed.

(** C33: if each held buffer is put back at most once per acquisition (in whatever
    re-sliced form), then at every moment the held buffers are pairwise distinct in
    memory and none of them is in the pool. *)
Lemma C33_single_owner_pf : forall maxSize width c, creach maxSize width disciplined c ->
  (forall i j x y, nth_error (c_held c) i = Some x -> nth_error (c_held c) j = Some y -> i <> j -> s_arr x <> s_arr y) /\
  (forall x w y, In x (c_held c) -> In y (chan_of (p_chans (c_pool c)) w) -> s_arr x <> s_arr y).
Proof.
  intros m w c Hr. destruct (creach_own _ _ _ Hr) as [H _]. rewrite map_app in H. split.
  - intros i j x y Hx Hy Hij E. apply nodup_app_l in H.
    rewrite NoDup_nth_error in H. apply Hij, H.
    + rewrite map_length. apply nth_error_Some. congruence.
    + rewrite !nth_error_map, Hx, Hy. cbn. congruence.
  - intros x w' y Hx Hy E.
    assert (Hy' : In y (pooled (c_pool c))).
    { unfold pooled. revert Hy. generalize (p_chans (c_pool c)). intros l. induction l as [|[a b] l IHl]; cbn [chan_of map snd concat]; [intros []|].
      destruct (a =? w'); intros Hy; apply in_app_iff; [left; exact Hy|right; auto]. }
    apply in_split in Hx as (l1 & l2 & Hx). rewrite Hx in H. rewrite map_app in H. cbn [map] in H. rewrite <- app_assoc in H. cbn [app] in H.
    apply NoDup_remove_2 in H. apply H. rewrite !in_app_iff. right. right. rewrite E. apply in_map. exact Hy'.
Qed.

(** Running a list of operations (used for examples). *)
Definition do_op (c : client) (o : op) : option client :=
  match o with
  | OGet => match Get (c_pool c) (c_heap c) with Ok (p, h, b) => Some {| c_pool := p; c_heap := h; c_held := c_held c ++ [b] |} | _ => None end
  | OGetBySize n => match GetBySize (c_pool c) (c_heap c) n with Ok (p, h, b) => Some {| c_pool := p; c_heap := h; c_held := c_held c ++ [b] |} | _ => None end
  | OPut i b => match nth_error (c_held c) i with
                | Some x => if Nat.eqb (s_arr b) (s_arr x) then Some {| c_pool := Put (c_pool c) b; c_heap := c_heap c; c_held := remove_nth i (c_held c) |} else None
                | None => None end
  | OPutForeign b => Some {| c_pool := Put (c_pool c) b; c_heap := c_heap c; c_held := c_held c |}
  | OWrite a d => Some {| c_pool := c_pool c; c_heap := h_set (c_heap c) a d; c_held := c_held c |}
  end.
Fixpoint do_ops (c : client) (l : list op) : option client :=
  match l with [] => Some c | o :: t => match do_op c o with Some c' => do_ops c' t | None => None end end.
Lemma do_ops_reach m w ok l : Forall ok l -> forall c c', creach m w ok c -> do_ops c l = Some c' -> creach m w ok c'.
Proof.
  induction 1 as [|o l Ho Hl IH]; intros c c' Hr E; cbn [do_ops] in E; [congruence|].
  destruct (do_op c o) as [c1|] eqn:E1; [|discriminate]. eapply IH; [|exact E].
  destruct o as [|n|i b|b|a d]; cbn [do_op] in E1.
  - destruct (Get _ _) as [[[p h] b]|e|q] eqn:E2; try discriminate. injection E1 as <-. eapply cr_step; [exact Hr|exact Ho|]. constructor. exact E2.
  - destruct (GetBySize _ _ _) as [[[p h] b]|e|q] eqn:E2; try discriminate. injection E1 as <-. eapply cr_step; [exact Hr|exact Ho|]. constructor. exact E2.
  - destruct (nth_error _ _) as [x|] eqn:E2; [|discriminate]. destruct (Nat.eqb_spec (s_arr b) (s_arr x)) as [E3|]; [|discriminate]. injection E1 as <-.
    eapply cr_step; [exact Hr|exact Ho|]. econstructor; eassumption.
  - injection E1 as <-. eapply cr_step; [exact Hr|exact Ho|]. constructor.
  - injection E1 as <-. eapply cr_step; [exact Hr|exact Ho|]. constructor.
Qed.
Definition client0 : client :=
  {| c_pool := {| p_chans := [(4, [])]; p_width := 4; p_max := 10 |}; c_heap := {| h_next := 0; h_data := fun _ => [] |}; c_held := [] |}.
Lemma client0_reach ok : creach 10 4 ok client0.
Proof. apply cr_new. reflexivity. Qed.
Definition buf4 : slc := {| s_arr := 0; s_off := 0; s_len := 4; s_cap := 4 |}.

(** C33 refuted without the discipline: putting one buffer twice hands the same memory to
    two clients. *)
Lemma C33_double_put_refuted_pf : exists c x y, creach 10 4 (fun _ => True) c /\
  nth_error (c_held c) 0 = Some x /\ nth_error (c_held c) 1 = Some y /\ s_arr x = s_arr y.
Proof.
  destruct (do_ops client0 [OPutForeign buf4; OPutForeign buf4; OGet; OGet]) as [c|] eqn:E; [|discriminate E].
  exists c, buf4, buf4. split; [eapply do_ops_reach; [|apply client0_reach|exact E]; repeat constructor|].
  vm_compute in E. injection E as <-. repeat split.
Qed.

(** C34: no width ever retains more than maxSize buffers; Put reads or writes no buffer
    content; a buffer put into a non-full channel comes back in first-in-first-out order
    showing whatever its array contains; and a buffer that is not recycled is zeroed. *)
Lemma C34_bounded_not_cleared_pf : forall maxSize width c, creach maxSize width (fun _ => True) c ->
  (forall w, (length (chan_of (p_chans (c_pool c)) w) <= Z.to_nat maxSize)%nat) /\
  (forall b, chan_of (p_chans (c_pool c)) (s_cap b) = [] -> 1 <= maxSize ->
     exists p', GetBySize (Put (c_pool c) b) (c_heap c) (s_cap b) = Ok (p', c_heap c, full_slice b)) /\
  (forall n p h b, GetBySize (c_pool c) (c_heap c) n = Ok (p, h, b) ->
     (h = c_heap c /\ chan_of (p_chans (c_pool c)) n = b :: chan_of (p_chans p) n) \/
     (chan_of (p_chans (c_pool c)) n = [] /\ h_data h (s_arr b) = repeat (byte_of 0) (Z.to_nat n) /\ s_arr b = h_next (c_heap c))).
Proof.
  intros m w c Hr. pose proof (creach_pinv _ _ _ _ Hr) as (H1 & H2 & H3). split; [intros; apply H3|]. split.
  - intros b Hb Hm. unfold Put. rewrite Hb, H2. cbn [length]. destruct (Nat.ltb_spec 0 (Z.to_nat m)); [|lia].
    unfold GetBySize. cbn [p_chans]. rewrite chan_of_upd by reflexivity. rewrite Z.eqb_refl, Hb. cbn [app]. eauto.
  - intros n p h b E. unfold GetBySize in E. destruct (chan_of (p_chans (c_pool c)) n) as [|x r] eqn:Ec.
    + destruct (Z.ltb_spec n 0); [discriminate|]. cbn in E. injection E as <- <- <-. right. split; [reflexivity|]. cbn. rewrite Nat.eqb_refl. auto.
    + injection E as <- <- <-. left. split; [reflexivity|]. cbn [p_chans]. rewrite chan_of_upd by reflexivity. rewrite Z.eqb_refl, Ec. reflexivity.
Qed.

(** Non-vacuity, and the leak: a recycled buffer shows the bytes of its previous owner. *)
Lemma C34_example_pf : exists c x, creach 10 4 disciplined c /\ c_held c = [x] /\ h_read (c_heap c) x = B "abcd".
Proof.
  destruct (do_ops client0 [OGet; OWrite 0 (B "abcd"); OPut 0 buf4; OGet]) as [c|] eqn:E; [|discriminate E].
  exists c, buf4. split; [eapply do_ops_reach; [|apply client0_reach|exact E]; repeat constructor|].
  vm_compute in E. injection E as <-. split; vm_compute; reflexivity.
Qed.

(** C32: after a recycled, a fresh and a foreign buffer; the widths are those asked for. *)
Lemma C32_example_pf : exists c, creach 10 4 (fun _ => True) c /\ map s_len (c_held c) = [4; 7; 7] /\ map s_arr (c_held c) = [0%nat; 1%nat; 5%nat].
Proof.
  destruct (do_ops client0 [OGet; OPut 0 {| s_arr := 0; s_off := 0; s_len := 1; s_cap := 4 |}; OGet; OGetBySize 7; OPutForeign {| s_arr := 5; s_off := 0; s_len := 2; s_cap := 7 |}; OGetBySize 7]) as [c|] eqn:E; [|discriminate E].
  exists c. split; [eapply do_ops_reach; [|apply client0_reach|exact E]; repeat constructor|].
  vm_compute in E. injection E as <-. split; reflexivity.
Qed.
(** C33: two held buffers and one in the pool, all different, after a disciplined history. *)
Lemma C33_example_pf : exists c x, creach 10 4 disciplined c /\ map s_arr (c_held c) = [1%nat; 2%nat] /\ chan_of (p_chans (c_pool c)) 4 = [x] /\ s_arr x = 0%nat.
Proof.
  destruct (do_ops client0 [OGet; OGet; OGetBySize 9; OPut 0 buf4]) as [c|] eqn:E; [|discriminate E].
  exists c, buf4. split; [eapply do_ops_reach; [|apply client0_reach|exact E]; repeat constructor|].
  vm_compute in E. injection E as <-. repeat split.
Qed.
