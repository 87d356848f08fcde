(** MemProofs.v -- a program that keeps the rule runs like one with copying conversions. *)
From Verif Require Import Base GoLib Mem MemSpec.
Local Open Scope list_scope.

Lemma store_length bs : forall data i, length (store data i bs) = length data.
Proof. induction bs as [|c t IH]; intros data i; [reflexivity|]. cbn [store]. rewrite IH. apply list_set_length. Qed.

(** A slice register: family, direct result of Str2Bytes, and the headers in both programs. *)
Record reg := { g_f : nat; g_d : bool; g_c : goslice; g_e : goslice }.
Definition win (m : memory) (l : goslice) : bytes := bytes_at m (l_blk l) (l_off l) (l_cap l).

Record inv (k : nat) (fz : list nat) (mc md : memory) (rs : list reg) (ss : list (gostr * gostr)) : Prop := {
  i_frz : forall f, In f fz -> f < k;
  i_reg : forall r, In r rs -> g_f r < k /\ l_blk (g_c r) < length mc /\ l_blk (g_e r) < length md /\ l_len (g_c r) = l_len (g_e r) /\ l_cap (g_c r) = l_cap (g_e r) /\
            l_len (g_c r) <= l_cap (g_c r) /\ win mc (g_c r) = win md (g_e r) /\ length (win mc (g_c r)) = l_cap (g_c r) /\ (g_d r = true -> l_cap (g_c r) = l_len (g_c r));
  i_live : forall r, In r rs -> ~ In (g_f r) fz -> exists data, nth_error mc (l_blk (g_c r)) = Some {| bk_data := data; bk_rw := true |} /\
            nth_error md (l_blk (g_e r)) = Some {| bk_data := data; bk_rw := true |} /\ l_off (g_c r) = l_off (g_e r);
  i_sep : forall r q, In r rs -> In q rs -> ~ In (g_f r) fz -> g_f r <> g_f q -> l_blk (g_c r) <> l_blk (g_c q) /\ l_blk (g_e r) <> l_blk (g_e q);
  i_eq : forall r q, In r rs -> In q rs -> ~ In (g_f r) fz -> g_f r = g_f q -> (l_blk (g_c r) = l_blk (g_c q) <-> l_blk (g_e r) = l_blk (g_e q));
  i_sepstr : forall r s, In r rs -> In s ss -> ~ In (g_f r) fz -> l_blk (g_c r) <> s_blk (fst s) /\ l_blk (g_e r) <> s_blk (snd s);
  i_str : forall s, In s ss -> s_blk (fst s) < length mc /\ s_blk (snd s) < length md /\ s_len (fst s) = s_len (snd s) /\
            str_text mc (fst s) = str_text md (snd s) /\ length (str_text mc (fst s)) = s_len (fst s) }.

Lemma nth_ext {A} (m x : list A) b : b < length m -> nth_error (m ++ x) b = nth_error m b.
Proof. intros H. apply nth_error_app1. exact H. Qed.
Lemma bytes_ext m x b o n : b < length m -> bytes_at (m ++ x) b o n = bytes_at m b o n.
Proof. intros H. unfold bytes_at. rewrite nth_ext by exact H. reflexivity. Qed.

Lemma inv_ext k fz mc md rs ss x y : inv k fz mc md rs ss -> inv k fz (mc ++ x) (md ++ y) rs ss.
Proof.
  intros [H1 H2 H3 H4 H5 H6 H7]. constructor; try assumption.
  - intros r Hr. destruct (H2 r Hr) as (A & Bc & Bd & C & D & E & F & G & I). unfold win in *. rewrite !app_length, !bytes_ext by assumption. repeat split; auto; lia.
  - intros r Hr Hl. destruct (H3 r Hr Hl) as (data & A & Bd & C). destruct (H2 r Hr) as (_ & L1 & L2 & _). exists data. rewrite !nth_ext by assumption. auto.
  - intros s Hs. destruct (H7 s Hs) as (A & Bd & C & D & E). unfold str_text in *. rewrite !app_length, !bytes_ext by assumption. repeat split; auto; lia.
Qed.
Lemma inv_freeze k fz mc md rs ss f : inv k fz mc md rs ss -> f < k -> inv k (f :: fz) mc md rs ss.
Proof.
  intros [H1 H2 H3 H4 H5 H6 H7] Hf. constructor; try assumption.
  - intros g [<-|Hg]; auto.
  - intros r Hr Hl. apply H3; [exact Hr|]. intros X; apply Hl; right; exact X.
  - intros r q Hr Hq Hl. apply H4; auto. intros X; apply Hl; right; exact X.
  - intros r q Hr Hq Hl. apply H5; auto. intros X; apply Hl; right; exact X.
  - intros r s Hr Hs Hl. apply H6; auto. intros X; apply Hl; right; exact X.
Qed.
Lemma inv_next k fz mc md rs ss : inv k fz mc md rs ss -> inv (S k) fz mc md rs ss.
Proof.
  intros [H1 H2 H3 H4 H5 H6 H7]. constructor; try assumption.
  - intros f Hf. specialize (H1 f Hf). lia.
  - intros r Hr. destruct (H2 r Hr) as (A & X). split; [lia|exact X].
Qed.

Lemma inv_add_str k fz mc md rs ss s : inv k fz mc md rs ss ->
  s_blk (fst s) < length mc -> s_blk (snd s) < length md -> s_len (fst s) = s_len (snd s) -> str_text mc (fst s) = str_text md (snd s) -> length (str_text mc (fst s)) = s_len (fst s) ->
  (forall r, In r rs -> ~ In (g_f r) fz -> l_blk (g_c r) <> s_blk (fst s) /\ l_blk (g_e r) <> s_blk (snd s)) ->
  inv k fz mc md rs (ss ++ [s]).
Proof.
  intros [H1 H2 H3 H4 H5 H6 H7] A1 A2 A3 A4 A5 A6. constructor; try assumption.
  - intros r s' Hr Hs Hl. apply in_app_or in Hs as [Hs|[<-|[]]]; [apply H6; auto|apply A6; auto].
  - intros s' Hs. apply in_app_or in Hs as [Hs|[<-|[]]]; [apply H7; exact Hs|repeat split; auto].
Qed.
Lemma inv_add_reg k fz mc md rs ss r : inv k fz mc md rs ss ->
  (g_f r < k /\ l_blk (g_c r) < length mc /\ l_blk (g_e r) < length md /\ l_len (g_c r) = l_len (g_e r) /\ l_cap (g_c r) = l_cap (g_e r) /\
            l_len (g_c r) <= l_cap (g_c r) /\ win mc (g_c r) = win md (g_e r) /\ length (win mc (g_c r)) = l_cap (g_c r) /\ (g_d r = true -> l_cap (g_c r) = l_len (g_c r))) ->
  (~ In (g_f r) fz -> exists data, nth_error mc (l_blk (g_c r)) = Some {| bk_data := data; bk_rw := true |} /\
            nth_error md (l_blk (g_e r)) = Some {| bk_data := data; bk_rw := true |} /\ l_off (g_c r) = l_off (g_e r)) ->
  (forall q, In q rs -> ~ In (g_f r) fz \/ ~ In (g_f q) fz -> g_f r <> g_f q -> l_blk (g_c r) <> l_blk (g_c q) /\ l_blk (g_e r) <> l_blk (g_e q)) ->
  (forall q, In q rs -> ~ In (g_f r) fz -> g_f r = g_f q -> (l_blk (g_c r) = l_blk (g_c q) <-> l_blk (g_e r) = l_blk (g_e q))) ->
  (forall s, In s ss -> ~ In (g_f r) fz -> l_blk (g_c r) <> s_blk (fst s) /\ l_blk (g_e r) <> s_blk (snd s)) ->
  inv k fz mc md (rs ++ [r]) ss.
Proof.
  intros [H1 H2 H3 H4 H5 H6 H7] A1 A2 A3 A4 A5. constructor; try assumption.
  - intros q Hq. apply in_app_or in Hq as [Hq|[<-|[]]]; auto.
  - intros q Hq Hl. apply in_app_or in Hq as [Hq|[<-|[]]]; auto.
  - intros a b Ha Hb Hl Hn. apply in_app_or in Ha as [Ha|[<-|[]]]; apply in_app_or in Hb as [Hb|[<-|[]]].
    + apply H4; auto.
    + destruct (A3 a Ha (or_intror Hl) (not_eq_sym Hn)). split; apply not_eq_sym; assumption.
    + apply A3; auto.
    + destruct (Hn eq_refl).
  - intros a b Ha Hb Hl Hn. apply in_app_or in Ha as [Ha|[<-|[]]]; apply in_app_or in Hb as [Hb|[<-|[]]].
    + apply H5; auto.
    + rewrite Hn in Hl. specialize (A4 a Ha Hl (eq_sym Hn)). split; intros X; symmetry; apply A4; symmetry; exact X.
    + apply A4; auto.
    + split; auto.
  - intros a s Ha Hs Hl. apply in_app_or in Ha as [Ha|[<-|[]]]; auto.
Qed.

Lemma firstn_set_out {A} (l : list A) b x : b < length l -> length (list_set l b x) = length l.
Proof. intros _. apply list_set_length. Qed.

(** A store into the block of a live slice, at the same place in both programs. *)
Lemma inv_store k fz mc md rs ss r i bs data : inv k fz mc md rs ss -> In r rs -> ~ In (g_f r) fz ->
  nth_error mc (l_blk (g_c r)) = Some {| bk_data := data; bk_rw := true |} -> nth_error md (l_blk (g_e r)) = Some {| bk_data := data; bk_rw := true |} ->
  inv k fz (list_set mc (l_blk (g_c r)) {| bk_data := store data i bs; bk_rw := true |}) (list_set md (l_blk (g_e r)) {| bk_data := store data i bs; bk_rw := true |}) rs ss.
Proof.
  intros I Hr Hl Ec Ed. destruct I as [H1 H2 H3 H4 H5 H6 H7].
  assert (Lc : l_blk (g_c r) < length mc) by (apply nth_error_Some; rewrite Ec; discriminate).
  assert (Ld : l_blk (g_e r) < length md) by (apply nth_error_Some; rewrite Ed; discriminate).
  assert (Out : forall q, In q rs -> g_f r <> g_f q \/ l_blk (g_c r) <> l_blk (g_c q) -> l_blk (g_c r) <> l_blk (g_c q) /\ l_blk (g_e r) <> l_blk (g_e q)).
  { intros q Hq Hn. destruct (Nat.eq_dec (g_f r) (g_f q)) as [E|E]; [|apply H4; auto]. destruct Hn as [Hn|Hn]; [destruct (Hn E)|]. split; [exact Hn|]. intros X. apply Hn. apply (H5 r q Hr Hq Hl E). exact X. }
  constructor; try assumption.
  - intros q Hq. destruct (H2 q Hq) as (A & Bc & Bd & C & D & E & F & G & I). rewrite !list_set_length.
    assert (K : win (list_set mc (l_blk (g_c r)) {| bk_data := store data i bs; bk_rw := true |}) (g_c q) = win (list_set md (l_blk (g_e r)) {| bk_data := store data i bs; bk_rw := true |}) (g_e q) /\
                length (win (list_set mc (l_blk (g_c r)) {| bk_data := store data i bs; bk_rw := true |}) (g_c q)) = l_cap (g_c q)).
    { destruct (Nat.eq_dec (l_blk (g_c r)) (l_blk (g_c q))) as [X|X].
      - destruct (Nat.eq_dec (g_f r) (g_f q)) as [Y|Y]; [|destruct (H4 r q Hr Hq Hl Y); contradiction].
        pose proof (proj1 (H5 r q Hr Hq Hl Y) X) as X'. rewrite Y in Hl. destruct (H3 q Hq Hl) as (dq & Q1 & Q2 & Q3). rewrite <- X in Q1. rewrite Ec in Q1. injection Q1 as <-.
        unfold win, bytes_at in *. rewrite <- X, <- X' in *. rewrite Ec in F, G. rewrite !list_set_nth_eq by assumption. cbn [bk_data] in *. rewrite Q3, D. split; [reflexivity|].
        rewrite firstn_length, skipn_length, store_length. rewrite firstn_length, skipn_length in G. rewrite Q3, D in G. exact G.
      - destruct (Out q Hq (or_intror X)) as [Y1 Y2]. unfold win, bytes_at in *. rewrite !list_set_nth_neq by assumption. auto. }
    destruct K as [K1 K2]. repeat split; auto.
  - intros q Hq Hlq. destruct (H3 q Hq Hlq) as (dq & Q1 & Q2 & Q3). destruct (Nat.eq_dec (l_blk (g_c r)) (l_blk (g_c q))) as [X|X].
    + destruct (Nat.eq_dec (g_f r) (g_f q)) as [Y|Y]; [|destruct (H4 r q Hr Hq Hl Y); contradiction]. pose proof (proj1 (H5 r q Hr Hq Hl Y) X) as X'.
      exists (store data i bs). rewrite <- X, <- X'. rewrite !list_set_nth_eq by assumption. auto.
    + destruct (Out q Hq (or_intror X)) as [Y1 Y2]. exists dq. rewrite !list_set_nth_neq by assumption. auto.
  - intros s Hs. destruct (H7 s Hs) as (A & Bd & C & D & E). destruct (H6 r s Hr Hs Hl) as [N1 N2]. rewrite !list_set_length. unfold str_text, bytes_at in *. rewrite !list_set_nth_neq by assumption. auto.
Qed.

(** Both programs allocate a block with the same contents. *)
Lemma win_new m data n : win (m ++ [{| bk_data := data; bk_rw := true |}]) {| l_blk := length m; l_off := 0; l_len := n; l_cap := length data |} = data.
Proof. unfold win, bytes_at. cbn [l_blk l_off l_cap]. rewrite nth_error_app2, Nat.sub_diag by lia. cbn [nth_error bk_data skipn]. apply firstn_all. Qed.
Lemma nth_new {A} (m : list A) x : nth_error (m ++ [x]) (length m) = Some x.
Proof. rewrite nth_error_app2, Nat.sub_diag by lia. reflexivity. Qed.
Lemma inv_alloc k fz mc md rs ss f data n : inv k fz mc md rs ss -> f < k -> n <= length data ->
  inv k fz (mc ++ [{| bk_data := data; bk_rw := true |}]) (md ++ [{| bk_data := data; bk_rw := true |}])
    (rs ++ [{| g_f := f; g_d := false; g_c := {| l_blk := length mc; l_off := 0; l_len := n; l_cap := length data |}; g_e := {| l_blk := length md; l_off := 0; l_len := n; l_cap := length data |} |}]) ss.
Proof.
  intros I Hf Hn. apply inv_add_reg; [apply inv_ext; exact I| | | | |]; cbn [g_f g_d g_c g_e]; rewrite ?win_new; cbn [l_blk l_off l_len l_cap].
  - rewrite !app_length. cbn [length]. repeat split; try lia; try discriminate.
  - intros _. exists data. rewrite !nth_new. auto.
  - intros q Hq _ _. destruct (i_reg _ _ _ _ _ _ I q Hq) as (_ & H1 & H2 & _). lia.
  - intros q Hq _ _. destruct (i_reg _ _ _ _ _ _ I q Hq) as (_ & H1 & H2 & _). lia.
  - intros s Hs _. destruct (i_str _ _ _ _ _ _ I s Hs) as (H1 & H2 & _). lia.
Qed.
Lemma text_new m data rw : str_text (m ++ [{| bk_data := data; bk_rw := rw |}]) {| s_blk := length m; s_off := 0; s_len := length data |} = data.
Proof. unfold str_text, bytes_at. cbn [s_blk s_off s_len]. rewrite nth_new. cbn [bk_data skipn]. apply firstn_all. Qed.
Lemma inv_alloc_str k fz mc md rs ss data rw : inv k fz mc md rs ss ->
  inv k fz (mc ++ [{| bk_data := data; bk_rw := rw |}]) (md ++ [{| bk_data := data; bk_rw := rw |}]) rs
    (ss ++ [({| s_blk := length mc; s_off := 0; s_len := length data |}, {| s_blk := length md; s_off := 0; s_len := length data |})]).
Proof.
  intros I. apply inv_add_str; [apply inv_ext; exact I| | | | | |]; cbn [fst snd]; rewrite ?text_new; cbn [s_blk s_len]; rewrite ?app_length; cbn [length]; try lia; try reflexivity.
  intros r Hr _. destruct (i_reg _ _ _ _ _ _ I r Hr) as (_ & H1 & H2 & _). lia.
Qed.

Lemma slice_win m l : l_len l <= l_cap l -> slice_bytes m l = firstn (l_len l) (win m l).
Proof.
  intros H. unfold slice_bytes, win, bytes_at. destruct (nth_error m (l_blk l)); [|destruct (l_len l); reflexivity]. rewrite firstn_firstn. f_equal. lia.
Qed.
Lemma skipn_skipn' {A} i : forall o (l : list A), skipn i (skipn o l) = skipn (o + i) l.
Proof. induction o as [|o IH]; intros l; [reflexivity|]. destruct l; [destruct i; reflexivity|]. apply IH. Qed.
Lemma bytes_sub m b o n i : bytes_at m b (o + i) (n - i) = skipn i (bytes_at m b o n).
Proof.
  unfold bytes_at. destruct (nth_error m b) as [k|]; [|destruct i; reflexivity]. rewrite skipn_firstn_comm. f_equal. rewrite skipn_skipn'. reflexivity.
Qed.
Lemma bytes_firstn m b o n j : j <= n -> bytes_at m b o j = firstn j (bytes_at m b o n).
Proof. intros H. unfold bytes_at. destruct (nth_error m b); [|destruct j; reflexivity]. rewrite firstn_firstn. f_equal. lia. Qed.
Lemma bytes_range m b o n i j : i <= j -> j <= n -> bytes_at m b (o + i) (j - i) = skipn i (firstn j (bytes_at m b o n)).
Proof. intros H1 H2. rewrite <- (bytes_firstn m b o n j H2). apply bytes_sub. Qed.

Definition rel (k : book) (c d : cfg) : Prop := exists rs ss, inv (k_next k) (k_frozen k) (c_mem c) (c_mem d) rs ss /\
  c_slcs c = map g_c rs /\ c_slcs d = map g_e rs /\ k_family k = map g_f rs /\ k_direct k = map g_d rs /\ c_strs c = map fst ss /\ c_strs d = map snd ss.
Definition keeps (c c' : cfg) : Prop := exists x, c_strs c' = c_strs c ++ x /\ forall s, In s (c_strs c) -> str_text (c_mem c') s = str_text (c_mem c) s.

Ltac done6 := repeat (split; [reflexivity || assumption|]); reflexivity || assumption.
Ltac regs := rewrite ?map_app; cbn [map g_f g_d g_c g_e fst snd].

Lemma rel_new_slice k c d data n : rel k c d -> n <= length data -> rel (fresh k false false) (new_slice c data n) (new_slice d data n).
Proof.
  intros (rs & ss & I & A1 & A2 & A3 & A4 & A5 & A6) Hn. eexists (rs ++ [_]), ss. split; [apply (inv_alloc (S (k_next k)) _ _ _ _ _ (k_next k) data n); [apply inv_next; exact I|lia|exact Hn]|].
  unfold new_slice, fresh. cbn [c_slcs c_strs k_family k_direct]. regs. rewrite A1, A2, A3, A4. done6.
Qed.
Lemma rel_new_same k c d f data n : rel k c d -> n <= length data -> In f (k_family k) -> rel (same k f) (new_slice c data n) (new_slice d data n).
Proof.
  intros (rs & ss & I & A1 & A2 & A3 & A4 & A5 & A6) Hn Hf. eexists (rs ++ [_]), ss. split.
  - apply (inv_alloc (k_next k) _ _ _ _ _ f data n); [exact I| |exact Hn]. rewrite A3 in Hf. apply in_map_iff in Hf as (r & <- & Hr). apply (i_reg _ _ _ _ _ _ I r Hr).
  - unfold new_slice, same. cbn [c_slcs c_strs k_family k_direct]. regs. rewrite A1, A2, A3, A4. done6.
Qed.
Lemma rel_new_str k c d data rw : rel k c d -> rel k (new_str c data rw) (new_str d data rw).
Proof.
  intros (rs & ss & I & A1 & A2 & A3 & A4 & A5 & A6). eexists rs, (ss ++ [_]). split; [apply inv_alloc_str; exact I|].
  unfold new_str. cbn [c_slcs c_strs]. regs. rewrite A5, A6. done6.
Qed.

Lemma rel_strs k c d : rel k c d -> forall s, In s (c_strs c) -> s_blk s < length (c_mem c).
Proof. intros (rs & ss & I & A1 & A2 & A3 & A4 & A5 & A6) s Hs. rewrite A5 in Hs. apply in_map_iff in Hs as (p & <- & Hp). apply (i_str _ _ _ _ _ _ I p Hp). Qed.
Lemma keeps_ext k c d c' m x : rel k c d -> c_mem c' = c_mem c ++ m -> c_strs c' = c_strs c ++ x -> keeps c c'.
Proof. intros R E1 E2. exists x. split; [exact E2|]. intros s Hs. rewrite E1. apply bytes_ext. eapply rel_strs; eassumption. Qed.
Lemma keeps_same k c d c' x : rel k c d -> c_mem c' = c_mem c -> c_strs c' = c_strs c ++ x -> keeps c c'.
Proof. intros R E1 E2. eapply keeps_ext with (m := []); [exact R|rewrite E1, app_nil_r; reflexivity|exact E2]. Qed.


(** One operation. *)
Definition simulated (c : cfg) (x y : outcome) (t : list op) : Prop :=
  match x with
  | Run c' => exists k' d', y = Run d' /\ rel k' c' d' /\ keeps_rule k' t /\ keeps c c'
  | Panics => y = Panics
  | Crash => False
  | NoProgram => y = NoProgram
  end.

Lemma sim_poke k c d rs ss r i bs : inv (k_next k) (k_frozen k) (c_mem c) (c_mem d) rs ss -> In r rs -> ~ In (g_f r) (k_frozen k) -> c_strs c = map fst ss ->
  exists mc md, poke c (l_blk (g_c r)) (l_off (g_c r) + i) bs = Run {| c_mem := mc; c_strs := c_strs c; c_slcs := c_slcs c |} /\
    poke d (l_blk (g_e r)) (l_off (g_e r) + i) bs = Run {| c_mem := md; c_strs := c_strs d; c_slcs := c_slcs d |} /\
    inv (k_next k) (k_frozen k) mc md rs ss /\ (forall s, In s (c_strs c) -> str_text mc s = str_text (c_mem c) s).
Proof.
  intros I Hr Hl As. destruct bs as [|b bs].
  { exists (c_mem c), (c_mem d). cbn [poke]. split; [destruct c; reflexivity|]. split; [destruct d; reflexivity|]. auto. }
  destruct (i_live _ _ _ _ _ _ I r Hr Hl) as (data & Ec & Ed & Eo). unfold poke. rewrite Ec, Ed, Eo. cbn [bk_rw bk_data]. eexists _, _. split; [reflexivity|]. split; [reflexivity|].
  split; [apply inv_store; assumption|]. intros s Hs. rewrite As in Hs. apply in_map_iff in Hs as (p & <- & Hp). destruct (i_sepstr _ _ _ _ _ _ I r p Hr Hp Hl) as [N _].
  unfold str_text, bytes_at. rewrite list_set_nth_neq by exact N. reflexivity.
Qed.

Lemma step_sim k c d o t : keeps_rule k (o :: t) -> rel k c d -> simulated c (exec c o) (exec d (copying o)) t.
Proof.
  intros K R. pose proof R as (rs & ss & I & A1 & A2 & A3 & A4 & A5 & A6).
  inversion K as [|? ? ? Ho Kt|? ? ? Ho Kt|? s ? Kt|? l f ? Hf Kt|? l i j f ? Hf Kt|? l i x f ? Hf Hz Kt|? l bs g f ? Hf Hz Kt|? l bs g ? Hb Hd Kt]; subst.
  - destruct o as [bs| | |l|s i j| | | | | |s]; try destruct Ho; cbn [copying exec].
    + exists k. eexists. split; [reflexivity|]. split; [apply rel_new_str; exact R|]. split; [exact Kt|]. eapply keeps_ext; [exact R|reflexivity|reflexivity].
    + rewrite A1, A2, !nth_error_map. destruct (nth_error rs l) as [r|] eqn:E; cbn [option_map on]; [|reflexivity].
      destruct (i_reg _ _ _ _ _ _ I r (nth_error_In _ _ E)) as (_ & B1 & B2 & B3 & B4 & B5 & B6 & B7 & _).
      rewrite (slice_win (c_mem d)) by lia. rewrite <- B6, <- B3, <- slice_win by exact B5.
      exists k. eexists. split; [reflexivity|]. split; [apply rel_new_str; exact R|]. split; [exact Kt|]. eapply keeps_ext; [exact R|reflexivity|reflexivity].
    + rewrite A5, A6, !nth_error_map. destruct (nth_error ss s) as [[a b]|] eqn:E; cbn [option_map on fst snd]; [|reflexivity].
      pose proof (nth_error_In _ _ E) as Hin. destruct (i_str _ _ _ _ _ _ I _ Hin) as (B1 & B2 & B3 & B4 & B5). cbn [fst snd] in *. rewrite <- B3. destruct ((i <=? j) && (j <=? s_len a))%nat eqn:Ej; [|reflexivity].
      apply andb_true_iff in Ej as [E1 E2]. apply Nat.leb_le in E1, E2. exists k. eexists. split; [reflexivity|]. split; [|split; [exact Kt|eapply keeps_same; [exact R|reflexivity|reflexivity]]].
      exists rs, (ss ++ [({| s_blk := s_blk a; s_off := s_off a + i; s_len := j - i |}, {| s_blk := s_blk b; s_off := s_off b + i; s_len := j - i |})]). split.
      * cbn [add_str c_mem]. apply inv_add_str; [exact I|exact B1|exact B2|reflexivity| | |].
        -- unfold str_text in *. cbn [fst snd s_blk s_off s_len]. rewrite (bytes_range _ _ _ (s_len a)) by assumption. rewrite (bytes_range (c_mem d) _ _ (s_len b)) by lia. rewrite B4. reflexivity.
        -- unfold str_text in *. cbn [fst snd s_blk s_off s_len]. rewrite (bytes_range _ _ _ (s_len a)) by assumption. rewrite skipn_length, firstn_length. lia.
        -- intros r Hr Hl. exact (i_sepstr _ _ _ _ _ _ I r _ Hr Hin Hl).
      * unfold add_str. cbn [c_slcs c_strs]. regs. rewrite A5, A6. done6.
    + rewrite A5, A6, !nth_error_map. destruct (nth_error ss s) as [[a b]|] eqn:E; cbn [option_map on fst snd]; [|reflexivity].
      destruct (i_str _ _ _ _ _ _ I _ (nth_error_In _ _ E)) as (B1 & B2 & B3 & B4 & B5). cbn [fst snd] in *.
      unfold Str2Bytes, str_words, slice_at. cbn [on]. unfold slice_bytes. cbn [l_blk l_off l_len]. fold (str_text (c_mem c) a). fold (str_text (c_mem d) b). rewrite <- B4.
      exists k. eexists. split; [reflexivity|]. split; [apply rel_new_str; exact R|]. split; [exact Kt|]. eapply keeps_ext; [exact R|reflexivity|reflexivity].
  - destruct o as [| n cap|s cap| | | | | | | | ]; try destruct Ho; cbn [copying exec].
    + destruct (Nat.leb_spec n cap); [|reflexivity]. eexists. eexists. split; [reflexivity|]. split; [apply rel_new_slice; [exact R|unfold zero_bytes; rewrite repeat_length; exact H]|]. split; [exact Kt|]. eapply (keeps_ext _ _ _ _ _ []); [exact R|reflexivity|symmetry; apply app_nil_r].
    + rewrite A5, A6, !nth_error_map. destruct (nth_error ss s) as [[a b]|] eqn:E; cbn [option_map on fst snd]; [|reflexivity].
      destruct (i_str _ _ _ _ _ _ I _ (nth_error_In _ _ E)) as (B1 & B2 & B3 & B4 & B5). cbn [fst snd] in *. cbv zeta. rewrite <- B4.
      eexists. eexists. split; [reflexivity|]. split; [apply rel_new_slice; [exact R|rewrite app_length; lia]|]. split; [exact Kt|]. eapply (keeps_ext _ _ _ _ _ []); [exact R|reflexivity|symmetry; apply app_nil_r].
  - cbn [copying exec]. rewrite A5, A6, !nth_error_map. destruct (nth_error ss s) as [[a b]|] eqn:E; cbn [option_map on fst snd]; [|reflexivity].
    pose proof (nth_error_In _ _ E) as Hin. destruct (i_str _ _ _ _ _ _ I _ Hin) as (B1 & B2 & B3 & B4 & B5). cbn [fst snd] in *.
    unfold Str2Bytes, str_words, slice_at. cbn [on]. cbv zeta. cbn [Nat.sub]. unfold zero_bytes. cbn [repeat]. rewrite app_nil_r, <- B4.
    eexists. eexists. split; [reflexivity|]. split; [|split; [exact Kt|eapply (keeps_same _ _ _ _ []); [exact R|reflexivity|symmetry; apply app_nil_r]]].
    exists (rs ++ [{| g_f := k_next k; g_d := true; g_c := {| l_blk := s_blk a; l_off := s_off a; l_len := s_len a; l_cap := s_len a |};
      g_e := {| l_blk := length (c_mem d); l_off := 0; l_len := length (str_text (c_mem c) a); l_cap := length (str_text (c_mem c) a) |} |}]), ss. split.
    + cbn [fresh k_next k_frozen]. apply inv_add_reg; cbn [g_f g_d g_c g_e].
      * apply inv_freeze; [|lia]. apply inv_next. unfold add_slice, new_slice. cbn [c_mem]. rewrite <- (app_nil_r (c_mem c)). apply inv_ext. exact I.
      * unfold add_slice, new_slice. cbn [c_mem l_blk l_off l_len l_cap]. rewrite win_new, app_length. cbn [length]. unfold win. cbn [l_blk l_off l_cap]. fold (str_text (c_mem c) a). repeat split; try lia.
      * intros H. destruct H. left. reflexivity.
      * cbn [l_blk]. intros q Hq [H|H] Hn; [destruct H; left; reflexivity|]. assert (Hl : ~ In (g_f q) (k_frozen k)) by (intros X; apply H; right; exact X).
        destruct (i_sepstr _ _ _ _ _ _ I q _ Hq Hin Hl) as [N _]. destruct (i_reg _ _ _ _ _ _ I q Hq) as (_ & _ & L & _). cbn [fst] in N. split; [congruence|lia].
      * intros q Hq H. destruct H. left. reflexivity.
      * intros q Hq H. destruct H. left. reflexivity.
    + unfold add_slice, new_slice, fresh. cbn [c_slcs c_strs k_family k_direct]. regs. rewrite A1, A2, A3, A4. done6.
  - rewrite A3, nth_error_map in Hf. cbn [copying exec]. rewrite A1, A2, !nth_error_map. destruct (nth_error rs l) as [r|] eqn:E; cbn [option_map on] in Hf |- *; [|reflexivity]. injection Hf as Hf.
    pose proof (nth_error_In _ _ E) as Hin. destruct (i_reg _ _ _ _ _ _ I r Hin) as (B0 & B1 & B2 & B3 & B4 & B5 & B6 & B7 & _).
    rewrite (slice_win (c_mem d)) by lia. rewrite <- B6, <- B3, <- slice_win by exact B5.
    unfold Bytes2Str, slice_words, str_at. cbn [on]. eexists. eexists. split; [reflexivity|]. split; [|split; [exact Kt|eapply keeps_same; [exact R|reflexivity|reflexivity]]].
    assert (Ls : length (slice_bytes (c_mem c) (g_c r)) = l_len (g_c r)) by (rewrite slice_win by exact B5; rewrite firstn_length; lia).
    exists rs, (ss ++ [({| s_blk := l_blk (g_c r); s_off := l_off (g_c r); s_len := l_len (g_c r) |}, {| s_blk := length (c_mem d); s_off := 0; s_len := length (slice_bytes (c_mem c) (g_c r)) |})]). split.
    + cbn [freeze k_next k_frozen]. apply inv_add_str; cbn [fst snd].
      * apply inv_freeze; [|lia]. unfold add_str, new_str. cbn [c_mem]. rewrite <- (app_nil_r (c_mem c)). apply inv_ext. exact I.
      * exact B1.
      * unfold new_str. cbn [c_mem s_blk]. rewrite app_length. cbn [length]. lia.
      * cbn [s_len]. lia.
      * unfold new_str. cbn [c_mem]. rewrite text_new. reflexivity.
      * exact Ls.
      * cbn [s_blk]. intros q Hq H. assert (Hl : ~ In (g_f q) (k_frozen k)) by (intros X; apply H; right; exact X).
        assert (Hn : g_f q <> g_f r) by (intros X; apply H; left; rewrite X; symmetry; exact Hf).
        destruct (i_sep _ _ _ _ _ _ I q r Hq Hin Hl Hn) as [N _]. destruct (i_reg _ _ _ _ _ _ I q Hq) as (_ & _ & L & _). split; [exact N|lia].
    + unfold add_str, new_str, freeze. cbn [c_slcs c_strs k_family k_direct]. regs. rewrite A5, A6. done6.
  - rewrite A3, nth_error_map in Hf. cbn [copying exec]. rewrite A1, A2, !nth_error_map. destruct (nth_error rs l) as [r|] eqn:E; cbn [option_map on] in Hf |- *; [|reflexivity]. injection Hf as Hf.
    pose proof (nth_error_In _ _ E) as Hin. destruct (i_reg _ _ _ _ _ _ I r Hin) as (B0 & B1 & B2 & B3 & B4 & B5 & B6 & B7 & _). rewrite <- B4.
    destruct ((i <=? j) && (j <=? l_cap (g_c r)))%nat eqn:Ej; [|reflexivity]. apply andb_true_iff in Ej as [E1 E2]. apply Nat.leb_le in E1, E2.
    eexists. eexists. split; [reflexivity|]. split; [|split; [exact Kt|eapply (keeps_same _ _ _ _ []); [exact R|reflexivity|symmetry; apply app_nil_r]]].
    exists (rs ++ [{| g_f := f; g_d := false; g_c := {| l_blk := l_blk (g_c r); l_off := l_off (g_c r) + i; l_len := j - i; l_cap := l_cap (g_c r) - i |};
      g_e := {| l_blk := l_blk (g_e r); l_off := l_off (g_e r) + i; l_len := j - i; l_cap := l_cap (g_c r) - i |} |}]), ss. split.
    + cbn [same k_next k_frozen add_slice c_mem]. apply inv_add_reg; cbn [g_f g_d g_c g_e l_blk l_off l_len l_cap]; rewrite <- ?Hf.
      * exact I.
      * unfold win in *. cbn [l_blk l_off l_cap]. rewrite !bytes_sub. rewrite <- B4 in B6. rewrite <- B6. rewrite skipn_length. repeat split; try lia; try assumption; discriminate.
      * intros Hl. destruct (i_live _ _ _ _ _ _ I r Hin Hl) as (data & L1 & L2 & L3). exists data. rewrite L3. auto.
      * intros q Hq [H|H] Hn; [apply (i_sep _ _ _ _ _ _ I r q Hin Hq H Hn)|]. destruct (i_sep _ _ _ _ _ _ I q r Hq Hin H (not_eq_sym Hn)). split; apply not_eq_sym; assumption.
      * intros q Hq H Hn. apply (i_eq _ _ _ _ _ _ I r q Hin Hq H Hn).
      * intros s Hs H. apply (i_sepstr _ _ _ _ _ _ I r s Hin Hs H).
    + unfold add_slice, same. cbn [c_slcs c_strs k_family k_direct]. regs. rewrite A1, A2, A3, A4. done6.
  - rewrite A3, nth_error_map in Hf. cbn [copying exec]. rewrite A1, A2, !nth_error_map. destruct (nth_error rs l) as [r|] eqn:E; cbn [option_map on] in Hf |- *; [|reflexivity]. injection Hf as Hf.
    pose proof (nth_error_In _ _ E) as Hin. destruct (i_reg _ _ _ _ _ _ I r Hin) as (B0 & B1 & B2 & B3 & B4 & B5 & B6 & B7 & _). rewrite <- B3.
    destruct (i <? l_len (g_c r))%nat; [|reflexivity]. rewrite <- Hf in Hz. destruct (sim_poke k c d rs ss r i [x] I Hin Hz A5) as (mc & md & P1 & P2 & I' & Hs). rewrite P1, P2.
    exists k. eexists. split; [reflexivity|]. split; [exists rs, ss; done6|]. split; [exact Kt|]. exists []. split; [symmetry; apply app_nil_r|exact Hs].
  - rewrite A3, nth_error_map in Hf. cbn [copying exec]. rewrite A1, A2, !nth_error_map. destruct (nth_error rs l) as [r|] eqn:E; cbn [option_map on] in Hf |- *; [|reflexivity]. injection Hf as Hf.
    pose proof (nth_error_In _ _ E) as Hin. destruct (i_reg _ _ _ _ _ _ I r Hin) as (B0 & B1 & B2 & B3 & B4 & B5 & B6 & B7 & _). cbv zeta. rewrite <- B3, <- B4. rewrite <- Hf in Hz.
    destruct (Nat.leb_spec (l_len (g_c r) + length bs) (l_cap (g_c r))) as [H|H].
    + destruct (sim_poke k c d rs ss r (l_len (g_c r)) bs I Hin Hz A5) as (mc & md & P1 & P2 & I' & Hs). rewrite P1, P2. cbn [after].
      eexists. eexists. split; [reflexivity|]. split; [|split; [exact Kt|exists []; split; [symmetry; apply app_nil_r|exact Hs]]].
      exists (rs ++ [{| g_f := f; g_d := false; g_c := {| l_blk := l_blk (g_c r); l_off := l_off (g_c r); l_len := l_len (g_c r) + length bs; l_cap := l_cap (g_c r) |};
        g_e := {| l_blk := l_blk (g_e r); l_off := l_off (g_e r); l_len := l_len (g_c r) + length bs; l_cap := l_cap (g_c r) |} |}]), ss. split.
      * cbn [same k_next k_frozen add_slice c_mem]. destruct (i_reg _ _ _ _ _ _ I' r Hin) as (_ & D1 & D2 & D3 & D4 & D5 & D6 & D7 & _).
        apply inv_add_reg; cbn [g_f g_d g_c g_e l_blk l_off l_len l_cap]; rewrite <- ?Hf.
        -- exact I'.
        -- unfold win in *. cbn [l_blk l_off l_cap]. rewrite <- D4 in D6. repeat split; try assumption; try lia; discriminate.
        -- intros Hl. exact (i_live _ _ _ _ _ _ I' r Hin Hl).
        -- intros q Hq [X|X] Hn; [apply (i_sep _ _ _ _ _ _ I r q Hin Hq X Hn)|]. destruct (i_sep _ _ _ _ _ _ I q r Hq Hin X (not_eq_sym Hn)). split; apply not_eq_sym; assumption.
        -- intros q Hq X Hn. apply (i_eq _ _ _ _ _ _ I r q Hin Hq X Hn).
        -- intros s Hs' X. apply (i_sepstr _ _ _ _ _ _ I r s Hin Hs' X).
      * unfold add_slice, same. cbn [c_slcs c_strs k_family k_direct]. regs. rewrite A1, A2, A3, A4. done6.
    + rewrite (slice_win (c_mem d)) by lia. rewrite <- B6, <- B3, <- slice_win by exact B5. eexists. eexists. split; [reflexivity|].
      assert (Ls : length (slice_bytes (c_mem c) (g_c r)) = l_len (g_c r)) by (rewrite slice_win by exact B5; rewrite firstn_length; lia).
      rewrite <- Hf in Kt. split; [apply (rel_new_same k c d (g_f r)); [exact R|rewrite !app_length; lia|rewrite A3; apply in_map; exact Hin]|]. split; [exact Kt|]. eapply (keeps_ext _ _ _ _ _ []); [exact R|reflexivity|symmetry; apply app_nil_r].
  - rewrite A4, nth_error_map in Hd. cbn [copying exec]. rewrite A1, A2, !nth_error_map. destruct (nth_error rs l) as [r|] eqn:E; cbn [option_map on] in Hd |- *; [|reflexivity]. injection Hd as Hd.
    pose proof (nth_error_In _ _ E) as Hin. destruct (i_reg _ _ _ _ _ _ I r Hin) as (B0 & B1 & B2 & B3 & B4 & B5 & B6 & B7 & B8). cbv zeta. rewrite <- B3, <- B4. rewrite (B8 Hd).
    destruct bs as [|b bs]; [destruct (Hb eq_refl)|]. destruct (Nat.leb_spec (l_len (g_c r) + length (b :: bs)) (l_len (g_c r))) as [H|H]; [cbn [length] in H; lia|].
    rewrite (slice_win (c_mem d)) by lia. rewrite <- B6, <- B3, <- slice_win by exact B5. eexists. eexists. split; [reflexivity|].
    assert (Ls : length (slice_bytes (c_mem c) (g_c r)) = l_len (g_c r)) by (rewrite slice_win by exact B5; rewrite firstn_length; lia).
    split; [apply rel_new_slice; [exact R|rewrite !app_length; lia]|]. split; [exact Kt|]. eapply (keeps_ext _ _ _ _ _ []); [exact R|reflexivity|symmetry; apply app_nil_r].
Qed.

Lemma keeps_trans a b c : keeps a b -> keeps b c -> keeps a c.
Proof.
  intros (x & E1 & H1) (y & E2 & H2). exists (x ++ y). split; [rewrite E2, E1, app_assoc; reflexivity|]. intros s Hs. rewrite H2; [apply H1, Hs|]. rewrite E1. apply in_or_app; left; exact Hs.
Qed.
Lemma run_sim os : forall t k c d, keeps_rule k (os ++ t) -> rel k c d -> simulated c (exec_all c os) (exec_all d (map copying os)) t.
Proof.
  induction os as [|o os IH]; intros t k c d K R.
  - exists k, d. split; [reflexivity|]. split; [exact R|]. split; [exact K|]. exists []. split; [symmetry; apply app_nil_r|auto].
  - cbn [app] in K. cbn [map exec_all]. pose proof (step_sim k c d o (os ++ t) K R) as S. destruct (exec c o) as [c'| | |]; cbn [simulated after] in *; [|rewrite S; reflexivity|destruct S|rewrite S; reflexivity].
    destruct S as (k' & d' & -> & R' & K' & Hk). cbn [after]. specialize (IH t k' c' d' K' R'). destruct (exec_all c' os); cbn [simulated] in *; auto.
    destruct IH as (k2 & d2 & E & R2 & K2 & Hk2). exists k2, d2. split; [exact E|]. split; [exact R2|]. split; [exact K2|]. eapply keeps_trans; eassumption.
Qed.
Lemma rel0 : rel book0 cfg0 cfg0.
Proof. exists [], []. split; [constructor; cbn; intros; contradiction|]. repeat split; reflexivity. Qed.
Lemma keeps_texts c c' : keeps c c' -> exists x, texts c' = texts c ++ x.
Proof.
  intros (x & E & H). exists (map (str_text (c_mem c')) x). unfold texts. rewrite E, map_app. f_equal. apply map_ext_in. exact H.
Qed.
Lemma rel_same k c d : rel k c d -> texts c = texts d /\ contents c = contents d.
Proof.
  intros (rs & ss & I & A1 & A2 & A3 & A4 & A5 & A6). unfold texts, contents. rewrite A1, A2, A5, A6, !map_map. split.
  - apply map_ext_in. intros s Hs. apply (i_str _ _ _ _ _ _ I s Hs).
  - apply map_ext_in. intros r Hr. destruct (i_reg _ _ _ _ _ _ I r Hr) as (B0 & B1 & B2 & B3 & B4 & B5 & B6 & B7 & _). rewrite !slice_win by lia. rewrite B3, B4, B6. reflexivity.
Qed.
