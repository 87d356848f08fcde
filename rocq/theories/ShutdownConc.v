(** ShutdownConc.v -- model of misc/shutdown.go for any number of callers: registrations (Clean,
    RegisterShutDownClean) step by step on the shared slice, any number of WaitShutdown calls at the
    same time, a signal channel of capacity 1, and a context that InitShutdownCtx may replace.
    (Shutdown.v is the case of one call, atomic registrations and one context.)
    Simplifications: the three words of a slice header are read and stored at once, so are the new
    elements of one append; log calls are dropped except for the call of Err().Error() inside one
    (misc/shutdown.go:50), which can panic.  A clean function is a number, and so is a context; context
    0 is context.Background(), which is never done. *)
From Verif Require Import Base WorkPool Shutdown.
Local Open Scope list_scope.

(** A slice header. *)
Record hdr := { h_arr : nat; h_len : nat; h_cap : nat }.

(** misc/shutdown.go:74-76, a call of Clean with the functions [fs]: before reading ctx.cleans, in append,
    before the assignment. *)
Inductive regpc := RgRead (fs : list nat) | RgApp (fs : list nat) (h : hdr) | RgStore (fs : list nat) (h : hdr).

(** misc/shutdown.go:46-68, a call of WaitShutdown: before :49 evaluates ctx.innerCtx.Done(), in the select
    of :48 with that context, before :54, in the select of :61, before :67, returned, or panicked (:50). *)
Inductive wpc := WEnter | WSel (c : nat) | WGot | WClean | WWoken (finished : bool) | WReturned (finished : bool) | WPanicked.
(** misc/shutdown.go:80-91, the goroutine of runCleans of one call; [LpLoop h i]: ranging over the slice [h]. *)
Inductive lpc := LpIdle | LpAdd | LpRange | LpLoop (h : hdr) (i : nat) | LpWait | LpSend | LpGone.

(** One call with its goroutines and its WaitGroup.  Ghost fields: [q_before]: the functions registered when
    runCleans was called; [q_late]: another registration took effect before :83 read the slice;
    [q_calls]/[q_ended]: functions this call has started and which have returned. *)
Record wait := { q_pc : wpc; q_run : lpc; q_gos : list (nat * cpc); q_wg : nat; q_before : list nat; q_late : bool; q_calls : list nat; q_ended : list nat }.

(** [x_arr]: the arrays behind slices.  Ghost fields: [x_registered]: the functions of all completed
    registrations, in order of completion; [x_sigs]/[x_taken]: signals sent to the process and received by calls. *)
Record sx := {
  x_arr : nat -> nat -> nat; x_next : nat; x_hdr : hdr; x_ctx : nat; x_done : nat -> bool; x_sig : bool; x_status : status;
  x_regs : list regpc; x_waits : list wait; x_registered : list nat; x_sigs : nat; x_taken : nat; x_dead : bool }.

(** misc/shutdown.go:95-105: the slice is made with length and capacity 0. *)
Definition sx0 (c : nat) : sx :=
  {| x_arr := fun _ _ => 0; x_next := 1; x_hdr := {| h_arr := 0; h_len := 0; h_cap := 0 |}; x_ctx := c; x_done := fun _ => false; x_sig := false;
     x_status := Running; x_regs := []; x_waits := []; x_registered := []; x_sigs := 0; x_taken := 0; x_dead := false |}.

(** misc/shutdown.go:46: a call begins. *)
Definition wait0 : wait := {| q_pc := WEnter; q_run := LpIdle; q_gos := []; q_wg := 0; q_before := []; q_late := false; q_calls := []; q_ended := [] |}.

Definition wset_pc (q : wait) (p : wpc) (r : lpc) : wait :=
  {| q_pc := p; q_run := r; q_gos := q_gos q; q_wg := q_wg q; q_before := q_before q; q_late := q_late q; q_calls := q_calls q; q_ended := q_ended q |}.
Definition wset_go (q : wait) (r : lpc) (g : list (nat * cpc)) (n : nat) (c d : list nat) : wait :=
  {| q_pc := q_pc q; q_run := r; q_gos := g; q_wg := n; q_before := q_before q; q_late := q_late q; q_calls := c; q_ended := d |}.

(** What a slice holds. *)
Definition contents (s : sx) (h : hdr) : list nat := map (x_arr s (h_arr h)) (seq 0 (h_len h)).

(** Steps of one call and its goroutines that change nothing else. *)
Inductive q_step (s : sx) (q : wait) : wait -> Prop :=
(** :49, entering the select *)
| qs_select : q_pc q = WEnter -> q_step s q (wset_pc q (WSel (x_ctx s)) (q_run q))
(** :49-50: the context is done; ctx.innerCtx is read again for the log, and Err() of a context that is not done is nil *)
| qs_done c : q_pc q = WSel c -> x_done s c = true -> x_done s (x_ctx s) = true -> q_step s q (wset_pc q WGot (q_run q))
| qs_done_panic c : q_pc q = WSel c -> x_done s c = true -> x_done s (x_ctx s) = false -> q_step s q (wset_pc q WPanicked (q_run q))
(** :64; :62 and :90 meet on the unbuffered channel *)
| qs_timeout : q_pc q = WClean -> q_step s q (wset_pc q (WWoken false) (q_run q))
| qs_meet : q_pc q = WClean -> q_run q = LpSend -> q_step s q (wset_pc q (WWoken true) LpGone)
(** :82; :83 reads the slice header once *)
| qs_add : q_run q = LpAdd -> q_step s q (wset_go q LpRange (q_gos q) (q_wg q + h_len (x_hdr s)) (q_calls q) (q_ended q))
| qs_range : q_run q = LpRange -> q_step s q (wset_go q (LpLoop (x_hdr s) 0) (q_gos q) (q_wg q) (q_calls q) (q_ended q))
(** :83-87: reads the next element, launches a goroutine for it *)
| qs_launch h i : q_run q = LpLoop h i -> i < h_len h ->
    q_step s q (wset_go q (LpLoop h (S i)) (q_gos q ++ [(x_arr s (h_arr h) i, CStart)]) (q_wg q) (q_calls q) (q_ended q))
| qs_launched h : q_run q = LpLoop h (h_len h) -> q_step s q (wset_go q LpWait (q_gos q) (q_wg q) (q_calls q) (q_ended q))
(** :89 *)
| qs_waited : q_run q = LpWait -> q_wg q = 0 -> q_step s q (wset_go q LpSend (q_gos q) (q_wg q) (q_calls q) (q_ended q))
(** :85 begins, returns; :86 *)
| qs_call l1 f l2 : q_gos q = l1 ++ (f, CStart) :: l2 -> q_step s q (wset_go q (q_run q) (l1 ++ (f, CRun) :: l2) (q_wg q) (q_calls q ++ [f]) (q_ended q))
| qs_end l1 f l2 : q_gos q = l1 ++ (f, CRun) :: l2 -> q_step s q (wset_go q (q_run q) (l1 ++ (f, CEnd) :: l2) (q_wg q) (q_calls q) (q_ended q ++ [f]))
| qs_wgdone l1 f l2 n : q_gos q = l1 ++ (f, CEnd) :: l2 -> q_wg q = S n -> q_step s q (wset_go q (q_run q) (l1 ++ l2) n (q_calls q) (q_ended q)).

Definition set_waits (s : sx) (ws : list wait) (st : status) (sig : bool) (tk : nat) : sx :=
  {| x_arr := x_arr s; x_next := x_next s; x_hdr := x_hdr s; x_ctx := x_ctx s; x_done := x_done s; x_sig := sig; x_status := st;
     x_regs := x_regs s; x_waits := ws; x_registered := x_registered s; x_sigs := x_sigs s; x_taken := tk; x_dead := x_dead s |}.
Definition set_envt (s : sx) (c : nat) (d : nat -> bool) (sig : bool) (n : nat) : sx :=
  {| x_arr := x_arr s; x_next := x_next s; x_hdr := x_hdr s; x_ctx := c; x_done := d; x_sig := sig; x_status := x_status s;
     x_regs := x_regs s; x_waits := x_waits s; x_registered := x_registered s; x_sigs := n; x_taken := x_taken s; x_dead := x_dead s |}.
Definition set_regs (s : sx) (a : nat -> nat -> nat) (n : nat) (rs : list regpc) : sx :=
  {| x_arr := a; x_next := n; x_hdr := x_hdr s; x_ctx := x_ctx s; x_done := x_done s; x_sig := x_sig s; x_status := x_status s;
     x_regs := rs; x_waits := x_waits s; x_registered := x_registered s; x_sigs := x_sigs s; x_taken := x_taken s; x_dead := x_dead s |}.
(** ghost: a call that has called runCleans but not yet read the slice *)
Definition mark (q : wait) : wait :=
  {| q_pc := q_pc q; q_run := q_run q; q_gos := q_gos q; q_wg := q_wg q; q_before := q_before q;
     q_late := q_late q || match q_run q with LpAdd | LpRange => true | _ => false end; q_calls := q_calls q; q_ended := q_ended q |}.
Definition stored_hdr (s : sx) (h : hdr) (rs : list regpc) (fs : list nat) : sx :=
  {| x_arr := x_arr s; x_next := x_next s; x_hdr := h; x_ctx := x_ctx s; x_done := x_done s; x_sig := x_sig s; x_status := x_status s;
     x_regs := rs; x_waits := map mark (x_waits s); x_registered := x_registered s ++ fs; x_sigs := x_sigs s; x_taken := x_taken s; x_dead := x_dead s |}.
Definition die (s : sx) : sx :=
  {| x_arr := x_arr s; x_next := x_next s; x_hdr := x_hdr s; x_ctx := x_ctx s; x_done := x_done s; x_sig := x_sig s; x_status := x_status s;
     x_regs := x_regs s; x_waits := x_waits s; x_registered := x_registered s; x_sigs := x_sigs s; x_taken := x_taken s; x_dead := true |}.

(** Writing the elements [fs] into array [a] from index [i] on. *)
Definition put_at (m : nat -> nat -> nat) (a i : nat) (fs : list nat) : nat -> nat -> nat :=
  fun a' j => if (a' =? a) && (i <=? j) && (j <? i + length fs) then nth (j - i) fs 0 else m a' j.

Inductive x_step (s : sx) : sx -> Prop :=
(** misc/shutdown.go:29-31, :74-76: Clean is called; reads the slice; append in place; append into a new array
    of a capacity of the runtime's choice; the assignment *)
| xs_reg fs : x_dead s = false -> x_step s (set_regs s (x_arr s) (x_next s) (x_regs s ++ [RgRead fs]))
| xs_reg_read l1 fs l2 : x_dead s = false -> x_regs s = l1 ++ RgRead fs :: l2 ->
    x_step s (set_regs s (x_arr s) (x_next s) (l1 ++ RgApp fs (x_hdr s) :: l2))
| xs_reg_put l1 fs h l2 : x_dead s = false -> x_regs s = l1 ++ RgApp fs h :: l2 -> h_len h + length fs <= h_cap h ->
    x_step s (set_regs s (put_at (x_arr s) (h_arr h) (h_len h) fs) (x_next s)
      (l1 ++ RgStore fs {| h_arr := h_arr h; h_len := h_len h + length fs; h_cap := h_cap h |} :: l2))
| xs_reg_grow l1 fs h l2 cap : x_dead s = false -> x_regs s = l1 ++ RgApp fs h :: l2 -> h_cap h < h_len h + length fs -> h_len h + length fs <= cap ->
    x_step s (set_regs s (put_at (x_arr s) (x_next s) 0 (contents s h ++ fs)) (S (x_next s))
      (l1 ++ RgStore fs {| h_arr := x_next s; h_len := h_len h + length fs; h_cap := cap |} :: l2))
| xs_reg_store l1 fs h l2 : x_dead s = false -> x_regs s = l1 ++ RgStore fs h :: l2 -> x_step s (stored_hdr s h (l1 ++ l2) fs)
(** misc/shutdown.go:25-27; a context is done; a SIGINT or SIGTERM (dropped when one is waiting already) *)
| xs_init c : x_dead s = false -> x_step s (set_envt s c (x_done s) (x_sig s) (x_sigs s))
| xs_cancel c : x_dead s = false -> c <> 0 -> x_step s (set_envt s (x_ctx s) (fun k => (k =? c) || x_done s k) (x_sig s) (x_sigs s))
| xs_signal : x_dead s = false -> x_step s (set_envt s (x_ctx s) (x_done s) true (S (x_sigs s)))
(** misc/shutdown.go:33-35, :46: a call begins *)
| xs_wait : x_dead s = false -> x_step s (set_waits s (x_waits s ++ [wait0]) (x_status s) (x_sig s) (x_taken s))
| xs_own l1 q q' l2 : x_dead s = false -> x_waits s = l1 ++ q :: l2 -> q_step s q q' -> x_step s (set_waits s (l1 ++ q' :: l2) (x_status s) (x_sig s) (x_taken s))
(** :51 *)
| xs_gotsig l1 q l2 c : x_dead s = false -> x_waits s = l1 ++ q :: l2 -> q_pc q = WSel c -> x_sig s = true ->
    x_step s (set_waits s (l1 ++ wset_pc q WGot (q_run q) :: l2) (x_status s) false (S (x_taken s)))
(** :54 and :61-62 *)
| xs_begin l1 q l2 : x_dead s = false -> x_waits s = l1 ++ q :: l2 -> q_pc q = WGot ->
    x_step s (set_waits s (l1 ++ {| q_pc := WClean; q_run := LpAdd; q_gos := q_gos q; q_wg := q_wg q; q_before := x_registered s; q_late := q_late q;
                                    q_calls := q_calls q; q_ended := q_ended q |} :: l2) Shutdowning (x_sig s) (x_taken s))
(** :67 *)
| xs_return l1 q l2 b : x_dead s = false -> x_waits s = l1 ++ q :: l2 -> q_pc q = WWoken b ->
    x_step s (set_waits s (l1 ++ wset_pc q (WReturned b) (q_run q) :: l2) Shutdowned (x_sig s) (x_taken s))
(** :85 panics; :86 with a counter of 0 panics *)
| xs_panic l1 q l2 g1 f g2 : x_dead s = false -> x_waits s = l1 ++ q :: l2 -> q_gos q = g1 ++ (f, CRun) :: g2 -> x_step s (die s)
| xs_negative l1 q l2 g1 f g2 : x_dead s = false -> x_waits s = l1 ++ q :: l2 -> q_gos q = g1 ++ (f, CEnd) :: g2 -> q_wg q = 0 -> x_step s (die s).

Inductive x_reach (c : nat) : sx -> Prop :=
| xr_init : x_reach c (sx0 c)
| xr_step s s' : x_reach c s -> x_step s s' -> x_reach c s'.

(** Runs in which no two registrations overlap. *)
Inductive serial_reach (c : nat) : sx -> Prop :=
| xsr_init : serial_reach c (sx0 c)
| xsr_step s s' : serial_reach c s -> x_step s s' -> length (x_regs s') <= 1 -> serial_reach c s'.
