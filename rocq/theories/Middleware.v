(** Middleware.v -- model of dht/krpc/middleware.go.

    A handler is an arbitrary sequential program that may read the world and the current
    response, change the world, write a response, call Next any number of times, return
    or panic.  [W] is whatever else the handlers can see and change, [R] a non-nil
    Response.  Handlers do not touch index and chain except through Next (the fields are
    unexported and no handler in the repository does). *)
From Verif Require Import Base.
Local Open Scope list_scope.

Section MW.
  Variables W R : Type.

  Inductive prog :=
  | PRet                                   (* return *)
  | PPanic (p : gopanic)                   (* panic(p) *)
  | PAct (f : W -> W) (k : prog)           (* change the world *)
  | PLook (k : W -> option R -> prog)      (* read the world and ctx.Response() *)
  | PWrite (r : option R) (k : prog)       (* ctx.WriteAs(r); None is a nil Response *)
  | PNext (k : prog).                      (* ctx.Next() *)

  (** dht/krpc/middleware.go:5-11.  [c_index] is index+1 (index starts at -1).
      [c_started] and [c_writes] are ghost history: positions of the handlers invoked and
      responses written so far. *)
  Record ctx := { c_index : nat; c_resp : option R; c_world : W; c_started : list nat; c_writes : list (option R) }.

  (** dht/krpc/middleware.go:13-21 *)
  Definition NewReqContext (resp : option R) (w : W) : ctx :=
    {| c_index := 0; c_resp := resp; c_world := w; c_started := []; c_writes := [] |}.

  (** Outcome: state reached and how (None: returned, Some p: panicking); the outer None
      means out of fuel. *)
  Definition out : Type := option (ctx * option gopanic).

  Definition incr (c : ctx) : ctx :=
    {| c_index := S (c_index c); c_resp := c_resp c; c_world := c_world c; c_started := c_started c; c_writes := c_writes c |}.

  (** Running one handler body, given what Next does. *)
  Fixpoint exec (next : ctx -> out) (p : prog) (c : ctx) : out :=
    match p with
    | PRet => Some (c, None)
    | PPanic q => Some (c, Some q)
    | PAct f k => exec next k {| c_index := c_index c; c_resp := c_resp c; c_world := f (c_world c); c_started := c_started c; c_writes := c_writes c |}
    | PLook k => exec next (k (c_world c) (c_resp c)) c
    | PWrite r k => exec next k {| c_index := c_index c; c_resp := r; c_world := c_world c; c_started := c_started c; c_writes := c_writes c ++ [r] |}
    | PNext k => match next c with
                 | Some (c', None) => exec next k c'
                 | o => o
                 end
    end.

  (** dht/krpc/middleware.go:23-28.  [loop] is the for loop; [c_index] = index+1, so after
      the initial index++ the loop condition index < len(chain) reads c_index <= len with
      c_index-1 the position; [loop] is entered with c_index = position + 1. *)
  Fixpoint loop (fuel : nat) (chain : list prog) (c : ctx) : out :=
    match nth_error chain (c_index c - 1) with
    | None => Some (c, None)
    | Some h =>
        match fuel with
        | O => None
        | S f =>
            let c1 := {| c_index := c_index c; c_resp := c_resp c; c_world := c_world c;
                         c_started := c_started c ++ [c_index c - 1]; c_writes := c_writes c |} in
            match exec (fun c' => loop f chain (incr c')) h c1 with
            | Some (c2, None) => loop f chain (incr c2)
            | o => o
            end
        end
    end.
  Definition Next (fuel : nat) (chain : list prog) (c : ctx) : out := loop fuel chain (incr c).

  (** dht/krpc/server.go: dispatch one request through chain with no response yet. *)
  Definition dispatch (chain : list prog) (w : W) : out := Next (S (length chain)) chain (NewReqContext None w).
End MW.
Arguments PRet {W R}. Arguments PPanic {W R} p. Arguments PAct {W R} f k. Arguments PLook {W R} k.
Arguments PWrite {W R} r k. Arguments PNext {W R} k.
Arguments c_index {W R} c. Arguments c_resp {W R} c. Arguments c_world {W R} c. Arguments c_started {W R} c. Arguments c_writes {W R} c.
Arguments exec {W R}. Arguments loop {W R}. Arguments Next {W R}. Arguments dispatch {W R}. Arguments incr {W R}. Arguments NewReqContext {W R}.
