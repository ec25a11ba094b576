(** Model of the ratelimit filter, lib/gensio_ratelimit.c. *)
From Verif Require Import Base.
Open Scope nat_scope.

(** struct ratelimit_filter, lines 24-39: the buffer (its size is
    config.xmit_buf_len, line 275) and xmit_ready.  [rl_timer] tells whether
    the timer started at line 145 is running. *)
Record rl := mkrl { rl_buf : list Z; rl_ready : bool; rl_timer : bool }.

(** gensio_ratelimit_filter_raw_alloc, lines 264-295; the allocations succeed *)
Definition rl_alloc (xmit_len : nat) : rl := mkrl (repeat 0%Z xmit_len) false false.

(** The loop of ratelimit_ul_write, lines 130-138 *)
Fixpoint rl_fill (buf : list Z) (lim count : nat) (sg : list (list Z)) : option (list Z * nat) :=
  match sg with
  | [] => Some (buf, count)
  | d :: sg' =>
      if count <? lim then
        let len := if lim - count <? length d then lim - count else length d in
        x <- mread d 0 len ;;
        buf <- mwrite buf count x ;;
        rl_fill buf lim (count + len) sg'
      else Some (buf, count)
  end.

(** ratelimit_ul_write, lines 117-154.  [a] is the lower layer: [None] an error
    or the count it takes, never more than it is given.  The result is the
    count returned ([None] for an error) and the bytes the lower layer took.
    Simplification: between the unlocking and locking at lines 141 and 143
    nothing else happens, as the caller, lib/gensio_base.c, holds its own lock. *)
Definition rl_write (r : rl) (sg : list (list Z)) (a : option nat) : option (rl * (option nat * list Z)) :=
  if negb (rl_ready r) then Some (r, (Some 0, []))
  else
    ' (buf, count) <- rl_fill (rl_buf r) (length (rl_buf r)) 0 sg ;;
    d <- mread buf 0 count ;;
    match a with
    | None => Some (mkrl buf (rl_ready r) (rl_timer r), (None, []))
    | Some n =>
        let n := Nat.min n count in
        if 0 <? n then Some (mkrl buf false true, (Some n, firstn n d))
        else Some (mkrl buf (rl_ready r) (rl_timer r), (Some n, []))
    end.

(** ratelimit_try_connect, lines 102-108.  The base gensio has no timer running
    when it opens. *)
Definition rl_connect (r : rl) : rl := mkrl (rl_buf r) true false.

(** ratelimit_filter_timeout, lines 191-200 *)
Definition rl_timeout (r : rl) : rl := mkrl (rl_buf r) true false.

(** ratelimit_ul_can_write, lines 83-88 *)
Definition rl_can_write (r : rl) : bool := rl_ready r.

(** What can happen to an open filter.  An expiry needs a running timer. *)
Inductive rlop := RWrite (sg : list (list Z)) (a : option nat) | RExpire.
Inductive rlev := EPassed (d : list Z) | EExpired.
Fixpoint rl_run (r : rl) (ops : list rlop) : option (rl * list rlev) :=
  match ops with
  | [] => Some (r, [])
  | RWrite sg a :: ops =>
      ' (r, (_, d)) <- rl_write r sg a ;;
      ' (r, evs) <- rl_run r ops ;;
      Some (r, EPassed d :: evs)
  | RExpire :: ops =>
      if rl_timer r then ' (r, evs) <- rl_run (rl_timeout r) ops ;; Some (r, EExpired :: evs)
      else rl_run r ops
  end.
