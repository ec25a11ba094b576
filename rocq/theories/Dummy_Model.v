(** Model of lib/gensio_dummy.c: an accepter that accepts nothing. *)
From Verif Require Import Base.
Open Scope nat_scope.

(** include/gensio/gensio_err.h *)
Definition GE_INUSE : Z := 10%Z.

(** enum dummyna_state, lib/gensio_dummy.c:18-22. *)
Inductive dst := DISABLED | ENABLED | IN_SHUTDOWN.
(** A deferred operation that is running is in one of the two callbacks, with the lock released. *)
Inductive dpc := PEnabled | PShut.
(** What the user sees: results of calls and callbacks. *)
Inductive dobs :=
| TStart (rv : Z) | TShut (cb : bool) (rv : Z) | TShutDone | TEnable (cb : bool) (rv : Z) | TEnabled | TRet | TFree.

(** struct dummyna_data, lib/gensio_dummy.c:24-40.  [d_sd] and [d_ed] tell whether shutdown_done and
    enabled_done are set; [d_ops] are the operations that are running; [d_live] is false once the
    memory was given back. *)
Record dummy := mkd { d_st : dst; d_pend : bool; d_sd : bool; d_ed : bool; d_ref : nat; d_ops : list dpc; d_live : bool; d_freed : bool; d_tr : list dobs }.

Definition put o s := mkd (d_st s) (d_pend s) (d_sd s) (d_ed s) (d_ref s) (d_ops s) (d_live s) (d_freed s) (o :: d_tr s).
Definition set_st v s := mkd v (d_pend s) (d_sd s) (d_ed s) (d_ref s) (d_ops s) (d_live s) (d_freed s) (d_tr s).
Definition set_sd v s := mkd (d_st s) (d_pend s) v (d_ed s) (d_ref s) (d_ops s) (d_live s) (d_freed s) (d_tr s).
Definition set_ed v s := mkd (d_st s) (d_pend s) (d_sd s) v (d_ref s) (d_ops s) (d_live s) (d_freed s) (d_tr s).
Definition set_op p r s := mkd (d_st s) p (d_sd s) (d_ed s) r (d_ops s) (d_live s) (d_freed s) (d_tr s).
Definition set_ops v s := mkd (d_st s) (d_pend s) (d_sd s) (d_ed s) (d_ref s) v (d_live s) (d_freed s) (d_tr s).
Definition set_life l f s := mkd (d_st s) (d_pend s) (d_sd s) (d_ed s) (d_ref s) (d_ops s) l f (d_tr s).

(** dummyna_deref_and_unlock, lib/gensio_dummy.c:74-85; the assert is [None].  dummyna_finish_free
    (54-65) gives back the memory. *)
Definition deref (s : dummy) : option dummy :=
  _ <- guard (0 <? d_ref s) ;;
  let s1 := set_op (d_pend s) (Nat.pred (d_ref s)) s in
  Some (if d_ref s1 =? 0 then set_life false (d_freed s1) s1 else s1).

(** dummyna_deferred_op, lib/gensio_dummy.c:133-141, and dummyna_ref, 67-72. *)
Definition start_op (s : dummy) : option dummy :=
  if d_pend s then Some s else _ <- guard (0 <? d_ref s) ;; Some (set_op true (S (d_ref s)) s).

(** dummyna_startup, lib/gensio_dummy.c:87-99: the state is set also when the call is refused. *)
Definition startup (s : dummy) : option dummy :=
  let rv := match d_st s with DISABLED => 0%Z | _ => GE_INUSE end in
  Some (put (TStart rv) (set_st ENABLED s)).

(** dummyna_shutdown, lib/gensio_dummy.c:143-163. *)
Definition shutdown (cb : bool) (s : dummy) : option dummy :=
  match d_st s with
  | ENABLED => start_op (put (TShut cb 0) (set_sd cb (set_st IN_SHUTDOWN s)))
  | _ => Some (put (TShut cb GE_INUSE) s)
  end.

(** dummyna_set_accept_callback_enable, lib/gensio_dummy.c:165-185. *)
Definition enable (cb : bool) (s : dummy) : option dummy :=
  if d_ed s then Some (put (TEnable cb GE_INUSE) s)
  else if cb then start_op (put (TEnable cb 0) (set_ed true s))
  else Some (put (TEnable cb 0) s).

(** dummyna_free, lib/gensio_dummy.c:187-194. *)
Definition dfree (s : dummy) : option dummy := deref (set_life (d_live s) true (put TFree s)).

(** dummyna_do_deferred, lib/gensio_dummy.c:101-131, up to the next callback; the second result is
    where it is then, [None] if it is done. *)
Definition ores := option (dummy * option dpc).
Definition op_fin (s : dummy) : ores := s1 <- deref s ;; Some (s1, None).
(** lines 119-130 *)
Definition op_shut (s : dummy) : ores :=
  match d_st s with
  | IN_SHUTDOWN =>
    let s1 := set_st DISABLED s in
    if d_sd s1 then Some (put TShutDone s1, Some PShut) else op_fin s1
  | _ => op_fin s
  end.
(** lines 106-117 *)
Definition op_start (s0 : dummy) : ores :=
  let s := set_op false (d_ref s0) s0 in
  if d_ed s then Some (put TEnabled (set_ed false s), Some PEnabled) else op_shut s.
(** after a callback returned *)
Definition op_return (pc : dpc) (s : dummy) : ores :=
  match pc with PEnabled => op_shut (put TRet s) | PShut => op_fin (put TRet s) end.

(** dummy_gensio_accepter_alloc, lib/gensio_dummy.c:220-256; allocations succeed. *)
Definition dummy_alloc : dummy := mkd DISABLED false false false 1 [] true false [].

(** Calls of the user from any thread and from callbacks; the runner starting an operation; the
    callback of the [i]th running operation returning. *)
Inductive dev := EStart | EShut (cb : bool) | EEnable (cb : bool) | EFree | ERun | ERet (i : nat).
Fixpoint del {A} (i : nat) (l : list A) : list A :=
  match i, l with _, [] => [] | 0, _ :: l => l | S i, x :: l => x :: del i l end.
Definition back (l : list dpc) (r : ores) : option dummy :=
  ' (s, p) <- r ;; Some (set_ops (match p with Some p => p :: l | None => l end) s).
(** Any event with the memory gone is [None], except those that cannot be; the user calls nothing
    after free. *)
Definition dstep (e : dev) (s : dummy) : option dummy :=
  let user (f : dummy -> option dummy) := if d_freed s then Some s else _ <- guard (d_live s) ;; f s in
  match e with
  | EStart => user startup
  | EShut cb => user (shutdown cb)
  | EEnable cb => user (enable cb)
  | EFree => user dfree
  | ERun => if d_pend s then _ <- guard (d_live s) ;; back (d_ops s) (op_start s) else Some s
  | ERet i =>
    match nth_error (d_ops s) i with
    | None => Some s
    | Some pc => _ <- guard (d_live s) ;; back (del i (d_ops s)) (op_return pc s)
    end
  end.
Fixpoint drun (es : list dev) (s : dummy) : option dummy :=
  match es with [] => Some s | e :: es => s1 <- dstep e s ;; drun es s1 end.
