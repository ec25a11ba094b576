(** Model of synchronous accepting, lib/gensio.c: gensio_acc_cb 315-347, gensio_acc_startup
    1012-1017, gensio_acc_shutdown 1019-1047, gensio_acc_set_sync 3639-3646,
    i_gensio_acc_accept_s 3648-3691; any number of threads.  What is done with the lock held is
    one step. *)
From Verif Require Import Base Heap_Model.
Open Scope nat_scope.

(** include/gensio/gensio_err.h *)
Definition GE_TIMEDOUT : Z := 14.
Definition GE_INTERRUPTED : Z := 33.
Definition GE_LOCALCLOSED : Z := 35.

(** What is seen, newest first: a new connection, one put on the list, one given to the event
    handler of the user, one freed; calls and returns of gensio_acc_accept_s; shutdowns. *)
Inductive obs := TNew (c : nat) | TQueued (c : nat) | TCb (c : nat) | TFreed (c : nat)
  | TCall (w : nat) | TRet (w : nat) (rv : Z) (c : option nat) | TShutdown.

(** A waiting accept (struct gensio_waiting_accept, lines 264-268): queued, and whether its waiter was
    woken. *)
Record wa := mkw { w_q : bool; w_woken : bool }.

(** The fields of struct gensio_accepter used here (lines 232-262): enabled, sync, waiting_ios
    (connections by number), waiting_accepts.  [a_pend]: connections whose gensio_acc_cb has seen
    sync set and waits for the lock.  [a_op]: the waiting calls. *)
Record acc := mka { a_en : bool; a_sync : bool; a_ios : list nat; a_wait : list nat; a_pend : list nat;
                    a_op : nat -> option wa; a_nextc : nat; a_nextw : nat; a_tr : list obs }.
Definition acc0 : acc := mka false false [] [] [] (fun _ => None) 0 0 [].

Definition set_en a v := mka v (a_sync a) (a_ios a) (a_wait a) (a_pend a) (a_op a) (a_nextc a) (a_nextw a) (a_tr a).
Definition set_syn a v := mka (a_en a) v (a_ios a) (a_wait a) (a_pend a) (a_op a) (a_nextc a) (a_nextw a) (a_tr a).
Definition set_ios a v := mka (a_en a) (a_sync a) v (a_wait a) (a_pend a) (a_op a) (a_nextc a) (a_nextw a) (a_tr a).
Definition set_wait a v := mka (a_en a) (a_sync a) (a_ios a) v (a_pend a) (a_op a) (a_nextc a) (a_nextw a) (a_tr a).
Definition set_pend a v := mka (a_en a) (a_sync a) (a_ios a) (a_wait a) v (a_op a) (a_nextc a) (a_nextw a) (a_tr a).
Definition set_aop a i v := mka (a_en a) (a_sync a) (a_ios a) (a_wait a) (a_pend a) (upd (a_op a) i v) (a_nextc a) (a_nextw a) (a_tr a).
Definition newc a := mka (a_en a) (a_sync a) (a_ios a) (a_wait a) (a_pend a) (a_op a) (S (a_nextc a)) (a_nextw a) (a_tr a).
Definition neww a := mka (a_en a) (a_sync a) (a_ios a) (a_wait a) (a_pend a) (a_op a) (a_nextc a) (S (a_nextw a)) (a_tr a).
Definition alog a t := mka (a_en a) (a_sync a) (a_ios a) (a_wait a) (a_pend a) (a_op a) (a_nextc a) (a_nextw a) (t :: a_tr a).

(** gensio_acc_cb for a new connection, the test of sync (line 318) *)
Definition new_conn (a : acc) : acc :=
  let c := a_nextc a in
  let a := alog (newc a) (TNew c) in
  if a_sync a then set_pend a (a_pend a ++ [c]) else alog a (TCb c).

(** A waiter is woken; a waiting accept that is gone is undefined. *)
Definition wake (a : acc) (w : nat) : option acc :=
  match a_op a w with Some _ => Some (set_aop a w (Some (mkw false true))) | None => None end.

Definition rm (i : nat) (l : list nat) : list nat := remove Nat.eq_dec i l.

(** gensio_acc_cb, the part with the lock, lines 321-341 *)
Definition conn_locked (c : nat) (a : acc) : option acc :=
  if negb (existsb (Nat.eqb c) (a_pend a)) then Some a else
  let a := set_pend a (rm c (a_pend a)) in
  if a_en a then
    let a := alog (set_ios a (a_ios a ++ [c])) (TQueued c) in
    match a_wait a with
    | [] => Some a
    | w :: l => wake (set_wait a l) w
    end
  else Some (alog a (TFreed c)).

(** gensio_acc_startup, line 1014; gensio_acc_set_sync *)
Definition startup (a : acc) : acc := set_en a true.
Definition acc_set_sync (a : acc) : acc := if a_en a then a else set_syn a true.

(** gensio_acc_shutdown, lines 1024-1044 *)
Fixpoint wake_all (l : list nat) (a : acc) : option acc :=
  match l with [] => Some a | w :: l => a <- wake a w ;; wake_all l a end.
Definition free_all (l : list nat) (a : acc) : acc := fold_left (fun a c => alog a (TFreed c)) l a.
Definition shutdown (a : acc) : option acc :=
  let a := alog (set_syn (set_en a false) false) TShutdown in
  a <- wake_all (a_wait a) a ;;
  let a := set_wait a [] in
  Some (set_ios (free_all (a_ios a) a) []).

(** i_gensio_acc_accept_s, lines 3648-3667: until it waits, or returns at once with a waiting
    connection (got_one, lines 3681-3684).  Failing allocation of the waiter is left out. *)
Definition accept_start (a : acc) : acc :=
  let w := a_nextw a in
  let a := alog (neww a) (TCall w) in
  match a_ios a with
  | c :: l => alog (set_ios a l) (TRet w 0 (Some c))
  | [] => set_wait (set_aop a w (Some (mkw true false))) (a_wait a ++ [w])
  end.

(** lines 3669-3690, after wait_intr: 0 only if woken, GE_TIMEDOUT, GE_INTERRUPTED (which ends
    the wait only in gensio_acc_accept_s_intr) *)
Inductive wait := Woken | Timeout | Intr.
Definition accept_end (w : nat) (r : wait) (a : acc) : acc :=
  match a_op a w with
  | None => a
  | Some o =>
      if match r with Woken => negb (w_woken o) | _ => false end then a else
      let a := set_aop a w None in
      if w_q o then alog (set_wait a (rm w (a_wait a))) (TRet w GE_TIMEDOUT None) else
      match a_ios a with
      | [] => alog a (TRet w GE_LOCALCLOSED None)
      | c :: l =>
          match r with
          | Intr => alog a (TRet w GE_INTERRUPTED None)
          | _ => alog (set_ios a l) (TRet w 0 (Some c))
          end
      end
  end.

Inductive aev := ANew | ALocked (c : nat) | AStartup | ASync | AShutdown | AStart | AEnd (w : nat) (r : wait).
Definition astep (e : aev) (a : acc) : option acc :=
  match e with
  | ANew => Some (new_conn a)
  | ALocked c => conn_locked c a
  | AStartup => Some (startup a)
  | ASync => Some (acc_set_sync a)
  | AShutdown => shutdown a
  | AStart => Some (accept_start a)
  | AEnd w r => Some (accept_end w r a)
  end.
Fixpoint arun (es : list aev) (a : acc) : option acc :=
  match es with [] => Some a | e :: es => a <- astep e a ;; arun es a end.
