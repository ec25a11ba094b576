(** Model of the runners of the selector, lib/os_unix_selector.c, used by any number
    of threads.  What a thread does between taking and giving back timer_lock is one
    step.  Runners are linked through memory as in the code. *)
From Verif Require Import Base Heap_Model.
Open Scope nat_scope.

Definition EBUSY : Z := 16.

(** struct sel_runner_s, lines 79-86.  [rn_live]: the memory is allocated. *)
Record rn := mkrn { rn_live : bool; rn_cb : nat; rn_use : bool; rn_next : option nat }.
Definition no_rn := mkrn false 0 false None.

(** What can be seen: results of sel_run and sel_free_runner, functions called *)
Inductive rob := RORun (r cb : nat) (rv : Z) | ROFree (r : nat) (rv : Z) | ROCall (r cb : nat).

(** Runners, runner_head and runner_tail, the threads inside a function called by
    process_runners with their next_runner, the wait list with whether a signal was
    sent (newest first, lines 415-436), what was seen, newest first. *)
Record rst := mkrs { rs_r : nat -> rn; rs_head : option nat; rs_tail : option nat; rs_fr : list (option nat); rs_wait : list bool; rs_tr : list rob }.
Definition set_rn s r v := mkrs (upd (rs_r s) r v) (rs_head s) (rs_tail s) (rs_fr s) (rs_wait s) (rs_tr s).
Definition set_ht s h t := mkrs (rs_r s) h t (rs_fr s) (rs_wait s) (rs_tr s).
Definition set_rfr s f := mkrs (rs_r s) (rs_head s) (rs_tail s) f (rs_wait s) (rs_tr s).
Definition set_rwait s w := mkrs (rs_r s) (rs_head s) (rs_tail s) (rs_fr s) w (rs_tr s).
Definition remit o s := mkrs (rs_r s) (rs_head s) (rs_tail s) (rs_fr s) (rs_wait s) (o :: rs_tr s).
(** access to a runner: it must be allocated *)
Definition rget s r : option rn := if rn_live (rs_r s r) then Some (rs_r s r) else None.

(** sel_alloc_runner, lines 1115-1128; allocation failures left out *)
Definition r_alloc s r : rst := set_rn s r (mkrn true 0 false None).
(** sel_free_runner, lines 1130-1143.  The free() comes after the lock was given back;
    nobody else can touch the runner between. *)
Definition r_free s r : option rst :=
  v <- rget s r ;;
  if rn_use v then Some (remit (ROFree r EBUSY) s)
  else Some (remit (ROFree r 0%Z) (set_rn s r (mkrn false (rn_cb v) (rn_use v) (rn_next v)))).
(** i_sel_wake_first, lines 382-392, when every thread can be sent a signal *)
Definition wake_first (l : list bool) : list bool := match l with [] => [] | _ :: l => true :: l end.
(** the runner is put at the end of the list, lines 1161-1167 *)
Definition r_link s r : option rst :=
  match rs_tail s with
  | Some t => w <- rget s t ;; let s := set_rn s t (mkrn (rn_live w) (rn_cb w) (rn_use w) (Some r)) in Some (set_ht s (rs_head s) (Some r))
  | None => Some (set_ht s (Some r) (Some r))
  end.
(** sel_run, lines 1145-1173 *)
Definition r_run s r cb : option rst :=
  v <- rget s r ;;
  if rn_use v then Some (remit (RORun r cb EBUSY) s)
  else
    s <- r_link (set_rn s r (mkrn true cb true None)) r ;;
    Some (remit (RORun r cb 0%Z) (set_rwait s (wake_first (rs_wait s)))).

(** The loop of process_runners, lines 1182-1194, up to the call of the function of the
    next runner *)
Definition r_next s (p : option nat) : option rst :=
  match p with
  | None => Some s
  | Some r =>
      v <- rget s r ;;
      Some (remit (ROCall r (rn_cb v)) (set_rfr (set_rn s r (mkrn true (rn_cb v) false (rn_next v))) (rn_next v :: rs_fr s)))
  end.
(** process_runners, lines 1175-1197 *)
Definition r_proc s : option rst := r_next (set_ht s None None) (rs_head s).
(** a function returns *)
Definition drop {A} (i : nat) (l : list A) : list A := firstn i l ++ skipn (S i) l.
Definition r_ret s i : option rst :=
  match nth_error (rs_fr s) i with None => Some s | Some p => r_next (set_rfr s (drop i (rs_fr s))) p end.

(** The steps: calls of the user, for runners it has; a thread comes to
    process_runners in sel_select_intr_sigmask, line 1658, function [i] returns, a
    thread found no runner and waits, lines 1661-1689, waiting thread [i] goes on and
    comes to process_runners, lines 1713-1722.  A step that is not possible changes
    nothing. *)
Inductive rev_ := RvAlloc (r : nat) | RvFree (r : nat) | RvRun (r cb : nat) | RvProc | RvRet (i : nat) | RvWait | RvWoken (i : nat).
Definition rstep (s : rst) (e : rev_) : option rst :=
  match e with
  | RvAlloc r => if rn_live (rs_r s r) then Some s else Some (r_alloc s r)
  | RvFree r => if rn_live (rs_r s r) then r_free s r else Some s
  | RvRun r cb => if rn_live (rs_r s r) then r_run s r cb else Some s
  | RvProc => r_proc s
  | RvRet i => r_ret s i
  | RvWait => match rs_head s with None => Some (set_rwait s (false :: rs_wait s)) | Some _ => Some s end
  | RvWoken i => match nth_error (rs_wait s) i with None => Some s | Some _ => r_proc (set_rwait s (drop i (rs_wait s))) end
  end.
Fixpoint rrun (es : list rev_) (s : rst) : option rst := match es with [] => Some s | e :: es => s <- rstep s e ;; rrun es s end.
Definition rinit : rst := mkrs (fun _ => no_rn) None None [] [] [].
