(** Model of the counted strings, lib/utils.c:1215-1305, with the reference
    counts of include/gensio/gensio_refcount.h and the atomic operations of
    include/gensio/gensio_atomics.h, used by several threads at once. *)
From Verif Require Import Base Cstr_Model.
Open Scope Z_scope.

(** ** One string *)

(** struct gensio_cntstr, utils.c:1215-1218.  co_str is the memory behind the
    structure, where str points to; [None] is str = NULL. *)
Record cobj := mkco { co_live : bool; co_count : Z; co_str : option (list Z) }.

(** strcpy(dest, src) where dest is a block of [len] bytes *)
Definition strcpy_into (len : Z) (src : list Z) : option (list Z) :=
  _ <- guard (Z.of_nat (length src) + 1 <=? len) ;;
  Some (src ++ repeat 0 (Z.to_nat (len - Z.of_nat (length src)))).

(** gensio_cntstr_make, utils.c:1220-1241, when the allocation succeeds.  len is
    an unsigned int of 32 bits.  [src] has no NUL byte.  The result of
    gensio_refcount_init is not looked at there; with C or gcc atomics it cannot
    fail. *)
Definition cntstr_make (src : option (list Z)) : option cobj :=
  match src with
  | Some s =>
      let len := (Z.of_nat (length s) + 1) mod 2 ^ 32 in
      b <- strcpy_into len s ;;
      Some (mkco true 1 (Some b))
  | None => Some (mkco true 1 None)
  end.

(** gensio_cntstr_vsprintf, utils.c:1261-1284, when the allocation succeeds;
    [text] is what the format gives, vsnprintf(str, len, ..) writes at most len
    bytes and the size is a size_t. *)
Definition cntstr_vsprintf (text : list Z) : option cobj :=
  Some (mkco true 1 (Some (text ++ [0]))).

(** gensio_cntstr_get, utils.c:1300-1304, and reading the string returned *)
Definition cntstr_get (o : cobj) : option (option (list Z)) :=
  _ <- guard (co_live o) ;;
  match co_str o with
  | None => Some None
  | Some b => r <- cstring b ;; Some (Some r)
  end.

(** ** Threads *)

(** Where a thread is: outside; in gensio_cntstr_ref (utils.c:1243-1248), that is
    gensio_refcount_inc (gensio_refcount.h:37-43), that is
    gensio_atomic_add_if_nz (gensio_atomics.h:234-247): before the get, or after
    it with the value read; in gensio_cntstr_free (utils.c:1250-1259), that is
    gensio_refcount_dec (lines 49-56): likewise, or before o->free.  Each step is
    one access to the shared memory. *)
Inductive pc := POut | PRef | PRef2 (old : Z) | PFree | PFree2 (old : Z) | PFree3 | PGet.
(** A thread: where it is, how many references it owns, what it has read *)
Record thr := mkth { th_pc : pc; th_held : nat; th_seen : list (option (list Z)) }.

Definition atomic_get (o : cobj) : option Z := _ <- guard (co_live o) ;; Some (co_count o).
(** the new value and whether it was stored *)
Definition atomic_cas (o : cobj) (old new : Z) : option (cobj * bool) :=
  _ <- guard (co_live o) ;;
  if co_count o =? old then Some (mkco (co_live o) (new mod 2 ^ 32) (co_str o), true) else Some (o, false).

(** One step of a thread in a call.  [None]: memory used after it was freed, a
    second free, or an assertion that fails.  The assertions of
    gensio_refcount.h:42 and 54 fail exactly when the value read is 0. *)
Definition thr_step (o : cobj) (t : thr) : option (cobj * thr) :=
  match th_pc t with
  | POut => Some (o, t)
  | PRef =>
      old <- atomic_get o ;;
      _ <- guard (negb (old =? 0)) ;;
      Some (o, mkth (PRef2 old) (th_held t) (th_seen t))
  | PRef2 old =>
      ' (o, done) <- atomic_cas o old (old + 1) ;;
      Some (o, if done : bool then mkth POut (S (th_held t)) (th_seen t) else mkth PRef (th_held t) (th_seen t))
  | PFree =>
      old <- atomic_get o ;;
      _ <- guard (negb (old =? 0)) ;;
      Some (o, mkth (PFree2 old) (th_held t) (th_seen t))
  | PFree2 old =>
      ' (o, done) <- atomic_cas o old (old - 1) ;;
      Some (o, if done : bool then mkth (if old - 1 =? 0 then PFree3 else POut) (th_held t) (th_seen t) else mkth PFree (th_held t) (th_seen t))
  | PFree3 =>
      _ <- guard (co_live o) ;;
      Some (mkco false (co_count o) (co_str o), mkth POut (th_held t) (th_seen t))
  | PGet =>
      v <- cntstr_get o ;;
      Some (o, mkth POut (th_held t) (th_seen t ++ [v]))
  end.

(** ** All threads *)
Inductive cop := CRef | CFree | CGet.
(** A thread starts a call, does one step of it, or hands one of its references
    to another thread. *)
Inductive cev := EBegin (t : nat) (op : cop) | EStep (t : nat) | EGive (t u : nat).
Fixpoint put {T} (l : list T) (i : nat) (x : T) : list T :=
  match l, i with
  | [], _ => []
  | _ :: l, O => x :: l
  | y :: l, S i => y :: put l i x
  end.
(** The caller gives up the reference when the call of gensio_cntstr_free starts. *)
Definition begin_op (t : thr) (op : cop) : thr :=
  match op with
  | CRef => mkth PRef (th_held t) (th_seen t)
  | CFree => mkth PFree (Nat.pred (th_held t)) (th_seen t)
  | CGet => mkth PGet (th_held t) (th_seen t)
  end.
Definition cev_run (o : cobj) (ts : list thr) (e : cev) : option (cobj * list thr) :=
  match e with
  | EBegin i op => t <- nth_error ts i ;; Some (o, put ts i (begin_op t op))
  | EStep i =>
      t <- nth_error ts i ;;
      ' (o, t) <- thr_step o t ;;
      Some (o, put ts i t)
  | EGive i j =>
      t <- nth_error ts i ;;
      let ts := put ts i (mkth (th_pc t) (Nat.pred (th_held t)) (th_seen t)) in
      u <- nth_error ts j ;;
      Some (o, put ts j (mkth (th_pc u) (S (th_held u)) (th_seen u)))
  end.
Fixpoint crun (o : cobj) (ts : list thr) (es : list cev) : option (cobj * list thr) :=
  match es with
  | [] => Some (o, ts)
  | e :: es => ' (o, ts) <- cev_run o ts e ;; crun o ts es
  end.
