(** A memory of allocated blocks, for code that uses o->zalloc and o->free
    (include/gensio/gensio_os_funcs.h).  A pointer is the number of the
    allocation that made the block; numbers are never reused, so that a use
    after free is undefined behaviour.  Which allocations fail is decided by
    an oracle: the n-th allocation fails if [f n] is true.

    Simplification: pointers always point to the start of a block. *)
From Verif Require Import Base.
Open Scope nat_scope.

Inductive blk :=
| BBytes (l : list Z)
| BPtrs (l : list (option nat))      (* NULL is None *)
| BNums (l : list nat).

Record mem := mkmem { m_blk : nat -> option blk; m_cnt : nat }.

Definition upd {A} (g : nat -> A) (p : nat) (x : A) : nat -> A :=
  fun q => if q =? p then x else g q.

(** o->zalloc; the initial contents are given by the caller *)
Definition zalloc (f : nat -> bool) (m : mem) (b : blk) : mem * option nat :=
  if f (m_cnt m) then (mkmem (m_blk m) (S (m_cnt m)), None)
  else (mkmem (upd (m_blk m) (m_cnt m) (Some b)) (S (m_cnt m)), Some (m_cnt m)).

(** o->free: freeing anything but a live block is undefined *)
Definition mfree (m : mem) (p : nat) : option mem :=
  match m_blk m p with
  | None => None
  | Some _ => Some (mkmem (upd (m_blk m) p None) (m_cnt m))
  end.

Definition store (m : mem) (p : nat) (b : blk) : option mem :=
  match m_blk m p with
  | None => None
  | Some _ => Some (mkmem (upd (m_blk m) p (Some b)) (m_cnt m))
  end.

Definition load_ptrs (m : mem) (p : nat) : option (list (option nat)) :=
  match m_blk m p with Some (BPtrs l) => Some l | _ => None end.
Definition load_nums (m : mem) (p : nat) : option (list nat) :=
  match m_blk m p with Some (BNums l) => Some l | _ => None end.
Definition load_bytes (m : mem) (p : nat) : option (list Z) :=
  match m_blk m p with Some (BBytes l) => Some l | _ => None end.

(** Nothing has been allocated yet beyond the counter. *)
Definition mem_ok (m : mem) : Prop := forall p, m_cnt m <= p -> m_blk m p = None.

(** The same blocks with the same contents *)
Definition same_blocks (m m' : mem) : Prop := forall p, m_blk m p = m_blk m' p.

(** [m'] is [m] with the new blocks [ps] *)
Definition adds (m m' : mem) (ps : list nat) : Prop :=
  NoDup ps /\ (forall p, In p ps -> m_blk m p = None /\ m_blk m' p <> None) /\
  (forall p, ~ In p ps -> m_blk m' p = m_blk m p).

Definition mem0 : mem := mkmem (fun _ => None) 0.
