(** What it means for memory to hold an argument vector. *)
From Verif Require Import Base Mem_Model Cstr_Model Argv_Model.
Open Scope nat_scope.

(** Block [p] is an array of pointers to blocks that hold the given contents,
    followed by a NULL (and perhaps more entries).  [ps] are the pointers. *)
Definition vector_at (m : mem) (p : nat) (ps : list nat) (contents : list (list Z)) : Prop :=
  (exists more, m_blk m p = Some (BPtrs (map Some ps ++ None :: more))) /\
  Forall2 (fun q c => m_blk m q = Some (BBytes c)) ps contents.

(** A NULL terminated vector of strings *)
Definition argv_at (m : mem) (p : nat) (ps : list nat) (ss : list (list Z)) : Prop :=
  vector_at m p ps (map (fun s => s ++ [0%Z]) ss).

(** A vector of buffers and their lengths, in block [k] *)
Definition bufv_at (m : mem) (p k : nat) (ps : list nat) (bs : list (list Z)) : Prop :=
  vector_at m p ps bs /\
  exists more, m_blk m k = Some (BNums (map (@length Z) bs ++ more)).

(** Some allocation fails. *)
Definition failed (f : nat -> bool) : Prop := exists n, f n = true.

(** Memory [m] is [m0] and a vector at [p]; freeing that gives [m0] back. *)
Definition has_argv (m0 m : mem) (p : nat) (ss : list (list Z)) : Prop :=
  exists ps, argv_at m p ps ss /\ adds m0 m (p :: ps) /\ mem_ok m /\
    exists m', argv_free m p = Some m' /\ same_blocks m' m0.

(** The same for buffers and their lengths *)
Definition has_bufv (m0 m : mem) (p k : nat) (bs : list (list Z)) : Prop :=
  exists ps, bufv_at m p k ps bs /\ adds m0 m (p :: k :: ps) /\ mem_ok m /\
    exists m', bufv_free m p k = Some m' /\ same_blocks m' m0.

(** gensio_quote_string gives [q] for [s]. *)
Definition quoted_as (s q : list Z) : Prop :=
  exists b, quote_string s = Some b /\ cstring b = Some q.
