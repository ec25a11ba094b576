(** What is observed of synchronous accepting. *)
From Verif Require Import Base Accept_Model.
Open Scope nat_scope.

(** connections: all, those that reached the list, those returned by accept, given to the event
    handler, freed; oldest first *)
Fixpoint arrived (tr : list obs) : list nat := match tr with [] => [] | TNew c :: tr => arrived tr ++ [c] | _ :: tr => arrived tr end.
Fixpoint queued (tr : list obs) : list nat := match tr with [] => [] | TQueued c :: tr => queued tr ++ [c] | _ :: tr => queued tr end.
Fixpoint returned (tr : list obs) : list nat := match tr with [] => [] | TRet _ _ (Some c) :: tr => returned tr ++ [c] | _ :: tr => returned tr end.
Fixpoint handed (tr : list obs) : list nat := match tr with [] => [] | TCb c :: tr => handed tr ++ [c] | _ :: tr => handed tr end.
Fixpoint freed (tr : list obs) : list nat := match tr with [] => [] | TFreed c :: tr => freed tr ++ [c] | _ :: tr => freed tr end.

(** calls of accept that have not returned *)
Fixpoint callers (tr : list obs) : list nat :=
  match tr with
  | [] => []
  | TCall w :: tr => w :: callers tr
  | TRet w _ _ :: tr => remove Nat.eq_dec w (callers tr)
  | _ :: tr => callers tr
  end.
(** one call at a time *)
Fixpoint one_caller (tr : list obs) : Prop :=
  match tr with
  | [] => True
  | TCall _ :: tr => callers tr = [] /\ one_caller tr
  | _ :: tr => one_caller tr
  end.
(** there was a shutdown since call [w] *)
Fixpoint shut_since (w : nat) (tr : list obs) : Prop :=
  match tr with
  | [] => False
  | TShutdown :: _ => True
  | TCall v :: tr => v <> w /\ shut_since w tr
  | _ :: tr => shut_since w tr
  end.
(** GE_LOCALCLOSED only after a shutdown *)
Fixpoint closed_ok (tr : list obs) : Prop :=
  match tr with
  | [] => True
  | TRet w rv _ :: tr => (rv = GE_LOCALCLOSED -> shut_since w tr) /\ closed_ok tr
  | _ :: tr => closed_ok tr
  end.
(** no call ended by a signal after it was woken; no shutdown *)
Definition uninterrupted (tr : list obs) : Prop := forall w c, ~ In (TRet w GE_INTERRUPTED c) tr.
Definition no_shutdown (tr : list obs) : Prop := ~ In TShutdown tr.
