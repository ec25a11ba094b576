(** What is observed of synchronous I/O, from the trace (newest first) alone. *)
From Verif Require Import Base Syncio_Model.
Open Scope nat_scope.

(** bytes taken from the gensio, and bytes returned by reads, in order *)
Fixpoint taken (tr : list obs) : list Z :=
  match tr with [] => [] | TTaken d :: tr => taken tr ++ d | _ :: tr => taken tr end.
Fixpoint got (tr : list obs) : list Z :=
  match tr with [] => [] | TRRet _ _ (Some n) buf _ :: tr => got tr ++ firstn n buf | _ :: tr => got tr end.
(** reads that wait; only one at a time *)
Fixpoint readers (tr : list obs) : list nat :=
  match tr with
  | [] => []
  | TRStart i :: tr => i :: readers tr
  | TRRet i _ _ _ _ :: tr => remove Nat.eq_dec i (readers tr)
  | _ :: tr => readers tr
  end.
Fixpoint solo (tr : list obs) : Prop :=
  match tr with
  | [] => True
  | TRStart _ :: tr => readers tr = [] /\ solo tr
  | _ :: tr => solo tr
  end.

(** bytes given to the gensio: all, and those of one write; the writes in the order of their calls *)
Fixpoint outs (tr : list obs) : list Z :=
  match tr with [] => [] | TPut _ d :: tr => outs tr ++ d | _ :: tr => outs tr end.
Fixpoint puts (i : nat) (tr : list obs) : list Z :=
  match tr with
  | [] => []
  | TPut j d :: tr => if j =? i then puts i tr ++ d else puts i tr
  | _ :: tr => puts i tr
  end.
Fixpoint starts (tr : list obs) : list (nat * list Z) :=
  match tr with [] => [] | TWStart i d :: tr => starts tr ++ [(i, d)] | _ :: tr => starts tr end.
