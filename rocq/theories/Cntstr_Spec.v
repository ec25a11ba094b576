(** How counted strings may be used. *)
From Verif Require Import Base Cntstr_Model.
Open Scope Z_scope.

(** References owned by the threads *)
Definition refs (ts : list thr) : nat := list_sum (map th_held ts).
(** Calls of gensio_cntstr_ref in progress *)
Definition in_ref (t : thr) : nat := match th_pc t with PRef | PRef2 _ => 1%nat | _ => 0%nat end.
(** Calls of gensio_cntstr_free in progress that still own a reference *)
Definition in_free (t : thr) : nat := match th_pc t with PFree | PFree2 _ => 1%nat | _ => 0%nat end.

(** A call may be started by a thread that is in no call and owns a reference; a
    reference can be handed over between calls.  The bound on the number of
    references is [lim]. *)
Definition legal_c (lim : Z) (ts : list thr) (e : cev) : Prop :=
  match e with
  | EBegin i op => exists t, nth_error ts i = Some t /\ th_pc t = POut /\ (1 <= th_held t)%nat /\
      (op = CRef -> Z.of_nat (refs ts + list_sum (map in_ref ts) + list_sum (map in_free ts)) + 1 < lim)
  | EStep i => exists t, nth_error ts i = Some t
  | EGive i j => i <> j /\ (j < length ts)%nat /\ exists t, nth_error ts i = Some t /\ th_pc t = POut /\ (1 <= th_held t)%nat
  end.
Fixpoint legal_crun (lim : Z) (o : cobj) (ts : list thr) (es : list cev) : Prop :=
  match es with
  | [] => True
  | e :: es => legal_c lim ts e /\
      match cev_run o ts e with None => True | Some (o', ts') => legal_crun lim o' ts' es end
  end.

(** At the start one thread has made the string, the others own nothing. *)
Definition fresh_thr (n : nat) : thr := mkth POut n [].
Definition start (n : nat) : list thr := fresh_thr 1 :: repeat (fresh_thr 0) n.
Definition idle (t : thr) : Prop := th_pc t = POut.
