(** What the history of calls says about a runner.  Traces have the newest entry
    first. *)
From Verif Require Import Base Selrunner_Model.

(** a run was accepted, and its function not called yet: the data *)
Fixpoint rpend (r : nat) (tr : list rob) : option nat :=
  match tr with
  | [] => None
  | RORun u cb rv :: tr => if ((u =? r)%nat && (rv =? 0)%Z)%bool then Some cb else rpend r tr
  | ROCall u _ :: tr => if (u =? r)%nat then None else rpend r tr
  | _ :: tr => rpend r tr
  end.
(** the runs accepted, and the calls made, newest first *)
Fixpoint accepted (tr : list rob) : list (nat * nat) :=
  match tr with [] => [] | RORun r cb rv :: tr => if (rv =? 0)%Z then (r, cb) :: accepted tr else accepted tr | _ :: tr => accepted tr end.
Fixpoint called (tr : list rob) : list (nat * nat) :=
  match tr with [] => [] | ROCall r cb :: tr => (r, cb) :: called tr | _ :: tr => called tr end.
(** what each entry must satisfy, given the history before it *)
Definition run_ok (o : rob) (tr : list rob) : Prop :=
  match o with
  | RORun r cb rv => (rv = 0%Z /\ rpend r tr = None) \/ (rv = EBUSY /\ rpend r tr <> None)
  | ROFree r rv => (rv = 0%Z /\ rpend r tr = None) \/ (rv = EBUSY /\ rpend r tr <> None)
  | ROCall r cb => rpend r tr = Some cb
  end.
(** no runner waits for a thread, and no function runs *)
Definition rquiet (s : rst) : Prop := rs_head s = None /\ rs_fr s = [].
(** no thread enters process_runners while one is in it *)
Fixpoint alone (es : list rev_) (s : rst) : Prop :=
  match es with
  | [] => True
  | e :: es => match e with RvProc | RvWoken _ => rs_fr s = [] | _ => True end /\ (forall s', rstep s e = Some s' -> alone es s')
  end.
