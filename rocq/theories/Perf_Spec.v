(** What is observed of a perf filter.  Traces are newest first. *)
From Verif Require Import Base Perf_Model.
Open Scope nat_scope.

(** how much of [c] offered bytes an answer takes: none with an error, and never more than offered *)
Definition takes (c : nat) (e : Z) (n : nat) : nat := if (e =? 0)%Z then Nat.min n c else 0.
Fixpoint sent (tr : list pobs) : nat := match tr with [] => 0 | PWrite c e n :: tr => sent tr + takes c e n | _ :: tr => sent tr end.
Fixpoint came (tr : list pobs) : nat := match tr with [] => 0 | PCame n :: tr => came tr + n | _ :: tr => came tr end.
(** the text of all reports, and what the user took of it *)
Fixpoint texts (txt : report -> list Z) (tr : list pobs) : list Z := match tr with [] => [] | PReport r :: tr => texts txt tr ++ txt r | _ :: tr => texts txt tr end.
Fixpoint taken (tr : list pobs) : list Z := match tr with [] => [] | PText d e n :: tr => taken tr ++ firstn (takes (length d) e n) d | _ :: tr => taken tr end.
(** what the reports of the timer add up to *)
Fixpoint tick_w (tr : list pobs) : nat := match tr with [] => 0 | PReport (RTick w _ _) :: tr => tick_w tr + w | _ :: tr => tick_w tr end.
Fixpoint tick_r (tr : list pobs) : nat := match tr with [] => 0 | PReport (RTick _ r _) :: tr => tick_r tr + r | _ :: tr => tick_r tr end.
(** since the last report of the timer *)
Fixpoint since_w (tr : list pobs) : nat := match tr with [] => 0 | PReport (RTick _ _ _) :: _ => 0 | PWrite c e n :: tr => since_w tr + takes c e n | _ :: tr => since_w tr end.
Fixpoint since_r (tr : list pobs) : nat := match tr with [] => 0 | PReport (RTick _ _ _) :: _ => 0 | PCame n :: tr => since_r tr + n | _ :: tr => since_r tr end.
Fixpoint since_t (tr : list pobs) : nat := match tr with [] => 0 | PReport (RTick _ _ _) :: _ => 0 | PTime :: tr => S (since_t tr) | _ :: tr => since_t tr end.
Definition istotal (o : pobs) : Prop := match o with PReport (RTotal _ _) => True | _ => False end.
(** each report is right; the total is made once, and unless an error was told only when all was
    sent and all that is expected came; the end comes after that, when the user has all text; no more is offered
    than the buffer holds and is left to write *)
Fixpoint reports_ok (txt : report -> list Z) (bufsz wlen oexp : nat) (tr : list pobs) : Prop :=
  match tr with
  | [] => True
  | PReport (RTotal w r) :: tr => w = sent tr /\ r = came tr /\ ~ Exists istotal tr /\ (In PIoErr tr \/ sent tr = wlen /\ oexp <= came tr) /\ reports_ok txt bufsz wlen oexp tr
  | PReport (RTick w r t) :: tr => w = since_w tr /\ r = since_r tr /\ t = since_t tr /\ reports_ok txt bufsz wlen oexp tr
  | PWrite c _ _ :: tr => c <= bufsz /\ sent tr + c <= wlen /\ reports_ok txt bufsz wlen oexp tr
  | PEnd :: tr => sent tr = wlen /\ Exists istotal tr /\ taken tr = texts txt tr /\ reports_ok txt bufsz wlen oexp tr
  | _ :: tr => reports_ok txt bufsz wlen oexp tr
  end.
