(** What is observed of a script filter.  Traces are newest first. *)
From Verif Require Import Base Script_Model.
Open Scope nat_scope.

(** bytes taken from the script, passed below for it, taken from below for it, accepted by it *)
Fixpoint sread (tr : list sobs) : list Z := match tr with [] => [] | SRead d :: tr => sread tr ++ d | _ :: tr => sread tr end.
Fixpoint sout (tr : list sobs) : list Z := match tr with [] => [] | SOut d :: tr => sout tr ++ d | _ :: tr => sout tr end.
Fixpoint mainin (tr : list sobs) : list Z := match tr with [] => [] | MIn d :: tr => mainin tr ++ d | _ :: tr => mainin tr end.
Fixpoint swrote (tr : list sobs) : list Z := match tr with [] => [] | SWrote d :: tr => swrote tr ++ d | _ :: tr => swrote tr end.
(** the open was told to be done *)
Definition isdone (o : sobs) : Prop := match o with ODone _ => True | _ => False end.
(** the exit of the script is a good one *)
Definition xgood (x : xres) : Prop := match x with XCode n => n = 0%Z | XErr e => e = GE_NOTFOUND \/ e = 0%Z end.
(** the open is told to be done once, after the script was opened, ended and gave its exit code, and
    without an error exactly if that is good *)
Fixpoint done_ok (tr : list sobs) : Prop :=
  match tr with
  | [] => True
  | ODone e :: tr => (exists x tr', tr = SExit x :: tr' /\ (e = 0%Z <-> xgood x)) /\ In SEnd tr /\ In SOpened tr /\ ~ Exists isdone tr /\ done_ok tr
  | _ :: tr => done_ok tr
  end.
(** data is passed to and from the user only after a good open *)
Fixpoint user_ok (tr : list sobs) : Prop :=
  match tr with [] => True | UIn _ :: tr => In (ODone 0) tr /\ user_ok tr | UOut _ :: tr => In (ODone 0) tr /\ user_ok tr | _ :: tr => user_ok tr end.

(** no error but the end of the script *)
Definition calm (ev : sev) : Prop :=
  match ev with
  | EFlush e _ _ _ => e = 0%Z | ELate _ _ _ _ => False | EOpened e _ _ => e = 0%Z
  | ERead e _ crv _ => e = 0%Z \/ e = GE_REMCLOSE /\ crv = 0%Z
  | EReady e _ crv _ => e = 0%Z \/ e = GE_REMCLOSE /\ crv = 0%Z
  | _ => True
  end.
(** the end of the script is seen by reading from it *)
Definition readend (ev : sev) : Prop :=
  match ev with EFlush e _ _ _ => e <> GE_REMCLOSE | ELate e _ _ _ => e <> GE_REMCLOSE | EReady e _ _ _ => e <> GE_REMCLOSE | _ => True end.
