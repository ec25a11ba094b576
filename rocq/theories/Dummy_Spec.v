(** What is observed of a dummy accepter.  Traces are newest first. *)
From Verif Require Import Base Dummy_Model.
Open Scope nat_scope.

(** is an answer to an enable or a shutdown promised and not given yet? *)
Fixpoint pend_en (tr : list dobs) : bool :=
  match tr with [] => false | TEnable true rv :: tr => (rv =? 0)%Z || pend_en tr | TEnabled :: _ => false | _ :: tr => pend_en tr end.
Fixpoint pend_sd (tr : list dobs) : bool :=
  match tr with [] => false | TShut cb rv :: tr => if (rv =? 0)%Z then cb else pend_sd tr | TShutDone :: _ => false | _ :: tr => pend_sd tr end.
(** started and not shut down, by what the calls returned *)
Fixpoint started (tr : list dobs) : bool :=
  match tr with [] => false | TStart rv :: tr => (rv =? 0)%Z || started tr | TShut _ rv :: tr => negb (rv =? 0)%Z && started tr | _ :: tr => started tr end.
(** an enable is refused exactly while one is not answered, and answers are given when promised *)
Fixpoint en_ok (tr : list dobs) : Prop :=
  match tr with
  | [] => True
  | TEnable _ rv :: tr => rv = (if pend_en tr then GE_INUSE else 0%Z) /\ en_ok tr
  | TEnabled :: tr => pend_en tr = true /\ en_ok tr
  | _ :: tr => en_ok tr
  end.
(** a shutdown is accepted exactly while started, and is answered when promised; none is promised
    while another is *)
Fixpoint sd_ok (tr : list dobs) : Prop :=
  match tr with
  | [] => True
  | TShut _ rv :: tr => rv = (if started tr then 0%Z else GE_INUSE) /\ (rv = 0%Z -> pend_sd tr = false) /\ sd_ok tr
  | TShutDone :: tr => pend_sd tr = true /\ sd_ok tr
  | _ :: tr => sd_ok tr
  end.
(** no startup was refused *)
Fixpoint starts_ok (tr : list dobs) : Prop :=
  match tr with [] => True | TStart rv :: tr => rv = 0%Z /\ starts_ok tr | _ :: tr => starts_ok tr end.
(** a shutdown is answered only when that is promised *)
Fixpoint sd_once (tr : list dobs) : Prop :=
  match tr with [] => True | TShutDone :: tr => pend_sd tr = true /\ sd_once tr | _ :: tr => sd_once tr end.
(** only the runner works and callbacks return; the user calls nothing *)
Definition quiet (e : dev) : Prop := match e with ERun | ERet _ => True | _ => False end.
(** such an event that does something *)
Definition works (s' s : dummy) : Prop := exists e, quiet e /\ dstep e s = Some s' /\ s' <> s.
(** nothing is left to do without the user *)
Definition idle (s : dummy) : Prop := forall e, quiet e -> dstep e s = Some s.
