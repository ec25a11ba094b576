(** What is observed of a file gensio.  Traces are newest first. *)
From Verif Require Import Base File_Model.
Open Scope nat_scope.

(** what read() gave, and what the reader took, oldest first *)
Fixpoint got (tr : list fobs) : list Z :=
  match tr with [] => [] | XRead d :: tr => got tr ++ d | _ :: tr => got tr end.
Fixpoint took (tr : list fobs) : list Z :=
  match tr with [] => [] | TTook d :: tr => took tr ++ d | _ :: tr => took tr end.
Definition unread (tr : list fobs) : list Z := skipn (length (took tr)) (got tr).
(** data offered is all that was read and not taken; data taken is the first of it *)
Fixpoint data_ok (tr : list fobs) : Prop :=
  match tr with
  | [] => True
  | TTook d :: tr => (exists r, unread tr = d ++ r) /\ data_ok tr
  | TOffer _ d :: tr => d = unread tr /\ data_ok tr
  | _ :: tr => data_ok tr
  end.

(** what writev() took, and what writes were told was taken *)
Fixpoint wrote (tr : list fobs) : list Z :=
  match tr with [] => [] | XWrote d :: tr => wrote tr ++ d | _ :: tr => wrote tr end.
Fixpoint counted (tr : list fobs) : list Z :=
  match tr with [] => [] | TWrite sg rv n :: tr => counted tr ++ firstn n (concat sg) | _ :: tr => counted tr end.
(** a write counts no more than it was given; a failing one counts nothing *)
Fixpoint counts_ok (tr : list fobs) : Prop :=
  match tr with
  | [] => True
  | TWrite sg rv n :: tr => n <= length (concat sg) /\ (rv <> 0%Z -> n = 0) /\ counts_ok tr
  | _ :: tr => counts_ok tr
  end.

(** is an open or close callback promised and not called yet? *)
Fixpoint pend_open (tr : list fobs) : bool :=
  match tr with [] => false | TOpen c :: _ => c | TOpened _ :: _ | TDisable :: _ => false | _ :: tr => pend_open tr end.
Fixpoint pend_close (tr : list fobs) : bool :=
  match tr with [] => false | TClose c :: _ => c | TClosed :: _ | TDisable :: _ => false | _ :: tr => pend_close tr end.
(** a close or disable came after the last open *)
Fixpoint closing (tr : list fobs) : bool :=
  match tr with [] => true | TOpen _ :: _ => false | TClose _ :: _ | TDisable :: _ => true | _ :: tr => closing tr end.
(** a callback is called only when promised, nothing promised is forgotten for a new one, and the
    open callback says success exactly if the gensio is not already being closed *)
Fixpoint done_ok (tr : list fobs) : Prop :=
  match tr with
  | [] => True
  | TOpen _ :: tr => pend_open tr = false /\ pend_close tr = false /\ closing tr = true /\ done_ok tr
  | TClose _ :: tr => pend_close tr = false /\ closing tr = false /\ done_ok tr
  | TOpened err :: tr => pend_open tr = true /\ err = (if closing tr then GE_LOCALCLOSED else 0%Z) /\ done_ok tr
  | TClosed :: tr => pend_open tr = false /\ pend_close tr = true /\ done_ok tr
  | _ :: tr => done_ok tr
  end.
(** the read and write ready events, reading, and accepting writes come only while open and not closing *)
Fixpoint quiet_ok (tr : list fobs) : Prop :=
  match tr with
  | [] => True
  | (TOffer _ _ | TWready | XRead _ | XEnd | XErr _ | XWrote _) :: tr => closing tr = false /\ pend_open tr = false /\ quiet_ok tr
  | TWrite _ rv _ :: tr => (rv = 0%Z -> closing tr = false /\ pend_open tr = false) /\ quiet_ok tr
  | _ :: tr => quiet_ok tr
  end.
(** an error told to the reader is one that read() gave, or its end, or one a callback gave *)
Definition said (e : Z) (tr : list fobs) : Prop :=
  In (XErr e) tr \/ (e = GE_REMCLOSE /\ In XEnd tr) \/ In (TRet e) tr.
Fixpoint errs_ok (tr : list fobs) : Prop :=
  match tr with
  | [] => True
  | TOffer e d :: tr => (e = 0%Z -> d <> []) /\ (e <> 0%Z -> said e tr) /\ errs_ok tr
  | _ :: tr => errs_ok tr
  end.

(** descriptors that are open *)
Fixpoint fds (tr : list fobs) : list nat :=
  match tr with
  | [] => []
  | XOpen fd :: tr => fd :: fds tr
  | XClose fd :: tr => List.remove Nat.eq_dec fd (fds tr)
  | _ :: tr => fds tr
  end.

(** what was seen since the gensio was freed *)
Fixpoint after_free (tr : list fobs) : list fobs :=
  match tr with [] => [] | TFree :: _ => [] | o :: tr => o :: after_free tr end.
Fixpoint freed (tr : list fobs) : bool :=
  match tr with [] => false | TFree :: _ => true | _ :: tr => freed tr end.
(** what was seen since the last open was accepted *)
Fixpoint session (tr : list fobs) : list fobs :=
  match tr with [] => [] | TOpen _ :: _ => [] | o :: tr => o :: session tr end.
