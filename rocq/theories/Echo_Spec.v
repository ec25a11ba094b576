(** What is observed of an echo gensio.  Traces are newest first. *)
From Verif Require Import Base Echo_Model.
Open Scope nat_scope.

(** bytes accepted by writes, and bytes taken by the reader, oldest first *)
Fixpoint accepted (tr : list eobs) : list Z :=
  match tr with [] => [] | TWrite sg _ n :: tr => accepted tr ++ firstn n (concat sg) | _ :: tr => accepted tr end.
Fixpoint took (tr : list eobs) : list Z :=
  match tr with [] => [] | TTook d :: tr => took tr ++ d | _ :: tr => took tr end.
(** what there is to read: the text given with data= and, if echoing, what was accepted *)
Definition source (ne : bool) (text : list Z) (tr : list eobs) : list Z := text ++ (if ne then [] else accepted tr).
Definition unread (ne : bool) (text : list Z) (tr : list eobs) : list Z := skipn (length (took tr)) (source ne text tr).

(** data taken is what comes next; data offered is what comes next, and is something; an
    accepting write takes as much as there is room for (everything, if not echoing); another takes
    nothing *)
Fixpoint data_ok (cap : nat) (ne : bool) (text : list Z) (tr : list eobs) : Prop :=
  match tr with
  | [] => True
  | TTook d :: tr => (exists r, unread ne text tr = d ++ r) /\ data_ok cap ne text tr
  | TOffer d :: tr => d <> [] /\ (exists r, unread ne text tr = d ++ r) /\ data_ok cap ne text tr
  | TWrite sg rv n :: tr =>
    n = (if (rv =? 0)%Z then if ne then length (concat sg) else Nat.min (length (concat sg)) (cap - length (unread ne text tr)) else 0) /\ data_ok cap ne text tr
  | _ :: tr => data_ok cap ne text tr
  end.

(** the open and close callbacks that were promised and have not been called yet *)
Fixpoint pend_open (tr : list eobs) : option nat :=
  match tr with
  | [] => None | TOpen c :: _ => c | TOpened _ _ :: _ | TFree :: _ | TDisable :: _ => None | _ :: tr => pend_open tr end.
Fixpoint pend_close (tr : list eobs) : option nat :=
  match tr with
  | [] => None | TClose c :: _ => c | TClosed _ :: _ | TFree :: _ | TDisable :: _ => None | _ :: tr => pend_close tr end.
(** a callback is called only when promised, and nothing promised is forgotten for a new one *)
Fixpoint done_ok (tr : list eobs) : Prop :=
  match tr with
  | [] => True
  | TOpen _ :: tr => pend_open tr = None /\ pend_close tr = None /\ done_ok tr
  | TClose _ :: tr => pend_close tr = None /\ done_ok tr
  | TOpened c _ :: tr => pend_open tr = Some c /\ done_ok tr
  | TClosed c :: tr => pend_open tr = None /\ pend_close tr = Some c /\ done_ok tr
  | _ :: tr => done_ok tr
  end.

(** a close, free or disable came after the last open *)
Fixpoint closing (tr : list eobs) : bool :=
  match tr with [] => true | TOpen _ :: _ => false | TClose _ :: _ | TFree :: _ | TDisable :: _ => true | _ :: tr => closing tr end.
(** data, end and write ready events, and accepting writes, only while open and not closing *)
Fixpoint quiet_ok (tr : list eobs) : Prop :=
  match tr with
  | [] => True
  | (TOffer _ | TEof | TWready) :: tr => closing tr = false /\ pend_open tr = None /\ quiet_ok tr
  | TWrite _ rv _ :: tr => (rv = 0%Z -> closing tr = false /\ pend_open tr = None) /\ quiet_ok tr
  | _ :: tr => quiet_ok tr
  end.
(** the open callback says success exactly if the gensio is not already being closed *)
Fixpoint result_ok (tr : list eobs) : Prop :=
  match tr with
  | [] => True
  | TOpened _ err :: tr => err = (if closing tr then GE_LOCALCLOSED else 0%Z) /\ result_ok tr
  | _ :: tr => result_ok tr
  end.
(** inside a close callback *)
Fixpoint in_closed (tr : list eobs) : bool :=
  match tr with [] => false | TClosed _ :: _ => true | (TRet | TOpened _ _ | TOffer _ | TEof | TWready) :: _ => false | _ :: tr => in_closed tr end.
(** no open was made inside (or during) a close callback *)
Fixpoint opens_outside (tr : list eobs) : Prop :=
  match tr with [] => True | TOpen _ :: tr => in_closed tr = false /\ opens_outside tr | _ :: tr => opens_outside tr end.

(** what the user was told after it freed: only returns from callbacks that were running *)
Fixpoint after_free (tr : list eobs) : list eobs :=
  match tr with [] => [] | TFree :: _ => [] | o :: tr => o :: after_free tr end.

(** text written before the last open, unread *)
Fixpoint before_open (tr : list eobs) : list eobs :=
  match tr with [] => [] | TOpen _ :: tr => tr | _ :: tr => before_open tr end.
