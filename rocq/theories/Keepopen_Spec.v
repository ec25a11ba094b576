(** What is observed of a keepopen gensio.  Traces are newest first. *)
From Verif Require Import Base Keepopen_Model.
Open Scope nat_scope.

(** What the user knows: nothing open; an open or a close was accepted and not answered; freed (and
    whether a close was not answered then). *)
Inductive uview := VIdle | VOpening | VOpen | VOpeningClosing | VClosing | VFreed (closing : bool).
(** how it may go on: [None] for a callback nobody asked for, one called twice, an open taken
    while open; a refused call has no effect *)
Definition vstep (o : kobs) (v : uview) : option uview :=
  match o with
  | TOpen 0%Z => match v with VIdle => Some VOpening | _ => None end
  | TOpened 0%Z => match v with VOpening => Some VOpen | VOpeningClosing => Some VClosing | _ => None end
  | TOpened _ => None
  | TClose 0%Z => match v with VOpening => Some VOpeningClosing | VOpen => Some VClosing | _ => None end
  | TClosed => match v with VClosing => Some VIdle | VFreed true => Some (VFreed false) | _ => None end
  | TFree => match v with VFreed _ => None | VOpeningClosing | VClosing => Some (VFreed true) | _ => Some (VFreed false) end
  | _ => Some v
  end.
Fixpoint view (tr : list kobs) : option uview :=
  match tr with [] => Some VIdle | o :: tr => v <- view tr ;; vstep o v end.

(** nothing is on its way: no timer, no call of the child unanswered, no callback running *)
Definition quiet (s : ko) : Prop :=
  k_tmr s = false /\ k_fired s = 0 /\ k_ch s <> XOpening /\ k_ch s <> XClosing /\ forall k, tget k (k_th s) = 0.

(** The moments at which calls go wrong are left out: a close while the log handler is told of the
    child's open, in the open callback after a failed first open, with the child opening and
    reporting it nevertheless, or failing in the child; a free with the child not closed, or while
    such a callback runs. *)
Definition calm (e : kev) (s : ko) : Prop :=
  match e with
  | EClose r d => nF (k_th s) = 0 /\ nR (k_th s) = 0 /\ nTO (k_th s) = 0 /\ r = 0%Z /\ (k_ch s = XOpening -> d = true)
  | EFree => k_ch s = XClosed /\ nF (k_th s) = 0 /\ nR (k_th s) = 0 /\ nTO (k_th s) = 0 /\ nCO (k_th s) = 0 /\ nO (k_th s) = 0
  | _ => True
  end.
Fixpoint calm_run (es : list kev) (s : ko) : Prop :=
  match es with
  | [] => True
  | e :: es => calm e s /\ match kstep e s with Some s1 => calm_run es s1 | None => True end
  end.

(** not a call of the user *)
Definition not_user (e : kev) : Prop :=
  match e with EOpen _ | EClose _ _ | EFree | ERx _ | ETx _ | EWrite _ _ _ _ => False | _ => True end.

(** bytes the user was told are written, and bytes the child took, oldest first *)
Fixpoint told (tr : list kobs) : list Z :=
  match tr with [] => [] | TWrite d rv n :: tr => told tr ++ firstn n d | _ :: tr => told tr end.
Fixpoint taken (tr : list kobs) : list Z :=
  match tr with [] => [] | XWrite d rv n :: tr => taken tr ++ firstn n d | _ :: tr => taken tr end.
(** what the user last asked for, and what the child was last told since it was last opened *)
Fixpoint want_rx (tr : list kobs) : bool :=
  match tr with [] => false | TRx b :: _ => b | _ :: tr => want_rx tr end.
Fixpoint want_tx (tr : list kobs) : bool :=
  match tr with [] => false | TTx b :: _ => b | _ :: tr => want_tx tr end.
Fixpoint child_rx (tr : list kobs) : option bool :=
  match tr with [] => None | XRx b :: _ => Some b | XOpenCall 0%Z :: _ => None | _ :: tr => child_rx tr end.
Fixpoint child_tx (tr : list kobs) : option bool :=
  match tr with [] => None | XTx b :: _ => Some b | XOpenCall 0%Z :: _ => None | _ :: tr => child_tx tr end.
(** every write returned success *)
Definition writes_ok (tr : list kobs) : Prop := forall d rv n, In (TWrite d rv n) tr -> rv = 0%Z /\ n <= length d.
