(** What the history of calls and callbacks says about a timer.  Traces have the
    newest entry first. *)
From Verif Require Import Base Seltimer_Model.
Open Scope Z_scope.

(** the timer has been started, and since then has neither called its handler nor
    been stopped or freed: the time it was started with *)
Fixpoint pend (t : nat) (tr : list tob) : option tv :=
  match tr with
  | [] => None
  | o :: tr =>
      match o with
      | TStart u x rv => if ((u =? t)%nat && (rv =? 0))%bool then Some x else pend t tr
      | TStop u rv | TStopD u _ rv => if ((u =? t)%nat && (rv =? 0))%bool then None else pend t tr
      | TFire u _ | TFree u => if (u =? t)%nat then None else pend t tr
      | _ => pend t tr
      end
  end.
(** it was stopped with a done handler that has not been called yet: the data of
    that handler *)
Fixpoint outst (t : nat) (tr : list tob) : option nat :=
  match tr with
  | [] => None
  | o :: tr =>
      match o with
      | TStopD u cb rv => if ((u =? t)%nat && (rv =? 0))%bool then Some cb else outst t tr
      | TDone u _ => if (u =? t)%nat then None else outst t tr
      | _ => outst t tr
      end
  end.
(** some thread is in one of its handlers *)
Fixpoint in_cb (t : nat) (tr : list tob) : bool :=
  match tr with
  | [] => false
  | o :: tr =>
      match o with
      | TFire u _ | TDone u _ => if (u =? t)%nat then true else in_cb t tr
      | TFired u | TDoned u => if (u =? t)%nat then false else in_cb t tr
      | _ => in_cb t tr
      end
  end.
(** the user has freed it; its memory has been given back *)
Definition freed (t : nat) (tr : list tob) : bool := existsb (fun o => match o with TFree u => (u =? t)%nat | _ => false end) tr.
Definition gone (t : nat) (tr : list tob) : bool := existsb (fun o => match o with TGone u => (u =? t)%nat | _ => false end) tr.
(** it was stopped or freed while a done handler was still to be called *)
Fixpoint misuse (t : nat) (tr : list tob) : bool :=
  match tr with
  | [] => false
  | o :: tr =>
      match o with
      | TStop u _ | TFree u => ((u =? t)%nat && match outst t tr with Some _ => true | None => false end) || misuse t tr
      | _ => misuse t tr
      end
  end.

(** No thread is in a handler, and no timer in the heap is due. *)
Definition quiet (s : tst) : Prop :=
  ts_fr s = [] /\ forallb (fun t => tv_lt (mono (ts_clk s)) (tm_tmo (ts_t s t))) (ts_heap s) = true.

(** the nanoseconds of a timeval *)
Definition nsof (x : tv) : Z := fst x * 1000000000 + snd x * 1000.

(** Every waiting thread that can be sent a signal, and was not sent one, wakes up no
    later than the first timer of the heap is due. *)
Definition awake_in_time (s : tst) : Prop :=
  forall w t, In w (ts_wait s) -> w_sig w = true -> w_sent w = false -> In t (ts_heap s) -> tv_lt (tm_tmo (ts_t s t)) (w_wake w) = false.
(** No timer was started inside its own handlers, and none was stopped with a done handler. *)
Fixpoint simple_use (tr : list tob) : Prop :=
  match tr with
  | [] => True
  | o :: tr => simple_use tr /\ match o with TStart t _ _ => in_cb t tr = false | TStopD _ _ rv => rv <> 0 | _ => True end
  end.
