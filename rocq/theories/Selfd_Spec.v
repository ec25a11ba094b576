(** What the history says about descriptors and registrations.  Traces have the newest
    entry first. *)
From Verif Require Import Base Heap_Model Selfd_Model.
Open Scope nat_scope.

(** the handlers of a descriptor: those set last, if not cleared since *)
Fixpoint cur (fd : nat) (tr : list fob) : option nat :=
  match tr with
  | [] => None
  | FSet u g _ :: tr => if u =? fd then Some g else cur fd tr
  | FClear u _ :: tr => if u =? fd then None else cur fd tr
  | _ :: tr => cur fd tr
  end.
(** the descriptor of a registration *)
Fixpoint regfd (g : nat) (tr : list fob) : option nat :=
  match tr with [] => None | FSet fd u _ :: tr => if u =? g then Some fd else regfd g tr | _ :: tr => regfd g tr end.
Definition kind_eqb (a b : kind) : bool := match a, b with KRead, KRead | KWrite, KWrite | KExcept, KExcept => true | _, _ => false end.
(** the user has enabled the handler, after setting the handlers *)
Fixpoint enabled (fd : nat) (k : kind) (tr : list fob) : bool :=
  match tr with
  | [] => false
  | FSet u _ _ :: tr => if u =? fd then false else enabled fd k tr
  | FEn u j b :: tr => if (u =? fd) && kind_eqb j k then b else enabled fd k tr
  | _ :: tr => enabled fd k tr
  end.
(** how many threads are in handlers of a registration *)
Fixpoint running (g : nat) (tr : list fob) : nat :=
  match tr with
  | [] => 0
  | FCall _ _ u :: tr => (if u =? g then 1 else 0) + running g tr
  | FRet _ u :: tr => running g tr - (if u =? g then 1 else 0)
  | _ :: tr => running g tr
  end.
(** the registration was made with a done handler *)
Definition has_done (g : nat) (tr : list fob) : bool := existsb (fun o => match o with FSet _ u dn => (u =? g) && dn | _ => false end) tr.
(** its done handler was called *)
Definition done_called (g : nat) (tr : list fob) : bool := existsb (fun o => match o with FDone _ u => u =? g | _ => false end) tr.
(** its handlers were cleared by the function that does not want the done handler *)
Fixpoint no_report (g : nat) (tr : list fob) : bool :=
  match tr with
  | [] => false
  | FClear fd rpt :: tr => (negb rpt && match cur fd tr with Some u => u =? g | None => false end) || no_report g tr
  | _ :: tr => no_report g tr
  end.
(** The use for which things work: handlers are set only for a descriptor that has
    none, and while no thread is in an old handler of it. *)
Fixpoint in_handler (fd : nat) (tr : list fob) : nat :=
  match tr with
  | [] => 0
  | FCall u _ _ :: tr => (if u =? fd then 1 else 0) + in_handler fd tr
  | FRet u _ :: tr => in_handler fd tr - (if u =? fd then 1 else 0)
  | _ :: tr => in_handler fd tr
  end.
Fixpoint orderly (tr : list fob) : Prop :=
  match tr with
  | [] => True
  | o :: tr => orderly tr /\ match o with FSet fd _ _ => cur fd tr = None /\ in_handler fd tr = 0 | _ => True end
  end.
(** no thread is in a callback, and no done runner waits *)
Definition frest (s : fst_) : Prop := f_fr s = [] /\ f_tl s = [] /\ f_q s = [].
(** the handlers given when the registration was made *)
Fixpoint given (g : nat) (es : list fev) : option three :=
  match es with [] => None | EvSet _ u _ h :: es => if u =? g then Some h else given g es | _ :: es => given g es end.
