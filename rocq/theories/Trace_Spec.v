(** What a trace filter should pass on and write. *)
From Verif Require Import Base Trace_Model.
Open Scope nat_scope.

(** the bytes of a raw trace *)
Fixpoint rawbytes (f : list frec) : list Z :=
  match f with [] => [] | FRaw d :: f => d ++ rawbytes f | _ :: f => rawbytes f end.
(** what one call should leave in a raw trace: what is offered, if traced before, then what was
    accepted, if traced after and passed on without an error *)
Definition should (c : tconf) (ev : tev) : list Z :=
  match ev with
  | TUl sg e n => (if has_w (c_b4 c) then concat sg else []) ++
      (if has_w (c_dir c) && negb (has_w (c_block c)) && (e =? 0)%Z then firstn n (concat sg) else [])
  | TLl b e n => (if has_r (c_b4 c) then b else []) ++
      (if has_r (c_dir c) && negb (has_r (c_block c)) && (e =? 0)%Z then firstn n b else [])
  | _ => []
  end.
Definition isdata (ev : tev) : Prop := match ev with TUl _ _ _ | TLl _ _ _ => True | _ => False end.
(** the errors that the calls traced after returned, newest first, and those in the trace *)
Fixpoint erecs (f : list frec) : list Z := match f with [] => [] | FErr _ e :: f => e :: erecs f | _ :: f => erecs f end.
Definition shoulderr (c : tconf) (ev : tev) : list Z :=
  match ev with
  | TUl _ e _ => if has_w (c_dir c) && negb (has_w (c_block c)) && negb (e =? 0)%Z then [e] else []
  | TLl _ e _ => if has_r (c_dir c) && negb (has_r (c_block c)) && negb (e =? 0)%Z then [e] else []
  | _ => []
  end.
(** a count in the trace is that of the bytes shown *)
Definition rec_ok (r : frec) : Prop := match r with FData _ n d => n = length d /\ d <> [] | _ => True end.
(** a lower layer never accepts more than it was given *)
Definition sane (ev : tev) : Prop := match ev with TUl sg _ n => n <= length (concat sg) | TLl b _ n => n <= length b | _ => True end.
(** a record of a raw trace: nothing but bytes *)
Definition israw (r : frec) : Prop := match r with FRaw _ => True | _ => False end.
