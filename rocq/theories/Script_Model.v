(** Model of lib/gensio_script.c: a filter that lets a script talk over the gensio below before the
    open is done.  One life of the filter, from script_setup on. *)
From Verif Require Import Base.
Open Scope nat_scope.

(** include/gensio/gensio_err.h:22, 44, 53 *)
Definition GE_NOTFOUND : Z := 4%Z.
Definition GE_REMCLOSE : Z := 26%Z.
Definition GE_LOCALCLOSED : Z := 35%Z.

(** enum script_state, lib/gensio_script.c:26-32. *)
Inductive sst := CLOSED | IN_SUB_OPEN | IN_OPEN | OPEN | OPEN_FAIL.
(** What GENSIO_CONTROL_EXIT_CODE gives: a code (as read by strtoul into an int), or an error. *)
Inductive xres := XCode (n : Z) | XErr (e : Z).
(** What is seen outside: bytes taken from the script and from below; bytes the script and the
    gensio below accepted; bytes passed to and from the user; the start and exit of the script, errors,
    and that the open is done, with what script_check_open_done (115-121) then gives. *)
Inductive sobs :=
| SStart | SOpened | SRead (d : list Z) | SOut (d : list Z) | MIn (d : list Z) | SWrote (d : list Z)
| UIn (d : list Z) | UOut (d : list Z) | SEnd | SExit (x : xres) | SErr (e : Z) | ODone (e : Z).

(** struct script_filter, lib/gensio_script.c:34-66.  [s_held] is whether the lock is held, [s_io]
    whether io is not NULL, [s_ren] and [s_wen] the callback enables of io, [s_cl] whether a close of
    io is under way.  A buffer is the bytes between pos and pos + len. *)
Record script := mks { s_st : sst; s_err : Z; s_cl : bool; s_held : bool; s_io : bool; s_ren : bool; s_wen : bool; s_s2g : list Z; s_g2s : list Z; s_tr : list sobs }.
(** sizeof scrtog_buf and gtoscr_buf, lib/gensio_script.c:52, 60 *)
Definition BUFSZ : nat := Z.to_nat 1024.

(** [Undef]: a failed assert, an unlock of a lock that is not held, or a use of NULL.  [Hang]: a lock
    that is never released is waited for. *)
Inductive res := Ok (s : script) | Undef | Hang.
Definition bind (r : res) (f : script -> res) : res := match r with Ok s => f s | Undef => Undef | Hang => Hang end.

Definition put o s := mks (s_st s) (s_err s) (s_cl s) (s_held s) (s_io s) (s_ren s) (s_wen s) (s_s2g s) (s_g2s s) (o :: s_tr s).
Definition set_st v s := mks v (s_err s) (s_cl s) (s_held s) (s_io s) (s_ren s) (s_wen s) (s_s2g s) (s_g2s s) (s_tr s).
Definition set_err v s := mks (s_st s) v (s_cl s) (s_held s) (s_io s) (s_ren s) (s_wen s) (s_s2g s) (s_g2s s) (s_tr s).
Definition set_cl v s := mks (s_st s) (s_err s) v (s_held s) (s_io s) (s_ren s) (s_wen s) (s_s2g s) (s_g2s s) (s_tr s).
Definition set_held v s := mks (s_st s) (s_err s) (s_cl s) v (s_io s) (s_ren s) (s_wen s) (s_s2g s) (s_g2s s) (s_tr s).
Definition set_io v s := mks (s_st s) (s_err s) (s_cl s) (s_held s) v (s_ren s) (s_wen s) (s_s2g s) (s_g2s s) (s_tr s).
Definition set_en r w s := mks (s_st s) (s_err s) (s_cl s) (s_held s) (s_io s) r w (s_s2g s) (s_g2s s) (s_tr s).
Definition set_s2g v s := mks (s_st s) (s_err s) (s_cl s) (s_held s) (s_io s) (s_ren s) (s_wen s) v (s_g2s s) (s_tr s).
Definition set_g2s v s := mks (s_st s) (s_err s) (s_cl s) (s_held s) (s_io s) (s_ren s) (s_wen s) (s_s2g s) v (s_tr s).

(** script_lock and script_unlock, lib/gensio_script.c:71-81; include/pthread_handler.h:30, 41. *)
Definition lock (s : script) : res := if s_held s then Hang else Ok (set_held true s).
Definition unlock (s : script) : res := if s_held s then Ok (set_held false s) else Undef.

(** script_finish_close, lib/gensio_script.c:123-159. *)
Definition finish_close (x : xres) (s : script) : res :=
  let s1 := if (s_err s =? 0)%Z then
      set_err (match x with XCode n => if (n =? 0)%Z then 0%Z else GE_LOCALCLOSED | XErr e => if (e =? GE_NOTFOUND)%Z then 0%Z else e end) (put (SExit x) s)
    else s in
  if s_io s1 then
    let s2 := set_cl false (set_io false (set_st (if (s_err s1 =? 0)%Z then OPEN else OPEN_FAIL) s1)) in
    Ok (put (ODone (s_err s2)) s2)
  else Undef.

(** script_handle_err_unlock, lib/gensio_script.c:161-184: from the label on with an error.  The lock
    is released at 176 and again at 183. *)
Definition handle_fail (e : Z) (x : xres) (s : script) : res :=
  if s_io s then
    bind (unlock (set_st OPEN_FAIL (set_en false false (put (SErr e) (set_err e s)))))
      (fun s1 => bind (finish_close x s1) unlock)
  else Undef.
(** The same, whole; [crv] is what gensio_close returns. *)
Definition handle_err (e crv : Z) (x : xres) (s : script) : res :=
  let e1 := match s_st s with IN_OPEN => if (e =? GE_REMCLOSE)%Z then 0%Z else e | _ => e end in
  if (e1 =? 0)%Z then
    if s_io s then
      let s1 := put SEnd (set_err 0 s) in
      if (crv =? 0)%Z then unlock (set_cl true s1) else handle_fail crv x s1
    else Undef
  else handle_fail e1 x s.

(** script_try_connect, lib/gensio_script.c:278-314; [rv] is the result of str_to_gensio and
    gensio_open. *)
Definition try_connect (rv : Z) (s : script) : res :=
  bind (lock s) (fun s =>
  bind (Ok (match s_st s with CLOSED => if (rv =? 0)%Z then put SStart (set_st IN_SUB_OPEN (set_io true s)) else s | _ => s end)) unlock).

(** script_open_done, lib/gensio_script.c:186-201. *)
Definition open_done (e crv : Z) (x : xres) (s : script) : res :=
  bind (lock s) (fun s =>
  if (e =? 0)%Z then unlock (put SOpened (set_en true (s_wen s) (set_st IN_OPEN s))) else handle_err e crv x s).

(** script_sub_event with GENSIO_EVENT_READ, lib/gensio_script.c:203-241, 273-275. *)
Definition sub_read (e : Z) (d : list Z) (crv : Z) (x : xres) (s : script) : res :=
  bind (lock s) (fun s =>
  if (e =? 0)%Z then
    match d, s_s2g s with
    | [], _ => unlock s
    | _, _ :: _ => unlock (set_en false (s_wen s) s)
    | _, [] => let c := firstn BUFSZ d in unlock (put (SRead c) (set_en false (s_wen s) (set_s2g c s)))
    end
  else handle_err e crv x s).

(** script_sub_event with GENSIO_EVENT_WRITE_READY, lib/gensio_script.c:243-267; [e] and [n] are the
    result and count of gensio_write. *)
Definition sub_write (e : Z) (n : nat) (crv : Z) (x : xres) (s : script) : res :=
  bind (lock s) (fun s =>
  match s_g2s s with
  | [] => unlock (set_en (s_ren s) false s)
  | b =>
    if (e =? 0)%Z then
      let s1 := put (SWrote (firstn n b)) (set_g2s (skipn n b) s) in
      unlock (if length b <=? n then set_en (s_ren s1) false s1 else s1)
    else handle_err e crv x s
  end).

(** script_ul_write without data, as the base calls it to flush, lib/gensio_script.c:342-398; rcount
    is NULL then (lib/gensio_base.c:648, 1804).  [e] and [n] are the result and count of the handler.
    In other states the lock stays held (386). *)
Definition ul_flush (e : Z) (n : nat) (crv : Z) (x : xres) (s : script) : res :=
  match s_st s with OPEN => Ok s | _ =>
  bind (lock s) (fun s =>
  match s_st s with
  | IN_SUB_OPEN => Undef
  | IN_OPEN =>
    match s_s2g s with
    | [] => unlock s
    | b =>
      if (e =? 0)%Z then
        if length b <=? n then (if s_io s then unlock (put (SOut b) (set_en true (s_wen s) (set_s2g [] s))) else Undef)
        else unlock (put (SOut (firstn n b)) (set_s2g (skipn n b) s))
      else handle_err e crv x s
    end
  | _ => Ok s
  end) end.
(** script_ll_write_pending, lib/gensio_script.c:89-100 *)
Definition write_pending (s : script) : bool :=
  match s_st s, s_s2g s with IN_OPEN, _ :: _ => true | _, _ => false end.

(** script_ll_write, lib/gensio_script.c:400-441; [n] is what the user takes in the open state. *)
Definition ll_write (d : list Z) (n : nat) (s : script) : res :=
  match s_st s with OPEN => Ok (put (UIn (firstn n d)) s) | _ =>
  bind (lock s) (fun s =>
  match s_st s, s_g2s s, d with
  | IN_OPEN, [], _ :: _ => let c := firstn BUFSZ d in if s_io s then unlock (put (MIn c) (set_en (s_ren s) true (set_g2s c s))) else Undef
  | _, _, _ => unlock s
  end) end.

(** script_try_disconnect, lib/gensio_script.c:316-340. *)
Definition try_disconnect (s : script) : res :=
  bind (lock s) (fun s =>
  match s_st s with
  | IN_SUB_OPEN | IN_OPEN => unlock (set_st CLOSED (set_cl false (set_io false s)))
  | OPEN => unlock (set_st CLOSED s)
  | _ => unlock s
  end).

(** script_setup on new memory, lib/gensio_script.c:443-455. *)
Definition script_setup : script := mks CLOSED 0 false false false false false [] [] [].

(** Calls of the base: connect, disconnect, flush when script_ll_write_pending said so, flush when it
    said so but another thread came between, data from below, a write of the user; and what the gensio
    of the script does: it is opened, gives data or an error, can be written, is closed.  The last come
    only when they can: a gensio that is closing or freed gives no events, and read and write events
    need to be enabled.  Each event runs to its end before the next; no connect after a disconnect. *)
Inductive sev :=
| EConnect (rv : Z) | EDisc | EFlush (e : Z) (n : nat) (crv : Z) (x : xres) | ELate (e : Z) (n : nat) (crv : Z) (x : xres)
| EMain (d : list Z) (n : nat) | EUser (d : list Z) (n : nat)
| EOpened (e crv : Z) (x : xres) | ERead (e : Z) (d : list Z) (crv : Z) (x : xres) | EReady (e : Z) (n : nat) (crv : Z) (x : xres) | EClosed (x : xres).
Definition sstep (ev : sev) (s : script) : res :=
  let alive := s_io s && negb (s_cl s) in
  match ev with
  | EConnect rv => match s_tr s with [] => try_connect rv s | _ => Ok s end
  | EDisc => try_disconnect s
  | EFlush e n crv x => if write_pending s then ul_flush e n crv x s else Ok s
  | ELate e n crv x => ul_flush e n crv x s
  | EMain d n => ll_write d n s
  | EUser d n => match s_st s with OPEN => Ok (put (UOut (firstn n d)) s) | _ => Ok s end
  | EOpened e crv x => match s_st s with IN_SUB_OPEN => if alive then open_done e crv x s else Ok s | _ => Ok s end
  | ERead e d crv x => match s_st s with IN_OPEN => if alive && s_ren s then sub_read e d crv x s else Ok s | _ => Ok s end
  | EReady e n crv x => match s_st s with IN_OPEN => if alive && s_wen s then sub_write e n crv x s else Ok s | _ => Ok s end
  | EClosed x => if s_cl s then finish_close x s else Ok s
  end.
Fixpoint srun (es : list sev) (s : script) : res :=
  match es with [] => Ok s | e :: es => bind (sstep e s) (srun es) end.
