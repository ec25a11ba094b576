(** Model of lib/gensio_echo.c: a gensio that gives back what is written to it. *)
From Verif Require Import Base Circbuf_Model.
Open Scope nat_scope.

(** include/gensio/gensio_err.h *)
Definition GE_NOTREADY : Z := 12%Z.
Definition GE_LOCALCLOSED : Z := 35%Z.

(** enum echon_state, lib/gensio_echo.c:20-26. *)
Inductive est := CLOSED | IN_OPEN | OPEN | IN_OPEN_CLOSE | IN_CLOSE.
Definition est_eqb (a b : est) : bool :=
  match a, b with CLOSED, CLOSED | IN_OPEN, IN_OPEN | OPEN, OPEN | IN_OPEN_CLOSE, IN_OPEN_CLOSE | IN_CLOSE, IN_CLOSE => true | _, _ => false end.

(** Where the deferred operation is: not started, in the runner's queue, or with the lock
    released in one of the user's callbacks. *)
Inductive epc := PIdle | PQueued | POpened | PRead (d : list Z) | PEof | PWready | PClosed.

(** What the user sees: calls with their results, callbacks, returns from callbacks. *)
Inductive eobs :=
| TWrite (sg : list (list Z)) (rv : Z) (n : nat)  (* gensio_write_sg *)
| TOpen (c : option nat)   (* an open was accepted, with callback [c] *)
| TOpened (c : nat) (err : Z)  (* open callback *)
| TClose (c : option nat)  (* a close was accepted *)
| TClosed (c : nat)        (* close callback *)
| TOffer (d : list Z)      (* read event with data *)
| TTook (d : list Z)       (* the read event took these *)
| TEof                     (* read event with GE_REMCLOSE *)
| TWready                  (* write ready event *)
| TRet                     (* a callback returned *)
| TFree | TDisable.

(** struct echon_data, lib/gensio_echo.c:28-57.  [e_err] is the local variable of
    echon_deferred_op; [e_live] is false once the memory was given back; [e_user] is false once
    the user may only free ([e_freed]: not even that). *)
Record echo := mke { e_st : est; e_buf : circbuf; e_noecho : bool; e_jd : bool; e_rd : bool; e_xm : bool;
  e_od : option nat; e_cd : option nat; e_pend : bool; e_ref : nat; e_pc : epc; e_err : Z;
  e_live : bool; e_dis : bool; e_freed : bool; e_n : nat; e_tr : list eobs }.

Definition set_st v s := mke v (e_buf s) (e_noecho s) (e_jd s) (e_rd s) (e_xm s) (e_od s) (e_cd s) (e_pend s) (e_ref s) (e_pc s) (e_err s) (e_live s) (e_dis s) (e_freed s) (e_n s) (e_tr s).
Definition set_buf v s := mke (e_st s) v (e_noecho s) (e_jd s) (e_rd s) (e_xm s) (e_od s) (e_cd s) (e_pend s) (e_ref s) (e_pc s) (e_err s) (e_live s) (e_dis s) (e_freed s) (e_n s) (e_tr s).
Definition set_rd v s := mke (e_st s) (e_buf s) (e_noecho s) (e_jd s) v (e_xm s) (e_od s) (e_cd s) (e_pend s) (e_ref s) (e_pc s) (e_err s) (e_live s) (e_dis s) (e_freed s) (e_n s) (e_tr s).
Definition set_xm v s := mke (e_st s) (e_buf s) (e_noecho s) (e_jd s) (e_rd s) v (e_od s) (e_cd s) (e_pend s) (e_ref s) (e_pc s) (e_err s) (e_live s) (e_dis s) (e_freed s) (e_n s) (e_tr s).
Definition set_od v s := mke (e_st s) (e_buf s) (e_noecho s) (e_jd s) (e_rd s) (e_xm s) v (e_cd s) (e_pend s) (e_ref s) (e_pc s) (e_err s) (e_live s) (e_dis s) (e_freed s) (e_n s) (e_tr s).
Definition set_cd v s := mke (e_st s) (e_buf s) (e_noecho s) (e_jd s) (e_rd s) (e_xm s) (e_od s) v (e_pend s) (e_ref s) (e_pc s) (e_err s) (e_live s) (e_dis s) (e_freed s) (e_n s) (e_tr s).
Definition set_op p r c s := mke (e_st s) (e_buf s) (e_noecho s) (e_jd s) (e_rd s) (e_xm s) (e_od s) (e_cd s) p r c (e_err s) (e_live s) (e_dis s) (e_freed s) (e_n s) (e_tr s).
Definition set_pc c s := mke (e_st s) (e_buf s) (e_noecho s) (e_jd s) (e_rd s) (e_xm s) (e_od s) (e_cd s) (e_pend s) (e_ref s) c (e_err s) (e_live s) (e_dis s) (e_freed s) (e_n s) (e_tr s).
Definition set_err v s := mke (e_st s) (e_buf s) (e_noecho s) (e_jd s) (e_rd s) (e_xm s) (e_od s) (e_cd s) (e_pend s) (e_ref s) (e_pc s) v (e_live s) (e_dis s) (e_freed s) (e_n s) (e_tr s).
Definition set_life l d f s := mke (e_st s) (e_buf s) (e_noecho s) (e_jd s) (e_rd s) (e_xm s) (e_od s) (e_cd s) (e_pend s) (e_ref s) (e_pc s) (e_err s) l d f (e_n s) (e_tr s).
Definition set_n v s := mke (e_st s) (e_buf s) (e_noecho s) (e_jd s) (e_rd s) (e_xm s) (e_od s) (e_cd s) (e_pend s) (e_ref s) (e_pc s) (e_err s) (e_live s) (e_dis s) (e_freed s) v (e_tr s).
Definition put o s := mke (e_st s) (e_buf s) (e_noecho s) (e_jd s) (e_rd s) (e_xm s) (e_od s) (e_cd s) (e_pend s) (e_ref s) (e_pc s) (e_err s) (e_live s) (e_dis s) (e_freed s) (e_n s) (o :: e_tr s).

(** echon_unlock_and_deref, lib/gensio_echo.c:96-107; the assert is [None].  echon_finish_free
    (61-75) gives back the memory. *)
Definition deref (s : echo) : option echo :=
  _ <- guard (0 <? e_ref s) ;;
  Some (if e_ref s =? 1 then set_life false (e_dis s) (e_freed s) s else set_op (e_pend s) (e_ref s - 1) (e_pc s) s).

(** echon_start_deferred_op, lib/gensio_echo.c:216-225, and echon_ref, 89-94. *)
Definition start_op (s : echo) : option echo :=
  if e_pend s then Some s
  else _ <- guard (0 <? e_ref s) ;; Some (set_op true (S (e_ref s)) PQueued s).

(** echon_write, lib/gensio_echo.c:109-136. *)
Definition echon_write (sg : list (list Z)) (s : echo) : option echo :=
  if negb (est_eqb (e_st s) OPEN) then Some (put (TWrite sg GE_NOTREADY 0) s)
  else if e_noecho s then Some (put (TWrite sg 0 (length (concat sg))) s)
  else
    ' (c, n) <- circbuf_sg_write (e_buf s) sg ;;
    let s1 := put (TWrite sg 0 n) (set_buf c s) in
    if 0 <? n then start_op s1 else Some s1.

(** The end of echon_deferred_op, lib/gensio_echo.c:211-213. *)
Definition op_fin (s : echo) : option echo :=
  deref (set_op false (e_ref s) PIdle s).

(** lib/gensio_echo.c:199-206, up to the callback.  Without a callback the state stays closed and
    the restart of line 208 is not taken. *)
Definition op_close (s : echo) : option echo :=
  match e_st s with
  | IN_CLOSE =>
    let s1 := set_st CLOSED s in
    match e_cd s1 with
    | Some c => Some (set_pc PClosed (put (TClosed c) s1))
    | None => op_fin s1
    end
  | _ => op_fin s
  end.

(** The data handed to the read callback, lib/gensio_echo.c:172-176. *)
Definition op_offer (s : echo) : option echo :=
  ' (pos, count) <- circbuf_next_read_area (e_buf s) ;;
  d <- mread (cb_mem (e_buf s)) pos count ;;
  Some (set_pc (PRead d) (put (TOffer d) s)).

(** lib/gensio_echo.c:195-197: again with the reads.  The condition is the one of the read loop
    with data, so the next thing is a read callback. *)
Definition op_bottom (s : echo) : option echo :=
  if ((e_err s =? 0)%Z && est_eqb (e_st s) OPEN) && ((0 <? circbuf_datalen (e_buf s)) && e_rd s)
  then op_offer s else op_close s.

(** The write loop, lib/gensio_echo.c:185-190, up to the callback. *)
Definition op_writes (s : echo) : option echo :=
  if est_eqb (e_st s) OPEN && ((0 <? circbuf_room_left (e_buf s)) && e_xm s)
  then Some (set_pc PWready (put TWready s)) else op_bottom s.

(** The read loop, lib/gensio_echo.c:158-177, up to the callback. *)
Definition op_reads (s : echo) : option echo :=
  if est_eqb (e_st s) OPEN && (((0 <? circbuf_datalen (e_buf s)) || e_jd s) && e_rd s) then
    if circbuf_datalen (e_buf s) =? 0
    then Some (set_pc PEof (put TEof (set_rd false s)))
    else op_offer s
  else op_writes s.

(** lib/gensio_echo.c:145-156, from the label restart, up to the callback. *)
Definition op_restart (s : echo) : option echo :=
  match e_st s with
  | IN_OPEN | IN_OPEN_CLOSE =>
    let s1 := match e_st s with
              | IN_OPEN_CLOSE => set_err GE_LOCALCLOSED (set_st IN_CLOSE s)
              | _ => set_st OPEN s
              end in
    match e_od s1 with
    | Some c => Some (set_pc POpened (put (TOpened c (e_err s1)) s1))
    | None => op_reads s1
    end
  | _ => op_reads s
  end.

(** echon_deferred_op after a callback returned [rv], the read callback with [k] bytes taken. *)
Definition op_return (rv : Z) (k : nat) (s : echo) : option echo :=
  match e_pc s with
  | POpened => op_reads (put TRet s)
  | PEof => op_reads (put TRet s)
  | PRead d =>
    let s1 := set_err rv (put TRet s) in
    if (rv =? 0)%Z then
      c <- circbuf_data_removed (e_buf s) k ;;
      op_reads (put (TTook (firstn k d)) (set_buf c s1))
    else op_writes s1
  | PWready =>
    let s1 := set_err rv (put TRet s) in
    if (rv =? 0)%Z then op_writes s1 else op_bottom s1
  | PClosed =>
    let s1 := put TRet s in
    match e_st s1 with CLOSED => op_fin s1 | _ => op_restart s1 end
  | _ => Some s
  end.

(** echon_set_read_callback_enable, lib/gensio_echo.c:227-238. *)
Definition set_read (b : bool) (s : echo) : option echo :=
  let s1 := set_rd b s in
  if (b && est_eqb (e_st s1) OPEN) && ((0 <? circbuf_datalen (e_buf s1)) || e_jd s1) then start_op s1 else Some s1.
(** echon_set_write_callback_enable, lib/gensio_echo.c:240-251. *)
Definition set_write (b : bool) (s : echo) : option echo :=
  let s1 := set_xm b s in
  if (b && est_eqb (e_st s1) OPEN) && (0 <? circbuf_room_left (e_buf s1)) then start_op s1 else Some s1.

(** A callback given by the user, numbered. *)
Definition newcb (b : bool) (s : echo) : option nat := if b then Some (e_n s) else None.

(** echon_open, lib/gensio_echo.c:253-272.  A refused open is not noted. *)
Definition echon_open (cb : bool) (s : echo) : option echo :=
  match e_st s with
  | CLOSED => start_op (set_n (S (e_n s)) (put (TOpen (newcb cb s)) (set_od (newcb cb s) (set_st IN_OPEN s))))
  | _ => Some s
  end.
(** echon_close, lib/gensio_echo.c:274-296. *)
Definition echon_close (cb : bool) (s : echo) : option echo :=
  let go st := start_op (set_n (S (e_n s)) (put (TClose (newcb cb s)) (set_cd (newcb cb s) (set_st st s)))) in
  match e_st s with
  | IN_OPEN => go IN_OPEN_CLOSE
  | OPEN => go IN_CLOSE
  | _ => Some s
  end.
(** echon_free, lib/gensio_echo.c:298-306. *)
Definition echon_free (s : echo) : option echo :=
  deref (set_life (e_live s) (e_dis s) true (put TFree (set_st CLOSED s))).
(** echon_disable, lib/gensio_echo.c:308-318. *)
Definition echon_disable (s : echo) : option echo :=
  Some (set_life (e_live s) true (e_freed s) (put TDisable (set_st CLOSED s))).

(** echo_gensio_alloc, lib/gensio_echo.c:406-465, and echo_ndata_setup, 372-404; allocations
    succeed.  [data] is the parameter data=. *)
Definition echo_alloc (readbuf : nat) (noecho : bool) (data : option (list Z)) : option echo :=
  let size := match data with Some d => length d | None => readbuf end in
  let s := mke CLOSED (circbuf_alloc size) noecho false false false None None false 1 PIdle 0 true false false 0 [] in
  match data with
  | None => Some s
  | Some d =>
    ' (c, n) <- circbuf_sg_write (circbuf_alloc size) [d] ;;
    Some (mke CLOSED c noecho noecho false false None None false 1 PIdle 0 true false false 0 [])
  end.

(** Calls of the user, from any thread and also from inside callbacks; the runner starting the
    operation; a callback returning. *)
Inductive eev :=
| EWrite (sg : list (list Z)) | ERead (b : bool) | EWready (b : bool) | EOpen (cb : bool) | EClose (cb : bool)
| EDisable | EFree | ERun | ERet (rv : Z) (k : nat).

(** Any event with the memory gone is [None], except those that cannot be.  The user does not call
    anything after free, nothing but free after disable (man/gensio_close.3:36-45), and a read
    callback takes no more than it was given; such events do nothing. *)
Definition estep (e : eev) (s : echo) : option echo :=
  let user (f : echo -> option echo) :=
    if e_freed s || e_dis s then Some s else _ <- guard (e_live s) ;; f s in
  match e with
  | EWrite sg => user (echon_write sg)
  | ERead b => user (set_read b)
  | EWready b => user (set_write b)
  | EOpen cb => user (echon_open cb)
  | EClose cb => user (echon_close cb)
  | EDisable => user echon_disable
  | EFree => if e_freed s then Some s else _ <- guard (e_live s) ;; echon_free s
  | ERun => match e_pc s with PQueued => _ <- guard (e_live s) ;; op_restart (set_err 0 s) | _ => Some s end
  | ERet rv k =>
    match e_pc s with
    | PIdle | PQueued => Some s
    | PRead d => if length d <? k then Some s else _ <- guard (e_live s) ;; op_return rv k s
    | _ => _ <- guard (e_live s) ;; op_return rv k s
    end
  end.
Fixpoint erun (es : list eev) (s : echo) : option echo :=
  match es with [] => Some s | e :: es => s1 <- estep e s ;; erun es s1 end.
