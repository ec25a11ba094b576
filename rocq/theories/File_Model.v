(** Model of lib/gensio_file.c: a gensio that reads one file and writes another.  The branch
    without USE_FILE_STDIO (lines 193-254) is modelled. *)
From Verif Require Import Base.
Open Scope nat_scope.

(** include/gensio/gensio_err.h *)
Definition GE_NOTREADY : Z := 12%Z.
Definition GE_REMCLOSE : Z := 26%Z.
Definition GE_LOCALCLOSED : Z := 35%Z.

(** enum filen_state, lib/gensio_file.c:29-35. *)
Inductive fst_ := CLOSED | IN_OPEN | OPEN | IN_OPEN_CLOSE | IN_CLOSE.
Definition is_open (a : fst_) : bool := match a with OPEN => true | _ => false end.

(** A deferred operation that is running is in one of the user's callbacks, with the lock released. *)
Inductive fpc := POpened | PRead (d : list Z) | PWready | PClosed.

(** What the user sees, and (X) what the operating system sees. *)
Inductive fobs :=
| TWrite (sg : list (list Z)) (rv : Z) (n : nat)  (* gensio_write_sg *)
| TOpen (cb : bool)           (* an open was accepted, with or without a callback *)
| TRefused                    (* an open was refused because a file cannot be opened *)
| TOpened (err : Z)           (* open callback *)
| TClose (cb : bool)          (* a close was accepted *)
| TClosed                     (* close callback *)
| TOffer (err : Z) (d : list Z)  (* read event *)
| TTook (d : list Z)          (* the read event took these *)
| TWready                     (* write ready event *)
| TRet (rv : Z)               (* a callback returned *)
| TFree | TDisable
| XRead (d : list Z)          (* read() gave these *)
| XEnd | XErr (e : Z)         (* read() gave 0 or failed *)
| XWrote (d : list Z)         (* writev() took these *)
| XOpen (fd : nat) | XClose (fd : nat).

(** The parameters readbuf=, infile=, outfile= (given or not), read_close=; [c_thr] tells whether
    more than one thread runs the os handler. *)
Record fconf := mkc { c_max : nat; c_in : bool; c_out : bool; c_rc : bool; c_thr : bool }.

(** struct filen_data, lib/gensio_file.c:37-84.  [f_rbuf] is read_data up to data_pending_len;
    [f_ops] are the operations that are running; [f_live] is false once the memory was given back. *)
Record file := mkf { f_st : fst_; f_inf : option nat; f_outf : option nat; f_rd : bool; f_xm : bool;
  f_rbuf : list Z; f_rerr : Z; f_od : bool; f_cd : bool; f_pend : bool; f_ref : nat; f_ops : list fpc;
  f_live : bool; f_dis : bool; f_freed : bool; f_nfd : nat; f_tr : list fobs }.

Definition set_st vst s := mkf vst (f_inf s) (f_outf s) (f_rd s) (f_xm s) (f_rbuf s) (f_rerr s) (f_od s) (f_cd s) (f_pend s) (f_ref s) (f_ops s) (f_live s) (f_dis s) (f_freed s) (f_nfd s) (f_tr s).
Definition set_inf vinf s := mkf (f_st s) vinf (f_outf s) (f_rd s) (f_xm s) (f_rbuf s) (f_rerr s) (f_od s) (f_cd s) (f_pend s) (f_ref s) (f_ops s) (f_live s) (f_dis s) (f_freed s) (f_nfd s) (f_tr s).
Definition set_outf voutf s := mkf (f_st s) (f_inf s) voutf (f_rd s) (f_xm s) (f_rbuf s) (f_rerr s) (f_od s) (f_cd s) (f_pend s) (f_ref s) (f_ops s) (f_live s) (f_dis s) (f_freed s) (f_nfd s) (f_tr s).
Definition set_rd vrd s := mkf (f_st s) (f_inf s) (f_outf s) vrd (f_xm s) (f_rbuf s) (f_rerr s) (f_od s) (f_cd s) (f_pend s) (f_ref s) (f_ops s) (f_live s) (f_dis s) (f_freed s) (f_nfd s) (f_tr s).
Definition set_xm vxm s := mkf (f_st s) (f_inf s) (f_outf s) (f_rd s) vxm (f_rbuf s) (f_rerr s) (f_od s) (f_cd s) (f_pend s) (f_ref s) (f_ops s) (f_live s) (f_dis s) (f_freed s) (f_nfd s) (f_tr s).
Definition set_rbuf vrbuf s := mkf (f_st s) (f_inf s) (f_outf s) (f_rd s) (f_xm s) vrbuf (f_rerr s) (f_od s) (f_cd s) (f_pend s) (f_ref s) (f_ops s) (f_live s) (f_dis s) (f_freed s) (f_nfd s) (f_tr s).
Definition set_rerr vrerr s := mkf (f_st s) (f_inf s) (f_outf s) (f_rd s) (f_xm s) (f_rbuf s) vrerr (f_od s) (f_cd s) (f_pend s) (f_ref s) (f_ops s) (f_live s) (f_dis s) (f_freed s) (f_nfd s) (f_tr s).
Definition set_od vod s := mkf (f_st s) (f_inf s) (f_outf s) (f_rd s) (f_xm s) (f_rbuf s) (f_rerr s) vod (f_cd s) (f_pend s) (f_ref s) (f_ops s) (f_live s) (f_dis s) (f_freed s) (f_nfd s) (f_tr s).
Definition set_cd vcd s := mkf (f_st s) (f_inf s) (f_outf s) (f_rd s) (f_xm s) (f_rbuf s) (f_rerr s) (f_od s) vcd (f_pend s) (f_ref s) (f_ops s) (f_live s) (f_dis s) (f_freed s) (f_nfd s) (f_tr s).
Definition set_op vpend vref s := mkf (f_st s) (f_inf s) (f_outf s) (f_rd s) (f_xm s) (f_rbuf s) (f_rerr s) (f_od s) (f_cd s) vpend vref (f_ops s) (f_live s) (f_dis s) (f_freed s) (f_nfd s) (f_tr s).
Definition set_ops vops s := mkf (f_st s) (f_inf s) (f_outf s) (f_rd s) (f_xm s) (f_rbuf s) (f_rerr s) (f_od s) (f_cd s) (f_pend s) (f_ref s) vops (f_live s) (f_dis s) (f_freed s) (f_nfd s) (f_tr s).
Definition set_life vlive vdis vfreed s := mkf (f_st s) (f_inf s) (f_outf s) (f_rd s) (f_xm s) (f_rbuf s) (f_rerr s) (f_od s) (f_cd s) (f_pend s) (f_ref s) (f_ops s) vlive vdis vfreed (f_nfd s) (f_tr s).
Definition set_nfd vnfd s := mkf (f_st s) (f_inf s) (f_outf s) (f_rd s) (f_xm s) (f_rbuf s) (f_rerr s) (f_od s) (f_cd s) (f_pend s) (f_ref s) (f_ops s) (f_live s) (f_dis s) (f_freed s) vnfd (f_tr s).
Definition put o s := mkf (f_st s) (f_inf s) (f_outf s) (f_rd s) (f_xm s) (f_rbuf s) (f_rerr s) (f_od s) (f_cd s) (f_pend s) (f_ref s) (f_ops s) (f_live s) (f_dis s) (f_freed s) (f_nfd s) (o :: f_tr s).

(** f_ready, lib/gensio_file.c:201. *)
Definition ready (f : option nat) : bool := match f with Some _ => true | None => false end.

(** filen_unlock_and_deref, lib/gensio_file.c:295-306; the assert is [None].  filen_finish_free
    (256-274) gives back the memory. *)
Definition deref (s : file) : option file :=
  _ <- guard (0 <? f_ref s) ;;
  Some (if f_ref s =? 1 then set_life false (f_dis s) (f_freed s) s else set_op (f_pend s) (Nat.pred (f_ref s)) s).

(** filen_start_deferred_op, lib/gensio_file.c:423-432, and filen_ref, 288-293. *)
Definition start_op (s : file) : option file :=
  if f_pend s then Some s else _ <- guard (0 <? f_ref s) ;; Some (set_op true (S (f_ref s)) s).

(** What read() answers; see f_read, lib/gensio_file.c:221-237. *)
Inductive rans := RData (d : list Z) | REnd | RErr (e : Z).
(** No more than asked for is given, and no error is called 0. *)
Definition f_read (cf : fconf) (a : rans) : rans :=
  match a with
  | RData d => match firstn (c_max cf) d with [] => REnd | d => RData d end
  | REnd => REnd
  | RErr e => if (e =? 0)%Z then REnd else RErr e
  end.

(** What writev() answers; see f_writev, lib/gensio_file.c:203-220. *)
Inductive wans := WTook (n : nat) | WErr (e : Z).
(** Result and count; [n] is cut to what there is. *)
Definition f_writev (sg : list (list Z)) (a : wans) : Z * nat :=
  match a with
  | WErr e => if (e =? 0)%Z then (GE_REMCLOSE, 0) else (e, 0)
  | WTook n => match Nat.min n (length (concat sg)) with 0 => (GE_REMCLOSE, 0) | n => (0%Z, n) end
  end.

(** lib/gensio_file.c:321-323: the loop adds the length of the first part every time. *)
Definition drop_count (sg : list (list Z)) : nat :=
  match sg with [] => 0 | d :: _ => length sg * length d end.

(** filen_write, lib/gensio_file.c:308-333. *)
Definition filen_write (sg : list (list Z)) (a : wans) (s : file) : option file :=
  if negb (is_open (f_st s)) then Some (put (TWrite sg GE_NOTREADY 0) s)
  else if negb (ready (f_outf s)) then Some (put (TWrite sg 0 (drop_count sg)) s)
  else let (rv, n) := f_writev sg a in
    Some (put (TWrite sg rv n) (if n =? 0 then s else put (XWrote (firstn n (concat sg))) s)).

(** The functions below run the deferred operation up to the next callback; the second result is
    where it is then, [None] if it is done. *)
Definition ores := option (file * option fpc).

(** The end of filen_deferred_op, lib/gensio_file.c:420. *)
Definition op_fin (s : file) : ores := s1 <- deref s ;; Some (s1, None).

(** lib/gensio_file.c:411-418, up to the callback. *)
Definition op_close (s : file) : ores :=
  match f_st s with
  | IN_CLOSE =>
    let s1 := set_st CLOSED s in
    if f_cd s1 then Some (put TClosed s1, Some PClosed) else op_fin s1
  | _ => op_fin s
  end.

(** The write loop, lib/gensio_file.c:399-402, up to the callback. *)
Definition op_writes (s : file) : ores :=
  if is_open (f_st s) && f_xm s then Some (put TWready s, Some PWready) else op_close s.

(** lib/gensio_file.c:373-380, up to the callback.  At the end of the data without read_close=
    reading is disabled, which ends the loop; what was left (388-391) is dropped. *)
Definition op_offer (cf : fconf) (s : file) : ores :=
  if negb (c_rc cf) && (f_rerr s =? GE_REMCLOSE)%Z
  then op_writes (set_rbuf [] (set_rd false s))
  else Some (put (TOffer (f_rerr s) (f_rbuf s)) s, Some (PRead (f_rbuf s))).

(** lib/gensio_file.c:362-372. *)
Definition op_fill (cf : fconf) (a : rans) (s : file) : file :=
  if (length (f_rbuf s) =? 0) && (f_rerr s =? 0)%Z then
    match f_read cf a with
    | RData d => set_rbuf d (put (XRead d) s)
    | REnd => set_rerr GE_REMCLOSE (set_rd false (put XEnd s))
    | RErr e => set_rerr e (set_rd false (put (XErr e) s))
    end
  else s.

(** The read loop, lib/gensio_file.c:358-380, up to the callback; [a] is what read() answers if it
    is called. *)
Definition op_reads (cf : fconf) (a : rans) (s : file) : ores :=
  if is_open (f_st s) && ((ready (f_inf s) || negb (f_rerr s =? 0)%Z) && f_rd s)
  then op_offer cf (op_fill cf a s) else op_writes s.

(** filen_deferred_op, lib/gensio_file.c:335-356, up to the callback. *)
Definition op_start (cf : fconf) (a : rans) (s0 : file) : ores :=
  let s := set_op false (f_ref s0) s0 in
  let opened err s1 := if f_od s1 then Some (put (TOpened err) s1, Some POpened) else op_reads cf a s1 in
  match f_st s with
  | IN_OPEN_CLOSE => opened GE_LOCALCLOSED (set_st IN_CLOSE s)
  | IN_OPEN => opened 0%Z (set_st OPEN s)
  | _ => op_reads cf a s
  end.

(** lib/gensio_file.c:388-396.  memcpy with overlapping areas is [None]. *)
Definition consume (k : nat) (s : file) : option file :=
  if k =? 0 then Some s
  else if length (f_rbuf s) <=? k then Some (set_rbuf [] s)
  else _ <- guard (length (f_rbuf s) - k <=? k) ;; Some (set_rbuf (skipn k (f_rbuf s)) s).

(** filen_deferred_op after a callback returned [rv], the read callback with [k] bytes taken. *)
Definition op_return (cf : fconf) (pc : fpc) (rv : Z) (k : nat) (a : rans) (s : file) : ores :=
  match pc with
  | POpened => op_reads cf a (put (TRet 0) s)
  | PRead d =>
    let s1 := put (TRet rv) s in
    if (rv =? 0)%Z then s2 <- consume k (put (TTook (firstn k d)) s1) ;; op_reads cf a s2
    else op_writes (set_rerr rv (set_rd false s1))
  | PWready =>
    let s1 := put (TRet rv) s in
    if (rv =? 0)%Z then op_writes s1 else op_close (set_rerr rv (set_rd false s1))
  | PClosed => op_fin (put (TRet 0) s)
  end.

(** filen_set_read_callback_enable, lib/gensio_file.c:434-446. *)
Definition set_read (b : bool) (s : file) : option file :=
  if Bool.eqb (f_rd s) b then Some s
  else let s1 := set_rd b s in if b && is_open (f_st s1) && ready (f_inf s1) then start_op s1 else Some s1.
(** filen_set_write_callback_enable, lib/gensio_file.c:448-460. *)
Definition set_write (b : bool) (s : file) : option file :=
  if Bool.eqb (f_xm s) b then Some s
  else let s1 := set_xm b s in if b && is_open (f_st s1) then start_op s1 else Some s1.

(** A file is opened, f_open, lib/gensio_file.c:238-251. *)
Definition new_in (s : file) : file := set_inf (Some (f_nfd s)) (set_nfd (S (f_nfd s)) (put (XOpen (f_nfd s)) s)).
Definition new_out (s : file) : file := set_outf (Some (f_nfd s)) (set_nfd (S (f_nfd s)) (put (XOpen (f_nfd s)) s)).

(** filen_open, lib/gensio_file.c:462-502; [oki] and [oko] tell whether open() succeeds for the two
    files.  An open refused because of the state is not noted. *)
Definition filen_open (cf : fconf) (cb oki oko : bool) (s : file) : option file :=
  match f_st s with
  | CLOSED =>
    if c_in cf && negb oki then Some (put TRefused s)
    else
      let s1 := if c_in cf then new_in s else s in
      if c_out cf && negb oko then Some (put TRefused s1)
      else
        let s2 := if c_out cf then new_out s1 else s1 in
        start_op (put (TOpen cb) (set_od cb (set_st IN_OPEN s2)))
  | _ => Some s
  end.

(** f_close and f_set_not_ready, lib/gensio_file.c:515-522. *)
Definition close_in (s : file) : file := match f_inf s with Some fd => set_inf None (put (XClose fd) s) | None => s end.
Definition close_out (s : file) : file := match f_outf s with Some fd => set_outf None (put (XClose fd) s) | None => s end.

(** filen_close, lib/gensio_file.c:504-534. *)
Definition filen_close (cb : bool) (s : file) : option file :=
  let go st := start_op (put (TClose cb) (set_cd cb (set_st st (close_out (close_in s))))) in
  match f_st s with
  | IN_OPEN => go IN_OPEN_CLOSE
  | OPEN => go IN_CLOSE
  | _ => Some s
  end.

(** filen_free, lib/gensio_file.c:536-546. *)
Definition filen_free (s : file) : option file :=
  let s1 := if f_ref s =? 1 then set_st CLOSED s else s in
  deref (set_life (f_live s1) (f_dis s1) true (put TFree s1)).
(** filen_disable, lib/gensio_file.c:548-558. *)
Definition filen_disable (s : file) : option file :=
  Some (set_life (f_live s) true (f_freed s) (put TDisable (set_st CLOSED s))).

(** file_gensio_alloc, lib/gensio_file.c:741-775, and file_ndata_setup, 634-688; allocations succeed. *)
Definition file_alloc : file :=
  mkf CLOSED None None false false [] 0 false false false 1 [] true false false 0 [].

(** Calls of the user, from any thread and also from inside callbacks; the runner starting an
    operation; the callback of the [i]th running operation returning. *)
Inductive fev :=
| EWrite (sg : list (list Z)) (a : wans) | ERead (b : bool) | EWready (b : bool)
| EOpen (cb oki oko : bool) | EClose (cb : bool) | EDisable | EFree
| ERun (a : rans) | ERet (i : nat) (rv : Z) (k : nat) (a : rans).

Fixpoint del {A} (i : nat) (l : list A) : list A :=
  match i, l with _, [] => [] | 0, _ :: l => l | S i, x :: l => x :: del i l end.
Definition back (l : list fpc) (r : ores) : option file :=
  ' (s, p) <- r ;; Some (set_ops (match p with Some p => p :: l | None => l end) s).

(** Any event with the memory gone is [None], except those that cannot be.  The user does not call
    anything after free, nothing but free after disable (man/gensio_close.3:36-45), and a read
    callback takes no more than it was given; such events do nothing.  The runner is called once
    for each time it was started (sel_run, lib/os_unix_selector.c:1145-1173, see Selrunner_Model). *)
Definition fstep (cf : fconf) (e : fev) (s : file) : option file :=
  let user (f : file -> option file) :=
    if f_freed s || f_dis s then Some s else _ <- guard (f_live s) ;; f s in
  match e with
  | EWrite sg a => user (filen_write sg a)
  | ERead b => user (set_read b)
  | EWready b => user (set_write b)
  | EOpen cb oki oko => user (filen_open cf cb oki oko)
  | EClose cb => user (filen_close cb)
  | EDisable => user filen_disable
  | EFree => if f_freed s then Some s else _ <- guard (f_live s) ;; filen_free s
  | ERun a =>
    if f_pend s && (c_thr cf || (length (f_ops s) =? 0))
    then _ <- guard (f_live s) ;; back (f_ops s) (op_start cf a s) else Some s
  | ERet i rv k a =>
    match nth_error (f_ops s) i with
    | None => Some s
    | Some pc =>
      let l := del i (f_ops s) in
      let go := _ <- guard (f_live s) ;; back l (op_return cf pc rv k a s) in
      match pc with PRead d => if length d <? k then Some s else go | _ => go end
    end
  end.
Fixpoint frun (cf : fconf) (es : list fev) (s : file) : option file :=
  match es with [] => Some s | e :: es => s1 <- fstep cf e s ;; frun cf es s1 end.
