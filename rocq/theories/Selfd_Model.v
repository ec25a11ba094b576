(** Model of the file descriptor handlers of the selector, lib/os_unix_selector.c,
    used by any number of threads.  What a thread does between taking and giving back
    fd_lock is one step; what sel_set_fd_handlers does after giving it back are two
    more.  The system calls (epoll_ctl, select) are left out: any handler that is
    enabled may be called at any time.  Allocation failures are left out. *)
From Verif Require Import Base Heap_Model.
Open Scope nat_scope.

(** read, write and except handlers *)
Inductive kind := KRead | KWrite | KExcept.
(** three values, one for each kind *)
Record three := mk3 { k_r : bool; k_w : bool; k_e : bool }.
Definition get3 (k : kind) x := match k with KRead => k_r x | KWrite => k_w x | KExcept => k_e x end.
Definition set3 (k : kind) b x := match k with KRead => mk3 b (k_w x) (k_e x) | KWrite => mk3 (k_r x) b (k_e x) | KExcept => mk3 (k_r x) (k_w x) b end.
Definition none3 := mk3 false false false.

(** fd_state_t, lines 88-96, one for each registration.  [g_live]: the memory is
    allocated.  [g_done]: a done handler is there.  [g_run]: in_use of done_runner.
    [g_data]: done_cbdata. *)
Record reg := mkg { g_live : bool; g_deleted : bool; g_use : nat; g_done : bool; g_run : bool; g_data : nat }.
Definition no_reg := mkg false false 0 false false 0.
(** fd_control_t, lines 98-131.  [c_state]: which registration; [c_data]: the data
    passed to the handlers; [c_hnd]: which handlers are there; [c_en]: which are
    enabled. *)
Record fdc := mkc { c_state : option nat; c_data : nat; c_hnd : three; c_en : three }.
Definition no_fdc := mkc None 0 none3 none3.

(** What can be seen.  A registration is named by the number the user passes as data,
    never used twice. *)
Inductive fob := FSet (fd g : nat) (dn : bool) | FClear (fd : nat) (rpt : bool) | FEn (fd : nat) (k : kind) (b : bool)
  | FCall (fd : nat) (k : kind) (g : nat) | FRet (fd g : nat) | FDone (fd g : nat).

(** A thread inside a handler, with the registration and data it remembers, or inside a
    done handler called after a handler, which frees the registration after it, or in
    finish_oldstate *)
Inductive ffr := InHandler (fd g d : nat) | InDone (g : nat) | InFinish (g : nat).
(** A thread in sel_set_fd_handlers after giving back the lock, with the old
    registration and data, before or after setting "deleted" *)
Inductive tail := Tl (fd g d : nat) (del : bool).
(** File descriptors, registrations, threads in handlers, threads in
    sel_set_fd_handlers, done runners to be run (which they are, exactly once: C91). *)
Record fst_ := mkf { f_c : nat -> fdc; f_g : nat -> reg; f_fr : list ffr; f_tl : list tail; f_q : list (nat * nat); f_tr : list fob }.
Definition setc s fd v := mkf (upd (f_c s) fd v) (f_g s) (f_fr s) (f_tl s) (f_q s) (f_tr s).
Definition setg s g v := mkf (f_c s) (upd (f_g s) g v) (f_fr s) (f_tl s) (f_q s) (f_tr s).
Definition setfr s x := mkf (f_c s) (f_g s) x (f_tl s) (f_q s) (f_tr s).
Definition settl s x := mkf (f_c s) (f_g s) (f_fr s) x (f_q s) (f_tr s).
Definition setq s x := mkf (f_c s) (f_g s) (f_fr s) (f_tl s) x (f_tr s).
Definition femit o s := mkf (f_c s) (f_g s) (f_fr s) (f_tl s) (f_q s) (o :: f_tr s).
(** access to a registration: it must be allocated *)
Definition gget s g : option reg := if g_live (f_g s g) then Some (f_g s g) else None.
Definition v_del v := mkg (g_live v) true (g_use v) (g_done v) (g_run v) (g_data v).
Definition v_use v n := mkg (g_live v) (g_deleted v) n (g_done v) (g_run v) (g_data v).
Definition v_nodone v := mkg (g_live v) (g_deleted v) (g_use v) false (g_run v) (g_data v).
Definition v_run v b d := mkg (g_live v) (g_deleted v) (g_use v) (g_done v) b d.
Definition v_free (v : reg) := mkg false (g_deleted v) (g_use v) (g_done v) (g_run v) (g_data v).
Definition drop {A} (i : nat) (l : list A) : list A := firstn i l ++ skipn (S i) l.

(** sel_run(&oldstate->done_runner, finish_oldstate, oldstate), with tmp_fd and
    done_cbdata set before; nothing happens when it is in use *)
Definition f_run s fd g d : option fst_ :=
  v <- gget s g ;;
  if g_run v then Some (setg s g (v_run v true d)) else Some (setq (setg s g (v_run v true d)) (f_q s ++ [(fd, g)])).

(** sel_set_fd_handlers, lines 600-664, up to sel_fd_unlock *)
Definition f_set s fd g (dn : bool) (h : three) : option fst_ :=
  let s := setg s g (mkg true false 0 dn false 0) in
  let c := f_c s fd in
  let s := femit (FSet fd g dn) (setc s fd (mkc (Some g) g h (c_en c))) in
  Some (match c_state c with Some o => settl s (Tl fd o (c_data c) false :: f_tl s) | None => s end).
(** the rest, lines 666-673: "deleted" is set, then use_count looked at *)
Definition f_tail s (i : nat) : option fst_ :=
  match nth_error (f_tl s) i with
  | None => Some s
  | Some (Tl fd g d false) => v <- gget s g ;; Some (settl (setg s g (v_del v)) (firstn i (f_tl s) ++ Tl fd g d true :: skipn (S i) (f_tl s)))
  | Some (Tl fd g d true) => v <- gget s g ;; let s := settl s (drop i (f_tl s)) in if g_use v =? 0 then f_run s fd g d else Some s
  end.
(** i_sel_clear_fd_handler, lines 677-730, and init_fd, lines 444-455 *)
Definition f_clear s fd (rpt : bool) : option fst_ :=
  let c := f_c s fd in
  let s := femit (FClear fd rpt) (setc s fd no_fdc) in
  match c_state c with
  | None => Some s
  | Some g =>
      v <- gget s g ;;
      let v := v_del v in
      let v := if rpt then v else v_nodone v in
      let s := setg s g v in
      if g_use v =? 0 then f_run s fd g (c_data c) else Some s
  end.
(** sel_set_fd_read_handler and its like, lines 748-844: nothing without handlers *)
Definition f_en s fd k b : option fst_ :=
  let c := f_c s fd in
  let s := femit (FEn fd k b) s in
  match c_state c with None => Some s | Some _ => Some (setc s fd (mkc (c_state c) (c_data c) (c_hnd c) (set3 k b (c_en c)))) end.
(** handle_selector_call, lines 1199-1230, up to the call of the handler *)
Definition f_call s fd k : option fst_ :=
  let c := f_c s fd in
  if negb (get3 k (c_hnd c)) then Some s
  else if negb (get3 k (c_en c)) then Some s
  else match c_state c with
       | None => Some s
       | Some g => v <- gget s g ;; Some (femit (FCall fd k (c_data c)) (setfr (setg s g (v_use v (g_use v + 1))) (InHandler fd g (c_data c) :: f_fr s)))
       end.
(** free(state) *)
Definition f_free s g : option fst_ := v <- gget s g ;; Some (setg s g (v_free v)).
(** A callback returns: the rest of handle_selector_call, lines 1231-1240, or of
    finish_oldstate, lines 569-577 *)
Definition f_ret s (i : nat) : option fst_ :=
  match nth_error (f_fr s) i with
  | None => Some s
  | Some fr =>
      let s := setfr s (drop i (f_fr s)) in
      match fr with
      | InHandler fd g d =>
          let s := femit (FRet fd g) s in
          v <- gget s g ;;
          _ <- guard (negb (g_use v =? 0)) ;;
          let v := v_use v (g_use v - 1) in
          let s := setg s g v in
          if g_deleted v && (g_use v =? 0) then
            let c := f_c s fd in
            let s := setc s fd (mkc None (c_data c) (c_hnd c) (c_en c)) in
            if g_done v then Some (femit (FDone fd d) (setfr s (InDone g :: f_fr s))) else f_free s g
          else Some s
      | InDone g | InFinish g => f_free s g
      end
  end.
(** a done runner is run: finish_oldstate, up to the call of the done handler *)
Definition f_finish s : option fst_ :=
  match f_q s with
  | [] => Some s
  | (fd, g) :: q =>
      v <- gget s g ;;
      let s := setq (setg s g (v_run v false (g_data v))) q in
      if g_done v then Some (femit (FDone fd (g_data v)) (setfr s (InFinish g :: f_fr s))) else f_free s g
  end.

(** The steps.  A step that is not possible changes nothing; in particular functions
    for a descriptor are called after sel_set_fd_handlers for it (else valid_fd,
    lines 590-599, aborts). *)
Inductive fev := EvSet (fd g : nat) (dn : bool) (h : three) | EvTail (i : nat) | EvClear (fd : nat) (rpt : bool) | EvEn (fd : nat) (k : kind) (b : bool)
  | EvCall (fd : nat) (k : kind) | EvRet (i : nat) | EvFinish.
Definition used g (tr : list fob) : bool := existsb (fun o => match o with FSet _ u _ => u =? g | _ => false end) tr.
Definition known fd (tr : list fob) : bool := existsb (fun o => match o with FSet u _ _ => u =? fd | _ => false end) tr.
Definition fstep (s : fst_) (e : fev) : option fst_ :=
  match e with
  | EvSet fd g dn h => if used g (f_tr s) then Some s else f_set s fd g dn h
  | EvTail i => f_tail s i
  | EvClear fd rpt => if known fd (f_tr s) then f_clear s fd rpt else Some s
  | EvEn fd k b => if known fd (f_tr s) then f_en s fd k b else Some s
  | EvCall fd k => if known fd (f_tr s) then f_call s fd k else Some s
  | EvRet i => f_ret s i
  | EvFinish => f_finish s
  end.
Fixpoint frun (es : list fev) (s : fst_) : option fst_ := match es with [] => Some s | e :: es => s <- fstep s e ;; frun es s end.
Definition finit : fst_ := mkf (fun _ => no_fdc) (fun _ => no_reg) [] [] [] [].
