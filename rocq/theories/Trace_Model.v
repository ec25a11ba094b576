(** Model of the filter of lib/gensio_trace.c: data passes, and is written to a file. *)
From Verif Require Import Base.
Open Scope nat_scope.

(** enum trace_dir, lib/gensio_trace.c:21-26 *)
Inductive tdir := DIR_NONE | DIR_READ | DIR_WRITE | DIR_BOTH.
Definition has_w (d : tdir) : bool := match d with DIR_WRITE | DIR_BOTH => true | _ => false end.
Definition has_r (d : tdir) : bool := match d with DIR_READ | DIR_BOTH => true | _ => false end.
(** struct trace_filter, lib/gensio_trace.c:28-45.  [c_file]: one of file, stdout and stderr was given;
    [c_del]: delold, with file. *)
Record tconf := mkc { c_dir : tdir; c_b4 : tdir; c_block : tdir; c_raw : bool; c_file : bool; c_del : bool }.
(** gensio_trace_filter_raw_alloc, lib/gensio_trace.c:327-328: without a file nothing is traced after
    the fact; the data before it is dropped in trace_data, as tr is NULL. *)
Definition eff_dir (c : tconf) : tdir := if c_file c then c_dir c else DIR_NONE.

(** Which call a record in the file is of. *)
Inductive top := B4Write | Write | B4Read | Read.
(** What is in the file: raw bytes; or a line for an error; or a line with a count and a dump of bytes.
    The text of the lines and the times are not modelled. *)
Inductive frec := FRaw (d : list Z) | FErr (o : top) (e : Z) | FData (o : top) (n : nat) (d : list Z).

(** The loop of trace_data over the sg list, lib/gensio_trace.c:140-149. *)
Fixpoint sg_loop (w : nat) (sg : list (list Z)) : list (list Z) :=
  match sg with
  | [] => []
  | b :: sg => if w =? 0 then [] else
    let len := if w <? length b then w else length b in firstn len b :: sg_loop (w - len) sg
  end.
(** trace_data, lib/gensio_trace.c:109-154; newest record last.  In raw mode the dump was not used, so
    gensio_fdump_buf_finish (lib/gensio.c:3741-3758) writes nothing. *)
Definition trace_data (c : tconf) (open : bool) (o : top) (e : Z) (w : nat) (sg : list (list Z)) : list frec :=
  if negb open then [] else
  if negb (e =? 0)%Z then (if c_raw c then [] else [FErr o e])
  else if 0 <? w then (if c_raw c then map FRaw (sg_loop w sg) else [FData o w (concat (sg_loop w sg))])
  else [].

(** The sum of the lengths, lib/gensio_trace.c:170-171 and 179-180, added to what [count] was. *)
Definition add_len (count : nat) (sg : list (list Z)) : nat := fold_left (fun n b => n + length b) sg count.

(** What a call does: what it returns, what it stores in rcount (if not NULL), what is handed on. *)
Record tres := mkr { r_err : Z; r_count : option nat; r_passed : list (list (list Z)) }.

(** trace_ul_write, lib/gensio_trace.c:156-193; [e] and [n] are what the handler returns and stores.
    rcount is not NULL. *)
Definition ul_write (c : tconf) (open : bool) (sg : list (list Z)) (e : Z) (n : nat) : tres * list frec :=
  let count := if has_w (c_b4 c) then add_len 0 sg else 0 in
  let f1 := if has_w (c_b4 c) then trace_data c open B4Write 0 count sg else [] in
  if has_w (c_block c) then (mkr 0 (Some (add_len count sg)) [], f1)
  else
    let f2 := if has_w (eff_dir c) then trace_data c open Write e n sg else [] in
    (mkr e (if (e =? 0)%Z then Some n else None) [sg], f1 ++ f2).

(** trace_ll_write, lib/gensio_trace.c:195-228. *)
Definition ll_write (c : tconf) (open : bool) (buf : list Z) (e : Z) (n : nat) : tres * list frec :=
  let f1 := if has_r (c_b4 c) then trace_data c open B4Read 0 (length buf) [buf] else [] in
  if has_r (c_block c) then (mkr 0 (Some (length buf)) [], f1)
  else
    let f2 := if has_r (eff_dir c) then trace_data c open Read e n [buf] else [] in
    (mkr e (if (e =? 0)%Z then Some n else None) [[buf]], f1 ++ f2).

(** The filter and its file.  trace_try_connect, lib/gensio_trace.c:86-101 (the fopen succeeds), opens
    it, empty if delold was given; trace_filter_cleanup, 236-244, closes it. *)
Inductive tev := TConnect | TCleanup | TUl (sg : list (list Z)) (e : Z) (n : nat) | TLl (buf : list Z) (e : Z) (n : nat).
Record tstate := mkt { t_open : bool; t_file : list frec; t_res : list tres }.
Definition tstep (c : tconf) (ev : tev) (s : tstate) : tstate :=
  match ev with
  | TConnect => if t_open s then s else mkt (c_file c) (if c_file c && c_del c then [] else t_file s) (t_res s)
  | TCleanup => mkt false (t_file s) (t_res s)
  | TUl sg e n => let '(r, f) := ul_write c (t_open s) sg e n in mkt (t_open s) (t_file s ++ f) (r :: t_res s)
  | TLl b e n => let '(r, f) := ll_write c (t_open s) b e n in mkt (t_open s) (t_file s ++ f) (r :: t_res s)
  end.
Definition trun (c : tconf) (es : list tev) (s : tstate) : tstate := fold_left (fun s e => tstep c e s) es s.
Definition trace_alloc : tstate := mkt false [] [].
