(** Model of the filter of lib/gensio_perf.c: it writes a given number of bytes, counts what comes, and
    gives the user reports instead of data. *)
From Verif Require Import Base.
Open Scope nat_scope.

(** include/gensio/gensio_err.h:44 *)
Definition GE_REMCLOSE : Z := 26%Z.

(** The two reports with their counts (written, read and, for the one of the timer, seconds); times
    and rates are not modelled. *)
Inductive report := RTotal (w r : nat) | RTick (w r secs : nat).
(** What is seen: [c] bytes offered to the layer below, which answers error [e] and count [n]; bytes that
    came from it; a report made; text offered to the user, and the answer; a timeout; an I/O error told; a
    write refused with the end. *)
Inductive pobs := PWrite (c : nat) (e : Z) (n : nat) | PCame (n : nat) | PReport (r : report) | PText (d : list Z) (e : Z) (n : nat) | PTime | PIoErr | PEnd.

(** struct perf_filter, lib/gensio_perf.c:19-51: [p_left] write_data_left, [p_wlen] write_len, [p_exp]
    expect_len, [p_oexp] orig_expect_len, [p_rc] read_count, [p_wsl] and [p_rsl] the counts since the
    last timeout, [p_secs] timeouts_since_print, [p_pend] the bytes of print_buffer from print_pos to
    print_pending (print_pending is zero when none is left).  gensiods does not wrap. *)
Record perf := mkp { p_left : nat; p_wlen : nat; p_exp : nat; p_oexp : nat; p_rc : nat; p_wsl : nat; p_rsl : nat; p_secs : nat; p_pend : list Z; p_final : bool; p_tr : list pobs }.
Definition put o s := mkp (p_left s) (p_wlen s) (p_exp s) (p_oexp s) (p_rc s) (p_wsl s) (p_rsl s) (p_secs s) (p_pend s) (p_final s) (o :: p_tr s).

(** The texts of reports ([txt]) are the results of snprintf, which has room for them. *)
(** perf_handle_end_check, lib/gensio_perf.c:153-208. *)
Definition end_check (txt : report -> list Z) (s : perf) : perf :=
  match p_final s, p_pend s with
  | false, [] =>
    let r := RTotal (p_wlen s - p_left s) (p_rc s) in
    put (PReport r) (mkp (p_left s) (p_wlen s) (p_exp s) (p_oexp s) (p_rc s) (p_wsl s) (p_rsl s) (p_secs s) (txt r) true (p_tr s))
  | _, _ => s
  end.

(** perf_ul_write, lib/gensio_perf.c:216-266; data of the user is ignored.  [e] and [n] are what the
    handler gives, [bufsz] is writebuf_size.  Returns the error. *)
Definition ul_write (txt : report -> list Z) (bufsz : nat) (e : Z) (n : nat) (s : perf) : perf * Z :=
  if 0 <? p_left s then
    let count := if bufsz <? p_left s then bufsz else p_left s in
    if (e =? 0)%Z then
      let c := if count <? n then count else n in
      (put (PWrite count e n) (mkp (p_left s - c) (p_wlen s) (p_exp s) (p_oexp s) (p_rc s) (p_wsl s + c) (p_rsl s) (p_secs s) (p_pend s) (p_final s) (p_tr s)), 0%Z)
    else (put (PWrite count e n) s, e)
  else if (0 <? p_wlen s) || (0 <? p_oexp s) then
    if negb (p_final s) && (p_exp s =? 0) then (end_check txt s, 0%Z)
    else match p_final s, p_pend s with true, [] => (put PEnd s, GE_REMCLOSE) | _, _ => (s, 0%Z) end
  else (s, 0%Z).

(** perf_ll_write, lib/gensio_perf.c:268-311; [len] bytes come; [e] and [n] are what the handler of the
    text gives. *)
Definition ll_write (len : nat) (e : Z) (n : nat) (s0 : perf) : perf :=
  let s := put (PCame len) (mkp (p_left s0) (p_wlen s0) (if p_exp s0 <? len then 0 else p_exp s0 - len) (p_oexp s0) (p_rc s0 + len) (p_wsl s0) (p_rsl s0 + len) (p_secs s0) (p_pend s0) (p_final s0) (p_tr s0)) in
  match p_pend s with
  | [] => s
  | b =>
    if (e =? 0)%Z then
      let c := if length b <? n then length b else n in
      put (PText b e n) (mkp (p_left s) (p_wlen s) (p_exp s) (p_oexp s) (p_rc s) (p_wsl s) (p_rsl s) (p_secs s) (skipn c b) (p_final s) (p_tr s))
    else put (PText b e n) s
  end.

(** perf_filter_timeout, lib/gensio_perf.c:313-337. *)
Definition timeout (txt : report -> list Z) (s0 : perf) : perf :=
  let s := put PTime s0 in
  match p_pend s with
  | [] =>
    let r := RTick (p_wsl s) (p_rsl s) (S (p_secs s)) in
    put (PReport r) (mkp (p_left s) (p_wlen s) (p_exp s) (p_oexp s) (p_rc s) 0 0 0 (txt r) (p_final s) (p_tr s))
  | _ => mkp (p_left s) (p_wlen s) (p_exp s) (p_oexp s) (p_rc s) (p_wsl s) (p_rsl s) (S (p_secs s)) (p_pend s) (p_final s) (p_tr s)
  end.

(** perf_filter_io_err, lib/gensio_perf.c:339-347. *)
Definition io_err (txt : report -> list Z) (s : perf) : perf := end_check txt (put PIoErr s).

(** gensio_perf_filter_raw_alloc, lib/gensio_perf.c:451-487, or perf_filter_cleanup, 355-370. *)
Definition perf_setup (wlen oexp : nat) : perf := mkp wlen wlen oexp oexp 0 0 0 0 [] false [].

(** Calls of the base; simplified: each runs to its end before the next (the code unlocks around the
    handlers). *)
Inductive pev := VWrite (e : Z) (n : nat) | VCome (len : nat) (e : Z) (n : nat) | VTime | VErr.
Definition pstep (txt : report -> list Z) (bufsz : nat) (ev : pev) (s : perf) : perf :=
  match ev with
  | VWrite e n => fst (ul_write txt bufsz e n s)
  | VCome len e n => ll_write len e n s
  | VTime => timeout txt s
  | VErr => io_err txt s
  end.
Definition prun (txt : report -> list Z) (bufsz : nat) (es : list pev) (s : perf) : perf := fold_left (fun s e => pstep txt bufsz e s) es s.
