(** Model of the xlt filter, lib/gensio_xlt.c. *)
From Verif Require Import Base.
Open Scope Z_scope.

(** One direction of struct xlt_filter (lines 28-42): the table (config.outxlt
    or config.inxlt), the buffer of 256 bytes and its fill. *)
Record xdir := mkxd { xd_tbl : list Z; xd_buf : list Z; xd_len : nat }.
Definition bufsz : nat := 256.
Definition xd_init (tbl : list Z) : xdir := mkxd tbl (repeat 0 bufsz) 0.

(** The loop over one buffer, lines 114-119 and 158-159: the translated bytes
    are stored while there is room.  Also returns the number of bytes taken. *)
Fixpoint xlt_fill (tbl b : list Z) (pos : nat) (d : list Z) : option (list Z * nat * nat) :=
  match d with
  | [] => Some (b, pos, 0%nat)
  | c :: d' =>
      if (pos <? bufsz)%nat then
        t <- mget tbl (Z.to_nat c) ;;
        b' <- mset b pos t ;;
        ' (b'', pos', n) <- xlt_fill tbl b' (S pos) d' ;;
        Some (b'', pos', S n)
      else Some (b, pos, 0%nat)
  end.

(** over a scatter/gather list *)
Fixpoint xlt_fill_sg (tbl b : list Z) (pos : nat) (sg : list (list Z)) : option (list Z * nat * nat) :=
  match sg with
  | [] => Some (b, pos, 0%nat)
  | d :: sg' =>
      if (pos <? bufsz)%nat then
        ' (b, pos, n) <- xlt_fill tbl b pos d ;;
        ' (b, pos, n') <- xlt_fill_sg tbl b pos sg' ;;
        Some (b, pos, (n + n')%nat)
      else Some (b, pos, 0%nat)
  end.

(** The handler: [None] is an error, [Some n] the count it stores. *)
Definition answer := option nat.

(** What a call returns: [xr_count] is *rcount ([None] for an error),
    [xr_sent] what the handler accepted, [xr_taken] is not a result of the code
    but says how many input bytes were really taken. *)
Record xres := mkxr { xr_count : option nat; xr_sent : list Z; xr_taken : nat }.

(** xlt_ul_write, lines 100-143 and xlt_ll_write, lines 145-180 (where the list
    has one element); the lock is left out. *)
Definition xlt_write (x : xdir) (sg : list (list Z)) (a : answer) : option (xdir * xres) :=
  ' (b, pos, n) <- xlt_fill_sg (xd_tbl x) (xd_buf x) (xd_len x) sg ;;
  if (pos =? 0)%nat then Some (mkxd (xd_tbl x) b 0, mkxr (Some pos) [] n)
  else
    d <- mread b 0 pos ;;
    match a with
    | None => Some (mkxd (xd_tbl x) b pos, mkxr None [] n)
    | Some count =>
        if (pos <=? count)%nat then Some (mkxd (xd_tbl x) b 0, mkxr (Some pos) d n)
        else
          r <- mread b count (pos - count) ;;
          b <- mwrite b 0 r ;;
          Some (mkxd (xd_tbl x) b (pos - count), mkxr (Some pos) (firstn count d) n)
    end.

(** The bytes not yet passed on: xlt_ll_write_pending, xlt_ul_read_pending,
    lines 60-74 *)
Definition xlt_pending (x : xdir) : list Z := firstn (xd_len x) (xd_buf x).

(** gensio_xlt_config, lines 281-337.  An option is given by what
    gensio_pparm_value and gensio_pparm_bool make of it: the numbers strtoul
    reads before and after the colon, or the boolean.  Simplification: texts
    that are not two numbers are left out (they are refused, lines 271, 275). *)
Inductive xopt :=
| XIn (v1 v2 : Z) | XOut (v1 v2 : Z)
| XCrlf (b : bool) | XLfcr (b : bool).   (* also crnl, nlcr *)

(** process_xlt, lines 264-279: v2 is not checked, only v1 twice *)
Definition process_xlt (t : list Z) (v1 v2 : Z) : option (list Z) :=
  if (256 <=? v1) || (256 <=? v1) then None else mset t (Z.to_nat v1) (v2 mod 256).

(** [None]: GE_INVAL.  The boolean is not looked at. *)
Definition xlt_opt (io : list Z * list Z) (o : xopt) : option (list Z * list Z) :=
  let '(i, u) := io in
  match o with
  | XIn v1 v2 => i <- process_xlt i v1 v2 ;; Some (i, u)
  | XOut v1 v2 => u <- process_xlt u v1 v2 ;; Some (i, u)
  | XCrlf _ => i <- mset i 13 10 ;; u <- mset u 10 13 ;; Some (i, u)
  | XLfcr _ => u <- mset u 13 10 ;; i <- mset i 10 13 ;; Some (i, u)
  end.
Definition ident : list Z := map Z.of_nat (seq 0 256).
Fixpoint xlt_opts (io : list Z * list Z) (l : list xopt) : option (list Z * list Z) :=
  match l with
  | [] => Some io
  | o :: l => io <- xlt_opt io o ;; xlt_opts io l
  end.
Definition xlt_config (l : list xopt) := xlt_opts (ident, ident) l.
