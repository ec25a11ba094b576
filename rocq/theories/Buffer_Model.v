(** Model of lib/buffer.c and include/gensio/gensio_buffer.h. *)
From Verif Require Import Base.

(** struct gensio_buffer: include/gensio/gensio_buffer.h:13-18.
    [bf_mem] is the array [buf]; its allocated length is kept separately
    from [maxsize] only through [length bf_mem]. *)
Record buffer := mkbuf {
  bf_mem : list Z;
  bf_max : nat;
  bf_cur : nat;
  bf_pos : nat
}.

(** gensio_buffer_init, lib/buffer.c:114-130.  malloc failure is not
    modelled; the initial contents of the array are the argument. *)
Definition buffer_init (data : list Z) : buffer :=
  mkbuf data (length data) 0 0.

(** gensio_buffer_left / gensio_buffer_cursize / gensio_buffer_reset,
    include/gensio/gensio_buffer.h:60,65,80-84. *)
Definition buffer_left (b : buffer) : nat := bf_max b - bf_cur b.
Definition buffer_cursize (b : buffer) : nat := bf_cur b.
Definition buffer_reset (b : buffer) : buffer := mkbuf (bf_mem b) (bf_max b) 0 0.

(** gensio_buffer_output, lib/buffer.c:70-95.  Returns the new buffer and
    the C return value; [None] is an access outside the array. *)
Definition buffer_output (b : buffer) (data : list Z) : option (buffer * nat) :=
  let len := if buffer_left b <? length data then buffer_left b else length data in
  let end0 := bf_pos b + bf_cur b in
  let end1 := if bf_max b <? end0 then end0 - bf_max b else end0 in
  if bf_max b <? end1 + len then
    let availend := bf_max b - end1 in
    m1 <- mwrite (bf_mem b) end1 (firstn availend data) ;;
    let len1 := len - availend in
    m2 <- mwrite m1 0 (firstn len1 (skipn availend data)) ;;
    Some (mkbuf m2 (bf_max b) (bf_cur b + availend + len1) (bf_pos b), len1)
  else
    m1 <- mwrite (bf_mem b) end1 (firstn len data) ;;
    Some (mkbuf m1 (bf_max b) (bf_cur b + len) (bf_pos b), len).

(** gensio_buffer_outchar, lib/buffer.c:97-112. *)
Definition buffer_outchar (b : buffer) (c : Z) : option (buffer * nat) :=
  if buffer_left b <? 1 then Some (b, 0)
  else
    let end0 := bf_pos b + bf_cur b in
    let end1 := if bf_max b <=? end0 then end0 - bf_max b else end0 in
    m1 <- mset (bf_mem b) end1 c ;;
    Some (mkbuf m1 (bf_max b) (bf_cur b + 1) (bf_pos b), 1).

(** The write handler gensio_buffer_do_write: given a block of bytes it
    answers [None] (error) or [Some n] (n bytes taken). *)
Definition handler := list Z -> option nat.

(** gensio_buffer_write (with do_write), lib/buffer.c:15-68.  Result: the
    new buffer, whether an error was returned, and the bytes the handler
    accepted (in order). *)
Definition buffer_write (h : handler) (b : buffer) : option (buffer * bool * list Z) :=
  let wraps := bf_max b <? bf_pos b + bf_cur b in
  let towrite1 := if wraps then bf_max b - bf_pos b else bf_cur b in
  let towrite2 := if wraps then bf_cur b - towrite1 else 0 in
  (* second half, lines 57-65 *)
  let second (b : buffer) (acc : list Z) : option (buffer * bool * list Z) :=
    if 0 <? towrite2 then
      let b := mkbuf (bf_mem b) (bf_max b) (bf_cur b) 0 in
      d <- mread (bf_mem b) 0 towrite2 ;;
      match h d with
      | None => Some (b, true, acc)
      | Some n => Some (mkbuf (bf_mem b) (bf_max b) (bf_cur b - n) n, false, acc ++ firstn n d)
      end
    else Some (b, false, acc) in
  (* first half, lines 45-55 *)
  if 0 <? towrite1 then
    d <- mread (bf_mem b) (bf_pos b) towrite1 ;;
    match h d with
    | None => Some (b, true, [])
    | Some n =>
      let b1 := mkbuf (bf_mem b) (bf_max b) (bf_cur b - n) (bf_pos b + n) in
      if n <? towrite1 then Some (b1, false, firstn n d)
      else second b1 (firstn n d)
    end
  else second b [].

(** Operations of a user of the buffer. *)
Inductive bop :=
| BOutput (d : list Z)
| BOutchar (c : Z)
| BWrite (h : handler)
| BReset.

(** One operation; the list is what handlers accepted. *)
Definition buffer_step (b : buffer) (o : bop) : option (buffer * list Z) :=
  match o with
  | BOutput d => '(b', _) <- buffer_output b d ;; Some (b', [])
  | BOutchar c => '(b', _) <- buffer_outchar b c ;; Some (b', [])
  | BWrite h => '(b', _, out) <- buffer_write h b ;; Some (b', out)
  | BReset => Some (buffer_reset b, [])
  end.

Fixpoint buffer_run (b : buffer) (ops : list bop) : option (buffer * list (list Z)) :=
  match ops with
  | [] => Some (b, [])
  | o :: ops' =>
    '(b1, out) <- buffer_step b o ;;
    '(b2, outs) <- buffer_run b1 ops' ;;
    Some (b2, out :: outs)
  end.
