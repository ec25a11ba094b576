(** Model of lib/circbuf.c. *)
From Verif Require Import Base.

(** struct gensio_circbuf, lib/circbuf.c:13-19.  [bufsize] is the length of
    the allocation [cb_mem]. *)
Record circbuf := mkcb { cb_mem : list Z; cb_pos : nat; cb_size : nat }.
Definition cb_bufsize (c : circbuf) : nat := length (cb_mem c).

(** [a % b], undefined for b = 0. *)
Definition cmod (a b : nat) : option nat := if b =? 0 then None else Some (a mod b).

(** gensio_circbuf_alloc, lib/circbuf.c:146-162 (allocation succeeds; zalloc). *)
Definition circbuf_alloc (size : nat) : circbuf := mkcb (repeat 0%Z size) 0 0.

(** gensio_circbuf_room_left, lib/circbuf.c:21-25. *)
Definition circbuf_room_left (c : circbuf) : nat := cb_bufsize c - cb_size c.

(** gensio_circbuf_next_write_area, lib/circbuf.c:27-43: offset and size. *)
Definition circbuf_next_write_area (c : circbuf) : option (nat * nat) :=
  e <- cmod (cb_pos c + cb_size c) (cb_bufsize c) ;;
  Some (e,
        if cb_size c =? cb_bufsize c then 0
        else if cb_pos c <=? e then cb_bufsize c - e
        else cb_pos c - e).

(** gensio_circbuf_data_added, lib/circbuf.c:45-50; the assert is [None]. *)
Definition circbuf_data_added (c : circbuf) (len : nat) : option circbuf :=
  _ <- guard (len + cb_size c <=? cb_bufsize c) ;;
  Some (mkcb (cb_mem c) (cb_pos c) (cb_size c + len)).

(** gensio_circbuf_next_read_area, lib/circbuf.c:52-68. *)
Definition circbuf_next_read_area (c : circbuf) : option (nat * nat) :=
  e <- cmod (cb_pos c + cb_size c) (cb_bufsize c) ;;
  Some (cb_pos c,
        if cb_size c =? 0 then 0
        else if cb_pos c <? e then cb_size c
        else cb_bufsize c - cb_pos c).

(** gensio_circbuf_data_removed, lib/circbuf.c:70-76. *)
Definition circbuf_data_removed (c : circbuf) (len : nat) : option circbuf :=
  _ <- guard (len <=? cb_size c) ;;
  p <- cmod (cb_pos c + len) (cb_bufsize c) ;;
  Some (mkcb (cb_mem c) p (cb_size c - len)).

(** gensio_circbuf_datalen / reset, lib/circbuf.c:78-89. *)
Definition circbuf_datalen (c : circbuf) : nat := cb_size c.
Definition circbuf_reset (c : circbuf) : circbuf := mkcb (cb_mem c) 0 0.

(** Inner loop of gensio_circbuf_sg_write, lib/circbuf.c:102-114, on one
    buffer of the scatter-gather list.  [fuel] bounds the iterations; running
    out is [None] (proved impossible). *)
Fixpoint circbuf_write_buf (fuel : nat) (c : circbuf) (buf : list Z) (count : nat)
  : option (circbuf * nat) :=
  match fuel with
  | 0 => None
  | S fuel' =>
    if (0 <? circbuf_room_left c) && (0 <? length buf) then
      '(pos, asize) <- circbuf_next_write_area c ;;
      let size := if length buf <? asize then length buf else asize in
      m <- mwrite (cb_mem c) pos (firstn size buf) ;;
      c1 <- circbuf_data_added (mkcb m (cb_pos c) (cb_size c)) size ;;
      circbuf_write_buf fuel' c1 (skipn size buf) (count + size)
    else Some (c, count)
  end.

(** gensio_circbuf_sg_write, lib/circbuf.c:91-118. *)
Fixpoint circbuf_sg_write_loop (c : circbuf) (sg : list (list Z)) (count : nat)
  : option (circbuf * nat) :=
  match sg with
  | [] => Some (c, count)
  | buf :: sg' =>
    if 0 <? circbuf_room_left c then
      '(c1, count1) <- circbuf_write_buf (S (length buf)) c buf count ;;
      circbuf_sg_write_loop c1 sg' count1
    else Some (c, count)
  end.
Definition circbuf_sg_write (c : circbuf) (sg : list (list Z)) : option (circbuf * nat) :=
  circbuf_sg_write_loop c sg 0.

(** gensio_circbuf_read, lib/circbuf.c:120-144.  The data copied out is
    returned as a list (when [ibuf] is NULL the caller ignores it). *)
Fixpoint circbuf_read_loop (fuel : nat) (c : circbuf) (buflen : nat) (out : list Z) (count : nat)
  : option (circbuf * list Z * nat) :=
  match fuel with
  | 0 => None
  | S fuel' =>
    if (0 <? buflen) && (0 <? circbuf_datalen c) then
      '(pos, asize) <- circbuf_next_read_area c ;;
      let size := if buflen <? asize then buflen else asize in
      d <- mread (cb_mem c) pos size ;;
      c1 <- circbuf_data_removed c size ;;
      circbuf_read_loop fuel' c1 (buflen - size) (out ++ d) (count + size)
    else Some (c, out, count)
  end.
Definition circbuf_read (c : circbuf) (buflen : nat) : option (circbuf * list Z * nat) :=
  circbuf_read_loop (S buflen) c buflen [] 0.

(** The documented direct-access protocol (include/gensio/gensio_circbuf.h:26-72):
    get a write area, store the first bytes of [d] that fit in it, report them. *)
Definition circbuf_direct_write (c : circbuf) (d : list Z) : option (circbuf * nat) :=
  '(pos, asize) <- circbuf_next_write_area c ;;
  let d1 := firstn asize d in
  m <- mwrite (cb_mem c) pos d1 ;;
  c1 <- circbuf_data_added (mkcb m (cb_pos c) (cb_size c)) (length d1) ;;
  Some (c1, length d1).

(** Get a read area, take at most [n] bytes of it, report them removed. *)
Definition circbuf_direct_read (c : circbuf) (n : nat) : option (circbuf * list Z) :=
  '(pos, asize) <- circbuf_next_read_area c ;;
  let k := Nat.min n asize in
  d <- mread (cb_mem c) pos k ;;
  c1 <- circbuf_data_removed c k ;;
  Some (c1, d).

Inductive cop :=
| CSgWrite (sg : list (list Z))
| CRead (n : nat)
| CDirectWrite (d : list Z)
| CDirectRead (n : nat)
| CReset.

(** Observable result of an operation: bytes returned and the count. *)
Definition circbuf_step (c : circbuf) (o : cop) : option (circbuf * (list Z * nat)) :=
  match o with
  | CSgWrite sg => '(c', n) <- circbuf_sg_write c sg ;; Some (c', ([], n))
  | CRead n => '(c', d, k) <- circbuf_read c n ;; Some (c', (d, k))
  | CDirectWrite d => '(c', n) <- circbuf_direct_write c d ;; Some (c', ([], n))
  | CDirectRead n => '(c', d) <- circbuf_direct_read c n ;; Some (c', (d, length d))
  | CReset => Some (circbuf_reset c, ([], 0))
  end.

Fixpoint circbuf_run (c : circbuf) (ops : list cop) : option (circbuf * list (list Z * nat)) :=
  match ops with
  | [] => Some (c, [])
  | o :: ops' =>
    '(c1, r) <- circbuf_step c o ;;
    '(c2, rs) <- circbuf_run c1 ops' ;;
    Some (c2, r :: rs)
  end.
