(** Model of the time functions of lib/gensio.c:3760-3907.
    gensio_time is include/gensio/gensio_types.h: an int64_t of seconds and an
    int32_t of nanoseconds. *)
From Verif Require Import Base Cstr_Model.
Open Scope Z_scope.

Record gtime := mkt { t_secs : Z; t_nsecs : Z }.

(** Signed 64-bit arithmetic: overflow is undefined. *)
Definition i64 (v : Z) : option Z := if (- 2 ^ 63 <=? v) && (v <? 2 ^ 63) then Some v else None.

(** Signed 32-bit arithmetic. *)
Definition i32 (v : Z) : option Z := if (- 2 ^ 31 <=? v) && (v <? 2 ^ 31) then Some v else None.

(** Conversion of a 64-bit value to int32_t (wraps, as gcc and clang do). *)
Definition to32 (v : Z) : Z := (v + 2 ^ 31) mod 2 ^ 32 - 2 ^ 31.

(** include/gensio/gensio_time.h:69-91.  Division and remainder of C round
    towards zero. *)
Definition nsec : Z := 1000000000.
Definition conv_down (v d : Z) : option Z := a <- i64 (v + d ÷ 2) ;; Some (a ÷ d).
Definition conv_up (v m : Z) : option Z := i64 (v * m).

(** The loops that carry nanoseconds to seconds; [n] turns at most, running
    out of them is [None]. *)
Fixpoint carry (n : nat) (strict : bool) (t : gtime) : option gtime :=
  if (if strict then nsec <? t_nsecs t else nsec <=? t_nsecs t) then
    match n with
    | O => None
    | S n => s <- i64 (t_secs t + 1) ;; carry n strict (mkt s (t_nsecs t - nsec))
    end
  else Some t.
Fixpoint borrow (n : nat) (t : gtime) : option gtime :=
  if t_nsecs t <? 0 then
    match n with
    | O => None
    | S n => s <- i64 (t_secs t - 1) ;; borrow n (mkt s (t_nsecs t + nsec))
    end
  else Some t.

(** gensio_time_add, lib/gensio.c:3807-3816 *)
Definition time_add (t v : gtime) : option gtime :=
  s <- i64 (t_secs t + t_secs v) ;;
  n <- i32 (t_nsecs t + t_nsecs v) ;;
  carry 3 false (mkt s n).

(** gensio_time_add_nsecs, lib/gensio.c:3818-3831 *)
Definition time_add_nsecs (t : gtime) (v : Z) : option gtime :=
  s <- i64 (t_secs t + v ÷ nsec) ;;
  t <- carry 3 true (mkt s (to32 (t_nsecs t + Z.rem v nsec))) ;;
  borrow 4 t.

(** gensio_time_to_msecs, _usecs, _nsecs, lib/gensio.c:3833-3861; the last one
    converts to microseconds *)
Definition time_to (mult down : Z) (t : gtime) : option Z :=
  v <- i64 (t_secs t * mult) ;;
  w <- conv_down (t_nsecs t) down ;;
  i64 (v + w).
Definition time_to_msecs := time_to 1000 1000000.
Definition time_to_usecs := time_to 1000000 1000.
Definition time_to_nsecs := time_to nsec 1000.

(** gensio_msecs_to_time, _usecs_, _nsecs_, lib/gensio.c:3863-3882 *)
Definition msecs_to_time (v : Z) : option gtime :=
  n <- conv_up (Z.rem v 1000) 1000000 ;; Some (mkt (v ÷ 1000) (to32 n)).
Definition usecs_to_time (v : Z) : option gtime :=
  n <- conv_up (Z.rem v 1000000) 1000 ;; Some (mkt (v ÷ 1000000) (to32 n)).
Definition nsecs_to_time (v : Z) : option gtime :=
  Some (mkt (v ÷ nsec) (to32 (Z.rem v nsec))).

(** gensio_time_diff_nsecs, lib/gensio.c:3884-3893 *)
Definition time_diff_nsecs (t1 t2 : gtime) : option Z :=
  v <- i64 (t_secs t1 - t_secs t2) ;;
  v <- i64 (v * nsec) ;;
  i64 (v + (t_nsecs t1 - t_nsecs t2)).

(** gensio_time_cmp, lib/gensio.c:3895-3907 *)
Definition time_cmp (t1 t2 : gtime) : Z :=
  if t_secs t1 <? t_secs t2 then -1
  else if t_secs t2 <? t_secs t1 then 1
  else if t_nsecs t1 <? t_nsecs t2 then -1
  else if t_nsecs t2 <? t_nsecs t1 then 1
  else 0.

(** strtoll(s, &end, 0) of the C library (C11 7.22.1.4): blanks, a sign, a
    prefix, digits; too large values are cut to the range.  The result is the
    value and the rest; without a number that is the whole string. *)
Definition isspace (c : Z) : bool := (c =? 32) || ((9 <=? c) && (c <=? 13)).
Fixpoint skip_space (s : list Z) : list Z :=
  match s with
  | [] => []
  | c :: s' => if isspace c then skip_space s' else s
  end.
Definition digit_of (c : Z) : Z :=
  if isdigit c then c - 48
  else if isupper c then c - 55
  else if (97 <=? c) && (c <=? 122) then c - 87
  else 99.
Fixpoint digits (base acc : Z) (s : list Z) : Z * list Z :=
  match s with
  | [] => (acc, [])
  | c :: s' => if digit_of c <? base then digits base (acc * base + digit_of c) s' else (acc, s)
  end.
Definition clamp64 (v : Z) : Z :=
  if v <? - 2 ^ 63 then - 2 ^ 63 else if 2 ^ 63 <=? v then 2 ^ 63 - 1 else v.
Definition strtoll (s : list Z) : Z * list Z :=
  let s1 := skip_space s in
  let '(neg, s2) := match s1 with
                    | c :: r => if c =? 45 then (true, r) else if c =? 43 then (false, r) else (false, s1)
                    | [] => (false, s1)
                    end in
  let num base t :=
    match t with
    | c :: _ => if digit_of c <? base
                then let '(v, r) := digits base 0 t in (clamp64 (if neg then - v else v), r)
                else (0, s)
    | [] => (0, s)
    end in
  match s2 with
  | c :: t =>
      if c =? 48 then
        match t with
        | x :: y :: _ => if ((x =? 120) || (x =? 88)) && (digit_of y <? 16) then num 16 (tl t) else num 8 s2
        | _ => num 8 s2
        end
      else num 10 s2
  | [] => num 10 s2
  end.

(** The results of gensio_str_to_time: *)
Inductive tres := TOk (t : gtime) | TInval (* GE_INVAL *) | TMinus1 (* -1 *).

(** gensio_str_to_time, lib/gensio.c:3760-3805: the part from the label done on *)
Definition str_time_done (secs nsecs : Z) (rest : list Z) : option tres :=
  s <- i64 (secs + nsecs ÷ nsec) ;;
  match rest with
  | [] => Some (TOk (mkt s (to32 (Z.rem nsecs nsec))))
  | _ => Some TInval
  end.

(** the loop; [fuel] bounds the number of turns, running out is [None].  The
    string gets shorter in each turn. *)
Fixpoint str_time_loop (fuel : nat) (sval : list Z) (mod_ : Z) (secs : Z) : option tres :=
  match fuel with
  | O => None
  | S fuel =>
      let '(v, rest) := strtoll sval in
      if (length rest =? length sval)%nat then Some TInval
      else
        let '(m, rest) := match rest with [] => (mod_, []) | c :: r => (c, r) end in
        let next secs' :=
          (* nsecs is 0 here *)
          match rest with
          | [] => str_time_done secs' 0 []
          | _ => str_time_loop fuel rest 0 secs'
          end in
        if m =? 68 then a <- i64 (v * 24) ;; a <- i64 (a * 3600) ;; s <- i64 (secs + a) ;; next s
        else if m =? 72 then a <- i64 (v * 3600) ;; s <- i64 (secs + a) ;; next s
        else if m =? 77 then a <- i64 (v * 60) ;; s <- i64 (secs + a) ;; next s
        else if m =? 115 then s <- i64 (secs + v) ;; next s
        else if m =? 109 then n <- conv_up v 1000000 ;; str_time_done secs n rest
        else if m =? 117 then n <- conv_up v 1000 ;; str_time_done secs n rest
        else if m =? 110 then str_time_done secs v rest
        else Some TMinus1
  end.

Definition str_to_time (s : list Z) (mod_ : Z) : option tres :=
  str_time_loop (S (length s)) s mod_ 0.
