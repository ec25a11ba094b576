(** Model of the string scanner of lib/utils.c: "C"-like strings, tokens and
    quoting.  A C string is the list of its characters (unsigned, none of
    them 0, without the terminator); the [char] arithmetic of the code is
    taken modulo 256.  The ctype functions are those of the "C" locale.

    Simplification: the model of an allocation that fails is in Argv_Model;
    here memory is always available. *)
From Verif Require Import Base.
Open Scope Z_scope.

(** isdigit, isodigit (lib/utils.c:340-344), isxdigit, isupper *)
Definition isdigit (c : Z) : bool := (48 <=? c) && (c <=? 57).
Definition isodigit (c : Z) : bool := isdigit c && negb (c =? 56) && negb (c =? 57).
Definition isupper (c : Z) : bool := (65 <=? c) && (c <=? 90).
Definition isxdigit (c : Z) : bool :=
  isdigit c || ((65 <=? c) && (c <=? 70)) || ((97 <=? c) && (c <=? 102)).

(** strchr(s, c) != NULL for c != 0 *)
Definition strchr (s : list Z) (c : Z) : bool := existsb (Z.eqb c) s.

(** is_sep, lib/utils.c:326-330 *)
Definition is_sep (c : Z) (seps : list Z) : bool := negb (c =? 0) && strchr seps c.

(** skip_seps, lib/utils.c:332-338 *)
Fixpoint skip_seps (s seps : list Z) : list Z :=
  match s with
  | [] => []
  | c :: s' => if is_sep c seps then skip_seps s' seps else s
  end.

(** struct strtobuf_info, lib/utils.c:346-357: [sb_out] is the output
    buffer, if there is one; the field s is the list still to be scanned and
    is passed separately. *)
Record sb := mksb {
  sb_q : Z;            (* inquote, 0 for none *)
  sb_cval : Z;
  sb_esc : nat;
  sb_base : Z;
  sb_out : option (list Z);
  sb_len : nat }.

(** strtobuf_init, lib/utils.c:393-413 *)
Definition sb_init (out : option (list Z)) : sb := mksb 0 0 0 0 out 0.

(** set_out, lib/utils.c:363-369: writing outside the buffer is undefined *)
Definition set_out (i : sb) (c : Z) : option sb :=
  match sb_out i with
  | None => Some (mksb (sb_q i) (sb_cval i) (sb_esc i) (sb_base i) None (S (sb_len i)))
  | Some b =>
      b' <- mset b (sb_len i) c ;;
      Some (mksb (sb_q i) (sb_cval i) (sb_esc i) (sb_base i) (Some b') (S (sb_len i)))
  end.

Definition set_q q (i : sb) := mksb q (sb_cval i) (sb_esc i) (sb_base i) (sb_out i) (sb_len i).
Definition set_esc e (i : sb) := mksb (sb_q i) (sb_cval i) e (sb_base i) (sb_out i) (sb_len i).
Definition set_cval v (i : sb) := mksb (sb_q i) v (sb_esc i) (sb_base i) (sb_out i) (sb_len i).
Definition set_base b (i : sb) := mksb (sb_q i) (sb_cval i) (sb_esc i) b (sb_out i) (sb_len i).

(** what the loop does after one character *)
Inductive flow := Go | StopSkip | StopStay.

(** the part of the loop after the label process_char, lib/utils.c:469-488 *)
Definition process_char (seps ends : list Z) (i : sb) (c : Z) : option (sb * flow) :=
  if c =? sb_q i then Some (set_q 0 i, Go)
  else if (sb_q i =? 0) && ((c =? 39) || (c =? 34)) then Some (set_q c i, Go)
  else if c =? 92 then Some (set_esc 1 i, Go)
  else if sb_q i =? 0 then
    if is_sep c seps then Some (i, StopSkip)
    else if strchr ends c then Some (i, StopStay)
    else i' <- set_out i c ;; Some (i', Go)
  else i' <- set_out i c ;; Some (i', Go).

(** the switch, lib/utils.c:435-444 *)
Definition sym_val (c : Z) : Z :=
  if c =? 97 then 7 else if c =? 98 then 8 else if c =? 102 then 12
  else if c =? 110 then 10 else if c =? 114 then 13 else if c =? 116 then 9
  else if c =? 118 then 11 else c.

(** what is added for a digit, lib/utils.c:449-454: note that ten is not added
    for a letter *)
Definition digit_add (c : Z) : Z :=
  if isdigit c then c - 48 else if isupper c then c - 65 else c - 97.

(** one turn of the loop, lib/utils.c:424-488 *)
Definition sb_char (seps ends : list Z) (i : sb) (c : Z) : option (sb * flow) :=
  match sb_esc i with
  | O => process_char seps ends i c
  | S O =>
      let i := set_cval 0 i in
      if isodigit c then Some (set_esc 2 (set_cval ((c - 48) mod 256) (set_base 8 i)), Go)
      else if c =? 120 then Some (set_esc 2 (set_base 16 i), Go)
      else i' <- set_out i (sym_val c) ;; Some (set_esc 0 i', Go)
  | S (S e) =>
      if ((sb_base i =? 16) && isxdigit c) || isodigit c then
        let i := set_cval ((sb_cval i * sb_base i + digit_add c) mod 256) i in
        if (1 <=? e)%nat
        then i' <- set_out i (sb_cval i) ;; Some (set_esc 0 i', Go)
        else Some (set_esc (S (sb_esc i)) i, Go)
      else
        i' <- set_out i (sb_cval i) ;;
        process_char seps ends (set_esc 0 i') c
  end.

(** strtobuf, lib/utils.c:418-492: also returns the rest of the string *)
Fixpoint strtobuf (seps ends : list Z) (i : sb) (s : list Z) : option (sb * list Z) :=
  match s with
  | [] => Some (i, [])
  | c :: s' =>
      ' (i', f) <- sb_char seps ends i c ;;
      match f with
      | Go => strtobuf seps ends i' s'
      | StopSkip => Some (i', s')
      | StopStay => Some (i', s)
      end
  end.

(** strtobuf_finish, lib/utils.c:497-510: false is GE_INVAL *)
Definition sb_finish (i : sb) : option (sb * bool) :=
  i <- (if ((sb_base i =? 8) && (1 <? sb_esc i)%nat) || ((sb_base i =? 16) && (2 <? sb_esc i)%nat)
        then i' <- set_out i (sb_cval i) ;; Some (set_esc 0 i')
        else Some i) ;;
  Some (i, (sb_q i =? 0) && (sb_esc i =? 0)%nat).

(** Both passes over one string, as in gensio_cstr_to_buf (lib/utils.c:512-539),
    cstr_gettok (lib/utils.c:546-583) and gettok (lib/utils.c:654-689); [extra]
    is the room for the terminator (1 in gettok, otherwise 0).
    [Some None]: GE_INVAL. *)
Definition scan (extra : nat) (seps ends : list Z) (s : list Z)
  : option (option (list Z * list Z)) :=
  ' (i, _) <- strtobuf seps ends (sb_init None) s ;;
  ' (i, ok) <- sb_finish i ;;
  if negb ok then Some None
  else
    ' (j, rest) <- strtobuf seps ends (sb_init (Some (repeat 0 (sb_len i + extra)))) s ;;
    ' (j, _) <- sb_finish j ;;
    match sb_out j with
    | None => None
    | Some b =>
        if (extra =? 0)%nat then v <- mread b 0 (sb_len j) ;; Some (Some (v, rest))
        else b' <- mset b (sb_len j) 0 ;; Some (Some (b', rest))
    end.

(** gensio_cstr_to_buf, lib/utils.c:512-539 *)
Definition cstr_to_buf (s : list Z) : option (option (list Z)) :=
  r <- scan 0 [] [] s ;;
  match r with None => Some None | Some (v, _) => Some (Some v) end.

(** cstr_gettok and gettok, lib/utils.c:546-583, 654-689: [Some None] is
    GE_INVAL, a token of None is the end. *)
Definition get_tok (extra : nat) (seps ends s : list Z)
  : option (option (option (list Z) * list Z)) :=
  let p := skip_seps s seps in
  match p with
  | [] => Some (Some (None, p))
  | c :: _ =>
      if strchr ends c then Some (Some (None, p))
      else
        r <- scan extra seps ends p ;;
        match r with
        | None => Some None
        | Some (v, rest) => Some (Some (Some v, rest))
        end
  end.

(** gensio_quote_string, lib/utils.c:962-990: the string is first measured,
    then written to a zeroed allocation of that size. *)
Definition needs_bs (c : Z) : bool := (c =? 92) || (c =? 34).

Fixpoint quote_count (s : list Z) : nat :=
  match s with
  | [] => 3
  | c :: s' => ((if needs_bs c then 2 else 1) + quote_count s')%nat
  end.

Fixpoint quote_fill (b : list Z) (oc : nat) (s : list Z) : option (list Z * nat) :=
  match s with
  | [] => b' <- mset b oc 34 ;; Some (b', S oc)
  | c :: s' =>
      ' (b, oc) <- (if needs_bs c then b' <- mset b oc 92 ;; Some (b', S oc)
                    else Some (b, oc)) ;;
      b' <- mset b oc c ;;
      quote_fill b' (S oc) s'
  end.

Definition quote_string (s : list Z) : option (list Z) :=
  b <- mset (repeat 0 (quote_count s)) 0 34 ;;
  ' (b, _) <- quote_fill b 1 s ;;
  Some b.

(** The C string in a block of memory: the characters before the first 0. *)
Fixpoint cstring (b : list Z) : option (list Z) :=
  match b with
  | [] => None
  | c :: b' => if c =? 0 then Some [] else s <- cstring b' ;; Some (c :: s)
  end.

(** vsnprintf(buf + off, size, ...) with the text [t]: at most size - 1
    characters and a terminator; nothing if size is 0. *)
Definition vsnprintf (b : list Z) (off size : nat) (t : list Z) : option (list Z) :=
  match size with
  | O => Some b
  | S n => mwrite b off (firstn n t ++ [0])
  end.

(** gensio_pos_snprintf, lib/utils.c:854-881; the text to print is given.
    Simplification: pos is a number that does not wrap; the result of
    vsnprintf is not negative. *)
Definition pos_snprintf (b : list Z) (len pos : nat) (t : list Z) : option (list Z * nat) :=
  b' <- (if (len <? pos)%nat then vsnprintf b len 0 t
         else vsnprintf b pos (len - pos) t) ;;
  Some (b', (pos + length t)%nat).

(** gensio_quote_str, lib/utils.c:883-904 *)
Fixpoint quote_str_loop (b : list Z) (len pos : nat) (s : list Z) : option (list Z * nat) :=
  match s with
  | [] => Some (b, pos)
  | c :: s' =>
      ' (b, pos) <- pos_snprintf b len pos (if needs_bs c then [92; c] else [c]) ;;
      quote_str_loop b len pos s'
  end.

Definition end_mark (b : list Z) (len pos : nat) : option (list Z) :=
  if (pos <? len)%nat then mset b pos 0 else Some b.

Definition quote_str (b : list Z) (len pos : nat) (s : list Z) : option (list Z * nat) :=
  ' (b, pos) <- pos_snprintf b len pos [34] ;;
  ' (b, pos) <- quote_str_loop b len pos s ;;
  ' (b, pos) <- pos_snprintf b len pos [34] ;;
  b <- end_mark b len pos ;;
  Some (b, pos).

(** gensio_argv_snprintf, lib/utils.c:906-930; the return value is the
    number of characters printed, here final pos - pos. *)
Fixpoint argv_print_loop (b : list Z) (len pos : nat) (first : bool) (argv : list (list Z))
  : option (list Z * nat) :=
  match argv with
  | [] => Some (b, pos)
  | a :: argv' =>
      ' (b, pos) <- (if first then Some (b, pos) else pos_snprintf b len pos [32]) ;;
      ' (b, pos) <- quote_str b len pos a ;;
      argv_print_loop b len pos false argv'
  end.

Definition argv_snprintf (b : list Z) (len pos : nat) (argv : list (list Z))
  : option (list Z * nat) :=
  ' (b, pos) <- argv_print_loop b len pos true argv ;;
  b <- end_mark b len pos ;;
  Some (b, pos).

(** gensio_buf_to_u32 and friends, lib/utils.c:823-852.  [shl] is a shift of a
    byte promoted to int: undefined by the C standard when the result is not
    representable in an int (C11 6.5.7p4). *)
Definition shl (v : Z) (n : Z) : option Z :=
  let r := Z.shiftl v n in if r <? 2 ^ 31 then Some r else None.

Definition buf_to_u32 (d : list Z) : option Z :=
  d0 <- mget d 0 ;; d1 <- mget d 1 ;; d2 <- mget d 2 ;; d3 <- mget d 3 ;;
  a <- shl d0 24 ;; b <- shl d1 16 ;; c <- shl d2 8 ;;
  Some ((Z.lor (Z.lor (Z.lor a b) c) d3) mod 2 ^ 32).

(** The same for a compiler (gcc, clang) that defines the shift to wrap: the
    result is an int and is converted to uint32_t. *)
Definition wrap_int (v : Z) : Z := (v + 2 ^ 31) mod 2 ^ 32 - 2 ^ 31.
Definition buf_to_u32_wrap (d : list Z) : option Z :=
  d0 <- mget d 0 ;; d1 <- mget d 1 ;; d2 <- mget d 2 ;; d3 <- mget d 3 ;;
  Some ((Z.lor (Z.lor (Z.lor (wrap_int (Z.shiftl d0 24)) (Z.shiftl d1 16)) (Z.shiftl d2 8)) d3)
        mod 2 ^ 32).

Definition u32_to_buf (d : list Z) (v : Z) : option (list Z) :=
  d <- mset d 0 (Z.shiftr v 24 mod 256) ;;
  d <- mset d 1 (Z.shiftr v 16 mod 256) ;;
  d <- mset d 2 (Z.shiftr v 8 mod 256) ;;
  mset d 3 (v mod 256).

Definition buf_to_u16 (d : list Z) : option Z :=
  d0 <- mget d 0 ;; d1 <- mget d 1 ;;
  a <- shl d0 8 ;;
  Some (Z.lor a d1 mod 2 ^ 16).

Definition u16_to_buf (d : list Z) (v : Z) : option (list Z) :=
  d <- mset d 0 (Z.shiftr v 8 mod 256) ;;
  mset d 1 (v mod 256).
