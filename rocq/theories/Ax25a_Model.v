(** Model of the AX.25 addresses, lib/net_ax25_addr.c. *)
From Verif Require Import Base Cstr_Model Time_Model.
Open Scope Z_scope.

(** struct gensio_ax25_subaddr, include/gensio/gensio_ax25_addr.h:15-24:
    [sa_call] is the array of 7 characters. *)
Record subaddr := mksa { sa_call : list Z; sa_ssid : Z; sa_ch : Z; sa_r1 : Z; sa_r2 : Z; sa_r3 : Z }.
Definition zsub : subaddr := mksa (repeat 0 7) 0 0 0 0 0.

(** struct gensio_ax25_addr, gensio_ax25_addr.h:45-53; nr_extra is the length
    of the list.  The function table and o are left out. *)
Record xaddr := mkxa { xa_port : Z; xa_dest : subaddr; xa_src : subaddr; xa_extra : list subaddr }.
Definition max_extra : nat := 8.

(** ** The wire form *)

(** encode_ax25_subaddr, lines 381-394: the loops.  A left shift of a negative
    char is undefined, so characters must be below 128. *)
Fixpoint enc_chars (cs : list Z) : option (list Z) :=
  match cs with
  | [] => Some []
  | c :: cs' =>
      if c =? 0 then Some (repeat (Z.shiftl 32 1) (S (length cs')))
      else
        _ <- guard (c <? 128) ;;
        r <- enc_chars cs' ;;
        Some (Z.shiftl c 1 mod 256 :: r)
  end.
Definition encode_subaddr (a : subaddr) : option (list Z) :=
  cs <- mread (sa_call a) 0 6 ;;
  e <- enc_chars cs ;;
  Some (e ++ [Z.lor (Z.shiftl (sa_ssid a) 1) (Z.shiftl (sa_ch a) 7) mod 256]).

(** ax25_addr_encode_len, lines 372-379; [None] is the failed assert *)
Definition encode_len (a : xaddr) : option nat :=
  _ <- guard (length (xa_extra a) <=? max_extra)%nat ;;
  Some (7 * (2 + length (xa_extra a)))%nat.

(** ax25_addr_encode, lines 396-416: writes to the given memory; the result is
    the memory and the length *)
Fixpoint encode_extras (buf : list Z) (len : nat) (l : list subaddr) : option (list Z * nat) :=
  match l with
  | [] => Some (buf, len)
  | a :: l =>
      e <- encode_subaddr a ;;
      buf <- mwrite buf len e ;;
      encode_extras buf (len + 7) l
  end.
Definition addr_encode (buf : list Z) (a : xaddr) : option (list Z * nat) :=
  _ <- guard (length (xa_extra a) <=? max_extra)%nat ;;
  e <- encode_subaddr (xa_dest a) ;;
  buf <- mwrite buf 0 e ;;
  e <- encode_subaddr (xa_src a) ;;
  buf <- mwrite buf 7 e ;;
  ' (buf, len) <- encode_extras buf 14 (xa_extra a) ;;
  b <- mget buf (len - 1) ;;
  buf <- mset buf (len - 1) (Z.lor b 1) ;;
  Some (buf, len).

(** decode_ax25_subaddr, lines 312-338.  [len] is the claimed length, the
    subtraction is one of unsigned 64 bit numbers. *)
Inductive sres := SInval | SOk (a : subaddr) (pos : nat) | SLast (* GE_REMCLOSE *) (a : subaddr) (pos : nat).

Fixpoint dec_chars (data : list Z) (pos n : nat) : option (option (list Z)) :=
  match n with
  | O => Some (Some [])
  | S n =>
      b <- mget data pos ;;
      if Z.testbit b 0 then Some None
      else
        r <- dec_chars data (S pos) n ;;
        let c := Z.shiftr b 1 in
        Some (match r with None => None | Some r => Some ((if c =? 32 then 0 else c) :: r) end)
  end.
Definition decode_subaddr (data : list Z) (pos len : nat) : option sres :=
  if (Z.of_nat len - Z.of_nat pos) mod 2 ^ 64 <? 7 then Some SInval
  else
    cs <- dec_chars data pos 6 ;;
    match cs with
    | None => Some SInval
    | Some cs =>
        b <- mget data (pos + 6) ;;
        let a := mksa (cs ++ [0]) (Z.land (Z.shiftr b 1) 15) (Z.land (Z.shiftr b 7) 1)
                      (Z.land (Z.shiftr b 5) 1) (Z.land (Z.shiftr b 6) 1) 1 in
        Some (if Z.testbit b 0 then SLast a (pos + 7) else SOk a (pos + 7))
    end.

(** decode_ax25_addr, lines 340-370.  The loop over the extra addresses: [k] is
    the number of free places. *)
Inductive dres := DInval | DRemclose | DOk (a : xaddr) (pos : nat).
Fixpoint decode_extras (k : nat) (data : list Z) (pos len : nat) (acc : list subaddr)
  : option (option (list subaddr * nat)) :=
  match k with
  | O => Some None
  | S k =>
      r <- decode_subaddr data pos len ;;
      match r with
      | SInval => Some None
      | SOk a pos => decode_extras k data pos len (acc ++ [a])
      | SLast a pos => Some (Some (acc ++ [a], pos))
      end
  end.
Definition decode_addr (data : list Z) (pos len : nat) (port : Z) : option dres :=
  r <- decode_subaddr data pos len ;;
  match r with
  | SInval => Some DInval
  | SLast _ _ => Some DRemclose
  | SOk d pos =>
      r <- decode_subaddr data pos len ;;
      match r with
      | SInval => Some DInval
      | SLast s pos => Some (DOk (mkxa (port mod 256) d s []) pos)
      | SOk s pos =>
          e <- decode_extras max_extra data pos len [] ;;
          match e with
          | None => Some DInval
          | Some (e, pos) => Some (DOk (mkxa (port mod 256) d s e) pos)
          end
      end
  end.

(** ** Texts *)

(** strtoul(s, &end, 10) of the C library (C11 7.22.1.4) with 64 bits: the
    value and the rest of the string. *)
Definition strtoul10 (s : list Z) : Z * list Z :=
  let s1 := skip_space s in
  let '(neg, s2) := match s1 with
                    | c :: r => if c =? 45 then (true, r) else if c =? 43 then (false, r) else (false, s1)
                    | [] => (false, s1)
                    end in
  match s2 with
  | c :: _ =>
      if digit_of c <? 10
      then let '(v, r) := digits 10 0 s2 in
           ((if 2 ^ 64 <=? v then 2 ^ 64 - 1 else if neg then (- v) mod 2 ^ 64 else v), r)
      else (0, s)
  | [] => (0, s)
  end.

Definition islower (c : Z) : bool := (97 <=? c) && (c <=? 122).

(** ax25_str_to_subaddr, lines 173-225: the first loop, lines 183-194.  [call]
    is the array being filled.  The result is [None] for GE_INVAL or the array,
    the index and the rest of the string. *)
Fixpoint sub_chars (n : nat) (call : list Z) (i : nat) (s : list Z)
  : option (option (list Z * nat * list Z)) :=
  match n, s with
  | O, _ | _, [] => Some (Some (call, i, s))
  | S n, c :: s' =>
      if isupper c || isdigit c then call <- mset call i c ;; sub_chars n call (S i) s'
      else if islower c then call <- mset call i (c - 32) ;; sub_chars n call (S i) s'
      else if c =? 45 then Some (Some (call, i, s))
      else Some None
  end.

(** lines 202-204 *)
Fixpoint zero_from (n : nat) (call : list Z) (i : nat) : option (list Z) :=
  match n with
  | O => Some call
  | S n => call <- mset call i 0 ;; zero_from n call (S i)
  end.

(** [a] is the content of the structure before the call.  The outer option is
    undefined behaviour, the inner one GE_INVAL. *)
Definition str_to_subaddr (s : list Z) (a : subaddr) (is_cr : bool) : option (option subaddr) :=
  match s with
  | [] => Some None
  | _ =>
      r <- sub_chars 6 (sa_call a) 0 s ;;
      match r with
      | None => Some None
      | Some (call, i, []) => Some (Some (mksa call 0 (sa_ch a) (sa_r1 a) (sa_r2 a) (sa_r3 a)))
      | Some (call, i, c :: t) =>
          if negb (c =? 45) then Some None
          else
            call <- zero_from (7 - i) call i ;;
            let '(v, e) := strtoul10 t in
            let j := v mod 2 ^ 32 in
            let fin ch := if 16 <=? j then None else Some (mksa call j ch 1 1 1) in
            match e with
            | [] => Some (fin 0)
            | e0 :: e1 =>
                if e0 =? 58 then
                  match is_cr, e1 with
                  | false, [h] => if h =? 104 then Some (fin 1) else Some None
                  | _, _ => Some None
                  end
                else Some None
            end
      end
  end.

(** gensio_ax25_addr_alloc, lines 227-265: tnc_port is not stored.
    Simplification: the allocation succeeds. *)
Fixpoint alloc_extras (l : list (list Z)) : option (option (list subaddr)) :=
  match l with
  | [] => Some (Some [])
  | s :: l =>
      r <- str_to_subaddr s zsub false ;;
      match r with
      | None => Some None
      | Some a =>
          r <- alloc_extras l ;;
          Some (match r with None => None | Some l => Some (a :: l) end)
      end
  end.
Definition addr_alloc (port : Z) (dest src : list Z) (extras : list (list Z)) : option (option xaddr) :=
  if (max_extra <? length extras)%nat then Some None
  else
    d <- str_to_subaddr dest zsub true ;;
    match d with
    | None => Some None
    | Some d =>
        s <- str_to_subaddr src zsub true ;;
        match s with
        | None => Some None
        | Some s =>
            e <- alloc_extras extras ;;
            Some (match e with None => None | Some e => Some (mkxa 0 d s e) end)
        end
    end.

(** The pieces between the commas: what the calls of strchr and the stores of
    '\0' in gensio_ax25_str_to_addr, lines 287-298, make of the copied string *)
Fixpoint pieces (s : list Z) : list (list Z) :=
  match s with
  | [] => [[]]
  | c :: s =>
      if c =? 44 then [] :: pieces s
      else match pieces s with p :: ps => (c :: p) :: ps | [] => [[c]] end
  end.

Definition ax25_colon : list Z := [97; 120; 50; 53; 58].
Fixpoint drop_prefix (p s : list Z) : option (list Z) :=
  match p, s with
  | [], _ => Some s
  | x :: p, y :: s => if x =? y then drop_prefix p s else None
  | _ :: _, [] => None
  end.

(** gensio_ax25_str_to_addr, lines 267-310.  Simplification: the copy of the
    string succeeds. *)
Definition str_to_addr (instr : list Z) : option (option xaddr) :=
  let s := match drop_prefix ax25_colon instr with Some s => s | None => instr end in
  match s with
  | [] => Some None
  | c :: _ =>
      if negb (isdigit c) then Some None
      else
        let '(port, e) := strtoul10 s in
        match e with
        | [] => Some None
        | c :: t =>
            if negb (c =? 44) then Some None
            else
              match pieces t with
              | dest :: src :: extras =>
                  if (max_extra <? length extras)%nat then Some None
                  else addr_alloc (port mod 256) dest src extras
              | _ => Some None
              end
        end
  end.

(** The text %d gives for a number below 1000 *)
Definition dec (n : Z) : list Z :=
  if n <? 10 then [48 + n]
  else if n <? 100 then [48 + n / 10; 48 + n mod 10]
  else [48 + n / 100; 48 + (n / 10) mod 10; 48 + n mod 10].

(** ax25_subaddr_to_str, lines 53-65: the text printed.  (How it is cut when
    it does not fit is the subject of pos_snprintf in Cstr_Model.) *)
Definition subaddr_text (a : subaddr) (do_cr : bool) : option (list Z) :=
  n <- cstring (sa_call a) ;;
  Some ((if sa_ssid a =? 0 then n else n ++ 45 :: dec (sa_ssid a)) ++
        (if do_cr then [58; if sa_ch a =? 0 then 114 else 99] else [])).

(** ax25_addr_to_str, lines 67-86: the text printed *)
Fixpoint extras_text (l : list subaddr) : option (list Z) :=
  match l with
  | [] => Some []
  | a :: l =>
      t <- subaddr_text a false ;;
      r <- extras_text l ;;
      Some (44 :: t ++ (if sa_ch a =? 0 then [] else [58; 104]) ++ r)
  end.
Definition addr_text (a : xaddr) : option (list Z) :=
  d <- subaddr_text (xa_dest a) false ;;
  s <- subaddr_text (xa_src a) false ;;
  e <- extras_text (xa_extra a) ;;
  Some (ax25_colon ++ dec (xa_port a) ++ 44 :: d ++ 44 :: s ++ e).

(** ax25_subaddr_equal, lines 16-25 *)
Definition strcmp_eq (a b : list Z) : option bool :=
  x <- cstring a ;; y <- cstring b ;;
  Some (if list_eq_dec Z.eq_dec x y then true else false).
Definition subaddr_equal (a b : subaddr) : option bool :=
  e <- strcmp_eq (sa_call a) (sa_call b) ;;
  Some (e && (sa_ssid a =? sa_ssid b)).

(** ax25_addr_equal, lines 27-51 *)
Fixpoint extras_equal (a b : list subaddr) : option bool :=
  match a, b with
  | x :: a, y :: b =>
      e <- subaddr_equal x y ;;
      if e then extras_equal a b else Some false
  | _, _ => Some true
  end.
Definition addr_equal (a b : xaddr) (ports all : bool) : option bool :=
  if ports && negb (xa_port a =? xa_port b) then Some false
  else
    e <- subaddr_equal (xa_dest a) (xa_dest b) ;;
    if negb e then Some false
    else
      e <- subaddr_equal (xa_src a) (xa_src b) ;;
      if negb e then Some false
      else if negb all then Some true
      else if negb (length (xa_extra a) =? length (xa_extra b))%nat then Some false
      else extras_equal (xa_extra a) (xa_extra b).
