(** Model of lib/convcode.c (convolutional encoder and Viterbi decoder).

    C integers are [Z] with every possible wrap written out ([u32], [u16]);
    arrays are lists, an access outside is [None].  [CONVCODE_DEBUG_ASSERT] is
    1 in the source, so the DEBUG_ASSERTs are live and modelled by [guard].
    The [DO_SIMD] variant (lines 1212-1304) is not compiled and not modelled;
    neither are caller-supplied convert/next_state tables (lines 590-594). *)
From Verif Require Import Base.
Open Scope Z_scope.

Definition u32 (x : Z) : Z := x mod 4294967296.
Definition u16 (x : Z) : Z := x mod 65536.

(** array access with a C integer as index *)
Definition zget {A} (m : list A) (i : Z) : option A :=
  if i <? 0 then None else mget m (Z.to_nat i).
Definition zset {A} (m : list A) (i : Z) (x : A) : option (list A) :=
  if i <? 0 then None else mset m (Z.to_nat i) x.

(** ** Sizes: convcode.c:68-198 *)

(** convcode.c:79-82 (and 108-111, 160-163): number of non-zero entries *)
Fixpoint punc_count (p : list Z) : Z :=
  match p with [] => 0 | x :: r => (if x =? 0 then 0 else 1) + punc_count r end.

(** convcode.c:68-98.  [puncture = None] is the NULL pointer; the array has
    exactly [puncture_len] entries. *)
Definition encoded_size (size np k : Z) (do_tail : bool) (puncture : option (list Z))
  : option Z :=
  let size := u32 (size * np) in
  let size := if do_tail then u32 (size + np * (k - 1)) else size in
  match puncture with
  | None => Some size
  | Some pa =>
      let plen := Z.of_nat (length pa) in
      if plen =? 0 then None (* division by zero *)
      else Some (u32 (u32 (size / plen * punc_count pa)
                      + punc_count (firstn (Z.to_nat (size mod plen)) pa)))
  end.

(** convcode.c:121-125: walk the puncture array until [left] kept entries are
    found; result: osize increment (= i) and the rest of the array *)
Fixpoint dsize_walk (pa : list Z) (lft : nat) (i : nat) : option (nat * list Z) :=
  match lft with
  | O => Some (i, pa)
  | S l =>
      match pa with
      | [] => None (* puncture[i] outside the array *)
      | x :: r => dsize_walk r (if x =? 0 then lft else l) (S i)
      end
  end.

(** convcode.c:130-133 *)
Fixpoint dsize_pad (pa : list Z) (osize np : Z) : Z :=
  match pa with
  | [] => osize
  | x :: r => if negb (osize mod np =? 0) && (x =? 0)
              then dsize_pad r (u32 (osize + 1)) np else osize
  end.

(** convcode.c:100-146; outer [None] is a division by zero or an access
    outside the array, [Some None] the error return 1 *)
Definition decoded_size (size np k : Z) (do_tail : bool) (puncture : option (list Z))
  : option (option Z) :=
  osize <- match puncture with
           | None => Some size
           | Some pa =>
               let p := punc_count pa in
               if p =? 0 then None
               else
                 let osize := u32 (size / p * Z.of_nat (length pa)) in
                 ' (i, rest) <- dsize_walk pa (Z.to_nat (size mod p)) 0 ;;
                 if np =? 0 then None
                 else Some (dsize_pad rest (u32 (osize + Z.of_nat i)) np)
           end ;;
  if np =? 0 then None
  else if negb (osize mod np =? 0) then Some None
  else Some (Some (if do_tail then u32 (osize / np - (k - 1)) else osize / np)).

(** convcode.c:166-172, the loop that tries smaller sizes; [n] counts down
    from size, so it never runs out before [size] does *)
Fixpoint ebits_loop (n : nat) (size np k : Z) (do_tail : bool) (pa : list Z)
  (r : option Z) : option (Z * option Z) :=
  if (np <=? size) && match r with None => true | Some ns => negb (ns mod 8 =? 0) end
  then match n with
       | O => None
       | S n' =>
           let size := u32 (size - 1) in
           r' <- decoded_size size np k do_tail (Some pa) ;;
           (* on an error nsyms keeps its old value, but err decides first *)
           ebits_loop n' size np k do_tail pa r'
       end
  else Some (size, r).

(** convcode.c:148-198 *)
Definition encoded_bits_from_bytes (nbytes np k : Z) (do_tail : bool)
  (puncture : option (list Z)) : option (option Z) :=
  let size := u32 (nbytes * 8) in
  match puncture with
  | Some pa =>
      r <- decoded_size size np k do_tail puncture ;;
      ' (size', r') <- ebits_loop (Z.to_nat size) size np k do_tail pa r ;;
      if size' <? np then Some None
      else match r' with
           | None => None
           | Some nsyms =>
               e <- encoded_size nsyms np k do_tail puncture ;; Some (Some e)
           end
  | None =>
      let tail_size := if do_tail then u32 (np * (k - 1)) else 0 in
      if do_tail && (size <? tail_size) then Some None
      else if np =? 0 then None
      else
        let nsyms := (size - tail_size) / np in
        let nsyms := nsyms - nsyms mod 8 in
        e <- encoded_size nsyms np k do_tail None ;; Some (Some e)
  end.

(** ** Bit helpers *)

(** convcode.c:328-343, __builtin_popcount *)
Fixpoint pop_pos (p : positive) : Z :=
  match p with xH => 1 | xO q => pop_pos q | xI q => 1 + pop_pos q end.
Definition num_bits_set (v : Z) : Z := match v with Zpos p => pop_pos p | _ => 0 end.

(** convcode.c:346-350 *)
Definition num_bits_is_odd (v : Z) : Z := num_bits_set v mod 2.

(** convcode.c:312-326 (k <= 16, no wrap) *)
Fixpoint reverse_bits_i (k : nat) (rv val : Z) : Z :=
  match k with
  | O => rv
  | S n => reverse_bits_i n (Z.lor (Z.shiftl rv 1) (Z.land val 1)) (Z.shiftr val 1)
  end.
Definition reverse_bits (k : nat) (val : Z) : Z := reverse_bits_i k 0 val.

(** ** The coder: convcode.h:614-738 *)

(** the part of struct convcode fixed by alloc_convcode and the setters *)
Record cfg := {
  ck : nat;                 (* k *)
  cnst : Z;                 (* num_states *)
  ctrelw : Z;               (* trelw *)
  ctail : nat;              (* tail_bits *)
  crec : bool;              (* recursive *)
  cpolys : list Z;          (* polys, reversed; num_polys is the length *)
  ctsize : Z;               (* trellis_size *)
  cunc : bool;              (* do_uncertainty *)
  cu100 : Z;                (* uncertainty_100 *)
  cconv : list Z * list Z;  (* convert[0], convert[1] *)
  cnext : list Z * list Z;  (* next_state[0], next_state[1] *)
  cpunc : list Z;           (* puncture, puncture_len entries *)
  cnospan : bool;           (* optimize_no_span *)
  cpersym : bool            (* enc_out.output_bits = user_output_bits *)
}.
Definition cnp (c : cfg) : nat := length (cpolys c).

(** [narrow] is trelw < num_states: tmptrel, tmptrelmap, trelmap exist *)
Definition narrow (c : cfg) : bool := ctrelw c <? cnst c.

Definition tsel (t : list Z * list Z) (bit : Z) : list Z :=
  if bit =? 0 then fst t else snd t.

(** struct convcode_outdata (convcode.h:583-605) with the list of calls made
    of the output function *)
Record od := {
  obits : Z;                (* out_bits *)
  opos : nat;               (* out_bit_pos *)
  ototal : Z;               (* total_out_bits *)
  ocalls : list (Z * nat)   (* arguments of the calls of output *)
}.
(** what the n-th call of the output function returns *)
Definition oracle := nat -> Z.

Record enc := { estate : Z; eout : od; epp : nat }.
Record dec := {
  dtrel : list Z;           (* trellis *)
  dct : Z;                  (* ctrellis *)
  dprev : list Z; dcurr : list Z;  (* path values *)
  dtmp : list Z; dtmap : list Z; dmap : list Z; (* tmptrel, tmptrelmap, trelmap *)
  dlb : nat; dlbd : Z; dlu : list Z; (* leftover bits, data, uncertainty *)
  dpp : nat;                (* dec_puncture_pos *)
  dout : od
}.

(** ** Setup: convcode.c:399-649 *)

(** convcode.c:497-510, non-recursive output of state [i] for input [b] *)
Definition conv_nr (polys : list Z) (i b : Z) : Z :=
  fst (fold_left (fun '(acc, j) p =>
         (Z.lor acc (Z.shiftl (num_bits_is_odd (Z.land (Z.lor (Z.shiftl i 1) b) p)) j), j + 1))
       polys (0, 0)).

(** convcode.c:524-525 *)
Definition feedback (polys : list Z) (i b : Z) : Z :=
  num_bits_is_odd (Z.land (Z.lor (Z.shiftl i 1) b) (hd 0 polys)).

(** convcode.c:512-541, recursive *)
Definition conv_r (polys : list Z) (i b : Z) : Z :=
  let bval := feedback polys i b in
  fst (fold_left (fun '(acc, j) p =>
         (Z.lor acc (Z.shiftl (num_bits_is_odd (Z.land (Z.lor (Z.shiftl i 1) bval) p)) j), j + 1))
       (tl polys) (b, 1)).

Definition states (n : Z) : list Z := map Z.of_nat (seq 0 (Z.to_nat n)).

(** convcode.c:472-557, setup_convcode2; iteration [i] writes only entry [i] *)
Definition conv_table (r : bool) (polys : list Z) (n b : Z) : list Z :=
  map (fun i => if r then conv_r polys i b else conv_nr polys i b) (states n).
Definition next_table (r : bool) (polys : list Z) (n b : Z) : list Z :=
  map (fun i => Z.land (Z.lor (Z.shiftl i 1) (if r then feedback polys i b else b)) (n - 1))
      (states n).

(** convcode.c:399-470 and 559-649.  [None]: NULL is returned. *)
Definition alloc_cfg (k : nat) (polynomials : list Z) (maxbits width : Z)
  (do_tail recursive do_unc : bool) : option cfg :=
  let np := length polynomials in
  if (np <? 1)%nat || (8 <? np)%nat then None
  else if (k <? 3)%nat || (16 <? k)%nat then None
  else
    let nst := Z.shiftl 1 (Z.of_nat k - 1) in
    let ps := map (reverse_bits k) polynomials in
    Some {| ck := k; cnst := nst;
            ctrelw := if (width =? 0) || (nst <? width) then nst else width;
            ctail := if do_tail then k - 1 else 0;
            crec := recursive; cpolys := ps;
            ctsize := if 0 <? maxbits then u32 (maxbits + Z.of_nat (k * np)) else 0;
            cunc := do_unc; cu100 := 100;
            cconv := (conv_table recursive ps nst 0, conv_table recursive ps nst 1);
            cnext := (next_table recursive ps nst 0, next_table recursive ps nst 1);
            cpunc := [];
            cnospan := (np =? 2)%nat || (np =? 4)%nat || (np =? 8)%nat;
            cpersym := false |}.

Definition od0 : od := {| obits := 0; opos := 0; ototal := 0; ocalls := [] |}.
(** re-initialisation keeps the history of output calls *)
Definition od_reset (o : od) : od :=
  {| obits := 0; opos := 0; ototal := 0; ocalls := ocalls o |}.

(** convcode.c:203-211 *)
Definition reinit_convencode (e : enc) : enc :=
  {| estate := 0; eout := od_reset (eout e); epp := 0 |}.

Definition enc0 : enc := {| estate := 0; eout := od0; epp := 0 |}.

(** convcode.h:58-60 *)
Definition pstate_val (v : Z) : Z := Z.land v 32767.
Definition pstate_bit (v : Z) : Z := Z.shiftr v 15.
Definition pstate_set_bit (v b : Z) : Z := u16 (Z.lor v (Z.shiftl b 15)).

(** convcode.c:49-66, the product is an unsigned int *)
Definition col (c : cfg) (column : Z) : Z := u32 (column * ctrelw c).
Definition trel_get (c : cfg) (t : list Z) (column row : Z) : option Z :=
  zget t (col c column + row).
Definition trel_set (c : cfg) (t : list Z) (column row v : Z) : option (list Z) :=
  zset t (col c column + row) v.

(** convcode.c:221-230: first position of the smallest value *)
Fixpoint min_from (l : list Z) (i cs mv : Z) : Z * Z :=
  match l with
  | [] => (cs, mv)
  | x :: r => if x <? mv then min_from r (i + 1) i x else min_from r (i + 1) cs mv
  end.

(** convcode.c:213-233; (cstate, prev_path_values[cstate]) *)
Definition min_pos (c : cfg) (prev : list Z) : option (Z * Z) :=
  match prev with
  | [] => None
  | x :: r => if narrow c then Some (0, x) else Some (min_from r 1 0 x)
  end.

Definition init_other : Z := 1073741823. (* UINT_MAX / 4, convcode.c:201 *)

Definition dec_upd_out (d : dec) (o : od) : dec :=
  {| dtrel := dtrel d; dct := dct d; dprev := dprev d; dcurr := dcurr d;
     dtmp := dtmp d; dtmap := dtmap d; dmap := dmap d;
     dlb := dlb d; dlbd := dlbd d; dlu := dlu d; dpp := dpp d; dout := o |}.
Definition dec_upd_trel (d : dec) (t : list Z) : dec :=
  {| dtrel := t; dct := dct d; dprev := dprev d; dcurr := dcurr d;
     dtmp := dtmp d; dtmap := dtmap d; dmap := dmap d;
     dlb := dlb d; dlbd := dlbd d; dlu := dlu d; dpp := dpp d; dout := dout d |}.

(** convcode.c:252-256: copy one column *)
Fixpoint copy_cols (c : cfg) (n : nat) (i from : Z) (t : list Z) : option (list Z) :=
  match n with
  | O => Some t
  | S n' =>
      v <- mread t (Z.to_nat (col c (i + from))) (Z.to_nat (ctrelw c)) ;;
      t' <- mwrite t (Z.to_nat (col c i)) v ;;
      copy_cols c n' (i + 1) from t'
  end.

(** convcode.c:235-284.  [Some None]: returns 1 (no decoder allocated).
    Note that leftover_bits_data is not reset. *)
Definition reinit_convdecode_i (c : cfg) (d : dec) (tail_bite : bool) (last_bits : Z)
  : option (option dec) :=
  match dprev d with
  | [] => Some None
  | _ =>
    ' (prev, map_, t, tmp) <-
      (if tail_bite || negb (last_bits =? 0) then
         ' (cs, _) <- min_pos c (dprev d) ;;
         map' <- (if narrow c then zset (dmap d) cs 0 else Some (dmap d)) ;;
         prev' <- zset (dprev d) cs 0 ;;
         _ <- guard (last_bits <=? dct d) ;;
         t' <- copy_cols c (Z.to_nat last_bits) 0 (dct d - last_bits) (dtrel d) ;;
         Some (prev', map', t', dtmp d)
       else
         Some (0 :: repeat init_other (Z.to_nat (cnst c) - 1),
               if narrow c
               then 0 :: map (fun i => pstate_set_bit i 1) (tl (states (cnst c)))
               else dmap d,
               dtrel d,
               if narrow c then repeat 0 (Z.to_nat (ctrelw c))
                                ++ skipn (Z.to_nat (ctrelw c)) (dtmp d)
               else dtmp d)) ;;
    Some (Some {| dtrel := t; dct := last_bits; dprev := prev; dcurr := dcurr d;
                  dtmp := tmp; dtmap := dtmap d; dmap := map_;
                  dlb := 0; dlbd := dlbd d; dlu := dlu d; dpp := 0;
                  dout := od_reset (dout d) |})
  end.

Definition zeros (n : Z) : list Z := repeat 0 (Z.to_nat n).

(** zero-allocated decoder state, convcode.c:611-639 *)
Definition dec_zero (c : cfg) : dec :=
  if ctsize c =? 0 then
    {| dtrel := []; dct := 0; dprev := []; dcurr := []; dtmp := []; dtmap := [];
       dmap := []; dlb := 0; dlbd := 0; dlu := repeat 0 8; dpp := 0; dout := od0 |}
  else
    let n := if narrow c then cnst c else 0 in
    {| dtrel := zeros (ctsize c * ctrelw c); dct := 0;
       dprev := zeros (cnst c); dcurr := zeros (cnst c);
       dtmp := zeros n; dtmap := zeros n; dmap := zeros n;
       dlb := 0; dlbd := 0; dlu := repeat 0 8; dpp := 0; dout := od0 |}.

Definition dec0 (c : cfg) : option dec :=
  r <- reinit_convdecode_i c (dec_zero c) false 0 ;;
  match r with Some d => Some d | None => Some (dec_zero c) end.

Definition set_puncture (c : cfg) (p : list Z) : cfg :=
  {| ck := ck c; cnst := cnst c; ctrelw := ctrelw c; ctail := ctail c; crec := crec c;
     cpolys := cpolys c; ctsize := ctsize c; cunc := cunc c; cu100 := cu100 c;
     cconv := cconv c; cnext := cnext c; cpunc := p; cnospan := cnospan c;
     cpersym := cpersym c |}.
Definition set_max_uncertainty (c : cfg) (u : Z) : cfg :=
  {| ck := ck c; cnst := cnst c; ctrelw := ctrelw c; ctail := ctail c; crec := crec c;
     cpolys := cpolys c; ctsize := ctsize c; cunc := cunc c; cu100 := u;
     cconv := cconv c; cnext := cnext c; cpunc := cpunc c; cnospan := cnospan c;
     cpersym := cpersym c |}.
Definition set_per_symbol (c : cfg) (v : bool) : cfg :=
  {| ck := ck c; cnst := cnst c; ctrelw := ctrelw c; ctail := ctail c; crec := crec c;
     cpolys := cpolys c; ctsize := ctsize c; cunc := cunc c; cu100 := cu100 c;
     cconv := cconv c; cnext := cnext c; cpunc := cpunc c; cnospan := cnospan c;
     cpersym := v |}.
Definition set_byte_span (c : cfg) (do_span : bool) : cfg :=
  {| ck := ck c; cnst := cnst c; ctrelw := ctrelw c; ctail := ctail c; crec := crec c;
     cpolys := cpolys c; ctsize := ctsize c; cunc := cunc c; cu100 := cu100 c;
     cconv := cconv c; cnext := cnext c; cpunc := cpunc c; cnospan := negb do_span;
     cpersym := cpersym c |}.

(** ** Output of bits: convcode.c:675-738 *)

(** convcode.c:675-698; [fuel] exceeds len, each turn uses at least one bit *)
Fixpoint output_bits_i (fuel : nat) (orc : oracle) (o : od) (bits : Z) (len : nat)
  : option (Z * od) :=
  if (8 <=? opos o + len)%nat then
    match fuel with
    | O => None
    | S f =>
        _ <- guard (opos o <=? 8)%nat ;;
        let used := (8 - opos o)%nat in
        let rv := orc (length (ocalls o)) in
        let calls := ocalls o ++ [(obits o, 8%nat)] in
        if negb (rv =? 0) then
          Some (rv, {| obits := obits o; opos := opos o; ototal := ototal o; ocalls := calls |})
        else
          _ <- guard (used <=? len)%nat ;;
          let bits' := Z.shiftr bits (Z.of_nat used) in
          output_bits_i f orc
            {| obits := bits' mod 256; opos := 0;
               ototal := u32 (ototal o + Z.of_nat used); ocalls := calls |}
            bits' (len - used)
    end
  else Some (0, {| obits := obits o; opos := opos o + len;
                   ototal := u32 (ototal o + Z.of_nat len); ocalls := ocalls o |}).

Definition output_bits (orc : oracle) (o : od) (bits : Z) (len : nat) : option (Z * od) :=
  output_bits_i (S len) orc
    {| obits := Z.lor (obits o) (Z.shiftl bits (Z.of_nat (opos o))) mod 256;
       opos := opos o; ototal := ototal o; ocalls := ocalls o |} bits len.

(** advancing a puncture position *)
Definition pnext (c : cfg) (pp : nat) : nat :=
  if (length (cpunc c) <=? S pp)%nat then 0%nat else S pp.

(** convcode.c:700-720 *)
Fixpoint output_bits_puncture (c : cfg) (orc : oracle) (o : od) (pp : nat) (bits : Z) (len : nat)
  : option (Z * od * nat) :=
  match len with
  | O => Some (0, o, pp)
  | S l =>
      x <- mget (cpunc c) pp ;;
      ' (rv, o') <- (if x =? 0 then Some (0, o) else output_bits orc o (Z.land bits 1) 1) ;;
      if negb (rv =? 0) then Some (rv, o', pp)
      else output_bits_puncture c orc o' (pnext c pp) (Z.shiftr bits 1) l
  end.

(** the function chosen in enc_out.output_bits: convcode.c:722-752 *)
Definition enc_output (c : cfg) (orc : oracle) (o : od) (pp : nat) (bits : Z)
  : option (Z * od * nat) :=
  if cpersym c then
    Some (orc (length (ocalls o)),
          {| obits := obits o; opos := opos o; ototal := ototal o;
             ocalls := ocalls o ++ [(bits mod 256, cnp c)] |}, pp)
  else match cpunc c with
       | [] => ' (rv, o') <- output_bits orc o bits (cnp c) ;; Some (rv, o', pp)
       | _ => output_bits_puncture c orc o pp bits (cnp c)
       end.

(** ** Encoding to the output function: convcode.c:760-825 *)

(** convcode.c:760-773 *)
Definition convencode_bit (c : cfg) (orc : oracle) (e : enc) (bit : Z) : option (Z * enc) :=
  st' <- zget (tsel (cnext c) bit) (estate e) ;;
  ob <- zget (tsel (cconv c) bit) (estate e) ;;
  ' (rv, o, pp) <- enc_output c orc (eout e) (epp e) ob ;;
  Some (rv, {| estate := st'; eout := o; epp := pp |}).

(** convcode.c:786-792, 797-802: the low [n] bits of one byte *)
Fixpoint convencode_byte (c : cfg) (orc : oracle) (e : enc) (byte : Z) (n : nat)
  : option (Z * enc) :=
  match n with
  | O => Some (0, e)
  | S n' =>
      ' (rv, e') <- convencode_bit c orc e (Z.land byte 1) ;;
      if negb (rv =? 0) then Some (rv, e')
      else convencode_byte c orc e' (Z.shiftr byte 1) n'
  end.

(** convcode.c:775-806; [nbits] is split off the byte list eight at a time *)
Fixpoint convencode_data (c : cfg) (orc : oracle) (e : enc) (bytes : list Z) (nbits : nat)
  : option (Z * enc) :=
  match nbits with
  | O => Some (0, e)
  | _ =>
      match bytes with
      | [] => None
      | b :: r =>
          ' (rv, e') <- convencode_byte c orc e b (Nat.min 8 nbits) ;;
          if negb (rv =? 0) then Some (rv, e') else convencode_data c orc e' r (nbits - 8)
      end
  end.

(** convcode.c:814-818 *)
Fixpoint enc_tail (c : cfg) (orc : oracle) (e : enc) (n : nat) : option (Z * enc) :=
  match n with
  | O => Some (0, e)
  | S n' =>
      ' (rv, e') <- convencode_bit c orc e 0 ;;
      if negb (rv =? 0) then Some (rv, e') else enc_tail c orc e' n'
  end.

(** convcode.c:819-821 (and 1741-1743): the result of output is not used *)
Definition od_flush (o : od) : od :=
  if (0 <? opos o)%nat
  then {| obits := obits o; opos := opos o; ototal := ototal o;
          ocalls := ocalls o ++ [(obits o, opos o)] |}
  else o.

(** convcode.c:808-825: (return value, encoder, *total_out_bits) *)
Definition convencode_finish (c : cfg) (orc : oracle) (e : enc) : option (Z * enc * Z) :=
  ' (rv, e') <- enc_tail c orc e (ctail c) ;;
  if negb (rv =? 0) then Some (rv, e', 0)
  else Some (0, {| estate := estate e'; eout := od_flush (eout e'); epp := epp e' |},
             ototal (eout e')).

(** ** Encoding into memory: convcode.c:827-1006 *)

(** the output position: memory, byte offset, bit position *)
Record bpos := { bmem : list Z; boff : nat; bbit : nat }.

(** *outbytes |= v << outbitpos, stored in an unsigned char *)
Definition bor (p : bpos) (v : Z) : option (list Z) :=
  x <- mget (bmem p) (boff p) ;;
  mset (bmem p) (boff p) (Z.lor x (Z.shiftl v (Z.of_nat (bbit p))) mod 256).

(** convcode.c:862-882 *)
Fixpoint block_punc (c : cfg) (pp : nat) (p : bpos) (outbits : Z) (n : nat)
  : option (nat * bpos) :=
  match n with
  | O => Some (pp, p)
  | S n' =>
      x <- mget (cpunc c) pp ;;
      let pp' := pnext c pp in
      if x =? 0 then block_punc c pp' p (Z.shiftr outbits 1) n'
      else
        m <- bor p (Z.land outbits 1) ;;
        let p' := if (8 <=? bbit p + 1)%nat
                  then {| bmem := m; boff := boff p + 1; bbit := 0 |}
                  else {| bmem := m; boff := boff p; bbit := bbit p + 1 |} in
        block_punc c pp' p' (Z.shiftr outbits 1) n'
  end.

(** convcode.c:884-899; [fuel] = bits_left, which shrinks in every turn *)
Fixpoint block_span (fuel : nat) (p : bpos) (outbits : Z) (left : nat)
  : option (bpos * Z * nat) :=
  let nb := (8 - bbit p)%nat in
  if (nb <? left)%nat then
    match fuel with
    | O => None
    | S f =>
        m <- bor p (Z.land outbits (Z.shiftl 1 (Z.of_nat nb) - 1)) ;;
        block_span f {| bmem := m; boff := boff p + 1; bbit := 0 |}
          (Z.shiftr outbits (Z.of_nat nb)) (left - nb)
    end
  else Some (p, outbits, left).

(** convcode.c:837-914 *)
Definition block_bit (c : cfg) (do_span do_punc : bool) (st : Z) (pp : nat) (p : bpos) (bit : Z)
  : option (Z * nat * bpos) :=
  _ <- guard ((bit <? 2) && (st <? cnst c)) ;;
  st' <- zget (tsel (cnext c) bit) st ;;
  ob <- zget (tsel (cconv c) bit) st ;;
  if do_punc then
    ' (pp', p') <- block_punc c pp p ob (cnp c) ;; Some (st', pp', p')
  else
    ' (p1, ob1, lft) <- (if do_span then block_span (cnp c) p ob (cnp c)
                          else Some (p, ob, cnp c)) ;;
    m <- bor p1 ob1 ;;
    Some (st', pp,
          if (8 <=? bbit p1 + lft)%nat
          then {| bmem := m; boff := boff p1 + 1; bbit := 0 |}
          else {| bmem := m; boff := boff p1; bbit := bbit p1 + lft |}).

Fixpoint block_byte (c : cfg) (sp pu : bool) (st : Z) (pp : nat) (p : bpos) (byte : Z) (n : nat)
  : option (Z * nat * bpos) :=
  match n with
  | O => Some (st, pp, p)
  | S n' =>
      ' (st', pp', p') <- block_bit c sp pu st pp p (Z.land byte 1) ;;
      block_byte c sp pu st' pp' p' (Z.shiftr byte 1) n'
  end.

(** convcode.c:916-944 *)
Fixpoint block_partial_i (c : cfg) (sp pu : bool) (st : Z) (pp : nat) (p : bpos)
  (bytes : list Z) (nbits : nat) : option (Z * nat * bpos) :=
  match nbits with
  | O => Some (st, pp, p)
  | _ =>
      match bytes with
      | [] => None
      | b :: r =>
          ' (st', pp', p') <- block_byte c sp pu st pp p b (Nat.min 8 nbits) ;;
          block_partial_i c sp pu st' pp' p' r (nbits - 8)
      end
  end.

Fixpoint block_tail (c : cfg) (sp pu : bool) (st : Z) (pp : nat) (p : bpos) (n : nat)
  : option (Z * nat * bpos) :=
  match n with
  | O => Some (st, pp, p)
  | S n' =>
      ' (st', pp', p') <- block_bit c sp pu st pp p 0 ;;
      block_tail c sp pu st' pp' p' n'
  end.

(** which variant is used: convcode.c:951-959, 967-977, 987-1003 *)
Definition bl_punc (c : cfg) : bool := match cpunc c with [] => false | _ => true end.
Definition bl_span (c : cfg) : bool := negb (bl_punc c) && negb (cnospan c).

(** convcode.c:946-960.  With puncturing the source passes do_bit_span = true,
    which is not looked at then. *)
Definition convencode_block_partial (c : cfg) (e : enc) (p : bpos) (bytes : list Z) (nbits : nat)
  : option (enc * bpos) :=
  ' (st, pp, p') <- block_partial_i c (bl_span c) (bl_punc c) (estate e) (epp e) p bytes nbits ;;
  Some ({| estate := st; eout := eout e; epp := pp |}, p').

(** convcode.c:962-978 *)
Definition convencode_block_final (c : cfg) (e : enc) (p : bpos) : option (enc * bpos) :=
  ' (st, pp, p') <- block_tail c (bl_span c) (bl_punc c) (estate e) (epp e) p (ctail c) ;;
  Some ({| estate := st; eout := eout e; epp := pp |}, p').

(** convcode.c:980-1006: (encoder, output memory, *total_out_bits) *)
Definition convencode_block (c : cfg) (e : enc) (bytes : list Z) (nbits : nat) (outm : list Z)
  : option (enc * list Z * Z) :=
  ' (e1, p1) <- convencode_block_partial c e {| bmem := outm; boff := 0; bbit := 0 |} bytes nbits ;;
  ' (e2, p2) <- convencode_block_final c e1 p1 ;;
  Some (e2, bmem p2, u32 (Z.of_nat (boff p2 * 8 + bbit p2))).

(** ** Decoding one symbol: convcode.c:1008-1402 *)

(** convcode.c:1028-1036 *)
Fixpoint ham_u (u100 : Z) (n : nat) (v1 v2 : Z) (unc : list Z) (i : nat) (rv : Z) : option Z :=
  match n with
  | O => Some rv
  | S n' =>
      u <- mget unc i ;;
      ham_u u100 n' (Z.shiftr v1 1) (Z.shiftr v2 1) unc (S i)
        (u32 (if Z.land v1 1 =? Z.land v2 1 then rv + u else rv + (u100 - u)))
  end.

(** convcode.c:1019-1038 *)
Definition hamming (c : cfg) (v1 v2 : Z) (do_unc : bool) (unc : option (list Z)) : option Z :=
  if do_unc then
    match unc with None => None | Some u => ham_u (cu100 c) (cnp c) v1 v2 u 0 0 end
  else Some (num_bits_set (Z.lxor v1 v2)).

(** convcode.c:1046-1068 *)
Definition get_prev_bit (c : cfg) (pstate cstate : Z) : option Z :=
  if negb (crec c) then Some (Z.land cstate 1)
  else n0 <- zget (fst (cnext c)) pstate ;;
       Some (if n0 =? cstate then 0 else 1).

(** convcode.c:1163-1210: the values of trel[i] and currp[i] *)
Definition decode_one_state (c : cfg) (prev : list Z) (symbol : Z) (unc : option (list Z)) (i : Z)
  : option (Z * Z) :=
  let pstate1 := u16 (Z.shiftr i 1) in
  let pstate2 := u16 (Z.lor pstate1 (Z.shiftl 1 (Z.of_nat (ck c) - 2))) in
  d1 <- zget prev pstate1 ;;
  bit1 <- get_prev_bit c pstate1 i ;;
  _ <- guard ((bit1 <? 2) && (pstate1 <? cnst c)) ;;
  s1 <- zget (tsel (cconv c) bit1) pstate1 ;;
  h1 <- hamming c s1 symbol (cunc c) unc ;;
  let dist1 := u32 (d1 + h1) in
  d2 <- zget prev pstate2 ;;
  bit2 <- get_prev_bit c pstate2 i ;;
  _ <- guard ((bit2 <? 2) && (pstate2 <? cnst c)) ;;
  s2 <- zget (tsel (cconv c) bit2) pstate2 ;;
  h2 <- hamming c s2 symbol (cunc c) unc ;;
  let dist2 := u32 (d2 + h2) in
  if dist2 <? dist1 then Some (pstate_set_bit pstate2 bit2, dist2)
  else Some (pstate_set_bit pstate1 bit1, dist1).

Fixpoint omap {A B} (f : A -> option B) (l : list A) : option (list B) :=
  match l with
  | [] => Some []
  | a :: r => b <- f a ;; bs <- omap f r ;; Some (b :: bs)
  end.

(** convcode.c:1070-1106: -1, 0 or 1 *)
Definition cmp_states (tmp map_ curr : list Z) (s1 s2 : Z) : option Z :=
  t1 <- zget tmp s1 ;;
  t2 <- zget tmp s2 ;;
  m1 <- zget map_ (pstate_val t1) ;;
  m2 <- zget map_ (pstate_val t2) ;;
  d1 <- zget curr s1 ;;
  d2 <- zget curr s2 ;;
  let i1 := negb (pstate_bit m1 =? 0) in
  let i2 := negb (pstate_bit m2 =? 0) in
  Some (if i1 && negb i2 then 1
        else if negb i1 && i2 then -1
        else if d1 <? d2 then -1 else if d2 <? d1 then 1 else 0).

(** convcode.c:1122-1127: index of the smallest entry; [l] is what is left *)
Fixpoint sel_smallest (tmp map_ curr tm : list Z) (n : nat) (j : nat) (smallest : nat) : option nat :=
  match n with
  | O => Some smallest
  | S n' =>
      a <- mget tm j ;;
      b <- mget tm smallest ;;
      r <- cmp_states tmp map_ curr a b ;;
      sel_smallest tmp map_ curr tm n' (S j) (if r <? 0 then j else smallest)
  end.

(** convcode.c:1108-1138: selection sort of the first [n] places *)
Fixpoint sort_tmptrel (tmp map_ curr tm : list Z) (n : nat) (i : nat) : option (list Z) :=
  match n with
  | O => Some tm
  | S n' =>
      s <- sel_smallest tmp map_ curr tm (length tm - S i) (S i) i ;;
      a <- mget tm i ;;
      b <- mget tm s ;;
      tm1 <- mset tm s a ;;
      tm2 <- mset tm1 i b ;;
      sort_tmptrel tmp map_ curr tm2 n' (S i)
  end.

Fixpoint set_map (map_ tm : list Z) (trelw : Z) (i : Z) : option (list Z) :=
  match tm with
  | [] => Some map_
  | v :: r =>
      map' <- zset map_ v (if i <? trelw then u16 i else pstate_set_bit 0 1) ;;
      set_map map' r trelw (i + 1)
  end.

(** convcode.c:1221-1402 (convdecode_symbol_i).  The loop over the states reads
    only prevp and the tables and writes trel[i] and currp[i] in order; it is
    modelled as building both rows and storing them. *)
Definition decode_symbol (c : cfg) (d : dec) (symbol : Z) (unc : option (list Z)) : option dec :=
  row <- omap (decode_one_state c (dprev d) symbol unc) (states (cnst c)) ;;
  let trel := map fst row in
  let curr := map snd row in
  _ <- guard (length (dcurr d) =? length curr)%nat ;;
  if narrow c then
    tmp <- mwrite (dtmp d) 0 trel ;;
    tm <- sort_tmptrel tmp (dmap d) curr (states (cnst c)) (Z.to_nat (ctrelw c)) 0 ;;
    ents <- omap (fun v =>
              e <- zget tmp v ;;
              m <- zget (dmap d) (pstate_val e) ;;
              Some (pstate_set_bit m (pstate_bit e))) (firstn (Z.to_nat (ctrelw c)) tm) ;;
    t <- mwrite (dtrel d) (Z.to_nat (col c (dct d))) ents ;;
    map' <- set_map (dmap d) tm (ctrelw c) 0 ;;
    Some {| dtrel := t; dct := u32 (dct d + 1); dprev := curr; dcurr := dprev d;
            dtmp := tmp; dtmap := tm; dmap := map';
            dlb := dlb d; dlbd := dlbd d; dlu := dlu d; dpp := dpp d; dout := dout d |}
  else
    t <- mwrite (dtrel d) (Z.to_nat (col c (dct d))) trel ;;
    Some {| dtrel := t; dct := u32 (dct d + 1); dprev := curr; dcurr := dprev d;
            dtmp := dtmp d; dtmap := dtmap d; dmap := dmap d;
            dlb := dlb d; dlbd := dlbd d; dlu := dlu d; dpp := dpp d; dout := dout d |}.

(** ** Feeding bits: convcode.c:1493-1667 *)

(** convcode.c:1534-1562.  pos and bit are curr / 8 and curr % 8 throughout.
    [ou] is out_uncertainty up to opos. *)
Fixpoint es_loop (c : cfg) (do_punc : bool) (bytes : list Z) (size : nat)
  (unc : option (list Z)) (nbits curr opos : nat) (v : Z) (ou : list Z) (pp : nat)
  : option (nat * nat * Z * list Z * nat) :=
  match nbits with
  | O => Some (curr, opos, v, ou, pp)
  | S nb =>
      punc <- (if do_punc then x <- mget (cpunc c) pp ;; Some (x =? 0) else Some false) ;;
      if punc then
        es_loop c do_punc bytes size unc nb curr (S opos) v
          (match unc with Some _ => ou ++ [cu100 c / 2] | None => ou end) (pnext c pp)
      else if (curr <? size)%nat then
        byte <- mget bytes (curr / 8)%nat ;;
        ou' <- match unc with
               | Some ul => u <- mget ul curr ;; Some (ou ++ [u])
               | None => Some ou
               end ;;
        es_loop c do_punc bytes size unc nb (S curr) (S opos)
          (Z.lor v (Z.shiftl (Z.land (Z.shiftr byte (Z.of_nat (curr mod 8))) 1) (Z.of_nat opos))
           mod 256)
          ou' (if do_punc then pnext c pp else pp)
      else Some (curr, opos, v, ou, pp)
  end.

Definition dec_upd_left (d : dec) (lb : nat) (lbd : Z) (lu : list Z) (pp : nat) : dec :=
  {| dtrel := dtrel d; dct := dct d; dprev := dprev d; dcurr := dcurr d;
     dtmp := dtmp d; dtmap := dtmap d; dmap := dmap d;
     dlb := lb; dlbd := lbd; dlu := lu; dpp := pp; dout := dout d |}.

(** convcode.c:1505-1579: decoder, new curr, and the symbol with its
    uncertainties if a whole one was found *)
Definition extract_sym (c : cfg) (d : dec) (do_left do_punc : bool) (bytes : list Z) (size : nat)
  (curr : nat) (unc : option (list Z)) : option (dec * nat * option (Z * list Z)) :=
  ' (opos, v, ou, d1) <-
    (if do_left then
       ou <- match unc with Some _ => mread (dlu d) 0 (dlb d) | None => Some [] end ;;
       _ <- guard (dlb d <? cnp c)%nat ;;
       Some (dlb d, dlbd d mod 256, ou, dec_upd_left d 0 0 (dlu d) (dpp d))
     else Some (0%nat, 0, [], d)) ;;
  ' (curr', opos', v', ou', pp') <-
    es_loop c do_punc bytes size unc (cnp c - opos) curr opos v ou (dpp d1) ;;
  if (opos' <? cnp c)%nat then
    lu <- match unc with Some _ => mwrite (dlu d1) 0 ou' | None => Some (dlu d1) end ;;
    Some (dec_upd_left d1 opos' v' lu pp', curr', None)
  else Some (dec_upd_left d1 (dlb d1) (dlbd d1) (dlu d1) pp', curr', Some (v', ou')).

(** convcode.c:1599-1604 etc.: do { symbol } while (extract_sym).  [fuel] is the
    number of trellis columns left plus one: a turn beyond the last column has
    already failed in [decode_symbol]. *)
Fixpoint dd_loop (fuel : nat) (c : cfg) (d : dec) (bytes : list Z) (size : nat) (curr : nat)
  (unc : option (list Z)) (sym : Z) (ou : list Z) : option dec :=
  match fuel with
  | O => None
  | S f =>
      d1 <- decode_symbol c d sym (match unc with Some _ => Some ou | None => None end) ;;
      ' (d2, curr', r) <- extract_sym c d1 false (bl_punc c) bytes size curr unc ;;
      match r with
      | None => Some d2
      | Some (sym', ou') => dd_loop f c d2 bytes size curr' unc sym' ou'
      end
  end.

(** convcode.c:1581-1667: convdecode_data ([unc = None]) and convdecode_data_u *)
Definition convdecode_data (c : cfg) (d : dec) (bytes : list Z) (nbits : nat)
  (unc : option (list Z)) : option dec :=
  ' (d1, curr, r) <- extract_sym c d true (bl_punc c) bytes nbits 0 unc ;;
  match r with
  | None => Some d1
  | Some (sym, ou) =>
      dd_loop (S (S (Z.to_nat (ctsize c)))) c d1 bytes nbits curr unc sym ou
  end.

(** ** Finishing: convcode.c:1669-1750 *)

(** convcode.c:1689-1694; a turn either adds a leftover bit or a column, so
    running out of [fuel] means columns beyond the trellis were used *)
Fixpoint fill_leftover (fuel : nat) (c : cfg) (d : dec) : option dec :=
  if (0 <? dlb d)%nat then
    match fuel with
    | O => None
    | S f =>
        d' <- convdecode_data c d [0] 1 (if cunc c then Some [50] else None) ;;
        fill_leftover f c d'
    end
  else Some d.

(** convcode.c:1713-1732: from column [n] down, storing each bit in row 0 *)
Fixpoint traceback (c : cfg) (t : list Z) (n : nat) (cstate : Z) : option (list Z) :=
  match n with
  | O => Some t
  | S i =>
      e <- trel_get c t (Z.of_nat i) cstate ;;
      t' <- trel_set c t (Z.of_nat i) 0 (pstate_bit e) ;;
      traceback c t' i (pstate_val e)
  end.

(** convcode.c:1735-1740 *)
Fixpoint play (c : cfg) (orc : oracle) (t : list Z) (o : od) (n : nat) (i : Z)
  : option (Z * od) :=
  match n with
  | O => Some (0, o)
  | S n' =>
      e <- trel_get c t i 0 ;;
      ' (rv, o') <- output_bits orc o e 1 ;;
      if negb (rv =? 0) then Some (rv, o') else play c orc t o' n' (i + 1)
  end.

(** convcode.c:1669-1750: (return value, decoder, *total_out_bits, *num_errs) *)
Definition convdecode_finish (c : cfg) (orc : oracle) (d : dec) : option (Z * dec * Z * Z) :=
  if dct d <? Z.of_nat (ctail c) then Some (0, d, ototal (dout d), 0)
  else
    d1 <- (if bl_punc c
           then fill_leftover (S (cnp c) * S (S (Z.to_nat (ctsize c)))) c d else Some d) ;;
    ' (cs, mv) <- min_pos c (dprev d1) ;;
    t <- traceback c (dtrel d1) (Z.to_nat (dct d1)) cs ;;
    ' (rv, o) <- play c orc t (dout d1) (Z.to_nat (dct d1 - Z.of_nat (ctail c))) 0 ;;
    if negb (rv =? 0) then Some (rv, dec_upd_out (dec_upd_trel d1 t) o, 0, 0)
    else Some (0, dec_upd_out (dec_upd_trel d1 t) (od_flush o), ototal o, mv).

(** ** Block decoding: convcode.c:1468-1491, 1752-1986 *)

(** convcode.c:1478-1488 *)
Fixpoint extract_bits_i (fuel : nat) (bytes : list Z) (pos bit : nat) (left opos : nat) (v : Z)
  : option Z :=
  if (8 - bit <=? left)%nat then
    match fuel with
    | O => None
    | S f =>
        b <- mget bytes pos ;;
        extract_bits_i f bytes (S pos) 0 (left - (8 - bit)) (opos + (8 - bit))
          (Z.lor v (Z.shiftl (Z.shiftr b (Z.of_nat bit)) (Z.of_nat opos)))
    end
  else if (0 <? left)%nat then
    b <- mget bytes pos ;;
    Some (Z.lor v (Z.shiftl (Z.shiftr b (Z.of_nat bit)) (Z.of_nat opos)))
  else Some v.

(** convcode.c:1468-1491 *)
Definition extract_bits (bytes : list Z) (curr nbits : nat) : option Z :=
  v <- extract_bits_i nbits bytes (curr / 8) (curr mod 8) nbits 0 0 ;;
  Some (Z.land v (Z.shiftl 1 (Z.of_nat nbits) - 1)).

(** convcode.c:1821-1838: puncturing; [n] is num_polys - j *)
Fixpoint last_sym_punc (c : cfg) (bytes : list Z) (unc : option (list Z)) (n : nat)
  (pp inpos : nat) (sym : Z) (tu : list Z) : option (nat * nat * Z * list Z) :=
  match n with
  | O => Some (pp, inpos, sym, tu)
  | S pos =>
      let pp' := match pp with O => (length (cpunc c) - 1)%nat | S q => q end in
      x <- mget (cpunc c) pp' ;;
      if x =? 0 then
        last_sym_punc c bytes unc pos pp' inpos sym
          (match unc with Some _ => (cu100 c / 2) :: tu | None => tu end)
      else
        match inpos with
        | O => None (* wraps, then reads far outside *)
        | S ip =>
            tu' <- match unc with Some ul => u <- mget ul ip ;; Some (u :: tu) | None => Some tu end ;;
            b <- extract_bits bytes ip 1 ;;
            last_sym_punc c bytes unc pos pp' ip
              (Z.lor sym (Z.shiftl b (Z.of_nat pos)) mod 256) tu'
        end
  end.

(** convcode.c:1841-1843: tmp_uncertainty[j] = uncertainty[--( *inpos)] *)
Fixpoint last_unc (ul : list Z) (n : nat) (inpos : nat) (tu : list Z) : option (nat * list Z) :=
  match n with
  | O => Some (inpos, tu)
  | S n' =>
      match inpos with
      | O => None
      | S ip => u <- mget ul ip ;; last_unc ul n' ip (tu ++ [u])
      end
  end.

(** convcode.c:1808-1849: (dec_puncture_pos, inpos, sym, tmp_uncertainty) *)
Definition last_sym_info (c : cfg) (bytes : list Z) (unc : option (list Z)) (pp inpos : nat)
  : option (nat * nat * Z * list Z) :=
  if bl_punc c then last_sym_punc c bytes unc (cnp c) pp inpos 0 []
  else
    ' (inpos', tu) <-
      match unc with
      | Some ul => last_unc ul (cnp c) inpos []
      | None => _ <- guard (cnp c <=? inpos)%nat ;; Some ((inpos - cnp c)%nat, [])
      end ;;
    sym <- extract_bits bytes inpos' (cnp c) ;;
    Some (pp, inpos', sym, tu).

(** outbytes[i / 8] |= bit << (i % 8) *)
Definition put_bit (m : list Z) (i : nat) (bit : Z) : option (list Z) :=
  x <- mget m (i / 8)%nat ;;
  mset m (i / 8)%nat (Z.lor x (Z.shiftl bit (Z.of_nat (i mod 8))) mod 256).

(** convcode.c:1757-1797 and the loops 1909-1980, column [n] down.  [extra]:
    columns still to be skipped; [ou = None]: output_uncertainty is NULL, and
    then get_last_sym_info is called without uncertainty. *)
Fixpoint back_levels (c : cfg) (t : list Z) (bytes : list Z) (unc : option (list Z)) (n : nat)
  (cstate : Z) (extra : nat) (pp inpos : nat) (cu : Z) (outb : list Z) (ou : option (list Z))
  : option (list Z * option (list Z)) :=
  match n with
  | O => Some (outb, ou)
  | S i =>
      let unc' := match ou with Some _ => unc | None => None end in
      ' (pp', inpos', sym, tu) <- last_sym_info c bytes unc' pp inpos ;;
      e <- trel_get c t (Z.of_nat i) cstate ;;
      let bit := pstate_bit e in
      let pstate := pstate_val e in
      outb' <- (if (extra =? 0)%nat then put_bit outb i bit else Some outb) ;;
      ' (cu', ou') <-
        match ou with
        | None => Some (cu, None)
        | Some l =>
            l' <- (if (extra =? 0)%nat then mset l i cu else Some l) ;;
            s <- zget (tsel (cconv c) bit) pstate ;;
            h <- hamming c s sym (match unc' with Some _ => true | None => false end)
                   (match unc' with Some _ => Some tu | None => None end) ;;
            Some (u32 (cu - h), Some l')
        end ;;
      back_levels c t bytes unc i pstate (extra - 1) pp' inpos' cu' outb' ou'
  end.

(** convcode.c:1851-1986: (decoder, outbytes, output_uncertainty, *num_errs).
    The final dec_puncture_pos is not kept: the next use needs a
    re-initialisation anyway. *)
Definition convdecode_block (c : cfg) (d : dec) (bytes : list Z) (nbits : nat)
  (unc : option (list Z)) (outb : list Z) (ou : option (list Z))
  : option (dec * list Z * option (list Z) * Z) :=
  d1 <- convdecode_data c d bytes nbits unc ;;
  ' (cs, mv) <- min_pos c (dprev d1) ;;
  ' (outb', ou') <- back_levels c (dtrel d1) bytes unc (Z.to_nat (dct d1)) cs (ctail c)
                      (dpp d1) nbits mv outb ou ;;
  Some (d1, outb', ou', mv).

(** convcode.c:2022-2041 *)
Fixpoint last_n_loop (c : cfg) (t : list Z) (n : nat) (j : nat) (cstate : Z) (extra : nat)
  (outb : list Z) : option (list Z) :=
  match n, j with
  | S i, S j' =>
      e <- trel_get c t (Z.of_nat i) cstate ;;
      if (extra =? 0)%nat then
        outb' <- put_bit outb j' (pstate_bit e) ;;
        last_n_loop c t i j' (pstate_val e) 0 outb'
      else last_n_loop c t i j (pstate_val e) (extra - 1) outb
  | _, _ => Some outb
  end.

(** convcode.c:1988-2049: (outbytes, *total_out_bits, *num_errs) *)
Definition convdecode_last_n_block (c : cfg) (d : dec) (outb : list Z) (noutbits : Z)
  : option (list Z * Z * Z) :=
  if dct d <? Z.of_nat (ctail c) then Some (outb, 0, 0)
  else
    let n := Z.min noutbits (dct d - Z.of_nat (ctail c)) in
    ' (cs, mv) <- min_pos c (dprev d) ;;
    outb' <- last_n_loop c (dtrel d) (Z.to_nat (dct d)) (Z.to_nat n) cs (ctail c) outb ;;
    Some (outb', n, mv).
