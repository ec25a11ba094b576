(** Model of the chardelay filter, lib/gensio_chardelay.c. *)
From Verif Require Import Base Time_Model.
Open Scope nat_scope.

(** struct chardelay_config, lines 20-27 *)
Record cdcfg := mkcc { cc_min : gtime; cc_max : gtime; cc_len : nat; cc_sendon : list (list Z) }.

(** struct chardelay_filter, lines 29-50.  [cd_timer] is the delay the timer
    was last started with, [None] when it is not running. *)
Record cd := mkcd { cd_buf : list Z; cd_pos : nat; cd_ready : bool; cd_first : bool; cd_close : bool;
                    cd_maxend : gtime; cd_spos : list nat; cd_timer : option gtime }.

(** gensio_chardelay_filter_raw_alloc, lines 376-424 (the allocations succeed)
    followed by chardelay_setup, lines 271-277 *)
Definition cd_alloc (c : cdcfg) : cd :=
  mkcd (repeat 0%Z (cc_len c)) 0 false false false (mkt 0 0) (repeat 0 (length (cc_sendon c))) None.

(** chardelay_filter_start_timer, lines 67-104 *)
Definition cd_start_timer (c : cdcfg) (now : gtime) (s : cd) : option cd :=
  ' maxend <- (if cd_first s then Some (cd_maxend s) else time_add now (cc_max c)) ;;
  end_time <- time_add now (cc_min c) ;;
  let end_time := if (time_cmp maxend end_time <? 0)%Z then maxend else end_time in
  d <- time_diff_nsecs end_time now ;;
  delay <- nsecs_to_time d ;;
  Some (mkcd (cd_buf s) (cd_pos s) (cd_ready s) true (cd_close s) maxend (cd_spos s) (Some delay)).

(** chardelay_ul_write, lines 170-259: the loop over the sendon strings, lines
    201-216.  The result is the positions and whether a string was complete. *)
Fixpoint scan_one (son : list (list Z)) (sp : list nat) (ch : Z) : option (list nat * bool) :=
  match son, sp with
  | [], _ => Some (sp, false)
  | so :: son, p :: sp =>
      x <- mget so p ;;
      ' (sp', m) <- scan_one son sp ch ;;
      if (x =? ch)%Z then
        if length so <=? S p then Some (0 :: sp', true) else Some (S p :: sp', m)
      else Some (0 :: sp', m)
  | _ :: _, [] => None
  end.

(** the loop over the characters, line 200: [n] of them from [j] on *)
Fixpoint scan (son : list (list Z)) (sp : list nat) (buf : list Z) (j n : nat) (ready : bool)
  : option (list nat * bool) :=
  match n with
  | O => Some (sp, ready)
  | S n =>
      match son with
      | [] => Some (sp, ready)    (* no string, nothing is read *)
      | _ =>
          ch <- mget buf j ;;
          ' (sp, m) <- scan_one son sp ch ;;
          scan son sp buf (S j) n (ready || m)
      end
  end.

(** the loop over the buffers, lines 182-222.  A buffer is the user's data and
    the memory that follows them, up to where reading faults. *)
Fixpoint cd_fill (c : cdcfg) (s : cd) (count : nat) (sg : list (list Z * list Z)) : option (cd * nat) :=
  match sg with
  | [] => Some (s, count)
  | (d, beyond) :: sg =>
      if cd_pos s <? cc_len c then
        let left := cc_len c - cd_pos s in
        let len := if left <? length d then left else length d in
        ' (sp, rdy) <- scan (cc_sendon c) (cd_spos s) (d ++ beyond) 0 left (cd_ready s) ;;
        x <- mread d 0 len ;;
        buf <- mwrite (cd_buf s) (cd_pos s) x ;;
        cd_fill c (mkcd buf (cd_pos s + len) rdy (cd_first s) (cd_close s) (cd_maxend s) sp (cd_timer s))
                (count + len) sg
      else Some (s, count)
  end.

(** The result of a write: the count ([None] for an error), the bytes the lower
    layer took, and the number of bytes stored. *)
Record cdres := mkcr { cr_count : option nat; cr_sent : list Z; cr_taken : nat }.

(** chardelay_ul_write, lines 170-259.  [a] is the lower layer: an error, with
    sent = 0 as basen_write_data_handler, lib/gensio_base.c:622-639, leaves it,
    or the number of bytes taken. *)
Definition cd_write (c : cdcfg) (now : gtime) (s : cd) (sg : list (list Z * list Z)) (a : option nat)
  : option (cd * cdres) :=
  ' (s, count) <- cd_fill c s 0 sg ;;
  ' (s, out, err) <-
    (if cd_ready s || (cc_len c <=? cd_pos s) then
       d <- mread (cd_buf s) 0 (cd_pos s) ;;
       let sent := match a with Some n => n | None => 0 end in
       let rdy := if (0 <? sent) && negb (cd_close s) then false else cd_ready s in
       let err := match a with Some _ => false | None => true end in
       if cd_pos s <=? sent then
         Some (mkcd (cd_buf s) 0 rdy false (cd_close s) (cd_maxend s) (cd_spos s) (cd_timer s), d, err)
       else
         r <- mread (cd_buf s) sent (cd_pos s - sent) ;;
         b <- mwrite (cd_buf s) 0 r ;;
         Some (mkcd b (cd_pos s - sent) rdy (cd_first s) (cd_close s) (cd_maxend s) (cd_spos s) (cd_timer s),
               firstn sent d, err)
     else Some (s, [], false)) ;;
  let s := mkcd (cd_buf s) (cd_pos s) (cd_ready s) (cd_first s) (cd_close s) (cd_maxend s) (cd_spos s) None in
  s <- (if negb err && (0 <? cd_pos s) && negb (cd_close s) then cd_start_timer c now s else Some s) ;;
  Some (s, mkcr (if err then None else Some count) out count).

(** chardelay_filter_timeout, lines 303-312 *)
Definition cd_timeout (s : cd) : cd :=
  mkcd (cd_buf s) (cd_pos s) true (cd_first s) (cd_close s) (cd_maxend s) (cd_spos s) None.

(** chardelay_try_disconnect, lines 152-168: [true] when done, else GE_RETRY *)
Definition cd_disconnect (s : cd) : cd * bool :=
  if cd_pos s =? 0
  then (mkcd (cd_buf s) (cd_pos s) false (cd_first s) (cd_close s) (cd_maxend s) (cd_spos s) (cd_timer s), true)
  else (mkcd (cd_buf s) (cd_pos s) true (cd_first s) true (cd_maxend s) (cd_spos s) (cd_timer s), false).

(** chardelay_setup, lines 271-277 *)
Definition cd_setup (s : cd) : cd :=
  mkcd (cd_buf s) (cd_pos s) false (cd_first s) false (cd_maxend s) (cd_spos s) (cd_timer s).

Definition cd_held (s : cd) : list Z := firstn (cd_pos s) (cd_buf s).
(** chardelay_ll_write_pending and chardelay_ul_can_write, lines 120-131 *)
Definition cd_pending (s : cd) : bool := cd_ready s && (0 <? cd_pos s).
Definition cd_can_write (c : cdcfg) (s : cd) : bool := cd_pos s <? cc_len c.

Inductive cdop := CWrite (now : gtime) (sg : list (list Z * list Z)) (a : option nat) | CTimeout | CDisconnect.
Fixpoint cd_run (c : cdcfg) (s : cd) (ops : list cdop) : option (cd * list cdres) :=
  match ops with
  | [] => Some (s, [])
  | CWrite now sg a :: ops =>
      ' (s, r) <- cd_write c now s sg a ;;
      ' (s, rs) <- cd_run c s ops ;;
      Some (s, r :: rs)
  | CTimeout :: ops => cd_run c (cd_timeout s) ops
  | CDisconnect :: ops => cd_run c (fst (cd_disconnect s)) ops
  end.
