(** Model of lib/telnet.c and of the data paths of lib/sergensio_telnet.c. *)
From Verif Require Import Base Buffer_Model.
Open Scope Z_scope.

(** Constants, lib/telnet.h:14-22,55. *)
Definition TN_SE := 240.
Definition TN_SB := 250.
Definition TN_WILL := 251.
Definition TN_WONT := 252.
Definition TN_DO := 253.
Definition TN_DONT := 254.
Definition TN_IAC := 255.
Definition MAX_TELNET_CMD_SIZE : nat := 31.

(** The receive part of telnet_data_s, lib/telnet.h:59-71. *)
Record tnrecv := mktn {
  tn_cmd : list Z;        (* telnet_cmd[MAX_TELNET_CMD_SIZE + 1] *)
  tn_pos : nat;           (* telnet_cmd_pos *)
  tn_iac : bool           (* suboption_iac *)
}.

(** telnet_init (memset), lib/telnet.c:299-317. *)
Definition tn_init : tnrecv := mktn (repeat 0 (S MAX_TELNET_CMD_SIZE)) 0 false.

(** Body of the loop of process_telnet_data, lib/telnet.c:187-261, for one
    input byte.  Result: new state, byte appended to outdata (at most one)
    and, when handle_telnet_cmd is called with [size], the command bytes
    telnet_cmd[0..size) it sees.  [None] is an access outside telnet_cmd. *)
Definition tn_byte (td : tnrecv) (b : Z) : option (tnrecv * list Z * option (list Z)) :=
  if (tn_pos td =? 0)%nat then
    if b =? TN_IAC then                                   (* lines 255-257 *)
      m <- mset (tn_cmd td) (tn_pos td) TN_IAC ;;
      Some (mktn m (tn_pos td + 1) false, [], None)
    else Some (td, [b], None)                             (* line 259 *)
  else if (tn_pos td =? 1)%nat && (b =? TN_IAC) then      (* lines 193-199 *)
    Some (mktn (tn_cmd td) 0 (tn_iac td), [b], None)
  else if (tn_pos td =? 1)%nat then                       (* lines 201-209 *)
    m <- mset (tn_cmd td) (tn_pos td) b ;;
    if b <? TN_SB then
      c <- mread m 0 2 ;;
      Some (mktn m 0 (tn_iac td), [], Some c)
    else Some (mktn m 2 (tn_iac td), [], None)
  else if (tn_pos td =? 2)%nat then                       (* lines 210-222 *)
    m <- mset (tn_cmd td) (tn_pos td) b ;;
    c1 <- mget m 1 ;;
    if c1 =? TN_SE then Some (mktn m 0 (tn_iac td), [], None)
    else if negb (c1 =? TN_SB) then
      c <- mread m 0 3 ;;
      Some (mktn m 0 (tn_iac td), [], Some c)
    else Some (mktn m 3 (tn_iac td), [], None)
  else if tn_iac td then                                  (* lines 225-240 *)
    if b =? TN_SE then
      c <- mread (tn_cmd td) 0 (tn_pos td - 1) ;;
      Some (mktn (tn_cmd td) 0 false, [], Some c)
    else if b =? TN_IAC then Some (mktn (tn_cmd td) (tn_pos td) false, [], None)
    else Some (mktn (tn_cmd td) (tn_pos td - 1) false, [], None)
  else                                                    (* lines 241-253 *)
    let p := if (MAX_TELNET_CMD_SIZE <? tn_pos td)%nat then MAX_TELNET_CMD_SIZE else tn_pos td in
    m <- mset (tn_cmd td) p b ;;
    Some (mktn m (p + 1) (b =? TN_IAC), [], None).

(** process_telnet_data, lib/telnet.c:170-267: new state, output bytes, the
    command handled (at most one: the [done] flag), unconsumed input. *)
Fixpoint process_telnet_data (td : tnrecv) (input : list Z) (outlen : nat)
  : option (tnrecv * list Z * option (list Z) * list Z) :=
  match input with
  | [] => Some (td, [], None, [])
  | b :: rest =>
    if (outlen =? 0)%nat then Some (td, [], None, input)
    else
      '(td1, o, c) <- tn_byte td b ;;
      match c with
      | Some _ => Some (td1, o, c, rest)
      | None =>
        '(td2, o2, c2, r2) <- process_telnet_data td1 rest (outlen - length o)%nat ;;
        Some (td2, o ++ o2, c2, r2)
      end
  end.

(** process_telnet_xmit, lib/telnet.c:269-297: output, unprocessed input. *)
Fixpoint process_telnet_xmit (outlen : nat) (input : list Z) : list Z * list Z :=
  match input with
  | [] => ([], [])
  | b :: rest =>
    if b =? TN_IAC then
      if (outlen <? 2)%nat then ([], input)
      else let '(o, r) := process_telnet_xmit (outlen - 2) rest in
           (TN_IAC :: TN_IAC :: o, r)
    else
      if (outlen <? 1)%nat then ([], input)
      else let '(o, r) := process_telnet_xmit (outlen - 1) rest in (b :: o, r)
  end.

(** ** Option negotiation *)

(** struct telnet_cmd, lib/telnet.h:33-53 (handlers: only whether present). *)
Record tncmd := mkcmd {
  c_option : Z;
  c_i_will : bool; c_i_do : bool;
  c_sent_will : bool; c_sent_do : bool;
  c_rem_will : bool; c_rem_do : bool;
  c_has_opt_handler : bool;      (* option_handler != NULL *)
  c_has_wd_handler : bool        (* will_do_handler != NULL *)
}.

(** Callbacks made to the user while handling a command. *)
Inductive tncb :=
| CbCmd (c : Z)                     (* cmd_handler *)
| CbOption (o : list Z)             (* option_handler(option bytes) *)
| CbWillDo (opt c : Z).             (* will_do_handler *)

(** find_cmd, lib/telnet.c:14-24, combined with an update of the entry found.
    The list stands for the array before the 255 end mark (an entry with
    option 255 ends the search, as in the code). *)
Fixpoint find_cmd (cmds : list tncmd) (opt : Z) : option tncmd :=
  match cmds with
  | [] => None
  | c :: r => if c_option c =? 255 then None
              else if c_option c =? opt then Some c else find_cmd r opt
  end.
Fixpoint set_cmd (cmds : list tncmd) (opt : Z) (n : tncmd) : list tncmd :=
  match cmds with
  | [] => []
  | c :: r => if c_option c =? 255 then cmds
              else if c_option c =? opt then n :: r else c :: set_cmd r opt n
  end.

(** send_i, lib/telnet.c:39-47: the three bytes sent. *)
Definition send_i (type opt : Z) : list Z := [TN_IAC; type; opt].

(** handle_telnet_cmd, lib/telnet.c:49-133.  [cmd] are the bytes
    telnet_cmd[0..size).  [ans] answers will_do_handler.  Results: new table,
    messages sent (bytes for telnet_cmd_send), callbacks. *)
Definition handle_telnet_cmd (ans : Z -> Z -> bool) (cmds : list tncmd) (cmd : list Z)
  : list tncmd * list (list Z) * list tncb :=
  match cmd with
  | _ :: c1 :: rest =>
    if c1 <? TN_SB then (cmds, [], [CbCmd c1])
    else match rest with
    | [] => (cmds, [], [])
    | opt :: _ =>
      if c1 =? TN_SB then
        match find_cmd cmds opt with
        | Some c => if c_has_opt_handler c then (cmds, [], [CbOption rest]) else (cmds, [], [])
        | None => (cmds, [], [])
        end
      else if c1 =? TN_WILL then                          (* lines 74-90 *)
        match find_cmd cmds opt with
        | None => (cmds, [send_i TN_DONT opt], [])
        | Some c =>
          let ask := negb (c_i_do c) && c_has_wd_handler c in
          let rv := if ask then ans opt TN_WILL else c_i_do c in
          let ido := if ask then rv else c_i_do c in
          let snd := negb rv || negb (c_sent_do c) in
          (set_cmd cmds opt
             (mkcmd (c_option c) (c_i_will c) ido (c_sent_will c)
                    (if snd then true else c_sent_do c) rv (c_rem_do c)
                    (c_has_opt_handler c) (c_has_wd_handler c)),
           if snd then [send_i (if rv then TN_DO else TN_DONT) opt] else [],
           if ask then [CbWillDo opt TN_WILL] else [])
        end
      else if c1 =? TN_WONT then                          (* lines 91-102 *)
        match find_cmd cmds opt with
        | None => (cmds, [], [])
        | Some c =>
          let snd := c_rem_will c || negb (c_sent_do c) in
          (set_cmd cmds opt
             (mkcmd (c_option c) (c_i_will c) (c_i_do c) (c_sent_will c)
                    (if snd then true else c_sent_do c) false (c_rem_do c)
                    (c_has_opt_handler c) (c_has_wd_handler c)),
           if snd then [send_i TN_DONT opt] else [],
           if c_has_wd_handler c then [CbWillDo opt TN_WONT] else [])
        end
      else if c1 =? TN_DO then                            (* lines 103-119 *)
        match find_cmd cmds opt with
        | None => (cmds, [send_i TN_WONT opt], [])
        | Some c =>
          let ask := c_has_wd_handler c in
          let rv := if ask then ans opt TN_DO else c_i_will c in
          let iwill := if ask then rv else c_i_will c in
          let snd := negb rv || negb (c_sent_will c) in
          (set_cmd cmds opt
             (mkcmd (c_option c) iwill (c_i_do c)
                    (if snd then true else c_sent_will c) (c_sent_do c) (c_rem_will c) rv
                    (c_has_opt_handler c) (c_has_wd_handler c)),
           if snd then [send_i (if rv then TN_WILL else TN_WONT) opt] else [],
           if ask then [CbWillDo opt TN_DO] else [])
        end
      else if c1 =? TN_DONT then                          (* lines 120-132 *)
        match find_cmd cmds opt with
        | None => (cmds, [], [])
        | Some c =>
          let snd := c_rem_do c || negb (c_sent_will c) in
          (set_cmd cmds opt
             (mkcmd (c_option c) (c_i_will c) (c_i_do c)
                    (if snd then true else c_sent_will c) (c_sent_do c) (c_rem_will c) false
                    (c_has_opt_handler c) (c_has_wd_handler c)),
           if snd then [send_i TN_WONT opt] else [],
           if c_has_wd_handler c then [CbWillDo opt TN_DONT] else [])
        end
      else (cmds, [], [])
    end
  | _ => (cmds, [], [])
  end.

(** ** Sending commands *)

(** telnet_cmd_send, lib/telnet.c:26-37: returns the buffer and [error]. *)
Definition telnet_cmd_send (b : buffer) (err : bool) (cmd : list Z) : option (buffer * bool) :=
  '(b1, n) <- buffer_output b cmd ;;
  Some (b1, if (n <? length cmd)%nat then true else err).

(** The escaped length computed in telnet_send_option, lib/telnet.c:142-148. *)
Fixpoint option_real_len (opt : list Z) : nat :=
  match opt with
  | [] => 0%nat
  | b :: r => ((if (b =? TN_IAC)%Z then 2 else 1) + option_real_len r)%nat
  end.

Fixpoint outchars (b : buffer) (l : list Z) : option buffer :=
  match l with
  | [] => Some b
  | c :: r => '(b1, _) <- buffer_outchar b c ;; outchars b1 r
  end.

(** The loop of telnet_send_option, lib/telnet.c:159-163. *)
Fixpoint out_option (b : buffer) (opt : list Z) : option buffer :=
  match opt with
  | [] => Some b
  | c :: r =>
    '(b1, _) <- buffer_outchar b c ;;
    if c =? TN_IAC then
      '(b2, _) <- buffer_outchar b1 c ;; out_option b2 r
    else out_option b1 r
  end.

(** telnet_send_option, lib/telnet.c:135-168. *)
Definition telnet_send_option (b : buffer) (err : bool) (opt : list Z) : option (buffer * bool) :=
  if (buffer_left b <? option_real_len opt + 4)%nat then Some (b, true)
  else
    b1 <- outchars b [TN_IAC; TN_SB] ;;
    b2 <- out_option b1 opt ;;
    b3 <- outchars b2 [TN_IAC; TN_SE] ;;
    Some (b3, err).

(** ** Transmit side of the telnet filter, lib/sergensio_telnet.c *)

(** enum telnet_write_state, lines 49-53. *)
Inductive wstate := NOT_WRITING | IN_TN_WRITE | IN_USER_WRITE.

(** Transmit part of struct telnet_filter, lines 55-104.  [tx_data] holds
    write_data[write_data_pos .. +write_data_len). *)
Record tntx := mktx {
  tx_cmdbuf : buffer;         (* tn_data.out_telnet_cmd *)
  tx_err : bool;              (* tn_data.error *)
  tx_state : wstate;
  tx_data : list Z;
  tx_max : nat                (* max_write_size *)
}.

(** The gather loop of telnet_ul_write, lines 255-271: stops after the first
    buffer from which something was taken.  Returns the escaped data and the
    number of user bytes taken. *)
Fixpoint tx_gather (max : nat) (sg : list (list Z)) (cur : list Z) : list Z * nat :=
  match sg with
  | [] => (cur, 0%nat)
  | buf :: sg' =>
    let '(o, r) := process_telnet_xmit max buf in
    if negb (length r =? length buf)%nat then (o, (length buf - length r)%nat)
    else tx_gather max sg' o
  end.

(** telnet_ul_write, lines 240-313.  [h] answers telnet_buffer_do_write for
    command data, [h2] the handler call for user data.  Results: new state,
    error flag, user bytes taken (rcount), bytes accepted by the lower layer. *)
Definition telnet_ul_write (h h2 : handler) (t : tntx) (sg : list (list Z))
  : option (tntx * bool * nat * list Z) :=
  let '(data, taken) :=
    if negb (length (tx_data t) =? 0)%nat then (tx_data t, 0%nat)
    else tx_gather (tx_max t) sg [] in
  let t := mktx (tx_cmdbuf t) (tx_err t) (tx_state t) data (tx_max t) in
  (* lines 273-287 *)
  '(t, err, out1) <-
    (if (match tx_state t with IN_USER_WRITE => false | _ => true end) &&
        negb (buffer_cursize (tx_cmdbuf t) =? 0)%nat
     then
       '(b1, e, o) <- buffer_write h (tx_cmdbuf t) ;;
       if e : bool then Some (mktx (buffer_reset b1) (tx_err t) (tx_state t) [] (tx_max t), true, o)
       else Some (mktx b1 (tx_err t)
                       (if negb (buffer_cursize b1 =? 0)%nat then IN_TN_WRITE else NOT_WRITING)
                       (tx_data t) (tx_max t), false, o)
     else Some (t, false, [])) ;;
  (* lines 289-309 *)
  if (match tx_state t with IN_TN_WRITE => false | _ => true end) &&
     negb (length (tx_data t) =? 0)%nat
  then
    match h2 (tx_data t) with
    | None => Some (mktx (buffer_reset (tx_cmdbuf t)) (tx_err t) (tx_state t) [] (tx_max t),
                    true, taken, out1)
    | Some n =>
      if (length (tx_data t) <=? n)%nat
      then Some (mktx (tx_cmdbuf t) (tx_err t) NOT_WRITING [] (tx_max t), false, taken,
                 out1 ++ tx_data t)
      else Some (mktx (tx_cmdbuf t) (tx_err t) IN_USER_WRITE (skipn n (tx_data t)) (tx_max t),
                 false, taken, out1 ++ firstn n (tx_data t))
    end
  else Some (t, err, taken, out1).

(** ** Receive side of the telnet filter, lib/sergensio_telnet.c *)

(** Receive part of struct telnet_filter.  [rx_data] holds
    read_data[read_data_pos .. +read_data_len). *)
Record tnrx := mkrx { rx_td : tnrecv; rx_data : list Z; rx_max : nat }.

(** telnet_ll_write, lines 315-413, for ordinary (not out-of-band) data; the
    urgent-data search of lines 352-373 is not modelled (in_urgent = 0).
    Results: state, error flag, consumed count, delivered bytes, command
    handled. *)
Definition telnet_ll_write (h : handler) (r : tnrx) (buf : list Z)
  : option (tnrx * bool * nat * list Z * option (list Z)) :=
  '(r, cnt, cmd) <-
    (if negb (length (rx_data r) =? 0)%nat || (length buf =? 0)%nat
     then Some (r, 0%nat, None)
     else
       '(td, o, c, rest) <- process_telnet_data (rx_td r) buf (rx_max r) ;;
       Some (mkrx td o (rx_max r), (length buf - length rest)%nat, c)) ;;
  if (length (rx_data r) =? 0)%nat then Some (r, false, cnt, [], cmd)
  else
    match h (rx_data r) with
    | None => Some (r, true, cnt, [], cmd)
    | Some n =>
      if (length (rx_data r) <=? n)%nat
      then Some (mkrx (rx_td r) [] (rx_max r), false, cnt, rx_data r, cmd)
      else Some (mkrx (rx_td r) (skipn n (rx_data r)) (rx_max r), false, cnt,
                 firstn n (rx_data r), cmd)
    end.

(** ** Window size control, lib/sergensio_telnet.c:597-613: the bytes passed
    to telnet_filter_send_cmd for height and width. *)
Definition naws_bytes (height width : Z) : list Z :=
  [TN_IAC; TN_SB; 31; (width / 256) mod 256; width mod 256;
   (height / 256) mod 256; height mod 256; TN_IAC; TN_SE].

(** ** Histories of the filter (used to state the properties) *)

(** gensio_telnet_filter_raw_alloc, lib/sergensio_telnet.c:741-800, and
    telnet_init, lib/telnet.c:299-317: [cmdmem] is out_telnet_cmdbuf.  The
    initial negotiation commands are ordinary [TxCmd] steps. *)
Definition tx_init (cmdmem : list Z) (max : nat) : tntx :=
  mktx (buffer_init cmdmem) false NOT_WRITING [] max.
Definition rx_init (max : nat) : tnrx := mkrx tn_init [] max.

(** What can happen on the sending side.  [TxCmd] is telnet_cmd_send (used
    through send_i and telnet_filter_send_cmd), [TxOpt] telnet_send_option. *)
Inductive txop :=
| TxWrite (h h2 : handler) (sg : list (list Z))
| TxCmd (cmd : list Z)
| TxOpt (opt : list Z).

(** One step: new state, user bytes accepted, bytes written to the lower
    layer, error returned. *)
Definition tx_step (t : tntx) (o : txop) : option (tntx * list Z * list Z * bool) :=
  match o with
  | TxWrite h h2 sg =>
    '(t1, e, n, out) <- telnet_ul_write h h2 t sg ;;
    Some (t1, firstn n (concat sg), out, e)
  | TxCmd cmd =>
    '(b, e) <- telnet_cmd_send (tx_cmdbuf t) (tx_err t) cmd ;;
    Some (mktx b e (tx_state t) (tx_data t) (tx_max t), [], [], false)
  | TxOpt opt =>
    '(b, e) <- telnet_send_option (tx_cmdbuf t) (tx_err t) opt ;;
    Some (mktx b e (tx_state t) (tx_data t) (tx_max t), [], [], false)
  end.

(** A history, stopping at the first error: (state, accepted, written, error). *)
Fixpoint tx_run (t : tntx) (ops : list txop) : option (tntx * list Z * list Z * bool) :=
  match ops with
  | [] => Some (t, [], [], false)
  | o :: r =>
    '(t1, a1, o1, e1) <- tx_step t o ;;
    if e1 : bool then Some (t1, a1, o1, true)
    else
      '(t2, a2, o2, e2) <- tx_run t1 r ;;
      Some (t2, a1 ++ a2, o1 ++ o2, e2)
  end.

(** Receiving side: the lower layer offers a prefix ([n] bytes) of what is
    left of the stream [s]; unconsumed bytes stay in the stream.  Results:
    state, rest of stream, delivered bytes, commands handled. *)
Fixpoint rx_run (r : tnrx) (s : list Z) (ops : list (handler * nat))
  : option (tnrx * list Z * list Z * list (list Z)) :=
  match ops with
  | [] => Some (r, s, [], [])
  | (h, n) :: ops' =>
    '(r1, _, cnt, d, c) <- telnet_ll_write h r (firstn n s) ;;
    '(r2, s2, ds, cs) <- rx_run r1 (skipn cnt s) ops' ;;
    Some (r2, s2, d ++ ds, match c with Some x => x :: cs | None => cs end)
  end.

(** ** Two endpoints negotiating.  Channels hold commands in flight (the
    command bytes the peer's decoder will hand to handle_telnet_cmd). *)
Record nego := mknego {
  ng_a : list tncmd; ng_b : list tncmd;
  ng_ab : list (list Z); ng_ba : list (list Z)
}.

(** Delivery of the oldest command of one direction; [ans] is whatever the
    user's will_do_handler answers this time. *)
Inductive nstep : nego -> nego -> Prop :=
| ns_ab ans a b m ab ba b' snd cbs :
    handle_telnet_cmd ans b m = (b', snd, cbs) ->
    nstep (mknego a b (m :: ab) ba) (mknego a b' ab (ba ++ snd))
| ns_ba ans a b m ab ba a' snd cbs :
    handle_telnet_cmd ans a m = (a', snd, cbs) ->
    nstep (mknego a b ab (m :: ba)) (mknego a' b (ab ++ snd) ba).

Inductive nrun : nat -> nego -> nego -> Prop :=
| nr_0 s : nrun 0 s s
| nr_S n s1 s2 s3 : nstep s1 s2 -> nrun n s2 s3 -> nrun (S n) s1 s3.
