(** Model of the serial port locks, lib/seriallock.c, used by any number of
    processes at once, with the file system they share. *)
From Verif Require Import Base Cstr_Model Heap_Model.
Open Scope Z_scope.

(** ** Names of the lock files *)

(** strncmp(prefix, s, strlen(prefix)) == 0 *)
Fixpoint starts (p s : list Z) : bool :=
  match p, s with
  | [], _ => true
  | x :: p, y :: s => (x =? y) && starts p s
  | _ :: _, [] => false
  end.

(** dev_prefix, seriallock.c:31 *)
Definition dev_prefix : list Z := [47; 100; 101; 118; 47].

(** uucp_fname_lock, seriallock.c:33-61: [lckdir] is uucp_lck_dir.  The size
    given to snprintf there is exactly that of the text and its final NUL, so
    nothing is cut; running out of memory is left out. *)
Definition fname_lock (lckdir devname : list Z) : list Z :=
  let devname := if starts dev_prefix devname then skipn (length dev_prefix) devname else devname in
  lckdir ++ 47 :: map (fun c => if c =? 47 then 95 else c) ([76; 67; 75; 46; 46] ++ devname).

(** "%3.3d" for 0 <= n <= 999 *)
Definition dec3 (n : Z) : list Z := [48 + n / 100; 48 + n / 10 mod 10; 48 + n mod 10].

(** uucp_svr4_lock, seriallock.c:63-104: [None] is GE_INVAL.  maj and min are
    those of the device that is open; fstat does not fail. *)
Definition svr4_lock (lckdir : list Z) (maj min : Z) : option (list Z) :=
  if (999 <? maj) || (999 <? min) then None
  else Some (lckdir ++ [47; 76; 67; 75; 46] ++ dec3 maj ++ [46] ++ dec3 min).

(** ** The process id in the lock file *)

(** the digits of a number that is not negative, at most [n] of them *)
Fixpoint digits (n : nat) (v : Z) : list Z :=
  match n with
  | O => []
  | S n => (if v <? 10 then [] else digits n (v / 10)) ++ [48 + v mod 10]
  end.

(** snprintf(.., "%10ld\n", getpid()), seriallock.c:226-227 *)
Definition fmt_pid (pid : Z) : list Z :=
  let d := digits 10 pid in repeat 32 (10 - length d) ++ d ++ [10].

(** sscanf(.., "%10d", &pid), seriallock.c:178: white space, then at most ten
    characters of a sign and digits.  [None]: no number there. *)
Definition is_ws (c : Z) : bool := (c =? 32) || ((9 <=? c) && (c <=? 13)).
Definition is_dig (c : Z) : bool := (48 <=? c) && (c <=? 57).
Fixpoint skip_ws (s : list Z) : list Z :=
  match s with c :: r => if is_ws c then skip_ws r else s | [] => [] end.
Fixpoint take_num (n : nat) (acc : Z) (seen : bool) (s : list Z) : option Z :=
  match n, s with
  | S n, c :: r => if is_dig c then take_num n (acc * 10 + (c - 48)) true r else if seen then Some acc else None
  | _, _ => if seen then Some acc else None
  end.
(** a value that does not fit the int is cut to it *)
Definition scan10d (s : list Z) : option Z :=
  match skip_ws s with
  | c :: r =>
      if c =? 45 then v <- take_num 9 0 false r ;; Some (wrap_int (- v))
      else if c =? 43 then v <- take_num 9 0 false r ;; Some (wrap_int v)
      else v <- take_num 10 0 false (c :: r) ;; Some (wrap_int v)
  | [] => None
  end.

(** seriallock.c:172-179: the pid read from a file with contents [d]; a binary
    pid is in the byte order of a little-endian machine.  sscanf stops at a NUL. *)
Fixpoint upto_nul (d : list Z) : list Z :=
  match d with c :: r => if c =? 0 then [] else c :: upto_nul r | [] => [] end.
Definition file_pid (d : list Z) : Z :=
  match firstn 63 d with
  | [a; b; c; e] => wrap_int (a + 256 * b + 65536 * c + 16777216 * e)
  | [] => 0
  | l => match scan10d (upto_nul l) with Some v => v | None => 0 end
  end.

(** ** The shared state *)

(** What one user of a serial port does with its lock: the device name and
    numbers, the options, and the process it runs in.  [lc_node] names the file
    that is open, for flock. *)
Record lcfg := mklc { lc_dev : list Z; lc_maj : Z; lc_min : Z; lc_node : nat; lc_uucp : bool; lc_flock : bool; lc_pid : Z }.

(** Where a user is: outside; before the stat of the lock directory; in
    check_lock_file for the first ([false]) or second file before its open, read,
    kill or unlink; before the exclusive create; before write() with what is
    left; before the unlink after a failed write; before link(); before flock();
    before ioctl(TIOCEXCL); holding the lock; in uucp_rm_lock before the first or
    second unlink, with the error serial_mk_lock will return, or [None] when it
    was called by serial_rm_lock; before flock(LOCK_UN). *)
Inductive lpc := LIdle | LStat | LOpen (second : bool) | LRead (second : bool) (ino : nat)
  | LKill (second : bool) (pid : Z) | LUnlink (second : bool) | LCreate | LWrite (ino : nat) (rest : list Z)
  | LWrErr | LLink | LFlock | LExcl | LHeld | LRm1 (k : option Z) | LRm2 (k : option Z) | LUnflock.

(** The names in the directory with the files they stand for; the contents of the
    files; the number of the next file; the process ids that no process has; the
    user having the flock of each file; and for each user where it is and what
    the calls of serial_mk_lock returned so far. *)
Record lsys := mkls { ls_dir : list Z -> option nat; ls_data : nat -> list Z; ls_next : nat; ls_dead : Z -> bool;
                      ls_flk : nat -> option nat; ls_pc : nat -> lpc; ls_res : nat -> list Z }.

Fixpoint leq (a b : list Z) : bool :=
  match a, b with
  | [], [] => true
  | x :: a, y :: b => (x =? y) && leq a b
  | _, _ => false
  end.
Definition upd_name {B} (f : list Z -> B) (n : list Z) (v : B) : list Z -> B := fun m => if leq m n then v else f m.

Definition set_pc s t pc := mkls (ls_dir s) (ls_data s) (ls_next s) (ls_dead s) (ls_flk s) (upd (ls_pc s) t pc) (ls_res s).
Definition set_dir s d := mkls d (ls_data s) (ls_next s) (ls_dead s) (ls_flk s) (ls_pc s) (ls_res s).
Definition set_flk s f := mkls (ls_dir s) (ls_data s) (ls_next s) (ls_dead s) f (ls_pc s) (ls_res s).
Definition unlink s n := set_dir s (upd_name (ls_dir s) n None).

(** the error codes of include/gensio/gensio_err.h used *)
Definition GE_INVAL : Z := 3.
Definition GE_NOTFOUND : Z := 4.
Definition GE_INUSE : Z := 10.
Definition GE_OSERR : Z := 9.

(** Closing the file descriptor drops its flock. *)
Definition drop_flk (cfg : nat -> lcfg) s t :=
  match ls_flk s (lc_node (cfg t)) with
  | Some u => if (u =? t)%nat then set_flk s (upd (ls_flk s) (lc_node (cfg t)) None) else s
  | None => s
  end.

(** serial_mk_lock returns [err]; on an error its caller, sterm_sub_open
    (sergensio_serialdev.c:1069-1072, 1159-1163), closes the device. *)
Definition lreturn cfg s t (err : Z) : lsys :=
  let s := if err =? 0 then set_pc s t LHeld else drop_flk cfg (set_pc s t LIdle) t in
  mkls (ls_dir s) (ls_data s) (ls_next s) (ls_dead s) (ls_flk s) (ls_pc s) (upd (ls_res s) t (ls_res s t ++ [err])).

Section L.
Variable lckdir : list Z.
Variable cfg : nat -> lcfg.

Definition file1 t := fname_lock lckdir (lc_dev (cfg t)).
Definition file2 t := svr4_lock lckdir (lc_maj (cfg t)) (lc_min (cfg t)).
Definition chk_file t (second : bool) : option (list Z) := if second then file2 t else Some (file1 t).

(** seriallock.c:213-217 and 250-257: check_lock_file has returned [pid] *)
Definition checked s t (second : bool) (pid : Z) : lsys :=
  if pid =? 0 then set_pc s t (if second then LCreate else LOpen true)
  else lreturn cfg s t (if pid <? 0 then GE_NOTFOUND else GE_INUSE).

(** seriallock.c:344-353: uucp_mk_lock has returned 0 *)
Definition after_uucp s t : lsys :=
  if lc_flock (cfg t) then set_pc s t LFlock else lreturn cfg s t 0.

(** the end of uucp_rm_lock: back in serial_mk_lock, lines 346-352, or in
    serial_rm_lock, lines 331-334 *)
Definition after_rm s t (k : option Z) : lsys :=
  match k with
  | Some e => lreturn cfg s t e
  | None => set_pc s t (if lc_flock (cfg t) then LUnflock else LIdle)
  end.

(** The start of serial_mk_lock, lines 337-345; UUCP locking is enabled
    (gensio_uucp_locking_enabled). *)
Definition lbegin s t : lsys :=
  if lc_uucp (cfg t) then set_pc s t LStat else after_uucp s t.

(** The start of serial_rm_lock, lines 326-332, and of uucp_rm_lock, 126-137: when
    there are no names nothing is removed. *)
Definition start_rm s t (k : option Z) : lsys :=
  match file2 t with
  | Some _ => set_pc s t (LRm1 k)
  | None => after_rm s t k
  end.
Definition lrelease s t : lsys :=
  if lc_uucp (cfg t) then start_rm s t None else after_rm s t None.

(** One system call of a user.  [r] = 0 is the normal outcome; for the others of
    the system, [r] < 0 makes the call fail with an unrelated error (where the code
    looks at that), and for write() [r] > 0 is the number of bytes taken.
    uucp_mk_lock, seriallock.c:191-259; check_lock_file, 162-189; write_full,
    144-160; flock_mk_lock, 291-309; uucp_rm_lock, 126-142; flock_rm_lock,
    284-289.  The calls of umask and close are left out. *)
Definition lstep s t (r : Z) : lsys :=
  match ls_pc s t with
  | LIdle | LHeld => s
  | LStat =>
      if negb (r =? 0) then lreturn cfg s t GE_NOTFOUND
      else match file2 t with
           | None => lreturn cfg s t GE_INVAL
           | Some _ => set_pc s t (LOpen false)
           end
  | LOpen second =>
      match (if negb (r =? 0) then None else n <- chk_file t second ;; ls_dir s n) with
      | None => checked s t second 0
      | Some ino => set_pc s t (LRead second ino)
      end
  | LRead second ino =>
      let pid := if negb (r =? 0) then 0 else file_pid (ls_data s ino) in
      if 0 <? pid then set_pc s t (LKill second pid) else checked s t second pid
  | LKill second pid => if ls_dead s pid then set_pc s t (LUnlink second) else checked s t second pid
  | LUnlink second =>
      let s := if negb (r =? 0) then s
               else match chk_file t second with Some n => unlink s n | None => s end in
      checked s t second 0
  | LCreate =>
      if negb (r =? 0) then lreturn cfg s t GE_NOTFOUND
      else match ls_dir s (file1 t) with
           | Some _ => lreturn cfg s t GE_NOTFOUND
           | None =>
               mkls (upd_name (ls_dir s) (file1 t) (Some (ls_next s))) (upd (ls_data s) (ls_next s) []) (S (ls_next s)) (ls_dead s)
                    (ls_flk s) (upd (ls_pc s) t (LWrite (ls_next s) (fmt_pid (lc_pid (cfg t))))) (ls_res s)
           end
  | LWrite ino rest =>
      if r <? 0 then set_pc s t LWrErr
      else
        let n := if r =? 0 then length rest else Nat.min (Z.to_nat r) (length rest) in
        let rest' := skipn n rest in
        let s := mkls (ls_dir s) (upd (ls_data s) ino (ls_data s ino ++ firstn n rest)) (ls_next s) (ls_dead s) (ls_flk s) (ls_pc s) (ls_res s) in
        match rest' with
        | [] => set_pc s t LLink
        | _ => set_pc s t (LWrite ino rest')
        end
  | LWrErr => lreturn cfg (unlink s (file1 t)) t GE_NOTFOUND
  | LLink =>
      (* a failure is logged only *)
      let s := if negb (r =? 0) then s
               else match file2 t with
                    | Some n2 => match ls_dir s (file1 t), ls_dir s n2 with
                                 | Some ino, None => set_dir s (upd_name (ls_dir s) n2 (Some ino))
                                 | _, _ => s
                                 end
                    | None => s
                    end in
      after_uucp s t
  | LFlock =>
      if negb (r =? 0) then start_rm s t (Some GE_OSERR)
      else match ls_flk s (lc_node (cfg t)) with
           | Some _ => start_rm s t (Some GE_INUSE)
           | None => set_pc (set_flk s (upd (ls_flk s) (lc_node (cfg t)) (Some t))) t LExcl
           end
  | LExcl => if negb (r =? 0) then start_rm s t (Some GE_OSERR) else lreturn cfg s t 0
  | LRm1 k => set_pc (unlink s (file1 t)) t (LRm2 k)
  | LRm2 k => after_rm (match file2 t with Some n => unlink s n | None => s end) t k
  | LUnflock => set_pc (drop_flk cfg s t) t LIdle
  end.

(** What can happen: a user starts serial_mk_lock, or starts serial_rm_lock,
    makes its next system call, or a process ends, by itself or killed. *)
Inductive lev := VBegin (t : nat) | VRelease (t : nat) | VStep (t : nat) (r : Z) | VEnd (pid : Z).
(** The end of a process closes its files and so drops its flocks. *)
Definition lend s pid : lsys :=
  mkls (ls_dir s) (ls_data s) (ls_next s) (fun p => (p =? pid) || ls_dead s p)
       (fun n => match ls_flk s n with Some u => if lc_pid (cfg u) =? pid then None else Some u | None => None end)
       (fun t => if lc_pid (cfg t) =? pid then LIdle else ls_pc s t) (ls_res s).
Definition lev_run s (e : lev) : lsys :=
  match e with
  | VBegin t => match ls_pc s t with LIdle => if ls_dead s (lc_pid (cfg t)) then s else lbegin s t | _ => s end
  | VRelease t => match ls_pc s t with LHeld => lrelease s t | _ => s end
  | VStep t r => lstep s t r
  | VEnd pid => lend s pid
  end.
Definition lrun s (es : list lev) : lsys := fold_left lev_run es s.
End L.
