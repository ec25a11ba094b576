(** C34: serial port locks exclude.  C79: what a user alone sees.  C80: refusals. *)
From Verif Require Import Base Heap_Model Seriallock_Model Seriallock_Spec Seriallock_Proofs Seriallock_Proofs3 Seriallock_Proofs4.
Open Scope Z_scope.

(** Any number of users, in any interleaving of their system calls, and with any
    of these failing: two that have the lock at the same time and use the same
    lock file are the same.  Missing from C34: processes that are killed while
    they have the lock, or end while somebody looks at a lock file, two names of
    the same device, write() that takes a part only, and users of flock without
    UUCP locks; see the next theorems. *)
Theorem C34_exclusion_partial : forall lckdir cfg s es s' a b,
  ordinary cfg -> clean_start lckdir cfg s -> quiet_run lckdir cfg s es s' ->
  fname_lock lckdir (lc_dev (cfg a)) = fname_lock lckdir (lc_dev (cfg b)) ->
  holds s' a -> holds s' b -> a = b.
Proof. intros lckdir cfg s es s' a b O C R E Ha Hb. exact (exclusion lckdir cfg O s es s' a b C R Ha Hb E). Qed.
Print Assumptions C34_exclusion_partial.

(** ... and while a user has the lock its process lives and its file is there. *)
Theorem C34_file_there : forall lckdir cfg s es s' a,
  ordinary cfg -> clean_start lckdir cfg s -> quiet_run lckdir cfg s es s' -> holds s' a ->
  exists ino, ls_dir s' (fname_lock lckdir (lc_dev (cfg a))) = Some ino /\ ls_dead s' (lc_pid (cfg a)) = false.
Proof. intros lckdir cfg s es s' a O C R. exact (holder_file lckdir cfg O s es s' a C R). Qed.
Print Assumptions C34_file_there.

(** With flock in addition, users of the same device exclude each other in every
    execution: processes killed at any time, writes cut short, lock files removed. *)
Theorem C34_flock_excludes : forall lckdir cfg s es a b, (forall t, ls_pc s t = LIdle) ->
  lc_flock (cfg a) = true -> lc_flock (cfg b) = true -> lc_node (cfg a) = lc_node (cfg b) ->
  holds (lrun lckdir cfg s es) a -> holds (lrun lckdir cfg s es) b -> a = b.
Proof. intros lckdir cfg s es a b I Fa Fb E Ha Hb. exact (flock_excl lckdir cfg s es a b I Ha Hb Fa Fb E). Qed.
Print Assumptions C34_flock_excludes.

(** A holder is killed; two others clear its lock away, one of them clears the
    fresh lock of the other. *)
Theorem C34_stale_refuted : exists es, let s := lrun ldir0 cfg0 sys0 es in holds s 1 /\ holds s 2.
Proof. exact stale_race. Qed.
Print Assumptions C34_stale_refuted.

(** The same with no process killed: each one gives its lock back before it exits,
    and no call fails. *)
Theorem C34_exit_refuted : exists es, all_ev ldir0 cfg0 (orderly cfg0) sys0 es /\
  let s := lrun ldir0 cfg0 sys0 es in holds s 1 /\ holds s 2.
Proof. exact exit_race. Qed.
Print Assumptions C34_exit_refuted.

(** Two names of the same device (same major and minor number), nobody ending and
    no call failing: the failing link() of the second name is only logged. *)
Theorem C34_alias_refuted : exists es,
  Forall (fun e => match e with VStep _ r => r = 0 | VEnd _ => False | _ => True end) es /\
  let s := lrun ldir0 cfg1 sys0 es in holds s 0 /\ holds s 1.
Proof. exact alias_race. Qed.
Print Assumptions C34_alias_refuted.

(** A user of flock alone whose flock fails removes the lock files of others. *)
Theorem C34_flock_removes_refuted : exists es,
  Forall (fun e => match e with VStep _ r => r = 0 | VEnd _ => False | _ => True end) es /\
  let s := lrun ldir0 cfg2 sys0 es in holds s 0 /\ holds s 3.
Proof. exact flock_breaks. Qed.
Print Assumptions C34_flock_removes_refuted.

(** write() takes four bytes and then the others; in between the file is read as
    one with a binary process id. *)
Theorem C34_cut_write_refuted : exists es, Forall cut_ok es /\
  let s := lrun ldir0 cfg0 sys1 es in holds s 0 /\ holds s 1.
Proof. exact cut_write. Qed.
Print Assumptions C34_cut_write_refuted.

(** A user that is alone takes a lock that is free: both names are there, with its
    process id in the usual form, and nothing else changed. *)
Theorem C79_free_taken : forall lckdir cfg t n2 s,
  let n1 := fname_lock lckdir (lc_dev (cfg t)) in
  lc_uucp (cfg t) = true -> lc_flock (cfg t) = false -> 0 <= lc_maj (cfg t) <= 999 ->
  svr4_lock lckdir (lc_maj (cfg t)) (lc_min (cfg t)) = Some n2 ->
  ls_pc s t = LIdle -> ls_dead s (lc_pid (cfg t)) = false -> ls_dir s n1 = None -> ls_dir s n2 = None ->
  let s' := lrun lckdir cfg s (VBegin t :: alone t 6) in
  holds s' t /\ ls_res s' t = ls_res s t ++ [0] /\
  (exists ino, ls_dir s' n1 = Some ino /\ ls_dir s' n2 = Some ino /\ ls_data s' ino = fmt_pid (lc_pid (cfg t))) /\
  (forall m, m <> n1 -> m <> n2 -> ls_dir s' m = ls_dir s m) /\ (forall u, u <> t -> ls_pc s' u = ls_pc s u).
Proof. intros lckdir cfg t n2 s n1 U F M N P D D1 D2. exact (alone_free lckdir cfg t n2 U M N s P D D1 D2 F). Qed.
Print Assumptions C79_free_taken.

(** A lock file of a process that lives, under the name of the device or under its
    numbers, makes the call fail with GE_INUSE, and nothing is changed. *)
Theorem C79_held_refused : forall lckdir cfg t n2 s ino q,
  let n1 := fname_lock lckdir (lc_dev (cfg t)) in
  lc_uucp (cfg t) = true -> svr4_lock lckdir (lc_maj (cfg t)) (lc_min (cfg t)) = Some n2 ->
  ls_pc s t = LIdle -> ls_dead s (lc_pid (cfg t)) = false -> 0 < q < 2 ^ 31 -> ls_dead s q = false ->
  ls_data s ino = fmt_pid q ->
  (ls_dir s n1 = Some ino -> let s' := lrun lckdir cfg s (VBegin t :: alone t 4) in
     ls_pc s' t = LIdle /\ ls_res s' t = ls_res s t ++ [GE_INUSE] /\ ls_dir s' = ls_dir s /\ ls_data s' = ls_data s) /\
  (ls_dir s n1 = None -> ls_dir s n2 = Some ino -> let s' := lrun lckdir cfg s (VBegin t :: alone t 5) in
     ls_pc s' t = LIdle /\ ls_res s' t = ls_res s t ++ [GE_INUSE] /\ ls_dir s' = ls_dir s /\ ls_data s' = ls_data s).
Proof. intros lckdir cfg t n2 s ino q n1 U N. exact (alone_refused lckdir cfg t n2 U N s ino q). Qed.
Print Assumptions C79_held_refused.

(** The lock of a process that has ended is taken over. *)
Theorem C79_stale_taken : forall lckdir cfg t n2 s ino q,
  let n1 := fname_lock lckdir (lc_dev (cfg t)) in
  lc_uucp (cfg t) = true -> lc_flock (cfg t) = false -> 0 <= lc_maj (cfg t) <= 999 ->
  svr4_lock lckdir (lc_maj (cfg t)) (lc_min (cfg t)) = Some n2 ->
  ls_pc s t = LIdle -> ls_dead s (lc_pid (cfg t)) = false -> 0 < q < 2 ^ 31 -> ls_dead s q = true ->
  ls_data s ino = fmt_pid q -> ls_dir s n1 = Some ino -> ls_dir s n2 = Some ino ->
  let s' := lrun lckdir cfg s (VBegin t :: alone t 12) in
  holds s' t /\ ls_res s' t = ls_res s t ++ [0] /\
  (exists ino', ls_dir s' n1 = Some ino' /\ ls_dir s' n2 = Some ino' /\ ls_data s' ino' = fmt_pid (lc_pid (cfg t))) /\
  (forall m, m <> n1 -> m <> n2 -> ls_dir s' m = ls_dir s m).
Proof.
  intros lckdir cfg t n2 s ino q n1 U F M N P D Q Dq E D1 D2.
  exact (alone_stale lckdir cfg t n2 U M N s ino q P D Q Dq E D1 D2 F).
Qed.
Print Assumptions C79_stale_taken.

(** Giving the lock back removes both names and nothing else. *)
Theorem C79_release_removes : forall lckdir cfg t n2 s,
  let n1 := fname_lock lckdir (lc_dev (cfg t)) in
  lc_uucp (cfg t) = true -> lc_flock (cfg t) = false -> 0 <= lc_maj (cfg t) <= 999 ->
  svr4_lock lckdir (lc_maj (cfg t)) (lc_min (cfg t)) = Some n2 -> holds s t ->
  let s' := lrun lckdir cfg s (VRelease t :: alone t 2) in
  ls_pc s' t = LIdle /\ ls_dir s' n1 = None /\ ls_dir s' n2 = None /\ (forall m, m <> n1 -> m <> n2 -> ls_dir s' m = ls_dir s m).
Proof. intros lckdir cfg t n2 s n1 U F M N H. exact (alone_release lckdir cfg t n2 U M N s H F). Qed.
Print Assumptions C79_release_removes.

(** The process id that is written is the one that is read. *)
Theorem C79_pid_read_back : forall pid, 0 < pid < 2 ^ 31 -> file_pid (fmt_pid pid) = pid.
Proof. exact file_pid_fmt. Qed.
Print Assumptions C79_pid_read_back.

(** Somebody who lives is just taking the lock, and gets it: the other user is told
    GE_NOTFOUND, not GE_INUSE. *)
Theorem C80_busy_refuted : exists es, let s := lrun ldir0 cfg0 sys0 es in
  holds s 0 /\ ls_res s 1%nat = [GE_NOTFOUND] /\ forall t, ls_dead s t = false.
Proof. exact busy_notfound. Qed.
Print Assumptions C80_busy_refuted.

(** Two users of the same device overlap, the second one is refused, and after the
    first one has given the lock back and ended, it gets it. *)
Example C34_case : ordinary cfg0 /\ clean_start ldir0 cfg0 sys0 /\
  quiet_run ldir0 cfg0 sys0 lk_events (lrun ldir0 cfg0 sys0 lk_events) /\ holds (lrun ldir0 cfg0 sys0 lk_events) 1 /\
  ls_res (lrun ldir0 cfg0 sys0 lk_events) 1%nat = [GE_INUSE; 0].
Proof. exact lk_case. Qed.
Example C79_case : svr4_lock ldir0 4 64 = Some [47; 108; 47; 76; 67; 75; 46; 48; 48; 52; 46; 48; 54; 52] /\
  fname_lock ldir0 dev0 = [47; 108; 47; 76; 67; 75; 46; 46; 116; 48] /\
  fmt_pid 1234 = [32; 32; 32; 32; 32; 32; 49; 50; 51; 52; 10] /\
  ls_res (lrun ldir0 cfg0 sys0 (VBegin 0 :: alone 0 6 ++ VBegin 1 :: alone 1 4 ++ VEnd 100 :: VBegin 1 :: alone 1 12)) 1%nat = [GE_INUSE; 0].
Proof. vm_compute. auto. Qed.
