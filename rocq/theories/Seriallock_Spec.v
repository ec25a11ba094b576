(** What users of the serial port locks rely on. *)
From Verif Require Import Base Seriallock_Model.
Open Scope Z_scope.

(** A user holds the lock from the time serial_mk_lock returned 0 until it calls
    serial_rm_lock. *)
Definition holds (s : lsys) (t : nat) : Prop := ls_pc s t = LHeld.

(** All users ask for the UUCP lock, of a device whose numbers fit the name, and
    run in processes whose ids are those of an int. *)
Definition ordinary (cfg : nat -> lcfg) : Prop :=
  forall t, lc_uucp (cfg t) = true /\ 0 <= lc_maj (cfg t) <= 999 /\ 0 <= lc_min (cfg t) <= 999 /\
            0 < lc_pid (cfg t) < 2 ^ 31.

(** No lock file there at the start, nobody busy. *)
Definition clean_start (lckdir : list Z) (cfg : nat -> lcfg) (s : lsys) : Prop :=
  (forall t, ls_pc s t = LIdle) /\
  (forall t, ls_dir s (fname_lock lckdir (lc_dev (cfg t))) = None) /\
  (forall t n, svr4_lock lckdir (lc_maj (cfg t)) (lc_min (cfg t)) = Some n -> ls_dir s n = None).

(** Some user has opened a lock file and not yet decided what to do with it. *)
Definition looking (pc : lpc) : Prop :=
  match pc with LRead _ _ | LKill _ _ | LUnlink _ => True | _ => False end.

(** The conditions under which the lock works: a write() takes all of the eleven
    bytes or fails, and a process only ends while it has no lock and no call
    under way, and while nobody is looking at a lock file. *)
Definition quiet (cfg : nat -> lcfg) (s : lsys) (e : lev) : Prop :=
  match e with
  | VStep _ r => r <= 0
  | VEnd pid => (forall t, lc_pid (cfg t) = pid -> ls_pc s t = LIdle) /\ forall t, ~ looking (ls_pc s t)
  | _ => True
  end.
Inductive quiet_run (lckdir : list Z) (cfg : nat -> lcfg) : lsys -> list lev -> lsys -> Prop :=
| quiet_nil s : quiet_run lckdir cfg s [] s
| quiet_cons s e es s' : quiet cfg s e -> quiet_run lckdir cfg (lev_run lckdir cfg s e) es s' ->
    quiet_run lckdir cfg s (e :: es) s'.

(** [t] makes its system calls with nothing else happening; all go normally. *)
Definition alone (t : nat) (n : nat) : list lev := repeat (VStep t 0) n.
