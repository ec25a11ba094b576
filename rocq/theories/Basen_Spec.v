(** What a user of a gensio may rely on, in terms of what is seen from outside:
    the list of events (newest first), and what is still going on. *)
From Verif Require Import Base Basen_Model.

(** how many events of a kind there were *)
Definition nr (p : obs -> bool) (tr : list obs) : nat := length (filter p tr).
Definition e_open (o : obs) : bool := match o with OUOpen => true | _ => false end.
Definition e_open_done (o : obs) : bool := match o with OOpenDone _ => true | _ => false end.
Definition e_close_cb (o : obs) : bool := match o with OUClose true => true | _ => false end.
Definition e_close_done (o : obs) : bool := match o with OCloseDone => true | _ => false end.
Definition e_freed (o : obs) : bool := match o with OFreed => true | _ => false end.
Definition e_free (o : obs) : bool := match o with OUFree => true | _ => false end.
Definition e_end (o : obs) : bool := match o with OUClose _ | OUFree => true | _ => false end.
Definition e_read (o : obs) : bool := match o with ORead => true | _ => false end.
Definition e_data (o : obs) : bool := match o with ORead | OWrite => true | _ => false end.

(** No thread is inside the object, nothing is queued for the runner, no timer
    runs or is being stopped, and the layer below is not in the middle of opening
    or closing. *)
Definition idle (s : bd) : Prop :=
  b_fr s = [] /\ b_dpend s = false /\ b_tm s = TIdle /\ b_dr s = TIdle /\ (b_ll s = LLClosed \/ b_ll s = LLOpen).
(** and the object does not wait for its filter to connect, to disconnect or to
    send its data *)
Definition at_rest (s : bd) : Prop :=
  idle s /\ (b_st s <> B_FILTER_OPEN /\ b_st s <> B_FILTER_CLOSE /\ b_st s <> B_DRAIN).

(** The environment keeps to what it promises. *)
Definition usual (c : bcfg) : Prop :=
  c_dbl c = false /\ c_late c = false /\ c_imm c = false /\ c_slow c = false /\ c_nochild c = false /\ c_enany c = false.

(** the last of the open and close_done events was a close_done *)
Fixpoint over (tr : list obs) : bool :=
  match tr with OCloseDone :: _ => true | OUOpen :: _ => false | _ :: tr => over tr | [] => false end.
(** no READ or WRITE_READY between a close_done and the next open *)
Fixpoint no_late_data (tr : list obs) : Prop :=
  match tr with [] => True | o :: t => no_late_data t /\ (e_data o = true -> over t = false) end.

(** frames that are inside, or about to enter, the user's READ and WRITE_READY
    callback *)
Definition in_read (k : fkind * bool) : bool := match fst k with FDReadErr | FDRead | FLRead => true | _ => false end.
Definition in_write (k : fkind * bool) : bool :=
  match k with (FDWrite, true) | (FLReadW, true) | (FLWrite, true) => true | _ => false end.
(** frames that have found that the user's READ callback is enabled, and go on
    to call it *)
Definition read_coming (k : fkind * bool) : bool :=
  match k with (FDReadErr, false) | (FDRead, true) | (FLRead, true) => true | _ => false end.
(** a call of open, or one that enables the READ callback *)
Definition reopens (e : bev) : bool := match e with UOpen | UOpenNC | USetRead true => true | _ => false end.
