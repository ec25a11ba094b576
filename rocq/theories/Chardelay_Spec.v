(** What the chardelay filter promises. *)
From Verif Require Import Base Time_Model Time_Spec Chardelay_Model.
Open Scope nat_scope.

(** The bytes the filter took from the user, going by the numbers stored *)
Fixpoint accepted (ops : list cdop) (rs : list cdres) : list Z :=
  match ops, rs with
  | CWrite _ sg _ :: ops, r :: rs => firstn (cr_taken r) (concat (map fst sg)) ++ accepted ops rs
  | CWrite _ _ _ :: _, [] => []
  | _ :: ops, _ => accepted ops rs
  | [], _ => []
  end.

(** Legal configurations: up to 68 years, sendon strings are not empty. *)
Definition time_ok (t : gtime) : Prop := well_formed t /\ (0 <= t_secs t < 2 ^ 31)%Z.
Definition cfg_ok (c : cdcfg) : Prop :=
  time_ok (cc_min c) /\ time_ok (cc_max c) /\ Forall (fun so => so <> []) (cc_sendon c).

(** The clock reads sensibly, and where there are sendon strings as many bytes
    can be read from every buffer as the filter's has. *)
Definition op_ok (c : cdcfg) (o : cdop) : Prop :=
  match o with
  | CWrite now sg _ => time_ok now /\ (cc_sendon c = [] \/ Forall (fun d => cc_len c <= length (fst d ++ snd d)) sg)
  | _ => True
  end.

(** When the bytes held were accepted, and since when bytes have been held
    without a break: both from the calls and their results only. *)
Definition stamps_step (st : list gtime) (now : gtime) (r : cdres) : list gtime :=
  skipn (length (cr_sent r)) (st ++ repeat now (cr_taken r)).
Definition since_step (st' : list gtime) (since : option gtime) (now : gtime) : option gtime :=
  match st' with
  | [] => None
  | _ => match since with None => Some now | _ => since end
  end.
Fixpoint stamps (st : list gtime) (since : option gtime) (ops : list cdop) (rs : list cdres)
  : list gtime * option gtime :=
  match ops, rs with
  | CWrite now _ _ :: ops, r :: rs =>
      let st' := stamps_step st now r in stamps st' (since_step st' since now) ops rs
  | CWrite _ _ _ :: _, [] => (st, since)
  | _ :: ops, _ => stamps st since ops rs
  | [], _ => (st, since)
  end.

(** The clock does not go back, the first reading is not before [t]; the lower layer does
    not fail; the connection is not closed. *)
Fixpoint steady (t : Z) (ops : list cdop) : Prop :=
  match ops with
  | [] => True
  | CWrite now _ a :: ops => (t <= total now)%Z /\ a <> None /\ steady (total now) ops
  | CTimeout :: ops => steady t ops
  | CDisconnect :: _ => False
  end.
