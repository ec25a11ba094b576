(** What is claimed about the reliable packet layer, in terms of what its two
    users and the network see. *)
From Verif Require Import Base Buffer_Model Relpkt_Model.
Open Scope nat_scope.

(** The bytes a user has been given, the bytes a user's writes accepted. *)
Definition got (e : rend) : list Z := concat (map d_bytes (e_del e)).
Definition wrote (e : rend) : list Z := concat (map fst (e_acc e)).
Definition is_prefix {A} (a b : list A) : Prop := exists c, b = a ++ c.

(** The packet boundaries and end-of-message marks at [b] of what [a] wrote:
    the n-th packet [b] finished reading ends where the n-th accepted write
    of [a] ended, and is marked if that write was to end a message. *)
Definition ends_marked (a b : rend) : Prop :=
  forall dl d rest, e_del b = dl ++ d :: rest -> d_done d = true ->
  exists pre p post, e_acc a = pre ++ p :: post /\ length pre = completed dl /\
    concat (map d_bytes (dl ++ [d])) = concat (map fst (pre ++ [p])) /\
    (snd p = true -> d_eom d = true).

(** A configuration within limits: at most [M] packets in flight. *)
Definition cfg_ok (M : nat) (c : rcfg) : Prop :=
  1 <= rc_maxpkt c <= M /\ (Z.of_nat (rc_maxsz c) <= 65532)%Z.

(** The network only hands over packets put into it: an end gets data from
    outside only by [WNet]. *)
Definition from_net (v : wevent) : Prop :=
  match v with WDo _ (VRecv _ b) => b = [] | _ => True end.

(** A packet sent when its sender had accepted [a] pieces of data and
    delivered [d] packets is still timely if, meanwhile, not too much of the
    sequence space has been used: the receiver of the packet has delivered at
    most [a + (255 - 2M)] packets and the sender of the packet has delivered
    at most [d + (255 - M)]. *)
Definition timely (M : nat) (w : world) (v : wevent) : Prop :=
  match v with
  | WNet s _ i =>
    forall b a d, nth_error (e_out (wend w (wother s))) i = Some (b, (a, d)) ->
      completed (e_del (wend w s)) + 2 * M <= a + 255 /\
      completed (e_del (wend w (wother s))) + M <= d + 255
  | _ => True
  end.
(** A network that may lose, repeat and reorder packets, but not hold one
    back for too long. *)
Fixpoint timely_run (M : nat) (w : world) (evs : list wevent) : Prop :=
  match evs with
  | [] => True
  | v :: evs' =>
    from_net v /\ timely M w v /\ forall w1, wstep w v = Some w1 -> timely_run M w1 evs'
  end.

(** A network that may lose and repeat packets but keeps their order: in each
    direction the numbers of the packets handed over never decrease. *)
Fixpoint in_order (na nb : nat) (evs : list wevent) : Prop :=
  match evs with
  | [] => True
  | v :: evs' =>
    from_net v /\
    match v with
    | WNet SideA _ i => na <= i /\ in_order i nb evs'
    | WNet SideB _ i => nb <= i /\ in_order na i evs'
    | _ => in_order na nb evs'
    end
  end.

(** The state at the start: both ends allocated, nothing sent. *)
Definition start (ca cb : rcfg) : world := (rend_init ca, rend_init cb).

(** In both directions: what was read is a prefix of what was written, and
    the packet boundaries and marks are as they should be. *)
Definition right_order (w : world) : Prop :=
  is_prefix (got (snd w)) (wrote (fst w)) /\ is_prefix (got (fst w)) (wrote (snd w)) /\
  ends_marked (fst w) (snd w) /\ ends_marked (snd w) (fst w).

(** ** One end with any peer *)
Fixpoint rrun (e : rend) (evs : list revent) : option rend :=
  match evs with
  | [] => Some e
  | v :: evs' => e1 <- rend_step e v ;; rrun e1 evs'
  end.
(** The pairs of a resend request, each asking for fewer than 128 packets. *)
Fixpoint short_ranges (l : list Z) : Prop :=
  match l with
  | f :: e :: l' => (u8 (e - f) < 128)%Z /\ short_ranges l'
  | _ => True
  end.
(** Any packet at all, but resend requests have short ranges. *)
Definition sane_packet (v : revent) : Prop :=
  match v with
  | VRecv _ b => bytes_ok b /\ (match b with b0 :: l => Z.shiftr b0 4 = 3%Z -> short_ranges l | [] => True end)
  | _ => True
  end.
