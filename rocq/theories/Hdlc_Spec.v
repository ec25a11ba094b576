(** Specification of HDLC framing on bit strings. *)
From Verif Require Import Base Crc_Spec.

Definition hdlc_flag : list bool := [false; true; true; true; true; true; true; false].

(** Zero insertion: between five ones in a row and whatever data bit follows.
    [n] counts the ones just sent. *)
Fixpoint stuff (n : nat) (bits : list bool) : list bool :=
  match bits with
  | [] => []
  | b :: bits' =>
    (if (n =? 5)%nat then [false] else []) ++
    b :: stuff (if b then (if (n =? 5)%nat then 1%nat else S n) else 0%nat) bits'
  end.

(** Zero removal, the standard receiver: drop the bit after five ones (it
    must be zero). *)
Fixpoint unstuff (n : nat) (bits : list bool) : option (list bool) :=
  match bits with
  | [] => Some []
  | b :: bits' =>
    if (n =? 5)%nat then (if b then None else unstuff 0%nat bits')
    else option_map (cons b) (unstuff (if b then S n else 0%nat) bits')
  end.

(** [m] packet bytes (with trailer), bits lowest first. *)
Definition hdlc_frame (pre post : nat) (m : list Z) : list bool :=
  concat (repeat hdlc_flag pre) ++ stuff 0%nat (lsb_bits m) ++ concat (repeat hdlc_flag post).

(** What the user makes of deliveries: a list of (bytes, end of packet). *)
Fixpoint hdlc_reassemble (ds : list (list Z * bool)) (acc : list Z) : list (list Z) * list Z :=
  match ds with
  | [] => ([], acc)
  | (d, true) :: ds' => let (ms, l) := hdlc_reassemble ds' [] in ((acc ++ d) :: ms, l)
  | (d, false) :: ds' => hdlc_reassemble ds' (acc ++ d)
  end.
