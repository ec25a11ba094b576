(** Specification of the msgdelim wire format and of what a user sees,
    independent of the filter code. *)
From Verif Require Import Base Crc_Model.
Open Scope Z_scope.

(** A data byte 254 is sent as 254 0; 254 1 separates messages. *)
Definition md_escape (d : list Z) : list Z :=
  flat_map (fun b => if b =? 254 then [254; 0] else [b]) d.
Definition md_sep : list Z := [254; 1].
(** With CRC, two bytes follow the message, high byte first. *)
Definition md_body (crc : bool) (m : list Z) : list Z :=
  if crc then m ++ [Z.shiftr (crc16 m 0) 8; Z.land (crc16 m 0) 255] else m.
Definition md_frame (crc : bool) (m : list Z) : list Z := md_escape (md_body crc m) ++ md_sep.
Definition md_frames (crc : bool) (ms : list (list Z)) : list Z := concat (map (md_frame crc) ms).
Definition md_stream (crc : bool) (ms : list (list Z)) : list Z := md_sep ++ md_frames crc ms.

(** What a user makes of deliveries: pieces up to an end mark form a
    message; the last component is the unfinished piece. *)
Fixpoint reassemble (ds : list (list Z * bool)) (acc : list Z) : list (list Z) * list Z :=
  match ds with
  | [] => ([], acc)
  | (d, true) :: ds' => let (ms, l) := reassemble ds' [] in ((acc ++ d) :: ms, l)
  | (d, false) :: ds' => reassemble ds' (acc ++ d)
  end.

(** Bytes that contain no separator: anything but 254, and 254 x, x <> 1. *)
Inductive no_sep : list Z -> Prop :=
| ns_nil : no_sep []
| ns_byte b l : b <> 254 -> no_sep l -> no_sep (b :: l)
| ns_cmd x l : x <> 1 -> no_sep l -> no_sep (254 :: x :: l).

(** The messages a user sent: the data of the writes for which the count
    reported covers the (non-empty) data. *)
Fixpoint accepted (ws : list (list Z)) (counts : list (option nat)) : list (list Z) :=
  match ws, counts with
  | d :: ws', Some n :: cs' =>
    if (0 <? length d)%nat && (n =? length d)%nat then d :: accepted ws' cs' else accepted ws' cs'
  | _ :: ws', None :: cs' => accepted ws' cs'
  | _, _ => []
  end.

(** No write was refused before the first message was accepted. *)
Fixpoint first_not_refused (ws : list (list Z)) (counts : list (option nat)) : Prop :=
  match ws, counts with
  | d :: ws', Some n :: cs' =>
    if (0 <? length d)%nat && (n =? length d)%nat then True else first_not_refused ws' cs'
  | _ :: ws', None :: cs' => False
  | _, _ => True
  end.
