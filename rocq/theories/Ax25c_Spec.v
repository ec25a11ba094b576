(** What is asked of the connected mode of AX.25, in terms of what the users see. *)
From Verif Require Import Base Ax25c_Model.
Open Scope Z_scope.

(** A configuration that the gensio accepts (lib/gensio_ax25.c:5257-5291) and that fits the 16 bit
    lengths of its packets. *)
Definition good_conf (cf : conf) : Prop :=
  1 <= f_rw cf <= 127 /\ 1 <= f_ww cf <= 127 /\ 0 <= f_mrs cf < 65536 /\ 0 <= f_mws cf < 65536 /\ 0 <= f_retries cf.

(** In addition: two packets may be under way, and a UA that was not asked for is ignored (the
    default). *)
Definition safe_conf (cf : conf) : Prop := good_conf cf /\ 2 <= f_ww cf /\ f_igua cf = true.

Definition is_xid (f : frame) : Prop :=
  match snd f with b :: _ => Z.land b 3 = 3 /\ Z.land b 239 = X_XID | [] => False end.

(** The information field of an XID frame as this program makes it. *)
Definition own_xid (f : frame) : Prop :=
  exists cf, good_conf cf /\ tl (snd f) = format_xid cf.

(** Buffers given to a write: only the last of them reaches beyond what one packet takes. *)
Definition sg_fits (cf : conf) (sg : list (list Z)) : Prop :=
  Z.of_nat (length (concat (removelast sg))) <= f_mws cf /\ Z.of_nat (length (concat (removelast sg))) <= 256 /\
  Z.of_nat (length (concat sg)) < 18446744073709551616.

(** Events that the user and the peer may cause: any frame of bytes but an XID not made by this
    program, any write that fits, and read events that return no error. *)
Definition calm (cf : conf) (e : event) : Prop :=
  match e with
  | EWrite _ sg => sg_fits cf sg
  | ERet _ e => e = 0
  | ERecv f => bytes_ok (snd f) /\ (is_xid f -> own_xid f)
  | _ => True
  end.

(** What is written and what is read, oldest first: packets with their pid.  A read may take a part
    of a packet only, and gets the rest of it next. *)
Definition pkt := (Z * list Z)%type.
Definition wrote (l : list aobs) : list pkt := flat_map (fun o => match o with OWrote p d => [(p, d)] | _ => [] end) (rev l).
Definition got (l : list aobs) : list pkt := flat_map (fun o => match o with OGot p d => [(p, d)] | _ => [] end) (rev l).

(** [eat q x]: the bytes [x] are the next of the packets [q], and this is what is left. *)
Definition eat (q : list pkt) (x : pkt) : option (list pkt) :=
  match q with
  | [] => None
  | (p, d) :: t =>
      if (p =? fst x) && (if list_eq_dec Z.eq_dec (snd x) (firstn (length (snd x)) d) then true else false) then
        Some (if (length (snd x) <? length d)%nat then (p, skipn (length (snd x)) d) :: t else t)
      else None
  end.
Fixpoint eats (q : list pkt) (l : list pkt) : option (list pkt) :=
  match l with
  | [] => Some q
  | x :: t => match eat q x with Some q => eats q t | None => None end
  end.

(** The reads of one user are the writes of the other: in order, none left out, none twice, each with
    its pid, up to those still to come. *)
Definition in_order (w r : chan) : Prop := exists rest, eats (wrote (tr w)) (got (tr r)) = Some rest.

(** The same for the events of two channels over a link; the frames are those of the other side. *)
Definition pair_calm (ca cb : conf) (e : pevent) : Prop :=
  match e with PA e => calm ca e | PB e => calm cb e | _ => True end.

(** One side opens the connection, the other has an accepter and no channel yet. *)
Definition call (ca : conf) : pair := mkpair (opening ca) (chan0 SNone) [] [].
