(** Legal AX.25 addresses and the texts for them, without reference to the
    functions of the model. *)
From Verif Require Import Base Ax25a_Model.
Open Scope Z_scope.

Definition upper_case (c : Z) : Prop := 65 <= c <= 90.
Definition lower_case (c : Z) : Prop := 97 <= c <= 122.
Definition digit (c : Z) : Prop := 48 <= c <= 57.

(** A callsign: one to six capital letters and digits *)
Definition callsign (cs : list Z) : Prop :=
  (1 <= length cs <= 6)%nat /\ Forall (fun c => upper_case c \/ digit c) cs.
(** What the wire can carry: at most six characters of 7 bits, no blank *)
Definition wire_name (cs : list Z) : Prop :=
  (length cs <= 6)%nat /\ Forall (fun c => 1 <= c < 128 /\ c <> 32) cs.

(** An array of 7 characters holding a string *)
Definition holds (call cs : list Z) : Prop := call = cs ++ repeat 0 (7 - length cs).

Definition fields_ok (a : subaddr) : Prop := 0 <= sa_ssid a < 16 /\ 0 <= sa_ch a < 2.
Definition legal_sub (a : subaddr) : Prop := (exists cs, callsign cs /\ holds (sa_call a) cs) /\ fields_ok a.
Definition wire_sub (a : subaddr) : Prop := (exists cs, wire_name cs /\ holds (sa_call a) cs) /\ fields_ok a.
Definition all_subs (P : subaddr -> Prop) (a : xaddr) : Prop :=
  P (xa_dest a) /\ P (xa_src a) /\ Forall P (xa_extra a) /\ (length (xa_extra a) <= 8)%nat.

(** The same address: callsign, ssid and command/response or "h" bit *)
Definition same_sub (a b : subaddr) : Prop :=
  sa_call a = sa_call b /\ sa_ssid a = sa_ssid b /\ sa_ch a = sa_ch b.
Definition same_addr (a b : xaddr) : Prop :=
  xa_port a = xa_port b /\ same_sub (xa_dest a) (xa_dest b) /\ same_sub (xa_src a) (xa_src b) /\
  Forall2 same_sub (xa_extra a) (xa_extra b).

(** Callsigns as they may be written *)
Definition written (cs : list Z) : Prop :=
  (1 <= length cs <= 6)%nat /\ Forall (fun c => upper_case c \/ lower_case c \/ digit c) cs.
Definition capital (c : Z) : Z := if (97 <=? c) && (c <=? 122) then c - 32 else c.
(** The decimal numbers 0 to 15 *)
Definition ssid_text (ds : list Z) (n : Z) : Prop :=
  (ds = [48 + n] /\ 0 <= n <= 9) \/ (ds = [49; 48 + (n - 10)] /\ 10 <= n <= 15).

(** The bytes of the addresses in a packet, with the reserved bits 5 and 6
    cleared and names padded with blanks *)
Definition plain7 (l : list Z) : list Z :=
  map (fun b => if b =? 0 then 64 else b) (firstn 6 l) ++ [Z.land (nth 6 l 0) 159].
Fixpoint plain (n : nat) (data : list Z) : list Z :=
  match n with
  | O => []
  | S n => plain7 (firstn 7 data) ++ plain n (skipn 7 data)
  end.
