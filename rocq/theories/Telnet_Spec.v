(** Specification of the telnet byte stream, independent of the decoder:
    a stream is a sequence of items. *)
From Verif Require Import Base.
Open Scope Z_scope.

Inductive item :=
| IData (d : list Z)                  (* user data *)
| ICmd (c : Z)                        (* two byte command IAC c, c < 250 *)
| INeg (t o : Z)                      (* IAC WILL/WONT/DO/DONT o *)
| ISub (o : Z) (p : list Z).          (* IAC SB o p... IAC SE *)

(** RFC 854: a data byte 255 is sent twice. *)
Definition escape (d : list Z) : list Z :=
  flat_map (fun b => if b =? 255 then [255; 255] else [b]) d.

Definition wire1 (i : item) : list Z :=
  match i with
  | IData d => escape d
  | ICmd c => [255; c]
  | INeg t o => [255; t; o]
  | ISub o p => [255; 250; o] ++ escape p ++ [255; 240]
  end.
Definition wire (l : list item) : list Z := concat (map wire1 l).

(** What a receiver must see. *)
Definition item_data (i : item) : list Z := match i with IData d => d | _ => [] end.
Definition data_of (l : list item) : list Z := concat (map item_data l).
Definition item_cmd (i : item) : list (list Z) :=
  match i with
  | IData _ => []
  | ICmd c => [[255; c]]
  | INeg t o => [[255; t; o]]
  | ISub o p => [[255; 250; o] ++ p]
  end.
Definition cmds_of (l : list item) : list (list Z) := concat (map item_cmd l).

(** Well-formed items; a sub-option (option byte and payload) has at most 29
    bytes, what fits the receiver's command buffer. *)
Definition item_ok (i : item) : Prop :=
  match i with
  | IData _ => True
  | ICmd c => c < 250
  | INeg t o => 251 <= t <= 254
  | ISub o p => (length p <= 28)%nat
  end.
