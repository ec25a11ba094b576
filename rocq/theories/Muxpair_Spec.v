(** What a user may expect of a mux channel: a stream of bytes with message ends. *)
From Verif Require Import Base Muxchan_Model Muxpair_Model.
Open Scope nat_scope.

(** A byte, or the end of a message; each in band or out of band *)
Inductive item := IByte (oob : bool) (b : Z) | IEnd (oob : bool).
Definition items (l : list Z) (n : nat) (eom oob : bool) : list item :=
  map (IByte oob) (firstn n l) ++ (if eom && (n =? length l) then [IEnd oob] else []).
(** accepted from the user: the first [n] bytes; the end, when all were accepted *)
Definition wrote (w : list (list Z * nat * bool * bool)) : list item := concat (map (fun '(l, n, eom, oob) => items l n eom oob) w).
(** taken by the user out of the READ callbacks *)
Definition got (g : list rob) : list item := concat (map (fun o => match o with RData l n eom oob => items l n eom oob | RErr _ => [] end) g).
Definition is_prefix {T} (a b : list T) : Prop := exists c, b = a ++ c.

(** nothing more can happen by itself: nothing is sent, received or delivered *)
Definition at_rest (oraA oraB : nat -> ans) (s : pair) : Prop :=
  forall i e, match e with PSetup | PPush _ | PRecv _ | PRead => True | _ => False end -> pstep oraA oraB s (i, e) = Some s.
Definition reading (s : pair) : Prop := d_ren (e_d (p_a s)) = true /\ d_ren (e_d (p_b s)) = true.

(** the lengths of messages fit their two bytes *)
Definition small (w : nat) (win : Z) : Prop := (Z.of_nat w <= 65538 \/ win / 2 <= 65538)%Z.
(** out of band data is written only if the other end has enabled it *)
Definition oob_ok (oobA oobB : bool) (e : bool * pev) : Prop :=
  match snd e with PWrite _ _ true => (if fst e then oobA else oobB) = true | _ => True end.
