(** Specification of the KISS framing, independent of the filter code. *)
From Verif Require Import Base.
Open Scope Z_scope.

(** FEND = 0xc0 ends a frame; 0xc0 is sent as 0xdb 0xdc, 0xdb as 0xdb 0xdd. *)
Definition kiss_escape (d : list Z) : list Z :=
  flat_map (fun b => if b =? 192 then [219; 220] else if b =? 219 then [219; 221] else [b]) d.
(** Data frame for a port: the type byte is port * 16. *)
Definition kiss_frame (f : Z * list Z) : list Z := [192] ++ kiss_escape (fst f * 16 :: snd f) ++ [192].
Definition kiss_frames (fs : list (Z * list Z)) : list Z := concat (map kiss_frame fs).

(** Decoding, for any stream: the parts between FENDs ... *)
Fixpoint segments (cur : list Z) (w : list Z) : list (list Z) :=
  match w with
  | [] => []                                 (* the unfinished last part *)
  | b :: w' => if b =? 192 then cur :: segments [] w' else segments (cur ++ [b]) w'
  end.
(** ... with escapes undone ([None]: bad escape; a lone 0xdb before FEND is
    ignored) ... *)
Fixpoint kiss_unescape (l : list Z) : option (list Z) :=
  match l with
  | [] => Some []
  | b :: l' =>
    if b =? 219 then
      match l' with
      | [] => Some []
      | c :: l'' =>
        if c =? 220 then option_map (cons 192) (kiss_unescape l'')
        else if c =? 221 then option_map (cons 219) (kiss_unescape l'')
        else None
      end
    else option_map (cons b) (kiss_unescape l')
  end.
(** ... are packets if they fit, are data frames (low nibble of the type byte
    zero) and the port is enabled. *)
Definition kiss_packet (maxr : nat) (enabled : Z -> bool) (seg : list Z) : list (Z * list Z) :=
  match kiss_unescape seg with
  | Some (t :: d) =>
    if (length (t :: d) <=? maxr)%nat && (Z.land t 15 =? 0) && enabled (Z.shiftr t 4)
    then [(Z.shiftr t 4, d)] else []
  | _ => []
  end.
Definition kiss_decode (maxr : nat) (enabled : Z -> bool) (w : list Z) : list (Z * list Z) :=
  flat_map (kiss_packet maxr enabled) (segments [] w).

(** What a user makes of deliveries. *)
Fixpoint kiss_reassemble (ds : list (Z * list Z * bool)) (acc : list Z) : list (Z * list Z) * list Z :=
  match ds with
  | [] => ([], acc)
  | (t, d, true) :: ds' => let (ms, l) := kiss_reassemble ds' [] in ((t, acc ++ d) :: ms, l)
  | (_, d, false) :: ds' => kiss_reassemble ds' (acc ++ d)
  end.

(** The frames accepted from the user: writes reported complete. *)
Fixpoint kiss_accepted (ws : list (Z * list Z)) (counts : list (option nat)) : list (Z * list Z) :=
  match ws, counts with
  | (t, d) :: ws', Some n :: cs' =>
    if (n =? length d)%nat then (t, d) :: kiss_accepted ws' cs' else kiss_accepted ws' cs'
  | _ :: ws', None :: cs' => kiss_accepted ws' cs'
  | _, _ => []
  end.
