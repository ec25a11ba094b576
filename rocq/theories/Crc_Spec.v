(** Specification of error patterns on bit strings and of the polynomial
    division, independent of the table driven routines. *)
From Verif Require Import Base.
Open Scope Z_scope.

(** Bits of a byte, most significant first / least significant first. *)
Definition bits_msb (b : Z) : list bool := map (Z.testbit b) [7; 6; 5; 4; 3; 2; 1; 0].
Definition bits_lsb (b : Z) : list bool := map (Z.testbit b) [0; 1; 2; 3; 4; 5; 6; 7].
Definition msb_bits (m : list Z) : list bool := concat (map bits_msb m).
Definition lsb_bits (m : list Z) : list bool := concat (map bits_lsb m).

(** Bitwise exclusive or of equally long bit strings: the error pattern
    between two messages. *)
Fixpoint xorb_list (a b : list bool) : list bool :=
  match a, b with
  | x :: a', y :: b' => xorb x y :: xorb_list a' b'
  | _, _ => []
  end.

Definition zeros (n : nat) : list bool := repeat false n.

(** All wrong bits lie within 16 consecutive bits (and there is one). *)
Definition burst16 (e : list bool) : Prop :=
  exists k bs j, e = zeros k ++ bs ++ zeros j /\ (length bs <= 16)%nat /\ In true bs.
(** An odd number of wrong bits. *)
Definition odd_errors (e : list bool) : Prop := fold_right xorb false e = true.
(** Exactly two wrong bits, less than 32767 positions apart. *)
Definition two_errors (e : list bool) : Prop :=
  exists k d j, e = zeros k ++ [true] ++ zeros d ++ [true] ++ zeros j /\ Z.of_nat d + 1 < 32767.

Definition detectable (e : list bool) : Prop := burst16 e \/ odd_errors e \/ two_errors e.

(** Long division of a bit string (a polynomial over GF(2), highest power
    first) by x^16 + x^12 + x^5 + 1: the remainder, as 16 bits. *)
Definition ccitt_poly : list bool :=   (* without x^16 *)
  [false; false; false; true; false; false; false; false;
   false; false; true; false; false; false; false; true].
Definition div_step (r : list bool) (b : bool) : list bool :=
  match r with
  | [] => []
  | top :: r' =>
    let s := r' ++ [b] in
    if top then xorb_list s ccitt_poly else s
  end.
Definition poly_rem (bits : list bool) : list bool := fold_left div_step bits (zeros 16).
