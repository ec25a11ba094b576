(** What a convolutional code is, independently of the implementation:
    the output is the convolution (over GF(2)) of the data with the
    polynomials; distances; packing of bits in bytes. *)
From Verif Require Import Base.
Open Scope Z_scope.

(** ** Bits and bytes, low bit first *)
Definition byte_bits (n : nat) (b : Z) : list bool :=
  map (fun i => Z.testbit b (Z.of_nat i)) (seq 0 n).
(** the first [n] bits of an array of bytes *)
Definition in_bits (bytes : list Z) (n : nat) : list bool :=
  firstn n (flat_map (byte_bits 8) bytes).

(** the calls (byte, number of bits) deliver exactly the bits [x]: whole bytes
    but for the last call, unused bits zero *)
Definition delivers (calls : list (Z * nat)) (x : list bool) : Prop :=
  flat_map (fun '(b, n) => byte_bits n b) calls = x /\
  Forall (fun '(b, n) => n = 8%nat) (removelast calls) /\
  Forall (fun '(b, n) => (0 < n <= 8)%nat /\ 0 <= b < 2 ^ Z.of_nat n) calls.

(** ** The code *)

(** exclusive or of [f 0 .. f (n-1)] *)
Fixpoint xor_sum (f : nat -> bool) (n : nat) : bool :=
  match n with O => false | S m => xorb (xor_sum f m) (f m) end.

(** element [t - i] of a sequence that is false before its start *)
Definition ago (x : list bool) (t i : nat) : bool :=
  if (i <=? t)%nat then nth (t - i) x false else false.

(** "the high bit handles the first bit fed into the state machine": the tap of
    polynomial [p] for the bit [i] steps ago *)
Definition tap (k : nat) (p : Z) (i : nat) : bool := Z.testbit p (Z.of_nat (k - 1 - i)).

(** output of polynomial [p] at time [t] *)
Definition conv_at (k : nat) (p : Z) (x : list bool) (t : nat) : bool :=
  xor_sum (fun i => tap k p i && ago x t i) k.

(** systematic recursive code: the shift register is fed with the feedback sum *)
Fixpoint register (k : nat) (p0 : Z) (a : list bool) (x : list bool) : list bool :=
  match x with
  | [] => a
  | b :: r =>
      register k p0
        (a ++ [xor_sum (fun i => tap k p0 i && match i with O => b | S j => ago a (length a - 1) j end) k]) r
  end.

Definition symbol_at (k : nat) (polys : list Z) (recursive : bool) (x : list bool) (t : nat)
  : list bool :=
  if recursive
  then nth t x false
         :: map (fun p => conv_at k p (register k (hd 0 polys) [] x) t) (tl polys)
  else map (fun p => conv_at k p x t) polys.

(** the code word of the data [x] *)
Definition code (k : nat) (polys : list Z) (recursive : bool) (x : list bool) : list bool :=
  flat_map (symbol_at k polys recursive x) (seq 0 (length x)).

Definition tail (k : nat) (do_tail : bool) : list bool :=
  if do_tail then repeat false (k - 1) else [].

(** dropping the bits whose entry in the repeated puncture array is zero *)
Fixpoint punctured (pa : list Z) (i : nat) (x : list bool) : list bool :=
  match x with
  | [] => []
  | b :: r =>
      (if nth (i mod length pa) pa 1 =? 0 then [] else [b]) ++ punctured pa (S i) r
  end.
Definition send (pa : list Z) (x : list bool) : list bool :=
  match pa with [] => x | _ => punctured pa 0 x end.

(** ** Distances *)
Fixpoint distance (a b : list bool) : Z :=
  match a, b with
  | x :: a', y :: b' => (if Bool.eqb x y then 0 else 1) + distance a' b'
  | _, _ => 0
  end.

(** soft decision: an equal bit costs its uncertainty, a different one the rest *)
Fixpoint soft_distance (m : Z) (u : list Z) (a b : list bool) : Z :=
  match u, a, b with
  | w :: u', x :: a', y :: b' =>
      (if Bool.eqb x y then w else m - w) + soft_distance m u' a' b'
  | _, _, _ => 0
  end.
