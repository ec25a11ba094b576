(** What times mean. *)
From Verif Require Import Base Time_Model Cstr_Spec.
Open Scope Z_scope.

(** the number of nanoseconds *)
Definition total (t : gtime) : Z := t_secs t * 10 ^ 9 + t_nsecs t.
Definition well_formed (t : gtime) : Prop := 0 <= t_nsecs t < 10 ^ 9 /\ - 2 ^ 63 <= t_secs t < 2 ^ 63.
Definition int64 (v : Z) : Prop := - 2 ^ 63 <= v < 2 ^ 63.

(** [r] is [v / d] rounded to the nearest integer, halves up. *)
Definition rounded (v d r : Z) : Prop := 2 * d * r - d <= 2 * v < 2 * d * r + d.

(** The letters of the units and their lengths in nanoseconds *)
Definition units : list (Z * Z) :=
  [(68, 86400 * 10 ^ 9); (72, 3600 * 10 ^ 9); (77, 60 * 10 ^ 9); (115, 10 ^ 9);
   (109, 10 ^ 6); (117, 10 ^ 3); (110, 1)].
Definition unit_of (c u : Z) : Prop := In (c, u) units.

(** A decimal number without leading zeros *)
Definition decimal (ds : list Z) (v : Z) : Prop :=
  ds <> [] /\ Forall decimal_digit ds /\ (hd 0 ds = 48 -> ds = [48]) /\ v = number 10 (fun d => d - 48) ds.

(** A time as in gensio.5: "a set of numbers each followed by a single
    letter" *)
Inductive time_text : list Z -> Z -> Prop :=
| tt_last ds v c u : decimal ds v -> unit_of c u -> time_text (ds ++ [c]) (v * u)
| tt_more ds v c u s w : decimal ds v -> unit_of c u -> time_text s w ->
    time_text (ds ++ c :: s) (v * u + w).

(** The same where only the last unit may be shorter than a second. *)
Inductive ordered_time_text : list Z -> Z -> Prop :=
| ot_last ds v c u : decimal ds v -> unit_of c u -> ordered_time_text (ds ++ [c]) (v * u)
| ot_more ds v c u s w : decimal ds v -> unit_of c u -> 10 ^ 9 <= u -> ordered_time_text s w ->
    ordered_time_text (ds ++ c :: s) (v * u + w).
