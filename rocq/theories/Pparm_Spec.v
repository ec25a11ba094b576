(** What parameters mean. *)
From Verif Require Import Base Pparm_Model Cstr_Spec.
Open Scope Z_scope.

(** characters *)
Definition blank (c : Z) : Prop := c = 32 \/ 9 <= c <= 13.
Definition oct (c : Z) : Prop := 48 <= c <= 55.
Definition dec (c : Z) : Prop := 48 <= c <= 57.
Definition hex (c : Z) : Prop := 48 <= c <= 57 \/ 65 <= c <= 70 \/ 97 <= c <= 102.
Definition hexval (c : Z) : Z := if c <=? 57 then c - 48 else if c <=? 70 then c - 55 else c - 87.

(** a number as in C: decimal, octal after 0, hexadecimal after 0x *)
Inductive magnitude : list Z -> Z -> Prop :=
| m_dec d ds : 49 <= d <= 57 -> Forall dec ds -> magnitude (d :: ds) (number 10 hexval (d :: ds))
| m_oct ds : Forall oct ds -> magnitude (48 :: ds) (number 8 hexval (48 :: ds))
| m_hex x ds : x = 120 \/ x = 88 -> ds <> [] -> Forall hex ds -> magnitude (48 :: x :: ds) (number 16 hexval ds).
(** an integer: blanks, a sign, a number *)
Inductive signed : (list Z -> Z -> Prop) -> list Z -> Z -> Prop :=
| s_plain (M : list Z -> Z -> Prop) sp t v : Forall blank sp -> M t v -> signed M (sp ++ t) v
| s_plus (M : list Z -> Z -> Prop) sp t v : Forall blank sp -> M t v -> signed M (sp ++ 43 :: t) v
| s_minus (M : list Z -> Z -> Prop) sp t v : Forall blank sp -> M t v -> signed M (sp ++ 45 :: t) (- v).
Definition integer := signed magnitude.
(** permissions: octal digits *)
Inductive octal : list Z -> Z -> Prop := oct_text ds : ds <> [] -> Forall oct ds -> octal ds (number 8 hexval ds).

(** texts that are the same without regard of case *)
Definition upper_of (c d : Z) : Prop := 65 <= c <= 90 /\ d = c + 32.
Definition same_letter (c d : Z) : Prop := c = d \/ upper_of c d \/ upper_of d c.
Definition same_text : list Z -> list Z -> Prop := Forall2 same_letter.

(** a file mode: a digit, or some of the letters r w x *)
Definition bits (s : list Z) (m : Z) : Prop :=
  0 <= m < 8 /\ (Z.testbit m 2 = true <-> In 114 s) /\ (Z.testbit m 1 = true <-> In 119 s) /\ (Z.testbit m 0 = true <-> In 120 s).
Inductive mode_text : list Z -> Z -> Prop :=
| mt_digit c : oct c -> mode_text [c] (c - 48)
| mt_letters s m : Forall (fun c => c = 114 \/ c = 119 \/ c = 120) s -> bits s m -> mode_text s m.

(** the value text [s] gives a parameter of each kind *)
Definition denotes (k : kind) (s : list Z) (v : pval) : Prop :=
  match k with
  | KStr => v = VS s
  | KDs => exists z, v = VZ z /\ integer s z /\ 0 <= z < 2 ^ 64
  | KUint => exists z, v = VZ z /\ integer s z /\ 0 <= z < 2 ^ 32
  | KInt => exists z, v = VZ z /\ integer s z /\ - 2 ^ 31 <= z < 2 ^ 31
  | KBool => v = VZ 1 /\ In s [T_true; T_1; T_yes; T_on] \/ v = VZ 0 /\ In s [T_false; T_0; T_no; T_off]
  | KBoolv t f => s <> [] /\ (v = VZ 1 /\ s = t \/ v = VZ 0 /\ s = f /\ f <> t)
  | KEnum es => exists n z es1 es2, v = VZ z /\ es = es1 ++ (n, z) :: es2 /\ same_text s n /\ forall n' z', In (n', z') es1 -> ~ same_text s n'
  | KMode => exists z, v = VZ z /\ mode_text s z
  | KPerm => exists z, v = VZ z /\ signed octal s z /\ 0 <= z < 2 ^ 32
  end.
(** the argument gives parameter [key] the value [v]: key=text, or the key alone for a bool *)
Definition gives (k : kind) (key arg : list Z) (v : pval) : Prop :=
  (exists name s, arg = name ++ 61 :: s /\ same_text name key /\ denotes k s v) \/ (k = KBool /\ same_text arg key /\ v = VZ 1).
(** the argument is about [key] *)
Definition about (k : kind) (key arg : list Z) : Prop :=
  (exists name s, arg = name ++ 61 :: s /\ same_text name key) \/ (k = KBool /\ same_text arg key).

(** kinds that are numbers, the text of such a number and the values it may have *)
Definition numeric (k : kind) : bool := match k with KDs | KUint | KInt | KPerm => true | _ => false end.
Definition text_num (k : kind) (s : list Z) (z : Z) : Prop := match k with KPerm => signed octal s z | _ => integer s z end.
Definition in_range (k : kind) (z : Z) : Prop :=
  match k with KDs => 0 <= z < 2 ^ 64 | KUint => 0 <= z < 2 ^ 32 | KInt => - 2 ^ 31 <= z < 2 ^ 31 | KPerm => 0 <= z < 2 ^ 32 | _ => False end.
(** the argument has a number out of range for [key] *)
Definition too_big (k : kind) (key arg : list Z) : Prop :=
  numeric k = true /\ exists name s z, arg = name ++ 61 :: s /\ same_text name key /\ text_num k s z /\ ~ in_range k z.

(** keys a gensio knows: no two alike, and no '=' in any *)
Definition distinct (ks : list (kind * list Z)) : Prop :=
  forall i j p q, nth_error ks i = Some p -> nth_error ks j = Some q -> same_text (snd p) (snd q) -> i = j.
Definition plain (ks : list (kind * list Z)) : Prop := forall p, In p ks -> ~ In 61 (snd p).
(** the last value given to the key at position [i] *)
Definition last_of (i : nat) (vs : list (nat * pval)) (v : pval) : Prop :=
  exists a b, vs = a ++ (i, v) :: b /\ forall v', ~ In (i, v') b.
