(** What "C"-like strings, tokens and quoting mean, independently of how the
    code scans them. *)
From Verif Require Import Base.
Open Scope Z_scope.

Definition octal_digit (c : Z) : Prop := 48 <= c <= 55.
Definition decimal_digit (c : Z) : Prop := 48 <= c <= 57.
Definition hex_digit (c : Z) : Prop := 48 <= c <= 57 \/ 65 <= c <= 70 \/ 97 <= c <= 102.

(** the value of a hexadecimal digit *)
Definition hex_value (c : Z) : Z :=
  if c <=? 57 then c - 48 else if c <=? 70 then c - 65 + 10 else c - 97 + 10.

(** the number written with these digits *)
Definition number (base : Z) (dv : Z -> Z) (ds : list Z) : Z :=
  fold_left (fun a d => a * base + dv d) ds 0.

(** the simple escapes of C: \a \b \f \n \r \t \v; any other character
    stands for itself *)
Definition simple_escapes : list (Z * Z) :=
  [(97, 7); (98, 8); (102, 12); (110, 10); (114, 13); (116, 9); (118, 11)].
Definition simple_value (c : Z) : Z :=
  match find (fun p => fst p =? c) simple_escapes with
  | Some p => snd p
  | None => c
  end.

Definition starts_with (P : Z -> Prop) (s : list Z) : Prop :=
  match s with [] => False | c :: _ => P c end.

(** [denotes hd dv lone seps ends q s v r]: the text [s], read inside the quote
    [q] (0: outside quotes), is a string with the value [v], followed by [r].
    [seps] end the string and are dropped, [ends] end it and are kept.
    [hd] says which digits are used in hexadecimal escapes, [dv] is their
    value, [lone] whether \x without a digit is allowed (and stands for the
    character 0). *)
Section denotes.
  Variables (hd : Z -> Prop) (dv : Z -> Z) (lone : Prop) (seps ends : list Z).
  Inductive denotes : Z -> list Z -> list Z -> list Z -> Prop :=
  | d_end : denotes 0 [] [] []
  | d_sep c s : c <> 34 -> c <> 39 -> c <> 92 -> In c seps -> denotes 0 (c :: s) [] s
  | d_endchar c s : c <> 34 -> c <> 39 -> c <> 92 -> ~ In c seps -> In c ends ->
      denotes 0 (c :: s) [] (c :: s)
  | d_open c s v r : c = 34 \/ c = 39 -> denotes c s v r -> denotes 0 (c :: s) v r
  | d_close q s v r : q <> 0 -> denotes 0 s v r -> denotes q (q :: s) v r
  | d_bare c s v r : c <> 34 -> c <> 39 -> c <> 92 -> ~ In c seps -> ~ In c ends ->
      denotes 0 s v r -> denotes 0 (c :: s) (c :: v) r
  | d_quoted q c s v r : q <> 0 -> c <> q -> c <> 92 ->
      denotes q s v r -> denotes q (c :: s) (c :: v) r
  | d_simple q c s v r : ~ octal_digit c -> c <> 120 ->
      denotes q s v r -> denotes q (92 :: c :: s) (simple_value c :: v) r
  | d_octal q ds s v r : (1 <= length ds <= 3)%nat -> Forall octal_digit ds ->
      length ds = 3%nat \/ ~ starts_with octal_digit s ->
      denotes q s v r ->
      denotes q (92 :: ds ++ s) (number 8 (fun d => d - 48) ds mod 256 :: v) r
  | d_hex q ds s v r : (1 <= length ds <= 2)%nat -> Forall hex_digit ds -> Forall hd ds ->
      length ds = 2%nat \/ ~ starts_with hex_digit s ->
      denotes q s v r ->
      denotes q (92 :: 120 :: ds ++ s) (number 16 dv ds :: v) r
  | d_lone q c s v r : lone -> ~ hex_digit c ->
      denotes q (c :: s) v r -> denotes q (92 :: 120 :: c :: s) (0 :: v) r.

  (** The tokens of a text: separators between them are skipped. *)
  Inductive tokens : list Z -> list (list Z) -> list Z -> Prop :=
  | t_end : tokens [] [] []
  | t_skip c s vs r : In c seps -> tokens s vs r -> tokens (c :: s) vs r
  | t_endchar c s : ~ In c seps -> In c ends -> tokens (c :: s) [] (c :: s)
  | t_token c s v r vs r' : ~ In c seps -> ~ In c ends ->
      denotes 0 (c :: s) v r -> tokens r vs r' -> tokens (c :: s) (v :: vs) r'.
End denotes.

(** The documented meaning: hexadecimal escapes have one or two digits with
    their usual value. *)
Definition means := denotes hex_digit hex_value False.

(** What the code implements instead: letters in hexadecimal escapes count from
    0 instead of 10, and \x without a digit is the character 0. *)
Definition short_hex_value (c : Z) : Z :=
  if c <=? 57 then c - 48 else if c <=? 70 then c - 65 else c - 97.
Definition as_coded := denotes hex_digit short_hex_value True.
Definition tokens_as_coded := tokens hex_digit short_hex_value True.

(** C strings: no character is 0 *)
Definition cstr_ok (s : list Z) : Prop := Forall (fun c => 1 <= c < 256) s.

(** A string in double quotes *)
Definition quoted (s : list Z) : list Z :=
  34 :: flat_map (fun c => if (c =? 34) || (c =? 92) then [92; c] else [c]) s ++ [34].

(** Strings separated by single blanks *)
Fixpoint spaced (l : list (list Z)) : list Z :=
  match l with
  | [] => []
  | [a] => a
  | a :: l' => a ++ 32 :: spaced l'
  end.

(** Separators that cannot be confused with quoting *)
Definition plain_seps (seps : list Z) : Prop :=
  ~ In 34 seps /\ ~ In 39 seps /\ ~ In 92 seps.

(** What is left of a text printed to [room] bytes of memory, the last of
    which is kept for the terminator *)
Definition truncated (room : nat) (t : list Z) : list Z := firstn (room - 1) t ++ [0].

(** Most significant byte first *)
Fixpoint big_endian (d : list Z) : Z :=
  match d with
  | [] => 0
  | b :: d' => b * 2 ^ (8 * Z.of_nat (length d')) + big_endian d'
  end.
