(** Model of the parameter parsing of lib/gensio.c (functions gensio_pparm_...).  Texts are lists of
    characters without the ending nil. *)
From Verif Require Import Base Cstr_Model Time_Model.
Open Scope Z_scope.

(** The common part of strtol and strtoul of the C library (C11 7.22.1.4): blanks, a sign, a prefix
    with base 0, digits.  The result is the sign, the number without limits and the rest; [None]
    if there is no number. *)
Definition sign_of (s : list Z) : bool * list Z :=
  match s with
  | c :: r => if c =? 45 then (true, r) else if c =? 43 then (false, r) else (false, s)
  | [] => (false, s)
  end.
Definition number_in (base : Z) (t : list Z) : option (Z * list Z) :=
  match t with
  | c :: _ => if digit_of c <? base then Some (digits base 0 t) else None
  | [] => None
  end.
Definition number_auto (s : list Z) : option (Z * list Z) :=
  match s with
  | c :: t =>
    if c =? 48 then
      match t with
      | x :: y :: _ => if ((x =? 120) || (x =? 88)) && (digit_of y <? 16) then number_in 16 (tl t) else number_in 8 s
      | _ => number_in 8 s
      end
    else number_in 10 s
  | [] => None
  end.
Definition strto (base : Z) (s : list Z) : option (bool * Z * list Z) :=
  let '(neg, t) := sign_of (skip_space s) in
  match (if base =? 0 then number_auto t else number_in base t) with
  | Some (v, r) => Some (neg, v, r)
  | None => None
  end.
(** strtoul with 64 bits: too large values give the largest, a minus sign wraps *)
Definition strtoul (base : Z) (s : list Z) : Z * list Z :=
  match strto base s with
  | Some (neg, v, r) => ((if 2 ^ 64 <=? v then 2 ^ 64 - 1 else if neg then (- v) mod 2 ^ 64 else v), r)
  | None => (0, s)
  end.
Definition strtol (base : Z) (s : list Z) : Z * list Z :=
  match strto base s with
  | Some (neg, v, r) => (clamp64 (if neg then - v else v), r)
  | None => (0, s)
  end.

(** Conversion to int (two's complement) and unsigned int. *)
Definition to_int (v : Z) : Z := let w := v mod 2 ^ 32 in if w <? 2 ^ 31 then w else w - 2 ^ 32.
Definition to_uint (v : Z) : Z := v mod 2 ^ 32.
Definition UINT_MAX : Z := 2 ^ 32 - 1.
Definition INT_MAX : Z := 2 ^ 31 - 1.
Definition INT_MIN : Z := - 2 ^ 31.

(** strcmp, strcasecmp = 0 (C locale) *)
Fixpoint text_eqb (a b : list Z) : bool :=
  match a, b with
  | [], [] => true
  | x :: a, y :: b => (x =? y) && text_eqb a b
  | _, _ => false
  end.
Definition lower (c : Z) : Z := if isupper c then c + 32 else c.
Definition strcasecmp_eq (a b : list Z) : bool := text_eqb (map lower a) (map lower b).

(** What a call gives: the value returned, and the parameter's new value if it was stored.  The
    error flag of struct gensio_pparm_info (include/gensio/gensio_class.h) is threaded. *)
Inductive pval := VZ (z : Z) | VS (s : list Z).
Record pres := mkp { r_rv : Z; r_err : bool; r_val : option pval }.
Definition ok v := mkp 1 false (Some v).
(** gensio_pparm_log sets the error, lib/gensio.c:1881-1907 *)
Definition bad := mkp (-1) true None.
Definition none err := mkp 0 err None.

(** gensio_pparm_value, lib/gensio.c:1909-1925. *)
Fixpoint after_key (str key : list Z) : option (list Z) :=
  match key, str with
  | [], c :: r => if c =? 61 then Some r else None
  | [], [] => None
  | k :: key, c :: str => if lower k =? lower c then after_key str key else None
  | _ :: _, [] => None
  end.
Definition pparm_value (err : bool) (str key : list Z) : option (list Z) :=
  if err then None else after_key str key.
Definition pparm_str (err : bool) (str key : list Z) : pres :=
  match pparm_value err str key with None => none err | Some s => mkp 1 err (Some (VS s)) end.

(** The common form of the functions below: no key, no value, a value. *)
Definition with_value (err : bool) (str key : list Z) (f : list Z -> pres) : pres :=
  match pparm_value err str key with
  | None => none err
  | Some [] => bad
  | Some s => f s
  end.

(** gensio_pparm_ds, lib/gensio.c:1927-1952. *)
Definition pparm_ds err str key := with_value err str key (fun sval =>
  let '(value, rest) := strtoul 0 sval in
  match rest with [] => ok (VZ value) | _ => bad end).
(** gensio_pparm_uint, lib/gensio.c:1954-1985. *)
Definition pparm_uint err str key := with_value err str key (fun sval =>
  let '(value, rest) := strtoul 0 sval in
  match rest with [] => if UINT_MAX <? value then bad else ok (VZ value) | _ => bad end).
(** gensio_pparm_int, lib/gensio.c:1987-2017: out of range is an error, but the value is stored
    and 1 returned. *)
Definition pparm_int err str key := with_value err str key (fun sval =>
  let '(value, rest) := strtol 0 sval in
  match rest with
  | [] => mkp 1 ((INT_MAX <? value) || (value <? INT_MIN)) (Some (VZ (to_int value)))
  | _ => bad
  end).

Definition T_true : list Z := [116; 114; 117; 101].
Definition T_1 : list Z := [49].
Definition T_yes : list Z := [121; 101; 115].
Definition T_on : list Z := [111; 110].
Definition T_false : list Z := [102; 97; 108; 115; 101].
Definition T_0 : list Z := [48].
Definition T_no : list Z := [110; 111].
Definition T_off : list Z := [111; 102; 102].
(** gensio_pparm_bool, lib/gensio.c:2019-2054. *)
Definition pparm_bool (err : bool) (str key : list Z) : pres :=
  if err then none err
  else if strcasecmp_eq str key then ok (VZ 1)
  else with_value err str key (fun sval =>
    if text_eqb sval T_true || text_eqb sval T_1 || text_eqb sval T_yes || text_eqb sval T_on then ok (VZ 1)
    else if text_eqb sval T_false || text_eqb sval T_0 || text_eqb sval T_no || text_eqb sval T_off then ok (VZ 0)
    else bad).
(** gensio_pparm_boolv, lib/gensio.c:2056-2083. *)
Definition pparm_boolv (tv fv : list Z) err str key := with_value err str key (fun sval =>
  if text_eqb sval tv then ok (VZ 1) else if text_eqb sval fv then ok (VZ 0) else bad).
(** gensio_pparm_enum, lib/gensio.c:2085-2107. *)
Fixpoint enum_find (es : list (list Z * Z)) (s : list Z) : option Z :=
  match es with [] => None | (n, v) :: es => if strcasecmp_eq s n then Some v else enum_find es s end.
Definition pparm_enum (es : list (list Z * Z)) (err : bool) (str key : list Z) : pres :=
  match pparm_value err str key with
  | None => none err
  | Some s => match enum_find es s with Some v => ok (VZ v) | None => bad end
  end.
(** gensio_pparm_mode, lib/gensio.c:2186-2223. *)
Fixpoint mode_chars (s : list Z) (mode : Z) : option Z :=
  match s with
  | [] => Some mode
  | c :: s =>
    if c =? 114 then mode_chars s (Z.lor mode 4)
    else if c =? 119 then mode_chars s (Z.lor mode 2)
    else if c =? 120 then mode_chars s (Z.lor mode 1)
    else None
  end.
Definition pparm_mode (err : bool) (str key : list Z) : pres :=
  match pparm_value err str key with
  | None => none err
  | Some s =>
    match s with
    | c :: r => if (48 <=? c) && (c <=? 55) then match r with [] => ok (VZ (c - 48)) | _ => bad end
                else match mode_chars s 0 with Some m => ok (VZ m) | None => bad end
    | [] => ok (VZ 0)
    end
  end.
(** gensio_pparm_perm, lib/gensio.c:2225-2245. *)
Definition pparm_perm (err : bool) (str key : list Z) : pres :=
  match pparm_value err str key with
  | None => none err
  | Some s =>
    match strto 8 s with
    | None => bad   (* end == sval *)
    | Some _ => let '(v, rest) := strtoul 8 s in match rest with [] => ok (VZ (to_uint v)) | _ => bad end
    end
  end.
(** gensio_pparm_float and _double, lib/gensio.c:2267-2339.  strtod is [sd]: the number and the
    rest; a number is [VZ] of whatever [sd] gives, times the factor. *)
Definition pparm_float (sd : list Z -> Z * list Z) err str key := with_value err str key (fun sval =>
  let '(v, rest) := sd sval in
  match rest with
  | [] => ok (VZ v)
  | c :: _ =>
    if (c =? 107) || (c =? 75) then ok (VZ (v * 1000))
    else if (c =? 109) || (c =? 77) then ok (VZ (v * 1000000))
    else if (c =? 103) || (c =? 71) then ok (VZ (v * 1000000000))
    else bad
  end).

(** gensio_pparm_addrs, lib/gensio.c:2109-2155.  gensio_scan_network_port is the answer [sc]: the new
    address, its protocol and whether it has a port.  Addresses are numbers; [live] are those not
    freed.  Freeing one that is not live is [None]. *)
Definition afree (a : nat) (live : list nat) : option (list nat) :=
  if existsb (Nat.eqb a) live then Some (remove Nat.eq_dec a live) else None.
Record ares := mka { a_rv : Z; a_err : bool; a_addr : option nat; a_live : list nat }.
Definition pparm_addrs (err : bool) (str key : list Z) (sc : option (nat * Z * bool)) (iprotocol : Z) (require_port : bool)
  (rai : option nat) (live : list nat) : option ares :=
  match pparm_value err str key with
  | None => Some (mka 0 err rai live)
  | Some [] => Some (mka (-1) true rai live)
  | Some _ =>
    match sc with
    | None => Some (mka (-1) true rai live)
    | Some (ai, protocol, is_port_set) =>
      let live1 := ai :: live in
      let finish e live :=
        live <- match rai with Some r => afree r live | None => Some live end ;;
        Some (mka 1 e (Some ai) live) in
      if require_port && negb is_port_set then
        live2 <- afree ai live1 ;; finish true live2
      else if negb (protocol =? iprotocol) then
        live2 <- afree ai live1 ;; Some (mka (-1) true rai live2)
      else finish err live1
    end
  end.

(** ** A list of arguments *)
Inductive kind := KStr | KDs | KUint | KInt | KBool | KBoolv (tv fv : list Z) | KEnum (es : list (list Z * Z)) | KMode | KPerm.
Definition pparm (k : kind) : bool -> list Z -> list Z -> pres :=
  match k with
  | KStr => pparm_str | KDs => pparm_ds | KUint => pparm_uint | KInt => pparm_int | KBool => pparm_bool
  | KBoolv t f => pparm_boolv t f | KEnum es => pparm_enum es | KMode => pparm_mode | KPerm => pparm_perm
  end.

(** The loop every gensio allocator has over its arguments, for example lib/gensio_echo.c:420-429:
    each key is tried in turn, the first that returns more than 0 ends the search; if there is none
    the allocation fails with GE_INVAL.  The values are kept by the position of the key. *)
Definition env := nat -> option pval.
Definition eset (e : env) (i : nat) (v : pval) : env := fun j => if Nat.eqb j i then Some v else e j.
Fixpoint try_keys (ks : list (kind * list Z)) (i : nat) (arg : list Z) (err : bool) (e : env) : bool * bool * env :=
  match ks with
  | [] => (false, err, e)
  | (k, key) :: ks =>
    let r := pparm k err arg key in
    let e1 := match r_val r with Some v => eset e i v | None => e end in
    if 0 <? r_rv r then (true, r_err r, e1) else try_keys ks (S i) arg (r_err r) e1
  end.
Fixpoint parse_args (ks : list (kind * list Z)) (args : list (list Z)) (err : bool) (e : env) : option env :=
  match args with
  | [] => Some e
  | a :: args => let '(found, err, e) := try_keys ks 0 a err e in if found then parse_args ks args err e else None
  end.
