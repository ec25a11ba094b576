(** Model of the defaults of lib/gensio.c:2450-3220, and of how net_gensio_alloc uses one. *)
From Verif Require Import Base Cstr_Model Time_Model Pparm_Model.
Open Scope Z_scope.

Definition GE_NOMEM := 1. Definition GE_NOTSUP := 2. Definition GE_INVAL := 3. Definition GE_NOTFOUND := 4. Definition GE_EXISTS := 5.
Definition GE_OUTOFRANGE := 6. Definition GE_INCONSISTENT := 7. Definition GE_INUSE := 10.

(** enum gensio_default_type, include/gensio/gensio.h:568-574 *)
Inductive dtype := TInt | TBool | TEnum | TStr | TData.
Definition dtype_eqb (a b : dtype) : bool :=
  match a, b with TInt, TInt | TBool, TBool | TEnum, TEnum | TStr, TStr | TData, TData => true | _, _ => false end.
(** struct gensio_def_val, lib/gensio.c:2450-2453: the string is an allocation (its number; 0 for
    texts of the program) with its contents without the ending nil. *)
Record dval := mkv { v_str : option (nat * list Z); v_int : Z }.
Definition v0 := mkv None 0.
(** struct gensio_class_def and gensio_def_entry, lib/gensio.c:2455-2471.  The memory of the
    structures and their names is not counted, only that of the values. *)
Record entry := mke { d_name : list Z; d_type : dtype; d_min : Z; d_max : Z; d_val : dval; d_set : bool; d_def : dval; d_enums : list (list Z * Z); d_classes : list (list Z * dval) }.
(** builtin_defaults, defaults; allocations not freed yet; the number of the next *)
Record dstate := mkd { s_builtin : list entry; s_user : list entry; s_live : list nat; s_next : nat }.

(** gensio_lookup_default, lib/gensio.c:2742-2769, and a change of the entry found. *)
Fixpoint lookup (es : list entry) (name : list Z) : option entry :=
  match es with
  | [] => None
  | e :: es => if text_eqb (d_name e) name then Some e else lookup es name
  end.
Fixpoint update (es : list entry) (name : list Z) (f : entry -> entry) : list entry :=
  match es with
  | [] => []
  | e :: es => if text_eqb (d_name e) name then f e :: es else e :: update es name f
  end.
Definition find_default (s : dstate) (name : list Z) : option (entry * bool) :=
  match lookup (s_builtin s) name with
  | Some e => Some (e, true)
  | None => match lookup (s_user s) name with Some e => Some (e, false) | None => None end
  end.
Definition change (s : dstate) (name : list Z) (f : entry -> entry) (live : list nat) (next : nat) : dstate :=
  match lookup (s_builtin s) name with
  | Some _ => mkd (update (s_builtin s) name f) (s_user s) live next
  | None => mkd (s_builtin s) (update (s_user s) name f) live next
  end.
(** gensio_lookup_default_class, lib/gensio.c:2771-2787 *)
Fixpoint class_of (cs : list (list Z * dval)) (class : list Z) : option dval :=
  match cs with
  | [] => None
  | (n, v) :: cs => if text_eqb n class then Some v else class_of cs class
  end.
Fixpoint class_put (cs : list (list Z * dval)) (class : list Z) (v : dval) : list (list Z * dval) :=
  match cs with
  | [] => []
  | (n, w) :: cs => if text_eqb n class then (n, v) :: cs else (n, w) :: class_put cs class v
  end.
Fixpoint class_del (cs : list (list Z * dval)) (class : list Z) : list (list Z * dval) :=
  match cs with
  | [] => []
  | (n, w) :: cs => if text_eqb n class then cs else (n, w) :: class_del cs class
  end.

(** o->free of a value, freeing what is not there is [None] *)
Definition vfree (v : dval) (live : list nat) : option (list nat) :=
  match v_str v with Some (a, _) => afree a live | None => Some live end.
Fixpoint vfrees (vs : list dval) (live : list nat) : option (list nat) :=
  match vs with [] => Some live | v :: vs => live <- vfree v live ;; vfrees vs live end.

(** memcpy of n bytes from a text: [None] if it is NULL or shorter *)
Definition copy_data (strval : option (list Z)) (n : Z) : option (list Z) :=
  match strval with
  | Some b => if n <=? Z.of_nat (length b) then Some (firstn (Z.to_nat n) b) else None
  | None => if n =? 0 then Some [] else None
  end.

(** gensio_add_default, lib/gensio.c:2789-2849.  Allocations succeed. *)
Definition add_default (name : list Z) (ty : dtype) (strval : option (list Z)) (intval mn mx : Z) (enums : list (list Z * Z)) (s : dstate) : option (Z * dstate) :=
  match find_default s name with
  | Some _ => Some (GE_EXISTS, s)
  | None =>
    ' (v, live, next) <- match strval with
      | Some b =>
        if dtype_eqb ty TData then
          _ <- guard ((0 <=? intval) && (intval <? INT_MAX)) ;;   (* intval + 1 *)
          b <- copy_data (Some b) intval ;; Some (mkv (Some (s_next s, b)) intval, s_next s :: s_live s, S (s_next s))
        else Some (mkv (Some (s_next s, b)) intval, s_next s :: s_live s, S (s_next s))
      | None => Some (mkv None intval, s_live s, s_next s)
      end ;;
    Some (0, mkd (s_builtin s) (mke name ty mn mx v0 false v enums [] :: s_user s) live next)
  end.

(** The value a set gives: the conversion by type in l_gensio_set_default, lib/gensio.c:2868-2945.
    The result is an error or the string to be kept and the int. *)
Fixpoint enum_val (es : list (list Z * Z)) (s : list Z) : option Z :=
  match es with
  | [] => None
  | (n, v) :: es => if text_eqb n s then Some v else enum_val es s
  end.
Definition T_TRUE := [84; 82; 85; 69]. Definition T_FALSE := [70; 65; 76; 83; 69].
Definition convert (e : entry) (strval : option (list Z)) (intval : Z) : option (Z + (option (list Z) * Z)) :=
  match d_type e with
  | TEnum =>
    match strval with
    | None => Some (inl GE_INVAL)
    | Some b => match enum_val (d_enums e) b with None => Some (inl GE_INVAL) | Some v => Some (inr (None, v)) end
    end
  | TBool =>
    match strval with
    | Some b =>
      if text_eqb b T_true || text_eqb b T_TRUE then Some (inr (None, 1))
      else if text_eqb b T_false || text_eqb b T_FALSE then Some (inr (None, 0))
      else match strto 10 b with
           | None => Some (inl GE_INVAL)   (* end == strval *)
           | Some _ => let '(v, rest) := strtoul 10 b in match rest with [] => Some (inr (None, to_int v)) | _ => Some (inl GE_INVAL) end
           end
    | None => Some (inr (None, if intval =? 0 then 0 else 1))
    end
  | TInt =>
    match strval with
    | Some b =>
      match strto 10 b with
      | None => Some (inl GE_INVAL)
      | Some _ =>
        let '(v, rest) := strtoul 10 b in
        match rest with
        | [] => let i := to_int v in if (i <? d_min e) || (d_max e <? i) then Some (inl GE_OUTOFRANGE) else Some (inr (None, i))
        | _ => Some (inl GE_INVAL)
        end
      end
    | None => Some (inr (None, intval))
    end
  | TStr => Some (inr (strval, intval))
  | TData =>
    if intval <? 0 then Some (inl GE_INVAL)
    else
      _ <- guard (intval <? INT_MAX) ;;
      b <- copy_data strval intval ;; Some (inr (Some b, intval))
  end.
Definition is_text (t : dtype) : bool := match t with TStr | TData => true | _ => false end.
(** the new value is stored over the old one *)
Definition store (t : dtype) (old : dval) (i : Z) (str : option (nat * list Z)) (live : list nat) : option (dval * list nat) :=
  if is_text t then live <- vfree old live ;; Some (mkv str i, live) else Some (mkv (v_str old) i, live).

(** l_gensio_set_default, lib/gensio.c:2851-2993 *)
Definition set_default (class : option (list Z)) (name : list Z) (strval : option (list Z)) (intval : Z) (s : dstate) : option (Z * dstate) :=
  match find_default s name with
  | None => Some (GE_NOTFOUND, s)
  | Some (e, _) =>
    r <- convert e strval intval ;;
    match r with
    | inl err => Some (err, s)
    | inr (ns, i) =>
      let '(str, live, next) := match ns with Some b => (Some (s_next s, b), s_next s :: s_live s, S (s_next s)) | None => (None, s_live s, s_next s) end in
      match class with
      | Some c =>
        match class_of (d_classes e) c with
        | Some old =>
          ' (v, live) <- store (d_type e) old i str live ;;
          Some (0, change s name (fun e => mke (d_name e) (d_type e) (d_min e) (d_max e) (d_val e) (d_set e) (d_def e) (d_enums e) (class_put (d_classes e) c v)) live next)
        | None =>
          ' (v, live) <- store (d_type e) v0 i str live ;;
          Some (0, change s name (fun e => mke (d_name e) (d_type e) (d_min e) (d_max e) (d_val e) (d_set e) (d_def e) (d_enums e) ((c, v) :: d_classes e)) live next)
        end
      | None =>
        ' (v, live) <- store (d_type e) (d_val e) i str live ;;
        Some (0, change s name (fun e => mke (d_name e) (d_type e) (d_min e) (d_max e) v true (d_def e) (d_enums e) (d_classes e)) live next)
      end
    end
  end.

(** gensio_get_default, lib/gensio.c:3007-3089: the error, the string (a copy, owned by the caller)
    and the int.  Data is copied into a block that is one byte too short: [None]. *)
Definition get_default (class : option (list Z)) (name : list Z) (classonly : bool) (ty : dtype) (s : dstate) : option (Z * option (list Z) * Z) :=
  match find_default s name with
  | None => Some (GE_NOTFOUND, None, 0)
  | Some (e, _) =>
    if negb (dtype_eqb (d_type e) ty) && negb (dtype_eqb (d_type e) TEnum && dtype_eqb ty TInt) && negb (dtype_eqb (d_type e) TBool && dtype_eqb ty TInt) then Some (GE_INVAL, None, 0)
    else
      let c := match class with Some c => class_of (d_classes e) c | None => None end in
      match (match c with
             | Some v => Some v
             | None => if classonly then None else Some (if d_set e then d_val e else d_def e)
             end) with
      | None => Some (GE_NOTFOUND, None, 0)
      | Some v =>
        match ty with
        | TInt | TBool | TEnum => Some (0, None, v_int v)
        | TStr => Some (0, option_map snd (v_str v), 0)
        | TData =>
          match v_str v with
          | Some (_, b) =>
            (* zalloc of v_int bytes, memcpy of v_int + 1 *)
            _ <- guard (v_int v + 1 <=? v_int v) ;; Some (0, Some b, v_int v)
          | None => Some (0, None, 0)
          end
        end
      end
  end.

(** gensio_del_default, lib/gensio.c:3091-3167 *)
Fixpoint remove_entry (es : list entry) (name : list Z) : list entry :=
  match es with
  | [] => []
  | e :: es => if text_eqb (d_name e) name then es else e :: remove_entry es name
  end.
Definition del_default (class : option (list Z)) (name : list Z) (delclasses : bool) (s : dstate) : option (Z * dstate) :=
  match find_default s name with
  | None => Some (GE_NOTFOUND, s)
  | Some (e, isdefault) =>
    match class with
    | Some c =>
      match class_of (d_classes e) c with
      | None => Some (GE_NOTFOUND, s)
      | Some v =>
        live <- vfree v (s_live s) ;;
        Some (0, change s name (fun e => mke (d_name e) (d_type e) (d_min e) (d_max e) (d_val e) (d_set e) (d_def e) (d_enums e) (class_del (d_classes e) c)) live (s_next s))
      end
    | None =>
      if isdefault then Some (GE_NOTSUP, s)
      else if (match d_classes e with [] => false | _ => true end) && negb delclasses then Some (GE_INUSE, s)
      else
        live <- vfrees (map snd (d_classes e)) (s_live s) ;;
        live <- vfree (d_val e) live ;;
        Some (0, mkd (s_builtin s) (remove_entry (s_user s) name) live (s_next s))
    end
  end.

(** gensio_reset_default(s), lib/gensio.c:2694-2740 *)
Definition reset_entry (e : entry) (live : list nat) : option (entry * list nat) :=
  let text := dtype_eqb (d_type e) TStr in
  live <- (if text then vfrees (map snd (d_classes e)) live else Some live) ;;
  live <- (if text then vfree (d_val e) live else Some live) ;;
  Some (mke (d_name e) (d_type e) (d_min e) (d_max e) (if text then mkv None (v_int (d_val e)) else d_val e) false (d_def e) (d_enums e) [], live).
Fixpoint reset_entries (es : list entry) (live : list nat) : option (list entry * list nat) :=
  match es with
  | [] => Some ([], live)
  | e :: es => ' (e, live) <- reset_entry e live ;; ' (es, live) <- reset_entries es live ;; Some (e :: es, live)
  end.
Definition reset_defaults (s : dstate) : option dstate :=
  ' (b, live) <- reset_entries (s_builtin s) (s_live s) ;;
  ' (u, live) <- reset_entries (s_user s) live ;;
  Some (mkd b u live (s_next s)).

(** Calls and what they returned, newest first.  The lock makes each call one step. *)
Inductive dop :=
| OAdd (name : list Z) (ty : dtype) (strval : option (list Z)) (intval mn mx : Z) (enums : list (list Z * Z))
| OSet (class : option (list Z)) (name : list Z) (strval : option (list Z)) (intval : Z)
| OGet (class : option (list Z)) (name : list Z) (classonly : bool) (ty : dtype)
| ODel (class : option (list Z)) (name : list Z) (delclasses : bool)
| OReset.
Record done := mkdone { o_op : dop; o_err : Z; o_str : option (list Z); o_int : Z }.
Definition dstep (op : dop) (s : dstate) : option (dstate * done) :=
  match op with
  | OAdd n ty sv iv mn mx en => ' (err, s) <- add_default n ty sv iv mn mx en s ;; Some (s, mkdone op err None 0)
  | OSet c n sv iv => ' (err, s) <- set_default c n sv iv s ;; Some (s, mkdone op err None 0)
  | OGet c n co ty => ' (err, str, i) <- get_default c n co ty s ;; Some (s, mkdone op err str i)
  | ODel c n dc => ' (err, s) <- del_default c n dc s ;; Some (s, mkdone op err None 0)
  | OReset => s <- reset_defaults s ;; Some (s, mkdone op 0 None 0)
  end.
Fixpoint drun (ops : list dop) (s : dstate) (tr : list done) : option (dstate * list done) :=
  match ops with
  | [] => Some (s, tr)
  | op :: ops => ' (s, d) <- dstep op s ;; drun ops s (d :: tr)
  end.
(** builtin_defaults at the start: name, type, min, max, enums and value *)
Definition builtin (b : list Z * dtype * Z * Z * list (list Z * Z) * option (list Z) * Z) : entry :=
  let '(n, ty, mn, mx, en, sv, iv) := b in mke n ty mn mx v0 false (mkv (option_map (fun t => (0%nat, t)) sv) iv) en [].
Definition dstart bs : dstate := mkd (map builtin bs) [] [] 1.

(** gensio_get_defaultaddr, lib/gensio.c:3169-3207.  gensio_scan_network_port is the answer [sc], an
    error or the new address, its protocol and if it has a port.  The result is the value returned,
    the address and the addresses not freed. *)
Definition get_defaultaddr (str : Z * option (list Z)) (sc : Z + nat * Z * bool) (iprotocol : Z) (require_port : bool) (rai : option nat) (live : list nat) : option (Z * option nat * list nat) :=
  let '(err, text) := str in
  if negb (err =? 0) then Some (err, rai, live)
  else match text with
  | None => Some (GE_NOTSUP, rai, live)
  | Some _ =>
    match sc with
    | inl err => Some (err, rai, live)
    | inr (ai, protocol, is_port_set) =>
      if (require_port && negb is_port_set) || negb (protocol =? iprotocol) then
        live <- afree ai (ai :: live) ;; Some (GE_INCONSISTENT, rai, live)
      else
        live <- match rai with Some r => afree r (ai :: live) | None => Some (ai :: live) end ;;
        Some (1, Some ai, live)
    end
  end.

(** net_gensio_alloc, lib/gensio_net.c:426-505 and 531-533, 546-551 for TCP: the addresses.  An argument is one taken
    before laddr= or by nodelay and reuseaddr ([ATaken]), laddr= with a good address or a bad one,
    one taken by gensio_base_parm, or unknown.  The default laddr is [dflt], the text and what
    gensio_scan_network_port says of it.  The result is the error, or the local address of the new
    gensio; then the addresses not freed. *)
Inductive narg := ATaken | ALaddr (a : nat) | ABadAddr | ABase | AUnknown.
Definition afree_opt (a : option nat) (live : list nat) : option (list nat) := match a with Some a => afree a live | None => Some live end.
Fixpoint net_args (args : list narg) (laddr laddr2 : option nat) (live : list nat) : option (Z * option nat * list nat) :=
  match args with
  | [] => Some (0, laddr, live)
  | ATaken :: args => net_args args laddr laddr2 live
  | ALaddr a :: args =>
    live <- afree_opt laddr2 (a :: live) ;;   (* in gensio_pparm_addrs *)
    live <- afree_opt laddr live ;;
    net_args args (Some a) (Some a) live
  | ABase :: args => live <- afree_opt laddr live ;; net_args args laddr laddr2 live
  | ABadAddr :: _ | AUnknown :: _ => live <- afree_opt laddr live ;; Some (GE_INVAL, None, live)
  end.
Definition net_alloc (dflt : Z * option (list Z)) (sc : Z + nat * Z * bool) (args : list narg) (live : list nat) : option (Z * option nat * list nat) :=
  ' (err, laddr, live) <- get_defaultaddr dflt sc 1 false None live ;;
  if negb (err =? 0) && negb (err =? GE_NOTSUP) then Some (err, None, live)
  else net_args args laddr None live.
