(** What defaults are to do, in terms of the calls made so far. *)
From Verif Require Import Base Cstr_Spec Pparm_Model Pparm_Spec Defaults_Model.
Open Scope Z_scope.

(** decimal digits *)
Inductive decimal : list Z -> Z -> Prop := dec_text ds : ds <> [] -> Forall dec ds -> decimal ds (number 10 hexval ds).

(** a default: type, limits, enumeration and first value *)
Record kdef := mkk { k_type : dtype; k_min : Z; k_max : Z; k_enums : list (list Z * Z); k_str : option (list Z); k_int : Z; k_builtin : bool }.
Definition bspec : Type := list Z * dtype * Z * Z * list (list Z * Z) * option (list Z) * Z.
Fixpoint built (bs : list bspec) (n : list Z) : option kdef :=
  match bs with
  | [] => None
  | (m, ty, mn, mx, en, sv, iv) :: bs => if list_eq_dec Z.eq_dec m n then Some (mkk ty mn mx en sv iv true) else built bs n
  end.
(** the text a data default keeps: the first [iv] bytes *)
Definition kept (ty : dtype) (sv : option (list Z)) (iv : Z) : option (list Z) :=
  match ty with TData => Some (firstn (Z.to_nat iv) (match sv with Some b => b | None => [] end)) | _ => sv end.
(** the default called [n] after the calls [tr] (newest first): it was added and not deleted since *)
Fixpoint known (bs : list bspec) (tr : list done) (n : list Z) : option kdef :=
  match tr with
  | [] => built bs n
  | mkdone (OAdd m ty sv iv mn mx en) err _ _ :: tr =>
      if list_eq_dec Z.eq_dec m n then (if err =? 0 then Some (mkk ty mn mx en (match sv with Some b => kept ty (Some b) iv | None => None end) iv false) else known bs tr n) else known bs tr n
  | mkdone (ODel None m _) err _ _ :: tr =>
      if list_eq_dec Z.eq_dec m n then (if err =? 0 then None else known bs tr n) else known bs tr n
  | _ :: tr => known bs tr n
  end.
(** the last successful set of [n] for class [c] ([None] for all), unless deleted or reset since *)
Definition eqo (a b : option (list Z)) : {a = b} + {a <> b}.
Proof. decide equality. apply list_eq_dec, Z.eq_dec. Defined.
Fixpoint last_set (tr : list done) (n : list Z) (c : option (list Z)) : option (option (list Z) * Z) :=
  match tr with
  | [] => None
  | mkdone OReset _ _ _ :: _ => None
  | mkdone op err _ _ :: tr =>
    if err =? 0 then
      match op with
      | OSet c' m sv iv => if list_eq_dec Z.eq_dec m n then (if eqo c' c then Some (sv, iv) else last_set tr n c) else last_set tr n c
      | ODel None m _ => if list_eq_dec Z.eq_dec m n then None else last_set tr n c
      | ODel (Some c') m _ => if list_eq_dec Z.eq_dec m n then (if eqo (Some c') c then None else last_set tr n c) else last_set tr n c
      | _ => last_set tr n c
      end
    else last_set tr n c
  end.

(** the value that setting a default [k] with the text [sv] and number [iv] gives: a text or a number *)
Definition set_gives (k : kdef) (sv : option (list Z)) (iv : Z) (str : option (list Z)) (i : Z) : Prop :=
  match k_type k with
  | TStr => str = sv
  | TData => 0 <= iv /\ str = kept TData sv iv /\ i = iv
  | TEnum => exists n es1 es2, sv = Some n /\ k_enums k = es1 ++ (n, i) :: es2 /\ forall j, ~ In (n, j) es1
  | TBool =>
    match sv with
    | None => i = 0 /\ iv = 0 \/ i = 1 /\ iv <> 0
    | Some b => i = 1 /\ In b [T_true; T_TRUE] \/ i = 0 /\ In b [T_false; T_FALSE] \/ exists z, signed decimal b z /\ (- 2 ^ 31 <= z < 2 ^ 31 -> i = z)
    end
  | TInt =>
    match sv with
    | None => i = iv
    | Some b => k_min k <= i <= k_max k /\ exists z, signed decimal b z /\ (- 2 ^ 31 <= z < 2 ^ 31 -> i = z)
    end
  end.
(** a get with type [ty] sees the text or the number *)
Definition sees (ty : dtype) (d : done) (str : option (list Z)) (i : Z) : Prop :=
  match ty with TStr => o_str d = str | TData => True | _ => o_int d = i end.
Definition may_get (kt ty : dtype) : Prop := kt = ty \/ (kt = TEnum \/ kt = TBool) /\ ty = TInt.

(** what each call returns, given the calls before it *)
Definition explained (bs : list bspec) (tr : list done) (d : done) : Prop :=
  match o_op d with
  | OGet c n co ty =>
    match known bs tr n with
    | None => o_err d = GE_NOTFOUND
    | Some k =>
      (~ may_get (k_type k) ty -> o_err d = GE_INVAL) /\
      (may_get (k_type k) ty ->
        match (match c with Some _ => last_set tr n c | None => None end) with
        | Some (sv, iv) => o_err d = 0 /\ exists str i, set_gives k sv iv str i /\ sees ty d str i
        | None =>
          if co then o_err d = GE_NOTFOUND
          else match last_set tr n None with
          | Some (sv, iv) => o_err d = 0 /\ exists str i, set_gives k sv iv str i /\ sees ty d str i
          | None => o_err d = 0 /\ sees ty d (k_str k) (k_int k)
          end
        end)
    end
  | OAdd n _ _ _ _ _ _ => o_err d = match known bs tr n with Some _ => GE_EXISTS | None => 0 end
  | OSet c n sv iv =>
    match known bs tr n with
    | None => o_err d = GE_NOTFOUND
    | Some k => o_err d = 0 -> exists str i, set_gives k sv iv str i
    end
  | ODel (Some c) n _ => o_err d = match known bs tr n with Some _ => match last_set tr n (Some c) with Some _ => 0 | None => GE_NOTFOUND end | None => GE_NOTFOUND end
  | ODel None n dc =>
    match known bs tr n with
    | None => o_err d = GE_NOTFOUND
    | Some k =>
      if k_builtin k then o_err d = GE_NOTSUP
      else (o_err d = 0 <-> dc = true \/ forall c, last_set tr n (Some c) = None) /\ (o_err d = 0 \/ o_err d = GE_INUSE)
    end
  | OReset => o_err d = 0
  end.
Fixpoint all_explained (bs : list bspec) (tr : list done) : Prop :=
  match tr with [] => True | d :: tr => explained bs tr d /\ all_explained bs tr end.

(** what the caller must see to: the data is there; data is not asked for (see the refuted theorem) *)
Definition caller_ok (bs : list bspec) (tr : list done) (op : dop) : Prop :=
  match op with
  | OAdd n TData (Some b) iv _ _ _ => 0 <= iv < INT_MAX /\ iv <= Z.of_nat (length b)
  | OSet c n sv iv => forall k, known bs tr n = Some k -> k_type k = TData -> iv < INT_MAX /\ iv <= Z.of_nat (length (match sv with Some b => b | None => [] end))
  | OGet c n co ty => ty <> TData
  | _ => True
  end.
(** the value allocations the defaults use *)
Definition vid (v : dval) : list nat := match v_str v with Some (a, _) => [a] | None => [] end.
Definition used_by (e : entry) : list nat := vid (d_val e) ++ flat_map (fun p => vid (snd p)) (d_classes e).
Definition used (s : dstate) : list nat := flat_map used_by (s_builtin s) ++ flat_map used_by (s_user s).
