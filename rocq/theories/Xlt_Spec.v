(** What a user of xlt may expect, without reference to the filter's buffer. *)
From Verif Require Import Base Xlt_Model.
Open Scope Z_scope.

(** The translation of a byte *)
Definition tr (tbl : list Z) (c : Z) : Z := nth (Z.to_nat c) tbl 0.

(** A sequence of calls, each with its data and the handler's answer *)
Definition call := (list (list Z) * answer)%type.
Fixpoint xlt_run (x : xdir) (cs : list call) : option (xdir * list xres) :=
  match cs with
  | [] => Some (x, [])
  | (sg, a) :: cs =>
      ' (x, r) <- xlt_write x sg a ;;
      ' (x, rs) <- xlt_run x cs ;;
      Some (x, r :: rs)
  end.
(** the input bytes the calls took over *)
Fixpoint taken (cs : list call) (rs : list xres) : list Z :=
  match cs, rs with
  | (sg, _) :: cs, r :: rs => firstn (xr_taken r) (concat sg) ++ taken cs rs
  | _, _ => []
  end.

(** A user with data to write who offers, on each call, all that the counts
    returned so far leave.  Result: the bytes passed on and the data left. *)
Fixpoint follow (x : xdir) (data : list Z) (l : list answer) : option (xdir * list Z * list Z) :=
  match l with
  | [] => Some (x, [], data)
  | a :: l =>
      ' (x, r) <- xlt_write x [data] a ;;
      let n := match xr_count r with Some n => n | None => 0%nat end in
      ' (x, s, d) <- follow x (skipn n data) l ;;
      Some (x, xr_sent r ++ s, d)
  end.

(** The meaning of the options: the last one that mentions a byte decides. *)
Definition up (f : Z -> Z) (k v : Z) : Z -> Z := fun c => if c =? k then v else f c.
Fixpoint spec_opts (io : (Z -> Z) * (Z -> Z)) (l : list xopt) : (Z -> Z) * (Z -> Z) :=
  match l with
  | [] => io
  | XIn a b :: l => spec_opts (up (fst io) a b, snd io) l
  | XOut a b :: l => spec_opts (fst io, up (snd io) a b) l
  | XCrlf true :: l => spec_opts (up (fst io) 13 10, up (snd io) 10 13) l
  | XLfcr true :: l => spec_opts (up (fst io) 10 13, up (snd io) 13 10) l
  | _ :: l => spec_opts io l
  end.
Definition opt_nonneg (o : xopt) : Prop :=
  match o with XIn a b | XOut a b => 0 <= a /\ 0 <= b | _ => True end.
(** both numbers name a byte *)
Definition opt_ok (o : xopt) : Prop :=
  match o with XIn a b | XOut a b => a < 256 /\ b < 256 | _ => True end.
Definition opt_true (o : xopt) : Prop :=
  match o with XCrlf b | XLfcr b => b = true | _ => True end.
