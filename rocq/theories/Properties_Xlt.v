(** Properties of the xlt filter: C25, C65. *)
From Verif Require Import Base Xlt_Model Xlt_Spec Xlt_Proofs Xlt_Proofs2.
Open Scope Z_scope.

(** The count claim of C25 is false: the count of a call includes the bytes
    left over from the calls before it... *)
Theorem C25_count_refuted : exists cs x r1 r2,
  Forall (fun c => Forall bytes_ok (fst c)) cs /\
  xlt_run (xd_init ident) cs = Some (x, [r1; r2]) /\
  xr_taken r2 = 251%nat /\ xr_count r2 = Some 256%nat.
Proof.
  exists bad_calls. destruct xlt_count_bad as (x & r1 & r2 & H). exists x, r1, r2.
  split; [|exact H]. repeat constructor; discriminate.
Qed.
Print Assumptions C25_count_refuted.

(** ... even more than was offered (1 byte offered, 4 reported)... *)
Theorem C25_count_exceeds_refuted : exists x r1 r2,
  xlt_run (xd_init ident) [([[1;2;3;4]], Some 1%nat); ([[5]], Some 256%nat)] = Some (x, [r1; r2]) /\
  xr_count r2 = Some 4%nat.
Proof. exact xlt_count_too_large. Qed.
Print Assumptions C25_count_exceeds_refuted.

(** ... so a user who offers what the counts leave loses data: what is sent and
    held is not the translation of a prefix. *)
Theorem C25_user_loses_data_refuted : exists data l x s d,
  follow (xd_init ident) data l = Some (x, s, d) /\
  forall n, s ++ xlt_pending x <> map (tr ident) (firstn n data).
Proof.
  exists (bad_data ++ bad_data), [Some 5; Some 256; Some 256]%nat. exact follow_bad.
Qed.
Print Assumptions C25_user_loses_data_refuted.

(** What holds, for every table, data, scatter/gather splitting and answers of
    the lower layer (partial acceptance and errors included): no access out of
    bounds, and what was passed on followed by what is held is the translation
    of the bytes taken over, each exactly once and in order. *)
Theorem C25_translation : forall tbl cs,
  length tbl = 256%nat -> Forall (fun c => Forall bytes_ok (fst c)) cs ->
  exists x rs, xlt_run (xd_init tbl) cs = Some (x, rs) /\
    concat (map xr_sent rs) ++ xlt_pending x = map (tr tbl) (taken cs rs).
Proof. exact xlt_stream. Qed.
Print Assumptions C25_translation.

(** Each call: takes as much as fits; the count is exact precisely when nothing
    was held before.  Missing from C25: the count when something was held. *)
Theorem C25_call_partial : forall x sg a, xok x -> Forall bytes_ok sg ->
  exists x' r, xlt_write x sg a = Some (x', r) /\ xok x' /\ xd_tbl x' = xd_tbl x /\
    xr_taken r = Nat.min (256 - length (xlt_pending x)) (length (concat sg)) /\
    xlt_pending x ++ map (tr (xd_tbl x)) (firstn (xr_taken r) (concat sg)) =
      xr_sent r ++ xlt_pending x' /\
    match a, xr_count r with
    | Some n, Some c => c = (length (xlt_pending x) + xr_taken r)%nat /\
         length (xr_sent r) = Nat.min n c
    | None, Some c => c = 0%nat /\ xlt_pending x = []
    | None, None => xr_sent r = []
    | _, _ => False
    end.
Proof. exact xlt_write_ok. Qed.
Print Assumptions C25_call_partial.

(** A user who follows the counts over a lower layer that takes everything it
    is given loses nothing and makes progress. *)
Theorem C25_user_partial : forall l x data, xok x -> xlt_pending x = [] -> bytes_ok data ->
  Forall (fun a => exists n, a = Some n /\ (256 <= n)%nat) l ->
  exists x' s d, follow x data l = Some (x', s, d) /\ xlt_pending x' = [] /\
    exists taken, data = taken ++ d /\ s = map (tr (xd_tbl x)) taken /\
      length taken = Nat.min (length data) (256 * length l).
Proof. exact follow_all_ok. Qed.
Print Assumptions C25_user_partial.

Example C25_ex : exists u, snd u = [13; 65; 13] /\
  exists i x s d, xlt_config [XCrlf true] = Some (i, fst u) /\
  follow (xd_init (fst u)) [10; 65; 10] [Some 256%nat] = Some (x, s, d) /\ s = snd u.
Proof.
  eexists (_, [13; 65; 13]). split; [reflexivity|]. eexists _, _, _, _.
  split; [vm_compute; reflexivity|]. split; [vm_compute; reflexivity|]. reflexivity.
Qed.

(** C65: a second number that is no byte is accepted and truncated, ... *)
Theorem C65_range_refuted : exists i u, xlt_config [XIn 65 300] = Some (i, u) /\ tr i 65 = 44.
Proof. eexists _, _. split; [vm_compute; reflexivity|vm_compute; reflexivity]. Qed.
Print Assumptions C65_range_refuted.

(** ... and a boolean option set to false takes effect. *)
Theorem C65_false_refuted : exists i u, xlt_config [XCrlf false] = Some (i, u) /\ tr i 13 = 10.
Proof. eexists _, _. split; [vm_compute; reflexivity|vm_compute; reflexivity]. Qed.
Print Assumptions C65_false_refuted.

(** For options with numbers below 256 and booleans that are true the tables
    are those described.  Missing: the two cases above. *)
Theorem C65_options_partial : forall l,
  Forall opt_nonneg l -> Forall opt_ok l -> Forall opt_true l ->
  exists i u, xlt_config l = Some (i, u) /\ length i = 256%nat /\ length u = 256%nat /\
    forall c, is_byte c ->
      tr i c = fst (spec_opts (fun c => c, fun c => c) l) c /\
      tr u c = snd (spec_opts (fun c => c, fun c => c) l) c.
Proof. exact xlt_config_ok. Qed.
Print Assumptions C65_options_partial.

Example C65_ex : Forall opt_nonneg [XIn 65 66; XCrlf true; XIn 65 67] /\
  fst (spec_opts (fun c => c, fun c => c) [XIn 65 66; XCrlf true; XIn 65 67]) 65 = 67.
Proof. split; [|reflexivity]. repeat constructor; discriminate. Qed.
