(** Properties of lib/gensio_trace.c. *)
From Verif Require Import Base Trace_Model Trace_Spec.
From Coq Require Import Lia.
Open Scope nat_scope.

Lemma sg_first : forall sg w, concat (sg_loop w sg) = firstn w (concat sg).
Proof.
  induction sg as [|b sg IH]; intros w; cbn [sg_loop concat]; [rewrite firstn_nil; reflexivity|].
  destruct (Nat.eqb_spec w 0) as [->|N]; [reflexivity|]. rewrite firstn_app. destruct (Nat.ltb_spec w (length b)) as [L|L]; cbn [concat]; rewrite IH.
  - replace (w - w) with 0 by lia. replace (w - length b) with 0 by lia. reflexivity.
  - rewrite firstn_all, (firstn_all2 b) by assumption. reflexivity.
Qed.
Lemma add_len_eq : forall sg n, add_len n sg = n + length (concat sg).
Proof. unfold add_len. induction sg as [|b sg IH]; intros n; cbn [fold_left concat]; [cbn; lia|]. rewrite IH, app_length. lia. Qed.
Lemma rawbytes_app : forall a b, rawbytes (a ++ b) = rawbytes a ++ rawbytes b.
Proof. induction a as [|[d|o e|o n d] a IH]; intros b; cbn; rewrite ?IH, ?app_assoc; reflexivity. Qed.
Lemma erecs_app : forall a b, erecs (a ++ b) = erecs a ++ erecs b.
Proof. induction a as [|[d|o e|o n d] a IH]; intros b; cbn; rewrite ?IH; reflexivity. Qed.
Lemma rawbytes_map : forall l, rawbytes (map FRaw l) = concat l.
Proof. induction l as [|a l IH]; cbn; rewrite ?IH; reflexivity. Qed.
Lemma erecs_map : forall l, erecs (map FRaw l) = [].
Proof. induction l; auto. Qed.

(** C164: data that is not blocked is handed on unchanged and once, and the call gives what the layer
    it was handed to gave. *)
Theorem C164_pass : forall c s sg b e n,
  (has_w (c_block c) = false -> hd_error (t_res (tstep c (TUl sg e n) s)) = Some (mkr e (if (e =? 0)%Z then Some n else None) [sg])) /\
  (has_r (c_block c) = false -> hd_error (t_res (tstep c (TLl b e n) s)) = Some (mkr e (if (e =? 0)%Z then Some n else None) [[b]])).
Proof. intros c s sg b e n. unfold tstep, ul_write, ll_write. split; intros ->; reflexivity. Qed.
Print Assumptions C164_pass.
Example pass_case : t_res (trun (mkc DIR_BOTH DIR_WRITE DIR_READ true true false) [TConnect; TUl [[1; 2]; [3]]%Z 0 2; TUl [[3]]%Z 9 0] trace_alloc) = [mkr 9 None [[[3%Z]]]; mkr 0 (Some 2) [[[1; 2]%Z; [3%Z]]]].
Proof. reflexivity. Qed.

(** C164: blocked data is handed to nobody, and the call tells that all of it was taken; for writes
    if they are not traced before.  Missing: see [C164_count_refuted]. *)
Theorem C164_block_partial : forall c s sg b e n,
  (has_w (c_block c) = true -> has_w (c_b4 c) = false -> hd_error (t_res (tstep c (TUl sg e n) s)) = Some (mkr 0 (Some (length (concat sg))) [])) /\
  (has_r (c_block c) = true -> hd_error (t_res (tstep c (TLl b e n) s)) = Some (mkr 0 (Some (length b)) [])).
Proof.
  intros c s sg b e n. unfold tstep, ul_write, ll_write. split; [intros -> ->|intros ->; reflexivity]. rewrite add_len_eq. reflexivity.
Qed.
Print Assumptions C164_block_partial.
Example block_case : t_res (trun (mkc DIR_BOTH DIR_READ DIR_BOTH true true false) [TConnect; TUl [[1; 2]; [3]]%Z 0 2; TLl [4]%Z 0 0] trace_alloc) = [mkr 0 (Some 1) []; mkr 0 (Some 3) []].
Proof. reflexivity. Qed.

(** Writes that are blocked and traced before are told to be taken twice. *)
Theorem C164_count_refuted : forall c s sg e n, has_w (c_block c) = true -> has_w (c_b4 c) = true ->
  hd_error (t_res (tstep c (TUl sg e n) s)) = Some (mkr 0 (Some (2 * length (concat sg))) []).
Proof. intros c s sg e n A B. unfold tstep, ul_write. rewrite A, B, !add_len_eq. cbn [hd_error t_res]. do 2 f_equal. f_equal. lia. Qed.
Print Assumptions C164_count_refuted.
Example count_case : t_res (trun (mkc DIR_NONE DIR_WRITE DIR_WRITE true true false) [TConnect; TUl [[1; 2; 3]]%Z 0 0] trace_alloc) = [mkr 0 (Some 6) []].
Proof. reflexivity. Qed.

Lemma data_raw : forall c o w sg, c_raw c = true -> rawbytes (trace_data c true o 0 w sg) = firstn w (concat sg).
Proof.
  intros c o w sg R. unfold trace_data. cbn [negb]. rewrite Z.eqb_refl, R. cbn [negb]. destruct w; [reflexivity|]. cbn [Nat.ltb Nat.leb].
  rewrite rawbytes_map. apply sg_first.
Qed.
Lemma err_raw : forall c o e w sg, c_raw c = true -> (e =? 0)%Z = false -> trace_data c true o e w sg = [].
Proof. intros c o e w sg R E. unfold trace_data. rewrite E, R. reflexivity. Qed.
Lemma step_raw : forall c ev s, c_raw c = true -> c_file c = true -> isdata ev -> t_open s = true ->
  t_open (tstep c ev s) = true /\ rawbytes (t_file (tstep c ev s)) = rawbytes (t_file s) ++ should c ev.
Proof.
  intros c ev s R F D T. destruct ev as [| |sg e n|b e n]; try contradiction D; unfold tstep, ul_write, ll_write, eff_dir, should; rewrite F, T.
  - destruct (has_w (c_block c)); cbn [t_open t_file]; (split; [reflexivity|]); rewrite !rawbytes_app; f_equal.
    + rewrite andb_false_r. cbn [andb]. rewrite app_nil_r. destruct (has_w (c_b4 c)); [|reflexivity]. rewrite data_raw by exact R. rewrite add_len_eq. apply firstn_all.
    + f_equal.
      * destruct (has_w (c_b4 c)); [|reflexivity]. rewrite data_raw by exact R. rewrite add_len_eq. apply firstn_all.
      * destruct (has_w (c_dir c)); [|reflexivity]. cbn [andb negb]. destruct (Z.eqb_spec e 0) as [->|N]; [apply data_raw, R|]. rewrite err_raw; [reflexivity|exact R|apply Z.eqb_neq, N].
  - destruct (has_r (c_block c)); cbn [t_open t_file]; (split; [reflexivity|]); rewrite !rawbytes_app; f_equal.
    + rewrite andb_false_r. cbn [andb]. rewrite app_nil_r. destruct (has_r (c_b4 c)); [|reflexivity]. rewrite data_raw by exact R. cbn [concat]. rewrite app_nil_r. apply firstn_all.
    + f_equal.
      * destruct (has_r (c_b4 c)); [|reflexivity]. rewrite data_raw by exact R. cbn [concat]. rewrite app_nil_r. apply firstn_all.
      * destruct (has_r (c_dir c)); [|reflexivity]. cbn [andb negb]. destruct (Z.eqb_spec e 0) as [->|N].
        -- rewrite data_raw by exact R. cbn [concat]. rewrite app_nil_r. reflexivity.
        -- rewrite err_raw; [reflexivity|exact R|apply Z.eqb_neq, N].
Qed.

Lemma data_israw : forall c open o e w sg, c_raw c = true -> Forall israw (trace_data c open o e w sg).
Proof.
  intros c open o e w sg R. unfold trace_data. rewrite R. destruct open, (e =? 0)%Z; cbn [negb]; try constructor.
  destruct (0 <? w); [|constructor]. induction (sg_loop w sg); cbn; constructor; auto. exact Logic.I.
Qed.
Lemma step_israw : forall c ev s, c_raw c = true -> Forall israw (t_file s) -> Forall israw (t_file (tstep c ev s)).
Proof.
  intros c ev s R H. destruct ev as [| |sg e n|b e n]; unfold tstep, ul_write, ll_write.
  - destruct (t_open s); [exact H|]. cbn [t_file]. destruct (c_file c && c_del c); [constructor|exact H].
  - exact H.
  - destruct (has_w (c_block c)), (has_w (c_b4 c)), (has_w (eff_dir c)); cbn [t_file]; repeat (apply (proj2 (Forall_app _ _ _)); split); auto; apply data_israw, R.
  - destruct (has_r (c_block c)), (has_r (c_b4 c)), (has_r (eff_dir c)); cbn [t_file]; repeat (apply (proj2 (Forall_app _ _ _)); split); auto; apply data_israw, R.
Qed.

(** C165: while open, a raw trace grows by exactly the bytes that were offered or accepted in the
    directions that are traced, in order; nothing else is written. *)
Theorem C165_raw : forall c es s, c_raw c = true -> c_file c = true -> Forall isdata es -> t_open s = true ->
  rawbytes (t_file (trun c es s)) = rawbytes (t_file s) ++ concat (map (should c) es) /\
  (Forall israw (t_file s) -> Forall israw (t_file (trun c es s))).
Proof.
  intros c es. induction es as [|e es IH]; intros s R F D T; cbn; [rewrite app_nil_r; auto|]. inversion D; subst.
  destruct (step_raw c e s) as (A & B); try assumption. unfold trun in IH. destruct (IH (tstep c e s)) as (K & L); try assumption. rewrite K, B, app_assoc. split; [reflexivity|].
  intros H. apply L. apply step_israw; assumption.
Qed.
Print Assumptions C165_raw.
Example raw_case : rawbytes (t_file (trun (mkc DIR_WRITE DIR_READ DIR_NONE true true false) [TConnect; TUl [[1; 2]; []; [3; 4]]%Z 0 3; TLl [9]%Z 5 0; TUl [[7]]%Z 5 0; TUl [[4]]%Z 0 1] trace_alloc)) = [1; 2; 3; 9; 4]%Z.
Proof. reflexivity. Qed.

Lemma closed_keeps : forall c es s, (forall ev, In ev es -> ev <> TConnect) -> t_open s = false ->
  t_file (trun c es s) = t_file s /\ t_file (tstep c TConnect (trun c es s)) = if c_file c && c_del c then [] else t_file s.
Proof.
  intros c es s N T.
  assert (H : t_open (trun c es s) = false /\ t_file (trun c es s) = t_file s).
  { revert s N T. induction es as [|e es IH]; intros s N T; [auto|]. cbn. unfold trun in IH.
    assert (K : t_open (tstep c e s) = false /\ t_file (tstep c e s) = t_file s).
    { destruct e as [| |sg e n|b e n]; cbn [tstep]; [contradiction (N TConnect (or_introl eq_refl)); reflexivity|auto| |]; unfold ul_write, ll_write; rewrite T; unfold trace_data; cbn [negb];
        [destruct (has_w (c_block c)), (has_w (c_b4 c)), (has_w (eff_dir c))|destruct (has_r (c_block c)), (has_r (c_b4 c)), (has_r (eff_dir c))]; cbn; rewrite ?app_nil_r; auto. }
    destruct K as (K1 & K2). destruct (IH (tstep c e s)) as (A & B); [intros ev I; apply N; right; exact I|exact K1|]. rewrite B, K2. auto. }
  destruct H as (A & B). cbn [tstep]. rewrite A, B. auto.
Qed.
(** C165: a trace that was closed is kept when the gensio is opened again, unless it is to be
    deleted; while closed nothing is added. *)
Theorem C165_reopen : forall c es s, (forall ev, In ev es -> ev <> TConnect) ->
  t_file (trun c (TCleanup :: es) s) = t_file s /\ t_file (trun c (TCleanup :: es ++ [TConnect]) s) = if c_file c && c_del c then [] else t_file s.
Proof.
  intros c es s N. destruct (closed_keeps c es (tstep c TCleanup s) N eq_refl) as (A & B). split; [exact A|].
  unfold trun. cbn [fold_left]. rewrite fold_left_app. exact B.
Qed.
Print Assumptions C165_reopen.
Example reopen_case : t_file (trun (mkc DIR_WRITE DIR_NONE DIR_NONE true true false) [TConnect; TUl [[1]]%Z 0 1; TCleanup; TUl [[2]]%Z 0 1; TConnect; TUl [[3]]%Z 0 1] trace_alloc) = [FRaw [1]; FRaw [3]]%Z.
Proof. reflexivity. Qed.

(** C166: in a trace of text each error of a call that is traced after is noted once and in order,
    and counts are those of the bytes shown, if the layer below accepts no more than it is given. *)
Lemma data_text : forall c open o e w sg, c_raw c = false -> w <= length (concat sg) -> Forall rec_ok (trace_data c open o e w sg).
Proof.
  intros c open o e w sg R L. unfold trace_data. rewrite R. destruct open; cbn [negb]; [|constructor]. destruct (e =? 0)%Z; cbn [negb]; [|repeat constructor].
  destruct w; [constructor|]. cbn [Nat.ltb Nat.leb]. repeat constructor; unfold rec_ok; rewrite sg_first.
  - rewrite firstn_length. lia.
  - intros K. apply (f_equal (@length Z)) in K. rewrite firstn_length in K. cbn [length] in K. lia.
Qed.
Lemma data_err : forall c o e w sg, c_raw c = false -> erecs (trace_data c true o e w sg) = if (e =? 0)%Z then [] else [e].
Proof. intros c o e w sg R. unfold trace_data. rewrite R. cbn [negb]. destruct (e =? 0)%Z; cbn [negb]; [|reflexivity]. destruct (0 <? w); reflexivity. Qed.
Lemma step_text : forall c ev s, c_raw c = false -> c_file c = true -> isdata ev -> t_open s = true ->
  t_open (tstep c ev s) = true /\ erecs (t_file (tstep c ev s)) = erecs (t_file s) ++ shoulderr c ev.
Proof.
  intros c ev s R F D T. destruct ev as [| |sg e n|b e n]; try contradiction D; unfold tstep, ul_write, ll_write, eff_dir, shoulderr; rewrite F, T.
  - destruct (has_w (c_block c)), (has_w (c_b4 c)), (has_w (c_dir c)); cbn [t_open t_file]; (split; [reflexivity|]); rewrite ?erecs_app, ?data_err by exact R; cbn; rewrite ?app_nil_r; destruct (e =? 0)%Z; reflexivity.
  - destruct (has_r (c_block c)), (has_r (c_b4 c)), (has_r (c_dir c)); cbn [t_open t_file]; (split; [reflexivity|]); rewrite ?erecs_app, ?data_err by exact R; cbn; rewrite ?app_nil_r; destruct (e =? 0)%Z; reflexivity.
Qed.
Lemma step_recs : forall c ev s, c_raw c = false -> sane ev -> Forall rec_ok (t_file s) -> Forall rec_ok (t_file (tstep c ev s)).
Proof.
  intros c ev s R S1 H. destruct ev as [| |sg e n|b e n]; unfold tstep, ul_write, ll_write; cbn [sane] in S1.
  - destruct (t_open s); [exact H|]. cbn [t_file]. destruct (c_file c && c_del c); [constructor|exact H].
  - exact H.
  - destruct (has_w (c_block c)), (has_w (c_b4 c)), (has_w (eff_dir c)); cbn [t_file]; repeat (apply (proj2 (Forall_app _ _ _)); split); auto; try (apply data_text; [exact R|]); try (rewrite add_len_eq); cbn; auto.
  - destruct (has_r (c_block c)), (has_r (c_b4 c)), (has_r (eff_dir c)); cbn [t_file]; repeat (apply (proj2 (Forall_app _ _ _)); split); auto; try (apply data_text; [exact R|]); cbn [concat]; rewrite ?app_nil_r; auto.
Qed.
Theorem C166_text : forall c es s, c_raw c = false -> c_file c = true -> Forall isdata es -> t_open s = true ->
  erecs (t_file (trun c es s)) = erecs (t_file s) ++ concat (map (shoulderr c) es) /\
  (Forall sane es -> Forall rec_ok (t_file s) -> Forall rec_ok (t_file (trun c es s))).
Proof.
  intros c es. induction es as [|e es IH]; intros s R F D T; cbn; [rewrite app_nil_r; auto|]. inversion D; subst.
  destruct (step_text c e s) as (A & B); try assumption. unfold trun in IH. destruct (IH (tstep c e s)) as (K & L); try assumption. rewrite K, B, app_assoc. split; [reflexivity|].
  intros SA RO. inversion SA; subst. apply L; [assumption|]. apply step_recs; assumption.
Qed.
Print Assumptions C166_text.
Example text_case : t_file (trun (mkc DIR_BOTH DIR_NONE DIR_NONE false true false) [TConnect; TUl [[1; 2]; [3]]%Z 0 3; TLl [9]%Z 5 0; TUl [[7]]%Z 0 0] trace_alloc) = [FData Write 3 [1; 2; 3]%Z; FErr Read 5].
Proof. reflexivity. Qed.
