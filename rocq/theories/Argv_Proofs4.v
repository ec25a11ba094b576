(** The statements of the properties of lib/utils.c. *)
From Verif Require Import Base Mem_Model Mem_Proofs Cstr_Model Cstr_Spec Cstr_Proofs Cstr_Proofs2
  Cstr_Proofs3 Argv_Model Argv_Spec Argv_Proofs Argv_Proofs2 Argv_Proofs3.
Open Scope nat_scope.

Lemma short_value d : hex_digit d -> short_hex_value d = digit_add d.
Proof.
  unfold hex_digit, short_hex_value, digit_add, isdigit, isupper. intros H.
  destruct (d <=? 57)%Z eqn:E1, (48 <=? d)%Z eqn:E2, (d <=? 70)%Z eqn:E3, (65 <=? d)%Z eqn:E4, (d <=? 90)%Z eqn:E5;
    cbn; lia.
Qed.

Lemma as_coded_iff seps ends q s v r : as_coded seps ends q s v r <-> code_means seps ends q s v r.
Proof.
  split; apply denotes_mono; auto; intros d Hd _; (split; [exact Hd|]); [|symmetry]; apply short_value; exact Hd.
Qed.

Lemma tokens_coded_iff seps ends s v r : tokens_as_coded seps ends s v r <-> code_tokens seps ends s v r.
Proof.
  split; apply tokens_mono; auto; intros d Hd _; (split; [exact Hd|]); [|symmetry]; apply short_value; exact Hd.
Qed.

(** no allocation fails *)
Lemma never_failed f : (forall n, f n = false) -> ~ failed f.
Proof. intros H [n Hn]. rewrite H in Hn. discriminate. Qed.

(** * Escapes *)
Lemma denotes_nil_rest hd dv lone q s v r : denotes hd dv lone [] [] q s v r -> r = [].
Proof. induction 1; auto; contradiction. Qed.

Lemma cstr_to_buf_decimal s v r : cstr_ok s ->
  denotes decimal_digit hex_value False [] [] 0%Z s v r -> cstr_to_buf s = Some (Some v).
Proof.
  intros Hs D. unfold cstr_to_buf.
  rewrite (denotes_scan 0 [] [] s v r decimal_digit hex_value False); [|lia| |exact D|exact Hs].
  - cbn [obind repeat]. rewrite app_nil_r. reflexivity.
  - intros d Hd Hd'. apply decimal_value; assumption.
Qed.

Lemma cstr_to_buf_exact s : cstr_ok s ->
  (exists r, cstr_to_buf s = Some r) /\
  (forall v, cstr_to_buf s = Some (Some v) <-> as_coded [] [] 0%Z s v []).
Proof.
  intros Hs. unfold cstr_to_buf.
  destruct (scan_total 0 [] [] s) as [[v [r [-> D]]]|[-> N]]; [lia|exact Hs| |]; cbn [obind repeat].
  - split; [eexists; reflexivity|]. rewrite app_nil_r. intros v'.
    pose proof (denotes_nil_rest _ _ _ _ _ _ _ D). subst r. split.
    + intros E. injection E as E. subst v'. apply as_coded_iff. exact D.
    + intros D'. apply as_coded_iff in D'. destruct (code_det [] [] 0%Z s v [] v' [] Hs (or_introl eq_refl) D D') as [-> _]. reflexivity.
  - split; [eexists; reflexivity|]. intros v. split; [discriminate|].
    intros D. apply as_coded_iff in D. destruct (N _ _ D).
Qed.

(** * Quoting *)
Lemma tokens_det_code seps ends s v r v' r' : cstr_ok s ->
  code_tokens seps ends s v r -> code_tokens seps ends s v' r' -> v = v' /\ r = r'.
Proof.
  intros Hs T T'. destruct (tokens_det hex_digit digit_add True seps ends s v r (code_det seps ends) Hs T v' r' T').
  auto.
Qed.

Lemma quoted_as_quoted s : cstr_ok s -> quoted_as s (quoted s).
Proof.
  intros H. exists (quoted s ++ [0%Z]). split; [apply quote_string_ok|].
  apply cstring_app. apply quoted_ok. exact H.
Qed.

Lemma quoted_as_inv s q : cstr_ok s -> quoted_as s q -> q = quoted s.
Proof.
  intros H [b [E C]]. rewrite quote_string_ok in E. assert (X : b = quoted s ++ [0%Z]) by congruence.
  rewrite X, cstring_app in C by (apply quoted_ok; exact H). congruence.
Qed.

Lemma all_quoted ss qs : Forall cstr_ok ss -> Forall2 quoted_as ss qs -> qs = map quoted ss.
Proof.
  intros H F. induction F as [|s q ss qs Hq F IH]; [reflexivity|]. inversion H; subst.
  cbn [map]. rewrite IH by assumption. f_equal. apply quoted_as_inv; assumption.
Qed.

Lemma all_quoted_ok ss : Forall cstr_ok ss -> Forall cstr_ok (map quoted ss).
Proof. induction 1; constructor; auto. apply quoted_ok. assumption. Qed.

Lemma quoted_to_argv f m0 seps ss qs :
  mem_ok m0 -> Forall cstr_ok ss -> Forall2 quoted_as ss qs -> ~ In 34%Z seps -> In 32%Z seps ->
  exists m r, str_to_argv f m0 seps (spaced qs) = Some (m, r) /\
    ((exists p, r = inr (p, length ss, []) /\ has_argv m0 m p ss) \/
     (r = inl ENomem /\ failed f /\ same_blocks m m0)).
Proof.
  intros H0 Hs Q N1 H32. rewrite (all_quoted _ _ Hs Q).
  assert (T : code_tokens seps [] (spaced (map quoted ss)) ss []).
  { rewrite <- (app_nil_r (spaced _)). apply tokens_spaced; auto. }
  destruct (str_to_argv_ok f m0 seps [] (spaced (map quoted ss)) H0) as [m [r (E & R)]].
  { apply spaced_ok. apply all_quoted_ok. exact Hs. }
  exists m, r. split; [exact E|]. destruct r as [[|]|[[p n] rest]].
  - destruct R as [_ R]. destruct (R _ _ T).
  - right. destruct R. auto.
  - left. destruct R as [vs (T' & -> & A)].
    assert (X : vs = ss /\ rest = []).
    { eapply tokens_det_code; [|exact T'|exact T]. apply spaced_ok. apply all_quoted_ok. exact Hs. }
    destruct X; subst vs rest. exists p. auto.
Qed.

(** the argument list of a gensio string *)
Lemma quoted_scan_args f m0 ss qs rest :
  mem_ok m0 -> Forall cstr_ok ss -> Forall2 quoted_as ss qs -> cstr_ok rest ->
  exists m a r, scan_args f m0 (40%Z :: spaced qs ++ 41%Z :: 44%Z :: rest) = Some (m, a, r) /\
    ((exists p, a = Some (p, length ss) /\ r = inr rest /\ has_argv m0 m p ss) \/
     (a = None /\ r = inl ENomem /\ failed f /\ same_blocks m m0)).
Proof.
  intros H0 Hs Q Hr. rewrite (all_quoted _ _ Hs Q).
  assert (Ht : cstr_ok (spaced (map quoted ss) ++ 41%Z :: 44%Z :: rest)).
  { apply Forall_app. split; [apply spaced_ok; apply all_quoted_ok; exact Hs|].
    constructor; [lia|]. constructor; [lia|exact Hr]. }
  assert (T : code_tokens arg_seps [41%Z] (spaced (map quoted ss) ++ 41%Z :: 44%Z :: rest) ss (41%Z :: 44%Z :: rest)).
  { apply tokens_spaced; [exact Hs| | | |].
    - cbn. lia.
    - cbn. lia.
    - left. reflexivity.
    - right. do 2 eexists. split; [reflexivity|]. cbn. lia. }
  destruct (scan_args_ok f m0 (40%Z :: spaced (map quoted ss) ++ 41%Z :: 44%Z :: rest) H0)
    as [m [a [r (E & R & N)]]].
  { constructor; [lia|exact Ht]. }
  exists m, a, r. split; [exact E|]. destruct a as [[p n]|].
  - destruct R as [vs (-> & A & R)]. cbn [hd tl] in R. change (40 =? 40)%Z with true in R. cbv iota in R.
    destruct R as [t' (T' & R)].
    destruct (tokens_det_code _ _ _ _ _ _ _ Ht T' T) as [-> ->].
    left. exists p. split; [reflexivity|]. split; [|exact A].
    destruct r as [e|rest']; [destruct R as (_ & _ & R); destruct (R rest eq_refl)|].
    destruct R as [[R _]|R]; [discriminate|]. congruence.
  - right. destruct R as [S [e ->]]. split; [reflexivity|].
    assert (X : e = ENomem).
    { destruct e; [exfalso|reflexivity]. cbn [scan_args] in E.
      change (40 =? 40)%Z with true in E. cbv iota in E.
      destruct (str_to_argv_ok f m0 arg_seps [41%Z] _ H0 Ht) as [m1 [r1 (E1 & R1)]].
      unfold arg_seps in E1. rewrite E1 in E. cbn [obind] in E.
      destruct r1 as [e1|[[p n] t']].
      - assert (e1 = EInval) by congruence. subst e1. destruct R1 as [_ R1]. destruct (R1 _ _ T).
      - destruct R1 as [vs (T1 & _)]. destruct (tokens_det_code _ _ _ _ _ _ _ Ht T1 T) as [-> ->].
        discriminate E. }
    subst e. auto.
Qed.

(** * Printing *)
Lemma printed_as b len pos ss qs :
  len <= length b -> Forall cstr_ok ss -> Forall2 quoted_as ss qs ->
  exists b', argv_snprintf b len pos ss = Some (b', pos + length (spaced qs)) /\
    length b' = length b /\ firstn pos b' = firstn pos b /\ skipn len b' = skipn len b /\
    (len <= pos -> b' = b) /\
    (pos < len -> firstn (length (truncated (len - pos) (spaced qs))) (skipn pos b') = truncated (len - pos) (spaced qs)) /\
    (pos < len -> cstring (skipn pos b') = Some (firstn (len - pos - 1) (spaced qs))).
Proof.
  intros Hl Hs Q. rewrite (all_quoted _ _ Hs Q). rewrite argv_snprintf_ok by exact Hl.
  eexists. split; [reflexivity|]. split; [apply after_len; exact Hl|].
  assert (Ok : cstr_ok (spaced (map quoted ss))) by (apply spaced_ok; apply all_quoted_ok; exact Hs).
  unfold after. destruct (len <=? pos) eqn:E.
  - apply Nat.leb_le in E. repeat split; auto; intros; lia.
  - apply Nat.leb_gt in E.
    set (t := truncated (len - pos) (spaced (map quoted ss))).
    assert (Lt : length t <= len - pos).
    { unfold t. rewrite truncated_len by lia. lia. }
    assert (Sk : skipn pos (firstn pos b ++ t ++ skipn (pos + length t) b) = t ++ skipn (pos + length t) b).
    { rewrite skipn_app, skipn_all2 by (rewrite firstn_length; lia). cbn [app].
      rewrite firstn_length. replace (pos - Nat.min pos (length b)) with 0 by lia. reflexivity. }
    split.
    { rewrite firstn_app_le by (rewrite firstn_length; lia). rewrite firstn_firstn. f_equal. lia. }
    split.
    { rewrite app_assoc, skipn_app. rewrite skipn_all2 by (rewrite app_length, firstn_length; lia).
      cbn [app]. rewrite skipn_skipn_add, app_length, firstn_length. f_equal. lia. }
    split; [intros; lia|]. split; intros _.
    + rewrite Sk. apply firstn_app_exact.
    + rewrite Sk. unfold t at 1, truncated. rewrite <- app_assoc. cbn [app].
      apply cstring_app. apply Forall_forall. intros x Hx. unfold cstr_ok in Ok. rewrite Forall_forall in Ok. apply Ok.
      rewrite <- (firstn_skipn (len - pos - 1)). apply in_or_app. left. exact Hx.
Qed.

(** * Scanning *)
Lemma str_to_argv_coded f m0 seps ends s : mem_ok m0 -> cstr_ok s ->
  exists m r, str_to_argv_endchar f m0 seps ends s = Some (m, r) /\
    match r with
    | inl EInval => same_blocks m m0 /\ forall vs rest, ~ tokens_as_coded seps ends s vs rest
    | inl ENomem => same_blocks m m0 /\ failed f
    | inr (p, n, rest) => exists vs, tokens_as_coded seps ends s vs rest /\ n = length vs /\
        has_argv m0 m p vs
    end.
Proof.
  intros H0 Hs. destruct (str_to_argv_ok f m0 seps ends s H0 Hs) as [m [r (E & R)]].
  exists m, r. split; [exact E|]. destruct r as [[|]|[[p n] rest]].
  - destruct R as [R N]. split; [exact R|]. intros vs rest T. apply tokens_coded_iff in T. exact (N _ _ T).
  - exact R.
  - destruct R as [vs (T & R)]. exists vs. split; [apply tokens_coded_iff; exact T|exact R].
Qed.

Lemma bufv_coded f m0 seps ends s : mem_ok m0 -> cstr_ok s ->
  ~ failed f \/ (forall vs r, tokens_as_coded seps ends s vs r -> length vs <= 8) /\
                 (exists vs r, tokens_as_coded seps ends s vs r) ->
  exists m r, cstr_to_bufv_endchar f m0 seps ends s = Some (m, r) /\
    match r with
    | inl EInval => same_blocks m m0 /\ forall vs rest, ~ tokens_as_coded seps ends s vs rest
    | inl ENomem => same_blocks m m0 /\ failed f
    | inr (p, k, n, rest) => exists vs, tokens_as_coded seps ends s vs rest /\ n = length vs /\
        has_bufv m0 m p k vs
    end.
Proof.
  intros H0 Hs Hf.
  destruct (cstr_to_bufv_ok f m0 seps ends s H0 Hs) as [(E & Ff & N)|[m [r (E & R)]]].
  { exfalso. destruct Hf as [Hf|[Hn [vs [r T]]]]; [contradiction|].
    specialize (Hn _ _ T). apply tokens_coded_iff in T. specialize (N _ _ T). lia. }
  exists m, r. split; [exact E|]. destruct r as [[|]|[[[p k] n] rest]].
  - destruct R as [R N]. split; [exact R|]. intros vs rest T. apply tokens_coded_iff in T. exact (N _ _ T).
  - exact R.
  - destruct R as [vs (T & R)]. exists vs. split; [apply tokens_coded_iff; exact T|exact R].
Qed.

Lemma scan_args_coded f m0 s : mem_ok m0 -> cstr_ok s ->
  exists m a r, scan_args f m0 s = Some (m, a, r) /\
    match a with
    | None => same_blocks m m0 /\ exists e, r = inl e
    | Some (p, n) => exists vs, n = length vs /\ has_argv m0 m p vs /\
        if (hd 0%Z s =? 40)%Z then
          exists t', tokens_as_coded [32; 12; 10; 13; 9; 11; 44]%Z [41%Z] (tl s) vs t' /\
            match r with
            | inr rest => t' = [41%Z] /\ rest = [] \/ t' = 41%Z :: 44%Z :: rest
            | inl e => e = EInval /\ t' <> [41%Z] /\ forall x, t' <> 41%Z :: 44%Z :: x
            end
        else vs = [] /\ r = inr (tl s)
    end /\
    (r = inl ENomem -> failed f).
Proof.
  intros H0 Hs. destruct (scan_args_ok f m0 s H0 Hs) as [m [a [r (E & R & N)]]].
  exists m, a, r. split; [exact E|]. split; [|exact N]. destruct a as [[p n]|]; [|exact R].
  destruct R as [vs (L & A & R)]. exists vs. split; [exact L|]. split; [exact A|].
  destruct (hd 0%Z s =? 40)%Z; [|exact R]. destruct R as [t' (T & R)]. exists t'.
  split; [apply tokens_coded_iff; exact T|exact R].
Qed.
