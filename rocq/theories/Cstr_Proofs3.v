(** Quoting, printing of vectors, and integers in network order. *)
From Verif Require Import Base Cstr_Model Cstr_Spec Cstr_Proofs Cstr_Proofs2.
Open Scope Z_scope.

(** * Quoting *)
Definition qbody (s : list Z) : list Z :=
  flat_map (fun c => if (c =? 34) || (c =? 92) then [92; c] else [c]) s.

Lemma needs_bs_eq c : needs_bs c = (c =? 34) || (c =? 92).
Proof. unfold needs_bs. apply orb_comm. Qed.

Lemma quote_count_len s : quote_count s = (length (qbody s) + 3)%nat.
Proof.
  induction s as [|c s IH]; [reflexivity|]. cbn [quote_count qbody flat_map].
  fold (qbody s). rewrite app_length, IH, needs_bs_eq.
  destruct ((c =? 34) || (c =? 92)); cbn [length]; lia.
Qed.

Lemma mset_zeros (a : list Z) n x : (0 < n)%nat ->
  mset (a ++ repeat 0 n) (length a) x = Some ((a ++ [x]) ++ repeat 0 (n - 1)).
Proof.
  intros H. destruct n as [|n]; [lia|]. cbn [repeat]. replace (S n - 1)%nat with n by lia.
  unfold mset, mwrite. cbn [length].
  replace (length a + 1 <=? length (a ++ 0%Z :: repeat 0%Z n))%nat with true
    by (symmetry; apply Nat.leb_le; rewrite app_length; cbn [length]; lia).
  rewrite firstn_app_exact.
  replace (a ++ 0 :: repeat 0 n) with ((a ++ [0]) ++ repeat 0 n) by (rewrite <- app_assoc; reflexivity).
  replace (length a + 1)%nat with (length (a ++ [0])) by (rewrite app_length; cbn; lia).
  rewrite skipn_app_exact. rewrite <- app_assoc. reflexivity.
Qed.

Lemma quote_fill_ok s : forall a n, (length (qbody s) + 2 <= n)%nat ->
  quote_fill (a ++ repeat 0 n) (length a) s =
    Some ((a ++ qbody s ++ [34]) ++ repeat 0 (n - (length (qbody s) + 1)), (length a + length (qbody s) + 1)%nat).
Proof.
  induction s as [|c s IH]; intros a n H; cbn [quote_fill qbody flat_map].
  - rewrite mset_zeros by (cbn in H; lia). cbn [obind length app].
    do 2 f_equal; try lia.
  - cbn [qbody flat_map] in H. fold (qbody s) in *. rewrite app_length in *.
    rewrite needs_bs_eq. destruct ((c =? 34) || (c =? 92)); cbn [length] in *.
    + rewrite mset_zeros by lia. cbn [obind].
      replace (S (length a)) with (length (a ++ [92])) by (rewrite app_length; cbn; lia).
      rewrite mset_zeros by lia. cbn [obind].
      replace (S (length (a ++ [92]))) with (length ((a ++ [92]) ++ [c])) by (rewrite !app_length; cbn; lia).
      rewrite IH by lia. do 2 f_equal.
      * rewrite <- !app_assoc. cbn [app]. replace (n - 1 - 1 - (length (qbody s) + 1))%nat with (n - (2 + length (qbody s) + 1))%nat by lia. reflexivity.
      * rewrite !app_length. cbn [length]. lia.
    + cbn [obind]. rewrite mset_zeros by lia. cbn [obind].
      replace (S (length a)) with (length (a ++ [c])) by (rewrite !app_length; cbn; lia).
      rewrite IH by lia. do 2 f_equal.
      * rewrite <- !app_assoc. cbn [app]. replace (n - 1 - (length (qbody s) + 1))%nat with (n - (1 + length (qbody s) + 1))%nat by lia. reflexivity.
      * rewrite !app_length. cbn [length]. lia.
Qed.

Lemma quote_string_ok s : quote_string s = Some (quoted s ++ [0]).
Proof.
  unfold quote_string. rewrite quote_count_len.
  change (repeat 0 (length (qbody s) + 3)) with ([] ++ repeat 0 (length (qbody s) + 3)).
  rewrite (mset_zeros []) by lia. cbn [app length obind].
  change (34 :: repeat 0 (length (qbody s) + 3 - 1)) with ([34] ++ repeat 0 (length (qbody s) + 3 - 1)).
  change 1%nat with (length [34]). rewrite quote_fill_ok by lia. cbn [obind].
  cbn [length]. replace (length (qbody s) + 3 - 1 - (length (qbody s) + 1))%nat with 1%nat by lia.
  unfold quoted. fold (qbody s). rewrite <- !app_assoc. cbn [app repeat]. rewrite <- app_assoc. reflexivity.
Qed.

Lemma cstring_app s t : cstr_ok s -> cstring (s ++ 0 :: t) = Some s.
Proof.
  induction 1 as [|c s Hc F IH]; cbn [cstring app]; [reflexivity|].
  replace (c =? 0) with false by lia. rewrite IH. reflexivity.
Qed.

Lemma qbody_ok s : cstr_ok s -> cstr_ok (qbody s).
Proof.
  induction 1 as [|c s Hc F IH]; [constructor|]. cbn [qbody flat_map]. fold (qbody s).
  apply Forall_app. split; [|exact IH].
  destruct ((c =? 34) || (c =? 92)); repeat constructor; lia.
Qed.

Lemma quoted_ok s : cstr_ok s -> cstr_ok (quoted s).
Proof.
  intros H. unfold quoted. constructor; [lia|]. apply Forall_app. split; [apply qbody_ok; exact H|].
  constructor; [lia|constructor].
Qed.

Lemma denotes_qbody hd dv lone seps ends s t v r :
  cstr_ok s -> denotes hd dv lone seps ends 0 t v r ->
  denotes hd dv lone seps ends 34 (qbody s ++ 34 :: t) (s ++ v) r.
Proof.
  intros H D. induction H as [|c s Hc F IH].
  - cbn [qbody flat_map app]. apply d_close; [lia|exact D].
  - cbn [qbody flat_map]. fold (qbody s). destruct ((c =? 34) || (c =? 92)) eqn:E.
    + cbn [app].
      assert (Hv : simple_value c = c).
      { assert (X : c = 34 \/ c = 92) by lia. destruct X; subst c; reflexivity. }
      rewrite <- Hv at 2. apply d_simple; [unfold octal_digit; lia|lia|exact IH].
    + cbn [app]. apply d_quoted; [lia|lia|lia|exact IH].
Qed.

Lemma denotes_quoted hd dv lone seps ends s t v r :
  cstr_ok s -> denotes hd dv lone seps ends 0 t v r ->
  denotes hd dv lone seps ends 0 (quoted s ++ t) (s ++ v) r.
Proof.
  intros H D. unfold quoted. cbn [app]. apply d_open; [left; reflexivity|].
  rewrite <- app_assoc. cbn [app]. apply denotes_qbody; assumption.
Qed.

(** quoted strings separated by one of the separators are these strings *)
Lemma tokens_spaced hd dv lone seps ends ss t :
  Forall cstr_ok ss -> ~ In 34 seps -> ~ In 34 ends -> In 32 seps ->
  t = [] \/ (exists c u, t = c :: u /\ c <> 34 /\ c <> 39 /\ c <> 92 /\ ~ In c seps /\ In c ends) ->
  tokens hd dv lone seps ends (spaced (map quoted ss) ++ t) ss t.
Proof.
  intros F N1 N2 H32 Ht.
  assert (D0 : denotes hd dv lone seps ends 0 t [] t /\ tokens hd dv lone seps ends t [] t).
  { destruct Ht as [->|[c [u (-> & A)]]]; [split; constructor|].
    split; [apply d_endchar; tauto|apply t_endchar; tauto]. }
  destruct D0 as [D0 T0].
  induction F as [|s ss Hs F IH]; [exact T0|].
  destruct ss as [|s2 ss].
  - cbn [map spaced]. pose proof (denotes_quoted hd dv lone seps ends s t [] t Hs D0) as D.
    rewrite app_nil_r in D. unfold quoted in *. cbn [app] in *.
    eapply t_token; [assumption|assumption|exact D|exact T0].
  - change (spaced (map quoted (s :: s2 :: ss))) with (quoted s ++ 32 :: spaced (map quoted (s2 :: ss))).
    rewrite <- app_assoc. cbn [app].
    pose proof (denotes_quoted hd dv lone seps ends s (32 :: spaced (map quoted (s2 :: ss)) ++ t) []
                 (spaced (map quoted (s2 :: ss)) ++ t) Hs) as D.
    rewrite app_nil_r in D. unfold quoted at 1. cbn [app].
    eapply t_token; [assumption|assumption| |exact IH].
    apply D. apply d_sep; [lia|lia|lia|exact H32].
Qed.

Lemma spaced_ok ss : Forall cstr_ok ss -> cstr_ok (spaced ss).
Proof.
  induction 1 as [|s ss Hs F IH]; [constructor|]. destruct ss as [|s2 ss]; [exact Hs|].
  cbn [spaced] in *. apply Forall_app. split; [exact Hs|]. constructor; [lia|exact IH].
Qed.

(** * Printing *)
(** the memory after the text [t] has been printed at [pos] *)
Definition after (b : list Z) (len pos : nat) (t : list Z) : list Z :=
  if (len <=? pos)%nat then b
  else firstn pos b ++ truncated (len - pos) t ++ skipn (pos + length (truncated (len - pos) t)) b.

Lemma truncated_len n t : (0 < n)%nat -> length (truncated n t) = (Nat.min (n - 1) (length t) + 1)%nat.
Proof. intros H. unfold truncated. rewrite app_length, firstn_length. cbn [length]. lia. Qed.

Lemma after_len b len pos t : (len <= length b)%nat -> length (after b len pos t) = length b.
Proof.
  intros H. unfold after. destruct (len <=? pos)%nat eqn:E; [reflexivity|]. apply Nat.leb_gt in E.
  rewrite !app_length, skipn_length, firstn_length, truncated_len by lia. lia.
Qed.

(** printing more *)
Lemma print_more b b1 len pos t0 t1 :
  (len <= length b)%nat ->
  (b1 = after b len pos t0 \/ (t0 = [] /\ b1 = b)) ->
  pos_snprintf b1 len (pos + length t0) t1 =
    Some (after b len pos (t0 ++ t1), (pos + length (t0 ++ t1))%nat) \/
  (t1 = [] /\ t0 = [] /\ b1 = b).
Proof.
  intros Hl Hb. left. unfold pos_snprintf.
  assert (Hb0 : length b1 = length b).
  { destruct Hb as [->|[_ ->]]; [apply after_len; exact Hl|reflexivity]. }
  rewrite app_length, Nat.add_assoc.
  destruct (len <=? pos + length t0)%nat eqn:E.
  - apply Nat.leb_le in E.
    assert (X : (if (len <? pos + length t0)%nat then vsnprintf b1 len 0 t1
                 else vsnprintf b1 (pos + length t0) (len - (pos + length t0)) t1) = Some b1).
    { destruct (len <? _)%nat; [reflexivity|]. replace (len - (pos + length t0))%nat with 0%nat by lia. reflexivity. }
    rewrite X. cbn [obind]. f_equal. f_equal.
    destruct (len <=? pos)%nat eqn:E2.
    + unfold after in *. rewrite E2 in *. destruct Hb as [Hb|[_ Hb]]; exact Hb.
    + apply Nat.leb_gt in E2. destruct Hb as [->|[-> ->]]; [|cbn [length] in E; lia].
      unfold after. replace (len <=? pos)%nat with false by (symmetry; apply Nat.leb_gt; exact E2).
      assert (T : truncated (len - pos) t0 = truncated (len - pos) (t0 ++ t1)).
      { unfold truncated. f_equal. rewrite firstn_app_le by lia. reflexivity. }
      rewrite T. reflexivity.
  - apply Nat.leb_gt in E.
    replace (len <? pos + length t0)%nat with false by (symmetry; apply Nat.ltb_ge; lia).
    assert (E2 : (len <=? pos)%nat = false) by (apply Nat.leb_gt; lia).
    assert (B1 : firstn (pos + length t0) b1 = firstn pos b ++ t0 /\
                 forall n, (pos + length t0 + 1 <= n)%nat -> skipn n b1 = skipn n b).
    { destruct Hb as [->|[-> ->]].
      - unfold after. rewrite E2.
        assert (T : truncated (len - pos) t0 = t0 ++ [0]).
        { unfold truncated. rewrite firstn_all2 by lia. reflexivity. }
        rewrite T, app_length. cbn [length].
        split.
        + rewrite <- !app_assoc. rewrite app_assoc.
          rewrite firstn_app_le by (rewrite app_length, firstn_length; lia).
          rewrite firstn_all2 by (rewrite app_length, firstn_length; lia). reflexivity.
        + intros n Hn. rewrite (app_assoc (firstn pos b)). rewrite skipn_app.
          rewrite skipn_all2 by (rewrite !app_length, firstn_length; cbn [length]; lia).
          cbn [app]. rewrite skipn_skipn_add, !app_length, firstn_length. cbn [length]. f_equal. lia.
      - cbn [length]. rewrite Nat.add_0_r, app_nil_r. auto. }
    destruct B1 as [B1 B2].
    destruct (len - (pos + length t0))%nat as [|n] eqn:En; [lia|].
    unfold vsnprintf, mwrite. rewrite app_length. cbn [length].
    replace (pos + length t0 + (length (firstn n t1) + 1) <=? length b1)%nat with true
      by (symmetry; apply Nat.leb_le; rewrite firstn_length; lia).
    cbn [obind]. f_equal. f_equal. unfold after. rewrite E2. rewrite B1, <- app_assoc. f_equal.
    rewrite B2 by lia.
    assert (T : truncated (len - pos) (t0 ++ t1) = t0 ++ firstn n t1 ++ [0]).
    { unfold truncated. rewrite app_assoc. f_equal. rewrite firstn_app, firstn_all2 by lia. f_equal. f_equal. lia. }
    rewrite T, !app_length. cbn [length].
    replace (pos + (length t0 + (length (firstn n t1) + 1)))%nat
      with (pos + length t0 + (length (firstn n t1) + 1))%nat by lia.
    rewrite <- !app_assoc. reflexivity.
Qed.

Lemma print_ok b b1 len pos t0 t1 p :
  (len <= length b)%nat -> p = (pos + length t0)%nat -> t1 <> [] ->
  (b1 = after b len pos t0 \/ (t0 = [] /\ b1 = b)) ->
  pos_snprintf b1 len p t1 = Some (after b len pos (t0 ++ t1), (pos + length (t0 ++ t1))%nat).
Proof.
  intros Hl -> Hn Hb. destruct (print_more b b1 len pos t0 t1 Hl Hb) as [X|[X _]]; [exact X|contradiction].
Qed.

Lemma quote_loop_ok b len pos s : (len <= length b)%nat -> forall t0, 
  quote_str_loop (after b len pos t0) len (pos + length t0) s =
    Some (after b len pos (t0 ++ qbody s), (pos + length (t0 ++ qbody s))%nat).
Proof.
  intros Hl. induction s as [|c s IH]; intros t0; cbn [quote_str_loop qbody flat_map].
  - rewrite app_nil_r. reflexivity.
  - fold (qbody s). rewrite needs_bs_eq.
    rewrite (print_ok b _ len pos t0 _ _ Hl eq_refl) by
      (try (left; reflexivity); destruct (_ || _); discriminate).
    cbn [obind]. rewrite IH. rewrite app_assoc. reflexivity.
Qed.

Lemma end_mark_ok b len pos t : (len <= length b)%nat ->
  end_mark (after b len pos t) len (pos + length t) = Some (after b len pos t).
Proof.
  intros Hl. unfold end_mark. destruct (pos + length t <? len)%nat eqn:E; [|reflexivity].
  apply Nat.ltb_lt in E. unfold after.
  replace (len <=? pos)%nat with false by (symmetry; apply Nat.leb_gt; lia).
  assert (T : truncated (len - pos) t = t ++ [0]).
  { unfold truncated. rewrite firstn_all2 by lia. reflexivity. }
  rewrite T. set (tl := skipn _ b). rewrite <- app_assoc. rewrite app_assoc.
  replace (pos + length t)%nat with (length (firstn pos b ++ t)) by (rewrite app_length, firstn_length; lia).
  cbn [app]. unfold mset, mwrite. cbn [length].
  replace (length (firstn pos b ++ t) + 1 <=? length ((firstn pos b ++ t) ++ 0%Z :: tl))%nat with true
    by (symmetry; apply Nat.leb_le; rewrite !app_length; cbn [length]; lia).
  rewrite firstn_app_exact. do 2 f_equal.
  replace ((firstn pos b ++ t) ++ 0 :: tl) with (((firstn pos b ++ t) ++ [0]) ++ tl) by (rewrite <- app_assoc; reflexivity).
  replace (length (firstn pos b ++ t) + 1)%nat with (length ((firstn pos b ++ t) ++ [0]))
    by (rewrite (app_length _ [0]); cbn; lia).
  rewrite skipn_app_exact. reflexivity.
Qed.

Lemma quote_str_ok b b1 len pos t0 s :
  (len <= length b)%nat -> (b1 = after b len pos t0 \/ (t0 = [] /\ b1 = b)) ->
  quote_str b1 len (pos + length t0) s =
    Some (after b len pos (t0 ++ quoted s), (pos + length (t0 ++ quoted s))%nat).
Proof.
  intros Hl Hb. unfold quote_str.
  rewrite (print_ok b b1 len pos t0 [34] _ Hl eq_refl) by (discriminate || exact Hb).
  cbn [obind]. rewrite quote_loop_ok by exact Hl. cbn [obind].
  rewrite (print_ok b _ len pos ((t0 ++ [34]) ++ qbody s) [34] _ Hl eq_refl) by
    (discriminate || (left; reflexivity)).
  cbn [obind].
  replace (((t0 ++ [34]) ++ qbody s) ++ [34]) with (t0 ++ quoted s)
    by (unfold quoted; fold (qbody s); rewrite <- !app_assoc; reflexivity).
  rewrite end_mark_ok by exact Hl. reflexivity.
Qed.

Lemma argv_loop_print b len pos : (len <= length b)%nat -> forall ss t0,
  argv_print_loop (after b len pos t0) len (pos + length t0) false ss =
    Some (after b len pos (t0 ++ flat_map (fun s => 32%Z :: quoted s) ss),
          (pos + length (t0 ++ flat_map (fun s => 32%Z :: quoted s) ss))%nat).
Proof.
  intros Hl. induction ss as [|s ss IH]; intros t0; cbn [argv_print_loop flat_map].
  - rewrite app_nil_r. reflexivity.
  - rewrite (print_ok b _ len pos t0 [32] _ Hl eq_refl) by (discriminate || (left; reflexivity)).
    cbn [obind]. rewrite (quote_str_ok b) by (exact Hl || (left; reflexivity)). cbn [obind].
    rewrite IH. cbn [flat_map app].
    replace (((t0 ++ [32]) ++ quoted s) ++ flat_map (fun s => 32%Z :: quoted s) ss)
      with (t0 ++ 32 :: quoted s ++ flat_map (fun s => 32%Z :: quoted s) ss)
      by (rewrite <- !app_assoc; reflexivity). reflexivity.
Qed.

Lemma spaced_flat s ss :
  spaced (map quoted (s :: ss)) = quoted s ++ flat_map (fun s => 32%Z :: quoted s) ss.
Proof.
  revert s. induction ss as [|s2 ss IH]; intros s.
  - cbn [map spaced flat_map]. rewrite app_nil_r. reflexivity.
  - change (spaced (map quoted (s :: s2 :: ss))) with (quoted s ++ 32 :: spaced (map quoted (s2 :: ss))).
    rewrite IH. reflexivity.
Qed.

Lemma argv_snprintf_ok b len pos ss : (len <= length b)%nat ->
  argv_snprintf b len pos ss =
    Some (after b len pos (spaced (map quoted ss)), (pos + length (spaced (map quoted ss)))%nat).
Proof.
  intros Hl. unfold argv_snprintf. destruct ss as [|s ss].
  - cbn [argv_print_loop obind map spaced length]. rewrite Nat.add_0_r.
    unfold end_mark, after. destruct (pos <? len)%nat eqn:E.
    + apply Nat.ltb_lt in E. replace (len <=? pos)%nat with false by (symmetry; apply Nat.leb_gt; lia).
      unfold mset, mwrite. cbn [length].
      replace (pos + 1 <=? length b)%nat with true by (symmetry; apply Nat.leb_le; lia).
      cbn [obind]. unfold truncated. rewrite firstn_nil. reflexivity.
    + apply Nat.ltb_ge in E. replace (len <=? pos)%nat with true by (symmetry; apply Nat.leb_le; lia).
      reflexivity.
  - cbn [argv_print_loop obind].
    pose proof (quote_str_ok b b len pos [] s Hl (or_intror (conj eq_refl eq_refl))) as Q.
    cbn [app length] in Q. rewrite Nat.add_0_r in Q. rewrite Q. cbn [obind].
    rewrite argv_loop_print by exact Hl. cbn [obind]. rewrite <- spaced_flat.
    rewrite end_mark_ok by exact Hl. reflexivity.
Qed.

(** * Integers *)
Lemma lor_disjoint a b n : 0 <= n -> 0 <= b < 2 ^ n -> Z.lor (a * 2 ^ n) b = a * 2 ^ n + b.
Proof.
  intros Hn Hb. rewrite <- Z.lxor_lor; [symmetry; apply Z.add_nocarry_lxor|];
    apply Z.bits_inj'; intros i Hi; rewrite Z.land_spec, Z.bits_0.
  all: destruct (Z.ltb_spec i n);
    [rewrite Z.mul_pow2_bits_low by lia; reflexivity|];
    rewrite andb_comm;
    replace (Z.testbit b i) with false; [reflexivity|]; symmetry;
    destruct (Z.eq_dec b 0) as [->|]; [apply Z.bits_0|];
    apply Z.bits_above_log2; [lia|]; apply Z.log2_lt_pow2; [lia|];
    apply Z.lt_le_trans with (2 ^ n); [lia|]; apply Z.pow_le_mono_r; lia.
Qed.

Lemma be32 d0 d1 d2 d3 : big_endian [d0; d1; d2; d3] = d0 * 2 ^ 24 + d1 * 2 ^ 16 + d2 * 2 ^ 8 + d3.
Proof. cbn. lia. Qed.

Lemma be16 d0 d1 : big_endian [d0; d1] = d0 * 2 ^ 8 + d1.
Proof. cbn. lia. Qed.

Lemma lor32 d0 d1 d2 d3 : 0 <= d1 < 256 -> 0 <= d2 < 256 -> 0 <= d3 < 256 ->
  Z.lor (Z.lor (Z.lor (d0 * 2 ^ 24) (d1 * 2 ^ 16)) (d2 * 2 ^ 8)) d3 =
    d0 * 2 ^ 24 + d1 * 2 ^ 16 + d2 * 2 ^ 8 + d3.
Proof.
  intros H1 H2 H3.
  rewrite (lor_disjoint d0) by lia.
  replace (d0 * 2 ^ 24 + d1 * 2 ^ 16) with ((d0 * 2 ^ 8 + d1) * 2 ^ 16) by lia.
  rewrite lor_disjoint by lia.
  replace ((d0 * 2 ^ 8 + d1) * 2 ^ 16 + d2 * 2 ^ 8) with ((d0 * 2 ^ 16 + d1 * 2 ^ 8 + d2) * 2 ^ 8) by lia.
  rewrite lor_disjoint by lia. lia.
Qed.

Lemma buf_to_u32_ok d0 d1 d2 d3 rest :
  0 <= d0 < 128 -> is_byte d1 -> is_byte d2 -> is_byte d3 ->
  buf_to_u32 (d0 :: d1 :: d2 :: d3 :: rest) = Some (big_endian [d0; d1; d2; d3]).
Proof.
  unfold is_byte. intros H0 H1 H2 H3. unfold buf_to_u32, mget, shl. cbn [nth_error obind].
  rewrite !Z.shiftl_mul_pow2 by lia.
  replace (d0 * 2 ^ 24 <? 2 ^ 31) with true by lia.
  replace (d1 * 2 ^ 16 <? 2 ^ 31) with true by lia.
  replace (d2 * 2 ^ 8 <? 2 ^ 31) with true by lia. cbn [obind].
  rewrite lor32 by assumption. rewrite Z.mod_small by lia. rewrite be32. reflexivity.
Qed.

Lemma buf_to_u32_wrap_ok d0 d1 d2 d3 rest :
  is_byte d0 -> is_byte d1 -> is_byte d2 -> is_byte d3 ->
  buf_to_u32_wrap (d0 :: d1 :: d2 :: d3 :: rest) = Some (big_endian [d0; d1; d2; d3]).
Proof.
  unfold is_byte. intros H0 H1 H2 H3. unfold buf_to_u32_wrap, mget. cbn [nth_error obind].
  rewrite !Z.shiftl_mul_pow2 by lia.
  assert (W : exists k, wrap_int (d0 * 2 ^ 24) = k * 2 ^ 24 /\ (k = d0 \/ k = d0 - 256)).
  { unfold wrap_int. destruct (Z.ltb_spec d0 128).
    - exists d0. split; [|auto]. rewrite Z.mod_small by lia. lia.
    - exists (d0 - 256). split; [|auto].
      replace (d0 * 2 ^ 24 + 2 ^ 31) with ((d0 - 128) * 2 ^ 24 + 1 * 2 ^ 32) by lia.
      rewrite Z.mod_add by lia. rewrite Z.mod_small by lia. lia. }
  destruct W as [k [-> Hk]]. rewrite lor32 by assumption. rewrite be32. f_equal.
  destruct Hk as [->| ->].
  - apply Z.mod_small. lia.
  - replace ((d0 - 256) * 2 ^ 24 + d1 * 2 ^ 16 + d2 * 2 ^ 8 + d3)
      with (d0 * 2 ^ 24 + d1 * 2 ^ 16 + d2 * 2 ^ 8 + d3 + (-1) * 2 ^ 32) by lia.
    rewrite Z.mod_add by lia. apply Z.mod_small. lia.
Qed.

Lemma u32_to_buf_ok a0 a1 a2 a3 rest v : 0 <= v < 2 ^ 32 ->
  exists d0 d1 d2 d3, u32_to_buf (a0 :: a1 :: a2 :: a3 :: rest) v = Some (d0 :: d1 :: d2 :: d3 :: rest) /\
    is_byte d0 /\ is_byte d1 /\ is_byte d2 /\ is_byte d3 /\ big_endian [d0; d1; d2; d3] = v.
Proof.
  intros H. unfold u32_to_buf, mset, mwrite. cbn [length Nat.leb Nat.add firstn skipn app obind]. rewrite !Z.shiftr_div_pow2 by lia.
  do 4 eexists. split; [reflexivity|]. unfold is_byte.
  repeat (split; [apply Z.mod_pos_bound; lia|]).
  rewrite be32.
  Z.to_euclidean_division_equations. lia.
Qed.

Lemma buf_to_u16_ok d0 d1 rest : is_byte d0 -> is_byte d1 ->
  buf_to_u16 (d0 :: d1 :: rest) = Some (big_endian [d0; d1]).
Proof.
  unfold is_byte. intros H0 H1. unfold buf_to_u16, mget, shl. cbn [nth_error obind].
  rewrite !Z.shiftl_mul_pow2 by lia. replace (d0 * 2 ^ 8 <? 2 ^ 31) with true by lia. cbn [obind].
  rewrite lor_disjoint by lia. rewrite Z.mod_small by lia. f_equal. cbn. lia.
Qed.

Lemma u16_to_buf_ok a0 a1 rest v : 0 <= v < 2 ^ 16 ->
  exists d0 d1, u16_to_buf (a0 :: a1 :: rest) v = Some (d0 :: d1 :: rest) /\
    is_byte d0 /\ is_byte d1 /\ big_endian [d0; d1] = v.
Proof.
  intros H. unfold u16_to_buf, mset, mwrite. cbn [length Nat.leb Nat.add firstn skipn app obind]. rewrite !Z.shiftr_div_pow2 by lia.
  do 2 eexists. split; [reflexivity|]. unfold is_byte.
  repeat (split; [apply Z.mod_pos_bound; lia|]).
  rewrite be16.
  Z.to_euclidean_division_equations. lia.
Qed.
