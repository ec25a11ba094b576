(** Conversion of texts to times. *)
From Verif Require Import Base Cstr_Model Cstr_Spec Time_Model Time_Spec Time_Proofs.
Open Scope Z_scope.

Lemma digit_of_decimal d : decimal_digit d -> digit_of d = d - 48.
Proof. unfold decimal_digit, digit_of, isdigit. intros H. replace ((48 <=? d) && (d <=? 57)) with true by lia. reflexivity. Qed.

Definition stops (s : list Z) : Prop := match s with [] => True | c :: _ => 13 <= digit_of c /\ c <> 120 /\ c <> 88 end.

Lemma digits_decimal ds : forall acc s, Forall decimal_digit ds -> stops s ->
  digits 10 acc (ds ++ s) = (fold_left (fun a d => a * 10 + (d - 48)) ds acc, s).
Proof.
  induction ds as [|d ds IH]; intros acc s H Hs; cbn [digits fold_left app].
  - destruct s as [|c s]; [reflexivity|]. cbn [digits]. destruct Hs as [Hs _].
    replace (digit_of c <? 10) with false by lia. reflexivity.
  - inversion H as [|? ? Hd H']; subst. rewrite digit_of_decimal by exact Hd. unfold decimal_digit in Hd.
    replace (d - 48 <? 10) with true by lia. apply IH; assumption.
Qed.

Lemma number_nonneg ds : forall acc, 0 <= acc -> Forall decimal_digit ds ->
  0 <= fold_left (fun a d => a * 10 + (d - 48)) ds acc.
Proof.
  induction ds as [|d ds IH]; intros acc H F; cbn [fold_left]; [exact H|].
  inversion F as [|? ? Hd F']; subst. unfold decimal_digit in Hd. apply IH; [lia|exact F'].
Qed.

Lemma decimal_nonneg ds v : decimal ds v -> 0 <= v.
Proof. intros (_ & F & _ & ->). unfold number. apply number_nonneg; [lia|exact F]. Qed.

Lemma clamp64_id v : int64 v -> clamp64 v = v.
Proof.
  unfold int64, clamp64. intros H. replace (v <? - 2 ^ 63) with false by lia.
  replace (2 ^ 63 <=? v) with false by lia. reflexivity.
Qed.

Lemma strtoll_decimal ds v s : decimal ds v -> v < 2 ^ 63 -> stops s ->
  strtoll (ds ++ s) = (v, s).
Proof.
  intros D Hv Hs. pose proof (decimal_nonneg _ _ D) as Hp. destruct D as (N & F & Z0 & E).
  destruct ds as [|d ds]; [contradiction|]. pose proof (Forall_inv F) as Hd. pose proof (Forall_inv_tail F) as F'.
  assert (Hd2 := Hd). unfold decimal_digit in Hd2.
  assert (D10 : digits 10 0 (d :: ds ++ s) = (v, s)).
  { rewrite E. apply (digits_decimal (d :: ds) 0 s F Hs). }
  unfold strtoll. cbn [app skip_space]. unfold isspace.
  replace ((d =? 32) || (9 <=? d) && (d <=? 13)) with false by lia. cbv zeta.
  replace (d =? 45) with false by lia. replace (d =? 43) with false by lia.
  destruct (d =? 48) eqn:E0.
  - assert (d = 48) by lia. subst d. assert (X : 48 :: ds = [48]) by (apply Z0; reflexivity).
    assert (ds = []) by congruence. subst ds. cbn [app] in *.
    assert (v = 0) by (rewrite E; reflexivity). subst v.
    assert (D8 : (if digit_of 48 <? 8 then let '(v, r) := digits 8 0 (48 :: s) in (clamp64 v, r) else (0, 48 :: s)) = (0, s)).
    { change (digit_of 48 <? 8) with true. cbv iota. cbn [digits]. change (digit_of 48 <? 8) with true. cbv iota.
      destruct s as [|c s]; [reflexivity|]. cbn [digits]. destruct Hs as [Hs _].
      replace (digit_of c <? 8) with false by lia. reflexivity. }
    destruct s as [|x [|y s]]; [exact D8|exact D8|].
    destruct Hs as (_ & Hx & Hx'). replace (x =? 120) with false by lia. replace (x =? 88) with false by lia.
    exact D8.
  - rewrite digit_of_decimal by exact Hd. replace (d - 48 <? 10) with true by lia.
    rewrite D10. rewrite clamp64_id by (unfold int64; lia). reflexivity.
Qed.

Lemma unit_cases c u : unit_of c u ->
  (c, u) = (68, 86400 * 10 ^ 9) \/ (c, u) = (72, 3600 * 10 ^ 9) \/ (c, u) = (77, 60 * 10 ^ 9) \/
  (c, u) = (115, 10 ^ 9) \/ (c, u) = (109, 10 ^ 6) \/ (c, u) = (117, 10 ^ 3) \/ (c, u) = (110, 1).
Proof.
  unfold unit_of, units. intros H. repeat (destruct H as [H|H]; [symmetry in H; tauto|]). destruct H.
Qed.

Lemma unit_stops c u s : unit_of c u -> stops (c :: s).
Proof.
  intros H. apply unit_cases in H.
  destruct H as [H|[H|[H|[H|[H|[H|H]]]]]]; injection H as -> ->; cbn; unfold digit_of, isdigit, isupper; cbn; lia.
Qed.

Lemma done_ok secs n : 0 <= secs -> 0 <= n -> secs * 10 ^ 9 + n < 2 ^ 63 ->
  exists t, str_time_done secs n [] = Some (TOk t) /\ well_formed t /\ total t = secs * 10 ^ 9 + n.
Proof.
  intros H1 H2 H3. unfold str_time_done, nsec. rewrite Z.quot_div_nonneg, Z.rem_mod_nonneg by lia.
  assert (B : 0 <= n / 1000000000 /\ n = 1000000000 * (n / 1000000000) + n mod 1000000000 /\
              0 <= n mod 1000000000 < 1000000000).
  { pose proof (Z.div_mod n 1000000000). pose proof (Z.mod_pos_bound n 1000000000).
    pose proof (Z.div_pos n 1000000000). lia. }
  set (q := n / 1000000000) in *. set (r := n mod 1000000000) in *.
  rewrite i64_some by (unfold int64; lia). cbn [obind]. rewrite to32_id by lia.
  eexists. split; [reflexivity|]. unfold well_formed, total. cbn [t_secs t_nsecs]. lia.
Qed.

Ltac i64s := repeat (rewrite i64_some by (unfold int64; lia); cbn [obind]).

(** one item *)
Lemma item_ok fuel s0 rest m0 secs ds v c u tail :
  decimal ds v -> unit_of c u -> 0 <= secs -> secs * 10 ^ 9 + v * u < 2 ^ 63 ->
  s0 = ds ++ tail -> (tail = [] /\ rest = [] /\ m0 = c \/ tail = c :: rest) ->
  (10 ^ 9 <= u /\ exists secs', secs' * 10 ^ 9 = secs * 10 ^ 9 + v * u /\
     str_time_loop (S fuel) s0 m0 secs =
       match rest with [] => str_time_done secs' 0 [] | _ => str_time_loop fuel rest 0 secs' end) \/
  (u < 10 ^ 9 /\ str_time_loop (S fuel) s0 m0 secs = str_time_done secs (v * u) rest).
Proof.
  intros D U Hs Hb -> Ht. pose proof (decimal_nonneg _ _ D) as Hp.
  assert (Hu : 1 <= u).
  { apply unit_cases in U. destruct U as [U|[U|[U|[U|[U|[U|U]]]]]]; injection U as _ ->; lia. }
  assert (Hv : v < 2 ^ 63) by nia.
  assert (Hst : stops tail).
  { destruct Ht as [(-> & _)| ->]; [exact I|]. eapply unit_stops. exact U. }
  cbn [str_time_loop]. rewrite (strtoll_decimal ds v tail D Hv Hst).
  replace (length tail =? length (ds ++ tail))%nat with false.
  2:{ symmetry. apply Nat.eqb_neq. rewrite app_length. destruct D as [N _]. destruct ds; [contradiction|cbn; lia]. }
  assert (E : match tail with [] => (m0, []) | c0 :: r => (c0, r) end = (c, rest)).
  { destruct Ht as [(-> & -> & ->)| ->]; reflexivity. }
  rewrite E. unfold conv_up. apply unit_cases in U.
  destruct U as [U|[U|[U|[U|[U|[U|U]]]]]]; injection U as -> ->.
  - left. split; [lia|]. exists (secs + v * 24 * 3600). split; [lia|].
    change (68 =? 68) with true. cbv iota. i64s. reflexivity.
  - left. split; [lia|]. exists (secs + v * 3600). split; [lia|].
    change (72 =? 68) with false. change (72 =? 72) with true. cbv iota. i64s. reflexivity.
  - left. split; [lia|]. exists (secs + v * 60). split; [lia|].
    change (77 =? 68) with false. change (77 =? 72) with false. change (77 =? 77) with true. cbv iota. i64s. reflexivity.
  - left. split; [lia|]. exists (secs + v). split; [lia|].
    change (115 =? 68) with false. change (115 =? 72) with false. change (115 =? 77) with false.
    change (115 =? 115) with true. cbv iota. i64s. reflexivity.
  - right. split; [lia|]. cbn. i64s. reflexivity.
  - right. split; [lia|]. cbn. i64s. reflexivity.
  - right. split; [lia|]. cbn. rewrite Z.mul_1_r. reflexivity.
Qed.

Lemma ordered_nonneg s w : ordered_time_text s w -> 0 <= w /\ s <> [].
Proof.
  intros H. induction H as [ds v c u D U|ds v c u s w D U _ _ [IH _]];
    (pose proof (decimal_nonneg _ _ D); split; [|destruct ds; discriminate]);
    apply unit_cases in U; destruct U as [U|[U|[U|[U|[U|[U|U]]]]]]; injection U as _ ->; lia.
Qed.

Lemma time_loop_ok s w : ordered_time_text s w -> forall fuel m0 secs,
  (length s < fuel)%nat -> 0 <= secs -> secs * 10 ^ 9 + w < 2 ^ 63 ->
  exists t, str_time_loop fuel s m0 secs = Some (TOk t) /\ well_formed t /\ total t = secs * 10 ^ 9 + w.
Proof.
  intros H. induction H as [ds v c u D U|ds v c u s w D U Hu T IH]; intros fuel m0 secs Hf Hs Hb;
    destruct fuel as [|fuel]; try lia.
  - destruct (item_ok fuel (ds ++ [c]) [] m0 secs ds v c u [c] D U Hs Hb eq_refl (or_intror eq_refl))
      as [(Hu & s' & E & ->)|(Hu & ->)].
    + pose proof (ordered_nonneg _ _ (ot_last ds v c u D U)). destruct (done_ok s' 0) as [t (E1 & W & E2)]; [lia|lia|lia|]. exists t. split; [exact E1|]. split; [exact W|lia].
    + apply done_ok; [exact Hs| |exact Hb].
      pose proof (ordered_nonneg _ _ (ot_last ds v c u D U)). lia.
  - destruct (ordered_nonneg _ _ T) as [Hw Hn].
    destruct (item_ok fuel (ds ++ c :: s) s m0 secs ds v c u (c :: s) D U Hs ltac:(lia) eq_refl (or_intror eq_refl))
      as [(_ & s' & E & ->)|(Hu' & _)]; [|lia].
    assert (0 <= v * u) by (pose proof (ordered_nonneg _ _ (ot_last ds v c u D U)); lia).
    destruct s as [|x s]; [contradiction|].
    destruct (IH fuel 0 s') as [t (E1 & W & E2)].
    + rewrite app_length in Hf. cbn [length] in *. lia.
    + lia.
    + lia.
    + exists t. split; [exact E1|]. split; [exact W|lia].
Qed.

Lemma str_to_time_ok s w m0 : ordered_time_text s w -> w < 2 ^ 63 ->
  exists t, str_to_time s m0 = Some (TOk t) /\ well_formed t /\ total t = w.
Proof.
  intros T H. destruct (time_loop_ok s w T (S (length s)) m0 0) as [t (E & W & V)]; [lia|lia|lia|].
  exists t. auto.
Qed.

Lemma plain_time_ok ds v m0 u : decimal ds v -> unit_of m0 u -> v * u < 2 ^ 63 ->
  exists t, str_to_time ds m0 = Some (TOk t) /\ well_formed t /\ total t = v * u.
Proof.
  intros D U H. unfold str_to_time.
  pose proof (ordered_nonneg _ _ (ot_last ds v m0 u D U)) as [Hn _].
  destruct (item_ok (length ds) ds [] m0 0 ds v m0 u [] D U ltac:(lia) ltac:(lia)) as [(_ & s' & E & ->)|(_ & ->)].
  - rewrite app_nil_r. reflexivity.
  - left. auto.
  - destruct (done_ok s' 0) as [t (E1 & W & E2)]; [lia|lia|lia|]. exists t. split; [exact E1|]. split; [exact W|lia].
  - destruct (done_ok 0 (v * u)) as [t (E1 & W & E2)]; [lia|lia|lia|]. exists t. auto.
Qed.

(** the number of turns is never exhausted *)
Lemma skip_space_len s : (length (skip_space s) <= length s)%nat.
Proof. induction s as [|c s IH]; cbn [skip_space]; [lia|]. destruct (isspace c); cbn [length]; lia. Qed.

Lemma digits_len base s : forall acc, (length (snd (digits base acc s)) <= length s)%nat.
Proof.
  induction s as [|c s IH]; intros acc; cbn [digits]; [cbn; lia|].
  destruct (digit_of c <? base); cbn [snd length]; [specialize (IH (acc * base + digit_of c))|]; lia.
Qed.

Lemma strtoll_len s : (length (snd (strtoll s)) <= length s)%nat.
Proof.
  unfold strtoll. pose proof (skip_space_len s) as L. destruct (skip_space s) as [|c s1]; [reflexivity|].
  assert (A : forall (neg : bool) (s2 : list Z), (length s2 <= length s)%nat ->
    (length (snd (let num base t :=
    match t with
    | c :: _ => if digit_of c <? base
                then let '(v, r) := digits base 0 t in (clamp64 (if neg then - v else v), r)
                else (0, s)
    | [] => (0, s)
    end in
  match s2 with
  | c :: t =>
      if c =? 48 then
        match t with
        | x :: y :: _ => if ((x =? 120) || (x =? 88)) && (digit_of y <? 16) then num 16 (tl t) else num 8 s2
        | _ => num 8 s2
        end
      else num 10 s2
  | [] => num 10 s2
  end)%Z) <= length s)%nat).
  { intros neg s2 L2. cbv zeta.
    assert (N : forall (base : Z) (t : list Z), (length t <= length s)%nat ->
      (length (snd (match t with
      | c :: _ => if digit_of c <? base
                then let '(v, r) := digits base 0 t in (clamp64 (if neg then - v else v), r)
                else (0, s)
      | [] => (0, s)
      end)%Z) <= length s)%nat).
    { intros base t Lt. destruct t as [|x t]; [cbn; lia|]. destruct (digit_of x <? base); [|cbn; lia].
      pose proof (digits_len base (x :: t) 0). destruct (digits base 0 (x :: t)) as [v r]. cbn [snd] in *. lia. }
    destruct s2 as [|c2 t]; [apply (N 10 []); exact L2|].
    destruct (c2 =? 48); [|apply (N 10 (c2 :: t)); exact L2].
    destruct t as [|x [|y t]]; [apply (N 8 [c2]); exact L2|apply (N 8 [c2; x]); exact L2|].
    destruct (_ && _); [|apply (N 8 (c2 :: x :: y :: t)); exact L2].
    apply (N 16 (y :: t)). cbn [length] in *. lia. }
  destruct (c =? 45); [apply (A true s1); cbn [length] in L; lia|].
  destruct (c =? 43); [apply (A false s1); cbn [length] in L; lia|]. apply (A false (c :: s1)). exact L.
Qed.

(** More turns than the length of the string make no difference. *)
Lemma time_loop_fuel : forall f1 f2 s m0 secs, (length s < f1)%nat -> (length s < f2)%nat ->
  str_time_loop f1 s m0 secs = str_time_loop f2 s m0 secs.
Proof.
  induction f1 as [|f1 IH]; intros [|f2] s m0 secs H1 H2; try lia.
  cbn [str_time_loop]. pose proof (strtoll_len s) as L. destruct (strtoll s) as [v rest]. cbn [snd] in L.
  destruct (length rest =? length s)%nat eqn:E; [reflexivity|]. apply Nat.eqb_neq in E.
  set (mr := match rest with [] => (m0, []) | c :: r => (c, r) end).
  assert (Lr : (length (snd mr) <= length rest)%nat) by (unfold mr; destruct rest; cbn; lia).
  destruct mr as [m r]. cbn [snd] in Lr.
  assert (N : forall secs', match r with [] => str_time_done secs' 0 [] | _ => str_time_loop f1 r 0 secs' end =
     match r with [] => str_time_done secs' 0 [] | _ => str_time_loop f2 r 0 secs' end).
  { intros secs'. destruct r as [|x r]; [reflexivity|]. apply IH; lia. }
  cbv zeta.
  destruct (m =? 68). { destruct (i64 (v * 24)) as [a|]; [|reflexivity]. cbn [obind].
    destruct (i64 (a * 3600)) as [b|]; [|reflexivity]. cbn [obind].
    destruct (i64 (secs + b)); [|reflexivity]. apply N. }
  destruct (m =? 72). { destruct (i64 (v * 3600)) as [b|]; [|reflexivity]. cbn [obind].
    destruct (i64 (secs + b)); [|reflexivity]. apply N. }
  destruct (m =? 77). { destruct (i64 (v * 60)) as [b|]; [|reflexivity]. cbn [obind].
    destruct (i64 (secs + b)); [|reflexivity]. apply N. }
  destruct (m =? 115); [|reflexivity].
  destruct (i64 (secs + v)); [|reflexivity]. apply N.
Qed.
