(** Lemmas about the scanner: both passes agree and stay inside the buffer;
    what is scanned is what the text denotes. *)
From Verif Require Import Base Cstr_Model Cstr_Spec.
Open Scope Z_scope.

(** * A scanner without memory *)
Record ps := mkps { ps_q : Z; ps_cval : Z; ps_esc : nat; ps_base : Z }.
Definition pure (i : sb) : ps := mkps (sb_q i) (sb_cval i) (sb_esc i) (sb_base i).

Definition pproc (seps ends : list Z) (i : ps) (c : Z) : ps * list Z * flow :=
  if c =? ps_q i then (mkps 0 (ps_cval i) (ps_esc i) (ps_base i), [], Go)
  else if (ps_q i =? 0) && ((c =? 39) || (c =? 34))
  then (mkps c (ps_cval i) (ps_esc i) (ps_base i), [], Go)
  else if c =? 92 then (mkps (ps_q i) (ps_cval i) 1 (ps_base i), [], Go)
  else if ps_q i =? 0 then
    if is_sep c seps then (i, [], StopSkip)
    else if strchr ends c then (i, [], StopStay)
    else (i, [c], Go)
  else (i, [c], Go).

Definition pchar (seps ends : list Z) (i : ps) (c : Z) : ps * list Z * flow :=
  match ps_esc i with
  | O => pproc seps ends i c
  | S O =>
      if isodigit c then (mkps (ps_q i) ((c - 48) mod 256) 2 8, [], Go)
      else if c =? 120 then (mkps (ps_q i) 0 2 16, [], Go)
      else (mkps (ps_q i) 0 0 (ps_base i), [sym_val c], Go)
  | S (S e) =>
      if ((ps_base i =? 16) && isxdigit c) || isodigit c then
        let v := (ps_cval i * ps_base i + digit_add c) mod 256 in
        if (1 <=? e)%nat then (mkps (ps_q i) v 0 (ps_base i), [v], Go)
        else (mkps (ps_q i) v (S (ps_esc i)) (ps_base i), [], Go)
      else
        let '(i', o, f) := pproc seps ends (mkps (ps_q i) (ps_cval i) 0 (ps_base i)) c in
        (i', ps_cval i :: o, f)
  end.

Fixpoint prun (seps ends : list Z) (i : ps) (s : list Z) : ps * list Z * list Z :=
  match s with
  | [] => (i, [], [])
  | c :: s' =>
      let '(i', o, f) := pchar seps ends i c in
      match f with
      | Go => let '(i'', o', r) := prun seps ends i' s' in (i'', o ++ o', r)
      | StopSkip => (i', o, s')
      | StopStay => (i', o, s)
      end
  end.

Definition pfin (i : ps) : ps * list Z * bool :=
  let '(j, o) :=
    if ((ps_base i =? 8) && (1 <? ps_esc i)%nat) || ((ps_base i =? 16) && (2 <? ps_esc i)%nat)
    then (mkps (ps_q i) (ps_cval i) 0 (ps_base i), [ps_cval i]) else (i, []) in
  (j, o, (ps_q j =? 0) && (ps_esc j =? 0)%nat).

Definition pparse (seps ends : list Z) (i : ps) (s : list Z) : option (list Z * list Z) :=
  let '(j, o, r) := prun seps ends i s in
  let '(_, o', ok) := pfin j in
  if ok then Some (o ++ o', r) else None.

(** * The code follows it, with and without a buffer *)

(** what has been written: [o] after the first [sb_len i] bytes *)
Definition wrote (i j : sb) (o : list Z) : Prop :=
  sb_len j = (sb_len i + length o)%nat /\
  match sb_out i with
  | None => sb_out j = None
  | Some b => exists b', sb_out j = Some b' /\ length b' = length b /\
      firstn (sb_len j) b' = firstn (sb_len i) b ++ o /\
      skipn (sb_len j) b' = skipn (sb_len j) b
  end.

Definition room (i : sb) (o : list Z) : Prop :=
  match sb_out i with None => True | Some b => (sb_len i + length o <= length b)%nat end.

Lemma wrote_nil i : wrote i i [].
Proof.
  split; [cbn; lia|]. destruct (sb_out i) as [b|]; [|reflexivity].
  exists b. rewrite app_nil_r. auto.
Qed.

Lemma wrote_app i j k o o' : wrote i j o -> wrote j k o' -> wrote i k (o ++ o').
Proof.
  intros [L H] [L' H']. split; [rewrite app_length; lia|].
  destruct (sb_out i) as [b|].
  - destruct H as [b' (E & Hl & Hf & Hs)]. rewrite E in H'.
    destruct H' as [b'' (E' & Hl' & Hf' & Hs')].
    exists b''. split; [exact E'|]. split; [lia|]. split.
    + rewrite Hf', Hf, app_assoc. reflexivity.
    + rewrite Hs'. rewrite L'.
      rewrite <- !skipn_skipn_add with (b := sb_len j). rewrite Hs. reflexivity.
  - rewrite H in H'. exact H'.
Qed.

Lemma set_out_wrote i c :
  room i [c] -> exists j, set_out i c = Some j /\ pure j = pure i /\ wrote i j [c].
Proof.
  unfold room, set_out, wrote. intros H. destruct (sb_out i) as [b|] eqn:E.
  - cbn [length] in H. destruct (mset_ok b (sb_len i) c ltac:(lia)) as [b' [Hb Hl]].
    rewrite Hb. cbn [obind]. eexists. split; [reflexivity|]. split; [reflexivity|].
    cbn [sb_len sb_out length]. split; [lia|]. exists b'. split; [reflexivity|].
    destruct (mset_firstn _ _ _ _ Hb) as [Hf _].
    split; [exact Hl|]. split; [rewrite <- Hf; f_equal; lia|].
    unfold mset, mwrite in Hb. destruct (_ <=? _)%nat eqn:E2; [|discriminate].
    assert (Hb2 : b' = firstn (sb_len i) b ++ [c] ++ skipn (sb_len i + length [c]) b) by congruence.
    rewrite Hb2. rewrite app_assoc, skipn_app.
    rewrite skipn_all2 by (rewrite app_length, firstn_length; cbn [length]; lia).
    rewrite app_length, firstn_length. cbn [length app].
    replace (S (sb_len i) - _)%nat with 0%nat by lia.
    rewrite skipn_O. replace (sb_len i + 1)%nat with (S (sb_len i)) by lia. reflexivity.
  - eexists. split; [reflexivity|]. split; [reflexivity|]. cbn [sb_len sb_out length].
    split; [lia|reflexivity].
Qed.

Lemma wrote_pure i i' j o :
  sb_len i' = sb_len i -> sb_out i' = sb_out i -> wrote i' j o -> wrote i j o.
Proof. unfold wrote. intros -> -> H. exact H. Qed.

Lemma wrote_pure_r i j j' o :
  sb_len j' = sb_len j -> sb_out j' = sb_out j -> wrote i j o -> wrote i j' o.
Proof. unfold wrote. intros -> -> H. exact H. Qed.

Definition step_like (seps ends : list Z) (i : sb) (p : ps * list Z * flow)
  (r : option (sb * flow)) : Prop :=
  let '(i', o, f) := p in
  room i o -> exists j, r = Some (j, f) /\ pure j = i' /\ wrote i j o.

Lemma process_char_like seps ends i c :
  step_like seps ends i (pproc seps ends (pure i) c) (process_char seps ends i c).
Proof.
  unfold step_like, pproc, process_char, pure. cbn [ps_q ps_cval ps_esc ps_base].
  assert (Out : room i [c] -> exists j, (i' <- set_out i c ;; Some (i', Go)) = Some (j, Go) /\
            pure j = pure i /\ wrote i j [c]).
  { intros R. destruct (set_out_wrote i c R) as [j (E & P & W)]. rewrite E. cbn [obind].
    exists j. auto. }
  destruct (c =? sb_q i); [intros _; eexists; split; [reflexivity|]; split; [reflexivity|];
    exact (wrote_nil i)|].
  destruct ((sb_q i =? 0) && _); [intros _; eexists; split; [reflexivity|]; split; [reflexivity|];
    exact (wrote_nil i)|].
  destruct (c =? 92); [intros _; eexists; split; [reflexivity|]; split; [reflexivity|];
    exact (wrote_nil i)|].
  destruct (sb_q i =? 0).
  - destruct (is_sep c seps); [intros _; exists i; split; [reflexivity|]; split; [reflexivity|];
      exact (wrote_nil i)|].
    destruct (strchr ends c); [intros _; exists i; split; [reflexivity|]; split; [reflexivity|];
      exact (wrote_nil i)|].
    exact Out.
  - exact Out.
Qed.

Lemma sb_char_like seps ends i c :
  step_like seps ends i (pchar seps ends (pure i) c) (sb_char seps ends i c).
Proof.
  unfold pchar, sb_char. unfold pure at 1. cbn [ps_esc].
  destruct (sb_esc i) as [|[|e]] eqn:Ee.
  - apply process_char_like.
  - unfold pure. cbn [ps_q ps_cval ps_esc ps_base].
    destruct (isodigit c); [intros _; eexists; split; [reflexivity|]; split; [reflexivity|];
      exact (wrote_nil i)|].
    destruct (c =? 120); [intros _; eexists; split; [reflexivity|]; split; [reflexivity|];
      exact (wrote_nil i)|].
    intros R. destruct (set_out_wrote (set_cval 0 i) (sym_val c) R) as [j (E & P & W)].
    rewrite E. cbn [obind]. eexists. split; [reflexivity|]. split.
    + unfold pure, set_esc in *. cbn. injection P as P1 P2 P3 P4. cbn in P1, P2, P3, P4.
      rewrite P1, P2, P4. reflexivity.
    + exact W.
  - unfold pure. cbn [ps_q ps_cval ps_esc ps_base].
    destruct (((sb_base i =? 16) && isxdigit c) || isodigit c) eqn:Ed.
    + destruct (1 <=? e)%nat.
      * cbn [sb_cval set_cval]. intros R.
        destruct (set_out_wrote (set_cval ((sb_cval i * sb_base i + digit_add c) mod 256) i)
                    ((sb_cval i * sb_base i + digit_add c) mod 256) R) as [j (E & P & W)].
        rewrite E. cbn [obind]. eexists. split; [reflexivity|]. split.
        -- unfold pure, set_esc in *. cbn. injection P as P1 P2 P3 P4. cbn in P1, P2, P3, P4.
           rewrite P1, P2, P4. reflexivity.
        -- exact W.
      * intros _. eexists. split; [reflexivity|]. split; [reflexivity|]. exact (wrote_nil i).
    + pose proof (process_char_like seps ends) as L.
      destruct (pproc seps ends (mkps (sb_q i) (sb_cval i) 0 (sb_base i)) c)
        as [[i' o] f] eqn:Ep.
      intros R.
      assert (R1 : room i [sb_cval i]).
      { unfold room in *. destruct (sb_out i); [|exact I]. cbn [length] in *. lia. }
      destruct (set_out_wrote i (sb_cval i) R1) as [j (E & P & W)].
      rewrite E. cbn [obind].
      specialize (L (set_esc 0 j) c).
      assert (Pj : pure (set_esc 0 j) = mkps (sb_q i) (sb_cval i) 0 (sb_base i)).
      { unfold pure, set_esc in *. cbn. injection P as P1 P2 P3 P4. congruence. }
      rewrite Pj, Ep in L. cbn [step_like] in L.
      assert (R2 : room (set_esc 0 j) o).
      { destruct W as [WL W]. unfold room in *. cbn [set_esc sb_out sb_len].
        destruct (sb_out i) as [b|].
        - destruct W as [b' (W1 & W2 & _)]. rewrite W1. cbn [length] in *. lia.
        - rewrite W. exact I. }
      destruct (L R2) as [k (Ek & Pk & Wk)]. exists k. split; [exact Ek|]. split; [exact Pk|].
      change (sb_cval i :: o) with ([sb_cval i] ++ o).
      eapply wrote_app; [exact W|]. exact Wk.
Qed.

Lemma strtobuf_like seps ends s : forall i j o r,
  prun seps ends (pure i) s = (j, o, r) ->
  room i o ->
  exists k, strtobuf seps ends i s = Some (k, r) /\ pure k = j /\ wrote i k o.
Proof.
  induction s as [|c s IH]; intros i j o r E R.
  - cbn [prun strtobuf] in *. injection E as <- <- <-. exists i. split; [reflexivity|].
    split; [reflexivity|]. apply wrote_nil.
  - cbn [prun strtobuf] in *. pose proof (sb_char_like seps ends i c) as L.
    destruct (pchar seps ends (pure i) c) as [[i' o1] f] eqn:Ep. cbn [step_like] in L.
    destruct f.
    + destruct (prun seps ends i' s) as [[i'' o2] r2] eqn:Er.
      assert (E1 : i'' = j /\ o1 ++ o2 = o /\ r2 = r) by (repeat split; congruence).
      destruct E1 as (-> & <- & ->).
      assert (R1 : room i o1).
      { unfold room in *. destruct (sb_out i); [|exact I]. rewrite app_length in R. lia. }
      destruct (L R1) as [k (Ek & Pk & Wk)]. rewrite Ek. cbn [obind].
      rewrite <- Pk in Er.
      assert (R2 : room k o2).
      { unfold room in *. destruct Wk as [WL W]. destruct (sb_out i) as [b|].
        - destruct W as [b' (W1 & W2 & _)]. rewrite W1. rewrite app_length in R. lia.
        - rewrite W. exact I. }
      destruct (IH _ _ _ _ Er R2) as [m (Em & Pm & Wm)]. exists m.
      split; [exact Em|]. split; [exact Pm|]. eapply wrote_app; eassumption.
    + assert (E1 : i' = j /\ o1 = o /\ s = r) by (repeat split; congruence).
      destruct E1 as (-> & -> & ->). destruct (L R) as [k (Ek & Pk & Wk)]. rewrite Ek. cbn [obind].
      exists k. auto.
    + assert (E1 : i' = j /\ o1 = o /\ c :: s = r) by (repeat split; congruence).
      destruct E1 as (-> & -> & <-). destruct (L R) as [k (Ek & Pk & Wk)]. rewrite Ek. cbn [obind].
      exists k. auto.
Qed.

Lemma sb_finish_like i : forall j o ok,
  pfin (pure i) = (j, o, ok) -> room i o ->
  exists k, sb_finish i = Some (k, ok) /\ pure k = j /\ wrote i k o.
Proof.
  unfold pfin, sb_finish. cbn [pure ps_q ps_cval ps_esc ps_base].
  destruct (((sb_base i =? 8) && (1 <? sb_esc i)%nat) || ((sb_base i =? 16) && (2 <? sb_esc i)%nat));
    intros j o ok E R.
  - cbn [ps_q ps_esc] in E. assert (E1 : o = [sb_cval i]) by congruence. subst o.
    destruct (set_out_wrote i (sb_cval i) R) as [k (Ek & Pk & Wk)]. rewrite Ek. cbn [obind].
    exists (set_esc 0 k). split; [|split; [|exact Wk]].
    + injection Pk as P1 P2 P3 P4. cbn [set_esc sb_q sb_esc]. rewrite P1.
      injection E as _ <-. reflexivity.
    + injection Pk as P1 P2 P3 P4. injection E as <- _. unfold pure, set_esc. cbn. congruence.
  - cbn [obind]. injection E as <- <- <-. exists i. split; [reflexivity|]. split; [reflexivity|].
    apply wrote_nil.
Qed.

(** Both passes: the result is that of the scanner without memory, and the
    buffer allocated after the first pass is large enough. *)
Definition start_ps : ps := mkps 0 0 0 0.

Lemma wrote_start n k o :
  wrote (sb_init (Some (repeat 0 n))) k o ->
  exists b, sb_out k = Some b /\ length b = n /\ sb_len k = length o /\
    firstn (length o) b = o /\ skipn (length o) b = repeat 0 (n - length o).
Proof.
  intros [L [b (E & Hl & Hf & Hs)]]. cbn [sb_init sb_len] in L, Hf. rewrite Nat.add_0_l in L.
  exists b. split; [exact E|]. rewrite repeat_length in Hl. split; [exact Hl|].
  split; [exact L|]. rewrite L in Hf, Hs. rewrite firstn_O in Hf. split; [exact Hf|].
  rewrite Hs. clear. generalize (length o) as m. induction n as [|n IH]; intros m.
  - cbn [repeat]. rewrite skipn_nil. reflexivity.
  - destruct m as [|m]; [reflexivity|]. cbn [repeat skipn]. rewrite IH. reflexivity.
Qed.

Lemma wrote_room k n o o' :
  wrote (sb_init (Some (repeat 0 n))) k o -> (length o + length o' <= n)%nat -> room k o'.
Proof.
  intros W H. destruct (wrote_start _ _ _ W) as [b (E & Hl & HL & _)].
  unfold room. rewrite E. lia.
Qed.

Lemma scan_like extra seps ends s : (extra <= 1)%nat ->
  scan extra seps ends s =
    match pparse seps ends start_ps s with
    | None => Some None
    | Some (v, r) => Some (Some (v ++ repeat 0 extra, r))
    end.
Proof.
  intros Hx. unfold scan, pparse.
  destruct (prun seps ends start_ps s) as [[j o] r] eqn:Er.
  destruct (pfin j) as [[j' o'] ok] eqn:Ef.
  destruct (strtobuf_like seps ends s (sb_init None) j o r Er I) as [k (Ek & Pk & Wk)].
  rewrite Ek. cbn [obind]. subst j.
  assert (Rk : room k o').
  { unfold room. destruct Wk as [_ W]. cbn [sb_init sb_out] in W. rewrite W. exact I. }
  destruct (sb_finish_like k j' o' ok Ef Rk) as [m (Em & Pm & Wm)].
  rewrite Em. cbn [obind]. destruct ok; [|reflexivity]. cbn [negb].
  assert (Lm : sb_len m = length (o ++ o')).
  { pose proof (wrote_app _ _ _ _ _ Wk Wm) as [L _]. exact L. }
  rewrite Lm.
  set (N := (length (o ++ o') + extra)%nat).
  destruct (strtobuf_like seps ends s (sb_init (Some (repeat 0 N))) (pure k) o r Er) as [k2 (Ek2 & Pk2 & Wk2)].
  { unfold room. cbn [sb_init sb_out sb_len]. rewrite repeat_length. unfold N. rewrite app_length. lia. }
  rewrite Ek2. cbn [obind]. rewrite <- Pk2 in Ef.
  destruct (sb_finish_like k2 j' o' true Ef) as [m2 (Em2 & Pm2 & Wm2)].
  { eapply wrote_room; [exact Wk2|]. unfold N. rewrite app_length. lia. }
  rewrite Em2. cbn [obind].
  destruct (wrote_start _ _ _ (wrote_app _ _ _ _ _ Wk2 Wm2)) as [b (Eb & Hl & HL & Hf & Hs)].
  rewrite Eb. rewrite HL.
  assert (Hb : b = (o ++ o') ++ repeat 0 extra).
  { rewrite <- (firstn_skipn (length (o ++ o')) b), Hf, Hs. f_equal. f_equal. unfold N. lia. }
  destruct extra as [|[|x]]; [| |lia].
  - cbn [Nat.eqb]. rewrite mread_some by (rewrite Hl; unfold N; lia). cbn [obind skipn].
    rewrite Hf. cbn [repeat]. rewrite app_nil_r. reflexivity.
  - cbn [Nat.eqb repeat].
    destruct (mset_ok b (length (o ++ o')) 0 ltac:(unfold N in Hl; lia)) as [b' [Hb' Hl']].
    rewrite Hb'. cbn [obind]. do 3 f_equal.
    destruct (mset_firstn _ _ _ _ Hb') as [Hf' _]. rewrite Hf in Hf'.
    rewrite firstn_all2 in Hf' by (unfold N in Hl; lia). exact Hf'.
Qed.
