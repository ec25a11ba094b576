(** Properties of lib/gensio_perf.c. *)
From Verif Require Import Base Perf_Model Perf_Spec.
From Coq Require Import Lia.
Open Scope nat_scope.

Definition inv (txt : report -> list Z) (bz wlen oexp : nat) (s : perf) : Prop :=
  p_wlen s = wlen /\ p_oexp s = oexp /\
  sent (p_tr s) + p_left s = wlen /\ came (p_tr s) = p_rc s /\ oexp <= came (p_tr s) + p_exp s /\
  since_w (p_tr s) = p_wsl s /\ since_r (p_tr s) = p_rsl s /\
  tick_w (p_tr s) + since_w (p_tr s) = sent (p_tr s) /\ tick_r (p_tr s) + since_r (p_tr s) = came (p_tr s) /\
  texts txt (p_tr s) = taken (p_tr s) ++ p_pend s /\
  (p_final s = true <-> Exists istotal (p_tr s)) /\
  reports_ok txt bz wlen oexp (p_tr s) /\ since_t (p_tr s) = p_secs s.
Lemma setup_inv : forall txt bz w o, inv txt bz w o (perf_setup w o).
Proof. intros. unfold inv; cbn. repeat split; auto; try lia; intros K; inversion K. Qed.
Lemma ex_cons : forall o tr, ~ istotal o -> (Exists istotal (o :: tr) <-> Exists istotal tr).
Proof. intros o tr N. split; intros H; [inversion H; [contradiction|assumption]|right; exact H]. Qed.
Ltac fin A11 := match goal with
  | |- _ = true -> Exists _ _ => let K := fresh in intros K; apply ex_cons; [solve [auto]|]; apply A11, K
  | |- Exists _ _ -> _ = true => let K := fresh in intros K; apply A11; apply ex_cons in K; [exact K|solve [auto]]
  | _ => idtac end.

Lemma end_inv : forall txt bz w o s, inv txt bz w o s -> (In PIoErr (p_tr s) \/ p_left s = 0 /\ p_exp s = 0) -> inv txt bz w o (end_check txt s).
Proof.
  intros txt bz w o [l wl ex oe rc ws rs sc pe fi tr] H C. unfold end_check. cbn [p_final p_pend]. destruct fi; [exact H|]. destruct pe; [|exact H].
  unfold inv in *. cbn in *. destruct H as (A1 & A2 & A3 & A4 & A5 & A6 & A7 & A8 & A9 & A10 & A11 & A12 & A13). subst.
  repeat split; auto; try lia.
  - rewrite A10, app_nil_r. reflexivity.
  - intros _. left. exact Logic.I.
  - intros K. apply A11 in K. discriminate K.
  - destruct C as [C|(C & D)]; [auto|right]. lia.
Qed.
Lemma lim : forall a n, (if a <? n then a else n) = Nat.min n a.
Proof. intros a n. destruct (Nat.ltb_spec a n); lia. Qed.
Lemma step_inv : forall txt b w o ev s, inv txt b w o s -> inv txt b w o (pstep txt b ev s).
Proof.
  intros txt bz w o ev s H. destruct ev as [e n|len e n| |]; cbn [pstep].
  - unfold ul_write. destruct (Nat.ltb_spec 0 (p_left s)) as [L|L].
    + rewrite !lim. cbv zeta. assert (CL : Nat.min (p_left s) bz <= p_left s /\ Nat.min (p_left s) bz <= bz) by lia.
      revert CL. generalize (Nat.min (p_left s) bz). intros count CL.
      assert (T : takes count e n = if (e =? 0)%Z then Nat.min n count else 0) by reflexivity. assert (CC : Nat.min n count <= count) by lia. revert T CC. generalize (Nat.min n count). intros c T CC.
      destruct s as [l wl ex oe rc ws rs sc pe fi tr]. destruct (e =? 0)%Z; cbn [fst]; unfold inv in *; cbn -[takes] in *; rewrite ?T; destruct H as (A1 & A2 & A3 & A4 & A5 & A6 & A7 & A8 & A9 & A10 & A11 & A12 & A13);
      repeat split; auto; try lia; fin A11.
    + destruct ((0 <? p_wlen s) || (0 <? p_oexp s)); [|exact H]. destruct (p_final s) eqn:F; cbn [negb andb].
      * destruct (p_pend s) eqn:P; [|exact H]. cbn [fst].
        destruct s as [l wl ex oe rc ws rs sc pe fi tr]. unfold inv in *. cbn in *. subst. destruct H as (A1 & A2 & A3 & A4 & A5 & A6 & A7 & A8 & A9 & A10 & A11 & A12 & A13).
        repeat split; auto; try lia.
        -- intros _. right. apply A11. reflexivity.
        -- apply A11. reflexivity.
        -- rewrite A10, app_nil_r. reflexivity.
      * destruct (Nat.eqb_spec (p_exp s) 0) as [X|X]; cbn [fst]; [|exact H]. apply end_inv; [exact H|]. right. lia.
  - unfold ll_write.
    assert (G : inv txt bz w o (put (PCame len) (mkp (p_left s) (p_wlen s) (if p_exp s <? len then 0 else p_exp s - len) (p_oexp s) (p_rc s + len) (p_wsl s) (p_rsl s + len) (p_secs s) (p_pend s) (p_final s) (p_tr s)))).
    { destruct s as [l wl ex oe rc ws rs sc pe fi tr]. unfold inv in *. cbn -[Nat.ltb] in *. destruct H as (A1 & A2 & A3 & A4 & A5 & A6 & A7 & A8 & A9 & A10 & A11 & A12 & A13).
      repeat split; auto; try lia; fin A11. destruct (Nat.ltb_spec ex len); lia. }
    revert G. generalize (put (PCame len) (mkp (p_left s) (p_wlen s) (if p_exp s <? len then 0 else p_exp s - len) (p_oexp s) (p_rc s + len) (p_wsl s) (p_rsl s + len) (p_secs s) (p_pend s) (p_final s) (p_tr s))).
    clear H s. intros s H. cbv zeta. destruct (p_pend s) as [|z l0] eqn:P; [exact H|]. rewrite <- P, lim.
    assert (T : takes (length (p_pend s)) e n = if (e =? 0)%Z then Nat.min n (length (p_pend s)) else 0) by reflexivity. revert T. generalize (Nat.min n (length (p_pend s))). intros c T.
    destruct s as [l wl ex oe rc ws rs sc pe fi tr]. cbn [p_pend] in T. destruct (e =? 0)%Z; unfold inv in *; cbn -[firstn skipn takes] in *; rewrite ?T; destruct H as (A1 & A2 & A3 & A4 & A5 & A6 & A7 & A8 & A9 & A10 & A11 & A12 & A13);
    repeat split; auto; try lia; fin A11.
    + rewrite <- app_assoc, firstn_skipn. exact A10.
    + cbn [firstn]. rewrite app_nil_r. exact A10.
  - unfold timeout. destruct s as [l wl ex oe rc ws rs sc pe fi tr]. cbv zeta. cbn [put p_pend]. destruct pe as [|z0 zs]; unfold inv in *; cbn in *; destruct H as (A1 & A2 & A3 & A4 & A5 & A6 & A7 & A8 & A9 & A10 & A11 & A12 & A13); subst.
    + repeat split; auto; try lia.
      * rewrite A10, app_nil_r. reflexivity.
      * intros K. apply ex_cons; [auto|]. apply ex_cons; [auto|]. apply A11, K.
      * intros K. apply A11. apply ex_cons in K; auto. apply ex_cons in K; auto.
    + repeat split; auto; fin A11.
  - unfold io_err. apply end_inv; [|left; left; reflexivity].
    destruct s as [l wl ex oe rc ws rs sc pe fi tr]. unfold inv in *. cbn in *. destruct H as (A1 & A2 & A3 & A4 & A5 & A6 & A7 & A8 & A9 & A10 & A11 & A12 & A13).
    repeat split; auto; fin A11.
Qed.
Lemma run_inv : forall txt b w o es s, inv txt b w o s -> inv txt b w o (prun txt b es s).
Proof. intros txt b w o es. induction es as [|e es IH]; intros s H; [exact H|]. cbn. apply IH, step_inv, H. Qed.

(** C167: never more is written than was asked for; the total is right, is made once and, unless an
    error was told, only when all was written and all that is expected came; the end comes when all
    was written and the user has read every report. *)
Theorem C167_total : forall txt b w o es, let s := prun txt b es (perf_setup w o) in
  sent (p_tr s) <= w /\ reports_ok txt b w o (p_tr s).
Proof.
  intros txt b w o es s. destruct (run_inv txt b w o es _ (setup_inv txt b w o)) as (_ & _ & A & _ & _ & _ & _ & _ & _ & _ & _ & B & _). fold s in A, B. split; [lia|exact B].
Qed.
Print Assumptions C167_total.
Definition tx (r : report) : list Z := match r with RTotal _ _ => [1; 2; 3]%Z | RTick _ _ _ => [7; 8]%Z end.
Example total_case : p_tr (prun tx 4 [VWrite 0 9; VTime; VWrite 5 3; VWrite 0 2; VCome 2 0 1; VWrite 0 0; VCome 0 0 9; VWrite 0 0; VCome 0 0 2; VWrite 0 0; VCome 0 0 2; VWrite 0 0] (perf_setup 6 2)) =
  [PEnd; PText [3]%Z 0 2; PCame 0; PText [1; 2; 3]%Z 0 2; PCame 0; PReport (RTotal 6 2); PText [8]%Z 0 9; PCame 0; PText [7; 8]%Z 0 1; PCame 2; PWrite 2 0 2; PWrite 2 5 3; PReport (RTick 4 0 1); PTime; PWrite 4 0 9].
Proof. vm_compute. reflexivity. Qed.

(** C168: the user is given the text of the reports in order, whole and unmixed; the reports of the
    timer and what came since the last add up to what was written and read. *)
Theorem C168_text : forall txt b w o es, let s := prun txt b es (perf_setup w o) in
  (exists rest, texts txt (p_tr s) = taken (p_tr s) ++ rest) /\
  tick_w (p_tr s) + since_w (p_tr s) = sent (p_tr s) /\ tick_r (p_tr s) + since_r (p_tr s) = came (p_tr s).
Proof.
  intros txt b w o es s. destruct (run_inv txt b w o es _ (setup_inv txt b w o)) as (_ & _ & _ & _ & _ & _ & _ & A & B & C & _). fold s in A, B, C. split; [eexists; exact C|auto].
Qed.
Print Assumptions C168_text.
Example text_case : let s := prun tx 4 [VWrite 0 9; VTime; VWrite 0 1; VCome 3 0 1; VTime; VCome 0 0 5; VTime; VCome 1 0 1] (perf_setup 6 0) in
  texts tx (p_tr s) = [7; 8; 7; 8]%Z /\ taken (p_tr s) = [7; 8; 7]%Z /\ tick_w (p_tr s) = 5 /\ tick_r (p_tr s) = 3 /\ since_r (p_tr s) = 1.
Proof. vm_compute. auto. Qed.

(** C169: when an error is told and the user has read every report, the total is made, or was. *)
Theorem C169_error_partial : forall txt b w o es, let s := prun txt b es (perf_setup w o) in taken (p_tr s) = texts txt (p_tr s) ->
  Exists istotal (p_tr (pstep txt b VErr s)).
Proof.
  intros txt b w o es s T. destruct (run_inv txt b w o es _ (setup_inv txt b w o)) as (_ & _ & _ & _ & _ & _ & _ & _ & _ & C & F & _). fold s in C, F.
  assert (P : p_pend s = []). { rewrite T in C. apply (f_equal (@length Z)) in C. rewrite app_length in C. destruct (p_pend s); [reflexivity|cbn in C; lia]. }
  cbn [pstep]. unfold io_err, end_check. cbn [put p_final p_pend]. rewrite P. destruct (p_final s) eqn:X.
  - right. apply F. reflexivity.
  - left. exact Logic.I.
Qed.
Print Assumptions C169_error_partial.
Example error_case : let s := prun tx 4 [VWrite 0 3; VTime; VCome 1 0 2] (perf_setup 6 0) in
  taken (p_tr s) = texts tx (p_tr s) /\ hd PEnd (p_tr (pstep tx 4 VErr s)) = PReport (RTotal 3 1).
Proof. vm_compute. auto. Qed.

(** With a report of the timer not read yet, the error makes no total, and neither reading nor the
    timer makes one later (a further write or error could; the base makes none after an error). *)
Theorem C169_error_refuted : forall txt b, txt (RTick 0 0 1) <> [] -> exists es, let s := prun txt b es (perf_setup 5 0) in In PIoErr (p_tr s) /\
  forall es', (forall ev, In ev es' -> ev = VTime \/ exists len e n, ev = VCome len e n) -> ~ Exists istotal (p_tr (prun txt b es' s)).
Proof.
  intros txt b N. exists [VTime; VErr]. cbn [prun fold_left pstep]. unfold io_err, timeout, end_check. cbn -[firstn skipn]. destruct (txt (RTick 0 0 1)) as [|z l] eqn:T; [contradiction N; reflexivity|].
  split; [left; reflexivity|]. intros es' Q.
  match goal with |- ~ Exists istotal (p_tr (prun txt b es' ?s)) => assert (H : ~ Exists istotal (p_tr s)) end.
  { cbn. rewrite !ex_cons by auto. intros K. inversion K. }
  revert H. match goal with |- ~ Exists istotal (p_tr ?s0) -> _ => generalize s0 end. clear N T.
  induction es' as [|ev es' IH]; intros s H; [exact H|]. cbn [prun fold_left]. apply IH; [intros ev' I'; apply Q; right; exact I'|].
  destruct (Q ev (or_introl eq_refl)) as [->|(len & e & n & ->)]; cbn [pstep].
  { unfold timeout. cbv zeta. cbn [put p_pend]. destruct (p_pend s); cbn; rewrite !ex_cons; auto. }
  unfold ll_write. cbn [put p_pend]. destruct (p_pend s).
  - cbn. rewrite ex_cons; auto.
  - destruct (e =? 0)%Z; cbn -[firstn skipn]; rewrite !ex_cons; auto.
Qed.
Print Assumptions C169_error_refuted.
