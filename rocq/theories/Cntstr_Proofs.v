(** Proofs about counted strings. *)
From Verif Require Import Base Cstr_Model Cstr_Spec Cstr_Proofs3 Cntstr_Model Cntstr_Spec.
Open Scope Z_scope.

Lemma put_length {T} (l : list T) : forall i x, length (put l i x) = length l.
Proof. induction l as [|y l IH]; intros [|i] x; cbn [put length]; auto. Qed.
Lemma put_same {T} (l : list T) : forall i x t, nth_error l i = Some t -> nth_error (put l i x) i = Some x.
Proof. induction l as [|y l IH]; intros [|i] x t; cbn [put nth_error]; try discriminate; eauto. Qed.
Lemma put_other {T} (l : list T) : forall i j x, i <> j -> nth_error (put l i x) j = nth_error l j.
Proof. induction l as [|y l IH]; intros [|i] [|j] x N; cbn [put nth_error]; auto; lia. Qed.
Lemma put_forall {T} (P : T -> Prop) l : forall i x, Forall P l -> P x -> Forall P (put l i x).
Proof. induction l as [|y l IH]; intros [|i] x F Hx; cbn [put]; auto; inversion F; subst; constructor; auto. Qed.

Definition sumf (f : thr -> nat) (ts : list thr) : nat := list_sum (map f ts).
Lemma sum_put f ts : forall i t x, nth_error ts i = Some t -> (sumf f (put ts i x) + f t = sumf f ts + f x)%nat.
Proof.
  unfold sumf. induction ts as [|y ts IH]; intros [|i] t x E; cbn [nth_error] in E; try discriminate; cbn [put map list_sum fold_right].
  - injection E as ->. lia.
  - specialize (IH i t x E). unfold list_sum in IH. lia.
Qed.
Lemma sum_nth f ts : forall i t, nth_error ts i = Some t -> (f t <= sumf f ts)%nat.
Proof.
  unfold sumf. induction ts as [|y ts IH]; intros [|i] t E; cbn [nth_error] in E; try discriminate; cbn [map list_sum fold_right].
  - injection E as ->. lia.
  - specialize (IH i t E). unfold list_sum in IH. lia.
Qed.

Definition in_last (t : thr) : nat := match th_pc t with PFree3 => 1%nat | _ => 0%nat end.
Definition users (ts : list thr) : nat := (sumf th_held ts + sumf in_free ts)%nat.
Definition uses (t : thr) : Prop := match th_pc t with PRef | PRef2 _ | PGet => (1 <= th_held t)%nat | _ => True end.

Record CInv (v : option (list Z)) (o : cobj) (ts : list thr) : Prop := {
  ci_state : co_live o = true /\ sumf in_last ts = 0%nat /\ co_count o = Z.of_nat (users ts) /\ (1 <= users ts)%nat \/
             co_live o = true /\ sumf in_last ts = 1%nat /\ users ts = 0%nat \/
             co_live o = false /\ sumf in_last ts = 0%nat /\ users ts = 0%nat;
  ci_bound : Z.of_nat (users ts + sumf in_ref ts) < 2 ^ 32;
  ci_uses : Forall uses ts;
  ci_str : co_live o = true -> cntstr_get o = Some v;
  ci_seen : Forall (fun t => Forall (eq v) (th_seen t)) ts }.

Lemma pow32 : 2 ^ 32 = 4294967296. Proof. reflexivity. Qed.

(** What the sums do when one thread changes *)
Ltac sums E x := match type of E with nth_error ?ts ?i = Some ?t =>
  let H1 := fresh "S" in let H2 := fresh "S" in let H3 := fresh "S" in let H4 := fresh "S" in
  let G1 := fresh "G" in let G2 := fresh "G" in let G3 := fresh "G" in let G4 := fresh "G" in
  pose proof (sum_put th_held ts i t x E) as H1; pose proof (sum_put in_ref ts i t x E) as H2;
  pose proof (sum_put in_free ts i t x E) as H3; pose proof (sum_put in_last ts i t x E) as H4;
  pose proof (sum_nth th_held ts i t E) as G1; pose proof (sum_nth in_ref ts i t E) as G2;
  pose proof (sum_nth in_free ts i t E) as G3; pose proof (sum_nth in_last ts i t E) as G4 end.

Lemma get_frame o c : co_live o = true -> cntstr_get (mkco (co_live o) c (co_str o)) = cntstr_get o.
Proof. intros L. unfold cntstr_get. cbn [co_live co_str]. reflexivity. Qed.

Lemma step_inv v o ts i t : CInv v o ts -> nth_error ts i = Some t ->
  exists o' t', thr_step o t = Some (o', t') /\ CInv v o' (put ts i t').
Proof.
  intros [I B U St Se] E.
  pose proof (proj1 (Forall_forall _ _) U t (nth_error_In _ _ E)) as Ut.
  pose proof (proj1 (Forall_forall _ _) Se t (nth_error_In _ _ E)) as Set_.
  destruct t as [p hd seen]. cbn [th_seen] in Set_. unfold uses in Ut. cbn [th_pc th_held] in Ut.
  unfold thr_step. cbn [th_pc th_held th_seen]. destruct p as [| |old| |old| |].
  - exists o, (mkth POut hd seen). split; [reflexivity|]. sums E (mkth POut hd seen). unfold users in *.
    constructor; auto using put_forall.
    + unfold users. replace (sumf th_held (put ts i _)) with (sumf th_held ts) by lia. replace (sumf in_free (put ts i _)) with (sumf in_free ts) by lia.
      replace (sumf in_last (put ts i _)) with (sumf in_last ts) by lia. exact I.
    + unfold users. lia.
  - (* PRef *) unfold atomic_get. pose proof (sum_nth th_held ts i _ E) as Q. cbn [th_held] in Q. unfold users in *.
    destruct I as [(L & F3 & C & P)|[(_ & _ & P)|(_ & _ & P)]]; [|lia|lia]. rewrite L. cbn [guard obind].
    replace (co_count o =? 0) with false by (symmetry; apply Z.eqb_neq; lia). cbn [negb guard obind].
    do 2 eexists. split; [reflexivity|]. set (t' := mkth (PRef2 (co_count o)) hd seen). sums E t'. cbn [th_held in_ref in_free in_last th_pc t'] in *.
    constructor; unfold users; auto.
    + left. repeat split; [exact L|lia|lia|lia].
    + lia.
    + apply put_forall; [exact U|exact Ut].
    + apply put_forall; [exact Se|exact Set_].
  - (* PRef2 *) unfold atomic_cas. pose proof (sum_nth th_held ts i _ E) as Q. cbn [th_held] in Q. unfold users in *.
    destruct I as [(L & F3 & C & P)|[(_ & _ & P)|(_ & _ & P)]]; [|lia|lia]. rewrite L. cbn [guard obind].
    destruct (Z.eqb_spec (co_count o) old) as [Q1|Q1]; cbn [obind]; do 2 eexists; (split; [reflexivity|]).
    + set (t' := mkth POut (S hd) seen). sums E t'. cbn [th_held in_ref in_free in_last th_pc t'] in *.
      rewrite Z.mod_small by (unfold users in *; rewrite pow32 in *; lia).
      constructor; unfold users; cbn [co_live co_count].
      * left. repeat split; lia.
      * lia.
      * apply put_forall; [exact U|exact Logic.I].
      * intros _. rewrite <- L at 1. rewrite get_frame by exact L. auto.
      * apply put_forall; [exact Se|exact Set_].
    + set (t' := mkth PRef hd seen). sums E t'. cbn [th_held in_ref in_free in_last th_pc t'] in *.
      constructor; unfold users; auto.
      * left. repeat split; [exact L|lia|lia|lia].
      * lia.
      * apply put_forall; [exact U|exact Ut].
      * apply put_forall; [exact Se|exact Set_].
  - (* PFree *) unfold atomic_get. pose proof (sum_nth in_free ts i _ E) as Q. cbn [in_free th_pc] in Q. unfold users in *.
    destruct I as [(L & F3 & C & P)|[(_ & _ & P)|(_ & _ & P)]]; [|lia|lia]. rewrite L. cbn [guard obind].
    replace (co_count o =? 0) with false by (symmetry; apply Z.eqb_neq; lia). cbn [negb guard obind].
    do 2 eexists. split; [reflexivity|]. set (t' := mkth (PFree2 (co_count o)) hd seen). sums E t'. cbn [th_held in_ref in_free in_last th_pc t'] in *.
    constructor; unfold users; auto.
    + left. repeat split; [exact L|lia|lia|lia].
    + lia.
    + apply put_forall; [exact U|exact Logic.I].
    + apply put_forall; [exact Se|exact Set_].
  - (* PFree2 *) unfold atomic_cas. pose proof (sum_nth in_free ts i _ E) as Q. cbn [in_free th_pc] in Q. unfold users in *.
    destruct I as [(L & F3 & C & P)|[(_ & _ & P)|(_ & _ & P)]]; [|lia|lia]. rewrite L. cbn [guard obind].
    destruct (Z.eqb_spec (co_count o) old) as [Q1|Q1]; cbn [obind]; do 2 eexists; (split; [reflexivity|]).
    + rewrite Z.mod_small by (unfold users in *; rewrite pow32 in *; lia).
      destruct (Z.eqb_spec (old - 1) 0) as [Q2|Q2].
      * set (t' := mkth PFree3 hd seen). sums E t'. cbn [th_held in_ref in_free in_last th_pc t'] in *.
        constructor; unfold users; cbn [co_live co_count].
        -- right. left. repeat split; lia.
        -- lia.
        -- apply put_forall; [exact U|exact Logic.I].
        -- intros _. rewrite <- L at 1. rewrite get_frame by exact L. auto.
        -- apply put_forall; [exact Se|exact Set_].
      * set (t' := mkth POut hd seen). sums E t'. cbn [th_held in_ref in_free in_last th_pc t'] in *.
        constructor; unfold users; cbn [co_live co_count].
        -- left. repeat split; lia.
        -- lia.
        -- apply put_forall; [exact U|exact Logic.I].
        -- intros _. rewrite <- L at 1. rewrite get_frame by exact L. auto.
        -- apply put_forall; [exact Se|exact Set_].
    + set (t' := mkth PFree hd seen). sums E t'. cbn [th_held in_ref in_free in_last th_pc t'] in *.
      constructor; unfold users; auto.
      * left. repeat split; [exact L|lia|lia|lia].
      * lia.
      * apply put_forall; [exact U|exact Logic.I].
      * apply put_forall; [exact Se|exact Set_].
  - (* PFree3 *) pose proof (sum_nth in_last ts i _ E) as Q. cbn [in_last th_pc] in Q. unfold users in *.
    destruct I as [(_ & F3 & _)|[(L & F3 & P)|(_ & F3 & _)]]; [lia| |lia]. rewrite L. cbn [guard obind].
    do 2 eexists. split; [reflexivity|]. set (t' := mkth POut hd seen). sums E t'. cbn [th_held in_ref in_free in_last th_pc t'] in *.
    constructor; unfold users; cbn [co_live].
    + right. right. repeat split; lia.
    + lia.
    + apply put_forall; [exact U|exact Logic.I].
    + discriminate.
    + apply put_forall; [exact Se|exact Set_].
  - (* PGet *) pose proof (sum_nth th_held ts i _ E) as Q. cbn [th_held] in Q. unfold users in *.
    destruct I as [(L & F3 & C & P)|[(_ & _ & P)|(_ & _ & P)]]; [|lia|lia]. rewrite (St L). cbn [obind].
    do 2 eexists. split; [reflexivity|]. set (t' := mkth POut hd (seen ++ [v])). sums E t'. cbn [th_held in_ref in_free in_last th_pc t'] in *.
    constructor; unfold users; auto.
    + left. repeat split; [exact L|lia|lia|lia].
    + lia.
    + apply put_forall; [exact U|exact Logic.I].
    + apply put_forall; [exact Se|]. unfold t'. cbn [th_seen]. apply Forall_app. auto.
Qed.

Lemma begin_inv v o ts i t op : CInv v o ts -> nth_error ts i = Some t -> th_pc t = POut -> (1 <= th_held t)%nat ->
  (op = CRef -> Z.of_nat (users ts + sumf in_ref ts) + 1 < 2 ^ 32) -> CInv v o (put ts i (begin_op t op)).
Proof.
  intros [I B U St Se] E P H Lim.
  pose proof (proj1 (Forall_forall _ _) Se t (nth_error_In _ _ E)) as Set_.
  destruct t as [p hd seen]. cbn [th_pc th_held th_seen] in *. subst p.
  sums E (begin_op (mkth POut hd seen) op). unfold users in *.
  destruct op; cbn [begin_op th_held in_ref in_free in_last th_pc th_seen] in *.
  - specialize (Lim eq_refl). constructor; unfold users; auto.
    + destruct I as [(L & F3 & C & P)|[(L & F3 & P)|(L & F3 & P)]]; [left|right; left|right; right]; repeat split; try assumption; lia.
    + lia.
    + apply put_forall; [exact U|exact H].
    + apply put_forall; [exact Se|exact Set_].
  - clear Lim. constructor; unfold users; auto.
    + destruct I as [(L & F3 & C & P)|[(L & F3 & P)|(L & F3 & P)]]; [left|right; left|right; right]; repeat split; try assumption; lia.
    + lia.
    + apply put_forall; [exact U|exact Logic.I].
    + apply put_forall; [exact Se|exact Set_].
  - clear Lim. constructor; unfold users; auto.
    + destruct I as [(L & F3 & C & P)|[(L & F3 & P)|(L & F3 & P)]]; [left|right; left|right; right]; repeat split; try assumption; lia.
    + lia.
    + apply put_forall; [exact U|exact H].
    + apply put_forall; [exact Se|exact Set_].
Qed.

Lemma give_inv v o ts i j t u : CInv v o ts -> i <> j -> nth_error ts i = Some t -> nth_error ts j = Some u -> th_pc t = POut -> (1 <= th_held t)%nat ->
  CInv v o (put (put ts i (mkth (th_pc t) (Nat.pred (th_held t)) (th_seen t))) j (mkth (th_pc u) (S (th_held u)) (th_seen u))).
Proof.
  intros [I B U St Se] N E Eu P H.
  pose proof (proj1 (Forall_forall _ _) Se t (nth_error_In _ _ E)) as St1.
  pose proof (proj1 (Forall_forall _ _) Se u (nth_error_In _ _ Eu)) as St2.
  pose proof (proj1 (Forall_forall _ _) U u (nth_error_In _ _ Eu)) as Uu.
  set (t' := mkth (th_pc t) (Nat.pred (th_held t)) (th_seen t)). set (u' := mkth (th_pc u) (S (th_held u)) (th_seen u)).
  assert (Eu' : nth_error (put ts i t') j = Some u) by (rewrite put_other by exact N; exact Eu).
  sums E t'. sums Eu' u'. unfold users in *.
  change (in_ref t') with (in_ref t) in *. change (in_free t') with (in_free t) in *. change (in_last t') with (in_last t) in *.
  change (in_ref u') with (in_ref u) in *. change (in_free u') with (in_free u) in *. change (in_last u') with (in_last u) in *.
  cbn [th_held t' u'] in *.
  constructor; unfold users; auto.
  - destruct I as [(L & F3 & C & P1)|[(L & F3 & P1)|(L & F3 & P1)]]; [left|right; left|right; right]; repeat split; try assumption; lia.
  - lia.
  - apply put_forall; [apply put_forall; [exact U|]|].
    + unfold uses, t'. cbn [th_pc]. rewrite P. exact Logic.I.
    + unfold uses, u' in *. cbn [th_pc th_held]. destruct (th_pc u); auto.
  - apply put_forall; [apply put_forall; [exact Se|exact St1]|exact St2].
Qed.

Lemma crun_inv v : forall es o ts, CInv v o ts -> legal_crun (2 ^ 32) o ts es ->
  exists o' ts', crun o ts es = Some (o', ts') /\ CInv v o' ts' /\ length ts' = length ts.
Proof.
  induction es as [|e es IH]; intros o ts I G; cbn [crun legal_crun] in *; [eauto|]. destruct G as [G1 G2].
  assert (X : exists o' ts', cev_run o ts e = Some (o', ts') /\ CInv v o' ts' /\ length ts' = length ts).
  { destruct e as [i op|i|i j]; cbn [legal_c cev_run] in *.
    - destruct G1 as (t & E & P & H & Lim). rewrite E. cbn [obind]. do 2 eexists. split; [reflexivity|]. split; [|apply put_length].
      apply begin_inv; auto. intros Q. specialize (Lim Q). unfold refs, users, sumf in *. lia.
    - destruct G1 as (t & E). rewrite E. cbn [obind]. destruct (step_inv v o ts i t I E) as (o' & t' & E' & I'). rewrite E'. cbn [obind].
      do 2 eexists. split; [reflexivity|]. split; [exact I'|apply put_length].
    - destruct G1 as (N & J & t & E & P & H). rewrite E. cbn [obind]. rewrite put_other by exact N.
      destruct (nth_error ts j) as [u|] eqn:Eu; [|apply nth_error_None in Eu; lia]. cbn [obind]. do 2 eexists. split; [reflexivity|].
      split; [apply (give_inv v o ts i j t u); assumption|rewrite !put_length; reflexivity]. }
  destruct X as (o' & ts' & E & I' & L). rewrite E in G2 |- *. cbn [obind]. destruct (IH o' ts' I' G2) as (o2 & ts2 & E2 & I2 & L2).
  exists o2, ts2. split; [exact E2|]. split; [exact I2|congruence].
Qed.

Lemma start_inv v o n : co_live o = true -> co_count o = 1 -> cntstr_get o = Some v -> CInv v o (start n).
Proof.
  intros L C G. assert (Z0 : forall f, f (fresh_thr 0) = 0%nat -> sumf f (repeat (fresh_thr 0) n) = 0%nat).
  { intros f Hf. unfold sumf. induction n as [|n IH]; [reflexivity|]. cbn [repeat map list_sum fold_right]. unfold list_sum in IH. rewrite IH, Hf. reflexivity. }
  assert (Z1 : forall f, f (fresh_thr 0) = 0%nat -> sumf f (start n) = f (fresh_thr 1)).
  { intros f Hf. unfold start, sumf. cbn [map list_sum fold_right]. specialize (Z0 f Hf). unfold sumf, list_sum in Z0. rewrite Z0. lia. }
  constructor; unfold users.
  - left. rewrite (Z1 in_last), (Z1 th_held), (Z1 in_free) by reflexivity. cbn. rewrite C. auto.
  - rewrite (Z1 th_held), (Z1 in_free), (Z1 in_ref) by reflexivity. cbn. reflexivity.
  - constructor; [exact Logic.I|]. apply Forall_forall. intros x Hx. apply repeat_spec in Hx. subst x. exact Logic.I.
  - auto.
  - constructor; [constructor|]. apply Forall_forall. intros x Hx. apply repeat_spec in Hx. subst x. constructor.
Qed.

Lemma idle_sums ts : Forall idle ts -> sumf in_free ts = 0%nat /\ sumf in_last ts = 0%nat.
Proof.
  unfold sumf. induction 1 as [|t ts H F IH]; [auto|]. cbn [map list_sum fold_right]. unfold list_sum in IH. unfold idle in H.
  unfold in_free at 1, in_last at 1. rewrite H. lia.
Qed.

Lemma make_ok s : cstr_ok s -> Z.of_nat (length s) + 1 < 2 ^ 32 ->
  exists o, cntstr_make (Some s) = Some o /\ co_live o = true /\ co_count o = 1 /\ cntstr_get o = Some (Some s).
Proof.
  intros C L. unfold cntstr_make. rewrite Z.mod_small by lia. unfold strcpy_into. rewrite Z.leb_refl. cbn [guard obind].
  eexists. split; [reflexivity|]. split; [reflexivity|]. split; [reflexivity|]. unfold cntstr_get. cbn [co_live co_str guard obind].
  replace (Z.to_nat (Z.of_nat (length s) + 1 - Z.of_nat (length s))) with 1%nat by lia. cbn [repeat]. rewrite cstring_app by exact C. reflexivity.
Qed.

(** ** Without the limit *)
Definition ref3 : list cev := [EBegin 0 CRef; EStep 0; EStep 0].
Fixpoint times {T} (n : nat) (l : list T) : list T := match n with O => [] | S n => l ++ times n l end.

Lemma ref3_run str c h n : 1 <= c -> crun (mkco true c str) [mkth POut n h] ref3 = Some (mkco true ((c + 1) mod 2 ^ 32) str, [mkth POut (S n) h]).
Proof.
  intros P. unfold ref3. cbn [crun cev_run nth_error obind put begin_op th_held th_seen th_pc thr_step atomic_get guard co_live co_count].
  replace (c =? 0) with false by (symmetry; apply Z.eqb_neq; lia).
  cbn [negb guard obind crun cev_run nth_error put th_pc th_held th_seen thr_step atomic_cas co_live co_count co_str]. rewrite Z.eqb_refl. reflexivity.
Qed.

Lemma crun_app : forall es1 o ts es2, crun o ts (es1 ++ es2) = (' (o, ts) <- crun o ts es1 ;; crun o ts es2).
Proof.
  induction es1 as [|e es1 IH]; intros o ts es2; cbn [app crun obind]; [reflexivity|].
  destruct (cev_run o ts e) as [[o' ts']|]; cbn [obind]; [apply IH|reflexivity].
Qed.

Lemma many_refs str h : forall n k m, (1 <= k)%nat -> Z.of_nat k + Z.of_nat n < 2 ^ 32 ->
  crun (mkco true (Z.of_nat k) str) [mkth POut m h] (times n ref3) = Some (mkco true (Z.of_nat (k + n)) str, [mkth POut (m + n) h]).
Proof.
  induction n as [|n IH]; intros k m K L; cbn [times].
  - cbn [crun]. rewrite !Nat.add_0_r. reflexivity.
  - rewrite crun_app, ref3_run by lia. cbn [obind]. rewrite Z.mod_small by lia. replace (Z.of_nat k + 1) with (Z.of_nat (S k)) by lia.
    rewrite IH by lia. do 3 f_equal; f_equal; lia.
Qed.

Lemma legal_app lim : forall es1 o ts es2, legal_crun lim o ts es1 ->
  (forall o' ts', crun o ts es1 = Some (o', ts') -> legal_crun lim o' ts' es2) -> legal_crun lim o ts (es1 ++ es2).
Proof.
  induction es1 as [|e es1 IH]; intros o ts es2 G1 G2; cbn [app legal_crun crun] in *; [apply G2; reflexivity|].
  destruct G1 as [G0 G1]. split; [exact G0|]. destruct (cev_run o ts e) as [[o' ts']|] eqn:E; [|exact Logic.I].
  apply IH; [exact G1|]. intros o2 ts2 E2. apply G2. cbn [obind]. exact E2.
Qed.
Lemma ref3_legal lim str c h n : 1 <= c -> (1 <= n)%nat -> Z.of_nat n + 1 < lim -> legal_crun lim (mkco true c str) [mkth POut n h] ref3.
Proof.
  intros C N Lim. unfold ref3. cbn [legal_crun]. split.
  { cbn [legal_c nth_error]. eexists. split; [reflexivity|]. split; [reflexivity|]. split; [exact N|]. intros _. unfold refs, list_sum. cbn. lia. }
  cbn [cev_run nth_error obind put begin_op th_held th_seen]. split; [cbn; eauto|].
  cbn [cev_run nth_error obind put th_pc th_held th_seen thr_step atomic_get guard co_live co_count].
  replace (c =? 0) with false by (symmetry; apply Z.eqb_neq; lia). cbn [negb guard obind]. split; [cbn; eauto|].
  cbn [cev_run nth_error obind put th_pc th_held th_seen thr_step atomic_cas guard co_live co_count]. rewrite Z.eqb_refl. cbn [obind]. exact Logic.I.
Qed.
Lemma many_legal lim str h : forall n k m, (1 <= k)%nat -> (1 <= m)%nat -> Z.of_nat k + Z.of_nat n < 2 ^ 32 -> Z.of_nat m + Z.of_nat n < lim ->
  legal_crun lim (mkco true (Z.of_nat k) str) [mkth POut m h] (times n ref3).
Proof.
  induction n as [|n IH]; intros k m K M L Lim; cbn [times]; [exact Logic.I|].
  apply legal_app; [apply ref3_legal; lia|]. rewrite ref3_run by lia. intros o' ts' E. injection E as <- <-.
  rewrite Z.mod_small by lia. replace (Z.of_nat k + 1) with (Z.of_nat (S k)) by lia. apply IH; lia.
Qed.

Lemma wrap_fails str h : exists es, legal_crun (2 ^ 32 + 2) (mkco true 1 str) [mkth POut 1 h] es /\ crun (mkco true 1 str) [mkth POut 1 h] es = None.
Proof.
  assert (X : exists n, Z.of_nat n = 2 ^ 32 - 2) by (exists (Z.to_nat (2 ^ 32 - 2)); apply Z2Nat.id; rewrite pow32; lia).
  destruct X as (n & Hn). exists (times n ref3 ++ ref3 ++ [EBegin 0 CFree; EStep 0]).
  assert (E1 : crun (mkco true 1 str) [mkth POut 1 h] (times n ref3) = Some (mkco true (Z.of_nat (S n)) str, [mkth POut (S n) h])).
  { change 1 with (Z.of_nat 1) at 1. rewrite many_refs by lia. reflexivity. }
  assert (W : (Z.of_nat (S n) + 1) mod 2 ^ 32 = 0). { replace (Z.of_nat (S n) + 1) with (2 ^ 32) by lia. apply Z.mod_same. rewrite pow32. lia. }
  split.
  - apply legal_app.
    + change 1 with (Z.of_nat 1) at 1. apply many_legal; lia.
    + rewrite E1. intros o' ts' E. assert (Q1 : o' = mkco true (Z.of_nat (S n)) str) by congruence. assert (Q2 : ts' = [mkth POut (S n) h]) by congruence. subst o' ts'. clear E. apply legal_app.
      * apply ref3_legal; lia.
      * rewrite ref3_run by lia. rewrite W. intros o' ts' E. injection E as <- <-. cbn [legal_crun]. split.
        -- cbn [legal_c nth_error]. eexists. split; [reflexivity|]. split; [reflexivity|]. split; [cbn [th_held]; lia|]. discriminate.
        -- cbn [cev_run nth_error obind put begin_op th_held th_seen]. split; [cbn; eauto|].
           cbn [cev_run nth_error obind thr_step th_pc atomic_get co_live guard co_count]. exact Logic.I.
  - rewrite crun_app, E1. cbn [obind]. rewrite crun_app, ref3_run by lia. rewrite W. reflexivity.
Qed.

Lemma legal_cons lim o ts e es o' ts' : cev_run o ts e = Some (o', ts') -> legal_c lim ts e -> legal_crun lim o' ts' es -> legal_crun lim o ts (e :: es).
Proof. intros E G1 G2. cbn [legal_crun]. rewrite E. auto. Qed.
