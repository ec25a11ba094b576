(** Handlers that are enabled are called; what goes wrong with replacing. *)
From Verif Require Import Base Heap_Model Heap_Proofs Selfd_Model Selfd_Spec Selfd_Proofs Selfd_Proofs2 Selfd_Proofs3 Selfd_Proofs4.
Open Scope nat_scope.

(** descriptors keep their handlers, or lose their registration *)
Definition sameh (s s' : fst_) := (forall fd, c_state (f_c s' fd) = None \/ (c_state (f_c s' fd) = c_state (f_c s fd) /\ c_hnd (f_c s' fd) = c_hnd (f_c s fd))) /\
  (forall g, used g (f_tr s') = used g (f_tr s)).
Lemma sameh_eq s s' : f_c s' = f_c s -> (forall g, used g (f_tr s') = used g (f_tr s)) -> sameh s s'.
Proof. intros A B. split; [|exact B]. intros fd. right. rewrite A. auto. Qed.
Lemma sameh_tr s s' : f_c s' = f_c s -> f_tr s' = f_tr s -> sameh s s'.
Proof. intros A B. apply sameh_eq; [exact A|]. rewrite B. reflexivity. Qed.
Lemma sameh_trans a b c : sameh a b -> sameh b c -> sameh a c.
Proof.
  intros (A & B) (C & D). split; [|intros g; rewrite D; apply B].
  intros fd. destruct (C fd) as [|(C1 & C2)]; [auto|]. rewrite C1, C2. apply A.
Qed.
Lemma sameh_run s fd g d s' : f_run s fd g d = Some s' -> sameh s s'.
Proof. intros E. apply f_run_c in E. apply sameh_tr; tauto. Qed.
Lemma sameh_free s g s' : f_free s g = Some s' -> sameh s s'.
Proof. intros E. apply f_free_c in E. apply sameh_tr; tauto. Qed.

Lemma step_sameh s e s' : (forall fd g dn h, e <> EvSet fd g dn h) -> fstep s e = Some s' -> sameh s s'.
Proof.
  intros N. destruct e as [fd g dn h|i|fd rpt|fd k b|fd k|i|]; cbn [fstep]; [destruct (N fd g dn h eq_refl)|..]; clear N.
  - unfold f_tail. destruct (nth_error (f_tl s) i) as [[fd g d []]|]; [| |intros [= <-]; apply sameh_tr; reflexivity].
    all: destruct (gget s g) as [v|]; [|discriminate]; cbn [obind].
    + destruct (g_use v =? 0); [|intros [= <-]; apply sameh_tr; reflexivity]. intros E. apply sameh_run in E. exact E.
    + intros [= <-]; apply sameh_tr; reflexivity.
  - destruct (known fd (f_tr s)); [|intros [= <-]; apply sameh_tr; reflexivity]. unfold f_clear.
    assert (X : sameh s (femit (FClear fd rpt) (setc s fd no_fdc))).
    { split; [|reflexivity]. intros u. cbn [f_c femit setc]. destruct (Nat.eq_dec u fd) as [->|N]; [rewrite upd_same; left; reflexivity|rewrite upd_diff by exact N; auto]. }
    destruct (c_state (f_c s fd)) as [g|]; [|intros [= <-]; exact X].
    destruct (gget _ g) as [v|]; [|discriminate]. cbn [obind].
    match goal with |- context [setg ?a ?b ?c] => assert (Y : sameh s (setg a b c)) by exact X; set (z := setg a b c) in * end.
    destruct (_ =? 0); [|intros [= <-]; exact Y]. intros E. apply sameh_run in E. exact (sameh_trans _ _ _ Y E).
  - destruct (known fd (f_tr s)); [|intros [= <-]; apply sameh_tr; reflexivity]. unfold f_en.
    destruct (c_state (f_c s fd)) as [g|] eqn:Ec; intros [= <-]; [|apply sameh_eq; reflexivity].
    split; [|reflexivity]. intros u. cbn [f_c femit setc]. right. destruct (Nat.eq_dec u fd) as [->|N]; [rewrite upd_same; rewrite <- Ec; auto|rewrite upd_diff by exact N; auto].
  - destruct (known fd (f_tr s)); [|intros [= <-]; apply sameh_tr; reflexivity]. unfold f_call.
    destruct (negb (get3 k (c_hnd (f_c s fd)))); [intros [= <-]; apply sameh_tr; reflexivity|].
    destruct (negb (get3 k (c_en (f_c s fd)))); [intros [= <-]; apply sameh_tr; reflexivity|].
    destruct (c_state (f_c s fd)) as [g|]; [|intros [= <-]; apply sameh_tr; reflexivity].
    destruct (gget s g); [|discriminate]. intros [= <-]. apply sameh_eq; reflexivity.
  - unfold f_ret. destruct (nth_error (f_fr s) i) as [fr|]; [|intros [= <-]; apply sameh_tr; reflexivity].
    destruct fr as [fd g d|g|g].
    2,3: intros E; apply sameh_free in E; exact E.
    destruct (gget _ g) as [v|]; [|discriminate]. cbn [obind]. destruct (guard _) as [[]|]; [|discriminate]. cbn [obind].
    destruct (g_deleted (v_use v (g_use v - 1)) && (g_use (v_use v (g_use v - 1)) =? 0)); [|intros [= <-]; apply sameh_eq; reflexivity].
    match goal with |- context [setc ?a ?b ?c] => assert (Y : sameh s (setc a b c)) end.
    { split; [|reflexivity]. intros u. cbn [f_c femit setc setg setfr]. destruct (Nat.eq_dec u fd) as [->|N]; [rewrite upd_same; left; reflexivity|rewrite upd_diff by exact N; auto]. }
    destruct (g_done (v_use v (g_use v - 1))).
    + intros [= <-]. exact Y.
    + intros E. apply sameh_free in E. exact (sameh_trans _ _ _ Y E).
  - unfold f_finish. destruct (f_q s) as [|[fd g] q]; [intros [= <-]; apply sameh_tr; reflexivity|].
    destruct (gget s g) as [v|]; [|discriminate]. cbn [obind]. destruct (g_done v); [intros [= <-]; apply sameh_eq; reflexivity|].
    intros E. apply sameh_free in E. exact E.
Qed.

Lemma f_set_c s fd g dn h s' : f_set s fd g dn h = Some s' -> f_c s' = upd (f_c s) fd (mkc (Some g) g h (c_en (f_c s fd))) /\ f_tr s' = FSet fd g dn :: f_tr s.
Proof.
  unfold f_set. intros E. assert (X : forall a b : fst_, Some a = Some b -> a = b) by congruence. apply X in E. clear X. rewrite <- E. clear E.
  cbn [f_c setg]. destruct (c_state (f_c s fd)); split; reflexivity.
Qed.
Lemma hok_step s es e s' : hok s es -> fstep s e = Some s' -> hok s' (es ++ [e]).
Proof.
  intros H E.
  assert (D : (exists fd g dn h, e = EvSet fd g dn h) \/ (forall fd g dn h, e <> EvSet fd g dn h)) by (destruct e; try (right; discriminate); left; eauto).
  destruct D as [(fd & g & dn & h & ->)|N].
  - cbn [fstep] in E. destruct (used g (f_tr s)) eqn:U.
    + injection E as <-. apply hok_same with (s := s); auto. intros u. cbn [given]. destruct (Nat.eqb_spec g u); [subst; auto|auto].
    + destruct H as (A & B). apply f_set_c in E. destruct E as (X & Y).
      split; rewrite ?X, ?Y.
      * intros u k. rewrite given_snoc. destruct (Nat.eq_dec u fd) as [->|N].
        -- rewrite upd_same. cbn [c_state c_hnd]. intros [= <-]. rewrite (B g U). cbn [given]. rewrite Nat.eqb_refl. reflexivity.
        -- rewrite upd_diff by exact N. intros C. rewrite (A u k C). reflexivity.
      * intros k. unfold used. cbn [existsb]. rewrite orb_false_iff. intros (N & V). rewrite given_snoc. rewrite (B k V). cbn [given]. rewrite N. reflexivity.
  - apply step_sameh in E; [|exact N]. destruct H as (A & B). destruct E as (P & Q). assert (G : forall g, given g [e] = None) by (intros g; destruct e; try reflexivity; destruct (N fd g0 dn h eq_refl)).
    split.
    + intros fd g C. rewrite given_snoc. destruct (P fd) as [|(P1 & P2)]; [congruence|]. rewrite P1 in C. rewrite P2, (A fd g C). reflexivity.
    + intros g U. rewrite Q in U. rewrite given_snoc, (B g U). apply G.
Qed.
Lemma hok_run es : forall s pre s', hok s pre -> frun es s = Some s' -> hok s' (pre ++ es).
Proof.
  induction es as [|e es IH]; intros s pre s' H; cbn [frun]; [intros [= <-]; rewrite app_nil_r; exact H|].
  destruct (fstep s e) as [s1|] eqn:E; [|discriminate]. cbn [obind]. intros R. apply (hok_step _ _ _ _ H) in E. specialize (IH _ _ _ E R). rewrite <- app_assoc in IH. exact IH.
Qed.

Lemma fd_called es s fd k g h : frun es finit = Some s -> orderly (f_tr s) -> cur fd (f_tr s) = Some g -> given g es = Some h -> get3 k h = true -> enabled fd k (f_tr s) = true ->
  exists s', fstep s (EvCall fd k) = Some s' /\ f_tr s' = FCall fd k g :: f_tr s.
Proof.
  intros E O C G K En. pose proof (frun_FI es finit s FI_init E O) as F. destruct (fi_fd _ F fd) as (A & _ & B). rewrite C in A. rewrite A in B. destruct B as (B1 & B2 & B3).
  assert (H : hok s es).
  { apply (hok_run es finit [] s); [|exact E]. split; [discriminate|reflexivity]. }
  pose proof (proj1 H fd g A) as Eh. rewrite G in Eh. injection Eh as Eh.
  assert (Kn : known fd (f_tr s) = true).
  { clear - C. unfold known. induction (f_tr s) as [|o tr IH]; [discriminate|]. cbn [cur existsb] in *. destruct o; cbn [orb]; auto; destruct (fd0 =? fd); auto; discriminate. }
  destruct (fstep_safe s (EvCall fd k) F) as (s' & E'). exists s'. split; [exact E'|]. cbn [fstep] in E'. rewrite Kn in E'. unfold f_call in E'. rewrite <- Eh, K, B3, En, A in E'. cbn [negb] in E'.
  destruct (gget s g); [|discriminate]. cbn [obind] in E'. injection E' as <-. cbn [f_tr femit setfr setg]. rewrite B1. reflexivity.
Qed.
