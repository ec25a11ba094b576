(** Closing, and the end of each step. *)
From Verif Require Import Base Basen_Model Basen_Proofs Basen_Proofs2 Basen_Proofs3.
Open Scope Z_scope.

(** when the object is about to be closed *)
Definition toclose (s s' : bd) : Prop :=
  s' = set_dclose false s /\ b_dclose s = true /\ b_inx s = false /\ b_inrd s = false /\ b_dpend s = false.

Lemma J_dclose p s : J p s -> b_dclose s = true -> J p (set_dclose true (set_dclose false s)).
Proof. intros H E. destruct (b_st s) eqn:Es; jc H. Qed.

Lemma close_head_ok p s : J p s -> b_dclose s = true -> b_inx s = false -> b_inrd s = false ->
  holds (close_head (set_dclose false s)) (fun w s' =>
    if w then toclose s s' else J p s' /\ keepf s s' /\ b_dpend s' = true).
Proof.
  intros H D X R. unfold close_head. cb. rewrite X, R. destruct (b_dpend s) eqn:Ed; cbn [holds].
  - split; [apply J_dclose; auto|split; [kf|cb; auto]].
  - unfold toclose. auto.
Qed.

(** :1656-1678 *)
Lemma check_ops_ok c p s : J p s -> c_dbl c = false ->
  holds (check_ops c s) (fun w s' => if w then toclose s s' else J p s' /\ keepf s s').
Proof.
  intros H C. unfold check_ops. destruct (b_dclose s) eqn:D.
  { destruct (b_inx s) eqn:X; cbn [orb]; [cbn [holds]; auto with bd|].
    destruct (b_inrd s) eqn:R; [cbn [holds]; auto with bd|].
    eapply holds_imp; [apply close_head_ok; eauto|]. cbn beta. intros [] s1 G; [exact G|]. split; apply G. }
  eapply holds_seq with (P := fun _ s' => J p s' /\ keepf s s').
  { destruct (b_st s) eqn:Es; try (split; [exact H|apply keepf_refl]). apply connect_finish_ok; auto. }
  intros _ s1 (H1 & F1).
  eapply holds_seq with (P := fun _ s' => J p s' /\ keepf s s').
  { destruct (b_st s1) eqn:Es; try (split; [exact H1|exact F1]).
    eapply holds_imp; [apply try_close_ok; eauto|]. cbn beta. intros _ s2 (H2 & F2). split; [exact H2|kt F2]. }
  intros _ s2 (H2 & F2). destruct (b_st s2) eqn:Es; try (split; [exact H2|exact F2]).
  apply holds_bind, askb_any. intros q o. assert (H3 := J_or p o s2 H2).
  destruct q; [cbn [holds]; split; [exact H3|]; eapply keepf_trans; [exact F2|auto with bd]|].
  assert (H4 : J p (stop_drain_done (set_or o s2))) by (apply stop_drain_done_ok; exact H3).
  assert (DR : stop_done (b_dr s2) <> TRun) by (destruct (b_dr s2); discriminate).
  assert (H5 : J p (set_st B_FILTER_CLOSE (stop_drain_done (set_or o s2)))) by (clear H H1 H2 H3; jc H4).
  eapply holds_seq; [apply (try_close_ok c p _ H5 C)|]. cbn beta. intros _ s3 (H6 & F6). cbn [holds].
  split; [exact H6|]. eapply keepf_trans; [exact F2|]. eapply keepf_trans; [|exact F6]. kf.
Qed.

Lemma toclose_keep s s1 s' : keep s s1 -> toclose s1 s' -> b_dclose s = true /\ b_inx s = false /\ b_inrd s = false.
Proof. unfold toclose. intros K (_ & A & B & E & _). unfold keep in K. decompose [and] K. repeat split; congruence. Qed.

Lemma push1_ok c p s : J p s -> c_dbl c = false ->
  holds (push1 c s) (fun w s' => if w then exists s1, J p s1 /\ keep s s1 /\ toclose s1 s' else J p s' /\ keepf s s').
Proof.
  intros H C. unfold push1. seq push0_ok. intros r s1 (H1 & F1 & K1 & E1).
  destruct (snd r && (fst r =? 0)) eqn:E; [|split; auto].
  apply andb_prop in E. destruct E as [_ E]. apply Z.eqb_eq in E. specialize (K1 E).
  eapply holds_imp; [apply (check_ops_ok c p s1 H1 C)|]. cbn beta. intros [] s2 G; [eauto|].
  destruct G as (G1 & G2). split; [exact G1|kt G2].
Qed.

Lemma ll_up_dclose p s : J p s -> (0 < hq p)%nat -> b_dclose s = false /\ act (b_st s) = true.
Proof.
  intros H Q. assert (U : ll_up (b_ll s) = true) by (apply (j_q _ _ H); lia).
  pose proof (j_st _ _ H) as F. unfold jst in F.
  destruct (b_st s); cbn [act]; decompose [and or] F; split; try reflexivity; try congruence; rewrite ?H0, ?H1, ?H2 in U; try discriminate U; congruence.
Qed.

Lemma check_no_ok c p s : J p s -> c_dbl c = false -> (0 < hq p)%nat ->
  holds (check_no c s) (fun _ s' => J p s' /\ keepf s s').
Proof.
  intros H C Q. unfold check_no. eapply holds_seq; [apply (check_ops_ok c p s H C)|]. cbn beta. intros [] s1 G; [|exact G].
  destruct G as (_ & D & _). destruct (ll_up_dclose _ _ H Q). congruence.
Qed.
Lemma push1_no_ok c p s : J p s -> c_dbl c = false -> (0 < hq p)%nat ->
  holds (push1_no c s) (fun _ s' => J p s' /\ keepf s s').
Proof.
  intros H C Q. unfold push1_no. eapply holds_seq; [apply (push1_ok c p s H C)|]. cbn beta. intros [] s1 G; [|exact G].
  destruct G as (s2 & J2 & K2 & _ & D & _). destruct (ll_up_dclose _ _ J2 Q). congruence.
Qed.

(** ** The invariant between the steps *)

(** A thread that has [x] references, and is a call of the layer below if [q]. *)
Definition px (x : Z) (q : nat) (cq u : bool) : hp := mkh x 0 0 q 0 (cq || negb u) cq u 0 0 true.
Definition dead (s : bd) : Prop :=
  b_usr s = false /\ b_st s = B_CLOSED /\ b_dpend s = false /\ b_tm s = TIdle /\ b_dr s = TIdle /\ b_fr s = []
  /\ b_ll s = LLClosed.
Definition Inv (s : bd) : Prop :=
  if b_live s then J (px 1 0 (b_creq s) (b_usr s)) (set_ref (b_ref s + 1) s) /\ 1 <= b_ref s
  else dead s /\ exists tr, b_tr s = OFreed :: tr /\ cnto is_freed tr = 0 /\ cnto is_ufree tr = 1
       /\ cnto is_opendone tr + Z.of_nat (b_lost s) = cnto is_uopen tr
       /\ cnto is_closedone tr <= cnto is_uclose tr /\ Z.of_nat (b_lost s) <= cnto is_end tr.

Lemma sumw_0 l : sumw l = 0 -> l = [].
Proof. destruct l as [|[k f] l]; [reflexivity|]. cbn [sumw fst]. pose proof (sumw_pos l). destruct k; cbn [wt]; lia. Qed.
Lemma wt_pos k : 1 <= wt k. Proof. destruct k; cbn; lia. Qed.
Lemma opz_pos t : 0 <= opz t. Proof. destruct t; cbn; lia. Qed.

Ltac pos s := pose proof (sumw_pos (b_fr s)); pose proof (tz_pos (b_tm s)); pose proof (tz_pos (b_dr s));
  pose proof (b2z_pos (b_dpend s)); pose proof (b2z_pos (b_usr s)); pose proof (opz_pos (b_st s)).

(** giving back the last reference of the thread *)
Lemma unlock_ok q cq u s : J (px 1 q cq u) s -> holds (bderef_unlock s) (fun _ s' => Inv s').
Proof.
  intros H. pose proof (ref_pos _ _ H) as R1. unfold bderef_unlock. destruct (Z.leb_spec (b_ref s) 0); [lia|]. cb.
  destruct (Z.eqb_spec (b_ref s - 1) 0) as [E|E].
  - cbn [holds ok]. unfold Inv. cb.
    pose proof (j_ref _ _ H) as R. cbn [hx px] in R. pos s.
    assert (U : b_usr s = false) by (clear - R E H0 H1 H2 H3 H4 H5 H6; destruct (b_usr s); [cbn [b2z] in R, H5; lia|reflexivity]).
    assert (T : b_st s = B_CLOSED) by (clear - R E H0 H1 H2 H3 H4 H5 H6; destruct (b_st s); cbn [opz closedst] in R, H6; first [lia|reflexivity]).
    assert (D : b_dpend s = false) by (clear - R E H0 H1 H2 H3 H4 H5 H6; destruct (b_dpend s); [cbn [b2z] in R, H4; lia|reflexivity]).
    assert (M : b_tm s = TIdle) by (clear - R E H0 H1 H2 H3 H4 H5 H6; destruct (b_tm s); cbn [tz] in R, H2; first [lia|reflexivity]).
    assert (N : b_dr s = TIdle) by (clear - R E H0 H1 H2 H3 H4 H5 H6; destruct (b_dr s); cbn [tz] in R, H3; first [lia|reflexivity]).
    assert (P : b_fr s = []) by (apply sumw_0; clear - R E H0 H1 H2 H3 H4 H5 H6; lia).
    js H T. unfold dead. cb. split; [repeat split; auto; apply F|]. exists (b_tr s). split; [reflexivity|].
    split; [apply (j_nf _ _ H)|]. split; [rewrite (j_uf _ _ H), U; reflexivity|].
    pose proof (j_open _ _ H) as O. pose proof (j_close _ _ H) as C. unfold opn, outst, px in O, C. rewrite T, P in O, C.
    cb. rewrite andb_false_r in O, C. cb. pose proof (j_lost _ _ H) as LO. unfold px in LO. rewrite T in LO. cb. rewrite andb_false_r in LO. cb. clear - O C LO. split; [|split]; lia.
  - cbn [holds ok]. unfold Inv. cb. rewrite (j_live _ _ H). rewrite (j_cq _ _ H), (j_u _ _ H). cbn [hcq hu px].
    split; [|lia]. replace (b_ref s - 1 + 1) with (b_ref s) by lia. unfold px in *. jc H.
Qed.

(** a frame is left behind *)
Lemma frame_inv p k f s : J p s -> hx p = wt k -> hr p = b2n (isrd (k, f)) -> hw p = b2n (isx (k, f)) ->
  (isll (k, f) = true -> (0 < hq p)%nat) -> (hd p <= b2n (isdef (k, f)))%nat -> hcl p = hcq p || negb (hu p) ->
  hy p = - b2z (unco (k, f)) -> uncc (k, f) = false -> hz p = 0 -> h7 p = true -> Inv (add_frame k f s).
Proof.
  intros H X R W Q D C Y N Z7 Z8. pose proof (ref_pos _ _ H) as R1. unfold Inv. cb.
  rewrite (j_live _ _ H). rewrite (j_cq _ _ H), (j_u _ _ H). split; [|lia].
  pose proof (sumw_pos (b_fr s)). pose proof (wt_pos k). unfold px.
  constructor; cb.
  - apply (j_live _ _ H).
  - rewrite (j_ref _ _ H), X. lia.
  - pose proof (b2z_pos (b_usr s)). pose proof (opz_pos (b_st s)). lia.
  - apply (j_cq _ _ H).
  - apply (j_u _ _ H).
  - rewrite (j_inrd _ _ H), R. unfold isrd. cbn [fst]. lia.
  - rewrite (j_inx _ _ H), W. unfold isx. cbn [fst]. lia.
  - intros G. apply (j_q _ _ H). clear - G Q. destruct k; cb; try specialize (Q eq_refl); lia.
  - intros G. destruct (j_d _ _ H G) as [A|A]; [left; exact A|right]. clear - A D. destruct k; cb; lia.
  - apply (j_dopen _ _ H).
  - apply (j_rd _ _ H).
  - apply (j_xmit _ _ H).
  - apply (j_opened _ _ H).
  - intros _. apply (j_7 _ _ H Z8).
  - pose proof (j_st _ _ H) as F. unfold jst in *. cb. rewrite <- C. exact F.
  - pose proof (j_open _ _ H) as F. unfold opn in *. cb. rewrite Y in F. clear - F. destruct k, f; cb; lia.
  - pose proof (j_close _ _ H) as F. unfold outst in *. cb. rewrite Z7 in F. unfold uncc in N. rewrite N. cbn [b2n]. lia.
  - intros G. pose proof (j_close_eq _ _ H G) as F. unfold outst in *. cb. rewrite Z7 in F. unfold uncc in N. rewrite N. cbn [b2n]. lia.
  - pose proof (j_ucl _ _ H) as F. unfold outst in *. cb. unfold uncc in N. rewrite N. exact F.
  - pose proof (j_unc _ _ H) as F. unfold uncc in N. rewrite N. exact F.
  - apply (j_nf _ _ H).
  - apply (j_uf _ _ H).
  - apply (j_dr _ _ H).
  - unfold uncc in N. rewrite N. apply (j_unc1 _ _ H).
  - pose proof (j_lost _ _ H) as F. rewrite C in F. exact F.
Qed.

(** :944-945 *)
Lemma close_mid_ok p s s' : J p s -> toclose s s' -> h7 p = true -> hy p = 0 -> b_cdone s = false ->
  J (mkh (hx p + 1) (hr p) (hw p) (hq p) (hd p) (hcl p) (hcq p) (hu p) (hy p) (hz p) (h7 p)) (close_mid s').
Proof.
  intros H (-> & D & X & R & P) H7 Y C. unfold close_mid. cb.
  assert (Es : b_st s = B_LL_CLOSE \/ b_st s = B_IO_ERR).
  { pose proof (j_st _ _ H) as F. unfold jst in F. destruct (b_st s); auto; decompose [and] F; congruence. }
  assert (L : b_ll s = LLClosed).
  { pose proof (j_st _ _ H) as F. unfold jst in F. destruct Es as [Es|Es]; rewrite Es in F; decompose [and or] F; congruence. }
  assert (HC : hcl p = true).
  { pose proof (j_st _ _ H) as F. unfold jst in F. destruct Es as [Es|Es]; rewrite Es in F; decompose [and or] F; congruence. }
  assert (DO : b_dopen s = false).
  { destruct (b_dopen s) eqn:E; [|reflexivity]. destruct (j_dopen _ _ H E). congruence. }
  assert (N7 : b_dread s = true -> b_rd s = true -> False).
  { intros A B. destruct (j_7 _ _ H H7 A B) as [G|[G|G]]; try congruence. destruct Es; congruence. }
  assert (RD : b_rd s = true -> b_err s <> 0).
  { intros A. destruct (j_rd _ _ H A) as [[G|G] _]; [destruct Es; congruence|exact G]. }
  destruct (b_odone s) eqn:O; destruct Es as [Es|Es]; jc H.
  all: rewrite HC in F; cbn [andb b2z] in F; clear - F; lia.
Qed.

Lemma close_frame_ok p s s' k : J p s -> toclose s s' -> k = FDClose \/ k = FTClose -> hx p = 1 -> hr p = 0%nat -> hw p = 0%nat ->
  hcl p = hcq p || negb (hu p) -> hz p = 0 ->
  h7 p = true -> hy p = 0 -> b_cdone s = true -> Inv (add_frame k false (close_mid s')).
Proof.
  intros H (-> & D & X & R & P) K HX HR HW HC HZ H7 Y C. pose proof (ref_pos _ _ H) as R1. unfold close_mid.
  destruct p as [x r w q d cl cq u y z h]. cb. subst.
  assert (Es : b_st s = B_LL_CLOSE \/ b_st s = B_IO_ERR).
  { pose proof (j_st _ _ H) as F. unfold jst in F. destruct (b_st s); auto; decompose [and] F; congruence. }
  assert (L : b_ll s = LLClosed).
  { pose proof (j_st _ _ H) as F. unfold jst in F. destruct Es as [Es|Es]; rewrite Es in F; decompose [and or] F; congruence. }
  assert (HC : cq || negb u = true).
  { pose proof (j_st _ _ H) as F. unfold jst in F. cbn [hcl] in F. destruct Es as [Es|Es]; rewrite Es in F; decompose [and or] F; congruence. }
  assert (DO : b_dopen s = false).
  { destruct (b_dopen s) eqn:E; [|reflexivity]. destruct (j_dopen _ _ H E). congruence. }
  assert (N7 : b_dread s = true -> b_rd s = true -> False).
  { intros A B. destruct (j_7 _ _ H eq_refl A B) as [G|[G|G]]; try congruence. destruct Es; congruence. }
  assert (RD : b_rd s = true -> b_err s <> 0).
  { intros A. destruct (j_rd _ _ H A) as [[G|G] _]; [destruct Es; congruence|exact G]. }
  pose proof (j_live _ _ H). pose proof (j_cq _ _ H). pose proof (j_u _ _ H). pose proof (b2z_pos (b_usr s)).
  assert (OU : outst s = true).
  { unfold outst. rewrite C. destruct Es as [Es|Es]; rewrite Es; [reflexivity|exact D]. }
  assert (UC : b_ucl s = true) by (apply (j_ucl _ _ H); left; exact OU).
  assert (U0 : cntf uncc (b_fr s) = 0%nat).
  { destruct (cntf uncc (b_fr s)) eqn:E; [reflexivity|]. assert (G : b_st s = B_CLOSED) by (apply (j_unc _ _ H); rewrite E; apply Nat.lt_0_succ).
    destruct Es; congruence. }
  unfold Inv. destruct (b_odone s) eqn:O; cb; rewrite H0; (split; [|exact R1]); unfold px;
    destruct Es as [Es|Es], K as [-> | ->]; jc H; try (rewrite HC in F; cbn [andb b2z] in F; clear - F; lia); clear; pose proof (b2z_pos u); lia.
Qed.

(** :951-969 *)
Lemma close_tail_ok x q cq u s : J (px (x + 1) q cq u) s -> 1 <= x -> holds (close_tail s) (fun _ s' => J (px x q cq u) s').
Proof.
  intros H X. unfold close_tail.
  assert (H1 := stop_drain_done_ok _ _ (stop_timer_done_ok _ _ H)). clear H.
  set (s1 := stop_drain_done (stop_timer_done s)) in *. clearbody s1. pose proof (j_ref _ _ H1) as R. pos s1. unfold px in *. cb.
  apply bderef_ok; [lia|]. clear R. jc H1.
Qed.
Lemma t_last_ok q cq u s : J (px 1 q cq u) s -> holds (t_last s) (fun _ s' => Inv s').
Proof.
  intros H. unfold t_last. seq set_enables_ok. intros _ s1 (H1 & _). eapply unlock_ok; eauto.
Qed.
Lemma t_end_ok c cq u s : J (px 1 0 cq u) s -> c_dbl c = false -> holds (t_end c s) (fun _ s' => Inv s').
Proof.
  intros H C. unfold t_end. eapply holds_seq; [apply (push1_ok c _ s H C)|]. cbn beta. intros [] s1 G.
  2:{ destruct G as (G & _). eapply t_last_ok; eauto. }
  destruct G as (s2 & H2 & _ & T).
  assert (E : b_cdone (close_mid s1) = b_cdone s2).
  { destruct T as (-> & _). unfold close_mid. cb. destruct (b_odone s2); reflexivity. }
  rewrite E. destruct (b_cdone s2) eqn:D.
  - cbn [holds ok]. eapply (close_frame_ok _ s2 s1); eauto.
  - pose proof (close_mid_ok _ _ _ H2 T eq_refl eq_refl D) as H3. cbn [hx px hr hw hq hd hcl hcq hu hy hz h7] in H3.
    eapply holds_seq; [apply (close_tail_ok 1 0 cq u); [exact H3|lia]|]. cbn beta. intros _ s3 H4. eapply t_last_ok; eauto.
Qed.
