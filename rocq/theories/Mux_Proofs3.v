(** Proofs about a mux: invariants. *)
From Verif Require Import Base Heap_Model Heap_Proofs Muxchan_Model Mux_Model Mux_Proofs1 Mux_Proofs2.
From Coq Require Import Sorting.Sorted.
Open Scope nat_scope.

Lemma sorted_incr l : StronglySorted lt l <-> incr l.
Proof.
  induction l as [|x l IH].
  - split; [intros _ i j _ H; cbn in H; lia|constructor].
  - split.
    + intros H. apply StronglySorted_inv in H. destruct H as (H1 & H2). rewrite Forall_forall in H2. intros [|i] [|j] Hij Hj; try lia; cbn [nth length] in *.
      * apply H2. apply nth_In. lia.
      * apply (proj1 IH H1); lia.
    + intros H. constructor.
      * apply IH. intros i j Hij Hj. apply (H (S i) (S j)); cbn [length]; lia.
      * rewrite Forall_forall. intros y Hy. destruct (In_nth l y 0 Hy) as (i & Hi & <-). apply (H 0 (S i)); cbn [length]; lia.
Qed.
Lemma sorted_filter g l (f : nat -> bool) : StronglySorted lt (map g l) -> StronglySorted lt (map g (filter f l)).
Proof.
  induction l as [|x l IH]; [auto|]. cbn [map filter]. intros H. apply StronglySorted_inv in H. destruct H as (H1 & H2). destruct (f x); [|auto]. cbn [map]. constructor; [auto|].
  rewrite Forall_forall in *. intros y Hy. apply H2. rewrite in_map_iff in *. destruct Hy as (z & Q & Hz). apply filter_In in Hz. exists z. tauto.
Qed.
Lemma hd_filter (f : nat -> bool) l x : hd_error l = Some x -> f x = true -> hd_error (filter f l) = Some x.
Proof. destruct l as [|y l]; [discriminate|]. intros Q F. injection Q as ->. cbn. rewrite F. reflexivity. Qed.

(** ** Channels *)
Definition tidy (s : mux) : Prop :=
  StronglySorted lt (ids s) /\ Forall (fun i => i < m_maxch s) (ids s) /\ hd_error (m_chans s) = Some 0 /\ c_id (m_ch s 0) = 0.
Definition J (s : mux) : Prop :=
  m_last s < m_maxch s /\ 1 <= m_next s /\ (forall h, m_next s <= h -> c_live (m_ch s h) = false) /\ NoDup (m_chans s) /\
  (forall h, c_live (m_ch s h) = true <-> In h (m_chans s)) /\ (c_live (m_ch s 0) = true -> tidy s).
Section Inv.
Context {MC : nat}.
Definition RK (s : mux) : Prop := (0 < m_maxr s /\ m_maxch s = MC) /\ (forall h, h < m_next s -> ringok (c_d (m_ch s h))) /\ length (m_hdr s) = 12.
Definition G (s : mux) : Prop := J s /\ RK s.

Lemma ids_filter s s' f : (forall h, c_id (m_ch s' h) = c_id (m_ch s h)) -> m_chans s' = filter f (m_chans s) -> ids s' = map (fun h => c_id (m_ch s h)) (filter f (m_chans s)).
Proof. intros A B. unfold ids. rewrite B. apply map_ext. exact A. Qed.

Lemma J_gen s s' f : m_maxch s' = m_maxch s -> m_last s' = m_last s -> m_next s' = m_next s -> (forall h, c_id (m_ch s' h) = c_id (m_ch s h)) ->
  m_chans s' = filter f (m_chans s) -> (forall h, c_live (m_ch s' h) = c_live (m_ch s h) && f h) -> J s -> J s'.
Proof.
  intros A B C D E F (J1 & J2 & J3 & J4 & J5 & J6). unfold J. rewrite A, B, C. split; [exact J1|]. split; [exact J2|]. split; [intros h Hh; rewrite F, (J3 h Hh); reflexivity|].
  split; [rewrite E; apply NoDup_filter; exact J4|]. split.
  - intros h. rewrite F, E, filter_In, andb_true_iff, (J5 h). tauto.
  - rewrite F. intros H. apply andb_true_iff in H. destruct H as (L & F0). destruct (J6 L) as (T1 & T2 & T3 & T4). unfold tidy. rewrite (ids_filter s s' f D E), A, D.
    split; [apply sorted_filter; exact T1|]. split; [|split; [rewrite E; apply hd_filter; assumption|exact T4]].
    rewrite Forall_forall in *. intros x Hx. apply T2. unfold ids. rewrite in_map_iff in *. destruct Hx as (z & Q & Hz). apply filter_In in Hz. exists z. tauto.
Qed.
Lemma J_fx s s' : fx s s' -> J s -> J s'.
Proof. intros ((_ & A & B & C & D & f & E & F) & _). eapply J_gen; try eassumption. intros h. apply (proj1 (D h)). Qed.
Lemma RK_fx s s' : fx s s' -> RK s -> RK s'.
Proof.
  intros ((Z & A & B & C & D & f & E & F) & R & _) (K0 & K1 & K2). unfold RK. rewrite Z, A, C. split; [exact K0|]. split.
  - intros h Hh. destruct (D h) as (_ & _ & _ & D'). apply D'. apply K1. exact Hh.
  - apply (f_equal rf_hdr) in R. cbn in R. rewrite R. exact K2.
Qed.
Lemma G_fx s s' : fx s s' -> G s -> G s'.
Proof. intros F (A & B). split; [eapply J_fx; eassumption|eapply RK_fx; eassumption]. Qed.
Lemma G_id s s' : m_maxr s' = m_maxr s -> m_maxch s' = m_maxch s -> m_last s' = m_last s -> m_next s' = m_next s -> m_chans s' = m_chans s -> m_ch s' = m_ch s -> length (m_hdr s') = length (m_hdr s) -> G s -> G s'.
Proof.
  intros Z A B C D E F (A1 & A2). split.
  - apply (J_gen s s' (fun _ => true)); try assumption; rewrite ?E, ?filter_true; try assumption; try reflexivity. intros h. rewrite andb_true_r. reflexivity.
  - destruct A2 as (K0 & K1 & K2). unfold RK. rewrite Z, A, C, E, F. auto.
Qed.
Lemma G_sch h c0 c s : gch s h = Some c0 -> c_id c = c_id c0 -> c_live c = true -> ringok (c_d c) -> G s -> G (sch h c s).
Proof.
  intros Eg A B C (J0 & K0 & K1 & K2). destruct (gch_some _ _ _ Eg) as (E0 & El). split.
  - apply (J_gen s _ (fun _ => true)); try reflexivity; [| | |exact J0].
    + intros h0. unfold sch, u_m_ch. cbn [m_ch]. unfold upd. destruct (h0 =? h) eqn:E; [|reflexivity]. apply Nat.eqb_eq in E. subst h0. congruence.
    + unfold sch, u_m_ch. cbn [m_chans]. rewrite filter_true. reflexivity.
    + intros h0. rewrite andb_true_r. unfold sch, u_m_ch. cbn [m_ch]. unfold upd. destruct (h0 =? h) eqn:E; [|reflexivity]. apply Nat.eqb_eq in E. subst h0. congruence.
  - unfold RK, sch, u_m_ch. cbn [m_maxr m_maxch m_next m_ch m_hdr]. split; [exact K0|]. split; [|exact K2]. intros h0 H. unfold upd. destruct (h0 =? h); [exact C|apply K1; exact H].
Qed.
Lemma G_ring s h c : G s -> gch s h = Some c -> ringok (c_d c).
Proof.
  intros ((_ & _ & J3 & _) & _ & K1 & _) E. destruct (gch_some _ _ _ E) as (<- & L). apply K1. destruct (Nat.lt_ge_cases h (m_next s)) as [|H]; [assumption|]. rewrite (J3 h H) in L. discriminate.
Qed.

(** ** A new channel *)
Lemma find_id_lt M l k : forall fuel i id r, 0 < M -> id < M -> find_id (nxt M) l k i fuel id = Some r -> fst r < M.
Proof.
  induction fuel as [|fuel IH]; intros i id r HM Hid; cbn [find_id]; destruct (nth_error _ _); try discriminate; destruct (negb _); try discriminate.
  - intros Q. injection Q as <-. exact Hid.
  - intros Q. injection Q as <-. exact Hid.
  - intros Q. eapply IH; [exact HM| |exact Q]. unfold nxt. destruct (M - 1 <=? id) eqn:E; lia.
Qed.
Lemma pick_lt s id p : 0 < m_maxch s -> m_last s < m_maxch s -> pick_id s = Some (id, p) -> id < m_maxch s.
Proof.
  intros H0 HM. unfold pick_id. destruct (ids s) as [|x l]; [intros Q; injection Q as <- _; exact H0|]. intros Q. apply (find_id_lt (m_maxch s)) in Q; [exact Q|exact H0|]. unfold nxt. unfold next_id. destruct (m_maxch s - 1 <=? m_last s) eqn:E; lia.
Qed.
Lemma pick_good s : m_last s < m_maxch s -> tidy s -> match pick_id s with Some r => free_at (m_maxch s) (ids s) r | None => length (ids s) = m_maxch s end.
Proof.
  intros HM (T1 & T2 & T3 & T4). unfold pick_id. destruct (ids s) as [|x l] eqn:E.
  - unfold ids in E. destruct (m_chans s); discriminate.
  - pose proof (proj1 (sorted_incr _) T1) as Hi. apply (find_good (m_maxch s) (m_last s) (x :: l)); [exact HM|exact Hi| |cbn; lia|].
    + unfold ids in E. destruct (m_chans s) as [|h0 t]; [discriminate|]. cbn [hd_error] in T3. injection T3 as ->. cbn [map] in E. injection E as <- _. exact T4.
    + intros i H. rewrite Forall_forall in T2. apply T2. apply nth_In. exact H.
Qed.

Lemma In_insert {T} (h x : T) p l : In x (firstn p l ++ h :: skipn p l) <-> x = h \/ In x l.
Proof. rewrite <- (firstn_skipn p l) at 3. rewrite !in_app_iff. cbn [In]. intuition. Qed.
Lemma NoDup_insert {T} (h : T) p l : NoDup l -> ~ In h l -> NoDup (firstn p l ++ h :: skipn p l).
Proof. intros A B. apply (NoDup_Add (a := h) (l := firstn p l ++ skipn p l)); [apply Add_app|]. rewrite firstn_skipn. auto. Qed.
Lemma map_insert {A B} (g : A -> B) p l x : map g (firstn p l ++ x :: skipn p l) = firstn p (map g l) ++ g x :: skipn p (map g l).
Proof. rewrite map_app. cbn [map]. rewrite firstn_map, skipn_map. reflexivity. Qed.

Lemma new_eq own svc s id p : pick_id s = Some (id, p) -> exists s' c, new_channel own svc s = (s', Some (m_next s)) /\
  c_live c = true /\ c_id c = id /\ c_d c = new_dch s /\
  m_maxr s' = m_maxr s /\ m_maxch s' = m_maxch s /\ m_last s' = match m_chans s with [] => m_last s | _ => id end /\ m_next s' = S (m_next s) /\ m_ch s' = upd (m_ch s) (m_next s) c /\
  m_chans s' = firstn p (m_chans s) ++ m_next s :: skipn p (m_chans s) /\ rxv s' = rxv s /\ m_st s' = m_st s.
Proof.
  intros E. unfold new_channel. rewrite E. eexists. exists (mkch true own 1 id CClosed false false false svc false false false false false false false false (new_dch s)).
  split; [reflexivity|]. repeat (split; [reflexivity|]). reflexivity.
Qed.
Lemma J_new own svc s s' r : J s -> new_channel own svc s = (s', r) -> J s'.
Proof.
  intros H. pose proof H as (J1 & J2 & J3 & J4 & J5 & J6). destruct (pick_id s) as [[id p]|] eqn:Ep.
  2:{ unfold new_channel. rewrite Ep. intros Q. injection Q as <- _. exact H. }
  destruct (new_eq own svc s id p Ep) as (s1 & c & N0 & N1 & N2 & N3 & N4 & N5 & N6 & N7 & N8 & N9 & _). rewrite N0. intros Q. injection Q as <- _. pose proof (pick_lt s id p ltac:(lia) J1 Ep) as Lid. clear N0.
  assert (Nin : ~ In (m_next s) (m_chans s)). { intros Q. apply J5 in Q. rewrite (J3 (m_next s) (le_n _)) in Q. discriminate. }
  assert (Eids : forall l, ~ In (m_next s) l -> map (fun h => c_id (upd (m_ch s) (m_next s) c h)) l = map (fun h => c_id (m_ch s h)) l).
  { intros l Hl. apply map_ext_in. intros h Hh. rewrite upd_diff; [reflexivity|]. intros ->. contradiction. }
  unfold J. rewrite N5, N6, N7, N8, N9. split; [destruct (m_chans s); assumption|]. split; [lia|]. split.
  { intros h Hh. rewrite upd_diff by lia. apply J3. lia. }
  split; [apply NoDup_insert; assumption|]. split.
  { intros h. rewrite In_insert. unfold upd. destruct (h =? m_next s) eqn:E; [apply Nat.eqb_eq in E; tauto|]. apply Nat.eqb_neq in E. rewrite J5. tauto. }
  rewrite upd_diff by lia. intros L. specialize (J6 L). pose proof (pick_good s J1 J6) as PG. rewrite Ep in PG. destruct J6 as (T1 & T2 & T3 & T4).
  unfold tidy, ids. rewrite N5, N8, N9, map_insert, upd_same, Eids by exact Nin. rewrite N2. fold (ids s). split; [|split; [|split]].
  - apply sorted_incr. apply (incr_insert (m_maxch s) (ids s) (id, p)); [apply sorted_incr; exact T1|exact PG].
  - rewrite Forall_forall in *. intros x Hx. apply In_insert in Hx. destruct Hx as [->|Hx]; [exact Lid|apply T2; exact Hx].
  - destruct PG as (G1 & G2 & G3 & G4). cbn [fst snd] in *. destruct p as [|p].
    + exfalso. unfold ids in G4. destruct (m_chans s) as [|h0 t]; [discriminate|]. cbn [hd_error] in T3. injection T3 as ->. specialize (G4 0 ltac:(lia) ltac:(cbn; lia)). cbn [map nth] in G4. lia.
    + destruct (m_chans s) as [|h0 t]; [discriminate|]. exact T3.
  - rewrite upd_diff by lia. exact T4.
Qed.
Lemma G_new own svc s s' r : G s -> new_channel own svc s = (s', r) -> G s'.
Proof.
  intros (A & K0 & K1 & K2) E. split; [eapply J_new; eassumption|]. destruct (pick_id s) as [[id p]|] eqn:Ep.
  2:{ unfold new_channel in E. rewrite Ep in E. injection E as <- _. unfold RK. auto. }
  destruct (new_eq own svc s id p Ep) as (s1 & c & N0 & N1 & N2 & N3 & N4 & N5 & N6 & N7 & N8 & N9 & N10 & _). rewrite N0 in E. injection E as <- _. clear N0.
  unfold RK. rewrite N4, N5, N7, N8. apply (f_equal rf_hdr) in N10. cbn [rf_hdr rxv] in N10. rewrite N10. split; [exact K0|]. split; [|exact K2]. intros h Hh. unfold upd. destruct (h =? m_next s) eqn:E; [|apply K1; apply Nat.eqb_neq in E; lia].
  rewrite N3. unfold ringok, new_dch. cbn [d_rpos d_rd d_rlen]. rewrite repeat_length. lia.
Qed.
Lemma new_some own svc s s' h : new_channel own svc s = (s', Some h) -> h < m_next s' /\ rxv s' = rxv s /\ m_st s' = m_st s.
Proof.
  intros E. destruct (pick_id s) as [[id p]|] eqn:Ep; [|unfold new_channel in E; rewrite Ep in E; discriminate].
  destruct (new_eq own svc s id p Ep) as (s1 & c & N0 & N1 & N2 & N3 & N4 & N5 & N6 & N7 & N8 & N9 & N10 & N11). rewrite N0 in E. injection E as <- <-. split; [lia|auto].
Qed.
Lemma new_none own svc s s' : new_channel own svc s = (s', None) -> s' = s.
Proof. unfold new_channel. destruct (pick_id s) as [[id p]|]; [discriminate|]. congruence. Qed.

(** ** Receiving *)
(** what is known of the state when a round starts *)
Definition PH (s : mux) : Prop :=
  if m_inhdr s then m_hpos s = 0 \/ (1 <= m_hpos s < m_hsize s /\ m_hsize s <= 12)
  else m_hpos s = 0 /\ exists h, m_curr s = Some h /\ h < m_next s /\ (m_msgid s = 2 \/ m_msgid s = 5)%Z /\
    (m_dpos s < 2 \/ (m_dpos s < m_dsize s + 2 /\ (m_msgid s = 5%Z -> d_rlen (c_d (m_ch s h)) + (m_dsize s + 2 - m_dpos s) <= length (d_rd (c_d (m_ch s h)))) /\ (m_msgid s = 2%Z -> length (c_svc (m_ch s h)) = m_dsize s))).
Lemma PH_hdr s : m_inhdr s = true -> m_hpos s = 0 -> PH s.
Proof. intros A B. unfold PH. rewrite A. auto. Qed.
Lemma PH_fx s s' : G s -> fx s s' -> PH s -> PH s'.
Proof.
  intros Gs ((Z & A & B & C & D & f & E & F) & R & _). unfold PH.
  pose proof (f_equal rf_inhdr R) as R1. pose proof (f_equal rf_hpos R) as R2. pose proof (f_equal rf_hsize R) as R3. pose proof (f_equal rf_msgid R) as R4. pose proof (f_equal rf_dpos R) as R5. pose proof (f_equal rf_dsize R) as R6. pose proof (f_equal rf_curr R) as R7.
  cbn in R1, R2, R3, R4, R5, R6, R7. rewrite R1, R2, R3, R4, R5, R6, R7, C. destruct (m_inhdr s); [auto|]. intros (P1 & h & P2 & P3 & P4 & P5). split; [exact P1|]. exists h. repeat (split; [assumption|]).
  destruct P5 as [P5|(P5 & P6 & P7)]; [left; exact P5|right]. split; [exact P5|]. destruct (D h) as (_ & Ds & Dl & Dr). destruct Gs as (_ & _ & K1 & _). destruct (Dr (K1 h P3)) as (_ & Lr). rewrite Dl, Ds. split; [intros Q; specialize (P6 Q); lia|exact P7].
Qed.

Definition rx_ok (s s' : mux) (stop : bool) : Prop :=
  G s' /\ (stop = false -> PH s' /\ (m_st s' = MInClose -> m_st s = MInClose)) /\ (stop = true -> m_st s' = MInClose).
Lemma perr_ok s0 s s' b : G s -> perr s = Some (s', b) -> rx_ok s0 s' b.
Proof. intros H Q. unfold perr in Q. injection Q as <- <-. split; [eapply G_fx; [apply out_err_fx|exact H]|]. split; [discriminate|reflexivity]. Qed.
Lemma perr_close_ok s0 h s s' b : G s -> perr_close h s = Some (s', b) -> rx_ok s0 s' b.
Proof.
  intros H Q. unfold perr_close in Q. bd Q. eapply perr_ok; [|exact Q]. apply (G_id x); try reflexivity. eapply G_fx; [eapply deref__fx; eassumption|exact H].
Qed.
Lemma fx_inhdr s s' : fx s s' -> m_inhdr s' = m_inhdr s /\ m_hpos s' = m_hpos s.
Proof. intros (_ & R & _). pose proof (f_equal rf_inhdr R) as R1. pose proof (f_equal rf_hpos R) as R2. cbn in *. auto. Qed.
End Inv.
(** operations that do not start closing *)
Definition stx (s s' : mux) : Prop := m_st s' = m_st s \/ m_st s' = MClosed.
Lemma stx_in s s' : stx s s' -> m_st s' = MInClose -> m_st s = MInClose.
Proof. intros [E|E] Q; congruence. Qed.
Lemma stx_trans a b c : stx a b -> stx b c -> stx a c.
Proof. unfold stx. intuition congruence. Qed.
Lemma stx_refl s : stx s s. Proof. left. reflexivity. Qed.
Lemma set_st_stx h x s s' : set_st h x s = Some s' -> m_st s' = m_st s.
Proof. unfold set_st. intros H. bd H. injection H as <-. reflexivity. Qed.
Lemma ref_stx h s s' : chan_ref h s = Some s' -> m_st s' = m_st s.
Proof. unfold chan_ref. intros H. bd H. bd H. injection H as <-. reflexivity. Qed.
Lemma deref_stx h s s' b : chan_deref h s = Some (s', b) -> m_st s' = m_st s.
Proof. unfold chan_deref. intros H. bd H. bd H. destruct (_ =? 1); injection H as <- _; reflexivity. Qed.
Lemma deref__stx h s s' : deref_ h s = Some s' -> m_st s' = m_st s.
Proof. unfold deref_. intros H. bd H. destruct x. injection H as <-. eapply deref_stx; eassumption. Qed.
Lemma add_wr_stx h s s' : add_wr h s = Some s' -> m_st s' = m_st s.
Proof. unfold add_wr. intros H. bd H. destruct (_ && _); [|congruence]. bd H. destruct (mst_eqb _ _); injection H as <-; reflexivity. Qed.
Lemma sched_stx h s s' : sched h s = Some s' -> m_st s' = m_st s.
Proof. unfold sched. intros H. bd H. destruct (c_defer x); [congruence|]. bd H. bd H. injection H as <-. apply ref_stx in E0. exact E0. Qed.
Lemma call_open_done_stx h e s s' : call_open_done h e s = Some s' -> m_st s' = m_st s.
Proof. unfold call_open_done. intros H. bd H. apply deref__stx in H. rewrite H. destruct (c_odone x); reflexivity. Qed.
Lemma close_close_stx h s s' : close_close_done h s = Some s' -> m_st s' = MClosed.
Proof. unfold close_close_done, finish_close. intros H. bd H. apply deref__stx in H. rewrite H. destruct (c_cdone x); reflexivity. Qed.
Lemma csm_stx h s s' : check_send_more h s = Some s' -> m_st s' = m_st s.
Proof. unfold check_send_more. intros H. bd H. destruct (_ && _); injection H as <-; reflexivity. Qed.
Lemma check_read_stx h s s' : check_read h s = Some s' -> m_st s' = m_st s.
Proof. unfold check_read. intros H. bd H. bd H. destruct x0 as [[d o] k]. destruct (_ || _); [|injection H as <-; reflexivity]. apply add_wr_stx in H. exact H. Qed.
Lemma next_req_stx ch s s' b : next_req ch s = Some (s', b) -> m_st s' = m_st s.
Proof.
  unfold next_req. intros H. bd H. assert (F : m_st x = m_st s). { destruct (m_open s) as [|h l]; [bd E; injection E as <-; reflexivity|]. bd E. apply add_wr_stx in E. exact E. }
  rewrite <- F. destruct ch as [h|]; [|injection H as <- _; reflexivity]. bd H. bd H. bd H. bd H. destruct x3 as [s1 fr]. apply ref_stx in E0. apply call_open_done_stx in E2. apply deref_stx in E3.
  destruct fr; [injection H as <- _; congruence|]. bd H. bd H. injection H as <- _. assert (m_st x4 = m_st s1) by (destruct (d_ren _); [eapply sched_stx; eassumption|congruence]). congruence.
Qed.
