(** Proofs about a mux: what the operations leave alone. *)
From Verif Require Import Base Heap_Model Heap_Proofs Muxchan_Model Mux_Model.
Open Scope nat_scope.

Definition ringok (d : dch) : Prop := d_rpos d < length (d_rd d) /\ d_rlen d <= length (d_rd d).
Definition rdok (d d' : dch) : Prop := length (d_rd d') = length (d_rd d) /\ (ringok d -> ringok d' /\ d_rlen d' <= d_rlen d).
Lemma rdok_refl d : rdok d d.
Proof. split; auto. Qed.
Lemma rdok_trans a b c : rdok a b -> rdok b c -> rdok a c.
Proof. intros (H1 & H2) (H3 & H4). split; [congruence|]. intros R. destruct (H2 R) as (R' & L). destruct (H4 R') as (R'' & L'). split; [exact R''|lia]. Qed.
Lemma rdok_same d d' : d_rd d' = d_rd d -> d_rpos d' = d_rpos d -> d_rlen d' = d_rlen d -> rdok d d'.
Proof. intros A B C. unfold rdok, ringok. rewrite A, B, C. auto. Qed.

Lemma rnext_lt (m : list Z) pos count : pos < length m -> count <= length m -> rnext m pos count < length m.
Proof. intros. unfold rnext. destruct (length m <=? pos + count) eqn:E; lia. Qed.
Lemma mwrite_len {A} (m : list A) off d m' : mwrite m off d = Some m' -> length m' = length m.
Proof. unfold mwrite. destruct (off + length d <=? length m) eqn:E; [|discriminate]. intros Q. injection Q as <-. rewrite !app_length, firstn_length, skipn_length. lia. Qed.
Lemma radd_len m pos len d m' : radd m pos len d = Some m' -> length m' = length m.
Proof.
  unfold radd. destruct (length m <? length d + rnext m pos len).
  - destruct (mwrite m (rnext m pos len) _) as [m1|] eqn:E; cbn [obind]; [|discriminate]. intros Q. rewrite (mwrite_len _ _ _ _ Q). eapply mwrite_len; eassumption.
  - apply mwrite_len.
Qed.

Lemma tail_rdok d fl len olen d' : read_tail d fl len olen = Some d' -> rdok d d'.
Proof.
  unfold read_tail. destruct (len =? 0).
  - cbn [d_rlen u_d_racc d_rd d_rpos]. destruct (olen + 3 <=? d_rlen d) eqn:E; cbn [guard obind]; [|discriminate]. intros Q. injection Q as <-. split; [reflexivity|]. intros (R1 & R2). unfold ringok. cbn [d_rlen d_rd d_rpos u_d_rpos u_d_rlen u_d_racc].
    repeat split; try lia. apply rnext_lt; lia.
  - cbn [d_rlen u_d_racc d_rd d_rpos]. destruct (olen <=? d_rlen d) eqn:E; cbn [guard obind]; [|discriminate]. cbn [d_rlen d_rd d_rpos u_d_rpos u_d_rlen u_d_racc].
    destruct (mset _ _ fl) as [m1|] eqn:E1; cbn [obind]; [|discriminate]. destruct (mset m1 _ _) as [m2|] eqn:E2; cbn [obind]; [|discriminate]. destruct (mset m2 _ _) as [m3|] eqn:E3; cbn [obind]; [|discriminate].
    intros Q. injection Q as <-. apply mwrite_len in E1, E2, E3. unfold rdok, ringok. cbn [d_rlen d_rd d_rpos u_d_rd u_d_rpos u_d_rlen u_d_racc]. split; [congruence|]. intros (R1 & R2). rewrite E3, E2, E1. repeat split; try lia. apply rnext_lt; lia.
Qed.
Lemma cb_rdok d data eom oob a d' r o : cb_read d data eom oob a = (d', r, o) -> rdok d d'.
Proof. unfold cb_read. intros Q. injection Q as <- _ _. apply rdok_same; reflexivity. Qed.
Lemma iter_rdok d len ora k d' o k' : read_iter d len ora k = Some (d', o, k') -> rdok d d'.
Proof.
  unfold read_iter. destruct (rbyte d 0) as [fl|]; cbn [obind]; [|discriminate].
  destruct (read_head d fl len ora k) as [[[[[[[d1 l1] o1] go] p1] ob] k1]|] eqn:E; cbn [obind]; [|discriminate].
  assert (R1 : rdok d d1).
  { unfold read_head in E. destruct (_ && _); [injection E as <- _ _ _ _ _ _; apply rdok_refl|]. destruct (_ <? _).
    - destruct (mread _ _ _) as [data|]; cbn [obind] in E; [|discriminate]. destruct (cb_read d data false (f_oob fl) (ora k)) as [[d2 r2] o2] eqn:E2. injection E as <- _ _ _ _ _ _. eapply cb_rdok; eassumption.
    - injection E as <- _ _ _ _ _ _. apply rdok_refl. }
  destruct go.
  - destruct (mread _ _ _) as [data|]; cbn [obind]; [|discriminate]. destruct (cb_read d1 data (f_eom fl) (f_oob fl && d_oob d1) (ora k1)) as [[d2 r2] o2] eqn:E2. destruct (read_tail _ _ _ _) as [d3|] eqn:E3; cbn [obind]; [|discriminate].
    intros Q. injection Q as <- _ _. eapply rdok_trans; [exact R1|]. eapply rdok_trans; [eapply cb_rdok; eassumption|]. eapply tail_rdok; eassumption.
  - destruct (read_tail _ _ _ _) as [d3|] eqn:E3; cbn [obind]; [|discriminate]. intros Q. injection Q as <- _ _. eapply rdok_trans; [exact R1|]. eapply tail_rdok; eassumption.
Qed.
Lemma loop_rdok ora : forall fuel d k d' o k', read_loop fuel d ora k = Some (d', o, k') -> rdok d d'.
Proof.
  induction fuel as [|fuel IH]; intros d k d' o k'; cbn [read_loop]; [discriminate|]. destruct (full_msg d) as [[full len]|]; cbn [obind]; [|discriminate].
  destruct (_ && _); [|intros Q; injection Q as <- _ _; apply rdok_refl].
  destruct (if full then read_iter d len ora k else _) as [[[d1 o1] k1]|] eqn:E; cbn [obind]; [|discriminate].
  destruct (read_loop fuel d1 ora k1) as [[[d2 o2] k2]|] eqn:E2; cbn [obind]; [|discriminate]. intros Q. injection Q as <- _ _. eapply rdok_trans; [|eapply IH; eassumption].
  destruct full; [eapply iter_rdok; eassumption|]. injection E as <- _ _. apply rdok_same; reflexivity.
Qed.
Lemma write_rdok d l eom oob d' n : d_write d l eom oob = Some (d', n) -> rdok d d'.
Proof.
  unfold d_write. destruct (_ <? 4); [intros Q; injection Q as <- _; apply rdok_refl|]. destruct (wlimit _ _) as [tot tr]. destruct (tot <=? 3); [intros Q; injection Q as <- _; apply rdok_refl|].
  unfold addwr. destruct (radd _ _ _ _) as [m|]; cbn [obind]; [|discriminate]. destruct (radd _ _ _ _) as [m'|]; cbn [obind]; [|discriminate]. intros Q; injection Q as <- _. apply rdok_same; reflexivity.
Qed.
Lemma setup_rdok d d' b : setup_send d = Some (d', b) -> rdok d d'.
Proof.
  unfold setup_send, ack_only.
  repeat (match goal with |- context [if ?c then _ else _] => destruct c | |- context [obind (guard ?c) _] => destruct (guard c) as [[]|] | |- context [obind (wbyte ?a ?b) _] => destruct (wbyte a b) end; cbn [obind guard]; try discriminate); intros Q; injection Q as <- _; apply rdok_same; reflexivity.
Qed.
Lemma sent_rdok d d' : sent_msg d = Some d' -> rdok d d'.
Proof. unfold sent_msg. destruct (guard _) as [[]|]; cbn [obind]; [|discriminate]. intros Q; injection Q as <-. apply rdok_same; reflexivity. Qed.

(** ** The frame *)
Definition clo (s : mux) : bool := match m_st s with MInClose | MClosed => true | _ => false end.
Record rxf := mkrxf { rf_hdr : list Z; rf_inhdr : bool; rf_hpos : nat; rf_hsize : nat; rf_msgid : Z; rf_dpos : nat; rf_dsize : nat; rf_curr : option nat }.
Definition rxv (s : mux) : rxf := mkrxf (m_hdr s) (m_inhdr s) (m_hpos s) (m_hsize s) (m_msgid s) (m_dpos s) (m_dsize s) (m_curr s).
Definition cokn (c c' : chan) : Prop := c_id c' = c_id c /\ c_svc c' = c_svc c /\ rdok (c_d c) (c_d c').
Definition cok (c c' : chan) : Prop := cokn c c' /\ c_live c' = c_live c.
(** channels: nothing new, and those gone from the list are those freed *)
Definition chf (s s' : mux) : Prop :=
  m_maxr s' = m_maxr s /\ m_maxch s' = m_maxch s /\ m_last s' = m_last s /\ m_next s' = m_next s /\ (forall h, cokn (m_ch s h) (m_ch s' h)) /\
  exists f, m_chans s' = filter f (m_chans s) /\ forall h, c_live (m_ch s' h) = c_live (m_ch s h) && f h.
Definition fx (s s' : mux) : Prop := chf s s' /\ rxv s' = rxv s /\ (m_st s' = m_st s \/ clo s' = true).

Lemma cokn_refl c : cokn c c.
Proof. unfold cokn. auto using rdok_refl. Qed.
Lemma cok_refl c : cok c c.
Proof. split; [apply cokn_refl|reflexivity]. Qed.
Lemma cokn_trans a b c : cokn a b -> cokn b c -> cokn a c.
Proof. intros (A1 & A2 & A4) (B1 & B2 & B4). unfold cokn. split; [congruence|]. split; [congruence|]. eapply rdok_trans; eassumption. Qed.
Lemma filter_true {T} (l : list T) : filter (fun _ => true) l = l.
Proof. induction l; cbn; congruence. Qed.
Lemma filter_filter {T} (f g : T -> bool) l : filter g (filter f l) = filter (fun x => f x && g x) l.
Proof. induction l as [|x l IH]; [reflexivity|]. cbn. destruct (f x); cbn; rewrite IH; [destruct (g x)|]; reflexivity. Qed.
Lemma chf_trans a b c : chf a b -> chf b c -> chf a c.
Proof.
  intros (A0 & A1 & A2 & A3 & A4 & f & A5 & A6) (B0 & B1 & B2 & B3 & B4 & g & B5 & B6). unfold chf. repeat (split; [congruence|]). split; [intros h; eapply cokn_trans; [apply A4|apply B4]|].
  exists (fun h => f h && g h). split; [rewrite B5, A5, filter_filter; reflexivity|]. intros h. rewrite B6, A6, andb_assoc. reflexivity.
Qed.
Lemma fx_trans a b c : fx a b -> fx b c -> fx a c.
Proof.
  intros (A1 & A2 & A3) (B1 & B2 & B3). split; [eapply chf_trans; eassumption|]. split; [congruence|]. destruct B3 as [E|E]; [|auto]. destruct A3 as [F|F]; [left; congruence|]. right. unfold clo in *. rewrite E. exact F.
Qed.
(** the channels stay, and one of them may change a little *)
Lemma chf_same s s' : m_maxr s' = m_maxr s -> m_maxch s' = m_maxch s -> m_last s' = m_last s -> m_next s' = m_next s -> m_chans s' = m_chans s -> (forall h, cok (m_ch s h) (m_ch s' h)) -> chf s s'.
Proof. intros. unfold chf. repeat (split; [assumption|]). split; [intros h; apply (proj1 (H4 h))|]. exists (fun _ => true). split; [rewrite filter_true; assumption|]. intros h. rewrite andb_true_r. apply (proj2 (H4 h)). Qed.
Lemma fx_id s s' : m_maxr s' = m_maxr s -> m_maxch s' = m_maxch s -> m_last s' = m_last s -> m_next s' = m_next s -> m_chans s' = m_chans s -> m_ch s' = m_ch s -> rxv s' = rxv s -> m_st s' = m_st s \/ clo s' = true -> fx s s'.
Proof. intros Z A B C D E F G. split; [|auto]. apply chf_same; auto. intros h. rewrite E. apply cok_refl. Qed.
Lemma fx_refl s : fx s s.
Proof. apply fx_id; auto. Qed.
Lemma fx_sch h c s : cok (m_ch s h) c -> fx s (sch h c s).
Proof.
  intros C. split; [|split; [reflexivity|left; reflexivity]]. apply chf_same; try reflexivity. intros h0. cbn [m_ch u_m_ch sch]. unfold sch, u_m_ch. cbn [m_ch]. unfold upd. destruct (h0 =? h) eqn:E; [apply Nat.eqb_eq in E; subst; exact C|apply cok_refl].
Qed.
Lemma gch_some s h c : gch s h = Some c -> m_ch s h = c /\ c_live c = true.
Proof. unfold gch. destruct (c_live (m_ch s h)) eqn:E; [|discriminate]. intros Q. injection Q as <-. auto. Qed.
Lemma gch_cok s h c : gch s h = Some c -> cok (m_ch s h) c.
Proof. intros E. destruct (gch_some _ _ _ E) as (-> & _). apply cok_refl. Qed.

(** for goals [fx s (… s)] made of setters *)
Ltac fxid := apply fx_id; try reflexivity; try (left; reflexivity); try (right; reflexivity).
Ltac bd H := match type of H with obind ?e _ = Some _ => let x := fresh "x" in let E := fresh "E" in destruct e as [x|] eqn:E; cbn [obind] in H; [|discriminate] end.
Ltac cko := match goal with E : gch ?s ?h = Some ?c |- cok (m_ch ?s ?h) _ => destruct (gch_some _ _ _ E) as (-> & ?); unfold cok, cokn; cbn; split; [split; [reflexivity|split; [reflexivity|]]|auto]; try (apply rdok_same; reflexivity) end.

Lemma emit_fx o s : fx s (emit o s). Proof. fxid. Qed.
Lemma st_fx x h s s' : set_st h x s = Some s' -> fx s s'.
Proof. unfold set_st. intros H. bd H. injection H as <-. apply fx_sch. cko. Qed.
Lemma ref_fx h s s' : chan_ref h s = Some s' -> fx s s'.
Proof. unfold chan_ref. intros H. bd H. bd H. injection H as <-. apply fx_sch. cko. Qed.
Lemma deref_fx h s s' b : chan_deref h s = Some (s', b) -> fx s s'.
Proof.
  unfold chan_deref. intros H. bd H. bd H. destruct (c_ref x =? 1).
  - injection H as <- _. split; [|split; [reflexivity|left; reflexivity]]. unfold chf. cbn [m_maxr m_maxch m_last m_next m_ch m_chans emit u_m_tr u_m_chans sch u_m_ch]. unfold emit, u_m_tr, u_m_chans, sch, u_m_ch. cbn [m_maxr m_maxch m_last m_next m_ch m_chans].
    repeat (split; [reflexivity|]). split.
    + intros h0. unfold upd. destruct (h0 =? h) eqn:Eh; [|apply cokn_refl]. apply Nat.eqb_eq in Eh. subst h0. destruct (gch_some _ _ _ E) as (-> & _). unfold cokn; cbn. auto using rdok_refl.
    + exists (fun u => negb (u =? h)). split; [reflexivity|]. intros h0. unfold upd. destruct (h0 =? h); cbn [negb]; [rewrite andb_false_r; reflexivity|rewrite andb_true_r; reflexivity].
  - injection H as <- _. apply fx_sch. cko.
Qed.
Lemma deref__fx h s s' : deref_ h s = Some s' -> fx s s'.
Proof. unfold deref_. intros H. bd H. destruct x as [s1 b]. injection H as <-. eapply deref_fx; eassumption. Qed.
Lemma set_closed_fx h s s' b : set_closed h s = Some (s', b) -> fx s s'.
Proof.
  unfold set_closed. intros H. bd H. bd H. pose proof (st_fx _ _ _ _ E) as F. destruct (_ =? 0).
  - destruct (mst_eqb _ _); injection H as <- _; (eapply fx_trans; [exact F|]; fxid).
  - injection H as <- _. eapply fx_trans; [exact F|]. fxid.
Qed.
Lemma finish_close_fx h s s' : finish_close h s = Some s' -> fx s s'.
Proof.
  unfold finish_close. intros H. bd H. apply deref__fx in H. eapply fx_trans; [|exact H]. destruct (c_cdone x); [|apply fx_refl]. eapply fx_trans; [|apply emit_fx]. apply fx_sch. cko.
Qed.
Lemma close_close_fx h s s' : close_close_done h s = Some s' -> fx s s'.
Proof. unfold close_close_done. intros H. apply finish_close_fx in H. eapply fx_trans; [|exact H]. fxid. Qed.
Lemma finish_final_fx h s s' : finish_final h s = Some s' -> fx s s'.
Proof. unfold finish_final. intros H. bd H. destruct x as [s1 []]; pose proof (set_closed_fx _ _ _ _ E) as F; [injection H as <-; exact F|]. eapply fx_trans; [exact F|eapply finish_close_fx; exact H]. Qed.
Lemma send_rsp_fx a b c d s : fx s (send_rsp a b c d s). Proof. fxid. Qed.
Lemma add_wr_fx h s s' : add_wr h s = Some s' -> fx s s'.
Proof.
  unfold add_wr. intros H. bd H. destruct (_ && _); [|injection H as <-; apply fx_refl]. bd H.
  assert (F : fx s (u_m_wr (m_wr s ++ [h]) (sch h (u_c_wready true (u_c_inwr true x)) s))) by (eapply fx_trans; [apply fx_sch with (h := h) (c := u_c_wready true (u_c_inwr true x)); cko|fxid]).
  destruct (mst_eqb _ _); injection H as <-; [exact F|]. eapply fx_trans; [exact F|fxid].
Qed.
Lemma sched_fx h s s' : sched h s = Some s' -> fx s s'.
Proof. unfold sched. intros H. bd H. destruct (c_defer x); [injection H as <-; apply fx_refl|]. bd H. bd H. injection H as <-. eapply fx_trans; [eapply ref_fx; eassumption|apply fx_sch; cko]. Qed.
Lemma check_send_more_fx h s s' : check_send_more h s = Some s' -> fx s s'.
Proof. unfold check_send_more. intros H. bd H. destruct (_ && _); injection H as <-; [|apply fx_refl]. eapply fx_trans; [|apply emit_fx]; apply fx_sch; cko. Qed.
Lemma check_read_fx h s s' : check_read h s = Some s' -> fx s s'.
Proof.
  unfold check_read. intros H. bd H. bd H. destruct x0 as [[d obs] k]. pose proof (loop_rdok _ _ _ _ _ _ _ E0) as R.
  assert (F : fx s (u_m_tr (rev (map (ORead h) obs) ++ m_tr s) (u_m_k k (sch h (u_c_d d x) s)))).
  { eapply fx_trans; [apply fx_sch with (h := h) (c := u_c_d d x)|fxid]. cko. exact R. }
  destruct (_ || _); [|injection H as <-; exact F]. eapply fx_trans; [exact F|eapply add_wr_fx; exact H].
Qed.
Lemma deferred_fx h s s' : deferred_op h s = Some s' -> fx s s'.
Proof.
  unfold deferred_op. intros H. bd H. bd H. bd H. bd H. bd H.
  eapply fx_trans; [apply fx_sch with (h := h) (c := u_c_defer false x); cko|]. eapply fx_trans; [eapply check_send_more_fx; eassumption|]. eapply fx_trans; [eapply check_read_fx; eassumption|].
  eapply fx_trans; [|eapply deref__fx; eassumption]. destruct (_ && _); [eapply finish_final_fx; eassumption|]. injection E3 as <-. apply fx_refl.
Qed.
Lemma muxc_write_fx h l eom oob s s' : muxc_write h l eom oob s = Some s' -> fx s s'.
Proof.
  unfold muxc_write. intros H. bd H. destruct (length l =? 0); [injection H as <-; apply emit_fx|]. destruct (negb _); [injection H as <-; apply emit_fx|]. destruct (negb _); [injection H as <-; apply emit_fx|].
  bd H. destruct x0 as [d n]. assert (F : fx s (emit (OWrite h l eom oob n 0%Z) (sch h (u_c_d d x) s))). { eapply fx_trans; [|apply emit_fx]; apply fx_sch; cko. eapply write_rdok; eassumption. }
  destruct (n =? 0); [injection H as <-; exact F|]. eapply fx_trans; [exact F|eapply add_wr_fx; exact H].
Qed.
Lemma set_ren_fx h b s s' : set_ren h b s = Some s' -> fx s s'.
Proof.
  unfold set_ren. intros H. bd H. destruct (Bool.eqb _ _); [injection H as <-; apply fx_refl|]. assert (F : fx s (sch h (u_c_d (u_d_ren b (c_d x)) x) s)) by (apply fx_sch; cko).
  destruct b; [|injection H as <-; exact F]. eapply fx_trans; [exact F|eapply sched_fx; exact H].
Qed.
Lemma set_wen_fx h b s s' : set_wen h b s = Some s' -> fx s s'.
Proof.
  unfold set_wen. intros H. bd H. destruct (Bool.eqb _ _); [injection H as <-; apply fx_refl|]. assert (F : fx s (sch h (u_c_wen b x) s)) by (apply fx_sch; cko).
  destruct b; [|injection H as <-; exact F]. eapply fx_trans; [exact F|eapply sched_fx; exact H].
Qed.
Lemma close_nolock_fx h b s s' e : close_nolock h b s = Some (s', e) -> fx s s'.
Proof.
  unfold close_nolock. intros H. bd H.
  assert (Fin : forall s1, (s <- chan_ref h s1 ;; c <- gch s h ;; Some (sch h (u_c_cdone b c) s, 0%Z)) = Some (s', e) -> fx s1 s').
  { intros s1 Q. bd Q. bd Q. injection Q as <- _. eapply fx_trans; [eapply ref_fx; eassumption|apply fx_sch; cko]. }
  destruct (c_st x); try (injection H as <- _; apply fx_refl).
  - eapply fx_trans; [|apply Fin; exact H]. apply fx_sch. cko.
  - bd H. eapply fx_trans; [|apply Fin; exact H]. eapply fx_trans; [apply fx_sch with (h := h) (c := u_c_sclose true (u_c_st CInClose x)); cko|eapply add_wr_fx; eassumption].
  - bd H. eapply fx_trans; [|apply Fin; exact H]. eapply fx_trans; [apply fx_sch with (h := h) (c := u_c_st CFinal x); cko|eapply sched_fx; eassumption].
Qed.
Lemma muxc_close_fx h s s' : muxc_close h s = Some s' -> fx s s'.
Proof.
  unfold muxc_close. intros H. bd H. destruct (c_ccalled x); [injection H as <-; apply emit_fx|]. bd H. destruct x0 as [s1 e]. injection H as <-. eapply fx_trans; [|apply emit_fx].
  eapply fx_trans; [|eapply close_nolock_fx; eassumption]. apply fx_sch. cko.
Qed.
Lemma muxc_free_fx h s s' : muxc_free h s = Some s' -> fx s s'.
Proof.
  unfold muxc_free. intros H. bd H. bd H. bd H. eapply fx_trans; [apply fx_sch with (h := h) (c := u_c_own false x); cko|]. eapply fx_trans; [|eapply deref__fx; eassumption].
  destruct (c_st x0); try discriminate; try (injection E1 as <-; first [apply fx_refl|apply fx_sch; cko]); bd E1; destruct x2 as [s2 e]; bd E1; bd E1; injection E1 as <-; eapply close_nolock_fx; eassumption.
Qed.
Lemma call_open_done_fx h e s s' : call_open_done h e s = Some s' -> fx s s'.
Proof. unfold call_open_done. intros H. bd H. eapply fx_trans; [|eapply deref__fx; exact H]. destruct (c_odone x); [|apply fx_refl]. eapply fx_trans; [|apply emit_fx]. apply fx_sch. cko. Qed.
Lemma shut1_fx e h s s' : shut1 e h s = Some s' -> fx s s'.
Proof.
  unfold shut1. intros H. bd H. set (s1 := if c_inwr x then _ else s) in H. assert (F1 : fx s s1) by (unfold s1; destruct (c_inwr x); [fxid|apply fx_refl]).
  set (s2 := if c_inopen x then _ else s1) in H. assert (F2 : fx s1 s2) by (unfold s2; destruct (c_inopen x); [fxid|apply fx_refl]).
  assert (G : m_ch s2 = m_ch s) by (unfold s2, s1; destruct (c_inwr x), (c_inopen x); reflexivity).
  set (s3 := sch h _ s2) in H. assert (F3 : fx s s3). { eapply fx_trans; [exact F1|]. eapply fx_trans; [exact F2|]. unfold s3. apply fx_sch. rewrite G. cko. }
  clearbody s3. eapply fx_trans; [exact F3|]. clear - H. destruct (c_st x).
  - injection H as <-. apply fx_refl.
  - bd H. eapply fx_trans; [eapply st_fx; eassumption|eapply call_open_done_fx; eassumption].
  - bd H. eapply fx_trans; [eapply st_fx; eassumption|eapply call_open_done_fx; eassumption].
  - bd H. eapply fx_trans; [|eapply sched_fx; eassumption]. apply fx_sch. cko.
  - bd H. bd H. bd H. bd H. eapply fx_trans; [eapply st_fx; eassumption|]. eapply fx_trans; [eapply ref_fx; eassumption|]. eapply fx_trans; [eapply call_open_done_fx; eassumption|]. eapply fx_trans; [eapply finish_close_fx; eassumption|eapply deref__fx; eassumption].
  - bd H. eapply fx_trans; [eapply st_fx; eassumption|eapply finish_close_fx; eassumption].
  - injection H as <-. apply fx_refl.
  - eapply sched_fx; eassumption.
Qed.
Lemma shut_all_fx e : forall l s s', shut_all e l s = Some s' -> fx s s'.
Proof. induction l as [|h l IH]; intros s s' H; cbn [shut_all] in H; [injection H as <-; apply fx_refl|]. bd H. eapply fx_trans; [eapply shut1_fx; eassumption|apply IH; exact H]. Qed.
Lemma shutdown_fx e s s' : shutdown e s = Some s' -> fx s s'.
Proof.
  unfold shutdown. intros H. bd H. eapply fx_trans; [|eapply shut_all_fx; eassumption]. eapply fx_trans with (b := u_m_st MClosed (u_m_errshut true s)); [fxid|].
  destruct (_ && _); [|injection E as <-; apply fx_refl]. destruct (m_chans _) as [|h l]; [discriminate|]. bd E. injection E as <-. eapply fx_trans; [eapply st_fx; eassumption|fxid].
Qed.
Lemma child_closed_fx s s' : child_closed s = Some s' -> fx s s'.
Proof.
  unfold child_closed. destruct (m_closing s) as [[h|]|]; intros H; [| |injection H as <-; apply fx_refl].
  - eapply fx_trans; [|eapply close_close_fx; eassumption]. fxid.
  - eapply fx_trans with (b := u_m_closing None s); [fxid|]. destruct (m_normal _); [eapply close_close_fx; eassumption|eapply shutdown_fx; eassumption].
Qed.
Lemma wr_out_fx s : fx s (wr_out s). Proof. unfold wr_out. fxid. Qed.
Lemma take_fx l s s' n : child_take l s = (s', n) -> fx s s'.
Proof. unfold child_take. intros Q. injection Q as <- _. fxid. Qed.
Lemma wr_chan_fx s s' b : wr_chan s = Some (s', b) -> fx s s'.
Proof.
  unfold wr_chan. destruct (m_sending s) as [h|]; intros H; [|injection H as <- _; apply fx_refl]. bd H. bd H. bd H. destruct (child_take x1 s) as [s1 n] eqn:Et.
  pose proof (take_fx _ _ _ _ Et) as F. assert (G : m_ch s1 = m_ch s) by (unfold child_take in Et; injection Et as <- _; reflexivity).
  destruct (sg_adv _ _) as [|g l].
  - bd H. bd H. injection H as <- _. pose proof (sent_rdok _ _ E2) as R. eapply fx_trans; [|eapply sched_fx; eassumption].
    assert (F2 : fx s (u_m_sending None s1)) by (eapply fx_trans; [exact F|fxid]). destruct (_ || _).
    + eapply fx_trans; [exact F2|]. eapply fx_trans; [|fxid]. apply fx_sch. cbn [m_ch u_m_sending]. unfold u_m_sending. cbn [m_ch]. rewrite G. cko. exact R.
    + eapply fx_trans; [exact F2|]. apply fx_sch. unfold u_m_sending. cbn [m_ch]. rewrite G. cko. exact R.
  - injection H as <- _. eapply fx_trans; [exact F|]. apply fx_sch. rewrite G. cko.
Qed.
Lemma wr_xmit_fx s s' b : wr_xmit s = (s', b) -> fx s s'.
Proof. unfold wr_xmit. destruct (m_xmit s) as [|z l]; intros H; [injection H as <- _; apply fx_refl|]. destruct (child_take _ s) as [s1 n] eqn:Et. injection H as <- _. eapply fx_trans; [eapply take_fx; exact Et|fxid]. Qed.
Lemma wr_next_fx s s' b : wr_next s = Some (s', b) -> fx s s'.
Proof.
  unfold wr_next. destruct (m_wr s) as [|h l]; intros H; [injection H as <- _; apply wr_out_fx|]. bd H. bd H.
  assert (F : fx s (u_m_wr l s)) by fxid. destruct (c_snew _).
  - bd H. injection H as <- _. eapply fx_trans; [exact F|]. eapply fx_trans; [|fxid]. apply fx_sch. unfold u_m_wr. cbn [m_ch]. unfold setup_new in E1. bd E1. injection E1 as <-. cko.
    cbn [c_svc u_c_snew u_c_inwr]. destruct (length (c_svc x0) =? 0); apply rdok_same; reflexivity.
  - destruct (_ && _).
    + bd H. destruct x1 as [d b1]. pose proof (setup_rdok _ _ _ E1) as R. destruct b1; injection H as <- _; (eapply fx_trans; [exact F|]); [eapply fx_trans; [|fxid]|]; apply fx_sch; unfold u_m_wr; cbn [m_ch]; cko; exact R.
    + destruct (_ && _).
      * bd H. injection H as <- _. eapply fx_trans; [exact F|]. eapply fx_trans; [|fxid]. apply fx_sch. unfold u_m_wr. cbn [m_ch]. unfold setup_close in E1. bd E1. injection E1 as <-. cko.
      * injection H as <- _. eapply fx_trans; [exact F|]. apply fx_sch. unfold u_m_wr. cbn [m_ch]. cko.
Qed.
Lemma write_ready_fx s s' : write_ready s = Some s' -> fx s s'.
Proof.
  unfold write_ready. intros H.
  assert (G : (' (s, go) <- wr_chan s ;; if go : bool then let '(s, go) := wr_xmit s in if go : bool then ' (s, picked) <- wr_next s ;; if picked : bool then ' (s, go) <- wr_chan s ;; Some (if go : bool then s else wr_out s) else Some s else Some (wr_out s) else Some (wr_out s)) = Some s' -> fx s s').
  { clear H. intros H. bd H. destruct x as [s1 b1]. pose proof (wr_chan_fx _ _ _ E) as F1. destruct b1; [|injection H as <-; eapply fx_trans; [exact F1|apply wr_out_fx]].
    destruct (wr_xmit s1) as [s2 b2] eqn:E2. pose proof (wr_xmit_fx _ _ _ E2) as F2. destruct b2; [|injection H as <-; eapply fx_trans; [exact F1|eapply fx_trans; [exact F2|apply wr_out_fx]]].
    bd H. destruct x as [s3 b3]. pose proof (wr_next_fx _ _ _ E0) as F3. assert (F : fx s s3) by (eapply fx_trans; [exact F1|eapply fx_trans; [exact F2|exact F3]]).
    destruct b3; [|injection H as <-; exact F]. bd H. destruct x as [s4 b4]. pose proof (wr_chan_fx _ _ _ E1) as F4. injection H as <-. eapply fx_trans; [exact F|]. destruct b4; [exact F4|eapply fx_trans; [exact F4|apply wr_out_fx]]. }
  destruct (m_st s); first [exact (G H)|injection H as <-; fxid].
Qed.
Lemma next_req_fx ch s s' b : next_req ch s = Some (s', b) -> fx s s' /\ b = false.
Proof.
  unfold next_req. intros H. bd H. assert (F : fx s x).
  { destruct (m_open s) as [|h l]; [bd E; injection E as <-; apply fx_refl|]. bd E. eapply fx_trans; [|eapply add_wr_fx; eassumption]. eapply fx_trans; [apply fx_sch with (h := h) (c := u_c_inopen false x0); cko|fxid]. }
  destruct ch as [h|]; [|injection H as <- <-; auto]. bd H. bd H. bd H. bd H. destruct x3 as [s1 fr].
  assert (F1 : fx s s1). { eapply fx_trans; [exact F|]. eapply fx_trans; [eapply ref_fx; eassumption|]. eapply fx_trans; [eapply call_open_done_fx; eassumption|eapply deref_fx; eassumption]. }
  destruct fr; [injection H as <- <-; auto|]. bd H. bd H. injection H as <- <-. split; [|reflexivity]. eapply fx_trans; [exact F1|]. destruct (d_ren _); [eapply sched_fx; eassumption|]. injection E5 as <-. apply fx_refl.
Qed.
Lemma out_err_fx e s : fx s (out_err e s). Proof. fxid. Qed.
