(** Proofs for lib/gensio_echo.c. *)
From Verif Require Import Base Ring Circbuf_Model Circbuf_Spec Circbuf_Proofs Echo_Model Echo_Spec.
Open Scope nat_scope.

Ltac ecb := cbn [e_st e_buf e_noecho e_jd e_rd e_xm e_od e_cd e_pend e_ref e_pc e_err e_live e_dis e_freed e_n e_tr
  set_st set_buf set_rd set_xm set_od set_cd set_op set_pc set_err set_life set_n put] in *.

(** the buffer, also one of size 0 *)
Definition bufok (cap : nat) (c : circbuf) : Prop :=
  cb_bufsize c = cap /\ (cb_inv c \/ (cap = 0 /\ cb_size c = 0)).

Lemma bufok_write cap c sg : bufok cap c -> exists c', circbuf_sg_write c sg = Some (c', Nat.min (length (concat sg)) (cap - cb_size c)) /\
  bufok cap c' /\ cb_pos c' = cb_pos c /\ cb_abs c' = cb_abs c ++ firstn (cap - cb_size c) (concat sg).
Proof.
  intros (B & [I|(Z & S0)]).
  - destruct (sg_write_loop_spec sg c 0 I) as (c' & R & I' & B' & A). exists c'. unfold circbuf_sg_write. rewrite R. unfold circbuf_room_left in *. rewrite B in *.
    split; [reflexivity|]. split; [split; [exact B'|left; exact I']|]. split; [|exact A].
    clear - R. revert c c' R. generalize 0 as n. intros n c c' R.
    assert (P : forall f c b k c1 k1, circbuf_write_buf f c b k = Some (c1, k1) -> cb_pos c1 = cb_pos c).
    { clear. induction f as [|f IH]; intros c b k c1 k1; cbn [circbuf_write_buf]; [discriminate|].
      destruct ((0 <? circbuf_room_left c) && (0 <? length b)); [|intros [= <- <-]; reflexivity].
      destruct (circbuf_next_write_area c) as [[p a]|]; cbn [obind]; [|discriminate].
      destruct (mwrite _ p _) as [m|]; cbn [obind]; [|discriminate].
      destruct (circbuf_data_added _ _) as [c2|] eqn:E; cbn [obind]; [|discriminate].
      intros H. rewrite (IH _ _ _ _ _ H). revert E. unfold circbuf_data_added. destruct (guard _); cbn [obind]; [|discriminate]. intros [= <-]. reflexivity. }
    revert R. match goal with |- circbuf_sg_write_loop _ _ _ = Some (c', ?q) -> _ => generalize q end. intros q R. revert n c q R.
    induction sg as [|b sg IH]; intros n c q; cbn [circbuf_sg_write_loop].
    + intros [= <- <-]. reflexivity.
    + destruct (0 <? circbuf_room_left c); [|intros [= <- <-]; reflexivity].
      destruct (circbuf_write_buf _ c b n) as [[c1 n1]|] eqn:E; cbn [obind]; [|discriminate]. intros H. rewrite (IH _ _ _ H). eapply P. exact E.
  - exists c. replace (cap - cb_size c) with 0 by lia. unfold circbuf_sg_write. rewrite Nat.min_0_r. cbn [firstn]. rewrite app_nil_r.
    split; [|split; [split; [exact B|right; split; [exact Z|exact S0]]|split; reflexivity]].
    destruct sg as [|b sg]; cbn [circbuf_sg_write_loop]; [reflexivity|]. unfold circbuf_room_left. rewrite B, Z. reflexivity.
Qed.

Lemma bufok_offer cap c : bufok cap c -> 0 < cb_size c -> exists n, circbuf_next_read_area c = Some (cb_pos c, n) /\ 0 < n <= cb_size c /\ cb_pos c + n <= cap /\
  mread (cb_mem c) (cb_pos c) n = Some (firstn n (cb_abs c)).
Proof.
  intros (B & [I|(Z & S0)]) P; [|lia]. destruct (next_read_area_spec c I) as (n & R & L & G & F). exists n. split; [exact R|]. rewrite B in F. split; [split; [apply G; exact P|exact L]|]. split; [exact F|].
  destruct (take_spec c n I L) as (c1 & H & _); [rewrite B; exact F|exact H].
Qed.

Lemma bufok_remove cap c k : bufok cap c -> k <= cb_size c -> cb_pos c + k <= cap -> 0 < cb_size c -> exists c', circbuf_data_removed c k = Some c' /\ bufok cap c' /\ cb_abs c' = skipn k (cb_abs c).
Proof.
  intros (B & [I|(Z & S0)]) L P P0; [|lia]. destruct (take_spec c k I L) as (c1 & _ & H & I' & B' & _ & A); [rewrite B; exact P|]. exists c1. split; [exact H|]. split; [split; [congruence|left; exact I']|exact A].
Qed.

Section Inv.
Variables (cap : nat) (ne jd : bool) (text : list Z).

(** the data *)
Definition DI (s : echo) : Prop :=
  bufok cap (e_buf s) /\ source ne text (e_tr s) = took (e_tr s) ++ cb_abs (e_buf s) /\ data_ok cap ne text (e_tr s) /\
  e_noecho s = ne /\ e_jd s = jd.
(** the state and the calls *)
Definition SI (s : echo) : Prop :=
  (closing (e_tr s) = match e_st s with OPEN | IN_OPEN => false | _ => true end /\
  pend_open (e_tr s) = match e_st s with IN_OPEN | IN_OPEN_CLOSE => e_od s | _ => None end /\
  pend_close (e_tr s) = match e_st s with IN_OPEN_CLOSE | IN_CLOSE => e_cd s | _ => None end) /\
  done_ok (e_tr s) /\ quiet_ok (e_tr s) /\
  ((e_freed s || e_dis s) = true -> e_st s = CLOSED) /\
  (e_freed s = true -> Forall (fun o => o = TRet \/ exists d, o = TTook d) (after_free (e_tr s))).
(** the operation is running *)
Definition RI (s : echo) : Prop := e_pend s = true /\ e_ref s = (if e_freed s then 1 else 2) /\ e_live s = true.
Definition Mid (s : echo) : Prop := DI s /\ SI s /\ RI s.

Definition cbst (s : echo) : Prop := e_st s = OPEN \/ e_st s = IN_CLOSE \/ (e_freed s || e_dis s) = true.
Definition PI (s : echo) : Prop :=
  match e_pc s with
  | PIdle => e_pend s = false /\ (e_st s = CLOSED \/ e_st s = OPEN) /\ e_ref s = 1 /\ e_live s = negb (e_freed s)
  | PQueued => RI s
  | PRead d => RI s /\ d = firstn (length d) (cb_abs (e_buf s)) /\ d <> [] /\ cb_pos (e_buf s) + length d <= cap /\ cbst s
  | PClosed => RI s /\ e_st s <> OPEN /\ e_st s <> IN_CLOSE
  | _ => RI s /\ cbst s
  end.
Definition EInv (s : echo) : Prop := DI s /\ SI s /\ PI s.

Lemma unread_eq s : DI s -> unread ne text (e_tr s) = cb_abs (e_buf s).
Proof. intros (_ & E & _). unfold unread. rewrite E. apply skipn_app_exact. Qed.

Lemma fin_ok s : Mid s -> (e_st s = CLOSED \/ e_st s = OPEN) -> exists s', op_fin s = Some s' /\ EInv s'.
Proof.
  intros (D & S' & (R1 & R2 & R3)) St. unfold op_fin, deref. ecb. rewrite R2. destruct (e_freed s) eqn:F; cbn [Nat.ltb Nat.leb guard obind Nat.eqb Nat.sub].
  - eexists. split; [reflexivity|]. split; [exact D|]. split; [unfold SI in *; ecb; rewrite F in *; exact S'|]. unfold PI. ecb. rewrite ?F. tauto.
  - eexists. split; [reflexivity|]. split; [exact D|]. split; [unfold SI in *; ecb; rewrite F in *; exact S'|]. unfold PI. ecb. rewrite ?F, ?R3. tauto.
Qed.

Definition notopening (s : echo) : Prop := e_st s <> IN_OPEN /\ e_st s <> IN_OPEN_CLOSE.
Lemma cbst_no s : SI s -> cbst s -> notopening s.
Proof. intros (_ & _ & _ & Fr & _) [H|[H|H]]; [| |apply Fr in H]; split; congruence. Qed.

Lemma close_ok s : Mid s -> notopening s -> exists s', op_close s = Some s' /\ EInv s'.
Proof.
  intros M (N1 & N2). unfold op_close. destruct (e_st s) eqn:St; try congruence; try (apply fin_ok; [exact M|rewrite St; tauto]).
  destruct M as (D & ((C1 & C2 & C3) & D1 & Q & Fr & AF) & R). rewrite St in *.
  assert (Nf : (e_freed s || e_dis s) = false) by (destruct (e_freed s || e_dis s); [specialize (Fr eq_refl); congruence|reflexivity]).
  assert (Ff : e_freed s = false) by (apply orb_false_iff in Nf; tauto).
  ecb. destruct (e_cd s) as [c|] eqn:Ec.
  - eexists. split; [reflexivity|]. split; [exact D|]. split.
    + unfold SI. ecb. cbn [closing pend_open pend_close done_ok quiet_ok]. rewrite Ff. tauto || (repeat split; try tauto; discriminate).
    + unfold PI, RI in *. ecb. repeat split; try tauto; discriminate.
  - apply fin_ok; [|left; reflexivity]. split; [exact D|]. split; [|exact R]. unfold SI. ecb. rewrite ?Ec in *. tauto.
Qed.

Lemma offer_ok s : Mid s -> e_st s = OPEN -> 0 < cb_size (e_buf s) -> exists s', op_offer s = Some s' /\ EInv s'.
Proof.
  intros (D & ((C1 & C2 & C3) & D1 & Q & Fr & AF) & R) St P. pose proof (unread_eq s D) as U. destruct D as (B & S0 & Dk & N & J).
  destruct (bufok_offer cap _ B P) as (n & R1 & L & Pn & R2). unfold op_offer. rewrite R1. cbn [obind]. rewrite R2. cbn [obind].
  eexists. split; [reflexivity|].
  assert (Ln : length (firstn n (cb_abs (e_buf s))) = n) by (rewrite firstn_length, cb_abs_length; lia).
  assert (Nf : (e_freed s || e_dis s) = false) by (destruct (e_freed s || e_dis s); [specialize (Fr eq_refl); congruence|reflexivity]).
  assert (Ff : e_freed s = false) by (apply orb_false_iff in Nf; tauto).
  assert (Ne : firstn n (cb_abs (e_buf s)) <> []) by (intros X; rewrite X in Ln; cbn in Ln; lia).
  rewrite St in *.
  split; [|split].
  - unfold DI. ecb. unfold source in *. cbn [accepted took data_ok]. repeat split; try tauto; try exact B; try apply B.
    exists (skipn n (cb_abs (e_buf s))). rewrite firstn_skipn. exact U.
  - unfold SI. ecb. cbn [closing pend_open pend_close done_ok quiet_ok]. rewrite St. repeat split; try tauto; rewrite ?Ff; discriminate.
  - unfold PI, RI, cbst in *. ecb. rewrite Ln, St. tauto.
Qed.

Lemma eqb_open s : est_eqb (e_st s) OPEN = true -> e_st s = OPEN.
Proof. destruct (e_st s); cbn; congruence. Qed.

Lemma bottom_ok s : Mid s -> notopening s -> exists s', op_bottom s = Some s' /\ EInv s'.
Proof.
  intros M N. unfold op_bottom. destruct ((_ && _) && _) eqn:E; [|apply close_ok; assumption].
  apply andb_true_iff in E. destruct E as (E1 & E2). apply andb_true_iff in E1, E2. apply offer_ok; [exact M|apply eqb_open; tauto|]. apply Nat.ltb_lt. unfold circbuf_datalen in E2. tauto.
Qed.

Lemma writes_ok s : Mid s -> notopening s -> exists s', op_writes s = Some s' /\ EInv s'.
Proof.
  intros M N. unfold op_writes. destruct (_ && _) eqn:E; [|apply bottom_ok; assumption].
  apply andb_true_iff in E. destruct E as (E & _). apply eqb_open in E. destruct M as (D & ((C1 & C2 & C3) & D1 & Q & Fr & AF) & R). rewrite E in *.
  assert (Nf : (e_freed s || e_dis s) = false) by (destruct (e_freed s || e_dis s); [specialize (Fr eq_refl); congruence|reflexivity]).
  assert (Ff : e_freed s = false) by (apply orb_false_iff in Nf; tauto).
  eexists. split; [reflexivity|]. split; [exact D|]. split.
  - unfold SI. ecb. cbn [closing pend_open pend_close done_ok quiet_ok]. rewrite E. repeat split; try tauto; rewrite ?Ff; discriminate.
  - unfold PI, RI, cbst in *. ecb. rewrite E. tauto.
Qed.

Lemma reads_ok s : Mid s -> notopening s -> exists s', op_reads s = Some s' /\ EInv s'.
Proof.
  intros M N. unfold op_reads. destruct (_ && _) eqn:E; [|apply writes_ok; assumption].
  apply andb_true_iff in E. destruct E as (E & _). apply eqb_open in E. unfold circbuf_datalen. destruct (cb_size (e_buf s) =? 0) eqn:Z.
  - destruct M as (D & ((C1 & C2 & C3) & D1 & Q & Fr & AF) & R). rewrite E in *.
    assert (Nf : (e_freed s || e_dis s) = false) by (destruct (e_freed s || e_dis s); [specialize (Fr eq_refl); congruence|reflexivity]).
    assert (Ff : e_freed s = false) by (apply orb_false_iff in Nf; tauto).
    eexists. split; [reflexivity|]. split; [exact D|]. split.
    + unfold SI. ecb. cbn [closing pend_open pend_close done_ok quiet_ok]. rewrite E. repeat split; try tauto; rewrite ?Ff; discriminate.
    + unfold PI, RI, cbst in *. ecb. rewrite E. tauto.
  - apply offer_ok; [exact M|exact E|]. apply Nat.eqb_neq in Z. lia.
Qed.

Lemma restart_ok s : Mid s -> exists s', op_restart s = Some s' /\ EInv s'.
Proof.
  intros M. unfold op_restart. destruct (e_st s) eqn:St; try (apply reads_ok; [exact M|split; congruence]);
  destruct M as (D & ((C1 & C2 & C3) & D1 & Q & Fr & AF) & R); rewrite St in *;
  assert (Nf : (e_freed s || e_dis s) = false) by (destruct (e_freed s || e_dis s); [specialize (Fr eq_refl); congruence|reflexivity]);
  assert (Ff : e_freed s = false) by (apply orb_false_iff in Nf; tauto);
  ecb; destruct (e_od s) as [c|] eqn:Eo.
  1, 3: eexists; split; [reflexivity|]; split; [exact D|]; split;
    [unfold SI; ecb; cbn [closing pend_open pend_close done_ok quiet_ok]; repeat split; try tauto; intros X; congruence
    |unfold PI, RI, cbst in *; ecb; tauto].
  all: apply reads_ok; [split; [exact D|split; [|exact R]]; unfold SI; ecb; rewrite ?Eo in *; repeat split; try tauto; intros X; congruence|split; ecb; discriminate].
Qed.

(** a return is noted *)
Lemma put_ret_D s : DI s -> DI (put TRet s).
Proof. intros D. exact D. Qed.
Lemma put_ret_S s : SI s -> SI (put TRet s).
Proof.
  intros (C & D1 & Q & Fr & AF). unfold SI. ecb. cbn [closing pend_open pend_close done_ok quiet_ok after_free].
  split; [exact C|]. split; [exact D1|]. split; [exact Q|]. split; [exact Fr|]. intros F. constructor; [left; reflexivity|apply AF; exact F].
Qed.

Lemma return_ok rv k s : EInv s -> match e_pc s with PIdle | PQueued => False | PRead d => k <= length d | _ => True end -> exists s', op_return rv k s = Some s' /\ EInv s'.
Proof.
  intros (D & S' & P) G. unfold op_return. unfold PI in P. pose proof (put_ret_S s S') as S1. destruct (e_pc s) eqn:Pc; try contradiction.
  - apply reads_ok; [split; [exact D|split; [exact S1|apply P]]|apply (cbst_no _ S1); apply P].
  - destruct P as (R & Ed & Nd & Lp & Nc). destruct (cbst_no s S' Nc) as (N1 & N2). destruct (rv =? 0)%Z.
    + pose proof (unread_eq s D) as U. destruct D as (B & S0 & Dk & N & J).
      assert (Ld : length d <= cb_size (e_buf s)). { pose proof (f_equal (@length Z) Ed) as X. rewrite firstn_length, cb_abs_length in X. lia. }
      assert (0 < length d) by (destruct d; [congruence|cbn; lia]).
      destruct (bufok_remove cap (e_buf s) k B) as (c & Rm & B' & A); try lia. rewrite Rm. cbn [obind].
      assert (Fk : firstn k d = firstn k (cb_abs (e_buf s))). { rewrite Ed, firstn_firstn. f_equal. lia. }
      apply reads_ok; [|split; ecb; assumption]. split; [|split].
      * unfold DI, source in *. ecb. cbn [accepted took data_ok]. split; [exact B'|]. split; [|split; [|split; assumption]].
        { rewrite S0, A, Fk, <- app_assoc, firstn_skipn. reflexivity. }
        split; [|exact Dk]. exists (skipn k (cb_abs (e_buf s))). rewrite Fk, firstn_skipn. exact U.
      * destruct S' as (C & D1 & Q & Fr & AF). unfold SI. ecb. cbn [closing pend_open pend_close done_ok quiet_ok after_free].
        split; [exact C|]. split; [exact D1|]. split; [exact Q|]. split; [exact Fr|]. intros F. constructor; [right; eexists; reflexivity|]. constructor; [left; reflexivity|apply AF; exact F].
      * exact R.
    + apply writes_ok; [split; [exact D|split; [exact S1|exact R]]|split; ecb; assumption].
  - apply reads_ok; [split; [exact D|split; [exact S1|apply P]]|apply (cbst_no _ S1); apply P].
  - destruct (rv =? 0)%Z; [apply writes_ok|apply bottom_ok]; (split; [exact D|split; [exact S1|apply P]]) || (apply (cbst_no _ S1); apply P).
  - assert (M : Mid (put TRet s)) by (split; [exact D|split; [exact S1|apply P]]). destruct (e_st (put TRet s)) eqn:St; try (apply restart_ok; exact M).
    apply fin_ok; [exact M|left; exact St].
Qed.

(** starting the operation *)
Lemma start_ok s : DI s -> SI s -> e_freed s = false ->
  (if e_pend s then PI s else e_pc s = PIdle /\ e_ref s = 1 /\ e_live s = true) -> exists s', start_op s = Some s' /\ EInv s' /\ e_pc s' <> PIdle.
Proof.
  intros D S' F P. unfold start_op. destruct (e_pend s) eqn:E.
  - eexists. split; [reflexivity|]. split; [split; [exact D|split; assumption]|]. intros X. unfold PI in P. rewrite X in P. destruct P as (P & _). congruence.
  - destruct P as (P1 & P2 & P3). rewrite P2. cbn [Nat.ltb Nat.leb guard obind]. eexists. split; [reflexivity|]. split; [|ecb; discriminate]. split; [exact D|]. split; [exact S'|]. unfold PI, RI. ecb. rewrite F. tauto.
Qed.

Lemma live_ok s : EInv s -> e_freed s = false -> e_live s = true.
Proof. intros (_ & _ & P) F. unfold PI, RI in P. destruct (e_pc s); decompose [and] P; try assumption. rewrite F in *. assumption. Qed.
Lemma pend_pc s : PI s -> e_pend s = match e_pc s with PIdle => false | _ => true end.
Proof. unfold PI, RI. destruct (e_pc s); tauto. Qed.
(** what start_ok needs, if the state [t] has the same operation *)
Lemma start_pre s t : PI s -> e_freed s = false -> e_pend t = e_pend s -> e_pc t = e_pc s -> e_ref t = e_ref s -> e_live t = e_live s ->
  (e_pend s = true -> PI t) -> if e_pend t then PI t else e_pc t = PIdle /\ e_ref t = 1 /\ e_live t = true.
Proof.
  intros P F E1 E2 E3 E4 H. rewrite E1. pose proof (pend_pc s P) as Q. destruct (e_pend s); [apply H; reflexivity|]. rewrite E2, E3, E4.
  unfold PI in P. destruct (e_pc s); try discriminate. rewrite F in P. tauto.
Qed.

Definition opcase (s : echo) : Prop := (e_freed s || e_dis s) = false.

Lemma write_ok sg s : EInv s -> opcase s -> exists s', echon_write sg s = Some s' /\ EInv s'.
Proof.
  intros (D & S' & P) Op. unfold opcase in Op. assert (Ff : e_freed s = false) by (apply orb_false_iff in Op; tauto). pose proof (unread_eq s D) as U. destruct D as (B & S0 & Dk & N & J). destruct S' as ((C1 & C2 & C3) & D1 & Q & Fr & AF).
  unfold echon_write. destruct (est_eqb (e_st s) OPEN) eqn:Eo; cbn [negb].
  2: { eexists. split; [reflexivity|]. split; [|split; [|exact P]].
    - unfold DI, source in *. ecb. cbn [accepted took data_ok firstn]. rewrite app_nil_r. repeat split; try assumption; apply B.
    - unfold SI. ecb. cbn [closing pend_open pend_close done_ok quiet_ok]. repeat split; try tauto; try discriminate. rewrite Ff. discriminate. }
  apply eqb_open in Eo. rewrite Eo in *. rewrite N. destruct ne eqn:En in |- *.
  - eexists. split; [reflexivity|]. split; [|split; [|exact P]].
    + unfold DI, source in *. ecb. cbn [accepted took data_ok firstn]. rewrite En in *. repeat split; try assumption; apply B.
    + unfold SI. ecb. cbn [closing pend_open pend_close done_ok quiet_ok]. rewrite Eo. repeat split; try tauto; try discriminate. rewrite Ff. discriminate.
  - destruct (bufok_write cap (e_buf s) sg B) as (c & W & B' & Pc & A). rewrite W. cbn [obind].
    set (n := Nat.min (length (concat sg)) (cap - cb_size (e_buf s))) in *.
    set (t := put (TWrite sg 0 n) (set_buf c s)).
    assert (Fn : firstn n (concat sg) = firstn (cap - cb_size (e_buf s)) (concat sg)).
    { unfold n. destruct (Nat.min_spec (length (concat sg)) (cap - cb_size (e_buf s))) as [(L & ->)|(L & ->)]; [|reflexivity]. rewrite !firstn_all2 by lia. reflexivity. }
    assert (Dt : DI t).
    { unfold DI, t, source in *. ecb. cbn [accepted took data_ok]. rewrite En in S0, U, Dk |- *. rewrite Fn, A, app_assoc, S0, <- app_assoc. repeat split; try assumption; try apply B'; try congruence.
      cbn [Z.eqb]. unfold n. unfold unread, source in *. rewrite U, cb_abs_length. reflexivity. }
    assert (St : SI t). { unfold SI, t. ecb. cbn [closing pend_open pend_close done_ok quiet_ok]. rewrite Eo. repeat split; try tauto; try discriminate. rewrite Ff. discriminate. }
    assert (Pt : PI t).
    { unfold PI, RI, t in *. ecb. destruct (e_pc s); try exact P. rewrite Pc, A. destruct P as (P1 & P2 & P3). split; [exact P1|]. split; [|exact P3].
      rewrite P2 at 1. rewrite firstn_app. pose proof (f_equal (@length Z) P2) as X. rewrite firstn_length in X. replace (length d - length (cb_abs (e_buf s))) with 0 by lia. cbn [firstn]. rewrite app_nil_r. reflexivity. }
    destruct (0 <? n).
    + destruct (start_ok t Dt St Ff) as (s' & H & I & _). { apply (start_pre s t P Ff); try reflexivity. intros _. exact Pt. } eauto.
    + eexists. split; [reflexivity|]. split; [exact Dt|]. split; [exact St|exact Pt].
Qed.

Lemma set_read_ok b s : EInv s -> opcase s -> exists s', set_read b s = Some s' /\ EInv s'.
Proof.
  intros (D & S' & P) Op. assert (Ff : e_freed s = false) by (apply orb_false_iff in Op; tauto). unfold set_read.
  assert (Dt : DI (set_rd b s)) by exact D. assert (St : SI (set_rd b s)) by exact S'. assert (Pt : PI (set_rd b s)) by exact P.
  destruct (_ && _).
  - destruct (start_ok (set_rd b s) Dt St Ff) as (s' & H & I & _). { apply (start_pre s (set_rd b s) P Ff); try reflexivity. intros _. exact Pt. } eauto.
  - eexists. split; [reflexivity|]. split; [exact Dt|]. split; [exact St|exact Pt].
Qed.
Lemma set_write_ok b s : EInv s -> opcase s -> exists s', set_write b s = Some s' /\ EInv s'.
Proof.
  intros (D & S' & P) Op. assert (Ff : e_freed s = false) by (apply orb_false_iff in Op; tauto). unfold set_write.
  assert (Dt : DI (set_xm b s)) by exact D. assert (St : SI (set_xm b s)) by exact S'. assert (Pt : PI (set_xm b s)) by exact P.
  destruct (_ && _).
  - destruct (start_ok (set_xm b s) Dt St Ff) as (s' & H & I & _). { apply (start_pre s (set_xm b s) P Ff); try reflexivity. intros _. exact Pt. } eauto.
  - eexists. split; [reflexivity|]. split; [exact Dt|]. split; [exact St|exact Pt].
Qed.

Lemma open_ok cb s : EInv s -> opcase s -> exists s', echon_open cb s = Some s' /\ EInv s' /\ (e_st s = CLOSED -> e_pc s' <> PIdle).
Proof.
  intros (D & S' & P) Op. unfold opcase in Op. assert (Ff : e_freed s = false) by (apply orb_false_iff in Op; tauto). unfold echon_open.
  destruct (e_st s) eqn:Es; try (eexists; split; [reflexivity|]; split; [split; [exact D|split; assumption]|discriminate]).
  match goal with |- exists s', start_op ?t = _ /\ _ => set (t0 := t); destruct (start_ok t0) as (s' & H & I & J) end; [exact D| |exact Ff| |eauto 6].
  - destruct S' as ((C1 & C2 & C3) & D1 & Q & Fr & AF). rewrite Es in *. unfold SI, t0. ecb. cbn [closing pend_open pend_close done_ok quiet_ok]. repeat split; try tauto; intros X; congruence.
  - apply (start_pre s t0 P Ff); try reflexivity. intros E. unfold PI, RI, cbst, t0 in *. ecb. rewrite Es, Op in P. pose proof (pend_pc s) as X. unfold PI, RI, cbst in X. rewrite Es, Op in X.
    destruct (e_pc s) eqn:Pc; try exact P; try (decompose [and or] P; discriminate).
    + specialize (X P). congruence.
    + split; [apply P|split; discriminate].
Qed.

Lemma close_call_ok cb s : EInv s -> opcase s -> exists s', echon_close cb s = Some s' /\ EInv s' /\ (e_st s = OPEN \/ e_st s = IN_OPEN -> e_pc s' <> PIdle).
Proof.
  intros (D & S' & P) Op. unfold opcase in Op. assert (Ff : e_freed s = false) by (apply orb_false_iff in Op; tauto). unfold echon_close.
  destruct (e_st s) eqn:Es; try (eexists; split; [reflexivity|]; split; [split; [exact D|split; assumption]|intros [X|X]; discriminate]);
  (match goal with |- exists s', start_op ?t = _ /\ _ => set (t0 := t); destruct (start_ok t0) as (s' & H & I & J) end; [exact D| |exact Ff| |eauto 6]).
  1, 3: destruct S' as ((C1 & C2 & C3) & D1 & Q & Fr & AF); rewrite Es in *; unfold SI, t0; ecb; cbn [closing pend_open pend_close done_ok quiet_ok]; repeat split; try tauto; intros X; congruence.
  all: apply (start_pre s t0 P Ff); try reflexivity; intros E; unfold PI, RI, cbst, t0 in *; ecb; rewrite Es, Op in P; pose proof (pend_pc s) as X; unfold PI, RI, cbst in X; rewrite Es, Op in X;
    destruct (e_pc s) eqn:Pc; try exact P; try (decompose [and or] P; try discriminate; congruence); try (specialize (X P); congruence); try (split; [apply P|]; try split; try discriminate; tauto).
  all: tauto.
Qed.

Lemma free_ok s : EInv s -> e_freed s = false -> exists s', echon_free s = Some s' /\ EInv s'.
Proof.
  intros (D & S' & P) Ff. unfold echon_free, deref. ecb.
  assert (Rf : e_ref s = 1 \/ e_ref s = 2). { unfold PI, RI in P. rewrite Ff in P. destruct (e_pc s); tauto. }
  assert (Rp : e_ref s = 1 <-> e_pc s = PIdle). { unfold PI, RI in P. rewrite Ff in P. destruct (e_pc s); decompose [and] P; split; intros; congruence. }
  destruct S' as ((C1 & C2 & C3) & D1 & Q & Fr & AF).
  destruct (e_ref s) as [|[|[|r]]] eqn:Er; try (exfalso; destruct Rf; discriminate); cbn [Nat.ltb Nat.leb guard obind Nat.eqb Nat.sub].
  - assert (Pc : e_pc s = PIdle) by (apply Rp; reflexivity). eexists. split; [reflexivity|]. split; [exact D|]. split.
    + unfold SI. ecb. cbn [closing pend_open pend_close done_ok quiet_ok after_free]. repeat split; try tauto. intros _. constructor.
    + unfold PI in *. ecb. rewrite Pc in *. rewrite Er. tauto.
  - assert (Pc : e_pc s <> PIdle) by (intros X; apply Rp in X; discriminate). eexists. split; [reflexivity|]. split; [exact D|]. split.
    + unfold SI. ecb. cbn [closing pend_open pend_close done_ok quiet_ok after_free]. repeat split; try tauto. intros _. constructor.
    + unfold PI, RI, cbst in *. ecb. cbn [orb]. destruct (e_pc s); try congruence; decompose [and] P; repeat split; try tauto; try discriminate.
Qed.

Lemma disable_ok s : EInv s -> opcase s -> exists s', echon_disable s = Some s' /\ EInv s'.
Proof.
  intros (D & S' & P) Op. unfold opcase in Op. assert (Ff : e_freed s = false) by (apply orb_false_iff in Op; tauto). eexists. split; [reflexivity|].
  destruct S' as ((C1 & C2 & C3) & D1 & Q & Fr & AF). split; [exact D|]. split.
  - unfold SI. ecb. cbn [closing pend_open pend_close done_ok quiet_ok after_free]. repeat split; try tauto. intros X. congruence.
  - unfold PI, RI, cbst in *. ecb. rewrite orb_true_r. destruct (e_pc s); decompose [and] P; repeat split; try tauto; try discriminate.
Qed.

Lemma estep_ok e s : EInv s -> exists s', estep e s = Some s' /\ EInv s'.
Proof.
  intros I. assert (U : forall f : echo -> option echo, (opcase s -> exists s', f s = Some s' /\ EInv s') ->
    exists s', (if e_freed s || e_dis s then Some s else _ <- guard (e_live s) ;; f s) = Some s' /\ EInv s').
  { intros f Hf. destruct (e_freed s || e_dis s) eqn:E; [eauto|]. rewrite (live_ok s I) by (apply orb_false_iff in E; tauto). cbn [guard obind]. apply Hf. exact E. }
  destruct e; unfold estep.
  - apply U. apply write_ok. exact I.
  - apply U. apply set_read_ok. exact I.
  - apply U. apply set_write_ok. exact I.
  - apply U. intros Op. destruct (open_ok cb s I Op) as (s' & H & J & _). eauto.
  - apply U. intros Op. destruct (close_call_ok cb s I Op) as (s' & H & J & _). eauto.
  - apply U. apply disable_ok. exact I.
  - destruct (e_freed s) eqn:F; [eauto|]. rewrite (live_ok s I F). cbn [guard obind]. apply free_ok; assumption.
  - destruct (e_pc s) eqn:Pc; eauto. destruct I as (D & S' & P). unfold PI in P. rewrite Pc in P. destruct P as (P1 & P2 & P3). rewrite P3. cbn [guard obind]. apply restart_ok. split; [exact D|]. split; [exact S'|]. split; [exact P1|split; assumption].
  - assert (L : e_pc s <> PIdle -> e_live s = true). { destruct I as (_ & _ & P). unfold PI, RI in P. destruct (e_pc s); tauto. }
    assert (R : match e_pc s with PIdle | PQueued => False | PRead d => k <= length d | _ => True end -> exists s', op_return rv k s = Some s' /\ EInv s') by (apply return_ok; exact I).
    destruct (e_pc s) as [| | |d| | |] eqn:Pc; eauto; rewrite ?L by discriminate; cbn [guard obind]; try (apply R; exact Logic.I).
    destruct (length d <? k) eqn:Lk; [eauto|]. apply R. apply Nat.ltb_ge in Lk. exact Lk.
Qed.

Lemma erun_ok : forall es s, EInv s -> exists s', erun es s = Some s' /\ EInv s'.
Proof.
  induction es as [|e es IH]; intros s I; cbn [erun]; [eauto|]. destruct (estep_ok e s I) as (s1 & H & I1). rewrite H. cbn [obind]. apply IH. exact I1.
Qed.
End Inv.

(** the start *)
Definition cap_of (readbuf : nat) (data : option (list Z)) : nat := match data with Some d => length d | None => readbuf end.
Definition text_of (data : option (list Z)) : list Z := match data with Some d => d | None => [] end.
Definition jd_of (ne : bool) (data : option (list Z)) : bool := match data with Some _ => ne | None => false end.

Lemma bufok_alloc n : bufok n (circbuf_alloc n).
Proof. unfold bufok, cb_inv, circbuf_alloc, cb_bufsize. cbn [cb_mem cb_pos cb_size]. rewrite repeat_length. split; [reflexivity|]. destruct n; [right; auto|left; lia]. Qed.

Lemma alloc_ok rb ne data : exists s, echo_alloc rb ne data = Some s /\ EInv (cap_of rb data) ne (jd_of ne data) (text_of data) s.
Proof.
  unfold echo_alloc. destruct data as [d|]; cbn [cap_of text_of jd_of].
  - destruct (bufok_write (length d) (circbuf_alloc (length d)) [d] (bufok_alloc _)) as (c & W & B & _ & A). rewrite W. cbn [obind]. eexists. split; [reflexivity|].
    split; [|split].
    + unfold DI, source. ecb. cbn [accepted took data_ok app]. split; [exact B|]. split; [|tauto]. rewrite A. unfold circbuf_alloc. cbn [cb_size concat]. unfold cb_abs. cbn [cb_mem cb_pos cb_size]. rewrite ring_nil, Nat.sub_0_r, app_nil_r. cbn [app]. rewrite firstn_all. destruct ne; apply app_nil_r.
    + unfold SI. ecb. cbn. repeat split; discriminate.
    + unfold PI. ecb. cbn. tauto.
  - eexists. split; [reflexivity|]. split; [|split].
    + unfold DI, source. ecb. cbn [accepted took data_ok app]. split; [apply bufok_alloc|]. split; [|tauto]. unfold cb_abs, circbuf_alloc. cbn [cb_mem cb_pos cb_size]. rewrite ring_nil. destruct ne; reflexivity.
    + unfold SI. ecb. cbn. repeat split; discriminate.
    + unfold PI. ecb. cbn. tauto.
Qed.
