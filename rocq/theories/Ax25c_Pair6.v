(** Two channels over a link: the numbers in the frames under way. *)
From Verif Require Import Base Ax25c_Model Ax25c_Spec Ax25c_Proofs Ax25c_Proofs2 Ax25c_Proofs3 Ax25c_Proofs4 Ax25c_Proofs5 Ax25c_Pair1 Ax25c_Pair2 Ax25c_Pair3 Ax25c_Pair4 Ax25c_Pair5.
Open Scope Z_scope.

(** ** The control fields *)
Definition upto (n : nat) : list Z := map Z.of_nat (seq 0 n).
Lemma upto_in n x : 0 <= x < Z.of_nat n -> In x (upto n).
Proof. intros H. unfold upto. apply in_map_iff. exists (Z.to_nat x). split; [lia|]. apply in_seq. lia. Qed.
Lemma upto_all n P : forallb P (upto n) = true -> forall x, 0 <= x < Z.of_nat n -> P x = true.
Proof. intros H x Hx. rewrite forallb_forall in H. apply H, upto_in, Hx. Qed.
Lemma bool_all P : P true && P false = true -> forall b : bool, P b = true.
Proof. intros H [|]; apply andb_prop in H; tauto. Qed.

Definition chk_se s := let b := u8 (Z.shiftl s 1) in negb (Z.testbit b 0) && (Z.land (Z.shiftr b 1) 127 =? s) && negb (Z.land b 3 =? 3).
Definition chk_ve v p := let b := u8 (Z.lor (Z.shiftl v 1) (b2z p)) in (Z.land (Z.shiftr b 1) 127 =? v) && Bool.eqb (Z.testbit b 0) p.
Definition chk_p v p s := let b := u8 (Z.lor (Z.lor (Z.shiftl v 5) (Z.shiftl (b2z p) 4)) (Z.shiftl s 1)) in
  negb (Z.testbit b 0) && (Z.land (Z.shiftr b 5) 7 =? v) && (Z.land (Z.shiftr b 1) 7 =? s) && Bool.eqb (Z.testbit b 4) p && negb (Z.land b 3 =? 3).
Definition chk_s v p k := let b := u8 (Z.lor (Z.lor (Z.shiftl v 5) (Z.shiftl (b2z p) 4)) k) in
  Z.testbit b 0 && (Z.land (Z.shiftr b 5) 7 =? v) && (Z.land b 15 =? k) && Bool.eqb (Z.testbit b 4) p && negb (Z.land b 3 =? 3).
Lemma ok_se s : 0 <= s < 128 -> chk_se s = true. Proof. apply (upto_all 128). vm_compute. reflexivity. Qed.
Lemma ok_ve v p : 0 <= v < 128 -> chk_ve v p = true.
Proof. intros H. revert p. apply bool_all. revert v H. apply (upto_all 128 (fun v => chk_ve v true && chk_ve v false)). vm_compute. reflexivity. Qed.
Lemma ok_p v p s : 0 <= v < 8 -> 0 <= s < 8 -> chk_p v p s = true.
Proof.
  intros H H2. revert p. apply bool_all. revert s H2. apply (upto_all 8 (fun s => chk_p v true s && chk_p v false s)). revert v H.
  apply (upto_all 8 (fun v => forallb (fun s => chk_p v true s && chk_p v false s) (upto 8))). vm_compute. reflexivity.
Qed.
Lemma ok_s v p k : 0 <= v < 8 -> k = X_RR \/ k = X_RNR \/ k = X_REJ -> chk_s v p k = true.
Proof.
  intros H Hk. assert (A : chk_s v p X_RR && chk_s v p X_RNR && chk_s v p X_REJ = true).
  { revert p. apply bool_all. revert v H. set (g := fun v p => chk_s v p X_RR && chk_s v p X_RNR && chk_s v p X_REJ). apply (upto_all 8 (fun v => g v true && g v false)). vm_compute. reflexivity. }
  apply andb_prop in A. destruct A as [A A3]. apply andb_prop in A. destruct A as [A1 A2]. destruct Hk as [->|[->| ->]]; assumption.
Qed.
Ltac bits H := repeat (apply andb_prop in H; let H' := fresh "B" in destruct H as [H H']).

(** ** Frames and the numbers they stand for *)
Inductive aframe := AU | AS (a : Z) | AI (n a : Z).
Definition enc (E : bool) (W : list pkt) (f : frame) (g : aframe) : Prop :=
  exists b0 t, snd f = b0 :: t /\
  match g with
  | AU => Z.land b0 3 = 3
  | AS a => Z.land b0 3 <> 3 /\ exists cmd ns pf d, cmd <> 0 /\ parse_is E (b0 :: t) = Some (cmd, ns, a mod md E, pf, d)
  | AI n a => Z.land b0 3 <> 3 /\ exists pf p x, parse_is E (b0 :: t) = Some (0, n mod md E, a mod md E, pf, p :: x) /\
                nth_error W (Z.to_nat n) = Some (p, x) /\ 0 <= n < zl W
  end.
Definition acks (l : list aframe) : list Z := flat_map (fun g => match g with AU => [] | AS a => [a] | AI _ a => [a] end) l.
Definition nums (l : list aframe) : list Z := flat_map (fun g => match g with AI n _ => [n] | _ => [] end) l.
Fixpoint chain lo (l : list Z) hi : Prop := match l with [] => lo <= hi | a :: t => lo <= a /\ chain a t hi end.
Fixpoint nch m r (l : list Z) : Prop := match l with [] => True | n :: t => r <= n + m /\ Forall (fun k => n + 1 <= k + m) t /\ nch m r t end.

Lemma chain_le l : forall lo lo' hi hi', chain lo l hi -> lo' <= lo -> hi <= hi' -> chain lo' l hi'.
Proof. induction l as [|a t IH]; cbn; intros lo lo' hi hi'; [lia|]. intros [A B] ? ?. split; [lia|]. eapply IH; eauto; lia. Qed.
Lemma chain_lohi l : forall lo hi, chain lo l hi -> lo <= hi.
Proof. induction l as [|a t IH]; cbn; intros lo hi; [auto|]. intros [A B]. apply IH in B. lia. Qed.
Lemma chain_app l m : forall lo hi, chain lo (l ++ m) hi <-> exists x, chain lo l x /\ chain x m hi.
Proof.
  induction l as [|a t IH]; cbn; intros lo hi.
  - split; [intros H; exists lo; split; [lia|auto]|intros (x & A & B); eapply chain_le; eauto; lia].
  - split; [intros [A B]; apply IH in B; destruct B as (x & B & C); exists x; auto|]. intros (x & [A B] & C). split; [auto|]. apply IH. eauto.
Qed.
Lemma nch_app m r l k : nch m r (l ++ k) <-> nch m r l /\ nch m r k /\ Forall (fun a => Forall (fun b => a + 1 <= b + m) k) l.
Proof.
  induction l as [|n t IH]; cbn [app nch].
  - split; [intros H; split; [auto|]; split; [auto|constructor]|tauto].
  - rewrite IH, Forall_app, Forall_cons_iff. tauto.
Qed.
Lemma acks_app l k : acks (l ++ k) = acks l ++ acks k. Proof. apply flat_map_app. Qed.
Lemma nums_app l k : nums (l ++ k) = nums l ++ nums k. Proof. apply flat_map_app. Qed.

Lemma enc_app E W x f g : enc E W f g -> enc E (W ++ x) f g.
Proof.
  intros (b0 & t & A & B). exists b0, t. split; [auto|]. destruct g; auto. destruct B as (B1 & pf & p & y & P & Nt & Bn). split; [auto|].
  exists pf, p, y. split; [auto|]. rewrite zl_app. assert (X := zl_nonneg x). split; [|lia]. rewrite nth_error_app1; [auto|]. unfold zl in Bn. lia.
Qed.
Lemma encs_app E W x fs gs : Forall2 (enc E W) fs gs -> Forall2 (enc E (W ++ x)) fs gs.
Proof. intros H. induction H; constructor; auto. apply enc_app; auto. Qed.
Lemma encs_nums E W fs gs : Forall2 (enc E W) fs gs -> Forall (fun n => 0 <= n < zl W) (nums gs).
Proof.
  intros H. induction H as [|f g fs gs H1 H2 IH]; [constructor|]. destruct g; cbn [nums flat_map app]; auto. constructor; auto.
  destruct H1 as (b0 & t & _ & _ & _ & _ & _ & _ & _ & X). exact X.
Qed.

Definition SYM E cx cy (X Y : chan) (fx fy : list frame) : Prop := exists lx ly WX NX VX WY NY VY (rx ry : nat),
  DATA cx E WX NX (firstn rx WY) VX X /\ DATA cy E WY NY (firstn ry WX) VY Y /\ (rx <= length WY)%nat /\ (ry <= length WX)%nat /\
  Forall2 (enc E WX) fx lx /\ Forall2 (enc E WY) fy ly /\
  nch (wmax E) (Z.of_nat ry) (nums lx) /\ nch (wmax E) (Z.of_nat rx) (nums ly) /\
  chain NX (acks ly) VY /\ chain NY (acks lx) VX.

Lemma SYM_sym E cx cy X Y fx fy : SYM E cx cy X Y fx fy -> SYM E cy cx Y X fy fx.
Proof. intros (lx & ly & WX & NX & VX & WY & NY & VY & rx & ry & H). exists ly, lx, WY, NY, VY, WX, NX, VX, ry, rx. tauto. Qed.

Lemma zl_firstn {A} n (l : list A) : (n <= length l)%nat -> zl (firstn n l) = Z.of_nat n.
Proof. intros H. unfold zl. rewrite firstn_length. lia. Qed.

Lemma SYM_order E cx cy X Y fx fy : SYM E cx cy X Y fx fy -> in_order X Y.
Proof.
  intros (lx & ly & WX & NX & VX & WY & NY & VY & rx & ry & D1 & D2 & _).
  destruct D1 as (_ & A & _). destruct D2 as (_ & _ & _ & _ & _ & q & B & _).
  unfold in_order. rewrite A. exists (q ++ skipn ry WX). rewrite <- (firstn_skipn ry WX) at 1. apply eats_app, B.
Qed.

(** Losing a frame. *)
Lemma forall2_app_split {A B} (P : A -> B -> Prop) l1 l2 m : Forall2 P (l1 ++ l2) m -> exists m1 m2, m = m1 ++ m2 /\ Forall2 P l1 m1 /\ Forall2 P l2 m2.
Proof. intros H. apply Forall2_app_inv_l in H. destruct H as (m1 & m2 & H1 & H2 & H3). eauto. Qed.
Lemma drop_split {A} i (l : list A) : exists l1 x l2, l = l1 ++ x ++ l2 /\ drop i l = l1 ++ l2.
Proof.
  unfold drop. revert l. induction i as [|i IH]; intros [|a l].
  - exists [], [], []. auto.
  - exists [], [a], l. auto.
  - exists [], [], []. auto.
  - destruct (IH l) as (l1 & x & l2 & A1 & A2). exists (a :: l1), x, l2. cbn [firstn skipn app] in *. rewrite A1 at 1. rewrite <- A2. auto.
Qed.
Lemma SYM_lose E cx cy X Y fx fy i : SYM E cx cy X Y fx fy -> SYM E cx cy X Y (drop i fx) fy.
Proof.
  intros (lx & ly & WX & NX & VX & WY & NY & VY & rx & ry & D1 & D2 & R1 & R2 & F1 & F2 & N1 & N2 & C1 & C2).
  destruct (drop_split i fx) as (l1 & x & l2 & -> & ->).
  apply forall2_app_split in F1. destruct F1 as (m1 & m' & -> & G1 & F1). apply forall2_app_split in F1. destruct F1 as (mx & m2 & -> & G2 & G3).
  rewrite !nums_app in N1. rewrite !acks_app in C2.
  exists (m1 ++ m2), ly, WX, NX, VX, WY, NY, VY, rx, ry. rewrite nums_app, acks_app.
  repeat (split; [first [exact D1|exact D2|exact R1|exact R2|exact F2|apply Forall2_app; assumption]|]). split; [|split; [exact N2|split; [exact C1|]]].
  - apply nch_app in N1. destruct N1 as (A1 & A2 & A3). apply nch_app in A2. apply nch_app. split; [tauto|]. split; [tauto|].
    eapply Forall_impl; [|exact A3]. intros a H. apply Forall_app in H. tauto.
  - apply chain_app in C2. destruct C2 as (u & C2 & C3). apply chain_app in C3. destruct C3 as (v & C3 & C4). apply chain_app. exists u. split; [auto|].
    apply chain_lohi in C3. eapply chain_le; eauto; lia.
Qed.

(** ** What is sent *)
Definition ukind (k : Z) : Prop := k = X_SABM \/ k = X_SABME \/ k = X_DISC \/ k = X_DM \/ k = X_UA \/ k = X_FRMR \/ k = X_XID \/ k = X_TEST.
Definition okind (k : Z) : Prop := k = X_RR \/ k = X_REJ \/ ukind k.

Lemma ukind_bits k (pf : bool) : ukind k -> Z.land (Z.lor (Z.shiftl (b2z pf) 4) k) 3 = 3 /\ Z.land (Z.lor (Z.shiftl (b2z pf) 4) k) 239 = k /\ Z.land k 3 <> 1.
Proof. intros H. unfold ukind in H. repeat (destruct H as [->|H]; [destruct pf; vm_compute; repeat split; discriminate|]). subst k. destruct pf; vm_compute; repeat split; discriminate. Qed.

Lemma sent_cr cf E W' W NA R V c x : in_list (cst c) = true -> DATA cf E W NA R V c -> okind (cr_cmd x) ->
  let f := (cr_is x, cr_bytes cf c x) in
  (ukind (cr_cmd x) /\ enc E W' f AU /\ uk f = Some (cr_cmd x, if cr_cmd x =? X_XID then format_xid cf else cr_ext x)) \/
  (~ ukind (cr_cmd x) /\ enc E W' f (AS V) /\ uk f = None).
Proof.
  intros L H K f. assert (K' : (cr_cmd x = X_RR \/ cr_cmd x = X_REJ) \/ ukind (cr_cmd x)) by (unfold okind in K; tauto). clear K. destruct K' as [K|K]; [right|left].
  - assert (Nu : ~ ukind (cr_cmd x)) by (destruct K as [K|K]; rewrite K; unfold ukind; vm_compute; intuition discriminate).
    split; [exact Nu|]. destruct H as (_ & _ & _ & _ & _ & q & _ & _ & Q3). destruct (Q3 (in_list_alive _ L)) as (_ & (Vr & _) & Ex & _).
    assert (EB : exists cmd, (cmd = X_RR \/ cmd = X_RNR \/ cmd = X_REJ) /\ cr_bytes cf c x =
      (if 0 <? cext c then [cmd; u8 (Z.lor (Z.shiftl (vr (rx c)) 1) (b2z (cr_pf x)))]
       else [u8 (Z.lor (Z.lor (Z.shiftl (vr (rx c)) 5) (Z.shiftl (b2z (cr_pf x)) 4)) cmd)]) ++ cr_ext x).
    { unfold cr_bytes. destruct K as [K|K]; rewrite K.
      - change (Z.land X_RR 3 =? 1) with true. cbv iota. eexists. split; [|reflexivity]. destruct (_ && _); auto.
      - change (Z.land X_REJ 3 =? 1) with true. cbv iota. exists X_REJ. split; [auto|]. reflexivity. }
    destruct EB as (cmd & Hc & EB). unfold f. rewrite EB, Ex, Vr. clear EB f Ex Vr Q3.
    assert (Mr := md_range E). assert (Rg : 0 <= V mod md E < md E) by (apply Z.mod_pos_bound; lia). set (v := V mod md E) in *.
    assert (C3 : Z.land cmd 3 <> 3 /\ Z.testbit cmd 0 = true /\ cmd <> 0) by (destruct Hc as [->|[->| ->]]; vm_compute; repeat split; discriminate).
    destruct E; cbn [b2z Z.ltb Z.compare app md] in *.
    + assert (B := ok_ve v (cr_pf x) Rg). unfold chk_ve in B. bits B. unfold uk. cbn [snd]. destruct (Z.eqb_spec (Z.land cmd 3) 3); [tauto|]. split; [|reflexivity].
      eexists _, _. split; [reflexivity|]. split; [tauto|]. exists cmd, 0, (cr_pf x), (cr_ext x). split; [tauto|]. unfold parse_is. destruct C3 as (_ & -> & _). cbn [md]. fold v.
      apply Z.eqb_eq in B. apply Bool.eqb_prop in B0. rewrite B, B0. reflexivity.
    + assert (B := ok_s v (cr_pf x) cmd Rg Hc). unfold chk_s in B. bits B. unfold uk. cbn [snd].
      apply Z.eqb_eq in B2, B3. apply Bool.eqb_prop in B1. set (b := u8 _) in *. destruct (Z.land b 3 =? 3) eqn:E3; [discriminate|]. split; [|reflexivity].
      eexists _, _. split; [reflexivity|]. split; [lia|]. exists cmd, 0, (cr_pf x), (cr_ext x). split; [tauto|]. unfold parse_is. cbn [md]. fold v. rewrite B, B1, B2, B3. reflexivity.
  - split; [exact K|]. destruct (ukind_bits (cr_cmd x) (cr_pf x) K) as (B1 & B2 & B3). unfold f, cr_bytes.
    destruct (Z.eqb_spec (Z.land (cr_cmd x) 3) 1); [contradiction|]. split; [eexists _, _; split; [reflexivity|exact B1]|].
    unfold uk. cbn [snd]. rewrite B1, B2. reflexivity.
Qed.

Lemma sent_i cf E W NA R V c n p d : in_list (cst c) = true -> DATA cf E W NA R V c -> NA <= n < zl W -> 0 <= NA -> slot_ok E W n d ->
  enc E W (true, i_bytes c p d) (AI n V) /\ uk (true, i_bytes c p d) = None.
Proof.
  intros L H Bn N0 (S1 & S2). destruct H as (_ & _ & _ & _ & _ & q & _ & _ & Q3). destruct (Q3 (in_list_alive _ L)) as (_ & (Vr & _) & Ex & _).
  unfold i_bytes. rewrite Ex, Vr, S1. assert (Mr := md_range E).
  assert (R1 : 0 <= V mod md E < md E) by (apply Z.mod_pos_bound; lia). assert (R2 : 0 <= n mod md E < md E) by (apply Z.mod_pos_bound; lia).
  set (v := V mod md E) in *. set (s := n mod md E) in *. destruct E; cbn [b2z Z.ltb Z.compare app md] in *.
  - assert (B := ok_ve v p R1). assert (C := ok_se s R2). unfold chk_ve in B. unfold chk_se in C. bits B. bits C. apply Z.eqb_eq in B, B2. apply Bool.eqb_prop in B0.
    unfold uk. cbn [snd]. set (b := u8 (Z.shiftl s 1)) in *. destruct (Z.land b 3 =? 3) eqn:E3; [discriminate|]. split; [|reflexivity].
    eexists _, _. split; [reflexivity|]. split; [lia|]. exists p, (ws_pid d), (ws_dat d). split; [|split; [exact S2|lia]].
    unfold parse_is. cbn [md]. fold v s. destruct (Z.testbit b 0); [discriminate|]. rewrite B, B0, B2. reflexivity.
  - assert (B := ok_p v p s R1 R2). unfold chk_p in B. bits B. set (b := u8 _) in *. destruct (Z.testbit b 0) eqn:Tb; [discriminate|].
    unfold uk. cbn [snd]. destruct (Z.land b 3 =? 3) eqn:E3; [discriminate|]. split; [|reflexivity]. apply Z.eqb_eq in B2, B3. apply Bool.eqb_prop in B1.
    eexists _, _. split; [reflexivity|]. split; [lia|]. exists p, (ws_pid d), (ws_dat d). split; [|split; [exact S2|lia]].
    unfold parse_is. cbn [md]. fold v s. rewrite Tb, B1, B2, B3. reflexivity.
Qed.

Lemma sent_base E W cmd pf x : ukind cmd -> let f := (false, Z.lor (Z.shiftl (b2z pf) 4) cmd :: x) in enc E W f AU /\ uk f = Some (cmd, x).
Proof.
  intros K f. destruct (ukind_bits cmd pf K) as (B1 & B2 & B3). split; [eexists _, _; split; [reflexivity|exact B1]|]. unfold uk, f. cbn [snd]. rewrite B1, B2. reflexivity.
Qed.

(** A local event. *)
Definition good_kinds (c : chan) : Prop := Forall (fun x => okind (cr_cmd x)) (cq c) /\ Forall (fun x => ukind (fst (fst x))) (bq c).
Lemma SYM_local E cx cy X Y fx fy e X' o : safe_conf cx -> SYM E cx cy X Y fx fy -> INV cx X -> local e = true -> calm cx e -> good_kinds X ->
  step cx e X = Some (X', o) -> SYM E cx cy X' Y (fx ++ out o) fy /\ (cst X <> SOpen -> wrote (tr X') = wrote (tr X)).
Proof.
  intros Sx (lx & ly & WX & NX & VX & WY & NY & VY & rx & ry & D1 & D2 & R1 & R2 & F1 & F2 & N1 & N2 & C1 & C2) I L Cm (K1 & K2) Q.
  destruct (step_D cx Sx E e WX NX (firstn rx WY) VX X X' o L Cm I D1 Q) as (W' & V' & OW & LV & D' & O).
  assert (Gx : exists lo, Forall2 (enc E WX) (out o) lo /\ (acks lo = [] \/ acks lo = [VX]) /\ (nums lo = [] \/ exists n, nums lo = [n] /\ NX <= n < zl WX)).
  { destruct o as [f|]; cbn [out]; [|exists []; split; [constructor|auto]]. destruct O as [[IL [O|O]]|O].
    - destruct O as (x & q & Cq & ->). rewrite Cq in K1. inversion_clear K1 as [|? ? Kx _].
      destruct (sent_cr cx E WX WX NX (firstn rx WY) VX X x IL D1 Kx) as [(_ & A & _)|(_ & A & _)].
      + exists [AU]. split; [auto|]. auto.
      + exists [AS VX]. split; [auto|]. cbn. auto.
    - destruct O as (n & p & d & Bn & So & ->). assert (N0 : 0 <= NX) by (destruct D1 as (_ & _ & _ & A & _); lia).
      destruct (sent_i cx E WX NX (firstn rx WY) VX X n p d IL D1 Bn N0 So) as [A _]. exists [AI n VX]. split; [auto|]. cbn. split; [auto|]. right. eauto.
    - destruct O as (cmd & pf & x & q & Bq & ->). rewrite Bq in K2. inversion_clear K2 as [|? ? Kx _]. cbn [fst] in Kx.
      destruct (sent_base E WX cmd pf x Kx) as [A _]. exists [AU]. split; [auto|]. auto. }
  destruct Gx as (lo & G1 & G2 & G3). split; [|intros NO; destruct OW as [->|[OW _]]; [|contradiction]; destruct D1 as (_ & A1 & _); destruct D' as (_ & A2 & _); congruence].
  assert (FN := encs_nums _ _ _ _ F1).
  assert (BW : 0 <= NX <= zl WX /\ zl WX <= NX + wmax E) by (destruct D1 as (_ & _ & _ & A & B & _); lia).
  assert (Ry : Z.of_nat ry <= zl WX) by (unfold zl; lia).
  exists (lx ++ lo), ly, W', NX, V', WY, NY, VY, rx, ry. rewrite nums_app, acks_app.
  assert (FE : Forall2 (enc E W') (fx ++ out o) (lx ++ lo)).
  { destruct OW as [->|(_ & x & ->)]; [apply Forall2_app; auto|]. apply encs_app, Forall2_app; auto. }
  split; [exact D'|]. split; [|split; [exact R1|split; [|split; [exact FE|split; [exact F2|split; [|split; [exact N2|split; [exact C1|]]]]]]]].
  - destruct OW as [->|(_ & x & ->)]; [exact D2|]. rewrite firstn_app_le by lia. exact D2.
  - destruct OW as [->|(_ & x & ->)]; [exact R2|]. rewrite app_length. lia.
  - apply nch_app. split; [exact N1|]. destruct G3 as [->|(n & -> & Bn)]; [split; [exact Logic.I|apply Forall_forall; auto]|].
    split; [cbn; split; [lia|auto]|]. eapply Forall_impl; [|exact FN]. intros k Bk. cbv beta in Bk. repeat constructor. lia.
  - apply chain_app. exists VX. split; [exact C2|]. destruct G2 as [->| ->]; cbn; lia.
Qed.

(** A frame is taken from the link. *)
Lemma SYM_recv E cx cy X Y fx f fy X' : safe_conf cx -> SYM E cx cy X Y fx (f :: fy) -> INV cx X -> INV cx X' -> busy_recv X = false ->
  (forall b0 t, snd f = b0 :: t -> Z.land b0 3 = 3 -> u_in E X b0 t) -> recv cx f X = Some X' -> SYM E cx cy X' Y fx fy /\ wrote (tr X') = wrote (tr X).
Proof.
  intros Sx (lx & ly & WX & NX & VX & WY & NY & VY & rx & ry & D1 & D2 & R1 & R2 & F1 & F2 & N1 & N2 & C1 & C2) I I' Bu U Q.
  inversion F2 as [|? g ? ly' He F2' E1 E2]; subst. destruct f as [is b]. destruct He as (b0 & t & Eb & He). cbn [snd] in Eb. subst b.
  assert (VY' : VY <= zl WX). { destruct D2 as (_ & _ & A & _). rewrite zl_firstn in A by exact R2. unfold zl. lia. }
  assert (WR : forall NA' R' V', DATA cx E WX NA' R' V' X' -> wrote (tr X') = wrote (tr X)) by (intros NA' R' V' (_ & A2 & _); destruct D1 as (_ & A1 & _); congruence).
  destruct g as [|a|n a].
  - assert (D' := recv_U cx Sx E is b0 t WX NX (firstn rx WY) VX X X' He (U b0 t eq_refl He) I I' D1 Q).
    split; [|apply (WR _ _ _ D')]. exists lx, ly', WX, NX, VX, WY, NY, VY, rx, ry. repeat (split; [assumption|]). assumption.
  - destruct He as (B3 & cmd & ns & pf & d & Nz & P). cbn [acks flat_map app chain] in C1. destruct C1 as [Ca C1]. assert (Ch := chain_lohi _ _ _ C1).
    destruct (recv_IS cx Sx E is b0 t cmd ns a pf d WX NX (firstn rx WY) VX X X' B3 P (conj Ca (Z.le_trans _ _ _ Ch VY')) Bu I D1 Q) as [_ Sp].
    destruct (Sp Nz) as (NA' & ON & D'). split; [|apply (WR _ _ _ D')]. exists lx, ly', WX, NA', VX, WY, NY, VY, rx, ry. repeat (split; [assumption|]). split; [|assumption].
    eapply chain_le; [exact C1|destruct ON; lia|lia].
  - destruct He as (B3 & pf & p & x & P & Nt & Bn). cbn [acks flat_map app chain] in C1. destruct C1 as [Ca C1]. assert (Ch := chain_lohi _ _ _ C1).
    cbn [nums flat_map app nch] in N2. destruct N2 as (N2a & N2b & N2c). fold (nums ly') in N2b, N2c.
    destruct (recv_IS cx Sx E is b0 t 0 _ a pf _ WX NX (firstn rx WY) VX X X' B3 P (conj Ca (Z.le_trans _ _ _ Ch VY')) Bu I D1 Q) as [Ip _].
    destruct Ip as (NA' & R' & V' & ON & LV & D' & OR).
    split; [|apply (WR _ _ _ D')].
    assert (C1' : chain NA' (acks ly') VY) by (eapply chain_le; [exact C1|destruct ON; lia|lia]).
    assert (C2' : chain NY (acks lx) V') by (eapply chain_le; [exact C2|lia|lia]).
    destruct OR as [->|(p' & x' & Ed & -> & Co & Ens)].
    + exists lx, ly', WX, NA', V', WY, NY, VY, rx, ry. repeat (split; [assumption|]). assumption.
    + injection Ed as <- <-. 
      assert (En : n = Z.of_nat rx).
      { assert (Pd := pend_nd _ (busy_nd _ Bu)). assert (Ch2 := chain_lohi _ _ _ C2).
        destruct D1 as (_ & _ & _ & _ & _ & q & _ & _ & Q3). destruct Q3 as (_ & (Vr & Vp & _) & _); [congruence|]. rewrite zl_firstn in Vp by exact R1.
        destruct D2 as (_ & _ & _ & _ & Bw & _). rewrite Vr in Ens. assert (Wm := wmax_md E). apply (mod_inj _ _ (md E)); [lia| |lia]. rewrite Ens. f_equal. lia. }
      assert (FR : firstn rx WY ++ [(p, x)] = firstn (Datatypes.S rx) WY).
      { rewrite En, Nat2Z.id in Nt. clear - Nt. revert WY Nt. induction rx as [|r IH]; intros [|w WY] Nt; try discriminate; cbn in *; [injection Nt as <-; reflexivity|]. rewrite (IH WY Nt). reflexivity. }
      rewrite FR in D'. exists lx, ly', WX, NA', V', WY, NY, VY, (Datatypes.S rx), ry.
      split; [exact D'|]. split; [exact D2|]. split; [unfold zl in Bn; lia|]. split; [exact R2|]. split; [exact F1|]. split; [exact F2'|]. split; [exact N1|].
      split; [|split; [exact C1'|exact C2']]. clear - N2b N2c En. revert N2b N2c. generalize (nums ly'). intros l. induction l as [|k l IH]; intros N2b N2c; [exact Logic.I|].
      cbn [nch] in *. inversion_clear N2b. destruct N2c as (A & B & C). split; [lia|]. split; [exact B|apply IH; auto].
Qed.
