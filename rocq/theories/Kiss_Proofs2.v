(** Proofs about the kiss filter: sender and round trip. *)
From Verif Require Import Base Buffer_Model Buffer_Spec Kiss_Model Kiss_Spec Msgdelim_Proofs2 Kiss_Proofs.
Open Scope Z_scope.

(** ** Escaping *)
Definition esc1 (b : Z) : list Z := if b =? 192 then [219; 220] else if b =? 219 then [219; 221] else [b].
Lemma kesc_cons b l : kiss_escape (b :: l) = esc1 b ++ kiss_escape l.
Proof. reflexivity. Qed.
Lemma kesc_app a b : kiss_escape (a ++ b) = kiss_escape a ++ kiss_escape b.
Proof. apply flat_map_app. Qed.
Lemma esc1_len b : (1 <= length (esc1 b) <= 2)%nat.
Proof. unfold esc1. destruct (b =? 192); [cbn; lia|]. destruct (b =? 219); cbn; lia. Qed.
Lemma kesc_len l : (length (kiss_escape l) <= 2 * length l)%nat.
Proof.
  induction l as [|b l IH]; [cbn; lia|]. rewrite kesc_cons, app_length. pose proof (esc1_len b). cbn [length]. lia.
Qed.
Lemma kesc_no_fend l : Forall (fun b => b <> 192) (kiss_escape l).
Proof.
  induction l as [|b l IH]; [constructor|]. rewrite kesc_cons. apply Forall_app. split; [|exact IH].
  unfold esc1. destruct (b =? 192) eqn:E1.
  - repeat (apply Forall_cons; [lia|]). constructor.
  - destruct (b =? 219) eqn:E2; repeat (apply Forall_cons; [lia|]); constructor.
Qed.
Lemma kunesc_esc l : kiss_unescape (kiss_escape l) = Some l.
Proof.
  induction l as [|b l IH]; [reflexivity|]. rewrite kesc_cons. unfold esc1.
  destruct (b =? 192) eqn:E1.
  - assert (b = 192) by lia. subst b. cbn [app kiss_unescape]. change (219 =? 219) with true.
    change (220 =? 220) with true. cbn iota. rewrite IH. reflexivity.
  - destruct (b =? 219) eqn:E2.
    + assert (b = 219) by lia. subst b. cbn [app kiss_unescape]. change (219 =? 219) with true.
      change (221 =? 220) with false. change (221 =? 221) with true. cbn iota. rewrite IH. reflexivity.
    + cbn [app kiss_unescape]. rewrite E2, IH. reflexivity.
Qed.
Lemma kesc_bytes l : bytes_ok l -> bytes_ok (kiss_escape l).
Proof.
  induction 1 as [|b l Hb Hl IH]; [constructor|]. rewrite kesc_cons. apply Forall_app. split; [|exact IH].
  unfold is_byte in *. unfold esc1. destruct (b =? 192).
  - repeat (apply Forall_cons; [lia|]). constructor.
  - destruct (b =? 219); repeat (apply Forall_cons; [lia|]); constructor.
Qed.

(** ** Copying into the transmit buffer *)
Lemma kt_addbyte_ok mem p b : firstn (length p) mem = p -> (length p + length (esc1 b) <= length mem)%nat ->
  exists mem', kt_addbyte (mem, length p) b = Some (mem', length (p ++ esc1 b)) /\ length mem' = length mem /\
    firstn (length (p ++ esc1 b)) mem' = p ++ esc1 b.
Proof.
  intros Hf Hl. unfold kt_addbyte. rewrite app_length. unfold esc1 in *.
  assert (Htwo : forall x y, (length p + 2 <= length mem)%nat -> exists m', (m1 <- mset mem (length p) x ;; m2 <- mset m1 (S (length p)) y ;; Some (m2, S (S (length p))))
    = Some (m', (length p + 2)%nat) /\ length m' = length mem /\ firstn (length p + 2) m' = p ++ [x; y]).
  { intros x y H2. destruct (mset_append mem (length p) x) as (m1 & E1 & L1 & F1); [lia|]. rewrite E1. cbn [obind].
    destruct (mset_append m1 (S (length p)) y) as (m2 & E2 & L2 & F2); [lia|]. rewrite E2. cbn [obind].
    exists m2. replace (length p + 2)%nat with (S (S (length p))) by lia. split; [reflexivity|]. split; [lia|].
    rewrite F2, F1, Hf, <- app_assoc. reflexivity. }
  destruct (b =? 192); [apply Htwo; exact Hl|]. destruct (b =? 219); [apply Htwo; exact Hl|].
  cbn [length] in *. destruct (mset_append mem (length p) b) as (m1 & E1 & L1 & F1); [lia|]. rewrite E1. cbn [obind].
  exists m1. replace (length p + 1)%nat with (S (length p)) by lia. split; [reflexivity|]. split; [lia|].
  rewrite F1, Hf. reflexivity.
Qed.

Lemma kt_addbytes_ok l : forall mem p, firstn (length p) mem = p -> (length p + length (kiss_escape l) <= length mem)%nat ->
  exists mem', kt_addbytes (mem, length p) l = Some (mem', length (p ++ kiss_escape l)) /\ length mem' = length mem /\
    firstn (length (p ++ kiss_escape l)) mem' = p ++ kiss_escape l.
Proof.
  induction l as [|b l IH]; intros mem p Hf Hl.
  - exists mem. cbn [kiss_escape flat_map kt_addbytes]. rewrite app_nil_r. auto.
  - rewrite kesc_cons, app_length in Hl. destruct (kt_addbyte_ok mem p b Hf) as (m1 & E1 & L1 & F1); [lia|].
    destruct (IH m1 (p ++ esc1 b) F1) as (m2 & E2 & L2 & F2); [rewrite app_length; lia|].
    exists m2. cbn [kt_addbytes]. rewrite E1. cbn [obind]. rewrite kesc_cons, app_assoc. split; [exact E2|].
    split; [lia|exact F2].
Qed.

Lemma kt_copy_eq maxw buf : forall st upos,
  kt_copy maxw buf st upos =
  (st' <- kt_addbytes st (firstn (maxw - upos) buf) ;; Some (st', (upos + length (firstn (maxw - upos) buf))%nat)).
Proof.
  induction buf as [|b buf IH]; intros st upos; cbn [kt_copy].
  - rewrite firstn_nil. cbn [kt_addbytes obind length]. rewrite Nat.add_0_r. reflexivity.
  - destruct (maxw <=? upos)%nat eqn:E.
    + replace (maxw - upos)%nat with 0%nat by lia. cbn [firstn kt_addbytes obind length]. rewrite Nat.add_0_r. reflexivity.
    + replace (maxw - upos)%nat with (S (maxw - S upos)) by lia. cbn [firstn kt_addbytes length].
      destruct (kt_addbyte st b) as [st1|]; [|reflexivity]. cbn [obind]. rewrite IH.
      destruct (kt_addbytes st1 _); [|reflexivity]. cbn [obind]. do 2 f_equal. lia.
Qed.

Lemma kt_addbytes_app a : forall st b, kt_addbytes st (a ++ b) = (st' <- kt_addbytes st a ;; kt_addbytes st' b).
Proof.
  induction a as [|x a IH]; intros st b; [reflexivity|]. cbn [app kt_addbytes].
  destruct (kt_addbyte st x); [|reflexivity]. cbn [obind]. apply IH.
Qed.

Lemma kt_copysg_eq maxw isg : forall st upos,
  kt_copysg maxw isg st upos =
  (st' <- kt_addbytes st (firstn (maxw - upos) (concat isg)) ;;
   Some (st', (upos + length (firstn (maxw - upos) (concat isg)))%nat)).
Proof.
  induction isg as [|buf isg IH]; intros st upos; cbn [kt_copysg concat].
  - rewrite firstn_nil. cbn [kt_addbytes obind length]. rewrite Nat.add_0_r. reflexivity.
  - rewrite kt_copy_eq, firstn_app, kt_addbytes_app.
    destruct (kt_addbytes st (firstn (maxw - upos) buf)) as [st1|]; [|reflexivity]. cbn [obind].
    rewrite IH. replace (maxw - (upos + length (firstn (maxw - upos) buf)))%nat with (maxw - upos - length buf)%nat
      by (rewrite firstn_length; lia).
    destruct (kt_addbytes st1 _); [|reflexivity]. cbn [obind]. do 2 f_equal. rewrite app_length. lia.
Qed.

(** ** Sender invariant *)
Definition lower_ok (h : handler) : Prop := forall d, exists n, h d = Some n /\ (n <= length d)%nat.

Inductive kt_inv (maxw : nat) (tncs : list bool) : kisstx -> list Z -> list Z -> Prop :=
| kti_idle mem out : length mem = ((maxw + 2) * 2 + 2)%nat ->
    kt_inv maxw tncs (mkkt maxw tncs mem 0 0 0 false) out out
| kti_busy mem pos len upos out d : length mem = ((maxw + 2) * 2 + 2)%nat ->
    (pos <= len)%nat -> mread mem pos (len - pos) = Some d ->
    kt_inv maxw tncs (mkkt maxw tncs mem pos len upos true) out (out ++ d).

Lemma kt_push_inv maxw tncs h mem pos len upos d out rv rc :
  lower_ok h -> length mem = ((maxw + 2) * 2 + 2)%nat -> (pos <= len)%nat -> mread mem pos (len - pos) = Some d ->
  exists t' rv' w, kt_push h (mkkt maxw tncs mem pos len upos true) rv rc = Some (t', rv', rc, w) /\
    kt_inv maxw tncs t' (out ++ w) (out ++ d) /\ rv' = KtOk.
Proof.
  intros Hh Hm Hp Hr. unfold kt_push. cbn [kt_ready kt_mem kt_pos kt_len kt_maxw kt_tncs kt_upos]. rewrite Hr. cbn [obind].
  destruct (mread_len _ _ _ _ Hr) as [Hld Hpl].
  destruct (Hh d) as (n & En & Hn). rewrite En.
  destruct (len - pos <=? n)%nat eqn:E.
  - eexists _, _, _. split; [reflexivity|]. split; [|reflexivity]. apply kti_idle. exact Hm.
  - eexists _, _, _. split; [reflexivity|]. split; [|reflexivity].
    rewrite <- (firstn_skipn n d) at 2. rewrite app_assoc. apply kti_busy; [exact Hm|lia|].
    replace (len - (pos + n))%nat with (len - pos - n)%nat by lia. apply mread_shift; [exact Hr|lia].
Qed.

Lemma kt_write_inv maxw tncs h t out all tnc sg :
  lower_ok h -> (tnc < length tncs)%nat -> (0 < length (concat sg))%nat -> (0 < maxw)%nat ->
  kt_inv maxw tncs t out all ->
  exists t' rv rc w all', kt_write h t tnc sg = Some (t', rv, rc, w) /\ kt_inv maxw tncs t' (out ++ w) all' /\
    ((nth tnc tncs false = true /\ kt_ready t = false /\ rc = Some (length (concat sg)) /\
      all' = all ++ kiss_frame (Z.of_nat tnc, firstn maxw (concat sg)) /\ rv = KtOk)
     \/ (nth tnc tncs false = true /\ kt_ready t = true /\ rc = Some 0%nat /\ all' = all /\ rv = KtOk)
     \/ (nth tnc tncs false = false /\ rc = None /\ all' = all)).
Proof.
  intros Hh Ht Hsg Hw Hinv. unfold kt_write.
  assert (Htn : kt_tncs t = tncs) by (destruct Hinv; reflexivity). rewrite Htn.
  assert (Hg : mget tncs tnc = Some (nth tnc tncs false)) by (apply nth_error_nth'; exact Ht).
  rewrite Hg. cbn [obind]. destruct (nth tnc tncs false) eqn:Een; cbn [negb].
  - destruct Hinv as [mem out Hm|mem pos len upos out d Hm Hp Hr].
    + cbn [kt_ready kt_mem kt_len kt_upos kt_pos kt_maxw kt_tncs].
      set (d := firstn maxw (concat sg)).
      assert (Hd : (0 < length d <= maxw)%nat) by (unfold d; rewrite firstn_length; lia).
      destruct (mset_append mem 0 192) as (m0 & E0 & L0 & F0); [lia|]. rewrite E0. cbn [obind].
      cbn [firstn app] in F0.
      set (tb := Z.shiftl (Z.of_nat tnc) 4).
      assert (Htb : tb = Z.of_nat tnc * 16) by (unfold tb; rewrite Z.shiftl_mul_pow2 by lia; reflexivity).
      pose proof (esc1_len tb) as He1. pose proof (kesc_len d) as Hed.
      destruct (kt_addbyte_ok m0 [192] tb) as (m1 & E1 & L1 & F1); [exact F0|cbn [length]; lia|].
      cbn [length] in E1. rewrite E1. cbn [obind]. rewrite kt_copysg_eq, Nat.sub_0_r. fold d.
      destruct (kt_addbytes_ok d m1 ([192] ++ esc1 tb) F1) as (m2 & E2 & L2 & F2);
        [rewrite app_length; cbn [length]; lia|].
      rewrite E2. cbn [obind fst snd]. replace (0 <? 0 + length d)%nat with true by lia.
      set (q := ([192] ++ esc1 tb) ++ kiss_escape d) in *.
      assert (Hq : (length q < length m2)%nat) by (unfold q; rewrite !app_length; cbn [length]; lia).
      destruct (mset_append m2 (length q) 192 Hq) as (m3 & E3 & L3 & F3). rewrite E3. cbn [obind].
      assert (Hr : mread m3 0 (S (length q) - 0) = Some (q ++ [192])).
      { rewrite Nat.sub_0_r, mread_some by lia. cbn [skipn]. rewrite F3, F2. reflexivity. }
      destruct (kt_push_inv maxw tncs h m3 0 (S (length q)) (0 + length d) (q ++ [192]) out KtOk (Some (length (concat sg))) Hh ltac:(lia) ltac:(lia) Hr)
        as (t' & rv' & w & Ep & Hi & Hrv).
      exists t', rv', (Some (length (concat sg))), w, (out ++ q ++ [192]). split; [exact Ep|]. split; [exact Hi|].
      left. split; [reflexivity|]. split; [reflexivity|]. split; [reflexivity|]. split; [|exact Hrv].
      f_equal. unfold q, kiss_frame. cbn [fst snd]. rewrite kesc_cons, Htb. rewrite <- !app_assoc. reflexivity.
    + cbn [kt_ready].
      destruct (kt_push_inv maxw tncs h mem pos len upos d out KtOk (Some 0%nat) Hh Hm Hp Hr) as (t' & rv' & w & Ep & Hi & Hrv).
      exists t', rv', (Some 0%nat), w, (out ++ d). split; [exact Ep|]. split; [exact Hi|]. right. left. auto 6.
  - destruct Hinv as [mem out Hm|mem pos len upos out d Hm Hp Hr].
    + unfold kt_push. cbn [kt_ready]. eexists _, _, _, _, out. split; [reflexivity|].
      split; [rewrite app_nil_r; apply kti_idle; exact Hm|]. right. right. auto.
    + destruct (kt_push_inv maxw tncs h mem pos len upos d out KtInval None Hh Hm Hp Hr) as (t' & rv' & w & Ep & Hi & Hrv).
      exists t', rv', None, w, (out ++ d). split; [exact Ep|]. split; [exact Hi|]. right. right. auto.
Qed.

(** What the user wrote. *)
Definition kt_writes (ops : list (handler * nat * list (list Z))) : list (Z * list Z) :=
  map (fun o => (Z.of_nat (snd (fst o)), concat (snd o))) ops.

Definition kt_op_ok (maxw : nat) (o : handler * nat * list (list Z)) : Prop :=
  lower_ok (fst (fst o)) /\ (snd (fst o) < 16)%nat /\ (0 < length (concat (snd o)) <= maxw)%nat.

Lemma kframes_app a b : kiss_frames (a ++ b) = kiss_frames a ++ kiss_frames b.
Proof. unfold kiss_frames. rewrite map_app, concat_app. reflexivity. Qed.

Lemma kframes_cons f fs : kiss_frames (f :: fs) = kiss_frame f ++ kiss_frames fs.
Proof. reflexivity. Qed.
Lemma kwrites_cons h tnc sg ops : kt_writes ((h, tnc, sg) :: ops) = (Z.of_nat tnc, concat sg) :: kt_writes ops.
Proof. reflexivity. Qed.

Lemma kt_run_inv maxw tncs ops : forall t out all,
  length tncs = 16%nat -> (0 < maxw)%nat -> Forall (kt_op_ok maxw) ops ->
  kt_inv maxw tncs t out all ->
  exists t' w rs, kt_run t ops = Some (t', w, rs) /\ length rs = length ops /\
    kt_inv maxw tncs t' (out ++ w) (all ++ kiss_frames (kiss_accepted (kt_writes ops) (map snd rs))).
Proof.
  induction ops as [|[[h tnc] sg] ops IH]; intros t out all Ht Hw Hops Hinv.
  - exists t, [], []. cbn [kt_run kt_writes map kiss_accepted]. split; [reflexivity|]. split; [reflexivity|].
    unfold kiss_frames. cbn [map concat]. rewrite !app_nil_r. exact Hinv.
  - inversion Hops as [|? ? (Hh & Htnc & Hl) Hops']; subst. cbn [fst snd] in *.
    destruct (kt_write_inv maxw tncs h t out all tnc sg Hh ltac:(lia) ltac:(lia) Hw Hinv)
      as (t1 & rv & rc & w1 & all1 & E1 & Hinv1 & Hcase).
    destruct (IH t1 (out ++ w1) all1 Ht Hw Hops' Hinv1) as (t2 & w2 & rs & E2 & Hlen & Hinv2).
    exists t2, (w1 ++ w2), ((rv, rc) :: rs). cbn [kt_run]. rewrite E1. cbn [obind]. rewrite E2. cbn [obind].
    split; [reflexivity|]. split; [cbn [length]; lia|]. rewrite app_assoc.
    rewrite kwrites_cons. cbn [map snd kiss_accepted].
    destruct Hcase as [(_ & _ & -> & -> & _)|[(_ & _ & -> & -> & _)|(_ & -> & ->)]].
    + rewrite Nat.eqb_refl. rewrite firstn_all2 in Hinv2 by lia.
      rewrite kframes_cons. rewrite (app_assoc all). exact Hinv2.
    + replace (0 =? length (concat sg))%nat with false by lia. exact Hinv2.
    + exact Hinv2.
Qed.

Lemma kt_open_ok maxw tncs start : (256 <= maxw)%nat -> (length start <= 255)%nat ->
  exists t0, kt_open maxw tncs start = Some t0 /\ kt_inv maxw tncs t0 [] (kiss_escape start) /\
    (kt_ready t0 = false -> start = []).
Proof.
  intros Hw Hs. unfold kt_open. pose proof (kesc_len start) as He.
  destruct (kt_addbytes_ok start (repeat 0 ((maxw + 2) * 2 + 2)) []) as (m & E & L & F);
    [reflexivity|rewrite repeat_length; cbn [length]; lia|].
  cbn [length app] in *. rewrite E. cbn [obind]. rewrite repeat_length in L.
  destruct start as [|b start].
  - cbn [length Nat.eqb negb]. eexists. split; [reflexivity|]. split; [apply kti_idle; exact L|reflexivity].
  - change (negb (length (b :: start) =? 0)%nat) with true. eexists. split; [reflexivity|]. split; [|discriminate].
    apply (kti_busy maxw tncs m 0 _ 0 [] (kiss_escape (b :: start))); [exact L|lia|].
    rewrite Nat.sub_0_r, mread_some by lia. cbn [skipn]. rewrite F. reflexivity.
Qed.

(** ** The start data *)
Definition kp_ok (p : kiss_parms) : Prop :=
  0 <= kp_txdelay p <= 2550 /\ 0 <= kp_persist p <= 255 /\ 0 <= kp_slot p <= 2550 /\
  match kp_hw p with None => True | Some v => 0 <= v <= 255 end.

Definition start_ok (st : list Z * nat) : Prop :=
  length (fst st) = 320%nat /\ bytes_ok (fst st) /\ (Nat.modulo (snd st) 4 = 0)%nat /\ (snd st < 256)%nat /\
  (snd st = 0%nat \/ nth 0 (fst st) 0 = 192).

Lemma start_put_ok arr len b : length arr = 320%nat -> bytes_ok arr -> (len < 256)%nat -> is_byte b ->
  let st := start_put (arr, len) b in
  length (fst st) = 320%nat /\ bytes_ok (fst st) /\ snd st = Nat.modulo (S len) 256 /\
  nth 0 (fst st) 0 = (if (len =? 0)%nat then b else nth 0 arr 0).
Proof.
  intros Hl Hb Hlen Hbb. cbn [start_put fst snd]. split; [|split; [|split; [reflexivity|]]].
  - rewrite !app_length, firstn_length, skipn_length. cbn [length]. lia.
  - apply Forall_app. split; [apply bytes_firstn; exact Hb|]. apply Forall_app.
    split; [apply Forall_cons; [exact Hbb|constructor]|apply bytes_skipn; exact Hb].
  - destruct len as [|len]; [reflexivity|]. destruct arr as [|x arr]; [cbn in Hl; lia|]. reflexivity.
Qed.

Lemma start_put4_ok st x y : start_ok st -> is_byte x -> is_byte y ->
  start_ok (fold_left start_put [192; x; y; 192] st).
Proof.
  destruct st as [arr len]. intros (Hl & Hb & Hm & Hlen & Hz) Hx Hy. cbn [fst snd] in *.
  cbn [fold_left].
  assert (H192 : is_byte 192) by (unfold is_byte; lia).
  assert (Hlen4 : (S (S (S len)) < 256)%nat).
  { assert (len mod 4 = 0)%nat by exact Hm. pose proof (Nat.div_mod len 4 ltac:(lia)). lia. }
  destruct (start_put_ok arr len 192 Hl Hb Hlen H192) as (L1 & B1 & S1 & Z1).
  destruct (start_put (arr, len) 192) as [a1 l1]. cbn [fst snd] in *. rewrite Nat.mod_small in S1 by lia. subst l1.
  destruct (start_put_ok a1 (S len) x L1 B1 ltac:(lia) Hx) as (L2 & B2 & S2 & Z2).
  destruct (start_put (a1, S len) x) as [a2 l2]. cbn [fst snd] in *. rewrite Nat.mod_small in S2 by lia. subst l2.
  destruct (start_put_ok a2 (S (S len)) y L2 B2 ltac:(lia) Hy) as (L3 & B3 & S3 & Z3).
  destruct (start_put (a2, S (S len)) y) as [a3 l3]. cbn [fst snd] in *. rewrite Nat.mod_small in S3 by lia. subst l3.
  destruct (start_put_ok a3 (S (S (S len))) 192 L3 B3 ltac:(lia) H192) as (L4 & B4 & S4 & Z4).
  destruct (start_put (a3, S (S (S len))) 192) as [a4 l4]. cbn [fst snd Nat.eqb] in *. subst l4.
  unfold start_ok. cbn [fst snd]. split; [exact L4|]. split; [exact B4|].
  assert (Hd : exists k, len = (4 * k)%nat).
  { exists (len / 4)%nat. pose proof (Nat.div_mod len 4 ltac:(lia)). lia. }
  destruct Hd as [k Hk].
  split; [|split; [apply Nat.mod_upper_bound; lia|]].
  - destruct (Nat.eq_dec k 63) as [->|Hk63].
    + replace (S (S (S (S len)))) with 256%nat by lia. rewrite Nat.mod_same by lia. reflexivity.
    + rewrite (Nat.mod_small (S (S (S (S len)))) 256) by lia. replace (S (S (S (S len)))) with ((k + 1) * 4)%nat by lia. apply Nat.mod_mul. lia.
  - right. rewrite Z4, Z3, Z2, Z1. destruct (len =? 0)%nat eqn:E0; [reflexivity|].
    destruct Hz as [Hz|Hz]; [lia|exact Hz].
Qed.

Lemma port_byte i j : 0 <= i < 16 -> 0 <= j < 16 -> is_byte (Z.lor (Z.shiftl i 4) j).
Proof.
  intros Hi Hj. unfold is_byte. split.
  - apply Z.lor_nonneg. split; [apply Z.shiftl_nonneg; lia|lia].
  - destruct (Z.eq_dec (Z.lor (Z.shiftl i 4) j) 0) as [->|Hne]; [lia|].
    assert (0 <= Z.lor (Z.shiftl i 4) j) by (apply Z.lor_nonneg; split; [apply Z.shiftl_nonneg; lia|lia]).
    apply Z.log2_lt_cancel. rewrite Z.log2_lor by (try apply Z.shiftl_nonneg; lia).
    change (Z.log2 256) with 8. apply Z.max_lub_lt.
    + destruct (Z.eq_dec i 0) as [->|]; [cbn; lia|]. rewrite Z.log2_shiftl by lia.
      assert (Z.log2 i < 4) by (apply Z.log2_lt_pow2; lia). lia.
    + destruct (Z.eq_dec j 0) as [->|]; [cbn; lia|]. apply Z.log2_lt_pow2; lia.
Qed.

Lemma start_ports_ok p : kp_ok p -> forall tncs i st, start_ok st -> 0 <= i -> i + Z.of_nat (length tncs) <= 16 ->
  start_ok (start_ports p tncs i st).
Proof.
  intros (Ht & Hp & Hs & Hh) tncs. induction tncs as [|t tncs IH]; intros i st Hst Hi Hl; cbn [start_ports length] in *; [exact Hst|].
  apply IH; [|lia|lia]. destruct t; [|exact Hst].
  assert (Hdiv : forall x, 0 <= x <= 2550 -> is_byte ((x + 5) / 10)).
  { intros x Hx. unfold is_byte. split; [apply Z.div_pos; lia|apply Z.div_lt_upper_bound; lia]. }
  assert (Hlist : forall l, kiss_start1 p i ++ l = [192; Z.lor (Z.shiftl i 4) 1; (kp_txdelay p + 5) / 10; 192] ++
     [192; Z.lor (Z.shiftl i 4) 2; kp_persist p; 192] ++ [192; Z.lor (Z.shiftl i 4) 3; (kp_slot p + 5) / 10; 192] ++
     [192; Z.lor (Z.shiftl i 4) 5; (if kp_duplex p then 1 else 0); 192] ++
     match kp_hw p with None => l | Some v => [192; Z.lor (Z.shiftl i 4) 6; v; 192] ++ l end).
  { intros l. unfold kiss_start1. destruct (kp_hw p); reflexivity. }
  specialize (Hlist []). rewrite app_nil_r in Hlist. rewrite Hlist. rewrite !fold_left_app.
  assert (H4 : start_ok (fold_left start_put [192; Z.lor (Z.shiftl i 4) 5; (if kp_duplex p then 1 else 0); 192]
    (fold_left start_put [192; Z.lor (Z.shiftl i 4) 3; (kp_slot p + 5) / 10; 192]
    (fold_left start_put [192; Z.lor (Z.shiftl i 4) 2; kp_persist p; 192]
    (fold_left start_put [192; Z.lor (Z.shiftl i 4) 1; (kp_txdelay p + 5) / 10; 192] st))))).
  { apply start_put4_ok; [apply start_put4_ok; [apply start_put4_ok; [apply start_put4_ok; [exact Hst|..]|..]|..]|..];
      try (apply port_byte; lia); try (apply Hdiv; lia); try (unfold is_byte; lia).
    destruct (kp_duplex p); unfold is_byte; lia. }
  destruct (kp_hw p) as [v|].
  - rewrite fold_left_app. apply start_put4_ok; [exact H4|apply port_byte; lia|unfold is_byte; lia].
  - exact H4.
Qed.

Lemma kiss_start_ok srv p tncs : kp_ok p -> length tncs = 16%nat ->
  let s := kiss_start srv p tncs in
  bytes_ok s /\ (length s <= 255)%nat /\ (s = [] \/ exists s', s = 192 :: s') /\ (srv = true -> s = []).
Proof.
  intros Hp Ht. unfold kiss_start. destruct srv.
  - cbn zeta. split; [constructor|]. split; [cbn; lia|]. split; [left; reflexivity|reflexivity].
  - assert (H0 : start_ok (repeat 0 320, 0%nat)).
    { split; [apply repeat_length|]. split.
      - apply Forall_forall. intros x Hx. apply repeat_spec in Hx. subst x. unfold is_byte. lia.
      - cbn [snd]. split; [reflexivity|]. split; [lia|left; reflexivity]. }
    pose proof (start_ports_ok p Hp tncs 0 _ H0 ltac:(lia) ltac:(lia)) as H.
    destruct (start_ports p tncs 0 (repeat 0 320, 0%nat)) as [arr len]. destruct H as (Hl & Hb & Hm & Hlen & Hz).
    cbn [fst snd] in *. cbn zeta. split; [apply bytes_firstn; exact Hb|]. split; [rewrite firstn_length; lia|].
    split; [|discriminate].
    destruct len as [|len]; [left; reflexivity|]. right. destruct Hz as [Hz|Hz]; [lia|].
    destruct arr as [|x arr]; [cbn in Hl; lia|]. cbn [nth] in Hz. subst x. cbn [firstn]. eauto.
Qed.

(** ** Decoding what was sent *)
Lemma segments_nofend l : Forall (fun b => b <> 192) l -> forall cur w, segments cur (l ++ w) = segments (cur ++ l) w.
Proof.
  induction 1 as [|b l Hb Hl IH]; intros cur w; [rewrite app_nil_r; reflexivity|].
  cbn [app segments]. replace (b =? 192) with false by lia. rewrite IH, <- app_assoc. reflexivity.
Qed.

Lemma segments_app a : forall cur b, exists cur', segments cur (a ++ b) = segments cur a ++ segments cur' b.
Proof.
  induction a as [|x a IH]; intros cur b; [exists cur; reflexivity|]. cbn [app segments]. destruct (x =? 192).
  - destruct (IH [] b) as [c Hc]. exists c. rewrite Hc. reflexivity.
  - apply IH.
Qed.

Lemma decode_prefix maxr en a b : exists more, kiss_decode maxr en (a ++ b) = kiss_decode maxr en a ++ more.
Proof.
  unfold kiss_decode. destruct (segments_app a [] b) as [c ->]. rewrite flat_map_app. eauto.
Qed.

Definition kiss_fits (maxr : nat) (f : Z * list Z) : Prop := 0 <= fst f < 16 /\ (S (length (snd f)) <= maxr)%nat.

Lemma packet_escape maxr en t d : 0 <= t < 16 -> (S (length d) <= maxr)%nat ->
  kiss_packet maxr en (kiss_escape (t * 16 :: d)) = if en t then [(t, d)] else [].
Proof.
  intros Ht Hd. unfold kiss_packet. rewrite kunesc_esc. cbn [length]. replace (S (length d) <=? maxr)%nat with true by lia.
  assert (H15 : Z.land (t * 16) 15 = 0).
  { change 15 with (Z.ones 4). rewrite Z.land_ones by lia. change (2 ^ 4) with 16. apply Z.mod_mul. lia. }
  assert (Hs : Z.shiftr (t * 16) 4 = t).
  { rewrite Z.shiftr_div_pow2 by lia. change (2 ^ 4) with 16. apply Z.div_mul. lia. }
  rewrite H15, Hs. reflexivity.
Qed.

Lemma decode_frames maxr en fs : Forall (kiss_fits maxr) fs -> forall cur,
  flat_map (kiss_packet maxr en) (segments cur (kiss_frames fs)) =
  (match fs with [] => [] | _ => kiss_packet maxr en cur end) ++ filter (fun f => en (fst f)) fs.
Proof.
  induction 1 as [|[t d] fs [Ht Hd] Hfs IH]; intros cur; [reflexivity|]. cbn [fst snd] in *.
  change (kiss_frames ((t, d) :: fs)) with (kiss_frame (t, d) ++ kiss_frames fs).
  unfold kiss_frame. cbn [fst snd]. rewrite <- !app_assoc. cbn [app segments]. change (192 =? 192) with true. cbn iota.
  cbn [flat_map]. rewrite segments_nofend by apply kesc_no_fend. cbn [app segments]. change (192 =? 192) with true. cbn iota.
  cbn [flat_map]. rewrite packet_escape by assumption. rewrite IH. cbn [filter fst].
  f_equal. replace (match fs with [] => [] | _ :: _ => kiss_packet maxr en [] end) with (@nil (Z * list Z))
    by (destruct fs; reflexivity).
  cbn [app]. destruct (en t); reflexivity.
Qed.

Lemma decode_all maxr en start fs : Forall (kiss_fits maxr) fs ->
  kiss_decode maxr en (kiss_escape start ++ kiss_frames fs) =
  (match fs with [] => [] | _ => kiss_packet maxr en (kiss_escape start) end) ++ filter (fun f => en (fst f)) fs.
Proof.
  intros Hf. unfold kiss_decode. rewrite segments_nofend by apply kesc_no_fend. cbn [app]. apply decode_frames. exact Hf.
Qed.

Lemma accepted_sub ws : forall cs, Forall2 (fun _ _ => True) ws cs -> forall f, In f (kiss_accepted ws cs) -> In f ws.
Proof.
  intros cs H. induction H as [|[t d] o ws cs _ H2 IH]; intros f Hf; [destruct Hf|].
  cbn [kiss_accepted] in Hf. destruct o as [n|].
  - destruct (n =? length d)%nat; [destruct Hf as [<-|Hf]; [left; reflexivity|right; auto]|right; auto].
  - right; auto.
Qed.

Lemma frames_bytes fs : Forall (fun f => 0 <= fst f < 16 /\ bytes_ok (snd f)) fs -> bytes_ok (kiss_frames fs).
Proof.
  induction 1 as [|[t d] fs [Ht Hd] Hfs IH]; [constructor|]. cbn [fst snd] in *.
  change (kiss_frames ((t, d) :: fs)) with (kiss_frame (t, d) ++ kiss_frames fs). apply Forall_app. split; [|exact IH].
  unfold kiss_frame. cbn [fst snd]. apply Forall_app. split; [apply Forall_cons; [unfold is_byte; lia|constructor]|].
  apply Forall_app. split; [|apply Forall_cons; [unfold is_byte; lia|constructor]].
  apply kesc_bytes. apply Forall_cons; [unfold is_byte; lia|exact Hd].
Qed.

Lemma forall2_true {A B} (a : list A) (b : list B) : length a = length b -> Forall2 (fun _ _ => True) a b.
Proof. revert b; induction a as [|x a IH]; intros [|y b] H; try discriminate; constructor; auto. Qed.

Lemma kt_inv_prefix maxw tncs t out all : kt_inv maxw tncs t out all ->
  exists d, all = out ++ d /\ (kt_ready t = false -> d = []).
Proof.
  intros H. destruct H as [mem out Hm|mem pos len upos out d Hm Hp Hr].
  - exists []. rewrite app_nil_r. auto.
  - exists d. split; [reflexivity|]. discriminate.
Qed.

(** Round trip. *)
Lemma kiss_round_trip : forall maxw maxr srv p stncs rtncs ops evs,
  (256 <= maxw)%nat -> length stncs = 16%nat -> length rtncs = 16%nat -> kp_ok p ->
  Forall (fun o => kt_op_ok maxw o /\ bytes_ok (concat (snd o)) /\ (S (length (concat (snd o))) <= maxr)%nat) ops ->
  exists t0 t wire rs r rest ds fs part extra,
    kt_open maxw stncs (kiss_start srv p stncs) = Some t0 /\ kt_run t0 ops = Some (t, wire, rs) /\
    kr_run (kr_init maxr rtncs) wire evs = Some (r, rest, ds) /\ kiss_reassemble ds [] = (fs, part) /\
    let sent := filter (fun f => nth (Z.to_nat (fst f)) rtncs false) (kiss_accepted (kt_writes ops) (map snd rs)) in
    (extra = [] \/ srv = false /\ nth 12 rtncs false = true /\ exists d, extra = [(12, d)]) /\
    (exists more, extra ++ sent = fs ++ more) /\
    (kt_ready t = false -> rest = [] -> kr_done r = false -> fs = extra ++ sent /\ part = []).
Proof.
  intros maxw maxr srv p stncs rtncs ops evs Hw Hst Hrt Hp Hops.
  destruct (kiss_start_ok srv p stncs Hp Hst) as (Hsb & Hsl & Hshape & Hsrv0).
  set (start := kiss_start srv p stncs) in *.
  destruct (kt_open_ok maxw stncs start Hw Hsl) as (t0 & E0 & Hinv0 & _).
  assert (Hops1 : Forall (kt_op_ok maxw) ops) by (eapply Forall_impl; [|exact Hops]; cbn; tauto).
  destruct (kt_run_inv maxw stncs ops t0 [] _ Hst ltac:(lia) Hops1 Hinv0) as (t & wire & rs & E1 & Hlen & Hinv1).
  cbn [app] in Hinv1. set (acc := kiss_accepted (kt_writes ops) (map snd rs)) in *.
  assert (Hacc : forall f, In f acc -> 0 <= fst f < 16 /\ bytes_ok (snd f) /\ (S (length (snd f)) <= maxr)%nat).
  { intros f Hf. apply accepted_sub in Hf; [|apply forall2_true; unfold kt_writes; rewrite !map_length; lia].
    unfold kt_writes in Hf. apply in_map_iff in Hf. destruct Hf as (o & <- & Ho). cbn [fst snd].
    rewrite Forall_forall in Hops. specialize (Hops o Ho) as ((_ & Hx & _) & Hb & Hr). split; [lia|]. split; assumption. }
  destruct (kt_inv_prefix _ _ _ _ _ Hinv1) as (pend & Hpend & Hrdy).
  assert (Hbytes : bytes_ok wire).
  { assert (bytes_ok (wire ++ pend)).
    { rewrite <- Hpend. apply Forall_app. split; [apply kesc_bytes; exact Hsb|]. apply frames_bytes.
      apply Forall_forall. intros f Hf. specialize (Hacc f Hf). tauto. }
    apply Forall_app in H. tauto. }
  destruct (kiss_receiver maxr rtncs wire evs Hrt Hbytes) as (r & rest & ds & fs & part & E2 & Hre & (more & Hmore) & Hfin).
  set (extra := match acc with [] => [] | _ :: _ => kiss_packet maxr (en_of rtncs) (kiss_escape start) end).
  exists t0, t, wire, rs, r, rest, ds, fs, part, extra. split; [exact E0|]. split; [exact E1|]. split; [exact E2|]. split; [exact Hre|].
  cbn zeta.
  assert (Hdec : kiss_decode maxr (en_of rtncs) (wire ++ pend) = extra ++ filter (fun f => nth (Z.to_nat (fst f)) rtncs false) acc).
  { rewrite <- Hpend. rewrite decode_all.
    - reflexivity.
    - apply Forall_forall. intros f Hf. specialize (Hacc f Hf). unfold kiss_fits. tauto. }
  split.
  { unfold extra. destruct acc; [left; reflexivity|].
    destruct srv; [left; rewrite (Hsrv0 eq_refl); reflexivity|].
    destruct Hshape as [->|[s' Hs']]; [left; reflexivity|].
    unfold kiss_packet. rewrite Hs', kunesc_esc. change (Z.shiftr 192 4) with 12. unfold en_of. change (Z.to_nat 12) with 12%nat.
    destruct (nth 12 rtncs false); [|left; rewrite andb_false_r; reflexivity].
    destruct (_ && _ && true); [right; eauto|left; reflexivity]. }
  split.
  - destruct (decode_prefix maxr (en_of rtncs) wire pend) as (m2 & Hm2). rewrite Hm2, Hmore, <- app_assoc in Hdec.
    exists (more ++ m2). symmetry. exact Hdec.
  - intros Hr Hrest Hd. destruct (Hfin Hrest Hd) as [Hfs Hpart]. split; [|exact Hpart].
    rewrite (Hrdy Hr), app_nil_r in Hdec. rewrite Hfs. exact Hdec.
Qed.

(** Memory safety of the sender for non-empty writes of any size. *)
Lemma kiss_sender_safe : forall maxw srv p tncs ops,
  (256 <= maxw)%nat -> length tncs = 16%nat -> kp_ok p ->
  Forall (fun o => lower_ok (fst (fst o)) /\ (snd (fst o) < 16)%nat /\ (0 < length (concat (snd o)))%nat) ops ->
  exists t0 t w rs, kt_open maxw tncs (kiss_start srv p tncs) = Some t0 /\ kt_run t0 ops = Some (t, w, rs).
Proof.
  intros maxw srv p tncs ops Hw Ht Hp Hops.
  destruct (kiss_start_ok srv p tncs Hp Ht) as (_ & Hsl & _).
  destruct (kt_open_ok maxw tncs _ Hw Hsl) as (t0 & E0 & Hinv & _). exists t0.
  assert (H : forall ops t out all, Forall (fun o => lower_ok (fst (fst o)) /\ (snd (fst o) < 16)%nat /\ (0 < length (concat (snd o)))%nat) ops ->
    kt_inv maxw tncs t out all -> exists t' w rs, kt_run t ops = Some (t', w, rs)).
  { clear - Ht Hw. induction ops as [|[[h tnc] sg] ops IH]; intros t out all Hops Hinv; [exists t, [], []; reflexivity|].
    inversion Hops as [|? ? (Hh & Htnc & Hl) Hops']; subst. cbn [fst snd] in *.
    destruct (kt_write_inv maxw tncs h t out all tnc sg Hh ltac:(lia) Hl ltac:(lia) Hinv)
      as (t1 & rv & rc & w1 & all1 & E1 & Hinv1 & _).
    destruct (IH t1 _ _ Hops' Hinv1) as (t2 & w2 & rs & E2).
    cbn [kt_run]. rewrite E1. cbn [obind]. rewrite E2. cbn [obind]. eauto. }
  destruct (H ops t0 [] _ Hops Hinv) as (t & w & rs & E). eauto.
Qed.

(** Empty writes: each leaves two more bytes in the buffer. *)
Lemma empty_write h maxw tncs mem k upos : length mem = ((maxw + 2) * 2 + 2)%nat -> nth_error tncs 0 = Some true -> upos = 0%nat ->
  ((k <= maxw + 2)%nat -> exists mem', length mem' = length mem /\
    kt_write h (mkkt maxw tncs mem 0 (2 * k) upos false) 0 [] = Some (mkkt maxw tncs mem' 0 (2 * S k) 0 false, KtOk, Some 0%nat, [])) /\
  (k = maxw + 3 -> kt_write h (mkkt maxw tncs mem 0 (2 * k) upos false) 0 [] = None)%nat.
Proof.
  intros Hm Ht ->. split; intros Hk.
  - unfold kt_write, mget. cbn [kt_tncs kt_ready kt_mem kt_len kt_maxw kt_upos kt_pos]. rewrite Ht. cbn [obind negb].
    destruct (mset_append mem (2 * k) 192) as (m1 & E1 & L1 & _); [lia|]. rewrite E1. cbn [obind].
    change (Z.shiftl (Z.of_nat 0) 4) with 0. unfold kt_addbyte. change (0 =? 192) with false. change (0 =? 219) with false. cbn iota.
    destruct (mset_append m1 (S (2 * k)) 0) as (m2 & E2 & L2 & _); [lia|]. rewrite E2. cbn [obind kt_copysg fst snd Nat.ltb Nat.leb concat length].
    unfold kt_push. cbn [kt_ready]. exists m2. split; [lia|]. do 5 f_equal. lia.
  - unfold kt_write, mget. cbn [kt_tncs kt_ready kt_mem kt_len kt_maxw kt_upos kt_pos]. rewrite Ht. cbn [obind negb].
    rewrite mset_none by lia. reflexivity.
Qed.

Lemma kiss_empty_writes_overrun : forall maxw tncs h, nth_error tncs 0 = Some true ->
  exists t0, kt_open maxw tncs [] = Some t0 /\ kt_run t0 (repeat (h, 0%nat, []) (maxw + 4)) = None.
Proof.
  intros maxw tncs h Ht. eexists. split; [reflexivity|].
  assert (H : forall j k mem, (k + j = maxw + 3)%nat -> length mem = ((maxw + 2) * 2 + 2)%nat ->
    kt_run (mkkt maxw tncs mem 0 (2 * k) 0 false) (repeat (h, 0%nat, []) (S j)) = None).
  { induction j as [|j IH]; intros k mem Hk Hm.
    - cbn [repeat kt_run]. destruct (empty_write h maxw tncs mem k 0 Hm Ht eq_refl) as [_ H]. rewrite H by lia. reflexivity.
    - change (repeat (h, 0%nat, []) (S (S j))) with ((h, 0%nat, []) :: repeat (h, 0%nat, @nil (list Z)) (S j)). cbn [kt_run].
      destruct (empty_write h maxw tncs mem k 0 Hm Ht eq_refl) as [H _]. destruct H as (m' & L & E); [lia|].
      rewrite E. cbn [obind]. rewrite IH by lia. reflexivity. }
  replace (maxw + 4)%nat with (S (maxw + 3)) by lia. change 0%nat with (2 * 0)%nat at 5.
  apply (H (maxw + 3)%nat 0%nat); [lia|apply repeat_length].
Qed.

(** Lower layer errors: the buffer is not emptied, so the next message is
    appended to the failed one. *)
Lemma kiss_error_overrun : exists maxw tncs ops t0, (256 <= maxw)%nat /\ kt_open maxw tncs [] = Some t0 /\
  Forall (fun o => (0 < length (concat (snd o)) <= maxw)%nat) ops /\ kt_run t0 ops = None.
Proof.
  exists 256%nat, (repeat true 16), (repeat ((fun _ => None), 0%nat, [repeat 1 256]) 90). eexists.
  split; [lia|]. split; [reflexivity|]. split; [|vm_compute; reflexivity].
  apply Forall_forall. intros o Ho. apply repeat_spec in Ho. subst o. cbn [snd concat]. rewrite app_nil_r, repeat_length. lia.
Qed.

(** No parameter command ever gets out as a frame. *)
Lemma frames_segments fs : forall cur, Forall (fun f => 0 <= fst f < 16) fs ->
  forall seg, In seg (segments cur (kiss_frames fs)) ->
  seg = cur \/ seg = [] \/ exists f, In f fs /\ seg = kiss_escape (fst f * 16 :: snd f).
Proof.
  induction fs as [|[t d] fs IH]; intros cur Hf seg Hin; [destruct Hin|].
  inversion Hf as [|? ? Ht Hf']; subst.
  rewrite kframes_cons in Hin. unfold kiss_frame in Hin. cbn [fst snd] in Hin. rewrite <- !app_assoc in Hin.
  cbn [app segments] in Hin. change (192 =? 192) with true in Hin. cbn iota in Hin.
  destruct Hin as [<-|Hin]; [left; reflexivity|].
  rewrite segments_nofend in Hin by apply kesc_no_fend. cbn [app segments] in Hin. change (192 =? 192) with true in Hin. cbn iota in Hin.
  destruct Hin as [<-|Hin].
  - right. right. exists (t, d). split; [left; reflexivity|reflexivity].
  - destruct (IH [] Hf' seg Hin) as [->|[->|(f & Hif & ->)]]; [right; left; reflexivity|right; left; reflexivity|].
    right. right. exists f. split; [right; exact Hif|reflexivity].
Qed.

Lemma segments_incl a b cur : forall s, In s (segments cur a) -> In s (segments cur (a ++ b)).
Proof. intros s H. destruct (segments_app a cur b) as [c ->]. apply in_or_app. left. exact H. Qed.

Lemma kiss_no_commands : forall maxw p tncs ops,
  (256 <= maxw)%nat -> length tncs = 16%nat -> kp_ok p -> Forall (kt_op_ok maxw) ops ->
  exists t0 t wire rs, kt_open maxw tncs (kiss_start false p tncs) = Some t0 /\ kt_run t0 ops = Some (t, wire, rs) /\
    forall seg ty d, In seg (segments [] wire) -> kiss_unescape seg = Some (ty :: d) -> Z.land ty 15 = 0.
Proof.
  intros maxw p tncs ops Hw Ht Hp Hops.
  destruct (kiss_start_ok false p tncs Hp Ht) as (Hsb & Hsl & Hshape & _).
  set (start := kiss_start false p tncs) in *.
  destruct (kt_open_ok maxw tncs start Hw Hsl) as (t0 & E0 & Hinv0 & _).
  destruct (kt_run_inv maxw tncs ops t0 [] _ Ht ltac:(lia) Hops Hinv0) as (t & wire & rs & E1 & Hlen & Hinv1).
  exists t0, t, wire, rs. split; [exact E0|]. split; [exact E1|]. intros seg ty d Hin Hu.
  cbn [app] in Hinv1. destruct (kt_inv_prefix _ _ _ _ _ Hinv1) as (pend & Hpend & _).
  apply (segments_incl wire pend) in Hin. rewrite <- Hpend in Hin.
  rewrite segments_nofend in Hin by apply kesc_no_fend. cbn [app] in Hin.
  apply frames_segments in Hin.
  - destruct Hin as [->|[->|(f & Hf & ->)]].
    + rewrite kunesc_esc in Hu. destruct Hshape as [Hs|[s' Hs]]; rewrite Hs in Hu; [discriminate|].
      assert (ty = 192) by congruence. subst ty. reflexivity.
    + discriminate Hu.
    + rewrite kunesc_esc in Hu. assert (ty = fst f * 16) by congruence. subst ty.
      change 15 with (Z.ones 4). rewrite Z.land_ones by lia. change (2 ^ 4) with 16. apply Z.mod_mul. lia.
  - apply Forall_forall. intros f Hf. apply accepted_sub in Hf; [|apply forall2_true; unfold kt_writes; rewrite !map_length; lia].
    unfold kt_writes in Hf. apply in_map_iff in Hf. destruct Hf as (o & <- & Ho). cbn [fst snd].
    rewrite Forall_forall in Hops. specialize (Hops o Ho) as (_ & Hx & _). lia.
Qed.

(** Oversized writes: count reported complete, frame truncated. *)
Lemma kiss_oversize : forall maxw tncs tnc sg h, (256 <= maxw)%nat -> length tncs = 16%nat -> nth_error tncs tnc = Some true ->
  takes_all h -> (maxw < length (concat sg))%nat ->
  exists t0 t, kt_open maxw tncs [] = Some t0 /\
    kt_write h t0 tnc sg = Some (t, KtOk, Some (length (concat sg)), kiss_frame (Z.of_nat tnc, firstn maxw (concat sg))) /\
    kt_ready t = false.
Proof.
  intros maxw tncs tnc sg h Hw Ht Hen Hta Hl.
  assert (Hh : lower_ok h) by (intros d; exists (length d); split; [apply Hta|lia]).
  assert (Htnc : (tnc < length tncs)%nat) by (apply nth_error_Some; congruence).
  destruct (kt_open_ok maxw tncs [] Hw ltac:(cbn; lia)) as (t0 & E0 & Hinv & _).
  destruct (kt_write_inv maxw tncs h t0 [] _ tnc sg Hh Htnc ltac:(lia) ltac:(lia) Hinv) as (t & rv & rc & w & all & E & Hi & Hc).
  assert (Hr0 : kt_ready t0 = false) by (unfold kt_open in E0; cbn [kt_addbytes obind length Nat.eqb negb] in E0; assert (Hx : t0 = mkkt maxw tncs (repeat 0 ((maxw + 2) * 2 + 2)) 0 0 0 false) by congruence; rewrite Hx; reflexivity).
  assert (Hnt : nth tnc tncs false = true) by (apply nth_error_nth; exact Hen).
  destruct Hc as [(_ & _ & -> & -> & ->)|[(_ & Hr & _)|(Hx & _)]]; [|congruence|congruence].
  exists t0, t. split; [exact E0|]. cbn [kiss_escape flat_map app] in Hi.
  destruct (kt_ready t) eqn:Er.
  - exfalso. (* takes_all: nothing stays pending *)
    unfold kt_write in E.
    destruct (mget (kt_tncs t0) tnc) as [en|]; [|discriminate]. cbn [obind] in E.
    assert (Hpush : forall t1 a b t' rv' rc' w', kt_push h t1 a b = Some (t', rv', rc', w') -> kt_ready t' = true -> False).
    { clear - Hta. intros t1 a b t' rv' rc' w' E Hr. unfold kt_push in E. destruct (kt_ready t1) eqn:E1.
      - destruct (mread (kt_mem t1) (kt_pos t1) (kt_len t1 - kt_pos t1)) as [d|] eqn:Em; [|discriminate]. cbn [obind] in E.
        destruct (mread_len _ _ _ _ Em) as [Hd _]. rewrite Hta in E.
        replace (kt_len t1 - kt_pos t1 <=? length d)%nat with true in E by lia.
        assert (t' = mkkt (kt_maxw t1) (kt_tncs t1) (kt_mem t1) 0 0 0 false) by congruence. subst t'. discriminate Hr.
      - assert (t' = t1) by congruence. congruence. }
    destruct (negb en); [eapply Hpush; eassumption|]. rewrite Hr0 in E.
    destruct (mset (kt_mem t0) (kt_len t0) 192); [|discriminate]. cbn [obind] in E.
    destruct (kt_addbyte _ _); [|discriminate]. cbn [obind] in E.
    destruct (kt_copysg _ _ _ _) as [[st2 up]|]; [|discriminate]. cbn [obind] in E.
    destruct (0 <? up)%nat.
    + destruct (mset (fst st2) (snd st2) 192); [|discriminate]. cbn [obind] in E. eapply Hpush; eassumption.
    + eapply Hpush; eassumption.
  - split; [|reflexivity].
    assert (Hw2 : w = kiss_frame (Z.of_nat tnc, firstn maxw (concat sg))).
    { destruct (kt_inv_prefix _ _ _ _ _ Hi) as (pend & Hp & Hz). rewrite (Hz Er), app_nil_r in Hp. congruence. }
    rewrite <- Hw2. exact E.
Qed.

(** Writing to a port that is not enabled reports success when output is
    pending. *)
Lemma kiss_disabled_port : exists maxw tncs ops t0 t w,
  (256 <= maxw)%nat /\ nth 1 tncs false = false /\ kt_open maxw tncs [] = Some t0 /\
  kt_run t0 ops = Some (t, w, [(KtOk, Some 2%nat); (KtOk, None)]) /\
  map (fun o => snd (fst o)) ops = [0%nat; 1%nat].
Proof.
  exists 256%nat, (true :: repeat false 15),
    [((fun _ => Some 1%nat), 0%nat, [[1; 2]]); ((fun _ => Some 1%nat), 1%nat, [[3]])].
  eexists _, _, _. split; [lia|]. split; [reflexivity|]. split; [reflexivity|]. split; [vm_compute; reflexivity|reflexivity].
Qed.

(** The tncs option does not do what the manual says. *)
Lemma kiss_tncs_option :
  kiss_ranges (true :: repeat false 15) [(4%nat, None)]
    = Some (map (fun i => (i =? 0)%nat || (i =? 4)%nat) (seq 0 16)) /\
  (forall v1 v2, (v1 <= v2 <= 15)%nat -> forall vals r, length vals = 16%nat -> nth v2 vals false = false ->
     kiss_ranges vals [(v1, Some v2)] = Some r -> nth v2 r false = false).
Proof.
  split; [vm_compute; reflexivity|]. intros v1 v2 Hv vals r Hl Hn. cbn [kiss_ranges].
  replace (15 <? v1)%nat with false by lia. replace (15 <? v2)%nat with false by lia.
  assert (H : forall n i vals, (i + n <= v2)%nat -> length vals = 16%nat -> nth v2 vals false = false ->
     nth v2 (range_loop vals i n) false = false).
  { clear - Hv. induction n as [|n IH]; intros i vals Hi Hl Hn; [exact Hn|]. cbn [range_loop]. apply IH; [lia|..].
    - rewrite !app_length, firstn_length, skipn_length. cbn [length]. lia.
    - rewrite app_nth2 by (rewrite firstn_length; lia). rewrite firstn_length, Nat.min_l by lia.
      replace (v2 - i)%nat with (S (v2 - S i)) by lia. cbn [app nth]. rewrite nth_skipn. replace (S i + (v2 - S i))%nat with v2 by lia. exact Hn. }
  intros E. assert (r = range_loop vals v1 (v2 - v1)) by congruence. subst r. apply H; [lia|exact Hl|exact Hn].
Qed.

(** A packet nobody wrote. *)
Lemma kiss_spurious_packet : exists maxw maxr p stncs rtncs ops evs t0 t wire rs r ds fs,
  kp_ok p /\ length stncs = 16%nat /\ length rtncs = 16%nat /\
  kt_open maxw stncs (kiss_start false p stncs) = Some t0 /\ kt_run t0 ops = Some (t, wire, rs) /\
  kr_run (kr_init maxr rtncs) wire evs = Some (r, [], ds) /\ kiss_reassemble ds [] = (fs, []) /\
  In (12, [1; 50; 192; 192; 2; 63; 192; 192; 3; 10; 192; 192; 5; 0; 192]) fs /\
  Forall (fun f => fst f <> 12) (kt_writes ops).
Proof.
  exists 256%nat, 256%nat, (mkkp 500 63 100 false None), (true :: repeat false 15), (repeat true 16),
    (repeat ((fun d => Some (length d)), 0%nat, [[7]]) 2), (repeat (100%nat, (fun d => Some (length d))) 2).
  eexists _, _, _, _, _, _, _.
  split; [unfold kp_ok; cbn; lia|]. split; [reflexivity|]. split; [reflexivity|]. split; [vm_compute; reflexivity|].
  split; [vm_compute; reflexivity|]. split; [vm_compute; reflexivity|]. split; [vm_compute; reflexivity|].
  split; [left; reflexivity|]. cbn [repeat kt_writes map fst snd]. repeat (apply Forall_cons; [cbn [fst]; lia|]). constructor.
Qed.
