(** Proofs about the msgdelim filter. *)
From Verif Require Import Base Buffer_Model Buffer_Spec Crc_Model Crc_Spec Crc_Proofs
  Msgdelim_Model Msgdelim_Spec.
Open Scope Z_scope.

(** * Sender *)
Lemma escape_app a b : md_escape (a ++ b) = md_escape a ++ md_escape b.
Proof. apply flat_map_app. Qed.
Lemma escape_cons b l : md_escape (b :: l) = (if b =? 254 then [254; 0] else [b]) ++ md_escape l.
Proof. reflexivity. Qed.
Lemma escape_length l : (length (md_escape l) <= 2 * length l)%nat.
Proof.
  induction l as [|b l IH]; [cbn; lia|]. rewrite escape_cons, app_length. cbn [length].
  destruct (b =? 254); cbn [length]; lia.
Qed.

Lemma addbyte_ok mem len b :
  (len + 2 <= length mem)%nat ->
  exists mem' len', mt_addbyte (mem, len) b = Some (mem', len') /\ length mem' = length mem /\
    firstn len' mem' = firstn len mem ++ md_escape [b] /\ len' = (len + length (md_escape [b]))%nat.
Proof.
  intros H. unfold mt_addbyte. destruct (mset_append mem len b) as (m1 & E1 & L1 & F1); [lia|].
  rewrite E1. cbn [obind md_escape flat_map app]. destruct (b =? 254) eqn:Eb.
  - assert (b = 254) by lia. subst b.
    destruct (mset_append m1 (S len) 0) as (m2 & E2 & L2 & F2); [lia|]. rewrite E2. cbn [obind].
    exists m2, (S (S len)). split; [reflexivity|]. split; [lia|]. split; [|cbn [length app]; lia].
    rewrite F2, F1, <- app_assoc. reflexivity.
  - exists m1, (S len). split; [reflexivity|]. split; [lia|]. split; [|cbn [length app]; lia]. exact F1.
Qed.

Lemma copy_ok maxw buf : forall mem len upos,
  (upos <= maxw)%nat -> (len + 2 * (maxw - upos) <= length mem)%nat ->
  exists mem' len', length mem' = length mem /\
    firstn len' mem' = firstn len mem ++ md_escape (firstn (maxw - upos) buf) /\
    len' = (len + length (md_escape (firstn (maxw - upos) buf)))%nat /\
    mt_copy maxw buf (mem, len) upos =
      if (upos + length buf <=? maxw)%nat then Some (Some (mem', len', (upos + length buf)%nat)) else Some None.
Proof.
  induction buf as [|b buf IH]; intros mem len upos Hu Hl.
  - exists mem, len. rewrite firstn_nil. cbn [md_escape flat_map length mt_copy].
    rewrite app_nil_r, !Nat.add_0_r. apply Nat.leb_le in Hu. rewrite Hu.
    split; [reflexivity|]. split; [reflexivity|]. split; [reflexivity|]. reflexivity.
  - cbn [mt_copy]. destruct (maxw <=? upos)%nat eqn:E.
    + exists mem, len. replace (maxw - upos)%nat with 0%nat by lia. cbn [firstn md_escape flat_map length].
      rewrite app_nil_r, Nat.add_0_r. replace (upos + S (length buf) <=? maxw)%nat with false by lia.
      split; [reflexivity|]. split; [reflexivity|]. split; [reflexivity|]. reflexivity.
    + destruct (addbyte_ok mem len b) as (m1 & l1 & E1 & L1 & F1 & Hl1); [lia|].
      rewrite E1. cbn [obind].
      assert (He : (length (md_escape [b]) <= 2)%nat) by (pose proof (escape_length [b]); cbn [length] in *; lia).
      destruct (IH m1 l1 (S upos)) as (m2 & l2 & L2 & F2 & Hl2 & E2); [lia|lia|].
      exists m2, l2. rewrite E2.
      replace (maxw - upos)%nat with (S (maxw - S upos)) by lia. cbn [firstn].
      change (b :: firstn (maxw - S upos) buf) with ([b] ++ firstn (maxw - S upos) buf).
      rewrite escape_app, app_assoc, <- F1, app_length.
      split; [lia|]. split; [exact F2|]. split; [lia|].
      cbn [length]. replace (S upos + length buf)%nat with (upos + S (length buf))%nat by lia. reflexivity.
Qed.

Lemma copysg_ok maxw isg : forall mem len upos crc wl,
  (upos <= maxw)%nat -> (len + 2 * (maxw - upos) <= length mem)%nat ->
  exists mem' len', length mem' = length mem /\
    ((upos + length (concat isg) <= maxw)%nat ->
     firstn len' mem' = firstn len mem ++ md_escape (concat isg) /\
     len' = (len + length (md_escape (concat isg)))%nat) /\
    mt_copysg maxw isg (mem, len) upos crc wl =
      if (upos + length (concat isg) <=? maxw)%nat
      then Some (Some (mem', len', (upos + length (concat isg))%nat, crc16 (concat isg) crc, (wl + length (concat isg))%nat))
      else Some None.
Proof.
  induction isg as [|buf isg IH]; intros mem len upos crc wl Hu Hl.
  - exists mem, len. cbn [concat length mt_copysg md_escape flat_map crc16 fold_left].
    rewrite app_nil_r, !Nat.add_0_r. replace (upos <=? maxw)%nat with true by lia.
    split; [reflexivity|]. split; [auto|reflexivity].
  - cbn [mt_copysg concat]. rewrite app_length, crc16_app, escape_app, app_length.
    destruct (copy_ok maxw buf mem len upos Hu Hl) as (m1 & l1 & L1 & F1 & Hl1 & E1).
    rewrite E1. destruct (upos + length buf <=? maxw)%nat eqn:E; cbn [obind].
    + assert (Hfa : firstn (maxw - upos) buf = buf) by (apply firstn_all2; lia). rewrite Hfa in *. pose proof (escape_length buf) as He.
      destruct (IH m1 l1 (upos + length buf)%nat (crc16 buf crc) (wl + length buf)%nat) as (m2 & l2 & L2 & F2 & E2); [lia|lia|].
      exists m2, l2. split; [lia|]. rewrite E2, !Nat.add_assoc. split; [|reflexivity].
      intros Hle. destruct F2 as [F2 Hl2]; [lia|]. split; [|lia].
      rewrite F2, F1, app_assoc. reflexivity.
    + exists mem, len. replace (upos + (length buf + length (concat isg)) <=? maxw)%nat with false by lia.
      split; [reflexivity|]. split; [intros; exfalso; lia|reflexivity].
Qed.

(** Sender invariant: [out] is what the lower layer has taken so far, [acc]
    the messages accepted, [sep] whether the stream starts with the separator. *)
Inductive mt_inv (crc : bool) (maxw : nat) (out : list Z) (acc : list (list Z)) : bool -> mdtx -> Prop :=
| mti_fresh mem : out = [] -> acc = [] -> length mem = ((maxw + 2) * 2 + 4)%nat -> firstn 2 mem = md_sep ->
    mt_inv crc maxw out acc true (mkmt maxw crc mem 0 2 0 false)
| mti_idle mem (sep : bool) : (sep = true -> acc <> []) -> length mem = ((maxw + 2) * 2 + 4)%nat ->
    out = (if sep then md_sep else []) ++ md_frames crc acc ->
    mt_inv crc maxw out acc sep (mkmt maxw crc mem 0 0 0 false)
| mti_pend mem pos len upos (sep : bool) : length mem = ((maxw + 2) * 2 + 4)%nat -> (pos <= len <= length mem)%nat ->
    acc <> [] ->
    out ++ skipn pos (firstn len mem) = (if sep then md_sep else []) ++ md_frames crc acc ->
    mt_inv crc maxw out acc sep (mkmt maxw crc mem pos len upos true).

Lemma mt_init_inv maxw crc : mt_inv crc maxw [] [] true (mt_init maxw crc).
Proof.
  apply mti_fresh; [reflexivity|reflexivity| |reflexivity].
  rewrite app_length, repeat_length. cbn [length]. lia.
Qed.

Definition rc (r : mtres) : option nat := match r with MtOk n => Some n | MtTooBig => None | MtErr => None end.

(** Pushing pending output. *)
Lemma push_inv crc maxw out acc sep t h n :
  mt_inv crc maxw out acc sep t -> mt_out t = true ->
  exists t' r w, mt_push h t n = Some (t', r, w) /\
    (r = MtErr \/ r = MtOk n /\ mt_inv crc maxw (out ++ w) acc sep t') .
Proof.
  intros Hinv Ho. inversion Hinv as [|?|mem pos len upos ? Hm Hp Ha Hs]; subst; try discriminate. clear Ho.
  unfold mt_push. cbn [mt_out mt_mem mt_pos mt_len mt_maxw mt_crc mt_upos].
  rewrite mread_some by lia. cbn [obind].
  assert (Ed : firstn (len - pos) (skipn pos mem) = skipn pos (firstn len mem)).
  { rewrite firstn_skipn_comm. replace (pos + (len - pos))%nat with len by lia. reflexivity. }
  rewrite Ed. set (d := skipn pos (firstn len mem)) in *.
  destruct (h d) as [k|].
  - destruct (len - pos <=? k)%nat eqn:E.
    + eexists _, _, _. split; [reflexivity|]. right. split; [reflexivity|].
      apply mti_idle; auto.
    + eexists _, _, _. split; [reflexivity|]. right. split; [reflexivity|].
      apply mti_pend; [exact Hm|lia|exact Ha|].
      rewrite <- Hs, <- app_assoc. f_equal.
      assert (Es : skipn (pos + k) (firstn len mem) = skipn k d) by (unfold d; rewrite skipn_skipn_add; reflexivity).
      rewrite Es. apply firstn_skipn.
  - eexists _, _, _. split; [reflexivity|]. left. reflexivity.
Qed.

Lemma write_new crc maxw mem len0 pre sg h :
  length mem = ((maxw + 2) * 2 + 4)%nat -> firstn len0 mem = pre -> length pre = len0 -> (len0 <= 2)%nat ->
  exists t' r w,
    mt_write h (mkmt maxw crc mem 0 len0 0 false) sg = Some (t', r, w) /\
    ((length (concat sg) > maxw)%nat /\ r = MtTooBig /\ w = [] /\
       (exists mem', length mem' = length mem /\ t' = mkmt maxw crc mem' 0 0 0 false)
     \/ concat sg = [] /\ r = MtOk 0 /\ w = [] /\
        (exists mem', length mem' = length mem /\ firstn len0 mem' = pre /\ t' = mkmt maxw crc mem' 0 len0 0 false)
     \/ (0 < length (concat sg) <= maxw)%nat /\
        (r = MtErr \/ r = MtOk (length (concat sg)) /\
         exists mem' pos len, length mem' = length mem /\
          (t' = mkmt maxw crc mem' 0 0 0 false /\ w = pre ++ md_frame crc (concat sg) \/
           t' = mkmt maxw crc mem' pos len (length (concat sg)) true /\ (pos <= len <= length mem)%nat /\
           w ++ skipn pos (firstn len mem') = pre ++ md_frame crc (concat sg)))).
Proof.
  intros Hm Hp Hpl Hl0. unfold mt_write. cbn [mt_out mt_maxw mt_mem mt_len mt_upos mt_crc mt_pos].
  destruct (copysg_ok maxw sg mem len0 0 0 0) as (m1 & l1 & L1 & F1 & E1); [lia|lia|].
  rewrite E1. cbn [Nat.add]. set (d := concat sg) in *.
  destruct (length d <=? maxw)%nat eqn:Ed; cbn [obind].
  2:{ eexists _, _, _. split; [reflexivity|]. left. split; [lia|]. split; [reflexivity|]. split; [reflexivity|].
      exists mem. split; reflexivity. }
  destruct F1 as [F1 Hl1]; [lia|]. rewrite Hp in F1.
  destruct (0 <? length d)%nat eqn:E0.
  2:{ assert (Hd : d = []) by (destruct d; [reflexivity|cbn [length] in E0; lia]).
      unfold mt_push. cbn [mt_out]. eexists _, _, _. split; [reflexivity|]. right. left.
      rewrite Hd in *. cbn [md_escape flat_map length] in *. split; [reflexivity|]. split; [reflexivity|].
      split; [reflexivity|]. exists m1. rewrite Nat.add_0_r in Hl1. subst l1.
      split; [exact L1|]. rewrite app_nil_r in F1. split; [exact F1|reflexivity]. }
  pose proof (escape_length d) as Hesc.
  assert (Hst1 : exists m2 l2,
    (if crc then s1 <- mt_addbyte (m1, l1) (Z.shiftr (crc16 d 0) 8) ;; mt_addbyte s1 (Z.land (crc16 d 0) 255)
     else Some (m1, l1)) = Some (m2, l2) /\ length m2 = length mem /\
    firstn l2 m2 = pre ++ md_escape (md_body crc d) /\ (l2 <= len0 + 2 * maxw + 4)%nat).
  { destruct crc.
    - destruct (addbyte_ok m1 l1 (Z.shiftr (crc16 d 0) 8)) as (ma & la & Ea & La & Fa & Hla); [lia|].
      pose proof (escape_length [Z.shiftr (crc16 d 0) 8]) as Ha. cbn [length] in Ha.
      destruct (addbyte_ok ma la (Z.land (crc16 d 0) 255)) as (mb & lb & Eb & Lb & Fb & Hlb); [lia|].
      pose proof (escape_length [Z.land (crc16 d 0) 255]) as Hb. cbn [length] in Hb.
      exists mb, lb. rewrite Ea. cbn [obind]. rewrite Eb. split; [reflexivity|]. split; [lia|]. split; [|lia].
      rewrite Fb, Fa, F1. unfold md_body.
      change [Z.shiftr (crc16 d 0) 8; Z.land (crc16 d 0) 255] with ([Z.shiftr (crc16 d 0) 8] ++ [Z.land (crc16 d 0) 255]).
      rewrite !escape_app, !app_assoc. reflexivity.
    - exists m1, l1. split; [reflexivity|]. split; [lia|]. split; [exact F1|lia]. }
  destruct Hst1 as (m2 & l2 & E2 & L2 & F2 & Hl2). rewrite E2. cbn [obind fst snd].
  destruct (mset_append m2 l2 254) as (m3 & E3 & L3 & F3); [lia|]. rewrite E3. cbn [obind].
  destruct (mset_append m3 (S l2) 1) as (m4 & E4 & L4 & F4); [lia|]. rewrite E4. cbn [obind].
  assert (Hall : firstn (S (S l2)) m4 = pre ++ md_frame crc d).
  { rewrite F4, F3, F2. unfold md_frame, md_sep. rewrite <- !app_assoc. reflexivity. }
  unfold mt_push. cbn [mt_out mt_mem mt_pos mt_len mt_maxw mt_crc mt_upos].
  rewrite mread_some by lia. cbn [obind skipn]. rewrite Nat.sub_0_r, Hall.
  destruct (h (pre ++ md_frame crc d)) as [k|].
  2:{ eexists _, _, _. split; [reflexivity|]. right. right. split; [lia|]. left. reflexivity. }
  destruct (S (S l2) <=? k)%nat eqn:Ek.
  - eexists _, _, _. split; [reflexivity|]. right. right. split; [lia|]. right. split; [reflexivity|].
    exists m4, 0%nat, 0%nat. split; [lia|]. left. split; reflexivity.
  - eexists _, _, _. split; [reflexivity|]. right. right. split; [lia|]. right. split; [reflexivity|].
    exists m4, k, (S (S l2)). split; [lia|]. right. split; [reflexivity|]. split; [lia|].
    rewrite Hall. apply firstn_skipn.
Qed.

Lemma frames_snoc crc acc m : md_frames crc (acc ++ [m]) = md_frames crc acc ++ md_frame crc m.
Proof. unfold md_frames. rewrite map_app, concat_app. cbn [map concat]. rewrite app_nil_r. reflexivity. Qed.

(** One user write. *)
Lemma mt_write_inv crc maxw out acc sep t h sg :
  mt_inv crc maxw out acc sep t ->
  exists t' r w, mt_write h t sg = Some (t', r, w) /\
    (r = MtErr \/
     exists sep', mt_inv crc maxw (out ++ w) (acc ++ accepted [concat sg] [rc r]) sep' t' /\
       (r <> MtErr) /\ (acc = [] -> first_not_refused [concat sg] [rc r] -> sep' = sep) /\ (acc <> [] -> sep' = sep) /\
       (r = MtTooBig <-> mt_out t = false /\ (length (concat sg) > maxw)%nat)).
Proof.
  intros Hinv.
  inversion Hinv as [mem Ho Ha Hm Hf|mem sp Hna Hm Ho|mem pos len upos sp Hm Hp Ha Hs]; subst.
  - destruct (write_new crc maxw mem 2 md_sep sg h Hm Hf eq_refl (le_n _)) as (t' & r & w & E & H).
    exists t', r, w. split; [exact E|]. destruct H as [(Hl & -> & -> & mem' & Hm' & ->)|[(Hd & -> & -> & mem' & Hm' & Hf' & ->)|(Hl & [->|(-> & mem' & pos & len & Hm' & Hc)])]].
    + right. exists false. cbn [rc accepted first_not_refused app mt_out]. split.
      * apply mti_idle; [discriminate|lia|reflexivity].
      * split; [discriminate|]. split; [intros _ []|]. split; [congruence|]. split; [auto|reflexivity].
    + right. exists true. rewrite Hd. cbn [rc accepted first_not_refused app length]. split.
      * apply mti_fresh; [reflexivity|reflexivity|lia|exact Hf'].
      * split; [discriminate|]. split; [reflexivity|]. split; [reflexivity|]. split; [discriminate|cbn [length]; lia].
    + left. reflexivity.
    + right. exists true. cbn [rc accepted first_not_refused app mt_out].
      replace (0 <? length (concat sg))%nat with true by lia. rewrite Nat.eqb_refl. cbn [andb].
      split; [|split; [discriminate|]; split; [reflexivity|]; split; [reflexivity|]; split; [discriminate|lia]].
      destruct Hc as [[-> ->]|(-> & Hpl & Hw)].
      * apply mti_idle; [discriminate|lia|]. cbn [md_frames map concat]. rewrite app_nil_r. reflexivity.
      * apply mti_pend; [lia|lia|discriminate|]. cbn [md_frames map concat]. rewrite app_nil_r. exact Hw.
  - destruct (write_new crc maxw mem 0 [] sg h Hm eq_refl eq_refl ltac:(lia)) as (t' & r & w & E & H).
    exists t', r, w. split; [exact E|]. destruct H as [(Hl & -> & -> & mem' & Hm' & ->)|[(Hd & -> & -> & mem' & Hm' & Hf' & ->)|(Hl & [->|(-> & mem' & pos & len & Hm' & Hc)])]].
    + right. exists sep. cbn [rc accepted first_not_refused app mt_out]. rewrite !app_nil_r. split.
      * apply mti_idle; [exact Hna|lia|reflexivity].
      * split; [discriminate|]. split; [reflexivity|]. split; [reflexivity|]. split; [auto|reflexivity].
    + right. exists sep. rewrite Hd. cbn [rc accepted first_not_refused app length]. cbn [Nat.ltb Nat.leb andb]. rewrite !app_nil_r. split.
      * apply mti_idle; [exact Hna|lia|reflexivity].
      * split; [discriminate|]. split; [reflexivity|]. split; [reflexivity|]. split; [discriminate|cbn [length]; lia].
    + left. reflexivity.
    + right. exists sep. cbn [rc accepted first_not_refused mt_out].
      replace (0 <? length (concat sg))%nat with true by lia. rewrite Nat.eqb_refl. cbn [andb].
      split; [|split; [discriminate|]; split; [reflexivity|]; split; [reflexivity|]; split; [discriminate|lia]].
      destruct Hc as [[-> ->]|(-> & Hpl & Hw)].
      * apply mti_idle; [intros _ Hx; destruct acc; discriminate|lia|]. rewrite frames_snoc, <- !app_assoc. reflexivity.
      * apply mti_pend; [lia|lia|intros Hx; destruct acc; discriminate|].
        rewrite <- !app_assoc, Hw, frames_snoc. reflexivity.
  - unfold mt_write. cbn [mt_out].
    destruct (push_inv crc maxw out acc sep _ h 0%nat Hinv eq_refl) as (t' & r & w & E & H).
    exists t', r, w. split; [exact E|]. destruct H as [->|[-> H]]; [left; reflexivity|right].
    exists sep. cbn [rc accepted first_not_refused].
    replace ((0 <? length (concat sg)) && (0 =? length (concat sg)))%nat with false by lia.
    rewrite app_nil_r. split; [exact H|]. split; [discriminate|]. split; [reflexivity|].
    split; [reflexivity|]. split; [discriminate|intros [? _]; discriminate].
Qed.

Lemma accepted_app a : forall b ca cb, length a = length ca ->
  accepted (a ++ b) (ca ++ cb) = accepted a ca ++ accepted b cb.
Proof.
  induction a as [|d a IH]; intros b [|c ca] cb H; try discriminate; [reflexivity|].
  injection H as H. cbn [app accepted]. destruct c as [n|]; [|apply IH; exact H].
  destruct ((0 <? length d)%nat && (n =? length d)%nat); [cbn [app]; f_equal|]; apply IH; exact H.
Qed.

Definition mt_sent (ops : list (handler * list (list Z))) : list (list Z) := map (fun o => concat (snd o)) ops.

Lemma mt_run_inv crc maxw ops : forall out acc sep t,
  mt_inv crc maxw out acc sep t ->
  (forall o, In o ops -> forall d, fst o d <> None) ->
  exists t' w rs sep', mt_run t ops = Some (t', w, rs) /\ length rs = length ops /\ ~ In MtErr rs /\
    mt_inv crc maxw (out ++ w) (acc ++ accepted (mt_sent ops) (map rc rs)) sep' t' /\
    (acc <> [] -> sep' = sep) /\
    (first_not_refused (mt_sent ops) (map rc rs) -> sep' = sep).
Proof.
  induction ops as [|[h sg] ops IH]; intros out acc sep t Hinv Hh.
  - exists t, [], [], sep. cbn [mt_run mt_sent map accepted length first_not_refused]. rewrite !app_nil_r.
    split; [reflexivity|]. split; [reflexivity|]. split; [intros []|]. auto.
  - cbn [mt_run]. destruct (mt_write_inv crc maxw out acc sep t h sg Hinv) as (t1 & r & w & E & H).
    rewrite E. cbn [obind].
    destruct H as [->|(sep1 & Hinv1 & Hr & Hs1 & Hs2 & _)].
    { exfalso. clear IH. specialize (Hh (h, sg) (or_introl eq_refl)). cbn [fst] in Hh.
      assert (Hp : forall t0 n t' w', mt_push h t0 n = Some (t', MtErr, w') -> False).
      { intros t0 n t' w' Hp. unfold mt_push in Hp. destruct (mt_out t0); [|discriminate].
        destruct (mread _ _ _) as [d|]; [|discriminate]. cbn [obind] in Hp.
        specialize (Hh d). destruct (h d); [|congruence].
        destruct (_ <=? _)%nat; discriminate. }
      unfold mt_write in E. destruct (mt_out t); [eapply Hp; exact E|].
      destruct (mt_copysg _ _ _ _ _ _) as [[[[[st up] cr] wl]|]|]; try discriminate. cbn [obind] in E.
      destruct (0 <? up)%nat; [|eapply Hp; exact E].
      destruct (if mt_crc t then _ else _) as [st1|]; [|discriminate]. cbn [obind] in E.
      destruct (mset _ _ _); [|discriminate]. cbn [obind] in E.
      destruct (mset _ _ _); [|discriminate]. cbn [obind] in E. eapply Hp; exact E. }
    destruct (IH (out ++ w) (acc ++ accepted [concat sg] [rc r]) sep1 t1 Hinv1) as (t2 & w2 & rs & sep2 & E2 & Hl & He & Hinv2 & Hs3 & Hs4).
    { intros o Ho. apply Hh. right. exact Ho. }
    rewrite E2. cbn [obind]. exists t2, (w ++ w2), (r :: rs), sep2. split; [reflexivity|].
    split; [cbn [length]; lia|]. split; [intros [?|?]; [congruence|auto]|].
    cbn [mt_sent map]. fold (mt_sent ops).
    change (accepted (concat (snd (h, sg)) :: mt_sent ops) (rc r :: map rc rs)) with
      (accepted ([concat sg] ++ mt_sent ops) ([rc r] ++ map rc rs)).
    rewrite accepted_app by reflexivity. rewrite !app_assoc in *. split; [exact Hinv2|].
    split.
    + intros Ha. rewrite Hs3 by (intros Hx; apply app_eq_nil in Hx; tauto). apply Hs2. exact Ha.
    + cbn [first_not_refused snd]. intros Hf.
      destruct acc as [|a0 acc0].
      2:{ rewrite Hs3 by discriminate. apply Hs2. discriminate. }
      destruct (rc r) as [n|] eqn:Er; [|destruct Hf].
      destruct ((0 <? length (concat sg))%nat && (n =? length (concat sg))%nat) eqn:Eb.
      * rewrite Hs3 by (cbn [accepted app]; rewrite Eb; discriminate). apply Hs1; [reflexivity|].
        cbn [first_not_refused]. rewrite Eb. exact I.
      * rewrite Hs4 by exact Hf. apply Hs1; [reflexivity|]. cbn [first_not_refused]. rewrite Eb. exact I.
Qed.
