(** Decoding arbitrary packets. *)
From Verif Require Import Base Mem_Proofs Crc_Proofs Ax25a_Model Ax25a_Spec Ax25a_Proofs.
Open Scope Z_scope.

Lemma skipn_cons_nth {A} (l : list A) i d : (i < length l)%nat -> skipn i l = nth i l d :: skipn (S i) l.
Proof.
  revert i. induction l as [|a l IH]; intros i H; [cbn in H; lia|]. destruct i; [reflexivity|].
  cbn [skipn nth]. apply IH. cbn [length] in H. lia.
Qed.

Lemma mget_nth (l : list Z) i : (i < length l)%nat -> mget l i = Some (nth i l 0).
Proof. intros H. unfold mget. apply nth_error_nth'. exact H. Qed.

Lemma dec_chars_total n : forall data pos, (pos + n <= length data)%nat ->
  exists r, dec_chars data pos n = Some r /\
    match r with
    | None => True
    | Some cs => cs = map dec1 (firstn n (skipn pos data)) /\
        Forall (fun b => Z.odd b = false) (firstn n (skipn pos data))
    end.
Proof.
  induction n as [|n IH]; intros data pos H; cbn [dec_chars].
  - exists (Some []). split; [reflexivity|]. cbn. auto.
  - rewrite mget_nth by lia. cbn [obind]. rewrite odd0.
    destruct (Z.odd (nth pos data 0)) eqn:E; [exists None; auto|].
    destruct (IH data (S pos)) as (r & -> & Hr); [lia|]. cbn [obind].
    rewrite (skipn_cons_nth data pos 0) by lia. cbn [firstn map].
    destruct r as [cs|]; eexists; (split; [reflexivity|]); [|exact I].
    destruct Hr as [-> Hr]. rewrite Z.shiftr_div_pow2 by lia. split; [reflexivity|]. constructor; assumption.
Qed.

Lemma land159 b : is_byte b ->
  2 * Z.land (Z.shiftr b 1) 15 + 128 * Z.land (Z.shiftr b 7) 1 + (if Z.testbit b 0 then 1 else 0) = Z.land b 159.
Proof.
  intros H. apply Z.eqb_eq.
  apply (all_below_spec 256 (fun b => 2 * Z.land (Z.shiftr b 1) 15 + 128 * Z.land (Z.shiftr b 7) 1 +
    (if Z.testbit b 0 then 1 else 0) =? Z.land b 159)); [vm_compute; reflexivity|exact H].
Qed.

Lemma renames l : Forall (fun b => Z.odd b = false) l -> bytes_ok l ->
  map (fun c => if c =? 0 then 64 else 2 * c) (map dec1 l) = map (fun b => if b =? 0 then 64 else b) l.
Proof.
  intros H Hb. rewrite map_map. apply map_ext_in. intros b Hin. rewrite Forall_forall in H. specialize (H b Hin).
  unfold bytes_ok in Hb. rewrite Forall_forall in Hb. specialize (Hb b Hin). unfold is_byte in Hb.
  rewrite Z.odd_spec in H || idtac.
  assert (E : b = 2 * (b / 2)).
  { pose proof (Zdiv2_odd_eqn b) as Q. rewrite H in Q. rewrite Z.div2_div in Q. lia. }
  unfold dec1. destruct (b / 2 =? 32) eqn:E1.
  - replace (0 =? 0) with true by lia. replace (b =? 0) with false by lia. lia.
  - destruct (b / 2 =? 0) eqn:E2; [replace (b =? 0) with true by lia; reflexivity|].
    replace (b =? 0) with false by lia. lia.
Qed.

(** What a successfully decoded address satisfies *)
Definition decoded (data : list Z) (pos : nat) (f : Z) (a : subaddr) : Prop :=
  length (sa_call a) = 7%nat /\ nth 6 (sa_call a) 1 = 0 /\ fields_ok a /\
  (bytes_ok data -> ws f a = plain7 (firstn 7 (skipn pos data))).

Lemma land_small x n : 0 < n -> 0 <= Z.land x (2 ^ n - 1) < 2 ^ n.
Proof.
  intros H. replace (2 ^ n - 1) with (Z.ones n) by (rewrite Z.ones_equiv; lia). rewrite Z.land_ones by lia.
  apply Z.mod_pos_bound. lia.
Qed.

Lemma decode_sub_total data pos len : (pos <= len)%nat -> (len <= length data)%nat -> Z.of_nat len < 2 ^ 64 ->
  exists r, decode_subaddr data pos len = Some r /\
    match r with
    | SInval => True
    | SOk a p => p = (pos + 7)%nat /\ (p <= len)%nat /\ decoded data pos 0 a
    | SLast a p => p = (pos + 7)%nat /\ (p <= len)%nat /\ decoded data pos 1 a
    end.
Proof.
  intros H1 H2 H3. unfold decode_subaddr. rewrite Z.mod_small by lia.
  destruct (Z.of_nat len - Z.of_nat pos <? 7) eqn:E; [exists SInval; auto|].
  destruct (dec_chars_total 6 data pos) as (r & -> & Hr); [lia|]. cbn [obind].
  destruct r as [cs|]; [|exists SInval; auto]. destruct Hr as [Hr He].
  rewrite mget_nth by lia. cbn [obind]. set (b := nth (pos + 6) data 0) in *.
  assert (L6 : length cs = 6%nat) by (rewrite Hr, map_length, firstn_length, skipn_length; lia).
  assert (D : forall f, f = (if Z.testbit b 0 then 1 else 0) ->
    decoded data pos f (mksa (cs ++ [0]) (Z.land (Z.shiftr b 1) 15) (Z.land (Z.shiftr b 7) 1)
                      (Z.land (Z.shiftr b 5) 1) (Z.land (Z.shiftr b 6) 1) 1)).
  { intros f Hf. split; [cbn [sa_call]; rewrite app_length, L6; reflexivity|].
    split; [cbn [sa_call]; rewrite app_nth2 by lia; rewrite L6; reflexivity|].
    split. { split; cbn [sa_ssid sa_ch]; [apply (land_small _ 4)|apply (land_small _ 1)]; lia. }
    intros Hb. unfold ws, plain7. cbn [sa_call sa_ssid sa_ch].
    assert (B : is_byte b).
    { unfold bytes_ok in Hb. rewrite Forall_forall in Hb. apply Hb. apply nth_In. lia. }
    rewrite Hf, land159 by exact B.
    rewrite firstn_app_le, firstn_all2 by lia. rewrite Hr, renames.
    - rewrite firstn_firstn. change (Nat.min 6 7) with 6%nat. f_equal. f_equal. f_equal.
      rewrite nth_firstn_lt by lia. rewrite nth_skipn. reflexivity.
    - exact He.
    - apply Forall_forall. intros x Hx. unfold bytes_ok in Hb. rewrite Forall_forall in Hb. apply Hb.
      rewrite <- (firstn_skipn pos data). apply in_or_app. right. rewrite <- (firstn_skipn 6 (skipn pos data)).
      apply in_or_app. left. exact Hx. }
  destruct (Z.testbit b 0); eexists; (split; [reflexivity|]); cbn beta iota;
    (split; [reflexivity|]; split; [lia|apply D; reflexivity]).
Qed.

Lemma wires_cons a l : l <> [] -> wires (a :: l) = ws 0 a ++ wires l.
Proof.
  intros H. destruct l as [|b l]; [contradiction|]. unfold wires.
  change (removelast (a :: b :: l)) with (a :: removelast (b :: l)). cbn [map concat].
  rewrite <- app_assoc. reflexivity.
Qed.

Definition sub_fields (a : subaddr) : Prop :=
  length (sa_call a) = 7%nat /\ nth 6 (sa_call a) 1 = 0 /\ fields_ok a.

Lemma decode_extras_total k : forall data pos len acc, (pos <= len)%nat -> (len <= length data)%nat -> Z.of_nat len < 2 ^ 64 ->
  exists r, decode_extras k data pos len acc = Some r /\
    match r with
    | None => True
    | Some (l, p) => exists e, l = acc ++ e /\ e <> [] /\ (length e <= k)%nat /\ Forall sub_fields e /\
        p = (pos + 7 * length e)%nat /\ (p <= len)%nat /\
        (bytes_ok data -> wires e = plain (length e) (skipn pos data))
    end.
Proof.
  induction k as [|k IH]; intros data pos len acc H1 H2 H3; cbn [decode_extras]; [exists None; auto|].
  destruct (decode_sub_total data pos len H1 H2 H3) as (r & -> & Hr). cbn [obind].
  destruct r as [|a p|a p]; [exists None; auto| |].
  - destruct Hr as (-> & Hp & D). destruct (IH data (pos + 7)%nat len (acc ++ [a]) Hp H2 H3) as (r & -> & Hr).
    exists r. split; [reflexivity|]. destruct r as [[l p]|]; [|exact I].
    destruct Hr as (e & -> & Ne & Le & Fe & -> & Hp2 & W). exists (a :: e). rewrite <- app_assoc.
    split; [reflexivity|]. split; [discriminate|]. cbn [length]. split; [lia|].
    destruct D as (D1 & D2 & D3 & D4). split; [constructor; [repeat split; auto; apply D3|exact Fe]|].
    split; [lia|]. split; [lia|]. intros Hb. rewrite wires_cons by exact Ne. cbn [plain].
    rewrite D4, W by exact Hb. rewrite skipn_skipn_add. reflexivity.
  - destruct Hr as (-> & Hp & D). eexists. split; [reflexivity|]. cbn beta iota. exists [a].
    destruct D as (D1 & D2 & D3 & D4).
    split; [reflexivity|]. split; [discriminate|]. cbn [length]. split; [lia|].
    split; [constructor; [repeat split; auto; apply D3|constructor]|]. split; [lia|]. split; [lia|].
    intros Hb. unfold wires. cbn [removelast map concat last app plain]. rewrite D4 by exact Hb.
    rewrite app_nil_r. reflexivity.
Qed.

Lemma decode_total data pos len port : (pos <= len)%nat -> (len <= length data)%nat -> Z.of_nat len < 2 ^ 64 ->
  exists r, decode_addr data pos len port = Some r /\
    forall a p, r = DOk a p ->
      xa_port a = port mod 256 /\ all_subs sub_fields a /\
      p = (pos + 7 * length (subs a))%nat /\ (p <= len)%nat /\
      (bytes_ok data -> wires (subs a) = plain (length (subs a)) (skipn pos data)).
Proof.
  intros H1 H2 H3. unfold decode_addr.
  destruct (decode_sub_total data pos len H1 H2 H3) as (r & -> & Hr). cbn [obind].
  destruct r as [|d p|d p]; [eexists; split; [reflexivity|discriminate]| |eexists; split; [reflexivity|discriminate]].
  destruct Hr as (-> & Hp & D1 & D2 & D3 & D4).
  destruct (decode_sub_total data (pos + 7) len Hp H2 H3) as (r & -> & Hr). cbn [obind].
  destruct r as [|s p|s p]; [eexists; split; [reflexivity|discriminate]| |].
  - destruct Hr as (-> & Hp2 & E1 & E2 & E3 & E4).
    destruct (decode_extras_total max_extra data (pos + 7 + 7) len [] Hp2 H2 H3) as (r & -> & Hr). cbn [obind].
    destruct r as [[l p]|]; [|eexists; split; [reflexivity|discriminate]].
    eexists. split; [reflexivity|]. intros a p' E.
    assert (a = mkxa (port mod 256) d s l) by congruence. assert (p' = p) by congruence. subst a p'. clear E.
    destruct Hr as (e & -> & Ne & Le & Fe & -> & Hp3 & W). cbn [app]. unfold subs. cbn [xa_port xa_dest xa_src xa_extra].
    split; [reflexivity|]. split; [repeat split; auto; try apply D3; apply E3|].
    split; [cbn [length]; lia|]. split; [lia|]. intros Hb.
    rewrite wires_cons by discriminate. rewrite wires_cons by exact Ne.
    rewrite D4, E4, W by exact Hb. cbn [length plain]. rewrite !skipn_skipn_add. reflexivity.
  - destruct Hr as (-> & Hp2 & E1 & E2 & E3 & E4).
    eexists. split; [reflexivity|]. intros a p' E.
    assert (a = mkxa (port mod 256) d s []) by congruence. assert (p' = (pos + 7 + 7)%nat) by congruence. subst a p'. clear E.
    unfold subs. cbn [xa_port xa_dest xa_src xa_extra].
    split; [reflexivity|]. split; [repeat split; auto; try apply D3; try apply E3; cbn [xa_extra length]; auto; lia|].
    split; [cbn [length]; lia|]. split; [lia|]. intros Hb.
    rewrite wires_cons by discriminate. unfold wires at 1. cbn [removelast map concat last app].
    rewrite D4, E4 by exact Hb. cbn [length plain]. rewrite !skipn_skipn_add, app_nil_r. reflexivity.
Qed.

Lemma reencode data pos len port a p buf : (pos <= len)%nat -> (len <= length data)%nat -> Z.of_nat len < 2 ^ 64 ->
  bytes_ok data -> decode_addr data pos len port = Some (DOk a p) -> all_subs wire_sub a ->
  (p - pos <= length buf)%nat ->
  addr_encode buf a = Some (plain (length (subs a)) (skipn pos data) ++ skipn (p - pos) buf, (p - pos)%nat).
Proof.
  intros H1 H2 H3 Hb E W Hbuf. destruct (decode_total data pos len port H1 H2 H3) as (r & E' & Hr).
  assert (r = DOk a p) by congruence. subst r. destruct (Hr a p eq_refl) as (_ & _ & Hp & Hl & HW).
  replace (p - pos)%nat with (7 * length (subs a))%nat in * by lia.
  rewrite addr_encode_ok by assumption. rewrite HW by exact Hb. reflexivity.
Qed.
