(** The wire form of AX.25 addresses. *)
From Verif Require Import Base Mem_Proofs Ax25a_Model Ax25a_Spec.
Open Scope Z_scope.

(** The seven bytes of an address; [f] is the mark of the last one *)
Definition ws (f : Z) (a : subaddr) : list Z :=
  map (fun c => if c =? 0 then 64 else 2 * c) (firstn 6 (sa_call a)) ++ [2 * sa_ssid a + 128 * sa_ch a + f].

Lemma holds_len call cs : holds call cs -> (length cs <= 6)%nat -> length call = 7%nat.
Proof. intros -> H. rewrite app_length, repeat_length. lia. Qed.

Lemma holds_6 call cs : holds call cs -> (length cs <= 6)%nat -> firstn 6 call = cs ++ repeat 0 (6 - length cs).
Proof.
  intros -> H. rewrite firstn_app, firstn_all2 by lia. f_equal.
  replace (7 - length cs)%nat with ((6 - length cs) + 1)%nat by lia. rewrite repeat_app.
  rewrite firstn_app_le by (rewrite repeat_length; lia). rewrite firstn_all2; [reflexivity|].
  rewrite repeat_length. lia.
Qed.

Lemma enc_zeros n : enc_chars (repeat 0 n) = Some (repeat 64 n).
Proof.
  destruct n; [reflexivity|]. cbn [repeat enc_chars]. rewrite Z.eqb_refl.
  rewrite repeat_length. reflexivity.
Qed.

Lemma enc_chars_ok cs n : Forall (fun c => 1 <= c < 128 /\ c <> 32) cs ->
  enc_chars (cs ++ repeat 0 n) = Some (map (fun c => if c =? 0 then 64 else 2 * c) (cs ++ repeat 0 n)).
Proof.
  induction 1 as [|c cs Hc H IH]; cbn [app].
  - rewrite enc_zeros. f_equal. induction n; cbn [repeat map]; [reflexivity|]. rewrite <- IHn. reflexivity.
  - cbn [enc_chars map]. replace (c =? 0) with false by lia.
    replace (c <? 128) with true by lia. cbn [guard obind]. rewrite IH. cbn [obind].
    rewrite Z.shiftl_mul_pow2 by lia. rewrite Z.mod_small by lia. do 2 f_equal. lia.
Qed.

Lemma last_byte s c : 0 <= s < 16 -> 0 <= c < 2 ->
  Z.lor (Z.shiftl s 1) (Z.shiftl c 7) mod 256 = 2 * s + 128 * c.
Proof.
  intros Hs Hc.
  assert (C : c = 0 \/ c = 1) by lia.
  assert (S : s = 0 \/ s = 1 \/ s = 2 \/ s = 3 \/ s = 4 \/ s = 5 \/ s = 6 \/ s = 7 \/ s = 8 \/ s = 9 \/
    s = 10 \/ s = 11 \/ s = 12 \/ s = 13 \/ s = 14 \/ s = 15) by lia.
  destruct C as [->| ->]; repeat (destruct S as [->|S]; [reflexivity|]); subst s; reflexivity.
Qed.

Lemma enc_sub_ok a : wire_sub a -> encode_subaddr a = Some (ws 0 a).
Proof.
  intros ((cs & (L & F) & Hh) & Hs & Hc). unfold encode_subaddr.
  pose proof (holds_len _ _ Hh L) as L7. rewrite mread_some by lia. cbn [obind skipn].
  unfold ws. rewrite (holds_6 _ _ Hh L), enc_chars_ok by exact F. cbn [obind].
  rewrite last_byte by assumption. rewrite Z.add_0_r. reflexivity.
Qed.

Lemma wire_len7 a : wire_sub a -> length (sa_call a) = 7%nat.
Proof. intros ((cs & (L & F) & Hh) & _). eapply holds_len; eauto. Qed.

Lemma ws_len f a : wire_sub a -> length (ws f a) = 7%nat.
Proof.
  intros H. unfold ws. rewrite app_length, map_length, firstn_length, (wire_len7 _ H). reflexivity.
Qed.

Lemma ws_bytes f a : wire_sub a -> 0 <= f < 2 -> bytes_ok (ws f a).
Proof.
  intros ((cs & (L & F) & Hh) & Hs & Hc) Hf. unfold ws. rewrite (holds_6 _ _ Hh L). apply Forall_app. split.
  - rewrite map_app. apply Forall_app. split.
    + apply Forall_map. eapply Forall_impl; [|exact F]. cbn beta. intros c Q. unfold is_byte.
      destruct (c =? 0); lia.
    + apply Forall_map, Forall_forall. intros x Hx. apply repeat_spec in Hx. subst x. cbn. unfold is_byte. lia.
  - constructor; [|constructor]. unfold is_byte. lia.
Qed.

(** ** Encoding into memory *)
Lemma mwrite_at (p d r : list Z) : (length d <= length r)%nat ->
  mwrite (p ++ r) (length p) d = Some (p ++ d ++ skipn (length d) r).
Proof.
  intros H. unfold mwrite. rewrite app_length.
  replace (length p + length d <=? length p + length r)%nat with true by lia.
  rewrite firstn_app_exact. rewrite skipn_app, skipn_all2 by lia. cbn [app].
  replace (length p + length d - length p)%nat with (length d) by lia. reflexivity.
Qed.

Lemma enc_extras_ok l : forall p r, Forall wire_sub l -> (7 * length l <= length r)%nat ->
  encode_extras (p ++ r) (length p) l =
    Some (p ++ concat (map (ws 0) l) ++ skipn (7 * length l) r, (length p + 7 * length l)%nat).
Proof.
  induction l as [|a l IH]; intros p r H Hr.
  - cbn [encode_extras map concat length app]. rewrite Nat.mul_0_r, Nat.add_0_r. reflexivity.
  - cbn [encode_extras length] in *. pose proof (Forall_inv H) as Ha.
    rewrite (enc_sub_ok _ Ha). cbn [obind]. rewrite mwrite_at by (rewrite ws_len by exact Ha; lia).
    cbn [obind]. rewrite app_assoc.
    replace (length p + 7)%nat with (length (p ++ ws 0 a)) by (rewrite app_length, ws_len by exact Ha; reflexivity).
    rewrite IH; [|exact (Forall_inv_tail H)|rewrite skipn_length, ws_len by exact Ha; lia].
    rewrite skipn_skipn_add, app_length, ws_len by exact Ha. cbn [map concat].
    rewrite <- !app_assoc. f_equal. f_equal; [|lia].
    do 3 f_equal. f_equal. lia.
Qed.

(** all addresses of [l], the last one marked *)
Definition wires (l : list subaddr) : list Z :=
  concat (map (ws 0) (removelast l)) ++ ws 1 (last l zsub).

Lemma concat7 l f : Forall wire_sub l -> length (concat (map (ws f) l)) = (7 * length l)%nat.
Proof.
  induction 1; cbn [map concat length]; [reflexivity|]. rewrite app_length, ws_len by assumption. lia.
Qed.

Lemma wires_snoc l a : wires (l ++ [a]) = concat (map (ws 0) l) ++ ws 1 a.
Proof. unfold wires. rewrite removelast_last, last_last. reflexivity. Qed.

Lemma lor1 s c : 0 <= s < 16 -> 0 <= c < 2 -> Z.lor (2 * s + 128 * c + 0) 1 = 2 * s + 128 * c + 1.
Proof.
  intros Hs Hc.
  assert (C : c = 0 \/ c = 1) by lia.
  assert (S : s = 0 \/ s = 1 \/ s = 2 \/ s = 3 \/ s = 4 \/ s = 5 \/ s = 6 \/ s = 7 \/ s = 8 \/ s = 9 \/
    s = 10 \/ s = 11 \/ s = 12 \/ s = 13 \/ s = 14 \/ s = 15) by lia.
  destruct C as [->| ->]; repeat (destruct S as [->|S]; [reflexivity|]); subst s; reflexivity.
Qed.

Lemma mark_last l a (r : list Z) : Forall wire_sub (l ++ [a]) ->
  let buf := concat (map (ws 0) (l ++ [a])) ++ r in
  let len := (7 * length (l ++ [a]))%nat in
  exists b, mget buf (len - 1) = Some b /\ mset buf (len - 1) (Z.lor b 1) = Some (wires (l ++ [a]) ++ r).
Proof.
  intros H buf len. apply Forall_app in H as [Hl Ha]. apply Forall_inv in Ha.
  pose proof Ha as (_ & Hs & Hc).
  set (w6 := map (fun c => if c =? 0 then 64 else 2 * c) (firstn 6 (sa_call a))).
  assert (L6 : length w6 = 6%nat).
  { unfold w6. rewrite map_length, firstn_length, (wire_len7 _ Ha). reflexivity. }
  set (pre := concat (map (ws 0) l) ++ w6).
  assert (B : buf = pre ++ (2 * sa_ssid a + 128 * sa_ch a + 0) :: r).
  { unfold buf, pre. rewrite map_app, concat_app. cbn [map concat]. rewrite app_nil_r.
    change (ws 0 a) with (w6 ++ [2 * sa_ssid a + 128 * sa_ch a + 0]).
    rewrite <- !app_assoc. reflexivity. }
  assert (LL : (len - 1)%nat = length pre).
  { unfold len, pre. rewrite !app_length, concat7, L6 by exact Hl. cbn [length]. lia. }
  exists (2 * sa_ssid a + 128 * sa_ch a + 0). rewrite LL, B. split; [apply mget_app_mid|].
  rewrite mset_app_mid, lor1 by assumption. rewrite wires_snoc. unfold pre.
  change (ws 1 a) with (w6 ++ [2 * sa_ssid a + 128 * sa_ch a + 1]).
  rewrite <- !app_assoc. reflexivity.
Qed.

Definition subs (a : xaddr) : list subaddr := xa_dest a :: xa_src a :: xa_extra a.

Lemma addr_encode_ok a buf : all_subs wire_sub a -> (7 * length (subs a) <= length buf)%nat ->
  addr_encode buf a = Some (wires (subs a) ++ skipn (7 * length (subs a)) buf, (7 * length (subs a))%nat).
Proof.
  intros (Hd & Hs & He & Hl) Hb. unfold addr_encode, max_extra.
  replace (length (xa_extra a) <=? 8)%nat with true by lia. cbn [guard obind].
  unfold subs in *. cbn [length] in Hb. set (n := length (xa_extra a)) in *.
  rewrite (enc_sub_ok _ Hd). cbn [obind].
  change (mwrite buf 0 (ws 0 (xa_dest a))) with (mwrite ([] ++ buf) (length (@nil Z)) (ws 0 (xa_dest a))).
  rewrite mwrite_at by (rewrite ws_len by exact Hd; lia). cbn [app obind].
  rewrite (enc_sub_ok _ Hs). cbn [obind].
  assert (L7 : 7%nat = length (ws 0 (xa_dest a))) by (rewrite ws_len by exact Hd; reflexivity).
  match goal with |- context [mwrite ?b 7 ?d] => replace (mwrite b 7 d) with (mwrite b (length (ws 0 (xa_dest a))) d) by (rewrite <- L7; reflexivity) end.
  rewrite mwrite_at by (rewrite skipn_length, ws_len, <- L7 by exact Hs; lia). cbn [obind].
  rewrite !app_assoc.
  set (p := ws 0 (xa_dest a) ++ ws 0 (xa_src a)).
  assert (LP : length p = 14%nat) by (unfold p; rewrite app_length, !ws_len by assumption; reflexivity).
  rewrite skipn_skipn_add, (ws_len 0 _ Hd), (ws_len 0 _ Hs). change (7 + 7)%nat with 14%nat.
  assert (EE := enc_extras_ok (xa_extra a) p (skipn 14 buf) He). rewrite LP in EE.
  rewrite EE by (rewrite skipn_length; fold n; lia). cbn [obind]. fold n.
  rewrite skipn_skipn_add.
  destruct (@exists_last _ (xa_dest a :: xa_src a :: xa_extra a)) as (l & z & Q); [discriminate|].
  assert (FW : Forall wire_sub (l ++ [z])) by (rewrite <- Q; auto).
  assert (LN : (14 + 7 * n)%nat = (7 * length (l ++ [z]))%nat) by (rewrite <- Q; cbn [length]; fold n; lia).
  destruct (mark_last l z (skipn (14 + 7 * n) buf) FW) as (b & B1 & B2). rewrite <- LN, <- Q in B1, B2.
  cbn [map concat] in B1, B2. rewrite <- !app_assoc in B1, B2.
  unfold p. rewrite <- !app_assoc. rewrite B1. cbn [obind]. rewrite B2. cbn [obind].
  replace (7 * length (xa_dest a :: xa_src a :: xa_extra a))%nat with (14 + 7 * n)%nat by (cbn [length]; fold n; lia).
  reflexivity.
Qed.

Lemma wires_len a : all_subs wire_sub a -> length (wires (subs a)) = (7 * length (subs a))%nat /\ bytes_ok (wires (subs a)).
Proof.
  intros (Hd & Hs & He & Hl).
  assert (F : Forall wire_sub (subs a)) by (unfold subs; auto).
  destruct (@exists_last _ (subs a)) as (l & z & Q); [discriminate|]. rewrite Q in *.
  rewrite wires_snoc. apply Forall_app in F as [F1 F2]. apply Forall_inv in F2. split.
  - rewrite !app_length, concat7, ws_len by assumption. cbn [length]. lia.
  - apply Forall_app. split; [|apply ws_bytes; [exact F2|lia]].
    clear Q. induction F1; cbn [map concat]; [constructor|]. apply Forall_app. split; [apply ws_bytes; [assumption|lia]|auto].
Qed.

(** ** Decoding *)
Definition dec1 (b : Z) : Z := if b / 2 =? 32 then 0 else b / 2.

Lemma odd0 b : Z.testbit b 0 = Z.odd b.
Proof. apply Z.bit0_odd. Qed.

Lemma dec_chars_ok l : forall pre post, Forall (fun b => Z.odd b = false) l ->
  dec_chars (pre ++ l ++ post) (length pre) (length l) = Some (Some (map dec1 l)).
Proof.
  induction l as [|b l IH]; intros pre post H; cbn [length dec_chars map app]; [reflexivity|].
  rewrite mget_app_mid. cbn [obind]. rewrite odd0, (Forall_inv H).
  specialize (IH (pre ++ [b]) post (Forall_inv_tail H)). rewrite app_length in IH. cbn [length] in IH.
  rewrite <- app_assoc in IH. replace (length pre + 1)%nat with (S (length pre)) in IH by lia. cbn [app] in IH.
  rewrite IH. cbn [obind]. rewrite Z.shiftr_div_pow2 by lia. reflexivity.
Qed.

Definition norm (a : subaddr) : subaddr := mksa (sa_call a) (sa_ssid a) (sa_ch a) 0 0 1.

Lemma land15 x : Z.land x 15 = x mod 16.
Proof. change 15 with (Z.ones 4). rewrite Z.land_ones by lia. reflexivity. Qed.
Lemma land1 x : Z.land x 1 = x mod 2.
Proof. change 1 with (Z.ones 1). rewrite Z.land_ones by lia. reflexivity. Qed.

Lemma names_even cs n : Forall (fun b => Z.odd b = false) (map (fun c => if c =? 0 then 64 else 2 * c) (cs ++ repeat 0 n)).
Proof.
  apply Forall_map, Forall_forall. intros c _. destruct (c =? 0); [reflexivity|]. apply Z.odd_mul.
Qed.

Lemma names_dec cs n : Forall (fun c => 1 <= c < 128 /\ c <> 32) cs ->
  map dec1 (map (fun c => if c =? 0 then 64 else 2 * c) (cs ++ repeat 0 n)) = cs ++ repeat 0 n.
Proof.
  intros H. rewrite map_map, map_app. f_equal.
  - induction H as [|c cs Hc H IH]; [reflexivity|]. cbn [map]. rewrite IH. f_equal.
    unfold dec1. replace (c =? 0) with false by lia.
    replace (2 * c / 2) with c by (rewrite Z.mul_comm, Z.div_mul; lia).
    replace (c =? 32) with false by lia. reflexivity.
  - induction n; cbn [repeat map]; [reflexivity|]. rewrite IHn. reflexivity.
Qed.

Lemma decode_sub_ok a f pre post len : wire_sub a -> 0 <= f < 2 ->
  (length pre + 7 <= len)%nat -> Z.of_nat len < 2 ^ 64 ->
  decode_subaddr (pre ++ ws f a ++ post) (length pre) len =
    Some (if f =? 1 then SLast (norm a) (length pre + 7) else SOk (norm a) (length pre + 7)).
Proof.
  intros ((cs & (L & F) & Hh) & Hs & Hc) Hf H1 H2. unfold decode_subaddr.
  rewrite Z.mod_small by lia. replace (Z.of_nat len - Z.of_nat (length pre) <? 7) with false by lia.
  unfold ws. rewrite (holds_6 _ _ Hh L).
  set (w := map (fun c => if c =? 0 then 64 else 2 * c) (cs ++ repeat 0 (6 - length cs))).
  assert (L6 : length w = 6%nat) by (unfold w; rewrite map_length, app_length, repeat_length; lia).
  rewrite <- app_assoc. rewrite <- L6 at 1. rewrite dec_chars_ok by apply names_even. cbn [obind].
  replace (map dec1 w) with (cs ++ repeat 0 (6 - length cs)) by (symmetry; apply names_dec; exact F).
  replace (length pre + 6)%nat with (length (pre ++ w)) by (rewrite app_length; lia).
  rewrite (app_assoc pre). cbn [app]. rewrite mget_app_mid. cbn [obind].
  set (b := 2 * sa_ssid a + 128 * sa_ch a + f).
  rewrite !land15, !land1, !Z.shiftr_div_pow2, odd0 by lia.
  change (2 ^ 1) with 2. change (2 ^ 7) with 128. change (2 ^ 5) with 32. change (2 ^ 6) with 64.
  replace (b / 2) with (sa_ssid a + 64 * sa_ch a) by (unfold b; apply (Z.div_unique _ 2 _ f); lia).
  replace ((sa_ssid a + 64 * sa_ch a) mod 16) with (sa_ssid a) by (apply (Z.mod_unique _ 16 (4 * sa_ch a)); lia).
  replace (b / 128) with (sa_ch a) by (unfold b; apply (Z.div_unique _ 128 _ (2 * sa_ssid a + f)); lia).
  rewrite (Z.mod_small (sa_ch a)) by lia.
  replace (b / 32) with (4 * sa_ch a) by (unfold b; apply (Z.div_unique _ 32 _ (2 * sa_ssid a + f)); lia).
  replace (b / 64) with (2 * sa_ch a) by (unfold b; apply (Z.div_unique _ 64 _ (2 * sa_ssid a + f)); lia).
  replace ((4 * sa_ch a) mod 2) with 0 by (apply (Z.mod_unique _ 2 (2 * sa_ch a)); lia).
  replace ((2 * sa_ch a) mod 2) with 0 by (apply (Z.mod_unique _ 2 (sa_ch a)); lia).
  assert (N : mksa ((cs ++ repeat 0 (6 - length cs)) ++ [0]) (sa_ssid a) (sa_ch a) 0 0 1 = norm a).
  { unfold norm. f_equal. rewrite Hh, <- app_assoc. f_equal.
    replace (7 - length cs)%nat with ((6 - length cs) + 1)%nat by lia. rewrite repeat_app. reflexivity. }
  rewrite N. replace (Z.odd b) with (f =? 1); [reflexivity|].
  unfold b. rewrite !Z.odd_add, !Z.odd_mul. cbn [Z.odd andb xorb].
  assert (Q : f = 0 \/ f = 1) by lia. destruct Q as [->| ->]; reflexivity.
Qed.

Lemma decode_extras_ok l : forall k a pre post len acc, Forall wire_sub l -> wire_sub a ->
  (length l < k)%nat -> (length pre + 7 * (length l + 1) <= len)%nat -> Z.of_nat len < 2 ^ 64 ->
  decode_extras k (pre ++ concat (map (ws 0) l) ++ ws 1 a ++ post) (length pre) len acc =
    Some (Some (acc ++ map norm (l ++ [a]), (length pre + 7 * (length l + 1))%nat)).
Proof.
  induction l as [|x l IH]; intros k a pre post len acc Hl Ha Hk H1 H2; destruct k as [|k]; [cbn [length] in Hk; lia| |cbn [length] in Hk; lia|].
  - cbn [decode_extras map concat app length]. rewrite decode_sub_ok; [|assumption|lia|cbn [length] in H1; lia|assumption].
    cbn [Z.eqb Pos.eqb obind]. reflexivity.
  - cbn [decode_extras map concat app length] in *. rewrite <- app_assoc.
    rewrite decode_sub_ok; [|exact (Forall_inv Hl)|lia|lia|assumption].
    cbn [Z.eqb obind]. pose proof (ws_len 0 _ (Forall_inv Hl)) as L7.
    specialize (IH k a (pre ++ ws 0 x) post len (acc ++ [norm x]) (Forall_inv_tail Hl) Ha).
    rewrite app_length, L7 in IH. rewrite <- !app_assoc in IH. rewrite IH by lia.
    cbn [app]. do 2 f_equal. f_equal. lia.
Qed.

Lemma same_norm a : same_sub (norm a) a.
Proof. repeat split. Qed.

Lemma decode_wires a pre post port : all_subs wire_sub a ->
  Z.of_nat (length (pre ++ wires (subs a) ++ post)) < 2 ^ 64 ->
  decode_addr (pre ++ wires (subs a) ++ post) (length pre) (length (pre ++ wires (subs a) ++ post)) port =
    Some (DOk (mkxa (port mod 256) (norm (xa_dest a)) (norm (xa_src a)) (map norm (xa_extra a)))
              (length pre + length (wires (subs a)))).
Proof.
  intros H Hlen. pose proof H as (Hd & Hs & He & Hl). destruct (wires_len a H) as [LW _].
  set (len := length (pre ++ wires (subs a) ++ post)) in *.
  assert (B : (length pre + 7 * length (subs a) <= len)%nat).
  { unfold len. rewrite !app_length, LW. lia. }
  rewrite LW. unfold subs in *. cbn [length] in B. unfold decode_addr.
  assert (L7 := ws_len 0 _ Hd). assert (L7' := ws_len 0 _ Hs).
  assert (W : exists r, wires (xa_dest a :: xa_src a :: xa_extra a) = ws 0 (xa_dest a) ++ r).
  { unfold wires. cbn [removelast map concat]. destruct (xa_extra a); eexists; rewrite <- app_assoc; reflexivity. }
  destruct (xa_extra a) as [|e0 e] eqn:Q.
  - unfold wires. cbn [removelast map concat last app length]. rewrite app_nil_r.
    rewrite <- app_assoc, decode_sub_ok by (lia || assumption). cbn [Z.eqb obind].
    replace (length pre + 7)%nat with (length (pre ++ ws 0 (xa_dest a))) by (rewrite app_length; lia).
    rewrite (app_assoc pre).
    rewrite decode_sub_ok by (rewrite ?app_length; lia || assumption). cbn [Z.eqb Pos.eqb obind].
    rewrite app_length, L7. do 2 f_equal. lia.
  - destruct (@exists_last _ (e0 :: e)) as (l & z & E); [discriminate|]. rewrite E in He, Hl |- *.
    apply Forall_app in He as [He1 He2]. apply Forall_inv in He2. rewrite app_length in Hl. cbn [length] in Hl.
    change (xa_dest a :: xa_src a :: l ++ [z]) with ((xa_dest a :: xa_src a :: l) ++ [z]).
    rewrite wires_snoc. cbn [map concat]. rewrite <- !app_assoc.
    rewrite decode_sub_ok by (cbn [length] in B; lia || assumption). cbn [Z.eqb obind].
    replace (length pre + 7)%nat with (length (pre ++ ws 0 (xa_dest a))) by (rewrite app_length; lia).
    rewrite (app_assoc pre).
    assert (LE : length (e0 :: e) = (length l + 1)%nat) by (rewrite E, app_length; reflexivity).
    rewrite LE in B.
    rewrite decode_sub_ok by (rewrite ?app_length; lia || assumption). cbn [Z.eqb obind].
    replace (length (pre ++ ws 0 (xa_dest a)) + 7)%nat with (length ((pre ++ ws 0 (xa_dest a)) ++ ws 0 (xa_src a))) by (rewrite !app_length; lia).
    rewrite (app_assoc (pre ++ _)).
    rewrite decode_extras_ok; [|assumption|assumption|unfold max_extra; lia|rewrite !app_length; lia|assumption].
    cbn [obind app]. do 2 f_equal. rewrite !app_length. cbn [length]. rewrite app_length. cbn [length]. lia.
Qed.

Lemma Forall2_norm l : Forall2 same_sub (map norm l) l.
Proof. induction l; constructor; [apply same_norm|assumption]. Qed.

Lemma wire_round_trip a port : all_subs wire_sub a -> 0 <= port < 256 ->
  exists w, encode_len a = Some (length w) /\ bytes_ok w /\
    (forall buf, (length w <= length buf)%nat -> addr_encode buf a = Some (w ++ skipn (length w) buf, length w)) /\
    forall pre post, Z.of_nat (length (pre ++ w ++ post)) < 2 ^ 64 ->
      exists a', decode_addr (pre ++ w ++ post) (length pre) (length (pre ++ w ++ post)) port =
          Some (DOk a' (length pre + length w)) /\
        same_addr a' (mkxa port (xa_dest a) (xa_src a) (xa_extra a)).
Proof.
  intros H Hp. exists (wires (subs a)). destruct (wires_len a H) as [LW BW].
  split. { unfold encode_len, max_extra. destruct H as (_ & _ & _ & Hl).
    replace (length (xa_extra a) <=? 8)%nat with true by lia. rewrite LW. reflexivity. }
  split; [exact BW|]. split.
  - intros buf Hb. rewrite LW in Hb. rewrite (addr_encode_ok a buf H Hb), LW. reflexivity.
  - intros pre post Hl. eexists. split; [apply decode_wires; assumption|].
    unfold same_addr. cbn [xa_port xa_dest xa_src xa_extra]. rewrite Z.mod_small by lia.
    split; [reflexivity|]. split; [apply same_norm|]. split; [apply same_norm|]. apply Forall2_norm.
Qed.
