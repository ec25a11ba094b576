(** Invariant of the lock files. *)
From Verif Require Import Base Cstr_Model Heap_Model Heap_Proofs Seriallock_Model Seriallock_Spec.
From Coq Require Import Zify ZifyBool.
Open Scope Z_scope.

Lemma leq_eq a b : leq a b = true <-> a = b.
Proof.
  revert b; induction a as [|x a IH]; intros [|y b]; cbn [leq]; split; intros; try discriminate; try reflexivity.
  - apply andb_prop in H as [H1 H2]. apply Z.eqb_eq in H1; apply IH in H2; congruence.
  - inversion H; subst. rewrite Z.eqb_refl; cbn [andb]. apply IH; reflexivity.
Qed.
Lemma un_same {B} (f : list Z -> B) n v : upd_name f n v n = v.
Proof. unfold upd_name. rewrite (proj2 (leq_eq n n) eq_refl). reflexivity. Qed.
Lemma un_diff {B} (f : list Z -> B) n m v : m <> n -> upd_name f n v m = f m.
Proof. intros H. unfold upd_name. destruct (leq m n) eqn:E; [apply leq_eq in E; contradiction | reflexivity]. Qed.

(** ** The names *)
Lemma names_differ d dev maj min n : 0 <= maj <= 999 -> svr4_lock d maj min = Some n -> fname_lock d dev <> n.
Proof.
  unfold svr4_lock, fname_lock. intros Hm H. destruct (_ || _); [discriminate|].
  injection H as <-. intros E. apply app_inv_head in E.
  assert (F : nth 5 (47 :: map (fun c => if c =? 47 then 95 else c) ([76; 67; 75; 46; 46] ++ (if starts dev_prefix dev then skipn (length dev_prefix) dev else dev))) 0
            = nth 5 ([47; 76; 67; 75; 46] ++ dec3 maj ++ [46] ++ dec3 min) 0) by (rewrite E; reflexivity).
  cbn [map app nth dec3] in F. change (if 46 =? 47 then 95 else 46) with 46 in F.
  pose proof (Z.div_pos maj 100). lia.
Qed.

(** ** The process id *)
Lemma digits_len n v : (length (digits n v) <= n)%nat.
Proof.
  revert v; induction n; intros v; cbn [digits length]; [lia|].
  rewrite app_length; cbn [length]. destruct (v <? 10); cbn [length]; [lia | specialize (IHn (v/10)); lia].
Qed.
Lemma digits_S_len n v : (1 <= length (digits (S n) v))%nat.
Proof. cbn [digits]. rewrite app_length; cbn [length]; lia. Qed.

Lemma pow10_S n : 10 ^ Z.of_nat (S n) = 10 * 10 ^ Z.of_nat n.
Proof. rewrite Nat2Z.inj_succ, Z.pow_succ_r by lia. reflexivity. Qed.

Lemma take_digits n v k r : 0 <= v < 10 ^ Z.of_nat n -> (forall c, hd_error r = Some c -> is_dig c = false) ->
  (length (digits n v) <= k)%nat -> n <> O ->
  forall acc, take_num k acc true (digits n v ++ r) = Some (acc * 10 ^ Z.of_nat (length (digits n v)) + v) /\
              take_num k acc false (digits n v ++ r) = Some (acc * 10 ^ Z.of_nat (length (digits n v)) + v).
Proof.
  intros Hv Hr.
  assert (G : forall n v, 0 <= v < 10 ^ Z.of_nat n -> n <> O -> forall k r, (length (digits n v) <= k)%nat ->
     forall acc b, take_num k acc b (digits n v ++ r) = take_num (k - length (digits n v)) (acc * 10 ^ Z.of_nat (length (digits n v)) + v) true r).
  { clear. induction n as [|n IH]; intros v Hv Hn k r Hk acc b; [congruence|].
    cbn [digits] in *. rewrite pow10_S in Hv.
    destruct (v <? 10) eqn:E.
    - apply Z.ltb_lt in E. rewrite Z.mod_small in * by lia. cbn [app length] in *.
      destruct k; [lia|]. cbn [take_num].
      unfold is_dig. replace ((48 <=? 48 + v) && (48 + v <=? 57)) with true by lia.
      replace (acc * 10 + (48 + v - 48)) with (acc * 10 ^ Z.of_nat 1 + v) by (change (10 ^ Z.of_nat 1) with 10; lia).
      replace (S k - 1)%nat with k by lia. reflexivity.
    - apply Z.ltb_ge in E. rewrite app_length in *; cbn [length] in *.
      rewrite <- app_assoc. 
      assert (H10: 0 <= v / 10 < 10 ^ Z.of_nat n) by (split; [apply Z.div_pos; lia | apply Z.div_lt_upper_bound; lia]).
      rewrite IH; [| exact H10 | intros ->; cbn in H10; lia | lia].
      cbn [app]. remember (length (digits n (v/10))) as L.
      destruct (k - L)%nat eqn:Ek; [lia|]. cbn [take_num].
      assert (0 <= v mod 10 < 10) by (apply Z.mod_pos_bound; lia).
      unfold is_dig. replace ((48 <=? 48 + v mod 10) && (48 + v mod 10 <=? 57)) with true by lia.
      replace (k - (L + 1))%nat with n0 by lia. f_equal.
      replace (L + 1)%nat with (S L) by lia. rewrite pow10_S.
      pose proof (Z.div_mod v 10 ltac:(lia)). nia. }
  intros Hk Hn acc. split; (rewrite G by assumption;
    destruct (k - _)%nat; cbn [take_num]; [destruct r; reflexivity|]; destruct r as [|c r]; [reflexivity|];
    rewrite (Hr c eq_refl); reflexivity).
Qed.

Lemma skip_spaces n s : skip_ws (repeat 32 n ++ s) = skip_ws s.
Proof. induction n; cbn [repeat app skip_ws]; [reflexivity|]. exact IHn. Qed.

Lemma digits_hd n v : 0 <= v -> n <> O -> exists c l, digits n v = c :: l /\ 48 <= c <= 57.
Proof.
  revert v; induction n; intros v Hv H; [congruence|]. cbn [digits].
  pose proof (Z.mod_pos_bound v 10 ltac:(lia)).
  destruct (v <? 10) eqn:E; [cbn [app]; eexists _, _; split; [reflexivity|lia]|].
  destruct n; [cbn [digits app]; eexists _, _; split; [reflexivity|lia]|].
  destruct (IHn (v/10)) as (c & l & -> & Hc); [apply Z.div_pos; lia | congruence|].
  cbn [app]. eexists _, _; split; [reflexivity | exact Hc].
Qed.
Lemma digits_dig n v : 0 <= v -> Forall (fun c => 48 <= c <= 57) (digits n v).
Proof.
  revert v; induction n; intros v Hv; cbn [digits]; [constructor|].
  pose proof (Z.mod_pos_bound v 10 ltac:(lia)).
  apply Forall_app; split; [| constructor; [lia | constructor]].
  destruct (v <? 10); [constructor | apply IHn, Z.div_pos; lia].
Qed.

Lemma upto_nul_id l : Forall (fun c => c <> 0) l -> upto_nul l = l.
Proof.
  induction 1; cbn [upto_nul]; [reflexivity|]. destruct (x =? 0) eqn:E; [apply Z.eqb_eq in E; contradiction|].
  congruence.
Qed.

Lemma fmt_pid_len pid : length (fmt_pid pid) = 11%nat.
Proof.
  unfold fmt_pid. rewrite !app_length, repeat_length; cbn [length]. pose proof (digits_len 10 pid). lia.
Qed.

Lemma file_pid_11 d : length d = 11%nat ->
  file_pid d = match scan10d (upto_nul d) with Some v => v | None => 0 end.
Proof.
  intros H. unfold file_pid. rewrite firstn_all2 by lia.
  destruct d as [|a [|b [|c [|e [|f l]]]]]; try discriminate H. reflexivity.
Qed.

Lemma file_pid_fmt pid : 0 < pid < 2 ^ 31 -> file_pid (fmt_pid pid) = pid.
Proof.
  intros H. rewrite file_pid_11 by apply fmt_pid_len.
  rewrite upto_nul_id.
  2:{ unfold fmt_pid. apply Forall_app; split; [|apply Forall_app; split].
      - apply Forall_forall. intros x Hx. apply repeat_spec in Hx. lia.
      - eapply Forall_impl; [|apply digits_dig; lia]. cbn; intros; lia.
      - constructor; [lia | constructor]. }
  unfold scan10d, fmt_pid. rewrite skip_spaces.
  destruct (digits_hd 10 pid) as (c & l & E & Hc); [lia | discriminate |].
  pose proof (take_digits 10 pid 10 [10]) as T.
  assert (H10 : 0 <= pid < 10 ^ Z.of_nat 10) by (change (10 ^ Z.of_nat 10) with 10000000000; lia).
  specialize (T H10). destruct T with (acc := 0) as [_ T2];
    [intros x Hx; cbn in Hx; injection Hx as <-; reflexivity | apply digits_len | discriminate |].
  rewrite E in *. cbn [app skip_ws].
  unfold is_ws. replace ((c =? 32) || (9 <=? c) && (c <=? 13)) with false by lia.
  replace (c =? 45) with false by lia. replace (c =? 43) with false by lia.
  cbn [app] in T2. rewrite T2. cbn [obind]. rewrite Z.mul_0_l, Z.add_0_l.
  unfold wrap_int. rewrite Z.mod_small by lia. lia.
Qed.
