(** Proofs about linked lists: loops and runs. *)
From Verif Require Import Base Heap_Model Heap_Proofs List_Model List_Spec List_Proofs List_Proofs2.
Open Scope nat_scope.

Lemma peq_some i j : peq (Some i) (Some j) = (i =? j).
Proof. reflexivity. Qed.

Lemma not_head s w h xs x : wok s w -> w h = KList xs -> In x xs -> (x =? h) = false.
Proof.
  intros (_ & _ & _ & H4) E I. destruct (H4 h xs E) as (N & _). apply NoDup_cons_iff in N. apply Nat.eqb_neq. intros ->. tauto.
Qed.

Lemma each_ok s w h : wok s w -> forall b a n, w h = KList (a ++ b) -> length b <= n ->
  each_loop n s (Some h) (Some (hd h b)) = Some b.
Proof.
  intros W. induction b as [|x b IH]; intros a n Wh L; cbn [hd].
  - destruct n; cbn [each_loop]; rewrite peq_some, Nat.eqb_refl; reflexivity.
  - assert (Hx : In x (a ++ x :: b)) by (apply in_or_app; right; left; reflexivity).
    cbn [length] in L. destruct n as [|n]; [lia|]. cbn [each_loop]. rewrite peq_some, (not_head s w h _ x W Wh Hx).
    pose proof (live_member s w h _ x W Wh Hx) as Lx. rewrite lacc_ok by exact Lx. cbn [obind]. lrun.
    assert (Wh2 : w h = KList ((a ++ [x]) ++ b)) by (rewrite <- app_assoc; exact Wh).
    destruct (next_at _ _ _ _ _ W Wh2) as [J _]. rewrite last_last in J. rewrite J. rewrite (IH (a ++ [x]) n Wh2) by lia. reflexivity.
Qed.

Lemma upd_eq {B} (f : nat -> B) i v : upd f i v i = v.
Proof. unfold upd. rewrite Nat.eqb_refl. reflexivity. Qed.

Lemma wok_kill s w x : wok s w -> w x = KRaw \/ w x = KLink None \/ w x = KList [] ->
  exists s', lkill s (Some x) = Some s' /\ wok s' (upd w x KDead).
Proof.
  intros (H1 & H2 & H3 & H4) K. unfold lkill. assert (Lx : ln_live s x = true) by (apply H1; destruct K as [K|[K|K]]; congruence).
  rewrite lacc_ok by exact Lx. cbn [obind]. eexists. split; [reflexivity|].
  split; [|split; [|split]]; cbn [ln_live ln_list ln_next ln_prev].
  - intros z. unfold upd. destruct (z =? x); [congruence|]. apply H1.
  - intros z. unfold upd. destruct (z =? x); [discriminate|]. apply H2.
  - intros z g. unfold upd at 1. destruct (Nat.eqb_spec z x); [discriminate|]. intros E. destruct (H3 z g E) as (Q & xs & Q1 & Q2). split; [exact Q|].
    exists xs. unfold upd. destruct (Nat.eqb_spec g x); [|auto]. subst g. exfalso. rewrite Q1 in K. destruct K as [K|[K|K]]; try congruence. injection K as ->. destruct Q2.
  - intros g xs. unfold upd at 1. destruct (Nat.eqb_spec g x); [discriminate|]. intros E. destruct (H4 g xs E) as (Q & Q1 & Q2). split; [exact Q|]. split; [eapply adj_frame; [exact Q1|reflexivity|reflexivity]|].
    intros z Hz. unfold upd. destruct (Nat.eqb_spec z x); [|auto]. subst z. apply Q2 in Hz. destruct K as [K|[K|K]]; congruence.
Qed.

Lemma body_ok s w h x a b ac : wok s w -> w h = KList (a ++ x :: b) ->
  exists s', each_body s (Some h) (Some x) ac = Some s' /\
    wok s' (upd (match ac with AKeep => w | ARemove => upd w x (KLink None) | AFree => upd w x KDead end) h
                (KList (match ac with AKeep => a ++ x :: b | _ => a ++ b end))).
Proof.
  intros W Wh. destruct ac; cbn [each_body].
  - exists s. split; [reflexivity|]. eapply wok_ext; [exact W|]. intros z. unfold upd. destruct (Nat.eqb_spec z h); congruence.
  - destruct (rm_gen s w h x a b W Wh) as (s' & E & Ef). exists s'. split; [exact E|]. eapply wok_rm; eassumption.
  - destruct (rm_gen s w h x a b W Wh) as (s' & E & Ef). rewrite E. cbn [obind]. pose proof (wok_rm _ _ _ _ _ _ _ W Wh Ef) as W'.
    assert (Xh : x <> h). { apply Nat.eqb_neq. eapply not_head; [exact W|exact Wh|]. apply in_or_app. right. left. reflexivity. }
    destruct (wok_kill s' _ x W') as (s2 & E2 & W2).
    { right. left. unfold upd. apply Nat.eqb_neq in Xh. rewrite Xh, Nat.eqb_refl. reflexivity. }
    exists s2. split; [exact E2|]. eapply wok_ext; [exact W2|]. intros z. unfold upd. destruct (Nat.eqb_spec z h), (Nat.eqb_spec z x); congruence.
Qed.

Lemma after_ext : forall l acts w w', (forall x, w x = w' x) -> forall x, after_acts w l acts x = after_acts w' l acts x.
Proof.
  induction l as [|y l IH]; intros acts w w' E x; cbn [after_acts]; [apply E|]. apply IH. intros z. unfold upd.
  destruct (hd AKeep acts); [apply E| |]; destruct (z =? y); auto.
Qed.
Lemma after_head : forall l acts w h v, ~ In h l -> forall x, after_acts (upd w h v) l acts x = upd (after_acts w l acts) h v x.
Proof.
  induction l as [|y l IH]; intros acts w h v N x; cbn [after_acts]; [reflexivity|]. cbn [In] in N.
  rewrite <- IH by tauto. apply after_ext. intros z. unfold upd. destruct (hd AKeep acts); [reflexivity| |];
    destruct (Nat.eqb_spec z y), (Nat.eqb_spec z h); try reflexivity; subst; tauto.
Qed.

Lemma safe_ok h : forall b a n s w acts p2, wok s w -> w h = KList (a ++ b) -> length b <= n ->
  (b <> [] -> ln_next s (hd h b) = p2) ->
  exists s', safe_loop n s (Some h) (Some (hd h b)) p2 acts = Some (s', b) /\
    wok s' (upd (after_acts w b acts) h (KList (a ++ kept b acts))).
Proof.
  induction b as [|x b IH]; intros a n s w acts p2 W Wh L Hp; cbn [hd].
  - exists s. split; [destruct n; cbn [safe_loop]; rewrite peq_some, Nat.eqb_refl; reflexivity|]. cbn [after_acts kept].
    eapply wok_ext; [exact W|]. intros z. unfold upd. destruct (Nat.eqb_spec z h); congruence.
  - assert (Hx : In x (a ++ x :: b)) by (apply in_or_app; right; left; reflexivity).
    cbn [length] in L. destruct n as [|n]; [lia|]. cbn [safe_loop]. rewrite peq_some, (not_head s w h _ x W Wh Hx).
    pose proof (live_member s w h _ x W Wh Hx) as Lx. rewrite lacc_ok by exact Lx. cbn [obind].
    assert (Wh2 : w h = KList ((a ++ [x]) ++ b)) by (rewrite <- app_assoc; exact Wh).
    destruct (next_at _ _ _ _ _ W Wh2) as [J _]. rewrite last_last in J. cbn [hd] in Hp. rewrite J in Hp. rewrite <- Hp by discriminate. clear Hp.
    assert (Nh : ~ In h b).
    { destruct W as (_ & _ & _ & H4). destruct (H4 h _ Wh) as (N & _). apply NoDup_cons_iff in N. intros Q. apply (proj1 N). apply in_or_app. right. right. exact Q. }
    destruct (body_ok s w h x a b (hd AKeep acts) W Wh) as (s1 & E1 & W1). rewrite E1. cbn [obind]. clear E1.
    set (w1 := match hd AKeep acts with AKeep => w | ARemove => upd w x (KLink None) | AFree => upd w x KDead end) in *.
    set (a1 := match hd AKeep acts with AKeep => a ++ [x] | _ => a end).
    assert (Ea : (match hd AKeep acts with AKeep => a ++ x :: b | _ => a ++ b end) = a1 ++ b).
    { unfold a1. destruct (hd AKeep acts); [rewrite <- app_assoc; reflexivity|reflexivity|reflexivity]. }
    rewrite Ea in W1. assert (Wh1 : upd w1 h (KList (a1 ++ b)) h = KList (a1 ++ b)) by apply upd_eq.
    pose proof (live_hd _ _ _ _ _ W1 Wh1) as Ld. lrun.
    destruct (IH a1 n s1 _ (tl acts) (ln_next s1 (hd h b)) W1 Wh1) as (s2 & E2 & W2); [lia|reflexivity|].
    rewrite E2. cbn [obind]. exists s2. split; [reflexivity|]. eapply wok_ext; [exact W2|]. intros z. cbn [after_acts kept]. fold w1.
    unfold upd at 1 2. destruct (Nat.eqb_spec z h) as [Q|Q].
    + f_equal. unfold a1. destruct (hd AKeep acts); [rewrite <- app_assoc; reflexivity|reflexivity|reflexivity].
    + rewrite after_head by exact Nh. unfold upd. apply Nat.eqb_neq in Q. rewrite Q. reflexivity.
Qed.

(** ** Cutting sequences *)
Lemma split_at c (l : list nat) : In c l -> exists a b, l = a ++ c :: b /\ ~ In c a.
Proof.
  induction l as [|y l IH]; [intros []|]. intros H. destruct (Nat.eq_dec y c) as [->|Q]; [exists [], l; split; [reflexivity|intros []]|].
  destruct H as [H|H]; [congruence|]. destruct (IH H) as (a & b & -> & N). exists (y :: a), b. split; [reflexivity|]. intros [?|?]; auto.
Qed.
Lemma put_after_at c x a b : ~ In c a -> put_after c x (a ++ c :: b) = (a ++ [c]) ++ x :: b.
Proof.
  induction a as [|y a IH]; intros N; cbn [app put_after].
  - rewrite Nat.eqb_refl. reflexivity.
  - replace (y =? c) with false by (symmetry; apply Nat.eqb_neq; intros ->; apply N; left; reflexivity). rewrite IH; [reflexivity|]. intros Q. apply N. right. exact Q.
Qed.
Lemma put_before_at c x a b : ~ In c a -> put_before c x (a ++ c :: b) = a ++ x :: c :: b.
Proof.
  induction a as [|y a IH]; intros N; cbn [app put_before].
  - rewrite Nat.eqb_refl. reflexivity.
  - replace (y =? c) with false by (symmetry; apply Nat.eqb_neq; intros ->; apply N; left; reflexivity). rewrite IH; [reflexivity|]. intros Q. apply N. right. exact Q.
Qed.
Lemma follower_at c a b : ~ In c a -> follower c (a ++ c :: b) = hd_error b.
Proof.
  induction a as [|y a IH]; intros N; cbn [app follower].
  - rewrite Nat.eqb_refl. reflexivity.
  - replace (y =? c) with false by (symmetry; apply Nat.eqb_neq; intros ->; apply N; left; reflexivity). apply IH. intros Q. apply N. right. exact Q.
Qed.
Lemma without_none c l : ~ In c l -> without c l = l.
Proof.
  induction l as [|y l IH]; intros N; [reflexivity|]. unfold without in *. cbn [filter].
  replace (y =? c) with false by (symmetry; apply Nat.eqb_neq; intros ->; apply N; left; reflexivity). cbn [negb]. rewrite IH; [reflexivity|]. intros Q. apply N. right. exact Q.
Qed.
Lemma without_at c a b : ~ In c a -> ~ In c b -> without c (a ++ c :: b) = a ++ b.
Proof.
  intros Na Nb. unfold without. rewrite filter_app. cbn [filter]. rewrite Nat.eqb_refl. cbn [negb].
  fold (without c a). fold (without c b). rewrite !without_none by assumption. reflexivity.
Qed.

(** ** One call *)
Lemma put_length c x l : length (put_after c x l) <= S (length l) /\ length (put_before c x l) <= S (length l).
Proof. induction l as [|y l IH]; [cbn; lia|]. cbn [put_after put_before]. destruct (y =? c); cbn [length]; lia. Qed.
Lemma filter_len {T} (f : T -> bool) l : length (filter f l) <= length l.
Proof. induction l as [|y l IH]; [cbn; lia|]. cbn [filter]. destruct (f y); cbn [length]; lia. Qed.
Lemma kept_length l : forall acts, length (kept l acts) <= length l.
Proof. induction l as [|y l IH]; intros acts; [cbn; lia|]. cbn [kept]. specialize (IH (tl acts)). destruct (hd AKeep acts); cbn [length]; lia. Qed.
Lemma after_seq l : forall acts w h m, (forall g, length (w_seq w g) <= m) -> length (w_seq (after_acts w l acts) h) <= m.
Proof.
  induction l as [|y l IH]; intros acts w h m H; cbn [after_acts]; [apply H|]. apply IH. intros g. unfold w_seq, upd.
  specialize (H g). unfold w_seq in H. destruct (hd AKeep acts); [exact H| |]; (destruct (g =? y); [cbn; lia|exact H]).
Qed.

Lemma step_size w o m : (forall h, length (w_seq w h) <= m) -> forall h, length (w_seq (fst (step_l w o)) h) <= S m.
Proof.
  intros H h.
  assert (U : forall w' i k, (forall g, length (w_seq w' g) <= S m) -> length (match k with KList xs => xs | _ => [] end) <= S m ->
    forall g, length (w_seq (upd w' i k) g) <= S m).
  { intros w' i k Hw Hk g. unfold w_seq, upd. destruct (g =? i); [exact Hk|]. apply Hw. }
  assert (H' : forall g, length (w_seq w g) <= S m) by (intros g; specialize (H g); lia).
  destruct o; cbn [step_l fst]; try (apply H'); repeat (apply U; intros); try (apply H'); cbn [length]; try lia.
  - specialize (H h0). lia.
  - rewrite app_length. cbn [length]. specialize (H h0). lia.
  - pose proof (proj1 (put_length c x (w_seq w h0))). specialize (H h0). lia.
  - pose proof (proj2 (put_length c x (w_seq w h0))). specialize (H h0). lia.
  - unfold without. pose proof (filter_len (fun y => negb (y =? x)) (w_seq w h0)). specialize (H h0). lia.
  - apply after_seq. exact H'.
  - pose proof (kept_length (w_seq w h0) acts). specialize (H h0). lia.
Qed.

Lemma run_step n s w o : wok s w -> (forall h, length (w_seq w h) <= n) -> legal_l w o ->
  exists s', run_l n s o = Some (s', snd (step_l w o)) /\ wok s' (fst (step_l w o)).
Proof.
  intros W F G. destruct o; cbn [run_l step_l fst snd legal_l] in *.
  - (* alloc *) eexists. split; [reflexivity|]. destruct W as (H1 & H2 & H3 & H4). unfold lalloc. split; [|split; [|split]]; cbn [ln_live ln_list ln_next ln_prev].
    + intros z. unfold upd. destruct (z =? x); [reflexivity|apply H1].
    + intros z. unfold upd. destruct (z =? x); [discriminate|apply H2].
    + intros z g. unfold upd. destruct (Nat.eqb_spec z x); [discriminate|]. intros E. destruct (H3 z g E) as (Q & xs & Q1 & Q2). split; [exact Q|]. exists xs.
      destruct (Nat.eqb_spec g x); [congruence|auto].
    + intros g xs. unfold upd at 1. destruct (Nat.eqb_spec g x); [discriminate|]. intros E. destruct (H4 g xs E) as (Q & Q1 & Q2). split; [exact Q|].
      assert (O : forall z, In z (ring g xs) -> (z =? x) = false).
      { intros z Hz. apply Nat.eqb_neq. intros ->. apply ring_in in Hz. destruct Hz as [Hz|Hz]; [congruence|]. apply Q2 in Hz. congruence. }
      split.
      * eapply adj_frame; [exact Q1| |]; cbn [ln_next ln_prev]; intros z Hz; unfold upd; rewrite O; try reflexivity.
        -- rewrite (app_removelast_last 0) by discriminate. apply in_or_app. left. exact Hz.
        -- right. exact Hz.
      * intros z Hz. unfold upd. rewrite O; [apply Q2; exact Hz|]. right. apply in_or_app. left. exact Hz.
  - (* free *) destruct (wok_kill s w x W G) as (s' & E & W'). rewrite E. cbn [obind out0]. exists s'. auto.
  - (* link init *) pose proof W as (H1 & H2 & H3 & H4). assert (Lx : ln_live s x = true) by (apply H1; destruct G; congruence).
    unfold link_init. lrun. unfold out0. cbn [obind]. eexists. split; [reflexivity|].
    split; [|split; [|split]]; lproj.
    + intros z. unfold upd. destruct (Nat.eqb_spec z x); [subst; auto|apply H1].
    + intros z. unfold upd. destruct (z =? x); [auto|apply H2].
    + intros z g. unfold upd. destruct (Nat.eqb_spec z x); [discriminate|]. intros E. destruct (H3 z g E) as (Q & xs & Q1 & Q2). split; [exact Q|]. exists xs.
      destruct (Nat.eqb_spec g x); [destruct G; congruence|auto].
    + intros g xs. unfold upd at 1. destruct (Nat.eqb_spec g x); [discriminate|]. intros E. destruct (H4 g xs E) as (Q & Q1 & Q2). split; [exact Q|].
      assert (O : forall z, In z (ring g xs) -> (z =? x) = false).
      { intros z Hz. apply Nat.eqb_neq. intros ->. apply ring_in in Hz. destruct Hz as [Hz|Hz]; [congruence|]. apply Q2 in Hz. destruct G; congruence. }
      split.
      * eapply adj_frame; [exact Q1| |]; cbn [ln_next ln_prev]; intros z Hz; unfold upd; rewrite O; try reflexivity.
        -- rewrite (app_removelast_last 0) by discriminate. apply in_or_app. left. exact Hz.
        -- right. exact Hz.
      * intros z Hz. unfold upd. rewrite O; [apply Q2; exact Hz|]. right. apply in_or_app. left. exact Hz.
  - (* list init *) pose proof W as (H1 & H2 & H3 & H4). assert (Lx : ln_live s h = true) by (apply H1; destruct G as [G|[G|G]]; congruence).
    unfold list_init. lrun. unfold out0. cbn [obind]. eexists. split; [reflexivity|].
    split; [|split; [|split]]; lproj.
    + intros z. unfold upd. destruct (Nat.eqb_spec z h); [subst; auto|apply H1].
    + intros z. unfold upd. destruct (z =? h); [discriminate|apply H2].
    + intros z g. unfold upd. destruct (Nat.eqb_spec z h); [discriminate|]. intros E. destruct (H3 z g E) as (Q & xs & Q1 & Q2). split; [exact Q|].
      destruct (Nat.eqb_spec g h); [|exists xs; auto]. subst g. exfalso. rewrite Q1 in G. destruct G as [G|[G|G]]; try congruence. injection G as ->. destruct Q2.
    + intros g xs. unfold upd at 1. destruct (Nat.eqb_spec g h).
      * intros E. injection E as <-. subst g. split; [constructor; [intros []|constructor]|]. split; [|intros z []].
        cbn [ring app adj]. unfold joined. lproj. rewrite !upd_eq. auto.
      * intros E. destruct (H4 g xs E) as (Q & Q1 & Q2). split; [exact Q|].
        assert (O : forall z, In z (ring g xs) -> (z =? h) = false).
        { intros z Hz. apply Nat.eqb_neq. intros ->. apply ring_in in Hz. destruct Hz as [Hz|Hz]; [congruence|]. apply Q2 in Hz. destruct G as [G|[G|G]]; congruence. }
        split.
        -- eapply adj_frame; [exact Q1| |]; cbn [ln_next ln_prev]; intros z Hz; unfold upd; rewrite O; try reflexivity.
           ++ rewrite (app_removelast_last 0) by discriminate. apply in_or_app. left. exact Hz.
           ++ right. exact Hz.
        -- intros z Hz. unfold upd. rewrite O; [apply Q2; exact Hz|]. right. apply in_or_app. left. exact Hz.
  - (* add head *) destruct G as [(xs & Wh) Wx]. unfold w_seq. rewrite Wh. rewrite add_head_next.
    destruct (add_next_gen s w h h x [] xs W Wh Wx eq_refl) as (s' & E & Ef). rewrite E. exists s'. split; [reflexivity|].
    apply (wok_ins s s' w h [] xs x W Wh Wx Ef).
  - (* add tail *) destruct G as [(xs & Wh) Wx]. unfold w_seq. rewrite Wh. rewrite add_tail_prev. rewrite <- (app_nil_r xs) in Wh.
    destruct (add_prev_gen s w h h x xs [] W Wh Wx eq_refl) as (s' & E & Ef). rewrite E. exists s'. split; [reflexivity|].
    apply (wok_ins s s' w h xs [] x W Wh Wx Ef).
  - (* add next *) destruct G as [(xs & Wh) [Hc Wx]]. unfold w_seq in *. rewrite Wh in *. destruct (split_at c xs Hc) as (a & b & -> & N).
    rewrite put_after_at by exact N. replace (a ++ c :: b) with ((a ++ [c]) ++ b) in Wh by (rewrite <- app_assoc; reflexivity).
    destruct (add_next_gen s w h c x (a ++ [c]) b W Wh Wx) as (s' & E & Ef); [rewrite last_last; reflexivity|]. rewrite E. exists s'. split; [reflexivity|].
    apply (wok_ins s s' w h (a ++ [c]) b x W Wh Wx). rewrite last_last. exact Ef.
  - (* add prev *) destruct G as [(xs & Wh) [Hc Wx]]. unfold w_seq in *. rewrite Wh in *. destruct (split_at c xs Hc) as (a & b & -> & N).
    rewrite put_before_at by exact N.
    destruct (add_prev_gen s w h c x a (c :: b) W Wh Wx eq_refl) as (s' & E & Ef). rewrite E. exists s'. split; [reflexivity|].
    apply (wok_ins s s' w h a (c :: b) x W Wh Wx Ef).
  - (* rm *) destruct G as [(xs & Wh) Wx]. unfold w_seq. rewrite Wh. assert (Hx : In x xs).
    { destruct W as (_ & _ & H3 & _). destruct (H3 x h Wx) as (_ & ys & Q & Q1). congruence. }
    assert (N : NoDup xs). { destruct W as (_ & _ & _ & H4). destruct (H4 h xs Wh) as (N & _). apply NoDup_cons_iff in N. tauto. }
    destruct (split_at x xs Hx) as (a & b & -> & Na). rewrite without_at; [|exact Na|apply NoDup_remove_2 in N; rewrite in_app_iff in N; tauto].
    destruct (rm_gen s w h x a b W Wh) as (s' & E & Ef). rewrite E. exists s'. split; [reflexivity|]. eapply wok_rm; eassumption.
  - (* empty *) destruct G as (xs & Wh). unfold w_seq. rewrite Wh. pose proof (live_list _ _ _ _ W Wh) as Lh. unfold list_empty. lrun.
    destruct (next_at s w h [] xs W Wh) as [J _]. cbn [last] in J. rewrite J. rewrite peq_some. exists s. split; [|exact W]. cbn [out1 obind].
    destruct xs as [|y xs]; cbn [hd]; [rewrite Nat.eqb_refl; reflexivity|]. rewrite (not_head s w h _ y W Wh) by (left; reflexivity). reflexivity.
  - (* first *) destruct G as (xs & Wh). unfold w_seq. rewrite Wh. pose proof (live_list _ _ _ _ W Wh) as Lh. unfold list_first. lrun.
    destruct (next_at s w h [] xs W Wh) as [J _]. cbn [last] in J. rewrite J. exists s. split; [reflexivity|exact W].
  - (* last *) destruct G as (xs & Wh). unfold w_seq. rewrite Wh. pose proof (live_list _ _ _ _ W Wh) as Lh. unfold list_last. lrun.
    rewrite <- (app_nil_r xs) in Wh. destruct (next_at s w h xs [] W Wh) as [_ J]. cbn [hd] in J. rewrite J. exists s. split; [reflexivity|exact W].
  - (* next *) destruct G as [(xs & Wh) Hx]. unfold w_seq in *. rewrite Wh in *. pose proof (live_member _ _ _ _ _ W Wh Hx) as Lx. unfold list_next. lrun.
    destruct (split_at x xs Hx) as (a & b & -> & N). rewrite follower_at by exact N.
    assert (Wh2 : w h = KList ((a ++ [x]) ++ b)) by (rewrite <- app_assoc; exact Wh). destruct (next_at _ _ _ _ _ W Wh2) as [J _]. rewrite last_last in J. rewrite J.
    rewrite peq_some. exists s. split; [|exact W]. destruct b as [|y b]; cbn [hd hd_error out1 obind]; [rewrite Nat.eqb_refl; reflexivity|].
    rewrite (not_head s w h _ y W Wh2) by (apply in_or_app; right; left; reflexivity). reflexivity.
  - (* next wrap *) destruct G as [(xs & Wh) Hx]. unfold w_seq in *. rewrite Wh in *. pose proof (live_member _ _ _ _ _ W Wh Hx) as Lx. pose proof (live_list _ _ _ _ W Wh) as Lh. unfold list_next_wrap. lrun.
    destruct (next_at s w h [] xs W Wh) as [J0 _]. cbn [last] in J0.
    destruct (split_at x xs Hx) as (a & b & -> & N). rewrite follower_at by exact N.
    assert (Wh2 : w h = KList ((a ++ [x]) ++ b)) by (rewrite <- app_assoc; exact Wh). destruct (next_at _ _ _ _ _ W Wh2) as [J _]. rewrite last_last in J. rewrite J.
    rewrite peq_some. exists s. split; [|exact W]. destruct b as [|y b]; cbn [hd hd_error out1 obind].
    + rewrite Nat.eqb_refl. lrun. unfold out1. cbn [obind]. rewrite J0. destruct a; reflexivity.
    + rewrite (not_head s w h _ y W Wh2) by (apply in_or_app; right; left; reflexivity). reflexivity.
  - (* inlist *) destruct G as (m & Wx). assert (Lx : ln_live s x = true) by (apply W; congruence). unfold link_inlist. lrun. exists s. split; [|exact W].
    rewrite Wx. destruct W as (_ & H2 & H3 & _). destruct m as [g|]; [destruct (H3 _ _ Wx) as (-> & _)|destruct (H2 _ Wx) as (-> & _)]; reflexivity.
  - (* in this list *) destruct G as (m & Wx). assert (Lx : ln_live s x = true) by (apply W; congruence). unfold link_in_this_list. lrun. exists s. split; [|exact W].
    rewrite Wx. destruct W as (_ & H2 & H3 & _). destruct m as [g|]; [destruct (H3 _ _ Wx) as (-> & _)|destruct (H2 _ Wx) as (-> & _)]; reflexivity.
  - (* each *) destruct G as (xs & Wh). pose proof (F h) as Fh. unfold w_seq in *. rewrite Wh in *. pose proof (live_list _ _ _ _ W Wh) as Lh. unfold list_each. lrun.
    destruct (next_at s w h [] xs W Wh) as [J _]. cbn [last] in J. rewrite J. rewrite (each_ok s w h W xs [] n Wh Fh). exists s. split; [reflexivity|exact W].
  - (* each safe *) destruct G as (xs & Wh). pose proof (F h) as Fh. unfold w_seq in *. rewrite Wh in *. pose proof (live_list _ _ _ _ W Wh) as Lh. unfold list_each_safe. lrun.
    destruct (next_at s w h [] xs W Wh) as [J _]. cbn [last] in J. rewrite J.
    pose proof (live_hd s w h [] xs W Wh) as Ld. lrun.
    destruct (safe_ok h xs [] n s w acts (ln_next s (hd h xs)) W Wh Fh) as (s' & E & W'); [reflexivity|]. rewrite E. exists s'. split; [reflexivity|exact W'].
Qed.

Lemma list_run_ok n : forall ops s w m, wok s w -> (forall h, length (w_seq w h) <= m) -> m + length ops <= n -> legal_lrun w ops ->
  exists s', list_run n s ops = Some (s', spec_lrun w ops) /\ wok s' (end_lrun w ops).
Proof.
  induction ops as [|o ops IH]; intros s w m W F L G; cbn [list_run spec_lrun end_lrun legal_lrun length] in *; [eauto|].
  destruct G as [G1 G2]. destruct (run_step n s w o W) as (s1 & E1 & W1); [intros h; specialize (F h); lia|exact G1|]. rewrite E1. cbn [obind].
  destruct (IH s1 _ (S m) W1 (step_size w o m F)) as (s2 & E2 & W2); [lia|exact G2|]. rewrite E2. cbn [obind]. eauto.
Qed.

Lemma wok_dead s : wok s (fun _ => KDead).
Proof. split; [|split; [|split]]; intros; congruence. Qed.
