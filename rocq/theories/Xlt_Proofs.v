(** Proofs about the xlt model. *)
From Verif Require Import Base Xlt_Model Xlt_Spec.
Open Scope Z_scope.

Definition xok (x : xdir) : Prop :=
  length (xd_tbl x) = 256%nat /\ length (xd_buf x) = 256%nat /\ (xd_len x <= 256)%nat.

Lemma tr_get tbl c : length tbl = 256%nat -> is_byte c -> mget tbl (Z.to_nat c) = Some (tr tbl c).
Proof.
  unfold is_byte. intros L H. unfold mget, tr. apply nth_error_nth'. lia.
Qed.

Lemma xlt_fill_ok tbl (L : length tbl = 256%nat) d : forall b pos, length b = 256%nat ->
  (pos <= 256)%nat -> bytes_ok d ->
  exists b' n, xlt_fill tbl b pos d = Some (b', (pos + n)%nat, n) /\ length b' = 256%nat /\
    n = Nat.min (256 - pos) (length d) /\
    firstn (pos + n) b' = firstn pos b ++ map (tr tbl) (firstn n d).
Proof.
  induction d as [|c d IH]; intros b pos Lb Hp Hd; cbn [xlt_fill].
  - exists b, 0%nat. cbn [length firstn map]. rewrite Nat.add_0_r, app_nil_r. repeat split; lia || auto.
  - unfold bufsz. destruct (pos <? 256)%nat eqn:E.
    + rewrite tr_get by (auto; apply (Forall_inv Hd)). cbn [obind].
      destruct (mset_append b pos (tr tbl c)) as (b' & E1 & L1 & F1); [lia|].
      rewrite E1. cbn [obind].
      destruct (IH b' (S pos)) as (b2 & n & E2 & L2 & N2 & F2); try lia.
      { apply (Forall_inv_tail Hd). }
      rewrite E2. cbn [obind]. exists b2, (S n).
      split; [do 3 f_equal; lia|]. split; [exact L2|]. split; [cbn [length]; lia|].
      replace (pos + S n)%nat with (S pos + n)%nat by lia. rewrite F2, F1, <- app_assoc.
      reflexivity.
    + exists b, 0%nat. cbn [length]. rewrite Nat.add_0_r. cbn [firstn map]. rewrite app_nil_r.
      repeat split; lia || auto.
Qed.

Lemma concat_bytes sg : Forall bytes_ok sg -> bytes_ok (concat sg).
Proof.
  induction 1; cbn; [constructor|]. apply Forall_app. auto.
Qed.

Lemma xlt_fill_sg_ok tbl (L : length tbl = 256%nat) sg : forall b pos, length b = 256%nat ->
  (pos <= 256)%nat -> Forall bytes_ok sg ->
  exists b' n, xlt_fill_sg tbl b pos sg = Some (b', (pos + n)%nat, n) /\ length b' = 256%nat /\
    n = Nat.min (256 - pos) (length (concat sg)) /\
    firstn (pos + n) b' = firstn pos b ++ map (tr tbl) (firstn n (concat sg)).
Proof.
  induction sg as [|d sg IH]; intros b pos Lb Hp Hd; cbn [xlt_fill_sg concat].
  - exists b, 0%nat. cbn [length firstn map]. rewrite Nat.add_0_r, app_nil_r. repeat split; lia || auto.
  - unfold bufsz. destruct (pos <? 256)%nat eqn:E.
    + destruct (xlt_fill_ok tbl L d b pos) as (b1 & n1 & E1 & L1 & N1 & F1); auto.
      { apply (Forall_inv Hd). }
      rewrite E1. cbn [obind].
      destruct (IH b1 (pos + n1)%nat) as (b2 & n2 & E2 & L2 & N2 & F2); auto; try lia.
      { apply (Forall_inv_tail Hd). }
      rewrite E2. cbn [obind]. exists b2, (n1 + n2)%nat.
      split; [do 3 f_equal; lia|]. split; [exact L2|].
      split; [rewrite app_length; lia|].
      rewrite Nat.add_assoc, F2, F1, <- app_assoc, <- map_app. f_equal. f_equal.
      rewrite (firstn_app (n1 + n2)). destruct (Nat.eq_dec n1 (length d)) as [Q|Q].
      * rewrite Q, firstn_all, (firstn_all2 (n := length d + n2)) by lia.
        replace (length d + n2 - length d)%nat with n2 by lia. reflexivity.
      * replace n2 with 0%nat by lia. rewrite Nat.add_0_r.
        replace (n1 - length d)%nat with 0%nat by lia. reflexivity.
    + exists b, 0%nat. rewrite Nat.add_0_r. cbn [firstn map]. rewrite app_nil_r.
      repeat split; lia || auto.
Qed.

Lemma xlt_write_ok x sg a : xok x -> Forall bytes_ok sg ->
  exists x' r, xlt_write x sg a = Some (x', r) /\ xok x' /\ xd_tbl x' = xd_tbl x /\
    xr_taken r = Nat.min (256 - length (xlt_pending x)) (length (concat sg)) /\
    xlt_pending x ++ map (tr (xd_tbl x)) (firstn (xr_taken r) (concat sg)) =
      xr_sent r ++ xlt_pending x' /\
    match a, xr_count r with
    | Some n, Some c => c = (length (xlt_pending x) + xr_taken r)%nat /\
         length (xr_sent r) = Nat.min n c
    | None, Some c => c = 0%nat /\ xlt_pending x = []
    | None, None => xr_sent r = []
    | _, _ => False
    end.
Proof.
  intros (Lt & Lb & Ll) Hsg.
  destruct (xlt_fill_sg_ok (xd_tbl x) Lt sg (xd_buf x) (xd_len x) Lb Ll Hsg)
    as (b & n & E & L & N & F).
  assert (Lp : length (xlt_pending x) = xd_len x).
  { unfold xlt_pending. rewrite firstn_length. lia. }
  assert (Hn : (xd_len x + n <= 256)%nat) by lia.
  unfold xlt_write. rewrite E. cbn [obind].
  set (pos := (xd_len x + n)%nat) in *. fold (xlt_pending x) in F.
  destruct (pos =? 0)%nat eqn:E0.
  - assert (Z1 : n = 0%nat) by lia. assert (Z2 : xd_len x = 0%nat) by lia.
    do 2 eexists. split; [reflexivity|]. unfold xok; cbn [xd_tbl xd_buf xd_len xr_taken xr_sent xr_count].
    split; [repeat split; auto; lia|]. split; [reflexivity|]. split; [rewrite Lp; exact N|].
    rewrite <- F. replace pos with 0%nat by lia.
    split; [reflexivity|]. assert (P0 : xlt_pending x = []).
    { destruct (xlt_pending x); [reflexivity|cbn [length] in Lp; lia]. }
    destruct a; rewrite ?P0; cbn [length]; split; auto; lia.
  - rewrite mread_some by (cbn [Nat.add]; lia). cbn [obind skipn].
    destruct a as [c|].
    + destruct (pos <=? c)%nat eqn:Ec.
      * do 2 eexists. split; [reflexivity|]. unfold xok; cbn [xd_tbl xd_buf xd_len xr_taken xr_sent xr_count].
        split; [repeat split; auto; lia|]. split; [reflexivity|]. split; [rewrite Lp; exact N|].
        rewrite F. unfold xlt_pending at 3. cbn [xd_len firstn]. rewrite app_nil_r.
        split; [reflexivity|]. split; [lia|]. rewrite <- F, firstn_length. lia.
      * rewrite mread_some by lia. cbn [obind].
        unfold mwrite. rewrite firstn_length, skipn_length, L.
        replace (0 + Nat.min (pos - c) (256 - c) <=? 256)%nat with true by lia. cbn [obind].
        do 2 eexists. split; [reflexivity|]. unfold xok; cbn [xd_tbl xd_buf xd_len xr_taken xr_sent xr_count].
        split.
        { repeat split; auto; try lia. cbn [firstn app]. rewrite app_length, firstn_length, !skipn_length. lia. }
        split; [reflexivity|]. split; [rewrite Lp; exact N|].
        rewrite <- F. unfold xlt_pending. cbn [xd_len xd_buf firstn app].
        split.
        { rewrite firstn_app_le by (rewrite firstn_length, skipn_length; lia).
          rewrite firstn_firstn, (firstn_firstn (skipn c b)).
          replace (Nat.min c pos) with c by lia. rewrite Nat.min_id.
          rewrite <- firstn_add. f_equal. lia. }
        fold (xlt_pending x). split; [lia|]. rewrite !firstn_length. lia.
    + do 2 eexists. split; [reflexivity|]. unfold xok; cbn [xd_tbl xd_buf xd_len xr_taken xr_sent xr_count].
      split; [repeat split; auto|]. split; [reflexivity|]. split; [rewrite Lp; exact N|].
      split; [|reflexivity]. rewrite <- F. reflexivity.
Qed.

Lemma xlt_run_ok cs : forall x, xok x -> Forall (fun c => Forall bytes_ok (fst c)) cs ->
  exists x' rs, xlt_run x cs = Some (x', rs) /\ xok x' /\ xd_tbl x' = xd_tbl x /\
    length rs = length cs /\
    xlt_pending x ++ map (tr (xd_tbl x)) (taken cs rs) =
      concat (map xr_sent rs) ++ xlt_pending x'.
Proof.
  induction cs as [|[sg a] cs IH]; intros x Hx Hc; cbn [xlt_run].
  - exists x, []. cbn. rewrite app_nil_r. auto.
  - destruct (xlt_write_ok x sg a Hx (Forall_inv Hc)) as (x1 & r & E1 & O1 & T1 & N1 & S1 & _).
    rewrite E1. cbn [obind].
    destruct (IH x1 O1 (Forall_inv_tail Hc)) as (x2 & rs & E2 & O2 & T2 & LL & S2).
    rewrite E2. cbn [obind]. exists x2, (r :: rs). split; [reflexivity|]. split; [exact O2|].
    split; [congruence|]. split; [cbn [length]; lia|].
    cbn [taken map concat]. rewrite map_app, app_assoc, S1, <- !app_assoc. f_equal.
    rewrite <- T1. exact S2.
Qed.

Lemma xd_init_ok tbl : length tbl = 256%nat -> xok (xd_init tbl).
Proof.
  intros H. unfold xok, xd_init, bufsz. cbn [xd_tbl xd_buf xd_len]. rewrite repeat_length. repeat split; auto; lia.
Qed.

Lemma xlt_stream tbl cs : length tbl = 256%nat -> Forall (fun c => Forall bytes_ok (fst c)) cs ->
  exists x rs, xlt_run (xd_init tbl) cs = Some (x, rs) /\
    concat (map xr_sent rs) ++ xlt_pending x = map (tr tbl) (taken cs rs).
Proof.
  intros H Hc. destruct (xlt_run_ok cs (xd_init tbl) (xd_init_ok _ H) Hc) as (x & rs & E & _ & _ & _ & S).
  exists x, rs. split; [exact E|]. symmetry. exact S.
Qed.

Lemma follow_all_ok l : forall x data, xok x -> xlt_pending x = [] -> bytes_ok data ->
  Forall (fun a => exists n, a = Some n /\ (256 <= n)%nat) l ->
  exists x' s d, follow x data l = Some (x', s, d) /\ xlt_pending x' = [] /\
    exists taken, data = taken ++ d /\ s = map (tr (xd_tbl x)) taken /\
      length taken = Nat.min (length data) (256 * length l).
Proof.
  induction l as [|a l IH]; intros x data Hx Hp Hd Hl; cbn [follow].
  - exists x, [], data. split; [reflexivity|]. split; [exact Hp|]. exists []. cbn. split; [auto|]. split; [auto|].
    lia.
  - destruct (Forall_inv Hl) as (n & -> & Hn).
    destruct (xlt_write_ok x [data] (Some n) Hx) as (x1 & r & E1 & O1 & T1 & N1 & S1 & C1); [auto|].
    cbn [concat] in N1, S1. rewrite app_nil_r in N1, S1. rewrite Hp in N1, S1, C1. cbn [app length] in N1, S1, C1.
    rewrite E1. cbn [obind]. destruct (xr_count r) as [c|]; [|contradiction]. destruct C1 as [C1 C2].
    cbn [Nat.add] in C1. subst c.
    assert (P1 : xlt_pending x1 = []).
    { apply length_zero_iff_nil. apply (f_equal (@length Z)) in S1. rewrite map_length, app_length, firstn_length in S1. lia. }
    rewrite P1, app_nil_r in S1.
    destruct (IH x1 (skipn (xr_taken r) data) O1 P1) as (x2 & s & d & E2 & P2 & tk & D2 & S2 & L2).
    { rewrite <- (firstn_skipn (xr_taken r) data) in Hd. apply Forall_app in Hd. apply Hd. }
    { apply (Forall_inv_tail Hl). }
    rewrite E2. cbn [obind]. do 3 eexists. split; [reflexivity|]. split; [exact P2|].
    exists (firstn (xr_taken r) data ++ tk). rewrite <- app_assoc, <- D2, firstn_skipn.
    split; [reflexivity|]. rewrite map_app, <- S1, S2, T1. split; [reflexivity|].
    rewrite app_length, L2, firstn_length, skipn_length, N1. cbn [length]. lia.
Qed.

(** ** Options *)
Definition tables_ok (io : list Z * list Z) (s : (Z -> Z) * (Z -> Z)) : Prop :=
  length (fst io) = 256%nat /\ length (snd io) = 256%nat /\
  forall c, is_byte c -> tr (fst io) c = fst s c /\ tr (snd io) c = snd s c.

Lemma mset_tr t t' k v c : mset t (Z.to_nat k) v = Some t' -> 0 <= k -> is_byte c ->
  tr t' c = up (tr t) k v c.
Proof.
  intros H Hk Hc. unfold tr, up. unfold mset in H. rewrite (mwrite_nth _ _ _ _ _ 0 H). cbn [length].
  unfold is_byte in Hc. destruct (c =? k) eqn:E.
  - assert (c = k) by lia. subst c.
    replace ((Z.to_nat k <=? Z.to_nat k)%nat && (Z.to_nat k <? Z.to_nat k + 1)%nat) with true by lia.
    rewrite Nat.sub_diag. reflexivity.
  - replace ((Z.to_nat k <=? Z.to_nat c)%nat && (Z.to_nat c <? Z.to_nat k + 1)%nat) with false by lia.
    reflexivity.
Qed.

Lemma up_ext f g k v c : f c = g c -> up f k v c = up g k v c.
Proof. intros H. unfold up. destruct (c =? k); auto. Qed.

Lemma process_ok t k v : length t = 256%nat -> 0 <= k -> k < 256 -> 0 <= v < 256 ->
  exists t', process_xlt t k v = Some t' /\ length t' = 256%nat /\
   forall c, is_byte c -> tr t' c = up (tr t) k v c.
Proof.
  intros L H0 H1 H2. unfold process_xlt. replace ((256 <=? k) || (256 <=? k)) with false by lia.
  rewrite Z.mod_small by lia.
  destruct (mset_ok t (Z.to_nat k) v) as (t' & E & L'); [lia|]. exists t'. split; [exact E|]. split; [lia|].
  intros c Hc. eapply mset_tr; eauto.
Qed.

Lemma set_ok t k v : length t = 256%nat -> 0 <= k < 256 ->
  exists t', mset t (Z.to_nat k) v = Some t' /\ length t' = 256%nat /\
   forall c, is_byte c -> tr t' c = up (tr t) k v c.
Proof.
  intros L H.
  destruct (mset_ok t (Z.to_nat k) v) as (t' & E & L'); [lia|]. exists t'. split; [exact E|]. split; [lia|].
  intros c Hc. eapply mset_tr; eauto. lia.
Qed.

Lemma xlt_opts_ok l : forall io s, tables_ok io s ->
  Forall opt_nonneg l -> Forall opt_ok l -> Forall opt_true l ->
  exists io', xlt_opts io l = Some io' /\ tables_ok io' (spec_opts s l).
Proof.
  induction l as [|o l IH]; intros io s Hio Hn Hk Ht; cbn [xlt_opts].
  - exists io. auto.
  - pose proof (Forall_inv Hn) as Hn0. pose proof (Forall_inv Hk) as Hk0. pose proof (Forall_inv Ht) as Ht0.
    apply Forall_inv_tail in Hn, Hk, Ht. destruct io as [i u]. destruct Hio as (Li & Lu & HT).
    cbn [fst snd] in Li, Lu, HT.
    destruct o as [a b|a b|b|b]; cbn [opt_nonneg opt_ok opt_true] in Hn0, Hk0, Ht0; cbn [xlt_opt].
    + destruct (process_ok i a b) as (i' & -> & L' & T'); try lia. cbn [obind].
      apply IH; auto. split; [exact L'|]. split; [exact Lu|]. cbn [fst snd]. intros c Hc.
      destruct (HT c Hc) as [Q1 Q2]. split; [|exact Q2]. rewrite T' by auto. apply up_ext; auto.
    + destruct (process_ok u a b) as (i' & -> & L' & T'); try lia. cbn [obind].
      apply IH; auto. split; [exact Li|]. split; [exact L'|]. cbn [fst snd]. intros c Hc.
      destruct (HT c Hc) as [Q1 Q2]. split; [exact Q1|]. rewrite T' by auto. apply up_ext; auto.
    + subst b.
      destruct (set_ok i 13 10) as (i' & E1 & L1 & T1); [lia|lia|].
      destruct (set_ok u 10 13) as (u' & E2 & L2 & T2); [lia|lia|].
      change (Z.to_nat 13) with 13%nat in E1. change (Z.to_nat 10) with 10%nat in E2.
      rewrite E1. cbn [obind]. rewrite E2. cbn [obind].
      apply IH; auto. split; [exact L1|]. split; [exact L2|]. cbn [fst snd]. intros c Hc.
      destruct (HT c Hc) as [Q1 Q2]. rewrite T1, T2 by auto. split; apply up_ext; auto.
    + subst b.
      destruct (set_ok u 13 10) as (i' & E1 & L1 & T1); [lia|lia|].
      destruct (set_ok i 10 13) as (u' & E2 & L2 & T2); [lia|lia|].
      change (Z.to_nat 13) with 13%nat in E1. change (Z.to_nat 10) with 10%nat in E2.
      rewrite E1. cbn [obind]. rewrite E2. cbn [obind].
      apply IH; auto. split; [exact L2|]. split; [exact L1|]. cbn [fst snd]. intros c Hc.
      destruct (HT c Hc) as [Q1 Q2]. rewrite T1, T2 by auto. split; apply up_ext; auto.
Qed.

Lemma ident_ok : tables_ok (ident, ident) (fun c => c, fun c => c).
Proof.
  split; [reflexivity|]. split; [reflexivity|]. intros c Hc. cbn [fst snd].
  assert (Q : tr ident c = c); [|auto]. unfold tr, ident, is_byte in *.
  change 0 with (Z.of_nat 0). rewrite map_nth, seq_nth by lia. lia.
Qed.

Lemma xlt_config_ok l : Forall opt_nonneg l -> Forall opt_ok l -> Forall opt_true l ->
  exists i u, xlt_config l = Some (i, u) /\ length i = 256%nat /\ length u = 256%nat /\
    forall c, is_byte c ->
      tr i c = fst (spec_opts (fun c => c, fun c => c) l) c /\
      tr u c = snd (spec_opts (fun c => c, fun c => c) l) c.
Proof.
  intros A B C. destruct (xlt_opts_ok l _ _ ident_ok A B C) as ([i u] & E & T1 & T2 & T3).
  exists i, u. auto.
Qed.
