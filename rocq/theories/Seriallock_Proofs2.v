(** Exclusion. *)
From Verif Require Import Base Cstr_Model Heap_Model Heap_Proofs Seriallock_Model Seriallock_Spec Seriallock_Proofs.
From Coq Require Import Zify ZifyBool.
Open Scope Z_scope.

(** the user has made its first lock file *)
Definition busy1 (pc : lpc) : bool :=
  match pc with LWrite _ _ | LWrErr | LLink | LFlock | LExcl | LHeld | LRm1 _ => true | _ => false end.
(** ... may have made the second *)
Definition busy2 (pc : lpc) : bool :=
  match pc with LFlock | LExcl | LHeld | LRm1 _ | LRm2 _ => true | _ => false end.
Definition active pc := busy1 pc || busy2 pc.

Section I.
Variable lckdir : list Z.
Variable cfg : nat -> lcfg.
Hypothesis Ord : ordinary cfg.
Notation f1 := (file1 lckdir cfg).
Notation f2 := (file2 lckdir cfg).
Notation pid t := (lc_pid (cfg t)).

Definition good_data (dead : Z -> bool) (d : list Z) : Prop :=
  d = [] \/ exists p, 0 < p < 2 ^ 31 /\ dead p = false /\ d = fmt_pid p.

Record Inv (own : nat -> nat) (dir : list Z -> option nat) (data : nat -> list Z) (next : nat) (dead : Z -> bool) (pc : nat -> lpc) : Prop := {
  i_f1 : forall t, busy1 (pc t) = true -> dir (f1 t) = Some (own t);
  i_lt : forall t, active (pc t) = true -> (own t < next)%nat;
  i_inj : forall t u, active (pc t) = true -> active (pc u) = true -> own t = own u -> t = u;
  i_dir1 : forall u ino, dir (f1 u) = Some ino -> exists t, own t = ino /\ busy1 (pc t) = true /\ f1 t = f1 u;
  i_dir2 : forall u n ino, f2 u = Some n -> dir n = Some ino -> exists t, own t = ino /\ busy2 (pc t) = true /\ f2 t = Some n;
  i_data : forall t, active (pc t) = true -> data (own t) = [] \/ data (own t) = fmt_pid (pid t);
  i_write : forall t ino rest, pc t = LWrite ino rest -> ino = own t /\ data ino = [] /\ rest = fmt_pid (pid t);
  i_alive : forall t, pc t <> LIdle -> dead (pid t) = false;
  i_read : forall t b ino, pc t = LRead b ino -> (ino < next)%nat /\ good_data dead (data ino);
  i_kill : forall t b p, pc t = LKill b p -> 0 < p /\ dead p = false;
  i_unl : forall t b, pc t <> LUnlink b;
  i_rm : forall t e, pc t = LRm1 (Some e) \/ pc t = LRm2 (Some e) -> e <> 0 }.

Lemma f2_some t : exists n, f2 t = Some n.
Proof.
  destruct (Ord t) as (_ & H1 & H2 & _). unfold file2, svr4_lock.
  replace ((999 <? lc_maj (cfg t)) || (999 <? lc_min (cfg t))) with false by lia. eauto.
Qed.
Lemma f1_f2 t u n : f2 u = Some n -> f1 t <> n.
Proof. destruct (Ord u) as (_ & H1 & _). unfold file2, file1. apply names_differ. exact H1. Qed.

(** Two users with the same first file are the same *)
Lemma i_one own dir data next dead pc t u : Inv own dir data next dead pc ->
  busy1 (pc t) = true -> busy1 (pc u) = true -> f1 t = f1 u -> t = u.
Proof.
  intros I Ht Hu E. apply (i_inj _ _ _ _ _ _ I).
  - unfold active. rewrite Ht; reflexivity.
  - unfold active. rewrite Hu; reflexivity.
  - assert (A := i_f1 _ _ _ _ _ _ I t Ht). assert (B := i_f1 _ _ _ _ _ _ I u Hu). congruence.
Qed.

(** Moving on without a change of the files *)
Lemma inv_move own dir data next dead pc t c : Inv own dir data next dead pc ->
  busy1 c = busy1 (pc t) -> (busy2 (pc t) = true -> busy2 c = true) -> active c = active (pc t) ->
  (c <> LIdle -> dead (pid t) = false) ->
  (forall ino rest, c <> LWrite ino rest) ->
  (forall b ino, c = LRead b ino -> (ino < next)%nat /\ good_data dead (data ino)) ->
  (forall b p, c = LKill b p -> 0 < p /\ dead p = false) -> (forall b, c <> LUnlink b) ->
  (forall e, c = LRm1 (Some e) \/ c = LRm2 (Some e) -> e <> 0) ->
  Inv own dir data next dead (upd pc t c).
Proof.
  intros I H1 H2 Ha Hd Hw Hr Hk Hu Hm.
  assert (B1 : forall u, busy1 (upd pc t c u) = busy1 (pc u)).
  { intros u. unfold upd. destruct (u =? t)%nat eqn:E; [|reflexivity]. apply Nat.eqb_eq in E; subst; exact H1. }
  assert (A1 : forall u, active (upd pc t c u) = active (pc u)).
  { intros u. unfold upd. destruct (u =? t)%nat eqn:E; [|reflexivity]. apply Nat.eqb_eq in E; subst; exact Ha. }
  assert (B2 : forall u, busy2 (pc u) = true -> busy2 (upd pc t c u) = true).
  { intros u. unfold upd. destruct (u =? t)%nat eqn:E; [|tauto]. apply Nat.eqb_eq in E; subst; exact H2. }
  destruct I as [If1 Ilt Iinj Id1 Id2 Idata Iw Ial Ir Ik Iu Im].
  constructor.
  - intros u. rewrite B1. apply If1.
  - intros u. rewrite A1. apply Ilt.
  - intros u v. rewrite !A1. apply Iinj.
  - intros u ino H. destruct (Id1 _ _ H) as (v & X & Y & Z). exists v. rewrite B1. auto.
  - intros u n ino H H'. destruct (Id2 _ _ _ H H') as (v & X & Y & Z). exists v. auto.
  - intros u. rewrite A1. apply Idata.
  - intros u ino rest. unfold upd. destruct (u =? t)%nat eqn:E; [|apply Iw]. intros X. destruct (Hw _ _ X).
  - intros u. unfold upd. destruct (u =? t)%nat eqn:E; [|apply Ial]. apply Nat.eqb_eq in E; subst. exact Hd.
  - intros u b ino. unfold upd. destruct (u =? t)%nat eqn:E; [|apply Ir]. apply Hr.
  - intros u b p. unfold upd. destruct (u =? t)%nat eqn:E; [|apply Ik]. apply Hk.
  - intros u b. unfold upd. destruct (u =? t)%nat eqn:E; [|apply Iu]. apply Hu.
  - intros u e. unfold upd. destruct (u =? t)%nat eqn:E; [|apply Im]. apply Hm.
Qed.

Definition inv_of own s := Inv own (ls_dir s) (ls_data s) (ls_next s) (ls_dead s) (ls_pc s).

(** The parts of the state that the invariant does not speak of *)
Lemma drop_same s t : let s' := drop_flk cfg s t in
  ls_dir s' = ls_dir s /\ ls_data s' = ls_data s /\ ls_next s' = ls_next s /\ ls_dead s' = ls_dead s /\ ls_pc s' = ls_pc s.
Proof. cbv zeta. unfold drop_flk. destruct (ls_flk s _) as [u|]; [destruct (u =? t)%nat|]; cbn; auto. Qed.
Lemma lreturn_pc s t e : let s' := lreturn cfg s t e in
  ls_dir s' = ls_dir s /\ ls_data s' = ls_data s /\ ls_next s' = ls_next s /\ ls_dead s' = ls_dead s /\
  ls_pc s' = upd (ls_pc s) t (if e =? 0 then LHeld else LIdle).
Proof.
  cbv zeta. unfold lreturn. destruct (e =? 0); cbn; [auto|].
  destruct (drop_same (set_pc s t LIdle) t) as (A & B & C & D & E). rewrite A, B, C, D, E. cbn. auto.
Qed.
Lemma inv_ret own s t e : Inv own (ls_dir s) (ls_data s) (ls_next s) (ls_dead s) (upd (ls_pc s) t (if e =? 0 then LHeld else LIdle)) ->
  inv_of own (lreturn cfg s t e).
Proof. unfold inv_of. destruct (lreturn_pc s t e) as (-> & -> & -> & -> & ->). tauto. Qed.

Ltac mv H := apply inv_move; rewrite ?H; cbn; auto; try discriminate; try (intros; discriminate); try (intros ? [?|?]; discriminate).

Lemma inv_checked own s t b p : inv_of own s -> active (ls_pc s t) = false -> ls_pc s t <> LIdle ->
  inv_of own (checked cfg s t b p).
Proof.
  intros I Ha Hi. pose proof (i_alive _ _ _ _ _ _ I t Hi) as Hl.
  assert (B1 : busy1 (ls_pc s t) = false) by (unfold active in Ha; destruct (busy1 _); [discriminate|reflexivity]).
  assert (B2 : busy2 (ls_pc s t) = false) by (unfold active in Ha; destruct (busy2 _); [rewrite orb_true_r in Ha; discriminate|reflexivity]).
  unfold checked. destruct (p =? 0).
  - unfold inv_of, set_pc. cbn. destruct b; (apply inv_move; rewrite ?B1, ?B2, ?Ha; cbn; auto; try discriminate; try (intros; discriminate); try (intros ? [?|?]; discriminate)).
  - apply inv_ret. destruct (p <? 0); cbn; (apply inv_move; rewrite ?B1, ?B2, ?Ha; cbn; auto; try discriminate; try (intros; discriminate); try (intros ? [?|?]; discriminate); congruence).
Qed.

(** Removing the first file: the user is no longer active in it.  [c] keeps the
    claim on the second. *)
Lemma inv_unl1 own dir data next dead pc t c : Inv own dir data next dead pc -> busy1 (pc t) = true ->
  busy1 c = false -> busy2 c = busy2 (pc t) -> (c <> LIdle -> dead (pid t) = false) ->
  (c = LIdle \/ exists k, c = LRm2 k /\ pc t = LRm1 k) ->
  Inv own (upd_name dir (f1 t) None) data next dead (upd pc t c).
Proof.
  intros I Hb H1 H2 Hd Hc.
  assert (One := fun u => i_one _ _ _ _ _ _ t u I Hb).
  destruct I as [If1 Ilt Iinj Id1 Id2 Idata Iw Ial Ir Ik Iu Im].
  assert (Ac : active c = true -> active (pc t) = true) by (unfold active; rewrite Hb; reflexivity).
  assert (A1 : forall u, active (upd pc t c u) = true -> active (pc u) = true).
  { intros u. unfold upd. destruct (u =? t)%nat eqn:E; [|tauto]. apply Nat.eqb_eq in E; subst; exact Ac. }
  assert (B2 : forall u, busy2 (upd pc t c u) = busy2 (pc u)).
  { intros u. unfold upd. destruct (u =? t)%nat eqn:E; [|tauto]. apply Nat.eqb_eq in E; subst; exact H2. }
  constructor.
  - intros u. unfold upd at 1. destruct (u =? t)%nat eqn:E; [congruence|]. apply Nat.eqb_neq in E.
    intros Hu. rewrite un_diff; [apply If1; exact Hu|]. intros F. apply E. symmetry. apply One; auto.
  - intros u H. apply Ilt, A1, H.
  - intros u v H H'. apply Iinj; apply A1; assumption.
  - intros u ino H. unfold upd_name in H. destruct (leq _ _) eqn:L; [discriminate|].
    destruct (Id1 _ _ H) as (v & X & Y & Z). exists v.
    assert (v <> t). { intros ->. rewrite <- Z in L. rewrite (proj2 (leq_eq _ _) eq_refl) in L. discriminate. }
    rewrite upd_diff by auto. auto.
  - intros u n ino Hn H. rewrite un_diff in H by (intros F; apply (f1_f2 t u n Hn); congruence).
    destruct (Id2 _ _ _ Hn H) as (v & X & Y & Z). exists v. rewrite B2. auto.
  - intros u H. apply Idata, A1, H.
  - intros u ino rest. unfold upd. destruct (u =? t)%nat eqn:E; [|apply Iw]. destruct Hc as [-> | [k [-> _]]]; discriminate.
  - intros u. unfold upd. destruct (u =? t)%nat eqn:E; [|apply Ial]. apply Nat.eqb_eq in E; subst. exact Hd.
  - intros u b ino. unfold upd. destruct (u =? t)%nat eqn:E; [|apply Ir]. destruct Hc as [-> | [k [-> _]]]; discriminate.
  - intros u b p. unfold upd. destruct (u =? t)%nat eqn:E; [|apply Ik]. destruct Hc as [-> | [k [-> _]]]; discriminate.
  - intros u b. unfold upd. destruct (u =? t)%nat eqn:E; [|apply Iu]. destruct Hc as [-> | [k [-> _]]]; discriminate.
  - intros u e. unfold upd. destruct (u =? t)%nat eqn:E; [|apply Im].
    destruct Hc as [-> | [k [-> Hk]]]; [intros [X|X]; discriminate|]. intros [X|X]; [discriminate|].
    apply (Im t). left. congruence.
Qed.

(** Removing the second file *)
Lemma inv_unl2 own dir data next dead pc t c n : Inv own dir data next dead pc -> (exists k, pc t = LRm2 k) -> f2 t = Some n ->
  (c = LIdle \/ c = LUnflock) ->
  Inv own (upd_name dir n None) data next dead (upd pc t c).
Proof.
  intros I [k Hp] Hn Hc.
  destruct I as [If1 Ilt Iinj Id1 Id2 Idata Iw Ial Ir Ik Iu Im].
  assert (Nb : active c = false) by (destruct Hc as [-> | ->]; reflexivity).
  assert (N1 : busy1 c = false) by (destruct Hc as [-> | ->]; reflexivity).
  assert (A1 : forall u, active (upd pc t c u) = true -> active (pc u) = true).
  { intros u. unfold upd. destruct (u =? t)%nat eqn:E; [congruence|tauto]. }
  assert (B1 : forall u, busy1 (upd pc t c u) = busy1 (pc u)).
  { intros u. unfold upd. destruct (u =? t)%nat eqn:E; [|tauto]. apply Nat.eqb_eq in E; subst. rewrite Hp; exact N1. }
  constructor.
  - intros u. rewrite B1. intros Hu. rewrite un_diff; [apply If1; exact Hu|]. apply (f1_f2 u t n Hn).
  - intros u H. apply Ilt, A1, H.
  - intros u v H H'. apply Iinj; apply A1; assumption.
  - intros u ino H. rewrite un_diff in H by apply (f1_f2 u t n Hn).
    destruct (Id1 _ _ H) as (v & X & Y & Z). exists v. rewrite B1. auto.
  - intros u m ino Hm H. unfold upd_name in H. destruct (leq _ _) eqn:L; [discriminate|].
    destruct (Id2 _ _ _ Hm H) as (v & X & Y & Z). exists v.
    assert (v <> t). { intros ->. assert (m = n) by congruence. subst. rewrite (proj2 (leq_eq _ _) eq_refl) in L. discriminate. }
    rewrite upd_diff by auto. auto.
  - intros u H. apply Idata, A1, H.
  - intros u ino rest. unfold upd. destruct (u =? t)%nat eqn:E; [|apply Iw]. destruct Hc as [-> | ->]; discriminate.
  - intros u. unfold upd. destruct (u =? t)%nat eqn:E; [|apply Ial]. apply Nat.eqb_eq in E; subst. intros _. apply Ial. rewrite Hp. discriminate.
  - intros u b ino. unfold upd. destruct (u =? t)%nat eqn:E; [|apply Ir]. destruct Hc as [-> | ->]; discriminate.
  - intros u b p. unfold upd. destruct (u =? t)%nat eqn:E; [|apply Ik]. destruct Hc as [-> | ->]; discriminate.
  - intros u b. unfold upd. destruct (u =? t)%nat eqn:E; [|apply Iu]. destruct Hc as [-> | ->]; discriminate.
  - intros u e. unfold upd. destruct (u =? t)%nat eqn:E; [|apply Im].
    destruct Hc as [-> | ->]; intros [X|X]; discriminate.
Qed.

(** Creating the first file *)
Lemma inv_create own dir data next dead pc t : Inv own dir data next dead pc -> pc t = LCreate -> dir (f1 t) = None ->
  Inv (upd own t next) (upd_name dir (f1 t) (Some next)) (upd data next []) (S next) dead (upd pc t (LWrite next (fmt_pid (pid t)))).
Proof.
  intros I Hp Hn.
  destruct I as [If1 Ilt Iinj Id1 Id2 Idata Iw Ial Ir Ik Iu Im].
  assert (OL : forall u, u <> t -> active (pc u) = true -> own u <> next).
  { intros u _ H. specialize (Ilt u H). lia. }
  constructor.
  - intros u. unfold upd. destruct (u =? t)%nat eqn:E.
    + apply Nat.eqb_eq in E; subst. intros _. apply un_same.
    + intros H. rewrite un_diff; [apply If1; exact H|]. intros F. specialize (If1 u H). congruence.
  - intros u. unfold upd. destruct (u =? t)%nat eqn:E; [lia|]. intros H. specialize (Ilt u H). lia.
  - intros u v. destruct (Nat.eq_dec u t) as [->|E]; destruct (Nat.eq_dec v t) as [->|F]; rewrite ?upd_same; rewrite ?(upd_diff _ t u), ?(upd_diff _ t v) by auto; auto.
    + intros _ H X. destruct (OL v F H); auto.
    + intros H _ X. destruct (OL u E H); auto.
  - intros u ino H. unfold upd_name in H. destruct (leq _ _) eqn:L.
    + apply leq_eq in L. injection H as <-. exists t. rewrite !upd_same. auto.
    + destruct (Id1 _ _ H) as (v & X & Y & Z). exists v.
      assert (v <> t) by (intros ->; rewrite Hp in Y; discriminate).
      rewrite !upd_diff by auto. auto.
  - intros u n ino Hf H. rewrite un_diff in H by (intros F; apply (f1_f2 t u n Hf); congruence).
    destruct (Id2 _ _ _ Hf H) as (v & X & Y & Z). exists v.
    assert (v <> t) by (intros ->; rewrite Hp in Y; discriminate).
    rewrite !upd_diff by auto. auto.
  - intros u. destruct (Nat.eq_dec u t) as [->|E].
    + intros _. rewrite !upd_same. left. reflexivity.
    + rewrite !(upd_diff _ t u) by auto. intros H. rewrite upd_diff by (apply OL; auto). apply Idata; exact H.
  - intros u ino rest. destruct (Nat.eq_dec u t) as [->|E].
    + rewrite !upd_same. intros X. injection X as <- <-. rewrite upd_same. auto.
    + rewrite !(upd_diff _ t u) by auto. intros X. destruct (Iw _ _ _ X) as (Y & Z & W). split; [exact Y|].
      rewrite upd_diff; [auto|]. subst. apply OL; auto. rewrite X. reflexivity.
  - intros u. unfold upd. destruct (u =? t)%nat eqn:E; [|apply Ial]. apply Nat.eqb_eq in E; subst. intros _. apply Ial. rewrite Hp. discriminate.
  - intros u b ino. unfold upd at 1. destruct (u =? t)%nat eqn:E; [discriminate|]. intros X. destruct (Ir _ _ _ X) as [Y Z].
    split; [lia|]. rewrite upd_diff by lia. exact Z.
  - intros u b p. unfold upd. destruct (u =? t)%nat eqn:E; [discriminate|apply Ik].
  - intros u b. unfold upd. destruct (u =? t)%nat eqn:E; [discriminate|apply Iu].
  - intros u e. unfold upd. destruct (u =? t)%nat eqn:E; [intros [X|X]; discriminate|apply Im].
Qed.

(** Writing the process id *)
Lemma inv_write own dir data next dead pc t ino rest : Inv own dir data next dead pc -> pc t = LWrite ino rest ->
  Inv own dir (upd data ino (data ino ++ rest)) next dead (upd pc t LLink).
Proof.
  intros I Hp. pose proof (i_write _ _ _ _ _ _ I _ _ _ Hp) as (Ho & Hd & Hr).
  destruct I as [If1 Ilt Iinj Id1 Id2 Idata Iw Ial Ir Ik Iu Im].
  rewrite Hd, Hr. cbn [app]. subst ino.
  assert (At : active (pc t) = true) by (rewrite Hp; reflexivity).
  assert (B1 : forall u, busy1 (upd pc t LLink u) = busy1 (pc u)).
  { intros u. unfold upd. destruct (u =? t)%nat eqn:E; [|reflexivity]. apply Nat.eqb_eq in E; subst. rewrite Hp; reflexivity. }
  assert (B2 : forall u, busy2 (upd pc t LLink u) = busy2 (pc u)).
  { intros u. unfold upd. destruct (u =? t)%nat eqn:E; [|reflexivity]. apply Nat.eqb_eq in E; subst. rewrite Hp; reflexivity. }
  assert (A1 : forall u, active (upd pc t LLink u) = active (pc u)) by (intros u; unfold active; rewrite B1, B2; reflexivity).
  constructor.
  - intros u. rewrite B1. apply If1.
  - intros u. rewrite A1. apply Ilt.
  - intros u v. rewrite !A1. apply Iinj.
  - intros u i H. destruct (Id1 _ _ H) as (v & X & Y & Z). exists v. rewrite B1. auto.
  - intros u n i H H'. destruct (Id2 _ _ _ H H') as (v & X & Y & Z). exists v. rewrite B2. auto.
  - intros u. rewrite A1. intros H. destruct (Nat.eq_dec u t) as [->|E]; [rewrite upd_same; auto|].
    rewrite upd_diff; [apply Idata; exact H|]. intros F. apply E. apply Iinj; auto.
  - intros u i rst. unfold upd at 1. destruct (u =? t)%nat eqn:E; [discriminate|]. apply Nat.eqb_neq in E.
    intros X. destruct (Iw _ _ _ X) as (Y & Z & W). subst i. split; [reflexivity|]. split; [|exact W].
    rewrite upd_diff; [exact Z|]. intros F. apply E. apply Iinj; auto. rewrite X; reflexivity.
  - intros u. unfold upd. destruct (u =? t)%nat eqn:E; [|apply Ial]. apply Nat.eqb_eq in E; subst. intros _. apply Ial. rewrite Hp. discriminate.
  - intros u b i. unfold upd at 1. destruct (u =? t)%nat eqn:E; [discriminate|]. intros X. destruct (Ir _ _ _ X) as [Y Z].
    split; [exact Y|]. destruct (Nat.eq_dec i (own t)) as [->|F]; [rewrite upd_same|rewrite upd_diff by auto; exact Z].
    right. exists (pid t). split; [apply Ord|]. split; [apply Ial; rewrite Hp; discriminate | reflexivity].
  - intros u b p. unfold upd. destruct (u =? t)%nat eqn:E; [discriminate|apply Ik].
  - intros u b. unfold upd. destruct (u =? t)%nat eqn:E; [discriminate|apply Iu].
  - intros u e. unfold upd. destruct (u =? t)%nat eqn:E; [intros [X|X]; discriminate|apply Im].
Qed.

(** Linking the second name *)
Lemma inv_link own dir data next dead pc t n : Inv own dir data next dead pc -> pc t = LLink -> f2 t = Some n ->
  Inv own (upd_name dir n (Some (own t))) data next dead (upd pc t LFlock).
Proof.
  intros I Hp Hn.
  destruct I as [If1 Ilt Iinj Id1 Id2 Idata Iw Ial Ir Ik Iu Im].
  assert (B1 : forall u, busy1 (upd pc t LFlock u) = busy1 (pc u)).
  { intros u. unfold upd. destruct (u =? t)%nat eqn:E; [|reflexivity]. apply Nat.eqb_eq in E; subst. rewrite Hp; reflexivity. }
  assert (A1 : forall u, active (upd pc t LFlock u) = active (pc u)).
  { intros u. unfold upd. destruct (u =? t)%nat eqn:E; [|reflexivity]. apply Nat.eqb_eq in E; subst. rewrite Hp; reflexivity. }
  assert (B2 : forall u, busy2 (pc u) = true -> busy2 (upd pc t LFlock u) = true).
  { intros u. unfold upd. destruct (u =? t)%nat eqn:E; [reflexivity|tauto]. }
  constructor.
  - intros u. rewrite B1. intros H. rewrite un_diff; [apply If1; exact H | apply (f1_f2 u t n Hn)].
  - intros u. rewrite A1. apply Ilt.
  - intros u v. rewrite !A1. apply Iinj.
  - intros u i H. rewrite un_diff in H by apply (f1_f2 u t n Hn). destruct (Id1 _ _ H) as (v & X & Y & Z). exists v. rewrite B1. auto.
  - intros u m i H H'. unfold upd_name in H'. destruct (leq m n) eqn:L.
    + apply leq_eq in L. subst m. injection H' as <-. exists t. rewrite upd_same. auto.
    + destruct (Id2 _ _ _ H H') as (v & X & Y & Z). exists v. auto.
  - intros u. rewrite A1. apply Idata.
  - intros u i rst. unfold upd. destruct (u =? t)%nat eqn:E; [discriminate|apply Iw].
  - intros u. unfold upd. destruct (u =? t)%nat eqn:E; [|apply Ial]. apply Nat.eqb_eq in E; subst. intros _. apply Ial. rewrite Hp. discriminate.
  - intros u b i. unfold upd. destruct (u =? t)%nat eqn:E; [discriminate|apply Ir].
  - intros u b p. unfold upd. destruct (u =? t)%nat eqn:E; [discriminate|apply Ik].
  - intros u b. unfold upd. destruct (u =? t)%nat eqn:E; [discriminate|apply Iu].
  - intros u e. unfold upd. destruct (u =? t)%nat eqn:E; [intros [X|X]; discriminate|apply Im].
Qed.
End I.
