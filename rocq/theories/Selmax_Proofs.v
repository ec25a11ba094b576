(** Proofs about the table of file descriptors. *)
From Verif Require Import Base Heap_Model Heap_Proofs Selmax_Model.
Open Scope nat_scope.

Section Max.
  Variable FDS : nat.
  Hypothesis HP : 0 < FDS.

  (** with all numbers below FD_SETSIZE every chain has one descriptor *)
  Definition MI (s : mst) (h : list (bool * nat)) : Prop :=
    (forall i, match m_fds s i with [] => registered i h = false | [(u, b)] => u = i /\ b = registered i h /\ i < FDS | _ => False end) /\
    (forall fd, registered fd h = true -> fd < m_num s) /\ m_num s <= FDS.

  Lemma mod_small fd : fd < FDS -> fd mod FDS = fd.
  Proof. apply Nat.mod_small. Qed.
  Lemma find_one fd b : find_fd fd [(fd, b)] = Some b.
  Proof. unfold find_fd. cbn. rewrite Nat.eqb_refl. reflexivity. Qed.
  Lemma mark_one fd b c : mark fd c [(fd, b)] = [(fd, c)].
  Proof. cbn. rewrite Nat.eqb_refl. reflexivity. Qed.

  Lemma set_ok s h fd : MI s h -> fd < FDS -> MI (fst (m_set FDS s fd)) ((true, fd) :: h).
  Proof.
    intros (T & C & B) L. unfold m_set. rewrite (proj2 (Nat.ltb_lt fd FDS) L), andb_false_r. rewrite (mod_small fd L). cbn [fst].
    pose proof (T fd) as Tf.
    assert (X : (match find_fd fd (m_fds s fd) with Some _ => mark fd true (m_fds s fd) | None => (fd, true) :: m_fds s fd end) = [(fd, true)]).
    { destruct (m_fds s fd) as [|[u b] [|? ?]]; [reflexivity| |destruct Tf]. destruct Tf as (-> & _). rewrite find_one, mark_one. reflexivity. }
    rewrite X.
    assert (Y : forall b, (if match find_fd fd (m_fds s fd) with Some true => false | _ => true end then Nat.max (m_num s) (S fd) else m_num s) = b -> m_num s <= b /\ fd < b /\ b <= FDS).
    { intros b E. destruct (m_fds s fd) as [|[u c] [|? ?]] eqn:Ef; [cbn in E; lia| |destruct Tf]. destruct Tf as (-> & Ec & _). rewrite find_one in E. destruct c; [|lia]. symmetry in Ec. specialize (C fd Ec). lia. }
    split; [|split]; cbn [m_fds m_num].
    - intros i. cbn [registered]. destruct (Nat.eq_dec i fd) as [->|N]; [rewrite upd_same, Nat.eqb_refl; auto|]. rewrite upd_diff by exact N. rewrite (proj2 (Nat.eqb_neq fd i)) by congruence. exact (T i).
    - intros u. cbn [registered]. destruct (Y _ eq_refl) as (Y1 & Y2 & _). destruct (Nat.eqb_spec fd u); [subst; auto|]. intros R. specialize (C u R). lia.
    - exact (proj2 (proj2 (Y _ eq_refl))).
  Qed.

  Lemma down_ok (t : nat -> list (nat * bool)) n : n <= FDS -> exists m, m_down FDS t n = Some m /\ m <= n /\ (forall i, m <= i -> i < n -> match t i with (_, true) :: _ => False | _ => True end).
  Proof.
    induction n as [|n IH]; intros L; cbn [m_down]; [exists 0; repeat split; [lia|intros; lia]|]. rewrite (proj2 (Nat.ltb_lt n FDS)) by lia. cbn [guard obind].
    destruct (t n) as [|[u [|]] l] eqn:E.
    2: { exists (S n). repeat split; [lia|intros; lia]. }
    all: destruct (IH ltac:(lia)) as (m & E1 & L1 & A); exists m; split; [exact E1|]; split; [lia|]; intros i I1 I2; destruct (Nat.eq_dec i n) as [->|N]; [rewrite E; exact I|apply A; lia].
  Qed.

  Lemma clear_ok s h fd : MI s h -> exists s', m_clear FDS s fd = Some s' /\ (fd < FDS -> MI s' ((false, fd) :: h)).
  Proof.
    intros (T & C & B). unfold m_clear, get_fd.
    assert (Sm : forall fd, fd < FDS -> m_fds s fd = [] -> MI s ((false, fd) :: h)).
    { intros u L E. split; [|split]; [|intros w; cbn [registered]; destruct (u =? w); [discriminate|apply C]|exact B].
      intros i. specialize (T i). cbn [registered]. destruct (Nat.eqb_spec u i); [|exact T]. subst. rewrite E. reflexivity. }
    set (i := fd mod FDS). pose proof (T i) as Ti. destruct (m_fds s i) as [|[u b] [|? ?]] eqn:Ei; [| |destruct Ti].
    - exists s. split; [reflexivity|]. intros L. apply Sm; [exact L|]. rewrite <- (mod_small fd L). exact Ei.
    - destruct Ti as (-> & Eb & Li). unfold find_fd. cbn [find fst]. destruct (Nat.eqb_spec i fd) as [Ef|Nf].
      + cbn [snd]. rewrite <- Ef. rewrite mark_one.
        set (t := upd (m_fds s) i [(i, false)]).
        assert (Dn : exists n, (if S i =? m_num s then m_down FDS t (m_num s) else Some (m_num s)) = Some n /\ n <= m_num s /\
          (forall j, n <= j -> j < m_num s -> match t j with (_, true) :: _ => False | _ => True end)).
        { destruct (S i =? m_num s); [apply down_ok, B|]. exists (m_num s). repeat split; [lia|intros; lia]. }
        destruct Dn as (n & E1 & L1 & A). rewrite E1. cbn [obind]. eexists. split; [reflexivity|]. intros _. split; [|split]; cbn [m_fds m_num]; [| |lia].
        * intros j. unfold t. cbn [registered]. destruct (Nat.eqb_spec i j); [subst j; rewrite upd_same; auto|rewrite upd_diff by congruence; exact (T j)].
        * intros j. cbn [registered]. destruct (Nat.eqb_spec i j) as [|N]; [discriminate|]. intros R. pose proof (C j R) as Lj. destruct (Nat.lt_ge_cases j n) as [G|G]; [exact G|]. exfalso.
          specialize (A j G Lj). unfold t in A. rewrite upd_diff in A by congruence. specialize (T j). destruct (m_fds s j) as [|[u c] [|? ?]]; [congruence| |destruct T]. destruct T as (_ & -> & _). rewrite R in A. exact A.
      + exists s. split; [reflexivity|]. intros L. exfalso. apply Nf. exact (mod_small fd L).
  Qed.

  Lemma run_gen es : forall s h, MI s h -> (forall e, In e es -> snd e < FDS) -> exists s', m_run FDS es s = Some s' /\ MI s' (rev es ++ h).
  Proof.
    induction es as [|[b fd] es IH]; intros s h H L; cbn [m_run]; [eauto|].
    assert (Lf : fd < FDS) by exact (L (b, fd) (or_introl eq_refl)).
    assert (X : exists s1, m_step FDS s (b, fd) = Some s1 /\ MI s1 ((b, fd) :: h)).
    { unfold m_step. cbn [fst snd]. destruct b; [eexists; split; [reflexivity|apply set_ok; assumption]|]. destruct (clear_ok s h fd H) as (s1 & E & M). eauto. }
    destruct X as (s1 & -> & M). cbn [obind]. destruct (IH s1 _ M) as (s2 & E2 & M2); [intros e I; apply L; right; exact I|].
    exists s2. split; [exact E2|]. cbn [rev]. rewrite <- app_assoc. exact M2.
  Qed.
  (** descriptors that are refused change nothing; those cleared were set *)
  Lemma run_small ev es : (forall e, In e es -> snd e < FDS) -> exists s, m_run FDS es (m_init ev) = Some s /\
    forall fd, registered fd (rev es) = true -> fd < m_num s.
  Proof.
    intros L. destruct (run_gen es (m_init ev) []) as (s & E & (_ & C & _)); [|exact L|].
    - split; [intros i; reflexivity|]. split; [discriminate|cbn; lia].
    - rewrite app_nil_r in C. eauto.
  Qed.
End Max.

Lemma big_crash FDS : 0 < FDS -> m_run FDS [(true, FDS); (false, FDS)] (m_init true) = None.
Proof.
  intros H. unfold m_run, m_step, m_init. cbn [fst snd obind]. unfold m_set. cbn [m_ev negb andb]. rewrite Nat.mod_same by lia.
  unfold m_clear, get_fd. cbn [m_fds find_fd find fst m_num]. rewrite Nat.mod_same by lia. rewrite upd_same. unfold find_fd. cbn [find fst]. rewrite Nat.eqb_refl.
  replace (Nat.max 0 (S FDS)) with (S FDS) by lia. rewrite Nat.eqb_refl. cbn [m_down]. rewrite (proj2 (Nat.ltb_ge FDS FDS)) by lia. reflexivity.
Qed.
