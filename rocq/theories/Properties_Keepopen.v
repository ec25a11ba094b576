(** Theorems about the keepopen gensio. *)
From Verif Require Import Base Keepopen_Model Keepopen_Spec Keepopen_Proofs Keepopen_Proofs2.
Open Scope nat_scope.

(** ** No call fails a check, locks up or uses freed memory *)
(** Whatever the user, the child, the timer and threads in callbacks do, except calls at the
    moments named in [calm].  (Missing: those moments, refuted below.) *)
Theorem C143_safe_partial : forall dis es, calm_run es (keepn_alloc dis) -> exists s, krun es (keepn_alloc dis) = Some s.
Proof. intros dis es C. destruct (run_ok es _ (alloc_inv dis) C) as (s & H & _). exists s. exact H. Qed.
Print Assumptions C143_safe_partial.
(** failing opens, a read error, a failing write, a close while opening again, a new open, a free in
    the close callback *)
Definition busy : list kev :=
  [EOpen 5; ERx true; EFire; ERun 0; EBack KTO; EFire; ERun 7; EFire; ERun 0; EOpened 9; EBack KFail; EFire; ERun 0; EOpened 0; EBack KRest;
   EError 3 0; EClosed; EFire; ERun 0; EOpened 0; EBack KRest; EWrite [1; 2; 3]%Z 0 2 0; EWrite [3]%Z 4 0 8; EFire; ERun 0; EClose 0 true; EClosed; EOpen 0; EBack KCC;
   EOpened 0; EBack KO; EClose 0 true; EClosed; EFree; EBack KCC].
Example safe_case : calm_run busy (keepn_alloc false) /\ match krun busy (keepn_alloc false) with Some s => k_ref s = 0 | None => False end.
Proof. split; vm_compute; repeat split. Qed.

(** The user closes while the child is being opened (for the first time or again); the child
    reports its open as failed, as man/gensio_close.3 allows, and the assert in keepn_open_done fails. *)
Theorem C143_close_opening_refuted : krun [EOpen 0; EClose 0 false; EOwed 35] (keepn_alloc false) = None /\
  krun [EOpen 0; EOpened 0; EBack KO; EError 3 0; EClosed; EFire; ERun 0; EClose 0 false; EOwed 35] (keepn_alloc false) = None.
Proof. split; reflexivity. Qed.
Print Assumptions C143_close_opening_refuted.
(** The user closes while the log handler is told that the child could not be opened: the timer is
    started twice and the assert fails. *)
Theorem C143_close_log_refuted : krun [EOpen 0; EOpened 5; EClose 0 true; EBack KFail] (keepn_alloc false) = None.
Proof. reflexivity. Qed.
Print Assumptions C143_close_log_refuted.
(** Freeing an open or opening keepopen takes a lock it holds; freeing a closing one fails an
    assert when the close is done. *)
Theorem C143_free_refuted : krun [EOpen 0; EOpened 0; EBack KO; EFree] (keepn_alloc false) = None /\ krun [EOpen 0; EFree] (keepn_alloc false) = None /\
  krun [EOpen 0; EOpened 0; EBack KO; EClose 0 true; EFree; EClosed] (keepn_alloc false) = None.
Proof. repeat split. Qed.
Print Assumptions C143_free_refuted.

(** ** Open and close are answered once *)
(** What the user sees keeps to the order of [vstep]: one successful open callback for each accepted
    open, one close callback for each accepted close, the open answered before the close, nothing
    else.  When nothing is on its way nothing is owed.  (Missing: the moments of [calm]; refuted.) *)
Theorem C144_once_partial : forall dis es s, calm_run es (keepn_alloc dis) -> krun es (keepn_alloc dis) = Some s ->
  (exists v, view (k_tr s) = Some v) /\ (quiet s -> view (k_tr s) = Some VIdle \/ view (k_tr s) = Some VOpen \/ view (k_tr s) = Some (VFreed false)).
Proof.
  intros dis es s C H. destruct (run_ok es _ (alloc_inv dis) C) as (s1 & H1 & I). assert (s1 = s) by congruence. subst s1. split; [destruct I as (_ & V); eauto|].
  intros Q. destruct (quiet_ok s I Q) as [(V & _)|[(V & _)|(V & _)]]; auto.
Qed.
Print Assumptions C144_once_partial.
(** An owed callback is never out of reach: if the user makes no call, there is a way on to where
    the open or the close was answered. *)
Theorem C144_comes_partial : forall dis es s, calm_run es (keepn_alloc dis) -> krun es (keepn_alloc dis) = Some s ->
  (view (k_tr s) = Some VOpeningClosing \/ view (k_tr s) = Some VClosing) -> exists es' s', Forall not_user es' /\ krun es' s = Some s' /\ view (k_tr s') = Some VIdle.
Proof.
  intros dis es s C H W. destruct (run_ok es _ (alloc_inv dis) C) as (s1 & H1 & I). assert (s1 = s) by congruence. subst s1.
  assert (W' : vof s = VOpeningClosing \/ vof s = VClosing) by (destruct I as (_ & V); destruct W; [left|right]; congruence).
  destruct (kinv_leads s _ I (closes s I W')) as (es' & s' & F & R & (_ & V) & U & S0). exists es', s'. split; [exact F|]. split; [exact R|]. rewrite V. unfold vof. rewrite U, S0. reflexivity.
Qed.
Print Assumptions C144_comes_partial.
Example once_case : match krun (firstn 27 busy) (keepn_alloc false) with Some s => view (k_tr s) = Some VIdle /\ filter (fun o => match o with TOpen _ | TOpened _ | TClose _ | TClosed => true | _ => false end) (k_tr s) = [TClosed; TClose 0; TOpened 0; TOpen 0] | None => False end.
Proof. vm_compute. tauto. Qed.
Example comes_case : match krun [EOpen 5; EClose 0 true] (keepn_alloc false) with Some s => view (k_tr s) = Some VOpeningClosing | None => False end.
Proof. vm_compute. tauto. Qed.

(** A close accepted in the open callback (after a failed first open) is forgotten: nothing is on
    its way any more, the close is not answered, and the child is open. *)
Theorem C144_forgotten_refuted : exists es s, krun es (keepn_alloc false) = Some s /\ quiet s /\ view (k_tr s) = Some VClosing /\ k_ch s = XOpen.
Proof.
  exists [EOpen 5; EFire; ERun 0; EClose 0 true; EBack KTO; EFire; ERun 0; EOpened 0; EBack KRest]. eexists. split; [vm_compute; reflexivity|]. split; [|split; reflexivity].
  split; [reflexivity|]. split; [reflexivity|]. split; [discriminate|]. split; [discriminate|]. intros []; reflexivity.
Qed.
Print Assumptions C144_forgotten_refuted.
(** A close that returned the error of the child's close is carried out and answered nevertheless. *)
Theorem C144_error_refuted : exists es s, krun es (keepn_alloc false) = Some s /\ k_tr s = TClosed :: XCloseCall 5 :: TClose 5 :: tl (tl (tl (k_tr s))) /\ view (k_tr s) = None.
Proof. exists [EOpen 0; EOpened 0; EBack KO; EClose 5 true; EFire; ERun 0]. eexists. split; [vm_compute; reflexivity|]. split; reflexivity. Qed.
Print Assumptions C144_error_refuted.

(** ** It is kept open *)
(** With no call at the moments of [calm]: while the user has it open, the child is open, or a call
    of the child is not answered, or the timer will go off, or a callback is running. *)
Theorem C145_never_stuck : forall dis es s, calm_run es (keepn_alloc dis) -> krun es (keepn_alloc dis) = Some s ->
  view (k_tr s) = Some VOpening \/ view (k_tr s) = Some VOpen -> ~ quiet s \/ k_ch s = XOpen.
Proof.
  intros dis es s C H W. destruct (run_ok es _ (alloc_inv dis) C) as (s1 & H1 & I). assert (s1 = s) by congruence. subst s1.
  destruct (k_ch s) eqn:Ch; [| |right; reflexivity|]; left; intros Q; destruct (quiet_ok s I Q) as [(V & _)|[(_ & V)|(V & _)]]; try congruence; destruct W; congruence.
Qed.
Print Assumptions C145_never_stuck.
(** and from wherever it is, with the child opening when asked, it comes to be open without the user *)
Theorem C145_recovers : forall dis es s, calm_run es (keepn_alloc dis) -> krun es (keepn_alloc dis) = Some s ->
  view (k_tr s) = Some VOpening \/ view (k_tr s) = Some VOpen -> exists es' s', Forall not_user es' /\ krun es' s = Some s' /\ view (k_tr s') = Some VOpen /\ k_ch s' = XOpen.
Proof.
  intros dis es s C H W. destruct (run_ok es _ (alloc_inv dis) C) as (s1 & H1 & I). assert (s1 = s) by congruence. subst s1.
  assert (W' : vof s = VOpening \/ vof s = VOpen) by (destruct I as (_ & V); destruct W; [left|right]; congruence).
  destruct (kinv_leads s _ I (recovers s I W')) as (es' & s' & F & R & (Sh & V) & U & S0). exists es', s'. split; [exact F|]. split; [exact R|].
  unfold shape in Sh. rewrite S0 in Sh. destruct Sh as (_ & _ & _ & Sh). split; [|apply Sh]. rewrite V. unfold vof. rewrite U, S0. destruct Sh as (_ & _ & _ & _ & _ & _ & _ & Od & _). rewrite Od. reflexivity.
Qed.
Print Assumptions C145_recovers.
(** A child that reports an error, or refuses a write, is closed (and so opened again). *)
Theorem C145_error_closes : forall dis es s e s', calm_run es (keepn_alloc dis) -> krun es (keepn_alloc dis) = Some s -> nR (k_th s) = 0 ->
  k_user s = true -> (exists err c, err <> 0%Z /\ e = EError err c) \/ (exists d r n c, r <> 0%Z /\ e = EWrite d r n c) -> kstep e s = Some s' -> k_ch s' <> XOpen.
Proof.
  intros dis es s e s' C H N U E St. destruct (run_ok es _ (alloc_inv dis) C) as (s1 & H1 & I). assert (s1 = s) by congruence. subst s1. clear C H H1. revert St.
  destruct E as [(err & c & X & ->)|(d & r & n & c & X & ->)]; apply Z.eqb_neq in X; destruct I as (Sh & _);
    destruct s as [st ref od cd tmr fi [nf nr no nco nto nso ncc nsc] ch ow rx tx le di us tr]; unfold shape in Sh; cbn in Sh, N, U; subst; destruct st; khyp; khyp;
    cbn [Nat.add b2n clos]; knf; rewrite ?X; change (GE_NOTREADY =? 0)%Z with false; cbv beta iota zeta; try destruct (c =? 0)%Z; cbv beta iota zeta; intros Y; injection Y as <-; cbn; discriminate.
Qed.
Print Assumptions C145_error_closes.
Example stuck_case : match krun (firstn 25 busy) (keepn_alloc false) with Some s => view (k_tr s) = Some VOpen /\ k_ch s = XOpening /\ calm_run (firstn 25 busy) (keepn_alloc false) | None => False end.
Proof. vm_compute. repeat split. Qed.
Example error_case : match krun (firstn 22 busy) (keepn_alloc false) with Some s => k_ch s = XOpen /\ nR (k_th s) = 0 /\ k_user s = true | None => False end.
Proof. vm_compute. tauto. Qed.

(** ** Enables *)
(** While the child is open (and the log handler is not being told of it), what the child was last
    told since its open is what the user last asked for. *)
Theorem C146_enables : forall dis es s, calm_run es (keepn_alloc dis) -> krun es (keepn_alloc dis) = Some s -> k_ch s = XOpen -> nR (k_th s) = 0 ->
  child_rx (k_tr s) = Some (want_rx (k_tr s)) /\ child_tx (k_tr s) = Some (want_tx (k_tr s)).
Proof.
  intros dis es s C H Ch N. destruct (run_ok es _ (alloc_inv dis) C) as (s1 & H1 & (Sh & _)). assert (s1 = s) by congruence. subst s1.
  destruct (run_D es _ s (alloc_D dis) H) as (A & B & D & _). rewrite A, B. apply D. unfold shape in Sh. rewrite Ch, N in Sh. destruct (k_st s); decompose [and or] Sh; congruence.
Qed.
Print Assumptions C146_enables.
Example enables_case : match krun (firstn 22 busy) (keepn_alloc false) with Some s => k_ch s = XOpen /\ nR (k_th s) = 0 /\ want_rx (k_tr s) = true /\ want_tx (k_tr s) = false | None => False end.
Proof. vm_compute. tauto. Qed.

(** ** Writes *)
(** In every run: every write returns success, with no more than it was given; without
    discard-badwrites the bytes the user was told are written are exactly those the child took, in
    order. *)
Theorem C147_writes : forall dis es s, krun es (keepn_alloc dis) = Some s -> writes_ok (k_tr s) /\ (k_dis s = false -> told (k_tr s) = taken (k_tr s)).
Proof. intros dis es s H. destruct (run_D es _ s (alloc_D dis) H) as (_ & _ & _ & T & W). split; assumption. Qed.
Print Assumptions C147_writes.
(** with discard-badwrites a write the child refuses is reported as written in full *)
Theorem C147_discard : forall dis es s d r n c s', krun es (keepn_alloc dis) = Some s -> k_dis s = true -> k_user s = true -> (k_ch s <> XOpen \/ r <> 0%Z) -> kstep (EWrite d r n c) s = Some s' -> hd_error (k_tr s') = Some (TWrite d 0 (length d)).
Proof.
  intros dis es s d r n c s' H0 Di U N. pose proof (run_D es _ s (alloc_D dis) H0) as D0. cbn [kstep]. rewrite U. unfold keepn_write. set (e := match k_ch s with XOpen => r | _ => if (r =? 0)%Z then GE_NOTREADY else r end).
  assert (E : (e =? 0)%Z = false) by (unfold e; destruct (k_ch s), (r =? 0)%Z eqn:R; try reflexivity; try exact R; apply Z.eqb_eq in R; exfalso; destruct N; congruence).
  clearbody e. rewrite E. cbn [negb]. destruct (handle_io_err e c (put (XWrite d e 0) s)) as [s2|] eqn:F; cbn [obind]; [|discriminate]. intros H. injection H as <-.
  assert (D1 : DInv (put (XWrite d e 0) s)).
  { destruct D0 as (A & B & C & T & W). unfold DInv. cbn. split; [exact A|]. split; [exact B|]. split; [exact C|]. split; [intros X; rewrite app_nil_r; exact (T X)|]. apply writes_cons; [exact W|exact Logic.I]. }
  destruct (io_err_D e c _ s2 D1 F) as (_ & G & _). cbn. rewrite G. cbn. rewrite Di. reflexivity.
Qed.
Print Assumptions C147_discard.
Example writes_case : match krun (firstn 24 busy) (keepn_alloc false) with Some s => told (k_tr s) = [1; 2]%Z /\ In (TWrite [3]%Z 0 0) (k_tr s) | None => False end.
Proof. vm_compute. tauto. Qed.
Example discard_case : match krun [EOpen 0; EOpened 0; EBack KO; EWrite [3; 4]%Z 4 0 8] (keepn_alloc true) with Some s => hd_error (k_tr s) = Some (TWrite [3; 4]%Z 0 2) | None => False end.
Proof. vm_compute. tauto. Qed.

(** ** Free *)
(** With no call at the moments of [calm]: the memory is given back only after the user freed, and
    is given back when nothing is on its way any more.  (Missing: those moments; refuted.) *)
Theorem C148_free_partial : forall dis es s, calm_run es (keepn_alloc dis) -> krun es (keepn_alloc dis) = Some s ->
  (k_ref s = 0 -> In TFree (k_tr s)) /\ (quiet s -> k_user s = false -> k_ref s = 0).
Proof.
  intros dis es s C H. destruct (run_ok es _ (alloc_inv dis) C) as (s1 & H1 & I). assert (s1 = s) by congruence. subst s1. split.
  - intros R. destruct (ref_ok s I R) as (b & V). revert b V. generalize (k_tr s) as tr. induction tr as [|o tr IH]; intros b V; [discriminate|]. cbn [view] in V. destruct (view tr) as [v|]; cbn [obind] in V; [|discriminate].
    destruct o; try (left; reflexivity); right; cbn in V; try (injection V as ->; exact (IH _ eq_refl)).
    + destruct rv; try (injection V as ->; exact (IH _ eq_refl)). destruct v; discriminate.
    + destruct err; try discriminate. destruct v; discriminate.
    + destruct rv; try (injection V as ->; exact (IH _ eq_refl)). destruct v; discriminate.
    + destruct v as [| | | | |[|]]; try discriminate; exact (IH _ eq_refl).
  - intros Q U. destruct I as (Sh & V). destruct (quiet_ok s (conj Sh V) Q) as [(X & _)|[(X & _)|(_ & X)]]; try exact X; exfalso; rewrite V in X; unfold vof in X; rewrite U in X; discriminate.
Qed.
Print Assumptions C148_free_partial.
Example free_case : match krun busy (keepn_alloc false) with Some s => k_ref s = 0 /\ k_user s = false | None => False end.
Proof. vm_compute. tauto. Qed.
(** Freed in the open callback after a failed first open, it goes on calling the child's open for
    as long as the child refuses it. *)
Theorem C148_free_refuted : forall n, exists es s, Forall not_user es /\ krun ([EOpen 5; EFire; ERun 0; EFree; EBack KTO] ++ es) (keepn_alloc false) = Some s /\
  k_ref s <> 0 /\ k_tr s = repeat (XOpenCall 7) n ++ [TFree; TOpened 0; XOpenCall 5; TOpen 0].
Proof.
  intros n. set (loop := fun tr => mkk CHILD_CLOSED 1 false false true 0 (mkt 0 0 0 0 0 0 0 0) XClosed false false false 5 false false tr).
  assert (G : forall n tr, exists es, Forall not_user es /\ krun es (loop tr) = Some (loop (repeat (XOpenCall 7) n ++ tr))).
  { clear n. induction n as [|n IH]; intros tr; [exists []; split; [constructor|reflexivity]|]. destruct (IH (XOpenCall 7 :: tr)) as (es & F & R). exists (EFire :: ERun 7 :: es).
    split; [repeat constructor; exact F|]. transitivity (krun es (loop (XOpenCall 7 :: tr))); [reflexivity|]. rewrite R. f_equal. f_equal. clear. induction n as [|n IH]; [reflexivity|]. cbn. f_equal. exact IH. }
  destruct (G n [TFree; TOpened 0; XOpenCall 5; TOpen 0]) as (es & F & R). exists es, (loop (repeat (XOpenCall 7) n ++ [TFree; TOpened 0; XOpenCall 5; TOpen 0])).
  split; [exact F|]. split; [exact R|]. split; [discriminate|reflexivity].
Qed.
Print Assumptions C148_free_refuted.
