(** Executions that show what does not hold, and that the hypotheses of the
    theorems can be met. *)
From Verif Require Import Base Basen_Model Basen_Spec Basen_Proofs Basen_Proofs4 Basen_Proofs10 Basen_Proofs11 Basen_Proofs12 Basen_Proofs13.
Open Scope Z_scope.

Definition fin (o : out unit) : bd := match o with Ok _ s => s | _ => binit end.
Definition okb (o : out unit) : bool := match o with Ok _ _ => true | _ => false end.
Lemma okb_fin o : okb o = true -> o = Ok tt (fin o).
Proof. destruct o as [[] s| |]; cbn; congruence. Qed.

Definition cfg_usual : bcfg := mkbc 10 false false false false false false.
Lemma cfg_usual_ok : usual cfg_usual. Proof. repeat split. Qed.

(** the lower layer opens, the filter connects at once, open_done is called *)
Definition ex_open : list (bev * list Z) := [(UOpen, [0; 11]); (EOpenDone 0, []); (ERun, []); (ECall 0, []); (ERet 0, [])].
(** close, and close_done is called *)
Definition ex_close : list (bev * list Z) := [(UClose true, []); (ECloseDone, []); (ERun, []); (ECall 0, []); (ERet 0, [])].

(** Two threads: one has looked if READ is enabled and is about to call it, the
    other closes. *)
Definition ex_read_race : list (bev * list Z) :=
  ex_open ++ [(USetRead true, []); (ELRead 0, [1; 1]); (EHandler 0, []); (UClose true, []); (ECall 0, [])].
(** One thread at a time: an error comes, the user closes, the error is reported
    by READ. *)
Definition ex_read_err : list (bev * list Z) :=
  ex_open ++ [(USetRead true, []); (ELRead 5, []); (UClose true, []); (ERun, []); (ECall 0, [])].
(** The user closes while the lower layer opens. *)
Definition ex_lost : list (bev * list Z) := [(UOpen, [0; 11])] ++ ex_close.
(** basen_ll_write_ready is in the WRITE_READY callback, and basen_ll_read calls
    it again. *)
Definition ex_two_writes : list (bev * list Z) :=
  ex_open ++ [(USetWrite true, []); (ELWrite, [0; 0; 1]); (ECall 0, []); (ELRead 0, [1; 1]); (ERet 0, [0; 0; 0; 1]);
              (ECall 0, [])].
(** The filter's last data cannot be written, and the filter reports the end of
    disconnecting with an error. *)
Definition ex_dbl : list (bev * list Z) :=
  ex_open ++ [(ELWrite, []); (UClose true, [0; 11; 1; 5; 0; 5]); (ERun, []); (ECloseDone, [])].
(** The same, but the user frees the object, which is gone while the lower layer
    still closes. *)
Definition ex_dbl_free : list (bev * list Z) :=
  ex_open ++ [(ELWrite, []); (UClose true, [0; 11; 1; 5; 0; 5]); (ERun, []); (ECall 0, []); (ERet 0, []); (UFree, [])].
(** The filter's timeout runs while the object is closed, then reports an error. *)
Definition ex_late : list (bev * list Z) :=
  ex_open ++ [(EFStart, []); (ETimer, []); (UClose true, []); (ECloseDone, []); (ERun, []); (ERet 1, [5])].
(** The lower layer opens at once and the filter fails; later the lower layer
    reports an error. *)
Definition ex_imm : list (bev * list Z) := [(UOpen, [0; 0; 5]); (ELRead 5, [])].
(** Closed with data to drain, opened and closed again before the old drain
    timer's stop is reported. *)
Definition ex_slow : list (bev * list Z) :=
  ex_open ++ [(UClose true, [1]); (ELRead 5, []); (ECloseDone, []); (ERun, []); (ECall 0, []); (ERet 0, [])]
  ++ ex_open ++ [(UClose true, [1])].
(** Closed, opened by gensio_open_nochild: close is refused. *)
Definition ex_nochild : list (bev * list Z) :=
  ex_open ++ ex_close ++ [(UOpenNC, []); (ERun, []); (ECall 0, []); (ERet 0, []); (UClose true, [])].
(** everything, with an error, reading, a timer and freeing in the end *)
Definition ex_full : list (bev * list Z) :=
  ex_open ++ [(USetRead true, []); (EFStart, []); (ELRead 0, [1; 1]); (EHandler 0, []); (ECall 0, []); (ERet 0, []);
    (ELRead 5, []); (ERun, []); (ECall 0, []); (ERet 0, []); (ECloseDone, []); (UClose true, []); (ERun, []);
    (ECall 0, []); (ERet 0, []); (ETStopped, []); (UFree, [])].

Lemma read_race : exists s, brun cfg_usual ex_read_race binit = Ok tt s /\ exists t, b_tr s = ORead :: OUClose true :: t.
Proof. eexists. split; [apply okb_fin; vm_compute; reflexivity|]. vm_compute. eauto. Qed.
Lemma read_err : exists s, brun cfg_usual ex_read_err binit = Ok tt s /\ exists t, b_tr s = ORead :: OUClose true :: t.
Proof. eexists. split; [apply okb_fin; vm_compute; reflexivity|]. vm_compute. eauto. Qed.
Definition idleb (s : bd) : bool :=
  match b_fr s, b_dpend s, b_tm s, b_dr s, b_ll s, b_st s with
  | [], false, TIdle, TIdle, (LLClosed | LLOpen), (B_CLOSED | B_OPEN | B_IO_ERR) => true | _, _, _, _, _, _ => false end.
Lemma idleb_ok s : idleb s = true -> at_rest s.
Proof.
  unfold idleb, at_rest, idle. destruct (b_fr s); [|discriminate]. destruct (b_dpend s); [discriminate|]. destruct (b_tm s); try discriminate.
  destruct (b_dr s); try discriminate. destruct (b_ll s); try discriminate; destruct (b_st s); try discriminate; intuition discriminate.
Qed.
Lemma lost_open : exists s, brun cfg_usual ex_lost binit = Ok tt s /\ at_rest s /\ nr e_open (b_tr s) = 1%nat /\ nr e_open_done (b_tr s) = 0%nat
  /\ nr e_close_done (b_tr s) = 1%nat.
Proof. eexists. split; [apply okb_fin; vm_compute; reflexivity|]. split; [apply idleb_ok; vm_compute; reflexivity|]. vm_compute. auto. Qed.
Lemma two_writes : exists s, brun cfg_usual ex_two_writes binit = Ok tt s /\ length (filter in_write (b_fr s)) = 2%nat.
Proof. eexists. split; [apply okb_fin; vm_compute; reflexivity|]. vm_compute. reflexivity. Qed.
Lemma double_close : brun (mkbc 10 true false false false false false) ex_dbl binit = Bad.
Proof. vm_compute. reflexivity. Qed.
Lemma double_close_free : exists s, brun (mkbc 10 true false false false false false) ex_dbl_free binit = Ok tt s
  /\ nr e_freed (b_tr s) = 1%nat /\ b_ll s = LLClosing.
Proof. eexists. split; [apply okb_fin; vm_compute; reflexivity|]. vm_compute. auto. Qed.
Lemma late_timeout : brun (mkbc 10 false true false false false false) ex_late binit = Bad.
Proof. vm_compute. reflexivity. Qed.
Lemma open_at_once : brun (mkbc 10 false false true false false false) ex_imm binit = Bad.
Proof. vm_compute. reflexivity. Qed.
Lemma slow_drain : brun (mkbc 10 false false false true false false) ex_slow binit = Bad.
Proof. vm_compute. reflexivity. Qed.
Lemma nochild : exists s, brun (mkbc 10 false false false false true false) ex_nochild binit = Ok tt s /\ at_rest s /\
  b_st s = B_OPEN /\ b_tr s = [OOpenDone 0; OUOpen; OCloseDone; OUClose true; OOpenDone 0; OUOpen].
Proof. eexists. split; [apply okb_fin; vm_compute; reflexivity|]. split; [apply idleb_ok; vm_compute; reflexivity|]. vm_compute. auto. Qed.

Lemma full_run : exists s, brun cfg_usual ex_full binit = Ok tt s /\ at_rest s /\ b_live s = false /\ b_tr s =
  [OFreed; OUFree; OCloseDone; OUClose true; ORead; ORead; OOpenDone 0; OUOpen].
Proof. eexists. split; [apply okb_fin; vm_compute; reflexivity|]. split; [apply idleb_ok; vm_compute; reflexivity|]. vm_compute. auto. Qed.

(** READ frames: never two *)
Lemma one_read s : Inv s -> b_live s = true -> (length (filter in_read (b_fr s)) <= 1)%nat.
Proof.
  intros H LV. unfold Inv in H. rewrite LV in H. destruct H as (H & _). pose proof (j_inrd _ _ H) as A. unfold px in A. cbn [hr b_inrd b_fr set_ref] in A.
  assert (E : forall l, length (filter in_read l) = cntf isrd l).
  { induction l as [|[k f] l IH]; [reflexivity|]. cbn [filter cntf]. change (in_read (k, f)) with (isrd (k, f)). destruct (isrd (k, f)); cbn [length b2n]; rewrite IH; reflexivity. }
  rewrite E. destruct (b_inrd s); cbn [b2n] in A; lia.
Qed.
Lemma one_read_run c es s u : usual c -> brun c es binit = Ok u s -> (length (filter in_read (b_fr s)) <= 1)%nat.
Proof.
  intros US E. pose proof (run_inv _ _ _ _ US E) as H. destruct (live_of _ H) as [LV|D].
  - apply one_read; assumption.
  - unfold dead in D. decompose [and] D. match goal with X : b_fr s = [] |- _ => rewrite X end. cbn. lia.
Qed.

(** The close part of a run: READ is never called again *)
Lemma no_read_run c es1 cb o es2 s1 s2 u1 u2 :
  usual c -> brun c es1 binit = Ok u1 s1 -> b_st s1 = B_OPEN -> existsb read_coming (b_fr s1) = false ->
  forallb (fun e => negb (reopens (fst e))) es2 = true ->
  brun c ((UClose cb, o) :: es2) s1 = Ok u2 s2 -> nr e_read (b_tr s2) = nr e_read (b_tr s1).
Proof.
  intros US E0 Es F R E. pose proof (run_inv _ _ _ _ US E0) as HI.
  assert (Q : b_creq s1 = false).
  { unfold Inv in HI. destruct (b_live s1); [|destruct HI as ((_ & X & _) & _); congruence]. destruct HI as (H & _).
    pose proof (j_st _ _ H) as ST. unfold jst, px in ST. cbn [b_st set_ref hcl] in ST. rewrite Es in ST. decompose [and] ST.
    match goal with X : _ || _ = false |- _ => apply orb_false_iff in X; apply X end. }
  clear HI E0. cbn [brun] in E. destruct (bstep c (UClose cb) (set_or o s1)) as [u s| |] eqn:E1; try discriminate E. cbn [bindo] in E.
  pose proof (close_NR c cb o s1 u s Es F E1 Q) as H. pose proof (NR_run _ c es2 s H R) as W. rewrite E in W. destruct W as (_ & _ & W).
  apply Nat2Z.inj. rewrite !nr_cnto. exact W.
Qed.

(** an example for it: reading, then close, and the rest *)
Definition ex_before : list (bev * list Z) := ex_open ++ [(USetRead true, []); (ELRead 0, [1; 1]); (EHandler 0, []); (ECall 0, []); (ERet 0, [])].
Definition ex_after : list (bev * list Z) := [(ELRead 0, [1; 1]); (EHandler 0, []); (ERet 0, []); (ECloseDone, []); (ERun, []); (ECall 0, []); (ERet 0, [])].
Lemma no_read_ex : exists s1 s2, brun cfg_usual ex_before binit = Ok tt s1 /\ b_st s1 = B_OPEN /\ existsb read_coming (b_fr s1) = false
  /\ brun cfg_usual ((UClose true, []) :: ex_after) s1 = Ok tt s2 /\ b_tr s2 = OCloseDone :: OUClose true :: b_tr s1 /\ nr e_read (b_tr s1) = 1%nat.
Proof.
  eexists. eexists. split; [apply okb_fin; vm_compute; reflexivity|]. split; [vm_compute; reflexivity|]. split; [vm_compute; reflexivity|].
  split; [apply okb_fin; vm_compute; reflexivity|]. vm_compute. auto.
Qed.
