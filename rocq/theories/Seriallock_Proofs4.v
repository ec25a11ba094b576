(** What one user sees when it is alone, and the executions that break the lock. *)
From Verif Require Import Base Cstr_Model Heap_Model Heap_Proofs Seriallock_Model Seriallock_Spec Seriallock_Proofs.
From Coq Require Import Zify ZifyBool.
Open Scope Z_scope.

Section A.
Variable lckdir : list Z.
Variable cfg : nat -> lcfg.
Variable t : nat.
Variable n2 : list Z.
Notation f1 := (fname_lock lckdir (lc_dev (cfg t))).
Hypothesis U : lc_uucp (cfg t) = true.
Hypothesis M : 0 <= lc_maj (cfg t) <= 999.
Hypothesis N2 : svr4_lock lckdir (lc_maj (cfg t)) (lc_min (cfg t)) = Some n2.

Lemma run_cons s e es : lrun lckdir cfg s (e :: es) = lrun lckdir cfg (lev_run lckdir cfg s e) es.
Proof. reflexivity. Qed.

Lemma n_ne : f1 <> n2.
Proof. eapply names_differ; [exact M|exact N2]. Qed.

Ltac nf :=
  cbn [lev_run]; unfold lstep, lbegin, lrelease, start_rm, chk_file, file1, file2, checked, after_uucp, after_rm, lreturn, unlink, set_pc, set_dir;
  cbn [ls_pc ls_dir ls_data ls_next ls_dead ls_flk ls_res Z.eqb Z.ltb Z.compare Pos.compare Pos.compare_cont negb obind];
  rewrite ?upd_same, ?N2, ?U;
  cbn [ls_pc ls_dir ls_data ls_next ls_dead ls_flk ls_res Z.eqb Z.ltb Z.compare Pos.compare Pos.compare_cont negb obind].
Ltac st := rewrite run_cons; nf.

Lemma stat_step d da n de fl p r es : p t = LIdle -> de (lc_pid (cfg t)) = false ->
  exists p', p' t = LOpen false /\ (forall u, u <> t -> p' u = p u) /\
  lrun lckdir cfg (mkls d da n de fl p r) (VBegin t :: VStep t 0 :: es) = lrun lckdir cfg (mkls d da n de fl p' r) es.
Proof.
  intros P D. eexists. split; [|split]; [| |st; rewrite P, D; st; reflexivity].
  - apply upd_same.
  - intros u Hu. rewrite !upd_diff by exact Hu. reflexivity.
Qed.

(** one file checked: not there; with the pid of a process that lives; stale *)
Definition nextpc (b : bool) := if b then LCreate else LOpen true.
Definition cf (b : bool) := if b then n2 else f1.
Lemma chk_none d da n de fl p r es b : p t = LOpen b -> d (cf b) = None ->
  exists p', p' t = nextpc b /\ (forall u, u <> t -> p' u = p u) /\
  lrun lckdir cfg (mkls d da n de fl p r) (VStep t 0 :: es) = lrun lckdir cfg (mkls d da n de fl p' r) es.
Proof.
  intros P D. exists (upd p t (nextpc b)). split; [apply upd_same|]. split; [intros; apply upd_diff; auto|].
  st. rewrite P. destruct b; cbn [cf] in D; nf; rewrite D; reflexivity.
Qed.
Lemma chk_live d da n de fl p r es b ino q : p t = LOpen b -> d (cf b) = Some ino -> da ino = fmt_pid q -> 0 < q < 2 ^ 31 ->
  exists p', p' t = LKill b q /\ (forall u, u <> t -> p' u = p u) /\
  lrun lckdir cfg (mkls d da n de fl p r) (VStep t 0 :: VStep t 0 :: es) = lrun lckdir cfg (mkls d da n de fl p' r) es.
Proof.
  intros P D E Q. exists (upd (upd p t (LRead b ino)) t (LKill b q)). split; [apply upd_same|]. split; [intros; rewrite !upd_diff; auto|].
  st. rewrite P.
  destruct b; cbn [cf] in D; nf; rewrite D; st; rewrite E, file_pid_fmt by exact Q;
    replace (0 <? q) with true by lia; reflexivity.
Qed.
Lemma kill_live d da n de fl p r es b q : p t = LKill b q -> 0 < q -> de q = false -> 
  exists p' fl', (forall u, u <> t -> p' u = p u) /\ p' t = LIdle /\ 
  lrun lckdir cfg (mkls d da n de fl p r) (VStep t 0 :: es) = lrun lckdir cfg (mkls d da n de fl' p' (upd r t (r t ++ [GE_INUSE]))) es.
Proof.
  intros P Q D. exists (upd p t LIdle), (ls_flk (drop_flk cfg (mkls d da n de fl (upd p t LIdle) r) t)).
  split; [intros; rewrite !upd_diff; auto|]. split; [apply upd_same|].
  st. rewrite P, D. replace (q =? 0) with false by lia. replace (q <? 0) with false by lia.
  cbn [GE_INUSE Z.eqb]. unfold drop_flk. cbn. destruct (fl (lc_node (cfg t))) as [v|]; [destruct (v =? t)%nat|]; reflexivity.
Qed.
Lemma kill_dead d da n de fl p r es b q : p t = LKill b q -> 0 < q -> de q = true -> 
  exists p', (forall u, u <> t -> p' u = p u) /\ p' t = nextpc b /\
  lrun lckdir cfg (mkls d da n de fl p r) (VStep t 0 :: VStep t 0 :: es) = lrun lckdir cfg (mkls (upd_name d (cf b) None) da n de fl p' r) es.
Proof.
  intros P Q D. exists (upd (upd p t (LUnlink b)) t (nextpc b)). split; [intros; rewrite !upd_diff; auto|]. split; [apply upd_same|].
  st. rewrite P, D. st. destruct b; nf; reflexivity.
Qed.
Lemma take d da n de fl p r es : p t = LCreate -> d f1 = None -> d n2 = None -> lc_flock (cfg t) = false ->
  exists p', p' t = LHeld /\ (forall u, u <> t -> p' u = p u) /\
  lrun lckdir cfg (mkls d da n de fl p r) (VStep t 0 :: VStep t 0 :: VStep t 0 :: es) =
  lrun lckdir cfg (mkls (upd_name (upd_name d f1 (Some n)) n2 (Some n)) (upd (upd da n []) n (fmt_pid (lc_pid (cfg t)))) (S n) de fl p' (upd r t (r t ++ [0]))) es.
Proof.
  intros P D1 D2 F. eexists. split; [|split].
  3:{ st. rewrite P, D1. st. rewrite skipn_all, firstn_all. st. rewrite un_same, un_diff by (apply not_eq_sym, n_ne). rewrite D2, F. cbn.
      unfold set_dir. cbn. reflexivity. }
  - apply upd_same.
  - intros. rewrite !upd_diff by assumption. reflexivity.
Qed.

(** ** A free lock is taken *)
Lemma alone_free s : ls_pc s t = LIdle -> ls_dead s (lc_pid (cfg t)) = false -> ls_dir s f1 = None -> ls_dir s n2 = None -> lc_flock (cfg t) = false ->
  let s' := lrun lckdir cfg s (VBegin t :: alone t 6) in
  holds s' t /\ ls_res s' t = ls_res s t ++ [0] /\
  (exists ino, ls_dir s' f1 = Some ino /\ ls_dir s' n2 = Some ino /\ ls_data s' ino = fmt_pid (lc_pid (cfg t))) /\
  (forall m, m <> f1 -> m <> n2 -> ls_dir s' m = ls_dir s m) /\ (forall u, u <> t -> ls_pc s' u = ls_pc s u).
Proof.
  destruct s as [d da n de fl p r]. cbn [ls_pc ls_dead ls_dir]. intros P D D1 D2 F. cbv zeta. unfold alone. cbn [repeat].
  destruct (stat_step d da n de fl p r (repeat (VStep t 0) 5) P D) as (p1 & P1 & O1 & E). cbn [repeat] in E. rewrite E; clear E.
  destruct (chk_none d da n de fl p1 r (repeat (VStep t 0) 4) false P1 D1) as (p2 & P2 & O2 & E). cbn [repeat] in E. rewrite E; clear E.
  destruct (chk_none d da n de fl p2 r (repeat (VStep t 0) 3) true P2 D2) as (p3 & P3 & O3 & E). cbn [repeat] in E. rewrite E; clear E.
  destruct (take d da n de fl p3 r [] P3 D1 D2 F) as (p4 & P4 & O4 & E). rewrite E; clear E.
  cbn. unfold holds. cbn. split; [exact P4|]. split; [apply upd_same|]. split.
  - exists n. rewrite un_same, un_diff, un_same, upd_same by apply n_ne. auto.
  - split; [intros m H1 H2; rewrite !un_diff by assumption; reflexivity|]. intros u Hu. rewrite O4, O3, O2, O1 by assumption. reflexivity.
Qed.

(** ** A lock held by a process that lives is refused, by either name *)
Lemma alone_refused s ino q : ls_pc s t = LIdle -> ls_dead s (lc_pid (cfg t)) = false -> 0 < q < 2 ^ 31 -> ls_dead s q = false ->
  ls_data s ino = fmt_pid q ->
  (ls_dir s f1 = Some ino -> let s' := lrun lckdir cfg s (VBegin t :: alone t 4) in
     ls_pc s' t = LIdle /\ ls_res s' t = ls_res s t ++ [GE_INUSE] /\ ls_dir s' = ls_dir s /\ ls_data s' = ls_data s) /\
  (ls_dir s f1 = None -> ls_dir s n2 = Some ino -> let s' := lrun lckdir cfg s (VBegin t :: alone t 5) in
     ls_pc s' t = LIdle /\ ls_res s' t = ls_res s t ++ [GE_INUSE] /\ ls_dir s' = ls_dir s /\ ls_data s' = ls_data s).
Proof.
  destruct s as [d da n de fl p r]. cbn [ls_pc ls_dead ls_dir ls_data]. intros P D Q Dq E0. split.
  - intros D1. cbv zeta. unfold alone. cbn [repeat].
    destruct (stat_step d da n de fl p r (repeat (VStep t 0) 3) P D) as (p1 & P1 & O1 & E). cbn [repeat] in E. rewrite E; clear E.
    destruct (chk_live d da n de fl p1 r (repeat (VStep t 0) 1) false ino q P1 D1 E0 Q) as (p2 & P2 & O2 & E). cbn [repeat] in E. rewrite E; clear E.
    destruct (kill_live d da n de fl p2 r [] false q P2 ltac:(lia) Dq) as (p3 & fl' & O3 & P3 & E). rewrite E; clear E.
    cbn. rewrite upd_same. auto.
  - intros D1 D2. cbv zeta. unfold alone. cbn [repeat].
    destruct (stat_step d da n de fl p r (repeat (VStep t 0) 4) P D) as (p1 & P1 & O1 & E). cbn [repeat] in E. rewrite E; clear E.
    destruct (chk_none d da n de fl p1 r (repeat (VStep t 0) 3) false P1 D1) as (p2 & P2 & O2 & E). cbn [repeat] in E. rewrite E; clear E.
    destruct (chk_live d da n de fl p2 r (repeat (VStep t 0) 1) true ino q P2 D2 E0 Q) as (p3 & P3 & O3 & E). cbn [repeat] in E. rewrite E; clear E.
    destruct (kill_live d da n de fl p3 r [] true q P3 ltac:(lia) Dq) as (p4 & fl' & O4 & P4 & E). rewrite E; clear E.
    cbn. rewrite upd_same. auto.
Qed.

(** ** The lock of a process that has ended is taken over *)
Lemma alone_stale s ino q : ls_pc s t = LIdle -> ls_dead s (lc_pid (cfg t)) = false -> 0 < q < 2 ^ 31 -> ls_dead s q = true ->
  ls_data s ino = fmt_pid q -> ls_dir s f1 = Some ino -> ls_dir s n2 = Some ino -> lc_flock (cfg t) = false ->
  let s' := lrun lckdir cfg s (VBegin t :: alone t 12) in
  holds s' t /\ ls_res s' t = ls_res s t ++ [0] /\
  (exists ino', ls_dir s' f1 = Some ino' /\ ls_dir s' n2 = Some ino' /\ ls_data s' ino' = fmt_pid (lc_pid (cfg t))) /\
  (forall m, m <> f1 -> m <> n2 -> ls_dir s' m = ls_dir s m).
Proof.
  destruct s as [d da n de fl p r]. cbn [ls_pc ls_dead ls_dir ls_data]. intros P D Q Dq E0 D1 D2 F. cbv zeta. unfold alone. cbn [repeat].
  destruct (stat_step d da n de fl p r (repeat (VStep t 0) 11) P D) as (p1 & P1 & O1 & E). cbn [repeat] in E. rewrite E; clear E.
  destruct (chk_live d da n de fl p1 r (repeat (VStep t 0) 9) false ino q P1 D1 E0 Q) as (p2 & P2 & O2 & E). cbn [repeat] in E. rewrite E; clear E.
  destruct (kill_dead d da n de fl p2 r (repeat (VStep t 0) 7) false q P2 ltac:(lia) Dq) as (p3 & O3 & P3 & E). cbn [repeat] in E. rewrite E; clear E.
  cbn [cf nextpc] in *.
  assert (D2' : upd_name d f1 None n2 = Some ino) by (rewrite un_diff by (apply not_eq_sym, n_ne); exact D2).
  destruct (chk_live (upd_name d f1 None) da n de fl p3 r (repeat (VStep t 0) 5) true ino q P3 D2' E0 Q) as (p4 & P4 & O4 & E). cbn [repeat] in E. rewrite E; clear E.
  destruct (kill_dead (upd_name d f1 None) da n de fl p4 r (repeat (VStep t 0) 3) true q P4 ltac:(lia) Dq) as (p5 & O5 & P5 & E). cbn [repeat] in E. rewrite E; clear E.
  cbn [cf nextpc] in *.
  destruct (take (upd_name (upd_name d f1 None) n2 None) da n de fl p5 r [] P5) as (p6 & P6 & O6 & E).
  { rewrite un_diff, un_same by apply n_ne. reflexivity. }
  { apply un_same. }
  { exact F. }
  rewrite E; clear E. cbn. unfold holds. cbn. split; [exact P6|]. split; [apply upd_same|]. split.
  - exists n. rewrite un_same, un_diff, un_same, upd_same by apply n_ne. auto.
  - intros m H1 H2. rewrite !un_diff by assumption. reflexivity.
Qed.

(** ** Giving the lock back removes both names *)
Lemma alone_release s : holds s t -> lc_flock (cfg t) = false ->
  let s' := lrun lckdir cfg s (VRelease t :: alone t 2) in
  ls_pc s' t = LIdle /\ ls_dir s' f1 = None /\ ls_dir s' n2 = None /\ (forall m, m <> f1 -> m <> n2 -> ls_dir s' m = ls_dir s m).
Proof.
  destruct s as [d da n de fl p r]. unfold holds. cbn [ls_pc ls_dir]. intros P F. cbv zeta. unfold alone. cbn [repeat].
  st. rewrite P. nf. st. st. rewrite F. cbn [lrun fold_left ls_pc ls_dir]. split; [apply upd_same|].
  split; [rewrite un_diff by apply n_ne; apply un_same|]. split; [apply un_same|].
  intros m H1 H2. rewrite !un_diff by assumption. reflexivity.
Qed.
End A.

(** ** Executions that break the lock *)

Definition ldir0 : list Z := [47; 108].
Definition dev0 : list Z := [47; 100; 101; 118; 47; 116; 48].
(** the same device by another name *)
Definition dev1 : list Z := [47; 100; 101; 118; 47; 116; 49].
Definition usr (dev : list Z) (uucp flck : bool) (pid : Z) : lcfg := mklc dev 4 64 0 uucp flck pid.
Definition cfg0 (t : nat) : lcfg := usr dev0 true false (100 + Z.of_nat (Nat.min t 9)).
Definition sys0 : lsys := mkls (fun _ => None) (fun _ => []) 0 (fun _ => false) (fun _ => None) (fun _ => LIdle) (fun _ => []).
Definition steps (t n : nat) : list lev := repeat (VStep t 0) n.

(** user 0 takes the lock and is killed; 1 and 2 both find that; 1 removes the
    old files and makes its own, 2 then removes the new one of 1, before it has its
    second name *)
Lemma stale_race : exists es, let s := lrun ldir0 cfg0 sys0 es in holds s 1 /\ holds s 2.
Proof.
  exists (VBegin 0 :: steps 0 6 ++ [VEnd 100; VBegin 1; VBegin 2] ++ steps 1 4 ++ steps 2 4 ++ steps 1 7 ++ steps 2 5 ++ steps 1 1).
  vm_compute. auto.
Qed.

(** user 0 has the lock; 1 reads its file; 0 gives the lock back and exits; 2
    makes its lock file; 1 finds that 0 is gone and removes the lock file of 2 *)
Definition orderly (cfg : nat -> lcfg) (s : lsys) (e : lev) : Prop :=
  match e with
  | VStep _ r => r = 0
  | VEnd pid => forall t, lc_pid (cfg t) = pid -> ls_pc s t = LIdle
  | _ => True
  end.
Fixpoint all_ev (lckdir : list Z) (cfg : nat -> lcfg) (ok : lsys -> lev -> Prop) (s : lsys) (es : list lev) : Prop :=
  match es with
  | [] => True
  | e :: es => ok s e /\ all_ev lckdir cfg ok (lev_run lckdir cfg s e) es
  end.
Lemma pid0 t : lc_pid (cfg0 t) = 100 -> t = O.
Proof. unfold cfg0, usr, lc_pid. lia. Qed.
Lemma exit_race : exists es, all_ev ldir0 cfg0 (orderly cfg0) sys0 es /\
  let s := lrun ldir0 cfg0 sys0 es in holds s 1 /\ holds s 2.
Proof.
  exists (VBegin 0 :: steps 0 6 ++ [VBegin 1] ++ steps 1 3 ++ [VRelease 0] ++ steps 0 2 ++ [VEnd 100; VBegin 2] ++ steps 2 5 ++ steps 1 6 ++ steps 2 1).
  split; [|vm_compute; auto].
  cbn [all_ev app steps repeat orderly].
  repeat match goal with |- _ /\ _ => split end; try exact I; try reflexivity.
  intros t Ht. apply pid0 in Ht. subst t. vm_compute. reflexivity.
Qed.

(** users 0 and 1 have two names of the same device; both look before either has
    made its link *)
Definition cfg1 (t : nat) : lcfg := usr (if (t =? 0)%nat then dev0 else dev1) true false (100 + Z.of_nat t).
Lemma alias_race : exists es, Forall (fun e => match e with VStep _ r => r = 0 | VEnd _ => False | _ => True end) es /\
  let s := lrun ldir0 cfg1 sys0 es in holds s 0 /\ holds s 1.
Proof.
  exists (VBegin 0 :: VBegin 1 :: steps 0 3 ++ steps 1 3 ++ steps 0 3 ++ steps 1 3).
  split; [repeat constructor | vm_compute; auto].
Qed.

(** user 0 has the UUCP lock only; 1 wants only a flock and 2 has it: 1 fails, and
    removes the lock file of 0; 3 then takes the lock too *)
Definition cfg2 (t : nat) : lcfg :=
  match t with
  | 1%nat | 2%nat => usr dev0 false true (100 + Z.of_nat t)
  | _ => usr dev0 true false (100 + Z.of_nat t)
  end.
Lemma flock_breaks : exists es, Forall (fun e => match e with VStep _ r => r = 0 | VEnd _ => False | _ => True end) es /\
  let s := lrun ldir0 cfg2 sys0 es in holds s 0 /\ holds s 3.
Proof.
  exists (VBegin 0 :: steps 0 6 ++ VBegin 2 :: steps 2 2 ++ VBegin 1 :: steps 1 3 ++ VBegin 3 :: steps 3 6).
  split; [repeat constructor | vm_compute; auto].
Qed.

(** write() takes four of the eleven bytes first; 1 reads four spaces as a binary
    process id that does not exist *)
Definition cut_ok (e : lev) : Prop := match e with VStep _ r => 0 <= r | VEnd _ => False | _ => True end.
Definition sys1 : lsys := mkls (fun _ => None) (fun _ => []) 0 (fun p => 1000 <=? p) (fun _ => None) (fun _ => LIdle) (fun _ => []).
Lemma cut_write : exists es, Forall cut_ok es /\
  let s := lrun ldir0 cfg0 sys1 es in holds s 0 /\ holds s 1.
Proof.
  exists (VBegin 0 :: steps 0 4 ++ VStep 0 4 :: VBegin 1 :: steps 1 9 ++ steps 0 2).
  split; [repeat constructor; discriminate | vm_compute; auto].
Qed.

(** while 0 is between making the file and writing to it, 1 is told that the lock
    cannot be made rather than that it is in use *)
Lemma busy_notfound : exists es, let s := lrun ldir0 cfg0 sys0 es in
  holds s 0 /\ ls_res s 1%nat = [GE_NOTFOUND] /\ forall t, ls_dead s t = false.
Proof.
  exists (VBegin 0 :: steps 0 4 ++ VBegin 1 :: steps 1 5 ++ steps 0 2).
  vm_compute. auto.
Qed.

(** ** A case of the exclusion theorem *)
Definition lk_events : list lev :=
  VBegin 0 :: VBegin 1 :: VStep 0 0 :: VStep 1 0 :: steps 0 5 ++ VStep 1 0 :: steps 1 2 ++ VRelease 0 :: steps 0 2 ++ VEnd 100 :: VBegin 1 :: steps 1 6.
Lemma quiet_all es : forall s, all_ev ldir0 cfg0 (quiet cfg0) s es -> quiet_run ldir0 cfg0 s es (lrun ldir0 cfg0 s es).
Proof. induction es as [|e es IH]; intros s H; [constructor|]. destruct H as [H1 H2]. econstructor; [exact H1|]. apply IH, H2. Qed.
Lemma all_app f es1 es2 : forall s, all_ev ldir0 cfg0 f s es1 -> all_ev ldir0 cfg0 f (lrun ldir0 cfg0 s es1) es2 -> all_ev ldir0 cfg0 f s (es1 ++ es2).
Proof. induction es1 as [|e es IH]; intros s H1 H2; [exact H2|]. destruct H1 as [A B]. split; [exact A|]. apply IH; [exact B|exact H2]. Qed.
Lemma plain_quiet es : Forall (fun e => match e with VStep _ r => r = 0 | VEnd _ => False | _ => True end) es ->
  forall s, all_ev ldir0 cfg0 (quiet cfg0) s es.
Proof.
  induction 1 as [|e es H _ IH]; intros s; [exact I|]. split; [|apply IH].
  destruct e; cbn; try exact I; [lia|contradiction].
Qed.
Lemma lk_case : ordinary cfg0 /\ clean_start ldir0 cfg0 sys0 /\
  quiet_run ldir0 cfg0 sys0 lk_events (lrun ldir0 cfg0 sys0 lk_events) /\ holds (lrun ldir0 cfg0 sys0 lk_events) 1 /\
  ls_res (lrun ldir0 cfg0 sys0 lk_events) 1%nat = [GE_INUSE; 0].
Proof.
  split; [intros t; cbn [lc_uucp lc_pid lc_maj lc_min usr cfg0]; lia|].
  split; [split; [reflexivity|split; intros; reflexivity]|].
  split; [|vm_compute; auto].
  apply quiet_all.
  pose (e1 := VBegin 0 :: VBegin 1 :: VStep 0 0 :: VStep 1 0 :: steps 0 5 ++ VStep 1 0 :: steps 1 2 ++ VRelease 0 :: steps 0 2).
  pose (e2 := VBegin 1 :: steps 1 6).
  change lk_events with (e1 ++ VEnd 100 :: e2).
  apply all_app; [apply plain_quiet; repeat constructor|]. split; [|apply plain_quiet; repeat constructor].
  split.
  - intros t Ht. apply pid0 in Ht. subst t. vm_compute. reflexivity.
  - intros t. destruct t as [|[|t]]; vm_compute; tauto.
Qed.
