(** What the steps do to the read callback's enable, the frames and the trace. *)
From Verif Require Import Base Basen_Model Basen_Proofs Basen_Proofs2 Basen_Proofs3 Basen_Proofs4.
Open Scope Z_scope.

(** ** Outcomes, when the step ends well *)

Definition w {A} (o : out A) (Q : bd -> Prop) : Prop := match o with Ok _ s => Q s | _ => True end.
Lemma w_bind {A B} (o : out A) (k : A -> bd -> out B) (Q : bd -> Prop) : w o (fun s => forall a, w (k a s) Q) -> w (bindo o k) Q.
Proof. destruct o; cbn; auto. Qed.
Lemma w_imp {A} (o : out A) (P Q : bd -> Prop) : w o P -> (forall s, P s -> Q s) -> w o Q.
Proof. destruct o; cbn; auto. Qed.

Definition same3 (s s' : bd) : Prop := b_rd s' = b_rd s /\ b_fr s' = b_fr s /\ b_tr s' = b_tr s.
Lemma same3_refl s : same3 s s. Proof. unfold same3; auto. Qed.

(** [P] looks only at the three, and may be broken only by a READ about to be made. *)
Section P.
Variable P : bd -> Prop.
Hypothesis PS : forall s s', same3 s s' -> P s -> P s'.
Hypothesis PR : forall s, P s -> P (set_rd false s).
Hypothesis PF : forall s k f, P s -> (k, f) <> (FDReadErr, false) -> (k, f) <> (FDRead, true) -> (k, f) <> (FLRead, true) -> P (add_frame k f s).
Hypothesis PE : forall s, b_rd s = true -> P s -> P (add_frame FDReadErr false (set_rd false s)).
Hypothesis PX : forall s, P s -> P (emit OFreed s).

Ltac ps := match goal with H : P ?s |- P ?t => apply (PS s t); [unfold same3; split; [reflexivity|split; reflexivity]|exact H] end.
Ltac go1 := first
  [ ps | exact I
  | match goal with
    | |- w (ok _) _ => cbn [w ok]
    | |- w (Ok _ _) _ => cbn [w]
    | |- w Bad _ => exact I
    | |- w Ill _ => exact I
    | |- w (bindo _ _) _ => apply w_bind
    | |- w (if ?b then _ else _) _ => destruct b eqn:?
    | |- w (match ?b with _ => _ end) _ => destruct b eqn:?
    | |- P (if ?b then _ else _) => destruct b eqn:?
    | |- forall _, _ => intro
    end ].
Ltac go := repeat go1.
(** use a lemma about a callee *)
Ltac call L := match goal with |- w _ ?Q => eapply w_imp; [eapply L; try ps|cbn beta; intros] end.

Lemma ask_n s : P s -> w (ask s) P.
Proof. intros. unfold ask. go. Qed.
Lemma askb_n s : P s -> w (askb s) P.
Proof. intros. unfold askb. go. call ask_n. go. Qed.
Lemma bref_n s : P s -> w (bref s) P. Proof. intros. unfold bref. go. Qed.
Lemma bderef_n s : P s -> w (bderef s) P. Proof. intros. unfold bderef. go. Qed.
Lemma unlock_n s : P s -> w (bderef_unlock s) P.
Proof. intros. unfold bderef_unlock. go. apply PX. ps. Qed.
Lemma start_n s : P s -> w (start_timer s) P.
Proof. intros. unfold start_timer. go. call bref_n. auto. Qed.
Lemma stop_n s : P s -> w (stop_timer s) P.
Proof. intros. unfold stop_timer. go. call bderef_n. auto. Qed.
Lemma start_drain_n c s : P s -> w (start_drain c s) P.
Proof. intros. unfold start_drain. go. call bref_n. auto. Qed.
Lemma sched_n s : P s -> w (sched s) P.
Proof. intros. unfold sched. go. call bref_n. auto. Qed.
Lemma sched_close_n s : P s -> w (sched_close s) P.
Proof. intros. unfold sched_close. call sched_n. auto. Qed.
Lemma ll_close_n s : P s -> w (ll_close s) P.
Proof. intros. unfold ll_close. go. Qed.
Ltac cl := first [ call ask_n | call askb_n | call bref_n | call bderef_n | call unlock_n | call start_n | call stop_n | call start_drain_n | call sched_close_n | call sched_n | call ll_close_n ].
Ltac gx := repeat first [cl | go1].
Lemma enables_n s : P s -> w (set_enables s) P.
Proof. intros. unfold set_enables. gx. Qed.
Lemma ul_write_n s : P s -> w (ul_write s) P.
Proof. intros. unfold ul_write. gx. Qed.
Lemma pending_n s : P s -> w (pending s) P.
Proof. intros. unfold pending. gx. Qed.
Lemma to_ll_close_n s : P s -> w (to_ll_close s) P.
Proof. intros. unfold to_ll_close. gx. Qed.
Ltac cl2 := first [ call enables_n | call ul_write_n | call pending_n | call to_ll_close_n ].
Ltac g2 := repeat first [cl2 | cl | go1].
Lemma ioerr_n e s : P s -> w (handle_ioerr e s) P.
Proof. intros. unfold handle_ioerr. cb. g2. Qed.
Ltac g3 := repeat first [call ioerr_n | cl2 | cl | go1].
Lemma push0_n s : P s -> w (push0 s) P.
Proof. intros. unfold push0. g3. Qed.
Lemma connect_end_n e s : P s -> w (connect_end e s) P.
Proof. intros. unfold connect_end. g3. Qed.
Lemma try_connect_n s : P s -> w (try_connect s) P.
Proof. intros. unfold try_connect. repeat first [call push0_n|call connect_end_n| cl | go1]. Qed.
Lemma connect_finish_n s : P s -> w (connect_finish s) P.
Proof. intros. unfold connect_finish. repeat first [call try_connect_n|call ioerr_n| cl | go1]. Qed.
Lemma close_end_n c e s : P s -> w (close_end c e s) P.
Proof. intros. unfold close_end. g3. Qed.
Lemma try_close_n c s : P s -> w (try_close c s) P.
Proof. intros. unfold try_close. repeat first [call push0_n|call close_end_n| cl2 | cl | go1]. Qed.
Lemma close_head_n s : P s -> w (close_head s) P.
Proof. intros. unfold close_head. go. Qed.
Lemma close_mid_n s : P s -> P (close_mid s).
Proof. intros. unfold close_mid. destruct (b_odone s); ps. Qed.
Lemma close_tail_n s : P s -> w (close_tail s) P.
Proof. intros. unfold close_tail. g3. Qed.
Lemma check_ops_n c s : P s -> w (check_ops c s) P.
Proof. intros. unfold check_ops. repeat first [call close_head_n|call connect_finish_n|call try_close_n| cl | go1]. Qed.
Lemma push1_n c s : P s -> w (push1 c s) P.
Proof. intros. unfold push1. repeat first [call push0_n|call check_ops_n| go1]. Qed.
Lemma push1_no_n c s : P s -> w (push1_no c s) P.
Proof. intros. unfold push1_no. repeat first [call push1_n| go1]. Qed.
Lemma check_no_n c s : P s -> w (check_no c s) P.
Proof. intros. unfold check_no. repeat first [call check_ops_n| go1]. Qed.
Lemma wcond_n s : P s -> w (wcond s) P.
Proof. intros. unfold wcond. g3. Qed.
Lemma t_last_n s : P s -> w (t_last s) P.
Proof. intros. unfold t_last. g3. Qed.
Ltac fr := match goal with |- P (add_frame _ _ _) => apply PF; [first [ps|apply close_mid_n; ps]|discriminate|discriminate|discriminate] end.
Ltac callm L := eapply w_imp; [eapply L; first [ps|apply close_mid_n; ps]|cbn beta; intros].
Ltac gy := repeat first [call push1_n|call push1_no_n|call check_no_n|call wcond_n|callm t_last_n|callm close_tail_n|call close_head_n|call ioerr_n|cl2|cl|fr|go1].
Lemma t_end_n c s : P s -> w (t_end c s) P.
Proof. intros. unfold t_end. gy. Qed.
Lemma d_end_n c s : P s -> w (d_end c s) P.
Proof. intros. unfold d_end. go1; [gy|call t_end_n; auto]. Qed.
Ltac gd := repeat first [callm d_end_n|callm t_end_n|call push1_n|call push1_no_n|call check_no_n|call wcond_n|callm t_last_n|callm close_tail_n|call close_head_n|call ioerr_n|cl2|cl|fr|go1].
Lemma d_close_n c s : P s -> w (d_close c s) P.
Proof. intros. unfold d_close. gd. Qed.
Lemma d_wloop_n c s : P s -> w (d_wloop c s) P.
Proof. intros. unfold d_wloop. repeat first [call d_close_n|call wcond_n|fr|go1]. Qed.
Lemma d_write_n c s : P s -> w (d_write c s) P.
Proof. intros. unfold d_write. cbn zeta. repeat first [call d_close_n|call d_wloop_n|fr|go1]. Qed.
Lemma d_read_body_n s : P s -> b_rd s = true -> w (d_read_body s) P.
Proof.
  intros H R. unfold d_read_body. destruct (b_err s =? 0); [gd|]. apply w_bind. unfold askb, ask. cbn [bindo].
  destruct (b_or s); cbn [w bindo]; intros []; cbn [w ok]; try fr; apply PE; try exact R; ps.
Qed.
Lemma d_read_n c s : P s -> w (d_read c s) P.
Proof.
  intros H. unfold d_read. destruct (b_dread s && negb (b_inrd s) && b_rd s) eqn:E.
  - apply andb_prop in E. destruct E as [_ E]. apply d_read_body_n; [ps|exact E].
  - call d_write_n. auto.
Qed.
Lemma finish_open_n k e s : P s -> isrd (k, false) = false -> w (finish_open k e s) P.
Proof.
  intros H K. unfold finish_open. apply w_bind. apply w_imp with (P := P); [repeat first [cl|go1]|].
  intros s1 H1 _. go1; [|exact I]. cbn [w ok]. apply PF; [ps|..]; intros [= ->]; discriminate K.
Qed.
Lemma d_start_n c s : P s -> w (d_start c s) P.
Proof. intros. unfold d_start. cbn zeta. go1; [|call d_read_n; auto]. apply finish_open_n; [ps|reflexivity]. Qed.
Lemma d_read_ret_n c e s : P s -> w (d_read_ret c e s) P.
Proof.
  intros H. unfold d_read_ret. destruct (e =? 0).
  - destruct (b_rd s) eqn:R.
    + assert (G : forall a s1, same3 s s1 -> w (if (a : bool) then d_read_body s1 else d_read c (set_inrd false s1)) P).
      { intros a s1 S3. pose proof (PS _ _ S3 H) as H1. destruct a; [apply d_read_body_n; [exact H1|destruct S3 as (-> & _); exact R]|call d_read_n; auto]. }
      apply w_bind. destruct (b_err s =? 0); [|intros a; apply G, same3_refl]. unfold askb, ask. destruct (b_or s); cbn [w bindo]; intros a; apply G; unfold same3; cb; auto.
    + cbn [bindo]. call d_read_n. auto.
  - repeat first [call d_read_n|call ioerr_n|go1].
Qed.
Lemma d_write_ret_n c e s : P s -> w (d_write_ret c e s) P.
Proof. intros. unfold d_write_ret. repeat first [call d_write_n|call ioerr_n|call wcond_n|fr|go1]. Qed.
Lemma l_end_n s : P s -> w (l_end s) P.
Proof. intros. unfold l_end. g3. Qed.
Lemma l_outer_n s : P s -> w (l_outer s) P.
Proof. intros. unfold l_outer. repeat first [call l_end_n|cl|fr|go1]. Qed.
Lemma l_wloop_n s : P s -> w (l_wloop s) P.
Proof. intros. unfold l_wloop. repeat first [call l_outer_n|call wcond_n|fr|go1]. Qed.
Lemma l_read_n c e s : P s -> w (l_read c e s) P.
Proof. intros. unfold l_read. repeat first [call l_outer_n|call l_end_n|call ioerr_n|cl|fr|go1]. Qed.
Lemma l_read_ret_n c e s : P s -> w (l_read_ret c e s) P.
Proof. intros. unfold l_read_ret. cbn zeta. repeat first [call l_wloop_n|call l_end_n|call ioerr_n|call push1_no_n|call check_no_n|cl|fr|go1]. Qed.
Lemma l_write_ret_n e s : P s -> w (l_write_ret e s) P.
Proof. intros. unfold l_write_ret. repeat first [call l_wloop_n|call l_outer_n|call ioerr_n|go1]. Qed.
Lemma w_out_n s : P s -> w (w_out s) P.
Proof. intros. unfold w_out. cbn zeta. g3. Qed.
Lemma w_body_n c s : P s -> w (w_body c s) P.
Proof. intros. unfold w_body. repeat first [call ioerr_n|call push1_no_n|call check_no_n|cl2|cl|go1]. Qed.
Lemma w_loop2_n s : P s -> w (w_loop2 s) P.
Proof. intros. unfold w_loop2. repeat first [call w_out_n|call wcond_n|fr|go1]. Qed.
Lemma w_loop_n c s : P s -> w (w_loop c s) P.
Proof. intros. unfold w_loop. cbn zeta. repeat first [call w_out_n|call w_loop2_n|call w_body_n|call wcond_n|cl2|fr|go1]. Qed.
Lemma l_write_ready_n c s : P s -> w (l_write_ready c s) P.
Proof. intros. unfold l_write_ready. repeat first [call w_out_n|call w_loop_n|call w_body_n|cl|go1]. Qed.
Lemma w_ret_n c e s : P s -> w (w_ret c e s) P.
Proof. intros. unfold w_ret. repeat first [call w_out_n|call w_loop_n|call ioerr_n|go1]. Qed.
Lemma timeout_n c s : P s -> w (timeout c s) P.
Proof. intros. unfold timeout. repeat first [call t_end_n|call connect_finish_n|call try_close_n|fr|go1]. Qed.
Lemma timeout_ret_n c e s : P s -> w (timeout_ret c e s) P.
Proof. intros. unfold timeout_ret. repeat first [call t_end_n|call ioerr_n|go1]. Qed.
Lemma drain_timeout_n s : P s -> w (drain_timeout s) P.
Proof. intros. unfold drain_timeout. g3. Qed.
Lemma ll_close_done_n s : P s -> w (ll_close_done s) P.
Proof. intros. unfold ll_close_done. cbn zeta. g3. Qed.
Lemma ll_open_done_n c e s : P s -> w (ll_open_done c e s) P.
Proof.
  intros. unfold ll_open_done. apply w_bind. call bref_n. go1; [g3|]. go1; [apply finish_open_n; [ps|reflexivity]|].
  repeat first [call connect_finish_n|cl2|cl|go1].
Qed.
Lemma open_err_ret_n s : P s -> w (open_err_ret s) P.
Proof. intros. unfold open_err_ret. g3. Qed.
Lemma frame_ret_n c k f e s : P s -> w (frame_ret c k f e s) P.
Proof.
  intros. unfold frame_ret.
  repeat first [call open_err_ret_n|call d_read_n|call d_read_ret_n|call d_write_ret_n|call close_tail_n|call d_end_n|call t_last_n
    |call l_read_ret_n|call l_write_ret_n|call w_ret_n|call timeout_ret_n|go1].
Qed.
Lemma i_close_n c cb s : P s -> w (i_close c cb s) P.
Proof.
  intros H. pose proof (PR _ H) as H1. unfold i_close. cbn zeta.
  assert (H2 : P (set_operr GE_LOCALCLOSED (set_cdone cb (set_xmit false (set_rd false s))))) by (apply (PS (set_rd false s)); [unfold same3; auto|exact H1]).
  set (s1 := set_operr _ _) in *. clearbody s1. clear H H1.
  repeat first [call try_close_n|cl2|cl|go1].
Qed.
Lemma uwrite_n s : P s -> w (uwrite s) P.
Proof. intros. unfold uwrite. g3. Qed.
Lemma uset_read_n s : P s -> w (uset_read false s) P.
Proof.
  intros H. pose proof (PR _ H) as H1. unfold uset_read. go1; [go|]. go1; [go|]. clear H. cbn zeta. repeat first [cl2|cl|go1].
Qed.
Lemma uset_write_n b s : P s -> w (uset_write b s) P.
Proof. intros. unfold uset_write. cbn zeta. g3. Qed.

(** Every event but the calls of the user that are seen, and callbacks. *)
Hypothesis PT : forall s i, P s -> P (take_frame i s).
Definition calm (e : bev) : bool :=
  match e with UOpen | UOpenNC | UClose _ | UFree | USetRead true | ECall _ | EHandler _ => false | _ => true end.
Ltac ga := unfold alive, req; repeat (go1; try exact I).
Lemma step_n c e s : P s -> calm e = true -> w (bstep c e s) P.
Proof.
  intros H C. destruct e; try discriminate C; cbn [bstep]; unfold alive, req.
  - go1; [go1|]; [|exact I|exact I]. call uwrite_n; auto.
  - destruct b; [discriminate C|]. repeat first [call uset_read_n|go1].
  - repeat first [call uset_write_n|go1].
  - repeat first [call ll_open_done_n|go1].
  - repeat first [call ll_close_done_n|go1].
  - repeat first [call l_read_n|go1].
  - repeat first [call l_write_ready_n|go1].
  - repeat first [call timeout_n|go1].
  - repeat first [call drain_timeout_n|go1].
  - repeat first [cl|go1].
  - repeat first [cl|go1].
  - repeat first [call d_start_n|go1].
  - repeat first [call connect_finish_n|cl2|go1].
  - repeat first [cl2|go1].
  - go.
  - repeat first [cl|go1].
  - repeat first [cl|go1].
  - destruct (nth_error (b_fr s) i) as [[k f]|]; [|exact I]. go1; [|exact I]. pose proof (PT _ i H) as H1. clear H. apply w_bind. call ask_n. apply frame_ret_n; assumption.
Qed.
End P.
