(** Theorems about the echo gensio. *)
From Verif Require Import Base Circbuf_Model Circbuf_Proofs Echo_Model Echo_Spec Echo_Proofs Echo_Proofs2.
Open Scope nat_scope.

(** everything that is known after any calls on a new gensio *)
Lemma echo_all rb ne data es s0 : echo_alloc rb ne data = Some s0 -> exists s, erun es s0 = Some s /\ EInv (cap_of rb data) ne (jd_of ne data) (text_of data) s /\ RR s /\ (rets_ok es -> GG s).
Proof.
  intros A. destruct (alloc_ok rb ne data) as (s1 & A1 & I). assert (s1 = s0) by congruence. subst s1. destruct (erun_ok _ _ _ _ es s0 I) as (s & H & I'). exists s. split; [exact H|]. split; [exact I'|].
  assert (Z : RR s0 /\ GG s0).
  { revert A. clear. unfold echo_alloc. destruct data; [destruct (circbuf_sg_write _ _) as [[c n]|]; cbn [obind]; [|discriminate]|]; intros [= <-]; (split; [split; ecb; cbn; [discriminate|tauto]|intros _; split; intros X; discriminate]). }
  split; [exact (erun_R _ _ _ _ es s0 s I (proj1 Z) H)|]. intros Ok. exact (erun_G _ _ _ _ es s0 s I (proj2 Z) Ok H).
Qed.

(** ** What is read is what was written *)
(** Whatever is called, from inside callbacks or by other threads: no memory is touched after it
    was given back and no check fails; the bytes the reader takes are the text of data= followed by
    the bytes writes accepted (if echoing), in order, none lost, none twice; what is waiting fits in
    the buffer; every offer is the next bytes; every write takes all that there is room for. *)
Theorem C120_echo : forall rb ne data es s0, echo_alloc rb ne data = Some s0 ->
  exists s w, erun es s0 = Some s /\ source ne (text_of data) (e_tr s) = took (e_tr s) ++ w /\ length w <= cap_of rb data /\
    data_ok (cap_of rb data) ne (text_of data) (e_tr s).
Proof.
  intros rb ne data es s0 A. destruct (echo_all rb ne data es s0 A) as (s & H & ((B & S0 & Dk & _) & _) & _). exists s, (cb_abs (e_buf s)). split; [exact H|]. split; [exact S0|]. split; [|exact Dk].
  rewrite cb_abs_length. destruct B as (B & [(_ & _ & X)|(X & Y)]); lia.
Qed.
Print Assumptions C120_echo.

(** a buffer of five bytes: the ring wraps, the reader takes less than it is offered, and a write
    gets less than it asked for; one read callback fails and its data comes again *)
Definition opened : list eev := [EOpen true; ERun; ERet 0 0; ERead true].
Definition echo_events : list eev := opened ++ [EWrite [[1]; [2; 3]]%Z; ERun; ERet 0 2; EWrite [[4; 5; 6; 7; 8; 9]%Z]; ERet 1 0; ERead true; ERun; ERet 0 3; ERet 0 2].
Example echo_case : match s0 <- echo_alloc 5 false None ;; erun echo_events s0 with
  | Some s => took (e_tr s) = [1; 2; 3; 4; 5; 6; 7]%Z /\ In (TWrite [[4; 5; 6; 7; 8; 9]]%Z 0 4) (e_tr s) /\ In (TOffer [3; 4; 5]%Z) (e_tr s)
  | None => False end.
Proof. vm_compute. tauto. Qed.

(** ** Open and close are answered once *)
(** A callback given to an accepted open or close is called at most once, only after the call, and
    in order (the open is answered before its close); with the operation not pending nothing is
    still owed.  Data, end and write ready events come, and writes are accepted, only after the
    open was answered and before the close was asked for. *)
Theorem C121_once : forall rb ne data es s0, echo_alloc rb ne data = Some s0 ->
  exists s, erun es s0 = Some s /\ done_ok (e_tr s) /\ quiet_ok (e_tr s) /\
    (e_pc s = PIdle -> pend_open (e_tr s) = None /\ pend_close (e_tr s) = None).
Proof.
  intros rb ne data es s0 A. destruct (echo_all rb ne data es s0 A) as (s & H & (_ & ((_ & C2 & C3) & D & Q & _) & P) & _). exists s. split; [exact H|]. split; [exact D|]. split; [exact Q|].
  intros Pc. unfold PI in P. rewrite Pc in P. destruct P as (_ & [P|P] & _); rewrite P in *; tauto.
Qed.
Print Assumptions C121_once.

(** The owed open callback is the very next thing that happens when the operation goes on, and so
    is the owed close callback once no open callback is owed. *)
Theorem C121_answered : forall rb ne data es s0 s c e, echo_alloc rb ne data = Some s0 -> erun es s0 = Some s ->
  (pend_open (e_tr s) = Some c -> e_pc s <> PIdle /\ (next_ev e s -> exists s' err tr, estep e s = Some s' /\ e_tr s' = TOpened c err :: tr)) /\
  (pend_open (e_tr s) = None -> e_st s = IN_CLOSE -> pend_close (e_tr s) = Some c -> e_pc s <> PIdle /\ (next_ev e s -> exists s' tr, estep e s = Some s' /\ e_tr s' = TClosed c :: tr)).
Proof.
  intros rb ne data es s0 s c e A H. destruct (echo_all rb ne data es s0 A) as (s1 & H1 & I & _). assert (s1 = s) by congruence. subst s1. split; intros Po.
  - exact (open_comes _ _ _ _ e s c I Po).
  - intros St Pc. destruct I as (D & S' & P). pose proof S' as ((_ & _ & C3) & _). rewrite St in C3. apply (close_comes (cap_of rb data) ne (jd_of ne data) (text_of data) e s c); [split; [exact D|split; assumption]|exact Po|exact St|congruence].
Qed.
Print Assumptions C121_answered.
(** opened and closed at once, opened again, closed inside a read callback *)
Example once_case : match s0 <- echo_alloc 5 false None ;; erun [EOpen true; EClose true; EOpen true; ERun; ERet 0 0; ERet 0 0; EOpen true; ERead true; ERun; ERet 0 0; EWrite [[1]%Z]; ERun; EClose true; ERet 0 1; ERet 0 0] s0 with
  | Some s => e_pc s = PIdle /\ filter (fun o => match o with TOpened _ _ | TClosed _ => true | _ => false end) (e_tr s) = [TClosed 3; TOpened 2 0; TClosed 1; TOpened 0 GE_LOCALCLOSED]
  | None => False end.
Proof. vm_compute. tauto. Qed.
Example answered_case : match s0 <- echo_alloc 5 false None ;; erun [EOpen true; EClose true] s0 with
  | Some s => pend_open (e_tr s) = Some 0 /\ pend_close (e_tr s) = Some 1 /\ next_ev ERun s
  | None => False end.
Proof. vm_compute. tauto. Qed.

(** ** The result of an open *)
(** If no open is made while a close callback runs, an open callback says success exactly if no
    close was asked for in the meantime.  (Missing: opens in the close callback, refuted below.) *)
Theorem C122_result_partial : forall rb ne data es s0 s, echo_alloc rb ne data = Some s0 -> erun es s0 = Some s ->
  opens_outside (e_tr s) -> result_ok (e_tr s).
Proof. intros rb ne data es s0 s A H. destruct (echo_all rb ne data es s0 A) as (s1 & H1 & _ & (_ & R) & _). assert (s1 = s) by congruence. subst s1. exact R. Qed.
Print Assumptions C122_result_partial.
Example result_case : match s0 <- echo_alloc 5 false None ;; erun [EOpen true; EClose true; ERun; ERet 0 0; ERet 0 0; EOpen true; ERun; ERet 0 0] s0 with
  | Some s => opens_outside (e_tr s) /\ In (TOpened 0 GE_LOCALCLOSED) (e_tr s) /\ In (TOpened 2 0) (e_tr s)
  | None => False end.
Proof. vm_compute. tauto. Qed.

(** Opening again from the close callback of an open that was closed early: the new open callback
    says GE_LOCALCLOSED, but the gensio is open, nobody closed it, and it takes data. *)
Theorem C122_result_refuted : exists es s0 s c, echo_alloc 5 false None = Some s0 /\ erun es s0 = Some s /\ hd_error (e_tr s) = Some (TOpened c GE_LOCALCLOSED) /\ closing (e_tr s) = false /\ e_st s = OPEN.
Proof. exists [EOpen true; EClose true; ERun; ERet 0 0; EOpen true; ERet 0 0]. eexists. eexists. exists 2. split; [reflexivity|]. split; [vm_compute; reflexivity|]. vm_compute. tauto. Qed.
Print Assumptions C122_result_refuted.

(** ** A new session *)
(** After closing and opening again, the reader gets data that was written in the session before. *)
Theorem C123_session_refuted : exists es s0 s d, echo_alloc 5 false None = Some s0 /\ erun es s0 = Some s /\ hd_error (e_tr s) = Some (TOffer d) /\ d <> [] /\
  accepted (e_tr s) = accepted (before_open (e_tr s)) /\ took (e_tr s) = [].
Proof. exists [EOpen true; ERun; ERet 0 0; EWrite [[7; 8]%Z]; ERun; EClose true; ERun; ERet 0 0; EOpen true; ERead true; ERun; ERet 0 0]. eexists. eexists. exists [7; 8]%Z. split; [reflexivity|]. split; [vm_compute; reflexivity|]. vm_compute. repeat split; discriminate. Qed.
Print Assumptions C123_session_refuted.

(** ** Nobody waits for nothing *)
(** If the user's callbacks report no errors: when the operation is not pending and the gensio is
    open, an enabled reader has nothing to read and an enabled writer has no room.  (Missing:
    callbacks that return errors, and the end of the text, both refuted below.) *)
Theorem C124_waits_partial : forall rb ne data es s0 s, echo_alloc rb ne data = Some s0 -> erun es s0 = Some s -> rets_ok es -> e_pc s = PIdle -> e_st s = OPEN ->
  (e_rd s = true -> unread ne (text_of data) (e_tr s) = []) /\ (e_xm s = true -> length (unread ne (text_of data) (e_tr s)) = cap_of rb data).
Proof.
  intros rb ne data es s0 s A H Ok Pc St. destruct (echo_all rb ne data es s0 A) as (s1 & H1 & (D & _) & _ & G). assert (s1 = s) by congruence. subst s1. destruct (G Ok Pc) as (G1 & G2).
  rewrite (unread_eq _ _ _ _ s D), cb_abs_length. destruct D as ((B & Bi) & _). split; intros X.
  - specialize (G1 St X). apply length_zero_iff_nil. rewrite cb_abs_length. exact G1.
  - specialize (G2 St X). unfold circbuf_room_left in G2. rewrite B in G2. destruct Bi as [(_ & _ & Y)|(Y & Z)]; lia.
Qed.
Print Assumptions C124_waits_partial.
(** and when it is pending, an enabled reader gets the data next (in the write ready callback: if
    it turns that event off) *)
Theorem C124_comes : forall rb ne data es s0 s, echo_alloc rb ne data = Some s0 -> erun es s0 = Some s -> e_st s = OPEN -> e_rd s = true -> unread ne (text_of data) (e_tr s) <> [] ->
  (e_pc s = PQueued -> exists s' d tr, estep ERun s = Some s' /\ e_tr s' = TOffer d :: tr) /\
  (e_pc s = POpened \/ e_pc s = PEof -> exists s' d tr, estep (ERet 0 0) s = Some s' /\ e_tr s' = TOffer d :: tr) /\
  (e_pc s = PWready -> e_xm s = false -> exists s' d tr, estep (ERet 0 0) s = Some s' /\ e_tr s' = TOffer d :: tr).
Proof.
  intros rb ne data es s0 s A H St Rd U. destruct (echo_all rb ne data es s0 A) as (s1 & H1 & I & _). assert (s1 = s) by congruence. subst s1.
  apply (data_comes (cap_of rb data) ne (jd_of ne data) (text_of data) s I St Rd). destruct I as (D & _). rewrite (unread_eq _ _ _ _ s D) in U. rewrite <- cb_abs_length. destruct (cb_abs (e_buf s)); [congruence|cbn; lia].
Qed.
Print Assumptions C124_comes.
Example waits_case : match s0 <- echo_alloc 2 false None ;; erun (opened ++ [EWrite [[1; 2; 3]%Z]; EWready true; ERead false; ERun]) s0 with
  | Some s => e_pc s = PIdle /\ e_st s = OPEN /\ e_xm s = true /\ length (unread false [] (e_tr s)) = 2
  | None => False end.
Proof. vm_compute. tauto. Qed.
Example comes_case : match s0 <- echo_alloc 2 false None ;; erun (opened ++ [EWrite [[1; 2; 3]%Z]]) s0 with
  | Some s => e_pc s = PQueued /\ e_st s = OPEN /\ e_rd s = true /\ unread false [] (e_tr s) = [1; 2]%Z
  | None => False end.
Proof. vm_compute. tauto. Qed.

(** The end is told to an enabled reader that took everything, and turns reading off: it is told
    once for each time the reader is enabled. *)
Theorem C124_end : forall rb ne data es s0 s e s', echo_alloc rb ne data = Some s0 -> erun es s0 = Some s ->
  (e = ERun /\ e_pc s = PQueued \/ exists rv k, e = ERet rv k) -> estep e s = Some s' -> e_pc s' = PEof ->
  hd_error (e_tr s') = Some TEof /\ e_rd s = true /\ e_rd s' = false /\ e_st s' = OPEN /\ unread ne (text_of data) (e_tr s') = [].
Proof.
  intros rb ne data es s0 s e s' A H Ev St Pc. destruct (echo_all rb ne data es s0 A) as (s1 & H1 & I & _). assert (s1 = s) by congruence. subst s1.
  destruct (eof_step e s s') as (B & C & D & E & F); try assumption.
  { destruct Ev as [(-> & _)|Ev]; [left; reflexivity|right; exact Ev]. }
  { intros ->. destruct Ev as [(_ & Q)|(rv & k & Q)]; [congruence|discriminate]. }
  repeat split; try assumption. destruct (erun_ok _ _ _ _ [e] s I) as (s2 & H2 & (D2 & _)). cbn [erun obind] in H2. rewrite St in H2. injection H2 as <-.
  rewrite (unread_eq _ _ _ _ s' D2). apply length_zero_iff_nil. rewrite cb_abs_length. exact E.
Qed.
Print Assumptions C124_end.
Example end_once_case : match s0 <- echo_alloc 0 true (Some [1]%Z) ;; erun (opened ++ [ERun; ERet 0 1; ERet 0 0]) s0 with
  | Some s => filter (fun o => match o with TEof => true | _ => false end) (e_tr s) = [TEof] /\ e_pc s = PIdle | None => False end.
Proof. vm_compute. tauto. Qed.

(** With noecho and data=, the text all read: a reader enabled in the write ready callback is never
    told that the end was reached, though one enabled at another time is. *)
Theorem C124_end_refuted : exists es s0 s, echo_alloc 0 true (Some [1]%Z) = Some s0 /\ erun es s0 = Some s /\ rets_ok es /\ e_pc s = PIdle /\ e_st s = OPEN /\ e_rd s = true /\
  unread true [1]%Z (e_tr s) = [] /\ ~ In TEof (e_tr s).
Proof.
  exists (opened ++ [ERun; ERead false; ERet 0 1; EWready true; ERun; EWready false; ERead true; ERet 0 0]). eexists. eexists. split; [reflexivity|]. split; [vm_compute; reflexivity|].
  split; [|vm_compute; repeat split; intros X; repeat (destruct X as [X|X]; [discriminate|]); exact X].
  intros rv k X. cbn in X. repeat (destruct X as [X|X]; [congruence|]). destruct X.
Qed.
Print Assumptions C124_end_refuted.
Example end_case : match s0 <- echo_alloc 0 true (Some [1]%Z) ;; erun (opened ++ [ERun; ERead false; ERet 0 1; ERead true; ERun]) s0 with
  | Some s => In TEof (e_tr s) | None => False end.
Proof. vm_compute. tauto. Qed.

(** A write ready callback that returns an error leaves an enabled reader without its data. *)
Theorem C124_error_refuted : exists es s0 s, echo_alloc 5 false None = Some s0 /\ erun es s0 = Some s /\ e_pc s = PIdle /\ e_st s = OPEN /\ e_rd s = true /\ unread false [] (e_tr s) <> [].
Proof.
  exists (opened ++ [ERead false; EWready true; ERun; EWrite [[1]%Z]; ERead true; ERet 1 0]). eexists. eexists. split; [reflexivity|]. split; [vm_compute; reflexivity|]. vm_compute. repeat split; discriminate.
Qed.
Print Assumptions C124_error_refuted.

(** ** Free *)
(** After the user freed the gensio no callback begins; the memory is given back exactly when the
    operation is not pending any more. *)
Theorem C125_free : forall rb ne data es s0, echo_alloc rb ne data = Some s0 ->
  exists s, erun es s0 = Some s /\ (e_freed s = true -> Forall (fun o => o = TRet \/ exists d, o = TTook d) (after_free (e_tr s))) /\
    (e_live s = false <-> e_freed s = true /\ e_pc s = PIdle).
Proof.
  intros rb ne data es s0 A. destruct (echo_all rb ne data es s0 A) as (s & H & (_ & (_ & _ & _ & _ & AF) & P) & _). exists s. split; [exact H|]. split; [exact AF|].
  unfold PI, RI in P. destruct (e_pc s); decompose [and] P; split; intros X; try (destruct X; discriminate); try congruence.
  - split; [destruct (e_freed s); [reflexivity|cbn in *; congruence]|reflexivity].
  - destruct X as (X & _). rewrite X in *. assumption.
Qed.
Print Assumptions C125_free.
(** freed inside the read callback *)
Example free_case : match s0 <- echo_alloc 5 false None ;; erun (opened ++ [EWrite [[1]%Z]; ERun; EFree; ERet 0 1]) s0 with
  | Some s => e_live s = false /\ after_free (e_tr s) = [TTook [1]%Z; TRet] | None => False end.
Proof. vm_compute. tauto. Qed.
