(** Deciding what the witnesses about two muxes show. *)
From Verif Require Import Base Heap_Model Muxchan_Model Mux_Model Mux_Spec.
Open Scope nat_scope.

Definition quiet1b n s : bool := negb (m_wen s) && match m_closing s with None => true | _ => false end && forallb (fun h => negb (c_live (m_ch s h) && c_defer (m_ch s h))) (seq 0 n).
Definition quietb n l : bool := quiet1b n (l_a l) && quiet1b n (l_b l) && (length (m_out (l_a l)) =? l_na l) && (length (m_out (l_b l)) =? l_nb l).
Lemma quiet1b_ok n s : quiet1b n s = true -> quiet1 n s.
Proof.
  unfold quiet1b, quiet1. rewrite !andb_true_iff. intros ((A & B) & C). split; [destruct (m_wen s); [discriminate|reflexivity]|]. split; [destruct (m_closing s); [discriminate|reflexivity]|].
  intros h Hh. rewrite forallb_forall in C. specialize (C h). rewrite in_seq in C. apply negb_true_iff. apply C. lia.
Qed.
Lemma quietb_ok n l : quietb n l = true -> quiet n l.
Proof. unfold quietb, quiet. rewrite !andb_true_iff. intros (((A & B) & C) & D). apply Nat.eqb_eq in C, D. split; [apply quiet1b_ok; exact A|]. split; [apply quiet1b_ok; exact B|]. split; assumption. Qed.
Definition no_oreadb (tr : list mob) : bool := forallb (fun o => match o with ORead _ _ => false | _ => true end) tr.
Lemma no_oreadb_ok tr : no_oreadb tr = true -> forall h r, ~ In (ORead h r) tr.
Proof. unfold no_oreadb. rewrite forallb_forall. intros A h r H. specialize (A _ H). discriminate. Qed.
Lemma decide_by {A} (r : option A) (P : A -> Prop) (Q : A -> Prop) (c : A -> bool) : (forall x, c x = true -> P x) -> match r with Some x => c x = true /\ Q x | None => False end -> match r with Some x => P x /\ Q x | None => False end.
Proof. destruct r as [x|]; [|auto]. intros H (B & C). split; [apply H; exact B|exact C]. Qed.

(** ** Where received bytes are stored *)
From Verif Require Import Ring Mux_Proofs2 Mux_Proofs3 Mux_Proofs4 Muxpair_Proofs1.
Lemma stored_ok MC s buf : I0 (MC := MC) s -> clo s = false ->
  (m_inhdr s = true -> m_hpos s <> 0 -> exists hd, mwrite (m_hdr s) (m_hpos s) (firstn (m_hsize s - m_hpos s) buf) = Some hd) /\
  (m_inhdr s = false -> 2 <= m_dpos s -> exists h, m_curr s = Some h /\
     (m_msgid s = 5%Z -> exists d, addrd (c_d (m_ch s h)) (firstn (m_dsize s + 2 - m_dpos s) buf) = Some d /\ d_rlen d <= length (d_rd d)) /\
     (m_msgid s = 2%Z -> exists v, mwrite (c_svc (m_ch s h)) (m_dpos s - 2) (firstn (m_dsize s + 2 - m_dpos s) buf) = Some v)).
Proof.
  intros ((_ & (_ & K1 & K2)) & P) C. specialize (P C). unfold PH in P. split.
  - intros I Hp. rewrite I in P. destruct P as [P|P]; [contradiction|]. apply mwrite_some. rewrite firstn_length. lia.
  - intros I Hd. rewrite I in P. destruct P as (_ & h & P2 & P3 & P4 & P5). exists h. split; [exact P2|]. destruct P5 as [P5|(P5 & P6 & P7)]; [lia|]. split; intros Q.
    + specialize (P6 Q). destruct (K1 h P3) as (R1 & R2). set (l := firstn _ buf). assert (Hl : length l <= m_dsize s + 2 - m_dpos s) by (unfold l; rewrite firstn_length; lia). clearbody l.
      destruct (radd_spec (d_rd (c_d (m_ch s h))) (d_rpos (c_d (m_ch s h))) (d_rlen (c_d (m_ch s h))) l R1 ltac:(lia)) as (m' & E & L & _). unfold addrd. rewrite E. cbn [obind]. eexists. split; [reflexivity|]. cbn [d_rlen d_rd u_d_rlen u_d_rd]. lia.
    + specialize (P7 Q). apply mwrite_some. rewrite firstn_length. lia.
Qed.
