(** Proofs about a mux: channel ids. *)
From Verif Require Import Base Heap_Model Heap_Proofs Muxchan_Model Mux_Model Mux_Proofs1 Mux_Proofs2 Mux_Proofs3 Mux_Proofs4.
Open Scope nat_scope.

Lemma nodup_ids s h1 h2 : J s -> tidy s -> c_live (m_ch s h1) = true -> c_live (m_ch s h2) = true -> c_id (m_ch s h1) = c_id (m_ch s h2) -> h1 = h2.
Proof.
  intros (_ & _ & _ & Nd & L & _) (T & _) L1 L2. apply L in L1, L2. assert (Ni : NoDup (ids s)) by (apply incr_NoDup, sorted_incr; exact T). clear T L. unfold ids in Ni. revert L1 L2 Ni.
  induction (m_chans s) as [|x l IH]; [intros []|]. cbn [map In]. intros A B Ni E. inversion_clear Ni as [|? ? N1 N2]. inversion_clear Nd as [|? ? N3 N4].
  destruct A as [->|A], B as [->|B]; [reflexivity| | |auto].
  - exfalso. apply N1. rewrite E. apply (in_map (fun h => c_id (m_ch s h))). exact B.
  - exfalso. apply N1. rewrite <- E. apply (in_map (fun h => c_id (m_ch s h))). exact A.
Qed.
Lemma ids_lt s h : J s -> tidy s -> c_live (m_ch s h) = true -> c_id (m_ch s h) < m_maxch s.
Proof. intros (_ & _ & _ & _ & L & _) (_ & T & _) L1. apply L in L1. rewrite Forall_forall in T. apply T. apply (in_map (fun h => c_id (m_ch s h))). exact L1. Qed.

(** allocation *)
Lemma alloc_full own svc s : J s -> tidy s -> snd (new_channel own svc s) = None <-> length (m_chans s) = m_maxch s.
Proof.
  intros Js T. pose proof Js as (HM & _). pose proof (pick_good s HM T) as P. unfold new_channel. destruct (pick_id s) as [[id p]|] eqn:E; cbn [snd].
  - split; [discriminate|]. intros Hl. exfalso. destruct (new_eq own svc s id p E) as (s1 & c & N0 & N1 & N2 & N3 & N4 & N5 & N6 & N7 & N8 & N9 & _).
    assert (J1 : J s1) by (eapply J_new; [exact Js|exact N0]).
    assert (T1 : tidy s1). { apply J1. rewrite N8. rewrite upd_diff by (destruct Js; lia). apply Js. destruct T as (_ & _ & T3 & _). destruct (m_chans s); [discriminate|]. injection T3 as ->. left. reflexivity. }
    destruct T1 as (S1 & S2 & _). assert (Nd : NoDup (ids s1)) by (apply incr_NoDup, sorted_incr; exact S1).
    assert (Q : length (ids s1) <= m_maxch s1). { rewrite <- (seq_length (m_maxch s1) 0). apply NoDup_incl_length; [exact Nd|]. intros i Hi. rewrite Forall_forall in S2. apply in_seq. specialize (S2 i Hi). lia. }
    unfold ids in Q. rewrite map_length, N5, N9, app_length in Q. cbn [length] in Q. rewrite firstn_length, skipn_length in Q. lia.
  - unfold ids in P. rewrite map_length in P. tauto.
Qed.
