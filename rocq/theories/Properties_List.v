(** C30: linked lists are sequences. *)
From Verif Require Import Base Heap_Model List_Model List_Spec List_Proofs List_Proofs2 List_Proofs3.
Open Scope nat_scope.

(** For every legal sequence of calls on any number of lists and links, starting
    with no object allocated: no call touches memory that is not allocated, no
    assertion fails, every loop ends within as many turns as there were calls, and
    all results are those of the specification, where a list is a sequence. *)
Theorem C30_lists_are_sequences : forall ops s n, length ops <= n -> legal_lrun (fun _ => KDead) ops ->
  exists s', list_run n s ops = Some (s', spec_lrun (fun _ => KDead) ops).
Proof.
  intros ops s n L G. destruct (list_run_ok n ops s (fun _ => KDead) 0 (wok_dead s)) as (s' & E & _); [reflexivity|exact L|exact G|eauto].
Qed.
Print Assumptions C30_lists_are_sequences.

(** After such a run a loop over a list visits exactly the links of its sequence,
    in order, and each link knows the list it is in. *)
Theorem C30_contents : forall ops s n h xs, length ops <= n -> legal_lrun (fun _ => KDead) ops ->
  end_lrun (fun _ => KDead) ops h = KList xs ->
  exists s' out, list_run n s ops = Some (s', out) /\ list_each (length xs) s' (Some h) = Some xs /\ NoDup xs /\
    forall x, In x xs -> link_in_this_list s' (Some x) (Some h) = Some true.
Proof.
  intros ops s n h xs L G Eh. destruct (list_run_ok n ops s (fun _ => KDead) 0 (wok_dead s)) as (s' & E & W); [reflexivity|exact L|exact G|].
  exists s', (spec_lrun (fun _ => KDead) ops). split; [exact E|]. pose proof (live_list _ _ _ _ W Eh) as Lh. destruct (next_at s' _ h [] xs W Eh) as [J _].
  split; [unfold list_each; rewrite lgetN_ok by exact Lh; cbn [obind last] in *; rewrite J; apply (each_ok s' _ h W xs [] (length xs) Eh); lia|].
  pose proof W as (_ & _ & H3 & H4). destruct (H4 h xs Eh) as (N & _ & M). split; [apply NoDup_cons_iff in N; tauto|].
  intros x Hx. unfold link_in_this_list. rewrite lgetL_ok by (eapply live_member; [exact W|exact Eh|exact Hx]). cbn [obind].
  destruct (H3 x h (M x Hx)) as (-> & _). cbn [peq]. rewrite Nat.eqb_refl. reflexivity.
Qed.
Print Assumptions C30_contents.

(** Two lists and five links; links move from one list to the other, one list is
    emptied in a loop that frees the links. *)
Definition list_ops : list lop :=
  [LAlloc 10 (Some 3) None (Some 77); LInit 10; LAlloc 20 None None None; LInit 20] ++
  map (fun x => LAlloc x (Some 9) (Some 9) None) [1; 2; 3; 4; 5] ++ map LLinkInit [1; 2; 3; 4; 5] ++
  [LEmpty 10; LFirst 10; LAddHead 10 1; LAddTail 10 2; LAddHead 20 3; LAddNext 10 1 4; LAddPrev 10 1 5; LEach 10; LLast 10; LNext 10 2; LNext 10 1; LNextWrap 10 2;
   LRm 20 3; LInList 3; LAddNext 10 2 3; LInThis 3 10; LRm 10 1; LAddTail 20 1; LEach 20; LEachSafe 10 [AFree; ARemove; AKeep; AFree]; LEach 10; LInList 4; LEmpty 10; LFree 4; LEach 20].
Example C30_case :
  (exists s', list_run 40 (mkl (fun _ => false) (fun _ => None) (fun _ => None) (fun _ => None)) list_ops =
    Some (s', repeat ONone 14 ++ [OBool true; OPtr (Some 10); ONone; ONone; ONone; ONone; ONone; OSeq [5; 1; 4; 2]; OPtr (Some 2); OPtr None; OPtr (Some 4); OPtr (Some 5);
      ONone; OBool false; ONone; OBool true; ONone; ONone; OSeq [1]; OSeq [5; 4; 2; 3]; OSeq [2]; OBool false; OBool false; ONone; OSeq [1]])) /\
  legal_lrun (fun _ => KDead) list_ops.
Proof.
  split; [eexists; vm_compute; reflexivity|].
  cbn. unfold is_list. cbn. repeat split; eauto 6.
Qed.
Example C30_contents_case : end_lrun (fun _ => KDead) list_ops 10 = KList [2] /\ end_lrun (fun _ => KDead) list_ops 20 = KList [1].
Proof. split; reflexivity. Qed.
