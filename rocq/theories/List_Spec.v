(** What lists do: each list is a sequence of links. *)
From Verif Require Import Base Heap_Model List_Model.
Open Scope nat_scope.

(** Calls.  LAlloc gives memory of any contents for a link or a list. *)
Inductive lop :=
| LAlloc (x : nat) (l n p : ptr) | LFree (x : nat) | LLinkInit (x : nat) | LInit (h : nat)
| LAddHead (h x : nat) | LAddTail (h x : nat) | LAddNext (h c x : nat) | LAddPrev (h c x : nat) | LRm (h x : nat)
| LEmpty (h : nat) | LFirst (h : nat) | LLast (h : nat) | LNext (h x : nat) | LNextWrap (h x : nat)
| LInList (x : nat) | LInThis (x h : nat)
| LEach (h : nat) | LEachSafe (h : nat) (acts : list act).
Inductive lout := ONone | OBool (b : bool) | OPtr (p : ptr) | OSeq (l : list nat).

(** An object is not allocated, not initialised, a link that is in no list or in
    the named one, or a list. *)
Inductive kind := KDead | KRaw | KLink (h : option nat) | KList (xs : list nat).
Definition world := nat -> kind.
Definition w_seq (w : world) (h : nat) : list nat := match w h with KList xs => xs | _ => [] end.
Definition is_list (w : world) (h : nat) : Prop := exists xs, w h = KList xs.

Definition legal_l (w : world) (o : lop) : Prop :=
  match o with
  | LAlloc x _ _ _ => w x = KDead
  | LFree x => w x = KRaw \/ w x = KLink None \/ w x = KList []
  | LLinkInit x => w x = KRaw \/ w x = KLink None
  | LInit h => w h = KRaw \/ w h = KLink None \/ w h = KList []
  | LAddHead h x | LAddTail h x => is_list w h /\ w x = KLink None
  | LAddNext h c x | LAddPrev h c x => is_list w h /\ In c (w_seq w h) /\ w x = KLink None
  | LRm h x => is_list w h /\ w x = KLink (Some h)
  | LEmpty h | LFirst h | LLast h | LEach h | LEachSafe h _ => is_list w h
  | LNext h x | LNextWrap h x => is_list w h /\ In x (w_seq w h)
  | LInList x => exists m, w x = KLink m
  | LInThis x h => exists m, w x = KLink m
  end.

(** Sequences *)
Fixpoint put_after (c x : nat) (l : list nat) : list nat :=
  match l with [] => [] | y :: l => if y =? c then y :: x :: l else y :: put_after c x l end.
Fixpoint put_before (c x : nat) (l : list nat) : list nat :=
  match l with [] => [] | y :: l => if y =? c then x :: y :: l else y :: put_before c x l end.
Fixpoint follower (c : nat) (l : list nat) : ptr :=
  match l with [] => None | y :: l => if y =? c then hd_error l else follower c l end.
Definition without (x : nat) (l : list nat) : list nat := filter (fun y => negb (y =? x)) l.
(** What remains after a loop that removes some *)
Fixpoint kept (l : list nat) (acts : list act) : list nat :=
  match l with
  | [] => []
  | x :: l => match hd AKeep acts with AKeep => x :: kept l (tl acts) | _ => kept l (tl acts) end
  end.
(** What each element becomes in such a loop *)
Fixpoint after_acts (w : world) (l : list nat) (acts : list act) : world :=
  match l with
  | [] => w
  | x :: l =>
      after_acts (match hd AKeep acts with AKeep => w | ARemove => upd w x (KLink None) | AFree => upd w x KDead end) l (tl acts)
  end.

Definition step_l (w : world) (o : lop) : world * lout :=
  match o with
  | LAlloc x _ _ _ => (upd w x KRaw, ONone)
  | LFree x => (upd w x KDead, ONone)
  | LLinkInit x => (upd w x (KLink None), ONone)
  | LInit h => (upd w h (KList []), ONone)
  | LAddHead h x => (upd (upd w x (KLink (Some h))) h (KList (x :: w_seq w h)), ONone)
  | LAddTail h x => (upd (upd w x (KLink (Some h))) h (KList (w_seq w h ++ [x])), ONone)
  | LAddNext h c x => (upd (upd w x (KLink (Some h))) h (KList (put_after c x (w_seq w h))), ONone)
  | LAddPrev h c x => (upd (upd w x (KLink (Some h))) h (KList (put_before c x (w_seq w h))), ONone)
  | LRm h x => (upd (upd w x (KLink None)) h (KList (without x (w_seq w h))), ONone)
  | LEmpty h => (w, OBool (match w_seq w h with [] => true | _ => false end))
  | LFirst h => (w, OPtr (Some (hd h (w_seq w h))))
  | LLast h => (w, OPtr (Some (last (w_seq w h) h)))
  | LNext h x => (w, OPtr (follower x (w_seq w h)))
  | LNextWrap h x => (w, OPtr (match follower x (w_seq w h) with Some y => Some y | None => hd_error (w_seq w h) end))
  | LInList x => (w, OBool (match w x with KLink None => false | _ => true end))
  | LInThis x h => (w, OBool (match w x with KLink (Some h') => h' =? h | _ => false end))
  | LEach h => (w, OSeq (w_seq w h))
  | LEachSafe h acts => (upd (after_acts w (w_seq w h) acts) h (KList (kept (w_seq w h) acts)), OSeq (w_seq w h))
  end.
Fixpoint legal_lrun (w : world) (ops : list lop) : Prop :=
  match ops with [] => True | o :: ops => legal_l w o /\ legal_lrun (fst (step_l w o)) ops end.
Fixpoint spec_lrun (w : world) (ops : list lop) : list lout :=
  match ops with [] => [] | o :: ops => snd (step_l w o) :: spec_lrun (fst (step_l w o)) ops end.
Fixpoint end_lrun (w : world) (ops : list lop) : world :=
  match ops with [] => w | o :: ops => end_lrun (fst (step_l w o)) ops end.

(** The code doing the same; [n] bounds the turns of each loop. *)
Definition lalloc (s : lst) (x : nat) (l n p : ptr) : lst :=
  mkl (upd (ln_live s) x true) (upd (ln_list s) x l) (upd (ln_next s) x n) (upd (ln_prev s) x p).
Definition out1 {A B} (f : A -> B) (r : option A) (s : lst) : option (lst * B) := x <- r ;; Some (s, f x).
Definition out0 (r : option lst) : option (lst * lout) := s <- r ;; Some (s, ONone).
Definition run_l (n : nat) (s : lst) (o : lop) : option (lst * lout) :=
  match o with
  | LAlloc x l nx p => Some (lalloc s x l nx p, ONone)
  | LFree x => out0 (lkill s (Some x))
  | LLinkInit x => out0 (link_init s (Some x))
  | LInit h => out0 (list_init s (Some h))
  | LAddHead h x => out0 (list_add_head s (Some h) (Some x))
  | LAddTail h x => out0 (list_add_tail s (Some h) (Some x))
  | LAddNext h c x => out0 (list_add_next s (Some h) (Some c) (Some x))
  | LAddPrev h c x => out0 (list_add_prev s (Some h) (Some c) (Some x))
  | LRm h x => out0 (list_rm s (Some h) (Some x))
  | LEmpty h => out1 OBool (list_empty s (Some h)) s
  | LFirst h => out1 OPtr (list_first s (Some h)) s
  | LLast h => out1 OPtr (list_last s (Some h)) s
  | LNext h x => out1 OPtr (list_next s (Some h) (Some x)) s
  | LNextWrap h x => out1 OPtr (list_next_wrap s (Some h) (Some x)) s
  | LInList x => out1 OBool (link_inlist s (Some x)) s
  | LInThis x h => out1 OBool (link_in_this_list s (Some x) (Some h)) s
  | LEach h => out1 OSeq (list_each n s (Some h)) s
  | LEachSafe h acts => ' (s, l) <- list_each_safe n s (Some h) acts ;; Some (s, OSeq l)
  end.
Fixpoint list_run (n : nat) (s : lst) (ops : list lop) : option (lst * list lout) :=
  match ops with
  | [] => Some (s, [])
  | o :: ops =>
      ' (s, r) <- run_l n s o ;;
      ' (s, out) <- list_run n s ops ;;
      Some (s, r :: out)
  end.
