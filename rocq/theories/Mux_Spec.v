(** Two muxes with a byte stream each way between them. *)
From Verif Require Import Base Heap_Model Muxchan_Model Mux_Model.
Open Scope nat_scope.

(** [l_na], [l_nb]: bytes sent by the first, by the second, that have been carried over *)
Record link := mklink { l_a : mux; l_b : mux; l_na : nat; l_nb : nat }.
(** [LA], [LB]: something at the first or second end, except receiving; [LTo], [LFrom]: up
    to [n] bytes come over, to the second or from it, when the receiver reads *)
Inductive lev := LA (e : mev) | LB (e : mev) | LTo (n : nat) | LFrom (n : nat).
Definition no_read (e : mev) : bool := match e with EvRead _ _ => false | _ => true end.
Definition lstep (l : link) (e : lev) : option link :=
  match e with
  | LA e => if no_read e then a <- mstep (l_a l) e ;; Some (mklink a (l_b l) (l_na l) (l_nb l)) else Some l
  | LB e => if no_read e then b <- mstep (l_b l) e ;; Some (mklink (l_a l) b (l_na l) (l_nb l)) else Some l
  | LTo n =>
      let w := firstn n (skipn (l_na l) (m_out (l_a l))) in
      if m_ren (l_b l) && negb (length w =? 0) then b <- mstep (l_b l) (EvRead 0 w) ;; Some (mklink (l_a l) b (l_na l + length w) (l_nb l)) else Some l
  | LFrom n =>
      let w := firstn n (skipn (l_nb l) (m_out (l_b l))) in
      if m_ren (l_a l) && negb (length w =? 0) then a <- mstep (l_a l) (EvRead 0 w) ;; Some (mklink a (l_b l) (l_na l) (l_nb l + length w)) else Some l
  end.
Fixpoint lrun (es : list lev) (l : link) : option link := match es with [] => Some l | e :: es => l <- lstep l e ;; lrun es l end.
(** a client and the server made by the accepter; buffers of [buf] bytes; [oa], [ob]: how
    much of a write the lower layer takes and what callbacks do, at the two ends *)
Definition linked (maxch buf : nat) (svc : list Z) (oa ob : nat -> ans) : link := mklink (mux_client maxch buf buf svc oa) (mux_server maxch buf buf ob) 0 0.

(** nothing happens any more by itself, for the first [n] channels of both ends *)
Definition quiet1 (n : nat) (s : mux) : Prop := m_wen s = false /\ m_closing s = None /\ forall h, h < n -> c_live (m_ch s h) && c_defer (m_ch s h) = false.
Definition quiet (n : nat) (l : link) : Prop := quiet1 n (l_a l) /\ quiet1 n (l_b l) /\ length (m_out (l_a l)) = l_na l /\ length (m_out (l_b l)) = l_nb l.

(** ** Callbacks *)
(** the channel an observation is about *)
Definition about (o : mob) : option nat :=
  match o with
  | OOpenDone h _ | OCloseDone h | ORead h _ | OWReady h | ONewChan h _ _ | OFreed h | OWrite h _ _ _ _ _ | OOpen h _ | OClose h _ => Some h
  | OAccOpen _ | OChildClose => None
  end.
(** newest first: after the memory of a channel has been given back there is nothing about it *)
Fixpoint fine (tr : list mob) : Prop :=
  match tr with [] => True | o :: t => fine t /\ forall h, about o = Some h -> ~ In (OFreed h) t end.
(** how often the open of a channel was accepted, and its open_done called; the same for
    close *)
Definition n_open h (tr : list mob) : nat := length (filter (fun o => match o with OOpen h' e => (h' =? h) && (e =? 0)%Z | _ => false end) tr).
Definition n_open_done h (tr : list mob) : nat := length (filter (fun o => match o with OOpenDone h' _ => h' =? h | _ => false end) tr).
Definition n_close h (tr : list mob) : nat := length (filter (fun o => match o with OClose h' e => (h' =? h) && (e =? 0)%Z | _ => false end) tr).
Definition n_close_done h (tr : list mob) : nat := length (filter (fun o => match o with OCloseDone h' => h' =? h | _ => false end) tr).
