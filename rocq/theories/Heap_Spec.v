(** What a priority queue does. *)
From Verif Require Import Base Heap_Model.
Open Scope nat_scope.

(** The order of times *)
Definition kle (a b : Z * Z) : Prop := (fst a < fst b \/ fst a = fst b /\ snd a <= snd b)%Z.

(** What a user does with nodes: allocate and free them, set the time of one
    that is not in the heap and add it, remove one, ask for the first. *)
Inductive hop := HAlloc (e : nat) | HFree (e : nat) | HAdd (e : nat) (v : Z * Z) | HRemove (e : nat) | HTop.

(** The specification knows the allocated nodes and the nodes added with their
    times.  It says when a call is legal and what may be returned by HTop. *)
Record pq := mkpq { pq_alive : list nat; pq_in : list (nat * (Z * Z)) }.
Definition legal (q : pq) (o : hop) : Prop :=
  match o with
  | HAlloc e => ~ In e (pq_alive q)
  | HFree e => In e (pq_alive q) /\ ~ In e (map fst (pq_in q))
  | HAdd e _ => In e (pq_alive q) /\ ~ In e (map fst (pq_in q))
  | HRemove e => In e (map fst (pq_in q))
  | HTop => True
  end.
Definition pq_step (q : pq) (o : hop) : pq :=
  match o with
  | HAlloc e => mkpq (e :: pq_alive q) (pq_in q)
  | HFree e => mkpq (filter (fun x => negb (x =? e)) (pq_alive q)) (pq_in q)
  | HAdd e v => mkpq (pq_alive q) ((e, v) :: pq_in q)
  | HRemove e => mkpq (pq_alive q) (filter (fun x => negb (fst x =? e)) (pq_in q))
  | HTop => q
  end.
(** The first: NULL if there is none, else one with the least time. *)
Definition first_of (q : pq) (t : ptr) : Prop :=
  match t with
  | None => pq_in q = []
  | Some e => exists v, In (e, v) (pq_in q) /\ forall x w, In (x, w) (pq_in q) -> kle v w
  end.

Fixpoint legal_run (q : pq) (ops : list hop) : Prop :=
  match ops with
  | [] => True
  | o :: ops => legal q o /\ legal_run (pq_step q o) ops
  end.
Fixpoint spec_run (q : pq) (ops : list hop) (out : list ptr) : Prop :=
  match ops, out with
  | [], [] => True
  | HTop :: ops, t :: out => first_of q t /\ spec_run q ops out
  | HTop :: _, [] => False
  | o :: ops, out => spec_run (pq_step q o) ops out
  | [], _ :: _ => False
  end.

(** The code doing the same; [n] bounds the turns of each loop. *)
Definition set_live (s : hst) (e : nat) (b : bool) : hst :=
  mkh (upd (hp_live s) e b) (hp_val s) (hp_lf s) (hp_rt s) (hp_up s) (hp_top s) (hp_last s).
Definition set_val (s : hst) (e : nat) (v : Z * Z) : hst :=
  mkh (hp_live s) (upd (hp_val s) e v) (hp_lf s) (hp_rt s) (hp_up s) (hp_top s) (hp_last s).
Fixpoint heap_run (n : nat) (s : hst) (ops : list hop) : option (hst * list ptr) :=
  match ops with
  | [] => Some (s, [])
  | o :: ops =>
      ' (s, t) <- match o with
                  | HAlloc e => Some (set_live s e true, [])
                  | HFree e => Some (set_live s e false, [])
                  | HAdd e v => s <- heap_add n (set_val s e v) (Some e) ;; Some (s, [])
                  | HRemove e => s <- heap_remove n s (Some e) ;; Some (s, [])
                  | HTop => Some (s, [heap_get_top s])
                  end ;;
      ' (s, out) <- heap_run n s ops ;;
      Some (s, t ++ out)
  end.

(** The queue after a run *)
Fixpoint pq_end (q : pq) (ops : list hop) : pq :=
  match ops with [] => q | o :: ops => pq_end (pq_step q o) ops end.
(** Taking the first node out until there is none, at most [k - 1] times *)
Fixpoint heap_drain (k n : nat) (s : hst) : option (list (nat * (Z * Z))) :=
  match k with
  | O => None
  | S k =>
      match heap_get_top s with
      | None => Some []
      | Some e =>
          v <- getV s (Some e) ;;
          s <- heap_remove n s (Some e) ;;
          l <- heap_drain k n s ;;
          Some ((e, v) :: l)
      end
  end.
Fixpoint in_order (l : list (nat * (Z * Z))) : Prop :=
  match l with
  | [] => True
  | (_, v) :: l => (forall x w, In (x, w) l -> kle v w) /\ in_order l
  end.
