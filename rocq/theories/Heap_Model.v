(** Model of the timer heap, lib/heap.h, as used by lib/os_unix_selector.c. *)
From Verif Require Import Base.
Open Scope nat_scope.

(** Pointers to nodes: [None] is NULL.  The memory of the nodes is one function
    for each field of struct heap_node_s (heap.h:71-77); [live] says which nodes
    are allocated.  hp_top and hp_last are those of struct heap_s, lines 79-82.
    The value is the timeval of heap_val_t (seconds and microseconds); its other
    fields are not touched by the heap. *)
Definition ptr := option nat.
Record hst := mkh { hp_live : nat -> bool; hp_val : nat -> Z * Z; hp_lf : nat -> ptr; hp_rt : nat -> ptr; hp_up : nat -> ptr;
                    hp_top : ptr; hp_last : ptr }.

Definition upd {B} (f : nat -> B) (i : nat) (v : B) : nat -> B := fun j => if j =? i then v else f j.
Definition peq (p q : ptr) : bool :=
  match p, q with Some i, Some j => i =? j | None, None => true | _, _ => false end.

(** Access through a pointer; NULL or a node that is not allocated is undefined. *)
Definition acc (s : hst) (p : ptr) : option nat := i <- p ;; _ <- guard (hp_live s i) ;; Some i.
Definition getV s p := i <- acc s p ;; Some (hp_val s i).
Definition getL s p := i <- acc s p ;; Some (hp_lf s i).
Definition getR s p := i <- acc s p ;; Some (hp_rt s i).
Definition getU s p := i <- acc s p ;; Some (hp_up s i).
Definition setL s p (v : ptr) := i <- acc s p ;; Some (mkh (hp_live s) (hp_val s) (upd (hp_lf s) i v) (hp_rt s) (hp_up s) (hp_top s) (hp_last s)).
Definition setR s p (v : ptr) := i <- acc s p ;; Some (mkh (hp_live s) (hp_val s) (hp_lf s) (upd (hp_rt s) i v) (hp_up s) (hp_top s) (hp_last s)).
Definition setU s p (v : ptr) := i <- acc s p ;; Some (mkh (hp_live s) (hp_val s) (hp_lf s) (hp_rt s) (upd (hp_up s) i v) (hp_top s) (hp_last s)).
Definition setTop s (v : ptr) := mkh (hp_live s) (hp_val s) (hp_lf s) (hp_rt s) (hp_up s) v (hp_last s).
Definition setLast s (v : ptr) := mkh (hp_live s) (hp_val s) (hp_lf s) (hp_rt s) (hp_up s) (hp_top s) v.

(** [if (p) p->up = v;] *)
Definition setU_if s (p v : ptr) : option hst := match p with None => Some s | Some _ => setU s p v end.

(** The piece of code that puts [new] in the place of [old] below [up], the
    parent of [old], or at the top: heap.h:316-324 (send_up), 361-369 and
    394-402 (send_down), 506-515 (remove) *)
Definition replace_child s (up old new : ptr) : option hst :=
  match up with
  | Some _ =>
      l <- getL s up ;;
      if peq l old then setL s up new else setR s up new
  | None => Some (setTop s new)
  end.

(** cmp_timeval, lib/os_unix_selector.c:169-185; heap_cmp_key, lines 187-191 *)
Definition cmp_key (a b : Z * Z) : Z :=
  if (fst a <? fst b)%Z then -1 else if (fst b <? fst a)%Z then 1
  else if (snd a <? snd b)%Z then -1 else if (snd b <? snd a)%Z then 1 else 0.

(** find_next_pos, heap.h:229-260.  The loops: [n] turns at most, running out is
    [None].  The result of the first one is upcount and curr. *)
Fixpoint up_right (n : nat) (s : hst) (curr : ptr) (upcount : nat) : option (nat * ptr) :=
  u <- getU s curr ;;
  match u with
  | None => Some (upcount, curr)
  | Some _ =>
      r <- getR s u ;;
      if peq r curr then match n with O => None | S n => up_right n s u (S upcount) end
      else Some (upcount, curr)
  end.
Fixpoint down_left (upcount : nat) (s : hst) (curr : ptr) : option ptr :=
  match upcount with O => Some curr | S k => c <- getL s curr ;; down_left k s c end.
(** The result is the parent and whether the place is its left ([true]) or right
    one.  The decrement of upcount at 0 would wrap around: [None]. *)
Definition find_next_pos (n : nat) (s : hst) (curr : ptr) : option (ptr * bool) :=
  u <- getU s curr ;;
  isleft <- match u with None => Some false | Some _ => l <- getL s u ;; Some (peq l curr) end ;;
  if isleft then Some (u, false)
  else
    ' (upcount, curr) <- up_right n s curr 0 ;;
    u <- getU s curr ;;
    ' (upcount, curr) <- match u with
                         | None => Some (upcount, curr)
                         | Some _ => c <- getR s u ;; match upcount with O => None | S k => Some (k, c) end
                         end ;;
    curr <- down_left upcount s curr ;;
    _ <- acc s curr ;;
    Some (curr, true).

(** find_prev_elem, heap.h:262-291 *)
Fixpoint up_left (n : nat) (s : hst) (curr : ptr) (upcount : nat) : option (nat * ptr) :=
  u <- getU s curr ;;
  match u with
  | None => Some (upcount, curr)
  | Some _ =>
      l <- getL s u ;;
      if peq l curr then match n with O => None | S n => up_left n s u (S upcount) end
      else Some (upcount, curr)
  end.
Fixpoint down_right (upcount : nat) (s : hst) (curr : ptr) : option ptr :=
  match upcount with O => Some curr | S k => c <- getR s curr ;; down_right k s c end.
Definition find_prev_elem (n : nat) (s : hst) (curr : ptr) : option ptr :=
  u <- getU s curr ;;
  isright <- match u with None => Some false | Some _ => r <- getR s u ;; Some (peq r curr) end ;;
  if isright then getL s u
  else
    ' (upcount, curr) <- up_left n s curr 0 ;;
    u <- getU s curr ;;
    ' (upcount, curr) <- match u with
                         | None => match upcount with O => None | S k => Some (k, curr) end
                         | Some _ => c <- getL s u ;; Some (upcount, c)
                         end ;;
    down_right upcount s curr.

(** One turn of the loop of send_up, heap.h:302-338 *)
Definition swap_up (s : hst) (elem parent : ptr) : option hst :=
  tmp1 <- getL s elem ;;
  tmp2 <- getR s elem ;;
  pl <- getL s parent ;;
  s <- (if peq pl elem then
          s <- setL s elem parent ;;
          x <- getR s parent ;;
          s <- setR s elem x ;;
          x <- getR s elem ;;
          setU_if s x elem
        else
          s <- setR s elem parent ;;
          x <- getL s parent ;;
          s <- setL s elem x ;;
          x <- getL s elem ;;
          setU_if s x elem) ;;
  pu <- getU s parent ;;
  s <- setU s elem pu ;;
  pu <- getU s parent ;;
  s <- replace_child s pu parent elem ;;
  s <- setU s parent elem ;;
  s <- setL s parent tmp1 ;;
  x <- getL s parent ;;
  s <- setU_if s x parent ;;
  s <- setR s parent tmp2 ;;
  x <- getR s parent ;;
  s <- setU_if s x parent ;;
  Some (if peq (hp_last s) elem then setLast s parent else s).

(** send_up, heap.h:293-340 *)
Fixpoint send_up_loop (n : nat) (s : hst) (elem parent : ptr) : option hst :=
  match parent with
  | None => Some s
  | Some _ =>
      ve <- getV s elem ;;
      vp <- getV s parent ;;
      if (cmp_key ve vp <? 0)%Z then
        match n with
        | O => None
        | S n =>
            s <- swap_up s elem parent ;;
            parent <- getU s elem ;;
            send_up_loop n s elem parent
        end
      else Some s
  end.
Definition send_up (n : nat) (s : hst) (elem : ptr) : option hst :=
  parent <- getU s elem ;; send_up_loop n s elem parent.

(** The swap with the right child, heap.h:358-385 *)
Definition swap_right (s : hst) (elem right : ptr) : option hst :=
  tmp1 <- getL s right ;;
  tmp2 <- getR s right ;;
  eu <- getU s elem ;;
  s <- replace_child s eu elem right ;;
  eu <- getU s elem ;;
  s <- setU s right eu ;;
  s <- setU s elem right ;;
  x <- getL s elem ;;
  s <- setL s right x ;;
  s <- setR s right elem ;;
  s <- setL s elem tmp1 ;;
  s <- setR s elem tmp2 ;;
  x <- getL s right ;;
  s <- setU_if s x right ;;
  x <- getL s elem ;;
  s <- setU_if s x elem ;;
  x <- getR s elem ;;
  s <- setU_if s x elem ;;
  Some (if peq (hp_last s) right then setLast s elem else s).

(** The swap with the left child, heap.h:391-418 *)
Definition swap_left (s : hst) (elem left : ptr) : option hst :=
  tmp1 <- getL s left ;;
  tmp2 <- getR s left ;;
  eu <- getU s elem ;;
  s <- replace_child s eu elem left ;;
  eu <- getU s elem ;;
  s <- setU s left eu ;;
  s <- setU s elem left ;;
  s <- setL s left elem ;;
  x <- getR s elem ;;
  s <- setR s left x ;;
  s <- setL s elem tmp1 ;;
  s <- setR s elem tmp2 ;;
  x <- getR s left ;;
  s <- setU_if s x left ;;
  x <- getL s elem ;;
  s <- setU_if s x elem ;;
  x <- getR s elem ;;
  s <- setU_if s x elem ;;
  Some (if peq (hp_last s) left then setLast s elem else s).

(** send_down, heap.h:342-424 *)
Fixpoint send_down (n : nat) (s : hst) (elem : ptr) : option hst :=
  left <- getL s elem ;;
  match left with
  | None => Some s
  | Some _ =>
      right <- getR s elem ;;
      vl <- getV s left ;;
      use_right <- match right with
                   | None => Some false
                   | Some _ => vr <- getV s right ;; Some (0 <? cmp_key vl vr)%Z
                   end ;;
      let child := if use_right : bool then right else left in
      ve <- getV s elem ;;
      vc <- getV s child ;;
      if (0 <? cmp_key ve vc)%Z then
        match n with
        | O => None
        | S n =>
            s <- (if use_right then swap_right s elem child else swap_left s elem child) ;;
            send_down n s elem
        end
      else Some s
  end.

(** add, heap.h:426-465 *)
Definition heap_add (n : nat) (s : hst) (elem : ptr) : option hst :=
  s <- setL s elem None ;;
  s <- setR s elem None ;;
  s <- setU s elem None ;;
  match hp_top s with
  | None => Some (setLast (setTop s elem) elem)
  | Some _ =>
      ' (parent, isleft) <- find_next_pos n s (hp_last s) ;;
      s <- (if isleft : bool then setL s parent elem else setR s parent elem) ;;
      s <- setU s elem parent ;;
      let s := setLast s elem in
      ve <- getV s elem ;;
      vp <- getV s parent ;;
      if (cmp_key ve vp <? 0)%Z then send_up n s elem else Some s
  end.

(** remove, heap.h:467-543 *)
Definition heap_remove (n : nat) (s : hst) (elem : ptr) : option hst :=
  let to_insert := hp_last s in
  u <- getU s to_insert ;;
  match u with
  | None => Some (setLast (setTop s None) None)
  | Some _ =>
      prev <- find_prev_elem n s to_insert ;;
      let s := setLast s prev in
      l <- getL s u ;;
      s <- (if peq l to_insert then setL s u None else setR s u None) ;;
      if peq elem to_insert then Some s
      else
        eu <- getU s elem ;;
        s <- replace_child s eu elem to_insert ;;
        eu <- getU s elem ;;
        s <- setU s to_insert eu ;;
        x <- getL s elem ;;
        s <- setU_if s x to_insert ;;
        x <- getR s elem ;;
        s <- setU_if s x to_insert ;;
        x <- getL s elem ;;
        s <- setL s to_insert x ;;
        x <- getR s elem ;;
        s <- setR s to_insert x ;;
        let s := if peq (hp_last s) elem then setLast s to_insert else s in
        u <- getU s to_insert ;;
        goes_up <- match u with
                   | None => Some false
                   | Some _ => ve <- getV s to_insert ;; vu <- getV s u ;; Some (cmp_key ve vu <? 0)%Z
                   end ;;
        if goes_up : bool then send_up n s to_insert else send_down n s to_insert
  end.

(** get_top, heap.h:545-549; init, lines 551-556 *)
Definition heap_get_top (s : hst) : ptr := hp_top s.
Definition heap_init (s : hst) : hst := setLast (setTop s None) None.
