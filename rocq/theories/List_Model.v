(** Model of the linked lists, lib/utils.c:1094-1163 and
    include/gensio/gensio_list.h. *)
From Verif Require Import Base Heap_Model.
Open Scope nat_scope.

(** The memory of struct gensio_link (gensio_list.h:20-24), one function for each
    field; [ln_live] says which ones are allocated.  A struct gensio_list is the
    link in it (lines 26-28), so a list is named by the number of its link. *)
Record lst := mkl { ln_live : nat -> bool; ln_list : nat -> ptr; ln_next : nat -> ptr; ln_prev : nat -> ptr }.

Definition lacc (s : lst) (p : ptr) : option nat := i <- p ;; _ <- guard (ln_live s i) ;; Some i.
Definition lgetL s p := i <- lacc s p ;; Some (ln_list s i).
Definition lgetN s p := i <- lacc s p ;; Some (ln_next s i).
Definition lgetP s p := i <- lacc s p ;; Some (ln_prev s i).
Definition lsetL s p (v : ptr) := i <- lacc s p ;; Some (mkl (ln_live s) (upd (ln_list s) i v) (ln_next s) (ln_prev s)).
Definition lsetN s p (v : ptr) := i <- lacc s p ;; Some (mkl (ln_live s) (ln_list s) (upd (ln_next s) i v) (ln_prev s)).
Definition lsetP s p (v : ptr) := i <- lacc s p ;; Some (mkl (ln_live s) (ln_list s) (ln_next s) (upd (ln_prev s) i v)).

(** assert(link->list == NULL && link->next == NULL && link->prev == NULL) *)
Definition assert_free s (link : ptr) : option unit :=
  l <- lgetL s link ;;
  n <- lgetN s link ;;
  p <- lgetP s link ;;
  guard (peq l None && peq n None && peq p None).

(** gensio_list_rm, utils.c:1095-1104 *)
Definition list_rm (s : lst) (h link : ptr) : option lst :=
  l <- lgetL s link ;;
  _ <- guard (peq l h) ;;
  n <- lgetN s link ;;
  p <- lgetP s link ;;
  s <- lsetP s n p ;;
  p <- lgetP s link ;;
  n <- lgetN s link ;;
  s <- lsetN s p n ;;
  s <- lsetN s link None ;;
  s <- lsetP s link None ;;
  lsetL s link None.

(** gensio_list_add_head, utils.c:1106-1115 *)
Definition list_add_head (s : lst) (h link : ptr) : option lst :=
  _ <- assert_free s link ;;
  n <- lgetN s h ;;
  s <- lsetN s link n ;;
  s <- lsetP s link h ;;
  n <- lgetN s h ;;
  s <- lsetP s n link ;;
  s <- lsetN s h link ;;
  lsetL s link h.

(** gensio_list_add_tail, utils.c:1117-1126 *)
Definition list_add_tail (s : lst) (h link : ptr) : option lst :=
  _ <- assert_free s link ;;
  p <- lgetP s h ;;
  s <- lsetP s link p ;;
  s <- lsetN s link h ;;
  p <- lgetP s h ;;
  s <- lsetN s p link ;;
  s <- lsetP s h link ;;
  lsetL s link h.

(** gensio_list_add_next, utils.c:1128-1138 *)
Definition list_add_next (s : lst) (h curr link : ptr) : option lst :=
  _ <- assert_free s link ;;
  n <- lgetN s curr ;;
  s <- lsetN s link n ;;
  s <- lsetP s link curr ;;
  n <- lgetN s curr ;;
  s <- lsetP s n link ;;
  s <- lsetN s curr link ;;
  lsetL s link h.

(** gensio_list_add_prev, utils.c:1140-1150 *)
Definition list_add_prev (s : lst) (h curr link : ptr) : option lst :=
  _ <- assert_free s link ;;
  p <- lgetP s curr ;;
  s <- lsetP s link p ;;
  s <- lsetN s link curr ;;
  p <- lgetP s curr ;;
  s <- lsetN s p link ;;
  s <- lsetP s curr link ;;
  lsetL s link h.

(** gensio_list_init, utils.c:1152-1158 *)
Definition list_init (s : lst) (h : ptr) : option lst :=
  s <- lsetN s h h ;;
  s <- lsetP s h h ;;
  lsetL s h h.

(** gensio_list_empty, utils.c:1160-1164 *)
Definition list_empty (s : lst) (h : ptr) : option bool := n <- lgetN s h ;; Some (peq n h).

(** gensio_list_first, _last, _next and _next_wrap, gensio_list.h:45-54; a second
    reading of the same field is not repeated. *)
Definition list_first (s : lst) (h : ptr) : option ptr := lgetN s h.
Definition list_last (s : lst) (h : ptr) : option ptr := lgetP s h.
Definition list_next (s : lst) (h link : ptr) : option ptr :=
  n <- lgetN s link ;; Some (if peq n h then None else n).
Definition list_next_wrap (s : lst) (h link : ptr) : option ptr :=
  n <- lgetN s link ;; if peq n h then lgetN s h else Some n.

(** gensio_list_for_each, gensio_list.h:56-57, with a body that only looks at the
    links; [n] bounds the turns, running out is [None]. *)
Fixpoint each_loop (n : nat) (s : lst) (h l : ptr) : option (list nat) :=
  if peq l h then Some []
  else
    match n with
    | O => None
    | S n =>
        i <- lacc s l ;;
        l <- lgetN s l ;;
        r <- each_loop n s h l ;;
        Some (i :: r)
    end.
Definition list_each (n : nat) (s : lst) (h : ptr) : option (list nat) :=
  l <- lgetN s h ;; each_loop n s h l.

(** gensio_list_for_each_safe, gensio_list.h:59-61.  The body may keep the link,
    remove it from the list, or remove and free it; the choices are given. *)
Inductive act := AKeep | ARemove | AFree.
Definition lkill (s : lst) (l : ptr) : option lst :=
  i <- lacc s l ;; Some (mkl (upd (ln_live s) i false) (ln_list s) (ln_next s) (ln_prev s)).
Definition each_body (s : lst) (h l : ptr) (a : act) : option lst :=
  match a with
  | AKeep => Some s
  | ARemove => list_rm s h l
  | AFree => s <- list_rm s h l ;; lkill s l
  end.
Fixpoint safe_loop (n : nat) (s : lst) (h l l2 : ptr) (acts : list act) : option (lst * list nat) :=
  if peq l h then Some (s, [])
  else
    match n with
    | O => None
    | S n =>
        i <- lacc s l ;;
        s <- each_body s h l (hd AKeep acts) ;;
        let l := l2 in
        l2 <- lgetN s l ;;
        ' (s, r) <- safe_loop n s h l l2 (tl acts) ;;
        Some (s, i :: r)
    end.
Definition list_each_safe (n : nat) (s : lst) (h : ptr) (acts : list act) : option (lst * list nat) :=
  l <- lgetN s h ;;
  l2 <- lgetN s l ;;
  safe_loop n s h l l2 acts.

(** gensio_list_link_inlist, _in_this_list and _link_init, gensio_list.h:63-74 *)
Definition link_inlist (s : lst) (l : ptr) : option bool := v <- lgetL s l ;; Some (negb (peq v None)).
Definition link_in_this_list (s : lst) (l h : ptr) : option bool := v <- lgetL s l ;; Some (peq v h).
Definition link_init (s : lst) (l : ptr) : option lst :=
  s <- lsetL s l None ;;
  s <- lsetP s l None ;;
  lsetN s l None.
