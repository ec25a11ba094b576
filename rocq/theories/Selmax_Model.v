(** Model of the table of file descriptors of the selector and of maxfd,
    lib/os_unix_selector.c.  [FDS] is FD_SETSIZE. *)
From Verif Require Import Base Heap_Model.
Open Scope nat_scope.

Section Max.
  Variable FDS : nat.

  (** sel->fds: chains of descriptors, with whether "state" is set; maxfd + 1, the
      number passed to select (line 1283); whether epoll or kevent is used. *)
  Record mst := mkm { m_fds : nat -> list (nat * bool); m_num : nat; m_ev : bool }.
  (** get_fd, lines 579-588: the first of the chain with this number *)
  Definition find_fd (fd : nat) (l : list (nat * bool)) : option bool := match find (fun x => fst x =? fd) l with Some x => Some (snd x) | None => None end.
  Definition get_fd s fd : option bool := find_fd fd (m_fds s (fd mod FDS)).
  (** set the state of the first with this number *)
  Fixpoint mark (fd : nat) (b : bool) (l : list (nat * bool)) : list (nat * bool) :=
    match l with [] => [] | x :: l => if fst x =? fd then (fd, b) :: l else x :: mark fd b l end.

  (** sel_set_fd_handlers, lines 614-664: refused, or with the descriptor put into the
      table and maxfd moved up if it had no handlers *)
  Definition m_set s fd : mst * bool :=
    if negb (m_ev s) && negb (fd <? FDS) then (s, false)
    else
      let l := m_fds s (fd mod FDS) in
      let added := match find_fd fd l with Some true => false | _ => true end in
      let l := match find_fd fd l with Some _ => mark fd true l | None => (fd, true) :: l end in
      (mkm (upd (m_fds s) (fd mod FDS) l) (if added then Nat.max (m_num s) (S fd) else m_num s) (m_ev s), true).
  (** the loop of i_sel_clear_fd_handler, lines 710-715; fds[maxfd] must be in the
      table *)
  Fixpoint m_down (t : nat -> list (nat * bool)) (n : nat) : option nat :=
    match n with
    | 0 => Some 0
    | S m => _ <- guard (m <? FDS) ;; match t m with (_, true) :: _ => Some (S m) | _ => m_down t m end
    end.
  (** i_sel_clear_fd_handler, lines 684-715; valid_fd aborts for a descriptor never
      set *)
  Definition m_clear s fd : option mst :=
    match get_fd s fd with
    | None => Some s
    | Some _ =>
        let t := upd (m_fds s) (fd mod FDS) (mark fd false (m_fds s (fd mod FDS))) in
        n <- (if S fd =? m_num s then m_down t (m_num s) else Some (m_num s)) ;;
        Some (mkm t n (m_ev s))
    end.

  (** calls: (true, fd) sets handlers, (false, fd) clears them *)
  Definition m_step s (e : bool * nat) : option mst := if fst e then Some (fst (m_set s (snd e))) else m_clear s (snd e).
  Fixpoint m_run (es : list (bool * nat)) s : option mst := match es with [] => Some s | e :: es => s <- m_step s e ;; m_run es s end.
  Definition m_init (ev : bool) := mkm (fun _ => []) 0 ev.
End Max.

(** What the calls say: the descriptor has handlers.  The last call is first. *)
Fixpoint registered (fd : nat) (es : list (bool * nat)) : bool :=
  match es with [] => false | (b, u) :: es => if u =? fd then b else registered fd es end.
