(** What the ratelimit filter promises. *)
From Verif Require Import Base Ratelimit_Model.
Open Scope nat_scope.

(** The number of bytes passed to the lower layer in each of the periods the
    expiries separate; [c] counts the current one. *)
Fixpoint periods (c : nat) (evs : list rlev) : list nat :=
  match evs with
  | [] => [c]
  | EPassed d :: evs => periods (c + length d) evs
  | EExpired :: evs => c :: periods 0 evs
  end.

(** A user writing a stream: each call offers all that is left, divided into
    buffers by [cut]. *)
Fixpoint rl_user (r : rl) (data : list Z) (ops : list (option (option nat))) (cut : list Z -> list (list Z))
  : option (rl * list Z * list Z) :=
  match ops with
  | [] => Some (r, [], data)
  | None :: ops => rl_user (if rl_timer r then rl_timeout r else r) data ops cut
  | Some a :: ops =>
      ' (r, (c, d)) <- rl_write r (cut data) a ;;
      ' (r, s, rest) <- rl_user r (skipn (match c with Some n => n | None => 0 end) data) ops cut ;;
      Some (r, d ++ s, rest)
  end.
