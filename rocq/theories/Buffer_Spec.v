(** Specification of a bounded byte queue, independent of the ring
    representation. *)
From Verif Require Import Base.

Inductive qop :=
| QPut (d : list Z)                        (* store what fits *)
| QDrain (h : list Z -> option nat)        (* hand the queue to a handler *)
| QClear.

(** What happens when a queue that is cut into the consecutive chunks [cs]
    is handed to the handler chunk by chunk; stops at the first chunk that
    fails or is not taken completely.  [taken] are the bytes accepted,
    [flag] tells whether an error was reported. *)
Inductive feed (h : list Z -> option nat) : list (list Z) -> list Z -> bool -> Prop :=
| feed_nil : feed h [] [] false
| feed_err c cs : h c = None -> feed h (c :: cs) [] true
| feed_part c cs n : h c = Some n -> n < length c -> feed h (c :: cs) (firstn n c) false
| feed_full c cs n t f : h c = Some n -> n = length c -> feed h cs t f ->
                         feed h (c :: cs) (c ++ t) f.

(** One step of a queue of capacity [cap]: [q] before, [out] bytes taken by
    a handler, [q'] after. *)
Inductive qstep (cap : nat) : list Z -> qop -> list Z -> list Z -> Prop :=
| qs_put q d : qstep cap q (QPut d) [] (q ++ firstn (cap - length q) d)
| qs_drain q h cs out f q' :
    concat cs = q -> Forall (fun c => c <> []) cs -> length cs <= 2 ->
    feed h cs out f -> q = out ++ q' ->
    qstep cap q (QDrain h) out q'
| qs_clear q : qstep cap q QClear [] [].

Inductive qrun (cap : nat) : list Z -> list qop -> list (list Z) -> list Z -> Prop :=
| qr_nil q : qrun cap q [] [] q
| qr_cons q o out q1 os outs q2 :
    qstep cap q o out q1 -> qrun cap q1 os outs q2 ->
    qrun cap q (o :: os) (out :: outs) q2.

(** A handler never claims to have taken more than it was given. *)
Definition lawful (h : list Z -> option nat) : Prop :=
  forall d n, h d = Some n -> n <= length d.

(** A handler that takes everything it is given. *)
Definition takes_all (h : list Z -> option nat) : Prop := forall d, h d = Some (length d).
