(** What the properties of certauth say, in terms of what is seen of a filter
    ([Certauth_Model.ev], newest first): no function of the model is used here. *)
From Verif Require Import Base Certauth_Model.
Open Scope Z_scope.

(** The peer has sent an element of this kind. *)
Definition sent (e : Z) (t : list ev) : Prop := exists d, In (TElem e d) t.

(** Ways to be let in.  The application or the child says so; *)
Definition by_app (t : list ev) : Prop := In TChild t \/ In (TBegin 0) t \/ In (TPre 0) t.
(** the certificate was found good (by the application, or by the store if the application leaves it
    to it), and *)
Definition good_cert (c : list Z) (t : list ev) : Prop :=
  exists l1 l2 r p, t = l1 ++ TPost p :: TStore c r :: l2 /\ (p = 0 \/ p = GE_NOTSUP /\ r = 0).
(** a signature was checked with its key; *)
Definition by_cert (t : list ev) : Prop :=
  exists c d sg, In (TSig c d sg true) t /\ good_cert c t.
(** a password or a second factor was accepted. *)
Definition by_pw (t : list ev) : Prop := exists p, In (TPw p 0) t.
Definition by_2fa (t : list ev) : Prop := exists v, In (T2fa v 0) t.
(** Some credential or permission, second factor not counted. *)
Definition let_in (t : list ev) : Prop := by_app t \/ by_cert t \/ by_pw t.

(** The open has succeeded, and gensio_is_authenticated() says yes. *)
Definition authenticated (t : list ev) : Prop := In (TOpen 0 true) t.
Definition opened (t : list ev) : Prop := exists a, In (TOpen 0 a) t.

(** What the last SERVERDONE message says. *)
Fixpoint last_done (t : list ev) : option Z :=
  match t with [] => None | TDone r :: _ => Some r | _ :: t => last_done t end.

(** Every signature checked after the random challenge was drawn covers this challenge. *)
Fixpoint covers_challenge (t : list ev) : Prop :=
  match t with
  | [] => True
  | TSig _ d _ _ :: t => (forall ch, In (TRand ch) t -> exists v, d = ch ++ v) /\ covers_challenge t
  | _ :: t => covers_challenge t
  end.
(** Every accepted signature covers a challenge drawn before. *)
Definition fresh (t : list ev) : Prop :=
  forall l1 c d sg l2, t = l1 ++ TSig c d sg true :: l2 -> exists ch v, In (TRand ch) l2 /\ d = ch ++ v.

(** The application has refused the peer: at the beginning, for its certificate, or after the
    check of it (unless it had said yes to the certificate, or the peer sent a RESULT). *)
Definition rejected (t : list ev) : Prop :=
  In (TBegin GE_AUTHREJECT) t \/ In (TPre GE_AUTHREJECT) t \/
  (In (TPost GE_AUTHREJECT) t /\ ~ In (TPre 0) t /\ ~ sent E_RESULT t).

(** The elements of messages handled, oldest first. *)
Fixpoint elements (t : list ev) : list (Z * list Z) :=
  match t with [] => [] | TElem e d :: t => elements t ++ [(e, d)] | _ :: t => elements t end.
