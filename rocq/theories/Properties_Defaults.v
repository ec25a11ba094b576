(** Theorems about the defaults, and the local address of a TCP gensio. *)
From Coq Require Import String Ascii Permutation.
From Verif Require Import Base Cstr_Model Cstr_Spec Time_Model Pparm_Model Pparm_Spec Pparm_Proofs Pparm_Proofs2 Defaults_Model Defaults_Spec Defaults_Proofs Defaults_Proofs2 Defaults_Proofs3.
Open Scope Z_scope.

Definition tx (s : string) : list Z := map (fun c => Z.of_nat (nat_of_ascii c)) (list_ascii_of_string s).

(** ** What a get returns *)
(** After any calls, every get returned the value last set for its class, or else the one last set
    for all, or else the first value; every call returned the error its predecessors call for. *)
Theorem C130_defaults : forall bs ops s tr, drun ops (dstart bs) [] = Some (s, tr) -> map o_op tr = rev ops /\ all_explained bs tr.
Proof.
  intros bs ops s tr H. destruct (drun_ok bs ops _ [] s tr (start_inv bs) Logic.I H) as (_ & A & L). split; [|exact A]. rewrite L. apply app_nil_r.
Qed.
Print Assumptions C130_defaults.
Definition some_builtin : list bspec := [(tx "mttl", TInt, 1, 255, [], None, 1); (tx "speed", TStr, 0, 0, [], Some (tx "9600N81"), 0); (tx "nodelay", TBool, 0, 0, [], None, 0)].
Example C130_case : match drun [OSet None (tx "mttl") (Some (tx " +7")) 0; OSet (Some (tx "udp")) (tx "mttl") (Some (tx "9")) 0; OGet (Some (tx "udp")) (tx "mttl") false TInt; OGet (Some (tx "tcp")) (tx "mttl") false TInt;
    OSet None (tx "mttl") (Some (tx "256")) 0; OGet None (tx "speed") false TStr; OReset; OGet (Some (tx "udp")) (tx "mttl") false TInt; OAdd (tx "mode") TEnum None 3 0 0 [(tx "a", 3); (tx "b", 4)]; OSet (Some (tx "x")) (tx "mode") (Some (tx "b")) 0; ODel None (tx "mode") false; OGet (Some (tx "x")) (tx "mode") true TInt; ODel None (tx "mode") true; OGet None (tx "mode") false TInt] (dstart some_builtin) [] with
  | Some (_, tr) => map (fun d => (o_err d, o_str d, o_int d)) (rev tr) =
    [(0, None, 0); (0, None, 0); (0, None, 9); (0, None, 7); (6, None, 0); (0, Some (tx "9600N81"), 0); (0, None, 0); (0, None, 1); (0, None, 0); (0, None, 0); (10, None, 0); (0, None, 4); (0, None, 0); (4, None, 0)]
  | None => False end.
Proof. vm_compute. reflexivity. Qed.

(** ** Memory *)
(** After any calls: the next call frees nothing twice and touches nothing that is not there, if the
    caller gives all the data it says and does not ask for data; and the values in use are each an
    allocation of their own that is not freed. *)
Theorem C131_memory : forall bs ops s tr op, drun ops (dstart bs) [] = Some (s, tr) -> caller_ok bs tr op ->
  (exists r, dstep op s = Some r) /\ NoDup (used s) /\ forall a, In a (used s) -> In a (s_live s).
Proof.
  intros bs ops s tr op H C. destruct (drun_ok bs ops _ [] s tr (start_inv bs) Logic.I H) as (I & _). split; [apply (dstep_ok bs s tr op I); exact C|]. destruct I as (_ & _ & N & L & _). auto.
Qed.
Print Assumptions C131_memory.
Example C131_case : match drun [OAdd (tx "d") TData (Some [1; 2; 3]) 2 0 0 []; OSet (Some (tx "x")) (tx "d") (Some [7; 8; 9]) 3; OSet (Some (tx "x")) (tx "d") (Some [7; 8]) 1; OSet None (tx "speed") (Some (tx "9600")) 0; OSet None (tx "speed") None 0] (dstart some_builtin) [] with
  | Some (s, tr) => used s = [3%nat] /\ s_live s = [3%nat; 1%nat] /\ caller_ok some_builtin tr (OSet None (tx "d") (Some [1]) 1)
  | None => False end.
Proof. vm_compute. repeat split; try discriminate. Qed.
(** Resetting forgets the data set for a class without freeing it; deleting a default forgets its
    first value. *)
Theorem C131_leak_refuted : exists ops1 ops2, 
  (exists s tr, drun ops1 (dstart []) [] = Some (s, tr) /\ used s = [] /\ s_live s = [1%nat] /\ forall e, In e (s_user s) -> v_str (d_def e) = None) /\
  (exists s tr, drun ops2 (dstart []) [] = Some (s, tr) /\ s_user s = [] /\ s_live s = [1%nat]).
Proof.
  exists [OAdd (tx "d") TData None 0 0 0 []; OSet (Some (tx "x")) (tx "d") (Some [7]) 1; OReset], [OAdd (tx "d") TStr (Some (tx "x")) 0 0 0 []; ODel None (tx "d") false]. split.
  - eexists. eexists. split; [vm_compute; reflexivity|]. split; [reflexivity|]. split; [reflexivity|]. cbn. intros e [<- | []]. reflexivity.
  - eexists. eexists. split; [vm_compute; reflexivity|]. split; reflexivity.
Qed.
Print Assumptions C131_leak_refuted.

(** ** Limits *)
(** An int set from a text is within the limits of the default. *)
Theorem C132_limits_partial : forall bs ops s tr d tr1 tr0 n b iv, drun ops (dstart bs) [] = Some (s, tr) -> tr = tr1 ++ d :: tr0 ->
  (exists co, o_op d = OGet None n co TInt) -> last_set tr0 n None = Some (Some b, iv) -> forall k, known bs tr0 n = Some k -> k_type k = TInt -> o_err d = 0 -> k_min k <= o_int d <= k_max k.
Proof.
  intros bs ops s tr d tr1 tr0 n b iv H T (co & O) L k K Ty Er. destruct (C130_defaults bs ops s tr H) as (_ & A). subst tr.
  assert (X : explained bs tr0 d) by (clear - A; induction tr1 as [|x tr1 IH]; cbn in A; [apply A|apply IH, A]). unfold explained in X. rewrite O, K in X. destruct X as (_ & X). specialize (X (or_introl Ty)). rewrite L in X. destruct co; [rewrite Er in X; discriminate|]. destruct X as (_ & str & i & G & S).
  unfold set_gives in G. rewrite Ty in G. cbn [sees] in S. rewrite S. apply G.
Qed.
Print Assumptions C132_limits_partial.
(** One given as a number is not checked against them. *)
Theorem C132_limits_refuted : exists ops s tr d, drun ops (dstart some_builtin) [] = Some (s, d :: tr) /\ o_op d = OGet None (tx "mttl") false TInt /\ o_err d = 0 /\ o_int d = 1000.
Proof. exists [OSet None (tx "mttl") None 1000; OGet None (tx "mttl") false TInt]. eexists. eexists. eexists. split; [vm_compute; reflexivity|]. vm_compute. tauto. Qed.
Print Assumptions C132_limits_refuted.
(** A number of 2^32 or more is taken without its upper bits: 4294967297 is 1. *)
Theorem C132_wrap_refuted : exists ops s tr d, drun ops (dstart some_builtin) [] = Some (s, d :: tr) /\ ops = [OSet None (tx "mttl") (Some (tx "4294967297")) 0; OGet None (tx "mttl") false TInt] /\ o_err d = 0 /\ o_int d = 1.
Proof. exists [OSet None (tx "mttl") (Some (tx "4294967297")) 0; OGet None (tx "mttl") false TInt]. eexists. eexists. eexists. split; [vm_compute; reflexivity|]. vm_compute. tauto. Qed.
Print Assumptions C132_wrap_refuted.
(** A bool set from the text "2" is 2. *)
Theorem C132_bool_refuted : exists ops s tr d, drun ops (dstart some_builtin) [] = Some (s, d :: tr) /\ o_op d = OGet None (tx "nodelay") false TBool /\ o_err d = 0 /\ o_int d = 2.
Proof. exists [OSet None (tx "nodelay") (Some (tx "2")) 0; OGet None (tx "nodelay") false TBool]. eexists. eexists. eexists. split; [vm_compute; reflexivity|]. vm_compute. tauto. Qed.
Print Assumptions C132_bool_refuted.
Example C132_case : match drun [OSet None (tx "mttl") (Some (tx "255")) 0; OGet None (tx "mttl") false TInt] (dstart some_builtin) [] with
  | Some (s, d :: tr0) => last_set tr0 (tx "mttl") None = Some (Some (tx "255"), 0) /\ o_err d = 0 /\ o_int d = 255 | _ => False end.
Proof. vm_compute. tauto. Qed.

(** ** Data *)
(** Whatever was called before, getting a data default that was set writes one byte past the end of
    the block it was given for the copy. *)
Theorem C133_data_refuted : forall bs ops s tr n k p, drun ops (dstart bs) [] = Some (s, tr) -> known bs tr n = Some k -> k_type k = TData -> last_set tr n None = Some p ->
  get_default None n false TData s = None.
Proof.
  intros bs ops s tr n k p H K T L. destruct (drun_ok bs ops _ [] s tr (start_inv bs) Logic.I H) as ((I & _) & _). specialize (I n). rewrite K in I. destruct I as (e & F & Mt & _ & G & _).
  rewrite L in G. apply agree_some in G. destruct G as (v & Gv & V). unfold get_default. rewrite F. destruct Mt as (Ty & _). rewrite Ty, T. cbn [dtype_eqb negb andb]. destruct (d_set e); [|discriminate]. injection Gv as ->.
  unfold val_ok, set_gives in V. rewrite T in V. destruct V as (_ & V & _). cbn [kept] in V. destruct (v_str v) as [[a b]|]; [|discriminate]. unfold guard. replace (v_int v + 1 <=? v_int v) with false by lia. reflexivity.
Qed.
Print Assumptions C133_data_refuted.
Example C133_case : match drun [OAdd (tx "d") TData None 0 0 0 []; OSet None (tx "d") (Some [1; 2; 3]) 3] (dstart []) [] with
  | Some (s, tr) => last_set tr (tx "d") None = Some (Some [1; 2; 3], 3) /\ get_default None (tx "d") false TData s = None | None => False end.
Proof. vm_compute. tauto. Qed.

(** ** The local address of a TCP gensio *)
(** Without a default laddr, and if after laddr= come only parameters of TCP itself: the gensio has
    the address given, and nothing is freed that should not be; if the allocation fails all is as
    before.  What is missing: all other cases, see below. *)
Theorem C134_address_partial : forall sc pre post live, (forall a, ~ In (ALaddr a) pre) -> (post = [] \/ exists a ts, post = ALaddr a :: ts /\ Forall (eq ATaken) ts) ->
  exists err la live', net_alloc (0, None) sc (pre ++ post) live = Some (err, la, live') /\
    (err = 0 /\ (forall x, In x pre -> x = ATaken \/ x = ABase) /\ match post with ALaddr a :: _ => la = Some a /\ live' = a :: live | _ => la = None /\ live' = live end \/ err = GE_INVAL /\ live' = live /\ (In ABadAddr pre \/ In AUnknown pre)).
Proof.
  intros sc pre post live Np Hp. unfold net_alloc, get_defaultaddr. cbn [Z.eqb negb obind GE_NOTSUP andb Pos.eqb].
  induction pre as [|x pre IH].
  - cbn [app]. destruct Hp as [-> | (a & ts & -> & Ft)].
    + cbn [net_args]. do 3 eexists. split; [reflexivity|]. left. repeat split; try tauto. intros y [].
    + cbn [net_args afree_opt obind]. assert (X : net_args ts (Some a) (Some a) (a :: live) = Some (0, Some a, a :: live)) by (clear - Ft; induction Ft as [|y ts <- _ IH]; cbn [net_args]; [reflexivity|exact IH]). rewrite X. do 3 eexists. split; [reflexivity|]. left. repeat split; try tauto. intros y [].
  - destruct IH as (err & la & live' & E & H); [intros a A; apply (Np a); right; exact A|]. cbn [app]. destruct x as [|a| | |]; cbn [net_args afree_opt obind].
    + exists err, la, live'. split; [exact E|]. destruct H as [(H1 & H2 & H3)|(H1 & H2 & H3)]; [left|right].
      * split; [exact H1|]. split; [intros y [<- | Y]; [left; reflexivity|exact (H2 y Y)]|exact H3].
      * split; [exact H1|]. split; [exact H2|]. cbn. tauto.
    + exfalso. apply (Np a). left. reflexivity.
    + do 3 eexists. split; [reflexivity|]. right. cbn. tauto.
    + exists err, la, live'. split; [exact E|]. destruct H as [(H1 & H2 & H3)|(H1 & H2 & H3)]; [left|right].
      * split; [exact H1|]. split; [intros y [<- | Y]; [right; reflexivity|exact (H2 y Y)]|exact H3].
      * split; [exact H1|]. split; [exact H2|]. cbn. tauto.
    + do 3 eexists. split; [reflexivity|]. right. cbn. tauto.
Qed.
Print Assumptions C134_address_partial.
Example C134_case : net_alloc (0, None) (inl 4) [ABase; ATaken; ALaddr 5; ATaken] [9%nat] = Some (0, Some 5%nat, [5%nat; 9%nat]).
Proof. reflexivity. Qed.
(** A parameter of all gensios after laddr= frees the address the gensio is then made with, and two
    free it twice. *)
Theorem C134_base_refuted : net_alloc (0, None) (inl 4) [ALaddr 5; ABase] [] = Some (0, Some 5%nat, []) /\ net_alloc (0, None) (inl 4) [ALaddr 5; ABase; ABase] [] = None.
Proof. vm_compute. tauto. Qed.
Print Assumptions C134_base_refuted.
(** laddr= twice frees the first address twice. *)
Theorem C134_twice_refuted : forall sc a b args live, a <> b -> net_alloc (0, None) sc (ALaddr a :: ALaddr b :: args) live = None.
Proof.
  intros sc a b args live N. unfold net_alloc, get_defaultaddr. cbn [Z.eqb negb obind GE_NOTSUP andb Pos.eqb net_args afree_opt]. rewrite afree_ok by (right; left; reflexivity). cbn [obind].
  unfold afree. replace (existsb (Nat.eqb a) (remove Nat.eq_dec a (b :: a :: live))) with false; [reflexivity|]. symmetry. apply not_true_iff_false. intros H. apply existsb_exists in H. destruct H as (x & X & E). apply Nat.eqb_eq in E. subst x. apply remove_In in X. exact X.
Qed.
Print Assumptions C134_twice_refuted.
(** With a default laddr that is a good address no TCP gensio can be made: the allocation fails with
    the error for no memory, and the address is lost. *)
Theorem C134_default_refuted : forall text a port args live, net_alloc (0, Some text) (inr (a, 1, port)) args live = Some (GE_NOMEM, None, a :: live).
Proof. reflexivity. Qed.
Print Assumptions C134_default_refuted.
