(** Theorems about the parameters in gensio strings. *)
From Coq Require Import String Ascii.
From Verif Require Import Base Cstr_Model Cstr_Spec Time_Model Pparm_Model Pparm_Spec Pparm_Proofs Pparm_Proofs2.
Open Scope Z_scope.

(** text, for the examples *)
Definition tx (s : string) : list Z := map (fun c => Z.of_nat (nat_of_ascii c)) (list_ascii_of_string s).

(** ** Values *)
(** A text that denotes a value of the kind asked for is taken and gives that value: numbers in any
    of C's notations with blanks and sign in front, bools, enumerations and file modes. *)
Theorem C126_taken : forall k key arg v, gives k key arg v -> r_rv (pparm k false arg key) = 1 /\ r_err (pparm k false arg key) = false /\ r_val (pparm k false arg key) = Some v.
Proof. intros k key arg v G. rewrite (gives_taken _ _ _ _ G). auto. Qed.
Print Assumptions C126_taken.
Example C126_hex : gives KInt (tx "rate") (tx "Rate=-0x1F") (VZ (-31)).
Proof.
  left. exists (tx "Rate"), (tx "-0x1F"). split; [reflexivity|]. split.
  - repeat constructor; unfold same_letter, upper_of; cbn; lia.
  - exists (-31). split; [reflexivity|]. split; [|lia]. apply (s_minus magnitude [] (tx "0x1F") 31); [constructor|]. apply (m_hex 120 (tx "1F")); [left; reflexivity|discriminate|]. repeat constructor; unfold hex; cbn; lia.
Qed.
Example C126_modes : denotes KMode (tx "rwr") (VZ 6) /\ denotes KPerm (tx "0640") (VZ 416) /\ denotes (KEnum [(tx "On", 3); (tx "off", 4)]) (tx "OFF") (VZ 4).
Proof.
  split; [|split].
  - exists 6. split; [reflexivity|]. apply mode_of_iff. reflexivity.
  - exists 416. split; [reflexivity|]. split; [|lia]. apply strto8. exists false, 416. vm_compute. repeat split; congruence.
  - exists (tx "off"), 4, [(tx "On", 3)], []. split; [reflexivity|]. split; [reflexivity|]. split; [repeat constructor; unfold same_letter, upper_of; cbn; lia|]. intros n z [E|[]] SS. injection E as <- <-. apply same_length in SS. discriminate.
Qed.

(** Whatever is taken is the value the text denotes, or is a number (written as one, to its end)
    that is out of the range of the kind.  What is missing: that those are refused. *)
Theorem C126_only_partial : forall k key arg v, r_rv (pparm k false arg key) = 1 -> r_val (pparm k false arg key) = Some v -> gives k key arg v \/ too_big k key arg.
Proof. exact (fun k key arg v => taken k arg key v). Qed.
Print Assumptions C126_only_partial.
Example C126_only_case : r_val (pparm KDs false (tx "readbuf=0100") (tx "readbuf")) = Some (VZ 64) /\ r_rv (pparm KDs false (tx "readbuf=08") (tx "readbuf")) = -1 /\ r_rv (pparm KDs false (tx "readbuf=") (tx "readbuf")) = -1 /\ r_rv (pparm KUint false (tx "x=4294967296") (tx "x")) = -1.
Proof. vm_compute. tauto. Qed.

(** A size of -1 is taken and is 2^64-1; one of 2^64 or more is taken and is 2^64-1 too. *)
Theorem C126_size_refuted : exists key a b, too_big KDs key a /\ too_big KDs key b /\
  pparm KDs false a key = ok (VZ (2 ^ 64 - 1)) /\ pparm KDs false b key = ok (VZ (2 ^ 64 - 1)).
Proof.
  exists (tx "readbuf"), (tx "readbuf=-1"), (tx "readbuf=99999999999999999999").
  assert (S : same_text (tx "readbuf") (tx "readbuf")) by (repeat constructor).
  split; [|split; [|split; vm_compute; reflexivity]]; (split; [reflexivity|]).
  - exists (tx "readbuf"), (tx "-1"), (-1). split; [reflexivity|]. split; [exact S|]. split; [|cbn; lia]. apply (s_minus magnitude [] (tx "1") 1); [constructor|]. apply (m_dec 49 []); [lia|constructor].
  - exists (tx "readbuf"), (tx "99999999999999999999"), 99999999999999999999. split; [reflexivity|]. split; [exact S|]. split; [|cbn; lia].
    apply (s_plain magnitude [] (tx "99999999999999999999")); [constructor|]. apply (m_dec 57 (tx "9999999999999999999")); [lia|]. repeat constructor; unfold dec; cbn; lia.
Qed.
Print Assumptions C126_size_refuted.
(** An unsigned parameter takes a negative number and stores a small positive one. *)
Theorem C126_unsigned_refuted : exists key a, too_big KUint key a /\ pparm KUint false a key = ok (VZ 1).
Proof.
  exists (tx "x"), (tx "x=-18446744073709551615"). split; [|vm_compute; reflexivity]. split; [reflexivity|]. exists (tx "x"), (tx "-18446744073709551615"), (- 18446744073709551615). split; [reflexivity|]. split; [repeat constructor|]. split; [|cbn; lia].
  apply (s_minus magnitude [] (tx "18446744073709551615") 18446744073709551615); [constructor|]. apply (m_dec 49 (tx "8446744073709551615")); [lia|]. repeat constructor; unfold dec; cbn; lia.
Qed.
Print Assumptions C126_unsigned_refuted.
(** An int out of range is reported as an error, but is taken: 2^32+5 is 5, and if it is the last
    argument the gensio is made with that. *)
Theorem C126_int_refuted : exists key a, too_big KInt key a /\ pparm KInt false a key = mkp 1 true (Some (VZ 5)) /\
  exists e, parse_args [(KInt, key)] [a] false (fun _ => None) = Some e /\ e 0%nat = Some (VZ 5).
Proof.
  exists (tx "x"), (tx "x=4294967301"). split; [|split; [vm_compute; reflexivity|eexists; split; [reflexivity|vm_compute; reflexivity]]].
  split; [reflexivity|]. exists (tx "x"), (tx "4294967301"), 4294967301. split; [reflexivity|]. split; [repeat constructor|]. split; [|cbn; lia].
  apply (s_plain magnitude [] (tx "4294967301")); [constructor|]. apply (m_dec 52 (tx "294967301")); [lia|]. repeat constructor; unfold dec; cbn; lia.
Qed.
Print Assumptions C126_int_refuted.
(** Permissions out of range are cut to 32 bits: 0 here. *)
Theorem C126_perm_refuted : exists key a, too_big KPerm key a /\ pparm KPerm false a key = ok (VZ 0).
Proof.
  exists (tx "perm"), (tx "perm=40000000000"). split; [|vm_compute; reflexivity]. split; [reflexivity|]. exists (tx "perm"), (tx "40000000000"), (2 ^ 32). split; [reflexivity|]. split; [repeat constructor|]. split; [|cbn; lia].
  apply (s_plain octal [] (tx "40000000000")); [constructor|]. apply (oct_text (tx "40000000000")); [discriminate|]. repeat constructor; unfold oct; cbn; lia.
Qed.
Print Assumptions C126_perm_refuted.
(** For a floating point parameter anything may follow the letter of a factor: "2kHz" is 2000 and
    so is "2k9". *)
Theorem C126_float_refuted : exists sd key a b, sd (tx "2kHz") = (2, tx "kHz") /\ sd (tx "2k9") = (2, tx "k9") /\
  a = tx "f=2kHz" /\ b = tx "f=2k9" /\ pparm_float sd false a key = ok (VZ 2000) /\ pparm_float sd false b key = ok (VZ 2000).
Proof.
  exists (fun s => (2, tl s)), (tx "f"). eexists. eexists. split; [reflexivity|]. split; [reflexivity|]. split; [reflexivity|]. split; [reflexivity|]. vm_compute. tauto.
Qed.
Print Assumptions C126_float_refuted.

(** ** Lists of arguments *)
(** If every argument gives a value to a key the gensio knows, the list is taken, and each key has
    the value the last argument for it gave. *)
Theorem C127_taken : forall ks args vs, distinct ks -> plain ks ->
  Forall2 (fun arg iv => exists k key, nth_error ks (fst iv) = Some (k, key) /\ gives k key arg (snd iv)) args vs ->
  exists e, parse_args ks args false (fun _ => None) = Some e /\ forall i v, e i = Some v <-> last_of i vs v.
Proof.
  intros ks args vs D P F. destruct (args_taken ks D P args vs F (fun _ => None)) as (e & E & H). exists e. split; [exact E|]. intros i v. rewrite (H i v). split; [intros [X|(_ & X)]; [exact X|discriminate]|auto].
Qed.
Print Assumptions C127_taken.
(** A list that is taken has only arguments for keys the gensio knows, each with a text good for
    its kind (or a number out of range), and each key has the value of the last argument for it. *)
Theorem C127_only : forall ks args e, distinct ks -> plain ks -> parse_args ks args false (fun _ => None) = Some e ->
  exists vs, Forall2 (fun arg iv => exists k key, nth_error ks (fst iv) = Some (k, key) /\ (gives k key arg (snd iv) \/ too_big k key arg)) args vs /\
    forall i v, e i = Some v <-> last_of i vs v.
Proof.
  intros ks args e D P H. destruct (args_only ks D P args _ _ H) as (vs & F & L). exists vs. split; [exact F|]. intros i v. rewrite (L i v). split; [intros [X|(_ & X)]; [exact X|discriminate]|auto].
Qed.
Print Assumptions C127_only.
(** the keys of the echo gensio *)
Definition echo_keys : list (kind * list Z) := [(KDs, tx "readbuf"); (KBool, tx "noecho"); (KStr, tx "data")].
Lemma differ a b : Nat.eqb (length a) (length b) = false -> ~ same_text a b.
Proof. intros N H. apply same_length in H. rewrite H, Nat.eqb_refl in N. discriminate. Qed.
Example C127_keys : distinct echo_keys /\ plain echo_keys.
Proof.
  split.
  - intros i j p q P Q S. destruct i as [|[|[|i]]]; cbn in P; [| | |destruct i; discriminate]; injection P as <-; (destruct j as [|[|[|j]]]; cbn in Q; [| | |destruct j; discriminate]; injection Q as <-); try reflexivity; exfalso; revert S; apply differ; vm_compute; reflexivity.
  - intros p [<- | [<- | [<- | []]]]; cbn; intuition discriminate.
Qed.
Example C127_case : match parse_args echo_keys [tx "readbuf=5"; tx "NOECHO"; tx "readbuf=0x10"; tx "data=a=b"] false (fun _ => None) with
  | Some e => e 0%nat = Some (VZ 16) /\ e 1%nat = Some (VZ 1) /\ e 2%nat = Some (VS (tx "a=b"))
  | None => False end /\
  parse_args echo_keys [tx "readbuf"] false (fun _ => None) = None /\ parse_args echo_keys [tx "noecho=x"; tx "readbuf=5"] false (fun _ => None) = None /\ parse_args echo_keys [tx "readbu=5"] false (fun _ => None) = None.
Proof. vm_compute. tauto. Qed.

(** ** Errors *)
(** A call for a key gives 0 and does nothing exactly if the argument is not about that key; else it
    gives 1 with a value, or -1 with an error and no value.  After an error no call takes anything. *)
Theorem C128_errors : forall k key arg,
  (about k key arg -> let r := pparm k false arg key in r_rv r = 1 /\ (exists v, r_val r = Some v) \/ r_rv r = -1 /\ r_err r = true /\ r_val r = None) /\
  (~ about k key arg -> pparm k false arg key = mkp 0 false None) /\ pparm k true arg key = mkp 0 true None.
Proof. intros k key arg. split; [apply about_outcome|]. split; [apply not_about|apply after_err]. Qed.
Print Assumptions C128_errors.
Example C128_case : about KBool (tx "noecho") (tx "NoEcho") /\ ~ about KDs (tx "noecho") (tx "NoEcho") /\ about KDs (tx "noecho") (tx "NoEcho=").
Proof.
  split; [right; split; [reflexivity|apply strcasecmp_same; reflexivity]|]. split; [|left; exists (tx "NoEcho"), []; split; [reflexivity|apply strcasecmp_same; reflexivity]].
  intros [(name & s & E & _)|(X & _)]; [|discriminate]. assert (I : In 61 (tx "NoEcho")) by (rewrite E; apply in_elt). cbn in I. intuition discriminate.
Qed.

(** ** Addresses *)
(** A call for an address frees the one it replaces, or the new one if that is refused, and no
    other: what is there afterwards is what was there, without the old and with the new.  What is
    missing: an address without a port if one is required. *)
Theorem C129_memory_partial : forall err str key sc iproto rp rai live,
  (forall a, rai = Some a -> In a live) -> (forall a p q, sc = Some (a, p, q) -> ~ In a live /\ (rp = true -> q = true)) ->
  exists r, pparm_addrs err str key sc iproto rp rai live = Some r /\
    (forall a, In a (a_live r) <-> a_addr r = Some a \/ (In a live /\ rai <> Some a)) /\
    (a_rv r = 1 \/ a_addr r = rai) /\ (a_rv r = -1 -> a_err r = true).
Proof. exact addrs_memory. Qed.
Print Assumptions C129_memory_partial.
Example C129_case : pparm_addrs false (tx "laddr=h,80") (tx "laddr") (Some (7%nat, 1, true)) 1 true (Some 3%nat) [3%nat; 2%nat] = Some (mka 1 false (Some 7%nat) [7%nat; 2%nat]) /\
  pparm_addrs false (tx "laddr=udp,h,80") (tx "laddr") (Some (7%nat, 2, true)) 1 true (Some 3%nat) [3%nat; 2%nat] = Some (mka (-1) true (Some 3%nat) [3%nat; 2%nat]).
Proof. vm_compute. tauto. Qed.
(** An address without a port where one is required: the old address is freed, and the call gives 1
    and an address that is freed already. *)
Theorem C129_port_refuted : exists str key r, pparm_addrs false str key (Some (7%nat, 1, false)) 1 true (Some 3%nat) [3%nat] = Some r /\
  a_rv r = 1 /\ a_addr r = Some 7%nat /\ a_live r = [].
Proof. exists (tx "laddr=h"), (tx "laddr"). eexists. split; [vm_compute; reflexivity|]. vm_compute. tauto. Qed.
Print Assumptions C129_port_refuted.
