(** Counterexamples for the xlt filter. *)
From Verif Require Import Base Xlt_Model Xlt_Spec Xlt_Proofs.
Open Scope Z_scope.

(** The counts of a partially accepted write: 10 bytes, of which the lower
    layer takes 5, then the remaining 290 of 300: 251 are taken over, 256 are
    reported. *)
Definition bad_data : list Z := map (fun i => Z.of_nat i mod 251) (seq 0 300).
Definition bad_calls : list call := [([firstn 10 bad_data], Some 5%nat); ([skipn 10 bad_data], Some 256%nat)].

Lemma xlt_count_bad : exists x r1 r2, xlt_run (xd_init ident) bad_calls = Some (x, [r1; r2]) /\
  xr_taken r2 = 251%nat /\ xr_count r2 = Some 256%nat.
Proof. eexists _, _, _. split; [vm_compute; reflexivity|]. split; reflexivity. Qed.

(** A count larger than the data offered *)
Lemma xlt_count_too_large : exists x r1 r2,
  xlt_run (xd_init ident) [([[1;2;3;4]], Some 1%nat); ([[5]], Some 256%nat)] = Some (x, [r1; r2]) /\
  xr_count r2 = Some 4%nat.
Proof. eexists _, _, _. split; [vm_compute; reflexivity|]. reflexivity. Qed.

Fixpoint prefixb (a b : list Z) : bool :=
  match a, b with
  | [], _ => true
  | x :: a, y :: b => (x =? y) && prefixb a b
  | _, _ => false
  end.
Lemma prefixb_refl a b : prefixb a (a ++ b) = true.
Proof. induction a; cbn; [reflexivity|]. rewrite Z.eqb_refl. exact IHa. Qed.
Lemma prefixb_firstn n a : prefixb (firstn n a) a = true.
Proof. rewrite <- (firstn_skipn n a) at 2. apply prefixb_refl. Qed.

Lemma follow_bad : exists x s d, follow (xd_init ident) (bad_data ++ bad_data) [Some 5; Some 256; Some 256]%nat = Some (x, s, d) /\
  forall n, s ++ xlt_pending x <> map (tr ident) (firstn n (bad_data ++ bad_data)).
Proof.
  eexists _, _, _. split; [vm_compute; reflexivity|].
  intros n H. rewrite <- firstn_map in H.
  assert (Q : prefixb (firstn n (map (tr ident) (bad_data ++ bad_data))) (map (tr ident) (bad_data ++ bad_data)) = true)
    by apply prefixb_firstn.
  rewrite <- H in Q. vm_compute in Q. discriminate.
Qed.
