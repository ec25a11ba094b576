(** Encoding to the output function. *)
From Verif Require Import Base Convcode_Model Convcode_Spec Convcode_Proofs Convcode_Proofs2.
Open Scope Z_scope.

(** ** Bits *)
Lemma byte_bits_add a b v : byte_bits (a + b) v = byte_bits a v ++ byte_bits b (Z.shiftr v (Z.of_nat a)).
Proof.
  unfold byte_bits. rewrite seq_app, map_app. f_equal. cbn [Nat.add].
  apply (list_eq_nth false); rewrite !map_length, !seq_length; [reflexivity|].
  intros i Hi. rewrite !nth_map_lt with (d' := 0%nat) by (rewrite seq_length; exact Hi).
  rewrite !seq_nth by exact Hi. rewrite Z.shiftr_spec by lia. f_equal. lia.
Qed.

Lemma byte_bits_ext n a b :
  (forall i, (i < n)%nat -> Z.testbit a (Z.of_nat i) = Z.testbit b (Z.of_nat i)) -> byte_bits n a = byte_bits n b.
Proof. intros H. unfold byte_bits. apply map_ext_in. intros i Hi. apply in_seq in Hi. apply H. lia. Qed.

Lemma byte_bits_mod n v m : (n <= m)%nat -> byte_bits n (v mod 2 ^ Z.of_nat m) = byte_bits n v.
Proof. intros H. apply byte_bits_ext. intros i Hi. apply Z.mod_pow2_bits_low. lia. Qed.
Lemma byte_bits_mod8 n v : (n <= 8)%nat -> byte_bits n (v mod 256) = byte_bits n v.
Proof. intros H. change 256 with (2 ^ Z.of_nat 8). apply byte_bits_mod. exact H. Qed.

Lemma byte_bits_lor a b P v : 0 <= P < 2 ^ Z.of_nat a ->
  byte_bits (a + b) (Z.lor P (Z.shiftl v (Z.of_nat a))) = byte_bits a P ++ byte_bits b v.
Proof.
  intros HP. rewrite byte_bits_add. f_equal; apply byte_bits_ext; intros i Hi.
  - rewrite Z.lor_spec, Z.shiftl_spec, (Z.testbit_neg_r v) by lia. apply orb_false_r.
  - rewrite Z.shiftr_spec, Z.lor_spec, Z.shiftl_spec by lia.
    rewrite (testbit_above (Z.of_nat a) P) by lia. cbn. f_equal. lia.
Qed.

Lemma lor_bound a b P v : 0 <= P < 2 ^ Z.of_nat a -> 0 <= v < 2 ^ Z.of_nat b ->
  0 <= Z.lor P (Z.shiftl v (Z.of_nat a)) < 2 ^ Z.of_nat (a + b).
Proof.
  intros HP Hv. assert (0 <= Z.lor P (Z.shiftl v (Z.of_nat a))).
  { rewrite Z.lor_nonneg, Z.shiftl_nonneg. lia. }
  split; [assumption|]. apply bound_of_bits; [lia|assumption|].
  intros i Hi. rewrite Z.lor_spec, Z.shiftl_spec by lia.
  rewrite (testbit_above (Z.of_nat a) P), (testbit_above (Z.of_nat b) v) by lia. reflexivity.
Qed.

Lemma shiftr_bound v a b : 0 <= v < 2 ^ Z.of_nat (a + b) -> 0 <= Z.shiftr v (Z.of_nat a) < 2 ^ Z.of_nat b.
Proof.
  intros H. rewrite Z.shiftr_div_pow2 by lia. rewrite Nat2Z.inj_add, Z.pow_add_r in H by lia.
  assert (0 < 2 ^ Z.of_nat a) by (apply Z.pow_pos_nonneg; lia).
  split; [apply Z.div_pos; lia|]. apply Z.div_lt_upper_bound; lia.
Qed.

(** ** The output collector *)
Definition cbits (l : list (Z * nat)) : list bool := flat_map (fun '(b, n) => byte_bits n b) l.

Record od_ok (o : od) (x : list bool) : Prop := {
  oo_bits : cbits (ocalls o) ++ byte_bits (opos o) (obits o) = x;
  oo_pos : (opos o < 8)%nat;
  oo_val : 0 <= obits o < 2 ^ Z.of_nat (opos o);
  oo_calls : Forall (fun '(b, n) => n = 8%nat /\ 0 <= b < 256) (ocalls o);
  oo_tot : ototal o = u32 (Z.of_nat (length x))
}.

Lemma od0_ok : od_ok od0 [].
Proof. constructor; cbn; try reflexivity; try lia. constructor. Qed.

Lemma u32_add a b : u32 (u32 a + b) = u32 (a + b).
Proof. unfold u32. rewrite Zplus_mod_idemp_l. reflexivity. Qed.

Definition good (orc : oracle) : Prop := forall n, orc n = 0.

Lemma cbits_snoc l b n : cbits (l ++ [(b, n)]) = cbits l ++ byte_bits n b.
Proof. unfold cbits. rewrite flat_map_app. cbn. rewrite app_nil_r. reflexivity. Qed.

Lemma cbits_len8 l : Forall (fun '(b, n) => n = 8%nat /\ 0 <= b < 256) l -> length (cbits l) = (8 * length l)%nat.
Proof.
  induction 1 as [|[b n] l [-> _] _ IH]; [reflexivity|]. unfold cbits in *. cbn [flat_map].
  rewrite app_length, byte_bits_length, IH. cbn [length]. lia.
Qed.

Lemma output_bits_i_ok orc : good orc -> forall fuel o bits len P t,
  (len < fuel)%nat -> (opos o < 8)%nat -> 0 <= P < 2 ^ Z.of_nat (opos o) -> 0 <= bits < 2 ^ Z.of_nat len ->
  obits o = Z.lor P (Z.shiftl bits (Z.of_nat (opos o))) mod 256 ->
  Forall (fun '(b, n) => n = 8%nat /\ 0 <= b < 256) (ocalls o) ->
  ototal o = u32 (Z.of_nat t) -> t = (length (cbits (ocalls o)) + opos o)%nat ->
  exists o', output_bits_i fuel orc o bits len = Some (0, o') /\
    od_ok o' (cbits (ocalls o) ++ byte_bits (opos o) P ++ byte_bits len bits).
Proof.
  intros G. induction fuel as [|f IH]; intros o bits len P t Hf Hp HP Hb Ho Hc Ht Htl; [lia|].
  cbn [output_bits_i]. destruct (8 <=? opos o + len)%nat eqn:E.
  - replace (opos o <=? 8)%nat with true by lia. cbn [guard obind]. rewrite G. cbn [Z.eqb negb].
    replace (8 - opos o <=? len)%nat with true by lia. cbn [guard obind].
    set (used := (8 - opos o)%nat).
    assert (Hlen : len = (used + (len - used))%nat) by (unfold used; lia).
    assert (Hb' : 0 <= Z.shiftr bits (Z.of_nat used) < 2 ^ Z.of_nat (len - used)).
    { apply shiftr_bound. rewrite <- Hlen. exact Hb. }
    assert (Hbyte : byte_bits 8 (obits o) = byte_bits (opos o) P ++ byte_bits used bits).
    { rewrite Ho, byte_bits_mod8 by lia. replace 8%nat with (opos o + used)%nat by (unfold used; lia).
      apply byte_bits_lor. exact HP. }
    edestruct (IH {| obits := Z.shiftr bits (Z.of_nat used) mod 256; opos := 0;
                     ototal := u32 (ototal o + Z.of_nat used); ocalls := ocalls o ++ [(obits o, 8%nat)] |}
                  (Z.shiftr bits (Z.of_nat used)) (len - used)%nat 0 (t + used)%nat)
      as (o' & R & K); cbn [obits opos ototal ocalls].
    + unfold used. lia.
    + lia.
    + cbn. lia.
    + exact Hb'.
    + rewrite Z.lor_0_l, Z.shiftl_0_r. reflexivity.
    + apply Forall_app. split; [exact Hc|]. constructor; [|constructor].
      split; [reflexivity|]. rewrite Ho. apply Z.mod_pos_bound. lia.
    + rewrite Ht, u32_add. f_equal. lia.
    + rewrite cbits_snoc, app_length, byte_bits_length. unfold used. lia.
    + exists o'. split; [exact R|]. cbn [obits opos ototal ocalls] in K.
      rewrite cbits_snoc, Hbyte in K.
      replace (byte_bits len bits) with (byte_bits used bits ++ byte_bits (len - used) (Z.shiftr bits (Z.of_nat used)))
        by (rewrite <- byte_bits_add, <- Hlen; reflexivity).
      rewrite !app_assoc in *. cbn [byte_bits seq map] in K. rewrite app_nil_r in K. exact K.
  - eexists. split; [reflexivity|].
    assert (B : 0 <= Z.lor P (Z.shiftl bits (Z.of_nat (opos o))) < 2 ^ Z.of_nat (opos o + len))
      by (apply lor_bound; assumption).
    assert (L8 : 2 ^ Z.of_nat (opos o + len) <= 256).
    { change 256 with (2 ^ 8). apply Z.pow_le_mono_r; lia. }
    assert (M : obits o = Z.lor P (Z.shiftl bits (Z.of_nat (opos o)))) by (rewrite Ho; apply Z.mod_small; lia).
    constructor; cbn [obits opos ototal ocalls].
    + f_equal. rewrite M. apply byte_bits_lor. exact HP.
    + lia.
    + rewrite M. exact B.
    + exact Hc.
    + rewrite Ht, u32_add. f_equal. rewrite !app_length, !byte_bits_length. lia.
Qed.

Lemma output_bits_ok orc o x bits len : good orc -> od_ok o x -> 0 <= bits < 2 ^ Z.of_nat len ->
  exists o', output_bits orc o bits len = Some (0, o') /\ od_ok o' (x ++ byte_bits len bits).
Proof.
  intros G K Hb. unfold output_bits.
  pose proof (oo_bits _ _ K) as Hx.
  edestruct (output_bits_i_ok orc G (S len)
    {| obits := Z.lor (obits o) (Z.shiftl bits (Z.of_nat (opos o))) mod 256;
       opos := opos o; ototal := ototal o; ocalls := ocalls o |} bits len (obits o) (length x))
    as (o' & R & K'); cbn [obits opos ototal ocalls]; try apply K; try exact Hb; try lia; try reflexivity.
  - rewrite <- Hx, app_length, byte_bits_length. lia.
  - exists o'. split; [exact R|]. cbn [obits opos ototal ocalls] in K'.
    rewrite app_assoc, Hx in K'. exact K'.
Qed.

Lemma removelast_forall {A} (P : A -> Prop) l : Forall P l -> Forall P (removelast l).
Proof.
  induction 1 as [|a l Ha Hl IH]; [constructor|]. cbn. destruct l; [constructor|]. constructor; assumption.
Qed.

Lemma flush_delivers o x : od_ok o x -> delivers (ocalls (od_flush o)) x.
Proof.
  intros K. unfold od_flush. destruct (0 <? opos o)%nat eqn:E; cbn [ocalls].
  - split; [|split].
    + pose proof (oo_bits _ _ K). pose proof (cbits_snoc (ocalls o) (obits o) (opos o)) as C.
      unfold cbits in C. rewrite C. exact H.
    + rewrite removelast_last. eapply Forall_impl; [|apply K]. intros [b n]. tauto.
    + apply Forall_app. split.
      * eapply Forall_impl; [|apply K]. intros [b n] [-> Hb]. split; [lia|exact Hb].
      * constructor; [|constructor]. pose proof (oo_val _ _ K). pose proof (oo_pos _ _ K). split; [lia|assumption].
  - split; [|split].
    + pose proof (oo_bits _ _ K) as H. replace (opos o) with 0%nat in H by lia. cbn in H.
      rewrite app_nil_r in H. exact H.
    + apply removelast_forall. eapply Forall_impl; [|apply K]. intros [b n]. tauto.
    + eapply Forall_impl; [|apply K]. intros [b n] [-> Hb]. split; [lia|exact Hb].
Qed.

(** ** Puncturing *)
Lemma punctured_app pa x : forall i y, punctured pa i (x ++ y) = punctured pa i x ++ punctured pa (i + length x) y.
Proof.
  induction x as [|b x IH]; intros i y; cbn [app punctured length]; [rewrite Nat.add_0_r; reflexivity|].
  rewrite IH, app_assoc. f_equal. f_equal. lia.
Qed.

Lemma pnext_mod c i : cpunc c <> [] -> pnext c (i mod length (cpunc c)) = (S i mod length (cpunc c))%nat.
Proof.
  intros H. set (n := length (cpunc c)). assert (Hn : n <> 0%nat) by (unfold n; destruct (cpunc c); [contradiction|cbn; lia]).
  unfold pnext. fold n. pose proof (Nat.mod_upper_bound i n Hn) as B.
  pose proof (Nat.div_mod i n Hn) as D.
  destruct (n <=? S (i mod n))%nat eqn:E.
  - apply Nat.mod_unique with (q := S (i / n)); nia.
  - apply Nat.mod_unique with (q := (i / n)%nat); nia.
Qed.

Lemma output_bits_puncture_ok c orc : good orc -> cpunc c <> [] -> forall len o x bits i,
  od_ok o x ->
  exists o', output_bits_puncture c orc o (i mod length (cpunc c)) bits len =
             Some (0, o', ((i + len) mod length (cpunc c))%nat) /\
    od_ok o' (x ++ punctured (cpunc c) i (byte_bits len bits)).
Proof.
  intros G H. set (n := length (cpunc c)). assert (Hn : n <> 0%nat) by (unfold n; destruct (cpunc c); [contradiction|cbn; lia]).
  induction len as [|len IH]; intros o x bits i K.
  - cbn. exists o. rewrite Nat.add_0_r, app_nil_r. split; [reflexivity|exact K].
  - cbn [output_bits_puncture]. unfold mget.
    rewrite (nth_error_nth' (cpunc c) 1) by (apply Nat.mod_upper_bound; exact Hn). cbn [obind].
    rewrite byte_bits_S. cbn [punctured]. fold n.
    destruct (nth (i mod n) (cpunc c) 1 =? 0) eqn:E; cbn [obind Z.eqb negb].
    + unfold n. rewrite pnext_mod by exact H. fold n.
      destruct (IH o x (Z.shiftr bits 1) (S i) K) as (o' & R & K'). exists o'.
      rewrite R. split; [f_equal; f_equal; f_equal; lia|]. exact K'.
    + destruct (output_bits_ok orc o x (Z.land bits 1) 1 G K) as (o1 & R1 & K1).
      { rewrite odd_land. destruct (Z.odd bits); cbn; lia. }
      rewrite R1. cbn [obind Z.eqb negb]. unfold n. rewrite pnext_mod by exact H. fold n.
      destruct (IH o1 _ (Z.shiftr bits 1) (S i) K1) as (o' & R & K'). exists o'.
      rewrite R. split; [f_equal; f_equal; f_equal; lia|].
      rewrite <- app_assoc in K'. cbn [app]. rewrite byte_bits_S in K'. cbn [byte_bits seq map app] in K'.
      rewrite odd_land in K'. destruct (Z.odd bits); exact K'.
Qed.

(** ** The encoder *)
Lemma zget_nth {A} (l : list A) i d : 0 <= i -> (Z.to_nat i < length l)%nat -> zget l i = Some (nth (Z.to_nat i) l d).
Proof.
  intros H L. unfold zget, mget. replace (i <? 0) with false by lia. apply nth_error_nth'. exact L.
Qed.

Lemma send_app pa x y : pa <> [] -> send pa (x ++ y) = send pa x ++ punctured pa (length x) y.
Proof. intros H. unfold send. destruct pa; [contradiction|]. apply punctured_app. Qed.

Lemma in_bits_cons b r n : in_bits (b :: r) n = byte_bits (Nat.min 8 n) b ++ in_bits r (n - 8).
Proof.
  unfold in_bits. cbn [flat_map]. rewrite firstn_app, byte_bits_length. f_equal.
  destruct (Nat.le_gt_cases 8 n) as [L|L].
  - rewrite firstn_all2 by (rewrite byte_bits_length; exact L). f_equal. lia.
  - rewrite Nat.min_r by lia. replace 8%nat with (n + (8 - n))%nat by lia.
    rewrite byte_bits_add, firstn_app, byte_bits_length, Nat.sub_diag.
    rewrite firstn_all2 by (rewrite byte_bits_length; lia). cbn. apply app_nil_r.
Qed.

Section Enc.
Variables (c : cfg) (k : nat) (ps : list Z) (orc : oracle).
Hypothesis W : wf c k ps.

Lemma tsel_next_length b : length (tsel (cnext c) b) = Z.to_nat (cnst c).
Proof.
  unfold tsel. rewrite (wf_next _ _ _ W). destruct (b =? 0); cbn [fst snd]; unfold next_table;
    rewrite map_length, states_length; reflexivity.
Qed.

Lemma tsel_conv_length b : length (tsel (cconv c) b) = Z.to_nat (cnst c).
Proof.
  unfold tsel. rewrite (wf_conv _ _ _ W). destruct (b =? 0); cbn [fst snd]; unfold conv_table;
    rewrite map_length, states_length; reflexivity.
Qed.

Lemma zget_next b s : 0 <= s < cnst c -> zget (tsel (cnext c) (Z.b2z b)) s = Some (nx c b s).
Proof. intros H. apply zget_nth; [lia|]. rewrite tsel_next_length. lia. Qed.

Lemma zget_conv b s : 0 <= s < cnst c -> zget (tsel (cconv c) (Z.b2z b)) s = Some (cv c b s).
Proof. intros H. apply zget_nth; [lia|]. rewrite tsel_conv_length. lia. Qed.

Lemma start_range : 0 <= 0 < cnst c.
Proof. pose proof (nst_pos c k ps W). lia. Qed.

Lemma run_snoc s x b : run c s (x ++ [b]) = nx c b (run c s x).
Proof. rewrite run_app. reflexivity. Qed.

Lemma outs_snoc s x b : outs c s (x ++ [b]) = outs c s x ++ byte_bits (cnp c) (cv c b (run c s x)).
Proof. rewrite outs_app. cbn [outs]. rewrite app_nil_r. reflexivity. Qed.


Hypothesis G : good orc.
Hypothesis NS : cpersym c = false.

Record enc_ok (e : enc) (x : list bool) : Prop := {
  eo_state : estate e = run c 0 x;
  eo_out : od_ok (eout e) (send (cpunc c) (outs c 0 x));
  eo_pp : cpunc c <> [] -> epp e = ((cnp c * length x) mod length (cpunc c))%nat
}.

Lemma enc0_ok : enc_ok enc0 [].
Proof.
  constructor; cbn; [reflexivity| |].
  - unfold send. destruct (cpunc c); apply od0_ok.
  - intros H. rewrite Nat.mul_0_r. destruct (cpunc c); [contradiction|]. rewrite Nat.mod_0_l by (cbn; lia). reflexivity.
Qed.

Lemma convencode_bit_ok e x b : enc_ok e x ->
  exists e', convencode_bit c orc e (Z.b2z b) = Some (0, e') /\ enc_ok e' (x ++ [b]).
Proof.
  intros [Es Eo Ep]. unfold convencode_bit.
  pose proof (run_range c k ps W x 0 start_range) as R. rewrite Es.
  rewrite zget_next, zget_conv by exact R. cbn [obind]. unfold enc_output. rewrite NS.
  pose proof (cv_range c k ps W b _ R) as V.
  destruct (cpunc c) as [|p0 pr] eqn:EP.
  - destruct (output_bits_ok orc (eout e) _ (cv c b (run c 0 x)) (cnp c) G Eo V) as (o' & R' & K').
    rewrite R'. cbn [obind]. eexists. split; [reflexivity|].
    constructor; cbn [estate eout epp].
    + rewrite run_snoc. reflexivity.
    + rewrite EP. cbn [send] in *. rewrite outs_snoc. exact K'.
    + rewrite EP. congruence.
  - assert (NE : cpunc c <> []) by congruence.
    destruct (output_bits_puncture_ok c orc G NE (cnp c) (eout e) _ (cv c b (run c 0 x)) (cnp c * length x) Eo)
      as (o' & R' & K').
    rewrite Ep by congruence. rewrite EP in *. rewrite R'. cbn [obind]. eexists. split; [reflexivity|].
    constructor; cbn [estate eout epp].
    + rewrite run_snoc. reflexivity.
    + rewrite EP, outs_snoc, send_app by congruence. rewrite outs_length. exact K'.
    + intros _. rewrite EP, app_length. cbn [length]. f_equal. lia.
Qed.

Lemma convencode_byte_ok n : forall e x byte, enc_ok e x ->
  exists e', convencode_byte c orc e byte n = Some (0, e') /\ enc_ok e' (x ++ byte_bits n byte).
Proof.
  induction n as [|n IH]; intros e x byte K.
  - cbn. exists e. rewrite app_nil_r. split; [reflexivity|exact K].
  - cbn [convencode_byte]. rewrite odd_land.
    destruct (convencode_bit_ok e x (Z.odd byte) K) as (e1 & R1 & K1). rewrite R1. cbn [obind Z.eqb negb].
    destruct (IH e1 _ (Z.shiftr byte 1) K1) as (e' & R & K'). exists e'. split; [exact R|].
    rewrite byte_bits_S. rewrite <- app_assoc in K'. exact K'.
Qed.

Lemma convencode_data_ok bytes : forall e x n, (n <= 8 * length bytes)%nat -> enc_ok e x ->
  exists e', convencode_data c orc e bytes n = Some (0, e') /\ enc_ok e' (x ++ in_bits bytes n).
Proof.
  induction bytes as [|b r IH]; intros e x n Hn K.
  - cbn in Hn. replace n with 0%nat by lia. cbn. exists e. rewrite app_nil_r. split; [reflexivity|exact K].
  - destruct n as [|n].
    + cbn. exists e. unfold in_bits. cbn [firstn]. rewrite app_nil_r. split; [reflexivity|exact K].
    + cbn [convencode_data].
      destruct (convencode_byte_ok (Nat.min 8 (S n)) e x b K) as (e1 & R1 & K1).
      rewrite R1. cbn [obind Z.eqb negb].
      destruct (IH e1 _ (S n - 8)%nat ltac:(cbn [length] in Hn; lia) K1) as (e' & R & K').
      exists e'. split; [exact R|]. rewrite in_bits_cons, app_assoc. exact K'.
Qed.

Lemma enc_tail_ok n : forall e x, enc_ok e x ->
  exists e', enc_tail c orc e n = Some (0, e') /\ enc_ok e' (x ++ repeat false n).
Proof.
  induction n as [|n IH]; intros e x K.
  - cbn. exists e. rewrite app_nil_r. split; [reflexivity|exact K].
  - cbn [enc_tail repeat]. destruct (convencode_bit_ok e x false K) as (e1 & R1 & K1). cbn [Z.b2z] in R1.
    rewrite R1. cbn [obind Z.eqb negb]. destruct (IH e1 _ K1) as (e' & R & K'). exists e'.
    split; [exact R|]. rewrite <- app_assoc in K'. exact K'.
Qed.

Lemma convencode_finish_ok e x : enc_ok e x ->
  let w := send (cpunc c) (code k ps (crec c) (x ++ repeat false (ctail c))) in
  exists e', convencode_finish c orc e = Some (0, e', u32 (Z.of_nat (length w))) /\
    delivers (ocalls (eout e')) w.
Proof.
  intros K w. unfold convencode_finish. destruct (enc_tail_ok (ctail c) e x K) as (e1 & R1 & K1).
  rewrite R1. cbn [obind Z.eqb negb].
  assert (EW : send (cpunc c) (outs c 0 (x ++ repeat false (ctail c))) = w).
  { unfold w. f_equal. apply (machine_code c k ps W). }
  pose proof (eo_out _ _ K1) as Ko. rewrite EW in Ko.
  eexists. split; [rewrite (oo_tot _ _ Ko); reflexivity|]. cbn [eout].
  apply flush_delivers. exact Ko.
Qed.
End Enc.

(** feeding the data in any number of calls *)
Fixpoint enc_feed (c : cfg) (orc : oracle) (e : enc) (chunks : list (list Z * nat)) : option (Z * enc) :=
  match chunks with
  | [] => Some (0, e)
  | (bytes, n) :: r =>
      ' (rv, e') <- convencode_data c orc e bytes n ;;
      if negb (rv =? 0) then Some (rv, e') else enc_feed c orc e' r
  end.

Lemma enc_feed_ok c k ps orc chunks : wf c k ps -> good orc -> cpersym c = false -> forall e x,
  Forall (fun '(bytes, n) => (n <= 8 * length bytes)%nat) chunks -> enc_ok c e x ->
  exists e', enc_feed c orc e chunks = Some (0, e') /\
    enc_ok c e' (x ++ flat_map (fun '(bytes, n) => in_bits bytes n) chunks).
Proof.
  intros W G NS. induction chunks as [|[bytes n] r IH]; intros e x F K.
  - cbn. exists e. rewrite app_nil_r. split; [reflexivity|exact K].
  - inversion_clear F as [|? ? F1 F2]. cbn [enc_feed flat_map].
    destruct (convencode_data_ok c k ps orc W G NS bytes e x n F1 K) as (e1 & R1 & K1).
    rewrite R1. cbn [obind Z.eqb negb]. destruct (IH e1 _ F2 K1) as (e' & R & K').
    exists e'. split; [exact R|]. rewrite app_assoc. exact K'.
Qed.
