(** Proofs for the telnet decoder and encoder. *)
From Verif Require Import Base Buffer_Model Telnet_Model Telnet_Spec.
Open Scope Z_scope.

(** The decoder applied to a whole stream, without chunk boundaries. *)
Fixpoint bytes_run (td : tnrecv) (l : list Z) : option (tnrecv * list Z * list (list Z)) :=
  match l with
  | [] => Some (td, [], [])
  | b :: r =>
    '(td1, o, c) <- tn_byte td b ;;
    '(td2, o2, cs) <- bytes_run td1 r ;;
    Some (td2, o ++ o2, match c with Some x => x :: cs | None => cs end)
  end.

Lemma bytes_run_app l1 : forall td l2,
  bytes_run td (l1 ++ l2) =
  ('(td1, o1, c1) <- bytes_run td l1 ;;
   '(td2, o2, c2) <- bytes_run td1 l2 ;;
   Some (td2, o1 ++ o2, c1 ++ c2)).
Proof.
  induction l1 as [|b l1 IH]; intros td l2; cbn [bytes_run app obind].
  - destruct (bytes_run td l2) as [[[a b] c]|]; reflexivity.
  - destruct (tn_byte td b) as [[[td1 o] c]|]; [|reflexivity]. cbn [obind].
    rewrite IH. destruct (bytes_run td1 l1) as [[[td2 o2] cs]|]; [|reflexivity].
    cbn [obind]. destruct (bytes_run td2 l2) as [[[td3 o3] cs3]|]; [|reflexivity].
    cbn [obind]. rewrite app_assoc. destruct c; reflexivity.
Qed.

Definition is_some {A} (o : option A) : bool := match o with Some _ => true | None => false end.
Definition olist {A} (o : option A) : list A := match o with Some x => [x] | None => [] end.

(** One call of process_telnet_data is the decoder on the consumed prefix. *)
Lemma process_chunk input : forall td outlen td' o c rest,
  process_telnet_data td input outlen = Some (td', o, c, rest) ->
  exists p, input = p ++ rest /\ bytes_run td p = Some (td', o, olist c).
Proof.
  induction input as [|b input IH]; intros td outlen td' o c rest H; cbn in H.
  - injection H as <- <- <- <-. exists []. split; reflexivity.
  - destruct (outlen =? 0)%nat eqn:E0.
    + injection H as <- <- <- <-. exists []. split; reflexivity.
    + destruct (tn_byte td b) as [[[td1 o1] c1]|] eqn:E1; [|discriminate]. cbn [obind] in H.
      destruct c1 as [x|].
      * injection H as <- <- <- <-. exists [b]. split; [reflexivity|].
        cbn. rewrite E1. cbn. rewrite app_nil_r. reflexivity.
      * destruct (process_telnet_data td1 input (outlen - length o1)) as [[[[td2 o2] c2] r2]|] eqn:E2;
          [|discriminate]. cbn [obind] in H. injection H as <- <- <- <-.
        destruct (IH _ _ _ _ _ _ E2) as (p & -> & Hp).
        exists (b :: p). split; [reflexivity|]. cbn. rewrite E1. cbn. rewrite Hp. reflexivity.
Qed.

(** Decoder state invariant: all indices stay inside telnet_cmd. *)
Definition tn_ok (td : tnrecv) : Prop :=
  length (tn_cmd td) = 32%nat /\ (tn_pos td <= 32)%nat /\ (tn_iac td = true -> (tn_pos td >= 4)%nat).

Lemma tn_init_ok : tn_ok tn_init.
Proof. repeat split; cbn; try lia; try discriminate. Qed.

Ltac tnfin := unfold tn_ok; cbn [tn_cmd tn_pos tn_iac length]; repeat split; intros;
  repeat match goal with
  | H : true = true -> _ |- _ => specialize (H eq_refl)
  | H : ?iac = true -> _, H1 : ?iac = true |- _ => specialize (H H1)
  end; try lia; try discriminate; try congruence.

Lemma tn_byte_safe td b :
  tn_ok td ->
  exists td' o c, tn_byte td b = Some (td', o, c) /\ tn_ok td' /\ (length o <= 1)%nat /\
    (c <> None -> o = []).
Proof.
  intros (Hl & Hp & Hi). destruct td as [m pos iac]. cbn [tn_cmd tn_pos tn_iac] in *.
  unfold tn_byte; cbn [tn_cmd tn_pos tn_iac]. unfold MAX_TELNET_CMD_SIZE.
  destruct (pos =? 0)%nat eqn:E0.
  { assert (pos = 0%nat) by lia. subst pos. destruct (b =? TN_IAC).
    - destruct (mset_ok m 0 TN_IAC) as (m' & Hm & L); [lia|]. rewrite Hm; cbn [obind].
      eexists _, _, _. split; [reflexivity|]. tnfin.
    - eexists _, _, _. split; [reflexivity|]. tnfin. }
  destruct ((pos =? 1)%nat && (b =? TN_IAC)) eqn:E1.
  { eexists _, _, _. split; [reflexivity|]. apply andb_true_iff in E1 as [E1 _].
    tnfin. }
  destruct (pos =? 1)%nat eqn:E2.
  { destruct (mset_ok m pos b) as (m' & Hm & L); [lia|]. rewrite Hm; cbn [obind].
    destruct (b <? TN_SB).
    - destruct (mread_ok m' 0 2) as [d Hd]; [lia|]. rewrite Hd; cbn [obind].
      eexists _, _, _. split; [reflexivity|]. tnfin.
    - eexists _, _, _. split; [reflexivity|]. tnfin. }
  destruct (pos =? 2)%nat eqn:E3.
  { destruct (mset_ok m pos b) as (m' & Hm & L); [lia|]. rewrite Hm; cbn [obind].
    destruct (mget_ok m' 1) as [c1 Hc1]; [lia|]. rewrite Hc1; cbn [obind].
    destruct (c1 =? TN_SE); [|destruct (negb (c1 =? TN_SB))].
    - eexists _, _, _. split; [reflexivity|]. tnfin.
    - destruct (mread_ok m' 0 3) as [d Hd]; [lia|]. rewrite Hd; cbn [obind].
      eexists _, _, _. split; [reflexivity|]. tnfin.
    - eexists _, _, _. split; [reflexivity|]. tnfin. }
  destruct iac.
  { specialize (Hi eq_refl). destruct (b =? TN_SE); [|destruct (b =? TN_IAC)].
    - destruct (mread_ok m 0 (pos - 1)) as [d Hd]; [lia|]. rewrite Hd; cbn [obind].
      eexists _, _, _. split; [reflexivity|]. tnfin.
    - eexists _, _, _. split; [reflexivity|]. tnfin.
    - eexists _, _, _. split; [reflexivity|]. tnfin. }
  set (p := if (31 <? pos)%nat then 31%nat else pos).
  assert (Hpp : (p <= 31 /\ 3 <= p)%nat) by (unfold p; destruct (31 <? pos)%nat eqn:E5; lia).
  destruct (mset_ok m p b) as (m' & Hm & L); [lia|]. rewrite Hm; cbn [obind].
  eexists _, _, _. split; [reflexivity|]. tnfin.
Qed.

(** Memory safety, output bound and progress of a call. *)
Lemma process_safe input : forall td outlen,
  tn_ok td ->
  exists td' o c rest, process_telnet_data td input outlen = Some (td', o, c, rest) /\
    tn_ok td' /\ (length o <= outlen)%nat /\
    (rest = [] \/ (length o = outlen)%nat \/ c <> None) /\
    (input <> [] -> (0 < outlen)%nat -> (length rest < length input)%nat).
Proof.
  induction input as [|b input IH]; intros td outlen Hok; cbn [process_telnet_data].
  - exists td, [], None, []. cbn. repeat split; try apply Hok; try lia. left; reflexivity. congruence.
  - destruct (outlen =? 0)%nat eqn:E0.
    + exists td, [], None, (b :: input). repeat split; try apply Hok; cbn; try lia.
    + destruct (tn_byte_safe td b Hok) as (td1 & o1 & c1 & E1 & Hok1 & Ho1 & Hc1).
      rewrite E1; cbn [obind].
      destruct c1 as [x|].
      * exists td1, o1, (Some x), input. repeat split; try apply Hok1; try lia.
        right; right; discriminate. cbn; intros; lia.
      * destruct (IH td1 (outlen - length o1)%nat Hok1) as (td2 & o2 & c2 & rest & E2 & Hok2 & Ho2 & Hst & Hpr).
        rewrite E2; cbn [obind]. exists td2, (o1 ++ o2), c2, rest.
        split; [reflexivity|]. split; [exact Hok2|].
        rewrite app_length. split; [lia|]. split.
        -- destruct Hst as [Hst|[Hst|Hst]]; [left; exact Hst|right; left; lia|right; right; exact Hst].
        -- intros _ _. destruct (process_chunk _ _ _ _ _ _ _ E2) as (p & -> & _).
           cbn. rewrite app_length. lia.
Qed.

(** ** A receiver session: any sequence of calls over a stream. *)

(** [session td s outs_cmds td' rest]: starting in [td], calls are made with
    arbitrary prefixes of the remaining stream and arbitrary output room. *)
Inductive session : tnrecv -> list Z -> list Z -> list (list Z) -> tnrecv -> list Z -> Prop :=
| ses_nil td s : session td s [] [] td s
| ses_call td s chunk s' outlen td1 o c rest outs cmds td2 s2 :
    s = chunk ++ s' ->
    process_telnet_data td chunk outlen = Some (td1, o, c, rest) ->
    session td1 (rest ++ s') outs cmds td2 s2 ->
    session td s (o ++ outs) (olist c ++ cmds) td2 s2.

Lemma session_run td s outs cmds td' rest :
  session td s outs cmds td' rest ->
  exists p, s = p ++ rest /\ bytes_run td p = Some (td', outs, cmds).
Proof.
  induction 1 as [td s|td s chunk s' outlen td1 o c rest outs cmds td2 s2 Hs Hc Hses IH].
  - exists []. split; reflexivity.
  - destruct IH as (p & Hp & Hr). destruct (process_chunk _ _ _ _ _ _ _ Hc) as (q & -> & Hq).
    exists (q ++ p). split.
    + rewrite Hs, <- app_assoc, Hp. rewrite app_assoc. reflexivity.
    + rewrite bytes_run_app, Hq. cbn [obind]. rewrite Hr. reflexivity.
Qed.

(** ** Decoding a well-formed stream *)

Definition idle (td : tnrecv) : Prop := length (tn_cmd td) = 32%nat /\ tn_pos td = 0%nat.

Lemma run_data d : forall td,
  idle td -> exists td', bytes_run td (escape d) = Some (td', d, []) /\ idle td'.
Proof.
  induction d as [|b d IH]; intros td Hid.
  - exists td. split; [reflexivity|exact Hid].
  - destruct Hid as [Hl Hp]. cbn [escape flat_map].
    fold (escape d). destruct (b =? 255) eqn:E.
    + assert (b = 255) by lia. subst b. destruct td as [m pos iac]. cbn in Hl, Hp. subst pos.
      destruct (mset_ok m 0 TN_IAC) as (m' & Hm & L); [lia|].
      destruct (IH (mktn m' 0 false)) as (td' & R & I').
      { split; cbn; [congruence|reflexivity]. }
      exists td'. split; [|exact I']. cbn -[mset]. rewrite Hm. cbn.
      rewrite R. reflexivity.
    + destruct td as [m pos iac]. cbn in Hl, Hp. subst pos.
      destruct (IH (mktn m 0 iac)) as (td' & R & I'); [split; [exact Hl|reflexivity]|].
      exists td'. split; [|exact I']. cbn [app bytes_run].
      unfold tn_byte at 1; cbn [tn_pos Nat.eqb]. unfold TN_IAC. rewrite E. cbn [obind].
      rewrite R. reflexivity.
Qed.

(** Inside a sub-option: [pre] is what the command buffer holds. *)
Lemma run_sub_payload p : forall m pos pre,
  length m = 32%nat -> (3 <= pos)%nat -> (pos + length p <= 31)%nat -> firstn pos m = pre ->
  exists m', bytes_run (mktn m pos false) (escape p)
             = Some (mktn m' (pos + length p) false, [], []) /\
    length m' = 32%nat /\ firstn (pos + length p) m' = pre ++ p.
Proof.
  induction p as [|b p IH]; intros m pos pre Hl Hp Hb Hpre.
  - exists m. cbn [escape flat_map bytes_run length]. rewrite Nat.add_0_r, app_nil_r.
    repeat split; assumption.
  - cbn [length] in Hb. cbn [escape flat_map]. fold (escape p).
    destruct (mset_ok m pos b) as (m1 & Hm & L); [lia|].
    destruct (mset_firstn _ _ _ _ Hm) as [Hf _].
    destruct (IH m1 (pos + 1)%nat (pre ++ [b])) as (m' & R & L' & F'); try lia.
    { rewrite Hf, Hpre. reflexivity. }
    exists m'. split; [|split; [exact L'|]].
    2:{ cbn [length]. replace (pos + S (length p))%nat with (pos + 1 + length p)%nat by lia.
        rewrite F', <- app_assoc. reflexivity. }
    replace (pos + length (b :: p))%nat with (pos + 1 + length p)%nat by (cbn; lia).
    assert (Hstep : tn_byte (mktn m pos false) b
                    = Some (mktn m1 (pos + 1) (b =? 255), [], None)).
    { unfold tn_byte; cbn [tn_pos tn_cmd tn_iac].
      replace (pos =? 0)%nat with false by (symmetry; apply Nat.eqb_neq; lia).
      replace (pos =? 1)%nat with false by (symmetry; apply Nat.eqb_neq; lia).
      replace (pos =? 2)%nat with false by (symmetry; apply Nat.eqb_neq; lia).
      cbn [andb]. unfold MAX_TELNET_CMD_SIZE.
      replace (31 <? pos)%nat with false by (symmetry; apply Nat.ltb_ge; lia).
      rewrite Hm. reflexivity. }
    destruct (b =? 255) eqn:E.
    + assert (b = 255) by lia. subst b.
      cbn [app bytes_run]. rewrite Hstep; cbn [obind].
      assert (Hstep2 : tn_byte (mktn m1 (pos + 1) true) 255
                       = Some (mktn m1 (pos + 1) false, [], None)).
      { unfold tn_byte; cbn [tn_pos tn_cmd tn_iac].
        replace (pos + 1 =? 0)%nat with false by (symmetry; apply Nat.eqb_neq; lia).
        replace (pos + 1 =? 1)%nat with false by (symmetry; apply Nat.eqb_neq; lia).
        replace (pos + 1 =? 2)%nat with false by (symmetry; apply Nat.eqb_neq; lia).
        reflexivity. }
      rewrite Hstep2; cbn [obind]. rewrite R. reflexivity.
    + cbn [app bytes_run]. rewrite Hstep; cbn [obind]. rewrite R. reflexivity.
Qed.

Lemma run_item i : forall td,
  item_ok i -> idle td ->
  exists td', bytes_run td (wire1 i) = Some (td', item_data i, item_cmd i) /\ idle td'.
Proof.
  intros td Hok Hid. destruct i as [d|c|t o|o p]; cbn [wire1 item_data item_cmd item_ok] in *.
  - apply run_data; exact Hid.
  - destruct td as [m pos iac]. destruct Hid as [Hl Hp]. cbn in Hl, Hp. subst pos.
    destruct (mset_ok m 0 TN_IAC) as (m1 & Hm1 & L1); [lia|].
    destruct (mset_ok m1 1 c) as (m2 & Hm2 & L2); [lia|].
    exists (mktn m2 0 false). split; [|split; cbn; congruence].
    cbn [bytes_run]. unfold tn_byte at 1; cbn [tn_pos tn_cmd tn_iac Nat.eqb].
    change (255 =? TN_IAC) with true. cbv iota. rewrite Hm1. cbn [obind Nat.add].
    unfold tn_byte; cbn [tn_pos tn_cmd tn_iac Nat.eqb andb].
    replace (c =? TN_IAC) with false by (symmetry; apply Z.eqb_neq; unfold TN_IAC; lia).
    rewrite Hm2; cbn [obind].
    replace (c <? TN_SB) with true by (symmetry; apply Z.ltb_lt; exact Hok).
    rewrite mread_some by lia. cbn [obind skipn].
    destruct (mset_firstn _ _ _ _ Hm1) as [F1 _]. destruct (mset_firstn _ _ _ _ Hm2) as [F2 _].
    cbn [Nat.add] in F1, F2. rewrite F2, F1. reflexivity.
  - destruct td as [m pos iac]. destruct Hid as [Hl Hp]. cbn in Hl, Hp. subst pos.
    destruct (mset_ok m 0 TN_IAC) as (m1 & Hm1 & L1); [lia|].
    destruct (mset_ok m1 1 t) as (m2 & Hm2 & L2); [lia|].
    destruct (mset_ok m2 2 o) as (m3 & Hm3 & L3); [lia|].
    exists (mktn m3 0 false). split; [|split; cbn; congruence].
    destruct (mset_firstn _ _ _ _ Hm1) as [F1 _]. destruct (mset_firstn _ _ _ _ Hm2) as [F2 _].
    destruct (mset_firstn _ _ _ _ Hm3) as [F3 _]. cbn [Nat.add] in F1, F2, F3.
    assert (F : firstn 3 m3 = [255; t; o]) by (rewrite F3, F2, F1; reflexivity).
    clear F1 F2 F3. rename F into F3.
    assert (Hget : mget m3 1 = Some t).
    { destruct m3 as [|x0 [|x1 m3]]; cbn in F3; try discriminate.
      injection F3 as _ E _. rewrite E. reflexivity. }
    cbn [bytes_run]. unfold tn_byte at 1; cbn [tn_pos tn_cmd tn_iac Nat.eqb].
    change (255 =? TN_IAC) with true. cbv iota. rewrite Hm1. cbn [obind Nat.add].
    unfold tn_byte at 1; cbn [tn_pos tn_cmd tn_iac Nat.eqb andb].
    replace (t =? TN_IAC) with false by (symmetry; apply Z.eqb_neq; unfold TN_IAC; lia).
    rewrite Hm2; cbn [obind].
    replace (t <? TN_SB) with false by (symmetry; apply Z.ltb_ge; unfold TN_SB; lia).
    cbn [obind]. unfold tn_byte at 1; cbn [tn_pos tn_cmd tn_iac Nat.eqb andb].
    rewrite Hm3; cbn [obind]. rewrite Hget; cbn [obind].
    replace (t =? TN_SE) with false by (symmetry; apply Z.eqb_neq; unfold TN_SE; lia).
    replace (t =? TN_SB) with false by (symmetry; apply Z.eqb_neq; unfold TN_SB; lia).
    cbn [negb]. rewrite mread_some by lia. cbn [obind skipn]. rewrite F3. reflexivity.
  - destruct td as [m pos iac]. destruct Hid as [Hl Hp]. cbn in Hl, Hp. subst pos.
    destruct (mset_ok m 0 TN_IAC) as (m1 & Hm1 & L1); [lia|].
    destruct (mset_ok m1 1 250) as (m2 & Hm2 & L2); [lia|].
    destruct (mset_ok m2 2 o) as (m3 & Hm3 & L3); [lia|].
    destruct (mset_firstn _ _ _ _ Hm1) as [F1 _]. destruct (mset_firstn _ _ _ _ Hm2) as [F2 _].
    destruct (mset_firstn _ _ _ _ Hm3) as [F3 _]. cbn [Nat.add] in F1, F2, F3.
    assert (F : firstn 3 m3 = [255; 250; o]) by (rewrite F3, F2, F1; reflexivity).
    clear F1 F2 F3. rename F into F3.
    assert (Hget : mget m3 1 = Some 250).
    { destruct m3 as [|x0 [|x1 m3]]; cbn in F3; try discriminate.
      injection F3 as _ E _. rewrite E. reflexivity. }
    destruct (run_sub_payload p m3 3 [255; 250; o]) as (m4 & R4 & L4 & F4); try lia.
    { exact F3. }
    destruct (mset_ok m4 (3 + length p) 255) as (m5 & Hm5 & L5); [lia|].
    exists (mktn m5 0 false). split; [|split; cbn; congruence].
    change ([255; 250; o] ++ escape p ++ [255; 240]) with ([255; 250; o] ++ (escape p ++ [255; 240])).
    rewrite bytes_run_app.
    assert (H1 : bytes_run (mktn m 0 iac) [255; 250; o] = Some (mktn m3 3 false, [], [])).
    { cbn [bytes_run]. unfold tn_byte at 1; cbn [tn_pos tn_cmd tn_iac Nat.eqb].
      change (255 =? TN_IAC) with true. cbv iota. rewrite Hm1. cbn [obind Nat.add].
      unfold tn_byte at 1; cbn [tn_pos tn_cmd tn_iac Nat.eqb andb].
      change (250 =? TN_IAC) with false. cbv iota. rewrite Hm2; cbn [obind].
      change (250 <? TN_SB) with false. cbv iota. cbn [obind].
      unfold tn_byte at 1; cbn [tn_pos tn_cmd tn_iac Nat.eqb andb].
      rewrite Hm3; cbn [obind]. rewrite Hget; cbn [obind]. reflexivity. }
    rewrite H1; cbn [obind]. rewrite bytes_run_app, R4; cbn [obind].
    assert (H2 : bytes_run (mktn m4 (3 + length p) false) [255; 240]
                 = Some (mktn m5 0 false, [], [[255; 250; o] ++ p])).
    { cbn [bytes_run]. unfold tn_byte at 1; cbn [tn_pos tn_cmd tn_iac Nat.eqb Nat.add andb].
      unfold MAX_TELNET_CMD_SIZE.
      replace (31 <? S (S (S (length p))))%nat with false by (symmetry; apply Nat.ltb_ge; lia).
      change (S (S (S (length p)))) with (3 + length p)%nat. rewrite Hm5; cbn [obind].
      change (255 =? TN_IAC) with true.
      unfold tn_byte at 1; cbn [tn_pos tn_cmd tn_iac Nat.eqb Nat.add andb].
      change (240 =? TN_SE) with true. cbv iota.
      replace (S (S (S (length p + 1))) - 1)%nat with (3 + length p)%nat by lia.
      rewrite mread_some by lia. cbn [obind skipn].
      rewrite (mset_firstn_le _ _ _ _ (3 + length p)%nat Hm5) by lia.
      rewrite F4. reflexivity. }
    rewrite H2. reflexivity.
Qed.

Lemma run_wire items : forall td,
  Forall item_ok items -> idle td ->
  exists td', bytes_run td (wire items) = Some (td', data_of items, cmds_of items) /\ idle td'.
Proof.
  induction items as [|i items IH]; intros td Hok Hid.
  - exists td. split; [reflexivity|exact Hid].
  - inversion Hok as [|? ? Hi Hr]; subst.
    destruct (run_item i td Hi Hid) as (td1 & R1 & I1).
    destruct (IH td1 Hr I1) as (td2 & R2 & I2).
    exists td2. split; [|exact I2].
    unfold wire, data_of, cmds_of. cbn [map concat]. fold (wire items) (data_of items) (cmds_of items).
    rewrite bytes_run_app, R1; cbn [obind]. rewrite R2. reflexivity.
Qed.

Lemma idle_init : idle tn_init.
Proof. split; reflexivity. Qed.

Lemma bytes_run_prefix td p q td1 o1 c1 td2 o2 c2 :
  bytes_run td p = Some (td1, o1, c1) ->
  bytes_run td (p ++ q) = Some (td2, o2, c2) ->
  exists o c, o2 = o1 ++ o /\ c2 = c1 ++ c.
Proof.
  intros H1 H2. rewrite bytes_run_app, H1 in H2. cbn [obind] in H2.
  destruct (bytes_run td1 q) as [[[td3 o3] c3]|]; [|discriminate].
  cbn [obind] in H2. injection H2 as <- <- <-. eauto.
Qed.

(** Whole-stream decoding in any chunking. *)
Lemma session_wire items outs cmds td rest :
  Forall item_ok items ->
  session tn_init (wire items) outs cmds td rest ->
  (exists o c, data_of items = outs ++ o /\ cmds_of items = cmds ++ c) /\
  (rest = [] -> outs = data_of items /\ cmds = cmds_of items).
Proof.
  intros Hok Hs. destruct (session_run _ _ _ _ _ _ Hs) as (p & Hp & Hr).
  destruct (run_wire items tn_init Hok idle_init) as (td' & Hw & _).
  split.
  - rewrite Hp in Hw. eapply bytes_run_prefix; eassumption.
  - intros ->. rewrite app_nil_r in Hp. subst p. rewrite Hw in Hr.
    injection Hr as <- <- <-. split; reflexivity.
Qed.

(** ** Encoder *)
Lemma xmit_spec input : forall outlen o r,
  process_telnet_xmit outlen input = (o, r) ->
  exists p, input = p ++ r /\ o = escape p /\ (length o <= outlen)%nat /\
    (r <> [] -> (outlen < length o + 2)%nat).
Proof.
  induction input as [|b input IH]; intros outlen o r H; cbn [process_telnet_xmit] in H.
  - injection H as <- <-. exists []. repeat split; cbn [app escape flat_map length]; try lia. congruence.
  - unfold TN_IAC in *. destruct (b =? 255) eqn:E.
    + destruct (outlen <? 2)%nat eqn:E2.
      * injection H as <- <-. exists []. repeat split; cbn [app escape flat_map length]; try lia.
      * destruct (process_telnet_xmit (outlen - 2) input) as [o1 r1] eqn:E3.
        injection H as <- <-. destruct (IH _ _ _ E3) as (p & -> & -> & Hl & Hm).
        exists (b :: p). assert (b = 255) by lia. subst b.
        repeat split; cbn [length escape flat_map Z.eqb app]; fold (escape p); cbn [length]; try lia; try reflexivity;
          try (intros Hr; specialize (Hm Hr); lia).
    + destruct (outlen <? 1)%nat eqn:E2.
      * injection H as <- <-. exists []. repeat split; cbn [app escape flat_map length]; try lia.
      * destruct (process_telnet_xmit (outlen - 1) input) as [o1 r1] eqn:E3.
        injection H as <- <-. destruct (IH _ _ _ E3) as (p & -> & -> & Hl & Hm).
        exists (b :: p). repeat split; cbn [escape flat_map]; rewrite ?E; cbn [app length]; fold (escape p); try lia; try reflexivity;
          try (intros Hr; specialize (Hm Hr); lia).
Qed.

Lemma escape_app a b : escape (a ++ b) = escape a ++ escape b.
Proof. apply flat_map_app. Qed.
