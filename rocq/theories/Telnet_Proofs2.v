(** Proofs for the telnet filter: both directions, end to end. *)
From Verif Require Import Base Buffer_Model Buffer_Spec Buffer_Proofs
  Telnet_Model Telnet_Spec Telnet_Proofs.
Open Scope Z_scope.

(** ** Storing commands *)
Lemma outchars_spec l : forall b,
  buf_inv b -> (length l <= buffer_left b)%nat ->
  exists b', outchars b l = Some b' /\ buf_inv b' /\ bf_max b' = bf_max b /\
    buf_abs b' = buf_abs b ++ l.
Proof.
  induction l as [|c l IH]; intros b Hb Hl; cbn [outchars].
  - exists b. rewrite app_nil_r. repeat split; try apply Hb; reflexivity.
  - destruct (buffer_outchar_spec b c Hb) as (b1 & r & E & Hb1 & Hm & _ & Ha).
    rewrite E; cbn [obind]. cbn [length] in Hl. unfold buffer_left in *.
    rewrite firstn_all2 in Ha by (cbn [length]; lia).
    assert (Hc : bf_cur b1 = (bf_cur b + 1)%nat).
    { rewrite <- !buf_abs_length, Ha, app_length. reflexivity. }
    destruct (IH b1 Hb1) as (b2 & E2 & Hb2 & Hm2 & Ha2); [unfold buffer_left; lia|].
    exists b2. split; [exact E2|]. split; [exact Hb2|]. split; [congruence|].
    rewrite Ha2, Ha, <- app_assoc. reflexivity.
Qed.

Lemma option_real_len_escape opt : option_real_len opt = length (escape opt).
Proof.
  induction opt as [|b r IH]; [reflexivity|]. cbn [option_real_len escape flat_map].
  fold (escape r). rewrite app_length, <- IH. unfold TN_IAC. destruct (b =? 255); reflexivity.
Qed.

Lemma out_option_outchars opt : forall b, out_option b opt = outchars b (escape opt).
Proof.
  induction opt as [|c r IH]; intros b; [reflexivity|].
  cbn [out_option escape flat_map]. fold (escape r). unfold TN_IAC.
  destruct (c =? 255) eqn:E.
  - assert (c = 255) by lia. subst c. cbn [app outchars].
    destruct (buffer_outchar b 255) as [[b1 x]|]; [|reflexivity]. cbn [obind].
    destruct (buffer_outchar b1 255) as [[b2 y]|]; [|reflexivity]. cbn [obind]. apply IH.
  - cbn [app outchars]. destruct (buffer_outchar b c) as [[b1 x]|]; [|reflexivity].
    cbn [obind]. apply IH.
Qed.

(** telnet_send_option is all or nothing. *)
Lemma send_option_spec b err opt :
  buf_inv b ->
  exists b' e, telnet_send_option b err opt = Some (b', e) /\ buf_inv b' /\ bf_max b' = bf_max b /\
    ((length (escape opt) + 4 <= buffer_left b)%nat ->
       e = err /\ buf_abs b' = buf_abs b ++ [255; 250] ++ escape opt ++ [255; 240]) /\
    ((buffer_left b < length (escape opt) + 4)%nat -> e = true /\ b' = b).
Proof.
  intros Hb. unfold telnet_send_option. rewrite option_real_len_escape.
  destruct (buffer_left b <? length (escape opt) + 4)%nat eqn:E.
  - exists b, true. repeat split; try apply Hb; lia.
  - destruct (outchars_spec [TN_IAC; TN_SB] b Hb) as (b1 & E1 & Hb1 & Hm1 & Ha1); [cbn [length]; lia|].
    assert (Hc1 : bf_cur b1 = (bf_cur b + 2)%nat).
    { rewrite <- !buf_abs_length, Ha1, app_length. reflexivity. }
    rewrite E1; cbn [obind]. rewrite out_option_outchars.
    destruct (outchars_spec (escape opt) b1 Hb1) as (b2 & E2 & Hb2 & Hm2 & Ha2).
    { unfold buffer_left in *. lia. }
    assert (Hc2 : bf_cur b2 = (bf_cur b1 + length (escape opt))%nat).
    { rewrite <- !buf_abs_length, Ha2, app_length. reflexivity. }
    rewrite E2; cbn [obind].
    destruct (outchars_spec [TN_IAC; TN_SE] b2 Hb2) as (b3 & E3 & Hb3 & Hm3 & Ha3).
    { unfold buffer_left in *. cbn [length]. lia. }
    rewrite E3; cbn [obind]. exists b3, err. split; [reflexivity|]. split; [exact Hb3|].
    split; [congruence|]. split; [|intros; lia].
    intros _. split; [reflexivity|]. rewrite Ha3, Ha2, Ha1, <- !app_assoc. reflexivity.
Qed.

Lemma cmd_send_spec b err cmd :
  buf_inv b -> (length cmd <= buffer_left b)%nat ->
  exists b' e, telnet_cmd_send b err cmd = Some (b', e) /\ buf_inv b' /\ bf_max b' = bf_max b /\
    buf_abs b' = buf_abs b ++ cmd.
Proof.
  intros Hb Hl. unfold telnet_cmd_send, buffer_left in *.
  destruct (buffer_output_spec b cmd Hb) as (b' & r & E & Hb' & Hm & Ha).
  rewrite E; cbn [obind]. rewrite firstn_all2 in Ha by lia.
  eexists b', _. split; [reflexivity|]. auto.
Qed.

(** ** Gathering user data *)
Lemma tx_gather_spec max sg : forall d n,
  (2 <= max)%nat ->
  tx_gather max sg [] = (d, n) -> d = escape (firstn n (concat sg)) /\ (n <= length (concat sg))%nat.
Proof.
  induction sg as [|buf sg IH]; intros d n Hmax H; cbn [tx_gather concat] in *.
  - injection H as <- <-. split; [reflexivity|lia].
  - destruct (process_telnet_xmit max buf) as [o r] eqn:E.
    destruct (xmit_spec _ _ _ _ E) as (p & Hp & Ho & Hl & Hm).
    destruct (negb (length r =? length buf)%nat) eqn:E2.
    + assert (o = d /\ n = (length buf - length r)%nat) as [<- ->] by (split; congruence).
      rewrite Hp, app_length. replace (length p + length r - length r)%nat with (length p) by lia.
      rewrite <- app_assoc, firstn_app_exact. split; [exact Ho|]. rewrite !app_length. lia.
    + assert (length r = length buf) by lia. rewrite Hp, app_length in H0.
      assert (p = []) by (destruct p; [reflexivity|cbn in H0; lia]). subst p.
      cbn in Ho. subst o.
      assert (r = []).
      { destruct r as [|x r]; [reflexivity|]. exfalso.
        specialize (Hm ltac:(discriminate)). cbn in Hm. lia. }
      subst r. cbn in Hp. subst buf. cbn [app]. apply IH; assumption.
Qed.

(** ** The sending filter *)
Definition is_user (w : wstate) : bool := match w with IN_USER_WRITE => true | _ => false end.

(** A history step that is a well formed command: the items it sends. *)
Definition txop_items (o : txop) : option (list item) :=
  match o with
  | TxWrite _ _ _ => Some []
  | TxCmd [255; c] => if c <? 250 then Some [ICmd c] else None
  | TxCmd [255; t; o] => if (251 <=? t) && (t <=? 254) then Some [INeg t o] else None
  | TxCmd _ => None
  | TxOpt (o :: p) => if negb (o =? 255) && (length p <=? 28)%nat then Some [ISub o p] else None
  | TxOpt [] => None
  end.

(** Invariant: [out] was written, [acc] accepted, commands [cs] issued. *)
Definition tx_inv (t : tntx) (out acc : list Z) (cs : list (list Z)) : Prop :=
  buf_inv (tx_cmdbuf t) /\ (2 <= tx_max t)%nat /\
  (tx_state t = IN_USER_WRITE -> tx_data t <> []) /\
  (tx_state t = IN_TN_WRITE -> buf_abs (tx_cmdbuf t) <> []) /\
  exists I1 I2, Forall item_ok I1 /\ Forall item_ok I2 /\
    cs = cmds_of I1 ++ cmds_of I2 /\ acc = data_of I1 ++ data_of I2 /\
    if is_user (tx_state t)
    then out ++ tx_data t = wire I1 /\ buf_abs (tx_cmdbuf t) = wire I2 /\ data_of I2 = []
    else out ++ buf_abs (tx_cmdbuf t) = wire I1 /\ tx_data t = wire I2 /\ cmds_of I2 = [].

Lemma wire_app a b : wire (a ++ b) = wire a ++ wire b.
Proof. unfold wire. rewrite map_app, concat_app. reflexivity. Qed.
Lemma data_of_app a b : data_of (a ++ b) = data_of a ++ data_of b.
Proof. unfold data_of. rewrite map_app, concat_app. reflexivity. Qed.
Lemma cmds_of_app a b : cmds_of (a ++ b) = cmds_of a ++ cmds_of b.
Proof. unfold cmds_of. rewrite map_app, concat_app. reflexivity. Qed.
Lemma wire_data1 d : wire [IData d] = escape d.
Proof. unfold wire. cbn [map concat wire1]. apply app_nil_r. Qed.
Lemma data_data1 d : data_of [IData d] = d.
Proof. unfold data_of. cbn [map concat item_data]. apply app_nil_r. Qed.

Lemma wire_nil_data I : wire I = [] -> data_of I = [] /\ cmds_of I = [].
Proof.
  induction I as [|i I IH]; intros H; [split; reflexivity|].
  unfold wire in H. cbn [map concat] in H. fold (wire I) in H.
  apply app_eq_nil in H as [H1 H2]. destruct (IH H2) as [Hd Hc].
  unfold data_of, cmds_of. cbn [map concat]. fold (data_of I) (cmds_of I). rewrite Hd, Hc.
  destruct i as [d|c|t o|o p]; cbn in H1; try discriminate.
  destruct d as [|b d]; [split; reflexivity|]. cbn in H1. destruct (b =? 255); discriminate.
Qed.

(** The two halves of telnet_ul_write. *)
Definition tx_load (t : tntx) (sg : list (list Z)) : tntx * nat :=
  let '(data, taken) :=
    if negb (length (tx_data t) =? 0)%nat then (tx_data t, 0%nat)
    else tx_gather (tx_max t) sg [] in
  (mktx (tx_cmdbuf t) (tx_err t) (tx_state t) data (tx_max t), taken).

Definition tx_cmds (h : handler) (t : tntx) : option (tntx * bool * list Z) :=
  if (match tx_state t with IN_USER_WRITE => false | _ => true end) &&
        negb (buffer_cursize (tx_cmdbuf t) =? 0)%nat
     then
       '(b1, e, o) <- buffer_write h (tx_cmdbuf t) ;;
       if e : bool then Some (mktx (buffer_reset b1) (tx_err t) (tx_state t) [] (tx_max t), true, o)
       else Some (mktx b1 (tx_err t)
                       (if negb (buffer_cursize b1 =? 0)%nat then IN_TN_WRITE else NOT_WRITING)
                       (tx_data t) (tx_max t), false, o)
     else Some (t, false, []).

Definition tx_user (h2 : handler) (t : tntx) (err : bool) (taken : nat) (out1 : list Z)
  : option (tntx * bool * nat * list Z) :=
  if (match tx_state t with IN_TN_WRITE => false | _ => true end) &&
     negb (length (tx_data t) =? 0)%nat
  then
    match h2 (tx_data t) with
    | None => Some (mktx (buffer_reset (tx_cmdbuf t)) (tx_err t) (tx_state t) [] (tx_max t),
                    true, taken, out1)
    | Some n =>
      if (length (tx_data t) <=? n)%nat
      then Some (mktx (tx_cmdbuf t) (tx_err t) NOT_WRITING [] (tx_max t), false, taken,
                 out1 ++ tx_data t)
      else Some (mktx (tx_cmdbuf t) (tx_err t) IN_USER_WRITE (skipn n (tx_data t)) (tx_max t),
                 false, taken, out1 ++ firstn n (tx_data t))
    end
  else Some (t, err, taken, out1).

Lemma ul_write_split h h2 t sg :
  telnet_ul_write h h2 t sg =
  (let '(t1, taken) := tx_load t sg in
   '(t2, err, out1) <- tx_cmds h t1 ;; tx_user h2 t2 err taken out1).
Proof.
  unfold telnet_ul_write, tx_load.
  destruct (if negb (length (tx_data t) =? 0)%nat then (tx_data t, 0%nat)
            else tx_gather (tx_max t) sg []) as [data taken]. reflexivity.
Qed.

Lemma tx_load_inv t sg out acc cs t1 n :
  tx_inv t out acc cs -> tx_load t sg = (t1, n) ->
  tx_inv t1 out (acc ++ firstn n (concat sg)) cs /\ tx_state t1 = tx_state t /\ tx_cmdbuf t1 = tx_cmdbuf t
  /\ (n <= length (concat sg))%nat.
Proof.
  intros (Hb & Hmax & Hu & Htn & I1 & I2 & Hok1 & Hok2 & Hcs & Hacc & Hst) H.
  unfold tx_load in H. destruct (negb (length (tx_data t) =? 0)%nat) eqn:E.
  - injection H as <- <-. cbn [firstn]. rewrite app_nil_r. split; [|repeat split; cbn; lia].
    destruct t as [cb er st dd mx]; cbn [tx_cmdbuf tx_err tx_state tx_data tx_max] in *.
    unfold tx_inv; cbn [tx_cmdbuf tx_err tx_state tx_data tx_max].
    split; [exact Hb|]. split; [exact Hmax|]. split; [exact Hu|]. split; [exact Htn|].
    exists I1, I2. auto.
  - assert (Hd : tx_data t = []) by (destruct (tx_data t); [reflexivity|cbn in E; lia]).
    destruct (tx_gather (tx_max t) sg []) as [d n'] eqn:Eg. injection H as <- <-.
    destruct (tx_gather_spec _ _ _ _ Hmax Eg) as [Hdd Hn].
    split; [|repeat split; cbn; try lia].
    destruct (tx_state t) eqn:Est.
    3:{ exfalso. apply Hu; [reflexivity|exact Hd]. }
    all: unfold tx_inv; cbn [tx_cmdbuf tx_err tx_state tx_data tx_max is_user] in *;
      rewrite Hd in Hst; destruct Hst as (H1 & H2 & H3);
      destruct (wire_nil_data _ (eq_sym H2)) as [Hd2 _];
      split; [exact Hb|]; split; [exact Hmax|]; split; [discriminate|]; split; [exact Htn|];
      exists I1, [IData (firstn n' (concat sg))];
      rewrite wire_data1, data_data1, Hacc, Hd2, app_nil_r, Hcs, H3;
      repeat split; auto; try (apply Forall_cons; [exact I|constructor]); rewrite ?app_nil_r; auto.
Qed.

Lemma tx_cmds_inv h t out acc cs t1 e o :
  lawful h -> tx_inv t out acc cs -> tx_cmds h t = Some (t1, e, o) -> e = false ->
  tx_inv t1 (out ++ o) acc cs /\ tx_data t1 = tx_data t /\
  (tx_state t1 = NOT_WRITING -> buf_abs (tx_cmdbuf t1) = []) /\
  (tx_state t <> IN_USER_WRITE -> tx_state t1 <> IN_USER_WRITE).
Proof.
  intros Hl (Hb & Hmax & Hu & Htn & I1 & I2 & Hok1 & Hok2 & Hcs & Hacc & Hst) H He.
  unfold tx_cmds in H.
  destruct ((match tx_state t with IN_USER_WRITE => false | _ => true end) &&
        negb (buffer_cursize (tx_cmdbuf t) =? 0)%nat) eqn:E.
  - apply andb_true_iff in E as [Es Ec].
    destruct (buffer_write_spec _ h Hb Hl) as (b1 & e1 & o1 & chunks & Ew & Hb1 & Hm1 & _ & _ & _ & _ & Ha).
    rewrite Ew in H; cbn [obind] in H. destruct e1; [injection H as _ <- _; discriminate|].
    injection H as <- _ <-.
    assert (Hns : is_user (tx_state t) = false) by (destruct (tx_state t); cbn in *; congruence).
    rewrite Hns in Hst. destruct Hst as (H1 & H2 & H3).
    assert (Hz : buffer_cursize b1 = length (buf_abs b1)) by (symmetry; apply buf_abs_length).
    split; [|repeat split; cbn [tx_cmdbuf tx_err tx_state tx_data tx_max]].
    + unfold tx_inv; cbn [tx_cmdbuf tx_err tx_state tx_data tx_max].
      split; [exact Hb1|]. split; [exact Hmax|].
      split; [destruct (negb (buffer_cursize b1 =? 0)%nat); discriminate|].
      split.
      { destruct (negb (buffer_cursize b1 =? 0)%nat) eqn:Ez; [|discriminate].
        intros _ Hnil. rewrite Hz, Hnil in Ez. cbn in Ez. discriminate. }
      exists I1, I2. repeat split; auto.
      replace (is_user (if negb (buffer_cursize b1 =? 0)%nat then IN_TN_WRITE else NOT_WRITING)) with false
        by (destruct (negb (buffer_cursize b1 =? 0)%nat); reflexivity).
      rewrite <- app_assoc, <- Ha. auto.
    + destruct (negb (buffer_cursize b1 =? 0)%nat) eqn:Ez; [discriminate|].
      intros _. destruct (buf_abs b1); [reflexivity|]. cbn in Hz. rewrite Hz in Ez. cbn in Ez. discriminate.
    + intros _. destruct (negb (buffer_cursize b1 =? 0)%nat); discriminate.
  - injection H as <- _ <-. rewrite app_nil_r.
    split; [unfold tx_inv; split; [exact Hb|]; split; [exact Hmax|]; split; [exact Hu|]; split; [exact Htn|];
            exists I1, I2; auto|].
    split; [reflexivity|]. split; [|auto].
    intros Hn. rewrite Hn in E. cbn in E.
    unfold buffer_cursize in E. rewrite <- buf_abs_length in E.
    destruct (buf_abs (tx_cmdbuf t)); [reflexivity|cbn in E; discriminate].
Qed.

Lemma tx_user_inv h2 t out acc cs e taken o1 t1 e1 n o :
  lawful h2 -> tx_inv t (out ++ o1) acc cs ->
  (tx_state t = NOT_WRITING -> buf_abs (tx_cmdbuf t) = []) ->
  tx_user h2 t e taken o1 = Some (t1, e1, n, o) -> e1 = false ->
  tx_inv t1 (out ++ o) acc cs /\ n = taken.
Proof.
  intros Hl (Hb & Hmax & Hu & Htn & I1 & I2 & Hok1 & Hok2 & Hcs & Hacc & Hst) Hnw H He.
  unfold tx_user in H.
  destruct ((match tx_state t with IN_TN_WRITE => false | _ => true end) &&
     negb (length (tx_data t) =? 0)%nat) eqn:E.
  - apply andb_true_iff in E as [Es Ec].
    destruct (h2 (tx_data t)) as [k|] eqn:Eh; [|injection H as _ <- _ _; discriminate].
    pose proof (Hl _ _ Eh) as Hk.
    (* bring both states to the form: out ++ o1 ++ data = wire J1, cmds wire J2 *)
    assert (Hn : exists J1 J2, Forall item_ok J1 /\ Forall item_ok J2 /\
              cs = cmds_of J1 ++ cmds_of J2 /\ acc = data_of J1 ++ data_of J2 /\
              (out ++ o1) ++ tx_data t = wire J1 /\ buf_abs (tx_cmdbuf t) = wire J2 /\ data_of J2 = []).
    { destruct (is_user (tx_state t)) eqn:Eu.
      - exists I1, I2. destruct Hst as (A & B & C). repeat split; auto.
      - assert (Hs : tx_state t = NOT_WRITING) by (destruct (tx_state t); cbn in *; congruence).
        specialize (Hnw Hs). destruct Hst as (A & B & C). rewrite Hnw, app_nil_r in A.
        exists (I1 ++ I2), []. split; [apply Forall_app; auto|]. split; [constructor|].
        rewrite wire_app, cmds_of_app, data_of_app, <- A, <- B, Hnw, Hcs, Hacc.
        cbn. rewrite !app_nil_r. repeat split; reflexivity. }
    clear I1 I2 Hok1 Hok2 Hcs Hacc Hst.
    destruct Hn as (J1 & J2 & Hok1 & Hok2 & Hcs & Hacc & Hd & Hc & Hd2).
    destruct (length (tx_data t) <=? k)%nat eqn:El.
    + injection H as <- _ <- <-. split; [|reflexivity].
      unfold tx_inv; cbn [tx_cmdbuf tx_err tx_state tx_data tx_max is_user].
      split; [exact Hb|]. split; [exact Hmax|]. split; [discriminate|]. split; [discriminate|].
      exists (J1 ++ J2), []. split; [apply Forall_app; auto|]. split; [constructor|].
      rewrite wire_app, cmds_of_app, data_of_app, <- Hd, <- Hc, Hcs, Hacc, Hd2.
      cbn [wire data_of cmds_of map concat]. rewrite !app_nil_r, <- !app_assoc. repeat split; reflexivity.
    + injection H as <- _ <- <-. split; [|reflexivity].
      unfold tx_inv; cbn [tx_cmdbuf tx_err tx_state tx_data tx_max is_user].
      split; [exact Hb|]. split; [exact Hmax|].
      split.
      { intros _ Hnil. apply (f_equal (@length Z)) in Hnil. rewrite skipn_length in Hnil. cbn in Hnil. lia. }
      split; [discriminate|].
      exists J1, J2. repeat split; auto.
      rewrite <- Hd, <- !app_assoc. rewrite firstn_skipn. reflexivity.
  - injection H as <- <- <- <-. split; [|reflexivity].
    unfold tx_inv; split; [exact Hb|]; split; [exact Hmax|]; split; [exact Hu|]; split; [exact Htn|].
    exists I1, I2. auto.
Qed.

(** Safety: the calls never leave the buffers. *)
Lemma ul_write_safe h h2 t sg :
  buf_inv (tx_cmdbuf t) -> lawful h -> exists r, telnet_ul_write h h2 t sg = Some r.
Proof.
  intros Hb Hl. rewrite ul_write_split. unfold tx_load.
  destruct (if negb (length (tx_data t) =? 0)%nat then (tx_data t, 0%nat)
            else tx_gather (tx_max t) sg []) as [data taken].
  set (t1 := mktx (tx_cmdbuf t) (tx_err t) (tx_state t) data (tx_max t)).
  assert (exists x, tx_cmds h t1 = Some x) as [[[t2 e2] o2] Hx].
  { unfold tx_cmds. destruct (_ && _); [|eauto].
    destruct (buffer_write_spec (tx_cmdbuf t1) h Hb Hl) as (b1 & e1 & o1 & chunks & Ew & _).
    rewrite Ew; cbn [obind]. destruct e1; eauto. }
  rewrite Hx; cbn [obind]. unfold tx_user. destruct (_ && _); [|eauto].
  destruct (h2 (tx_data t2)); [|eauto]. destruct (_ <=? _)%nat; eauto.
Qed.

Lemma tx_write_inv h h2 sg t out acc cs t1 e n o :
  lawful h -> lawful h2 -> tx_inv t out acc cs ->
  telnet_ul_write h h2 t sg = Some (t1, e, n, o) -> e = false ->
  tx_inv t1 (out ++ o) (acc ++ firstn n (concat sg)) cs /\ (n <= length (concat sg))%nat.
Proof.
  intros Hl Hl2 Hinv H He. rewrite ul_write_split in H.
  destruct (tx_load t sg) as [ta na] eqn:Ea.
  destruct (tx_load_inv _ _ _ _ _ _ _ Hinv Ea) as (Ha & Hs & Hc & Hn).
  destruct (tx_cmds h ta) as [[[tb eb] ob]|] eqn:Eb; [|discriminate]. cbn [obind] in H.
  destruct eb.
  - (* command write failed: the user part cannot clear the error *)
    exfalso. unfold tx_cmds in Eb.
    destruct (_ && _) in Eb; [|discriminate].
    destruct (buffer_write h (tx_cmdbuf ta)) as [[[b1 e1] o1]|]; [|discriminate].
    cbn [obind] in Eb. destruct e1; [|discriminate]. injection Eb as <- <-.
    unfold tx_user in H. cbn [tx_data length] in H. change (negb (0 =? 0)%nat) with false in H.
    rewrite andb_false_r in H. injection H as _ <- _ _. discriminate.
  - destruct (tx_cmds_inv _ _ _ _ _ _ _ _ Hl Ha Eb eq_refl) as (Hb & Hd & Hnw & _).
    destruct (tx_user_inv _ _ _ _ _ _ _ _ _ _ _ _ Hl2 Hb Hnw H He) as [Hfin ->].
    split; [exact Hfin|exact Hn].
Qed.

(** A step is acceptable: handlers are lawful, commands are well formed and
    fit the free space of the command buffer. *)
Definition txop_ok (t : tntx) (o : txop) : Prop :=
  match o with
  | TxWrite h h2 _ => lawful h /\ lawful h2
  | TxCmd cmd => txop_items o <> None /\ (length cmd <= buffer_left (tx_cmdbuf t))%nat
  | TxOpt opt => txop_items o <> None /\ (length (escape opt) + 4 <= buffer_left (tx_cmdbuf t))%nat
  end.

Fixpoint tx_ok (t : tntx) (ops : list txop) : Prop :=
  match ops with
  | [] => True
  | o :: r => txop_ok t o /\
      match tx_step t o with
      | Some (t1, _, _, false) => tx_ok t1 r
      | _ => True
      end
  end.

Definition items_of (o : txop) : list item :=
  match txop_items o with Some l => l | None => [] end.

Lemma txop_items_ok o l : txop_items o = Some l -> Forall item_ok l /\ data_of l = [].
Proof.
  destruct o as [h h2 sg|cmd|opt]; cbn [txop_items]; intros H.
  - injection H as <-. split; [constructor|reflexivity].
  - assert (D : (exists c, cmd = [255; c] /\ c < 250 /\ l = [ICmd c]) \/
                (exists t o, cmd = [255; t; o] /\ 251 <= t <= 254 /\ l = [INeg t o])).
    { destruct cmd as [|a cmd]; [discriminate|].
      destruct a as [|a|a]; try discriminate.
      do 8 (destruct a as [a|a|]; try discriminate).
      destruct cmd as [|c cmd]; [discriminate|]. destruct cmd as [|d cmd].
      - destruct (c <? 250) eqn:E; [|discriminate]. injection H as <-. left. exists c. repeat split; lia.
      - destruct cmd; [|discriminate]. destruct ((251 <=? c) && (c <=? 254)) eqn:E; [|discriminate].
        injection H as <-. right. exists c, d. repeat split; lia. }
    destruct D as [(c & -> & Hc & ->)|(t & o & -> & Ht & ->)].
    + split; [apply Forall_cons; [exact Hc|constructor]|reflexivity].
    + split; [apply Forall_cons; [exact Ht|constructor]|reflexivity].
  - destruct opt as [|o p]; [discriminate|].
    destruct (negb (o =? 255) && (length p <=? 28)%nat) eqn:E; [|discriminate].
    injection H as <-. split; [apply Forall_cons; [cbn; lia|constructor]|reflexivity].
Qed.

Lemma txcmd_wire cmd l : txop_items (TxCmd cmd) = Some l -> wire l = cmd.
Proof.
  cbn [txop_items]; intros H.
  destruct cmd as [|a cmd]; [discriminate|].
  destruct a as [|a|a]; try discriminate.
  do 8 (destruct a as [a|a|]; try discriminate).
  destruct cmd as [|c cmd]; [discriminate|]. destruct cmd as [|d cmd].
  - destruct (c <? 250) eqn:E; [|discriminate]. injection H as <-. reflexivity.
  - destruct cmd; [|discriminate]. destruct ((251 <=? c) && (c <=? 254)) eqn:E; [|discriminate].
    injection H as <-. reflexivity.
Qed.

Lemma txopt_wire opt l : txop_items (TxOpt opt) = Some l ->
  wire l = [255; 250] ++ escape opt ++ [255; 240].
Proof.
  cbn [txop_items]; intros H. destruct opt as [|o p]; [discriminate|].
  destruct (negb (o =? 255) && (length p <=? 28)%nat) eqn:E; [|discriminate].
  injection H as <-. unfold wire. cbn [map concat wire1]. rewrite app_nil_r.
  cbn [escape flat_map]. fold (escape p).
  replace (o =? 255) with false by lia. reflexivity.
Qed.

(** Storing items in the command buffer keeps the invariant. *)
Lemma tx_store_inv t b err out acc cs l :
  tx_inv t out acc cs -> buf_inv b -> buf_abs b = buf_abs (tx_cmdbuf t) ++ wire l ->
  Forall item_ok l -> data_of l = [] ->
  tx_inv (mktx b err (tx_state t) (tx_data t) (tx_max t)) out acc (cs ++ cmds_of l).
Proof.
  intros (Hb & Hmax & Hu & Htn & I1 & I2 & Hok1 & Hok2 & Hcs & Hacc & Hst) Hbi Hab Hl Hdl.
  unfold tx_inv; cbn [tx_cmdbuf tx_err tx_state tx_data tx_max].
  split; [exact Hbi|]. split; [exact Hmax|]. split; [exact Hu|].
  split. { intros H Hn. rewrite Hab in Hn. apply app_eq_nil in Hn as [Hn _]. exact (Htn H Hn). }
  destruct (is_user (tx_state t)).
  - destruct Hst as (A & B & C). exists I1, (I2 ++ l).
    rewrite cmds_of_app, data_of_app, wire_app, Hab, B, Hdl, app_nil_r, Hcs, Hacc, app_assoc.
    repeat split; auto. apply Forall_app; auto.
  - destruct Hst as (A & B & C). exists (I1 ++ l), I2.
    rewrite cmds_of_app, data_of_app, wire_app, Hab, B, Hdl, app_nil_r, Hcs, Hacc, C, !app_nil_r, app_assoc, A.
    repeat split; auto. apply Forall_app; auto.
Qed.

Lemma tx_step_inv t o out acc cs :
  tx_inv t out acc cs -> txop_ok t o ->
  exists t1 a w e, tx_step t o = Some (t1, a, w, e) /\
    (e = false -> tx_inv t1 (out ++ w) (acc ++ a) (cs ++ cmds_of (items_of o))).
Proof.
  intros Hinv Hok. destruct o as [h h2 sg|cmd|opt]; cbn [txop_ok tx_step] in *.
  - destruct Hok as [Hl Hl2].
    destruct (ul_write_safe h h2 t sg) as [[[[t1 e] n] o] H]; [apply Hinv|exact Hl|].
    rewrite H; cbn [obind]. eexists _, _, _, _. split; [reflexivity|]. intros He.
    unfold items_of; cbn [txop_items cmds_of map concat]. rewrite app_nil_r.
    exact (proj1 (tx_write_inv _ _ _ _ _ _ _ _ _ _ _ Hl Hl2 Hinv H He)).
  - destruct Hok as [Hit Hlen]. unfold items_of.
    destruct (txop_items (TxCmd cmd)) as [l|] eqn:El; [|congruence].
    destruct (txop_items_ok _ _ El) as [Hl Hd]. pose proof (txcmd_wire _ _ El) as Hw.
    assert (Hb : buf_inv (tx_cmdbuf t)) by apply Hinv.
    destruct (cmd_send_spec _ (tx_err t) cmd Hb Hlen) as (b & e & E & Hb' & _ & Ha).
    rewrite E; cbn [obind]. eexists _, _, _, _. split; [reflexivity|]. intros _.
    rewrite !app_nil_r. eapply tx_store_inv; eauto. rewrite Hw. exact Ha.
  - destruct Hok as [Hit Hlen]. unfold items_of.
    destruct (txop_items (TxOpt opt)) as [l|] eqn:El; [|congruence].
    destruct (txop_items_ok _ _ El) as [Hl Hd]. pose proof (txopt_wire _ _ El) as Hw.
    assert (Hb : buf_inv (tx_cmdbuf t)) by apply Hinv.
    destruct (send_option_spec _ (tx_err t) opt Hb) as (b & e & E & Hb' & _ & Hfit & _).
    destruct (Hfit Hlen) as [_ Ha].
    rewrite E; cbn [obind]. eexists _, _, _, _. split; [reflexivity|]. intros _.
    rewrite !app_nil_r. eapply tx_store_inv; eauto. rewrite Hw. exact Ha.
Qed.

Definition cmds_sent (ops : list txop) : list (list Z) := cmds_of (concat (map items_of ops)).

Lemma tx_run_inv ops : forall t out acc cs,
  tx_inv t out acc cs -> tx_ok t ops ->
  exists t1 a w e, tx_run t ops = Some (t1, a, w, e) /\
    (e = false -> tx_inv t1 (out ++ w) (acc ++ a) (cs ++ cmds_sent ops)).
Proof.
  induction ops as [|o ops IH]; intros t out acc cs Hinv Hok; cbn [tx_run tx_ok] in *.
  - eexists _, _, _, _. split; [reflexivity|]. intros _. unfold cmds_sent, cmds_of; cbn. rewrite !app_nil_r. exact Hinv.
  - destruct Hok as [Ho Hr].
    destruct (tx_step_inv _ _ _ _ _ Hinv Ho) as (t1 & a & w & e & E & Hn).
    rewrite E in *; cbn [obind]. destruct e.
    + eexists _, _, _, _. split; [reflexivity|]. discriminate.
    + specialize (Hn eq_refl).
      destruct (IH _ _ _ _ Hn Hr) as (t2 & a2 & w2 & e2 & E2 & Hn2).
      rewrite E2; cbn [obind]. eexists _, _, _, _. split; [reflexivity|]. intros He.
      specialize (Hn2 He). unfold cmds_sent in *. cbn [map concat]. rewrite cmds_of_app.
      rewrite !app_assoc in *. exact Hn2.
Qed.

Lemma tx_init_inv mem max : (2 <= max)%nat -> tx_inv (tx_init mem max) [] [] [].
Proof.
  intros H. unfold tx_inv, tx_init; cbn [tx_cmdbuf tx_err tx_state tx_data tx_max is_user].
  split; [unfold buf_inv, buffer_init; cbn; lia|]. split; [exact H|].
  split; [discriminate|]. split; [discriminate|]. exists [], [].
  repeat split; try constructor.
Qed.

(** Everything written so far is a prefix of the wire form of the items. *)
Lemma tx_inv_wire t out acc cs :
  tx_inv t out acc cs ->
  exists items pend, Forall item_ok items /\ out ++ pend = wire items /\
    data_of items = acc /\ cmds_of items = cs /\
    (tx_data t = [] -> buf_abs (tx_cmdbuf t) = [] -> pend = []).
Proof.
  intros (Hb & Hmax & Hu & Htn & I1 & I2 & Hok1 & Hok2 & Hcs & Hacc & Hst).
  destruct (is_user (tx_state t)); destruct Hst as (A & B & C).
  - exists (I1 ++ I2), (tx_data t ++ buf_abs (tx_cmdbuf t)).
    rewrite wire_app, data_of_app, cmds_of_app, <- A, <- B, Hcs, Hacc, app_assoc.
    repeat split; auto. apply Forall_app; auto. intros -> ->. reflexivity.
  - exists (I1 ++ I2), (buf_abs (tx_cmdbuf t) ++ tx_data t).
    rewrite wire_app, data_of_app, cmds_of_app, <- A, <- B, Hcs, Hacc, app_assoc.
    repeat split; auto. apply Forall_app; auto. intros -> ->. reflexivity.
Qed.

(** ** The receiving filter *)
Lemma rx_run_spec ops : forall r s r' s' ds cs,
  rx_run r s ops = Some (r', s', ds, cs) ->
  exists p outs, s = p ++ s' /\ bytes_run (rx_td r) p = Some (rx_td r', outs, cs) /\
    rx_data r ++ outs = ds ++ rx_data r'.
Proof.
  induction ops as [|[h n] ops IH]; intros r s r' s' ds cs H; cbn [rx_run] in H.
  - injection H as <- <- <- <-. exists [], []. rewrite app_nil_r. repeat split.
  - destruct (telnet_ll_write h r (firstn n s)) as [[[[[r1 e] cnt] d] c]|] eqn:E; [|discriminate].
    cbn [obind] in H.
    destruct (rx_run r1 (skipn cnt s) ops) as [[[[r2 s2] ds2] cs2]|] eqn:E2; [|discriminate].
    cbn [obind] in H. injection H as <- <- <- <-.
    assert (Hstep : exists p o, s = p ++ skipn cnt s /\
               bytes_run (rx_td r) p = Some (rx_td r1, o, olist c) /\
               rx_data r ++ o = d ++ rx_data r1).
    { unfold telnet_ll_write in E.
      assert (Hfin : forall ra cn cm, 
        (if (length (rx_data ra) =? 0)%nat then Some (ra, false, cn, [], cm)
         else match h (rx_data ra) with
              | None => Some (ra, true, cn, [], cm)
              | Some n => if (length (rx_data ra) <=? n)%nat
                  then Some (mkrx (rx_td ra) [] (rx_max ra), false, cn, rx_data ra, cm)
                  else Some (mkrx (rx_td ra) (skipn n (rx_data ra)) (rx_max ra), false, cn, firstn n (rx_data ra), cm)
              end) = Some (r1, e, cnt, d, c) ->
        rx_td r1 = rx_td ra /\ cn = cnt /\ cm = c /\ rx_data ra = d ++ rx_data r1).
      { intros ra cn cm Hx. destruct (length (rx_data ra) =? 0)%nat.
        - injection Hx as <- <- <- <- <-. repeat split.
        - destruct (h (rx_data ra)) as [k|].
          + destruct (length (rx_data ra) <=? k)%nat; injection Hx as <- <- <- <- <-; cbn [rx_td rx_data].
            * rewrite app_nil_r. repeat split.
            * rewrite firstn_skipn. repeat split.
          + injection Hx as <- <- <- <- <-. repeat split. }
      destruct (negb (length (rx_data r) =? 0)%nat || (length (firstn n s) =? 0)%nat) eqn:Eg.
      - cbn [obind] in E. destruct (Hfin _ _ _ E) as (T & <- & <- & Dd).
        exists [], []. cbn [skipn]. rewrite T, app_nil_r. repeat split. exact Dd.
      - destruct (process_telnet_data (rx_td r) (firstn n s) (rx_max r)) as [[[[td o] cc] rest]|] eqn:Ep; [|discriminate].
        cbn [obind] in E. destruct (Hfin _ _ _ E) as (T & <- & <- & Dd). cbn [rx_td rx_data] in T, Dd.
        destruct (process_chunk _ _ _ _ _ _ _ Ep) as (p & Hp & Hr).
        assert (Hd0 : rx_data r = []).
        { destruct (rx_data r); [reflexivity|]. cbn in Eg. discriminate. }
        exists p, o. rewrite T, Hd0. repeat split; [|exact Hr|exact Dd].
        assert (Hs : s = p ++ (rest ++ skipn n s)).
        { rewrite app_assoc, <- Hp, firstn_skipn. reflexivity. }
        replace (length (firstn n s) - length rest)%nat with (length p)
          by (rewrite Hp, app_length; lia).
        rewrite Hs at 2. rewrite skipn_app_exact. exact Hs. }
    destruct Hstep as (p1 & o1 & Hs1 & Hr1 & Hd1).
    destruct (IH _ _ _ _ _ _ E2) as (p2 & o2 & Hs2 & Hr2 & Hd2).
    exists (p1 ++ p2), (o1 ++ o2). split; [rewrite <- app_assoc, <- Hs2; exact Hs1|].
    split.
    + rewrite bytes_run_app, Hr1; cbn [obind]. rewrite Hr2. cbn [obind]. destruct c; reflexivity.
    + rewrite app_assoc, Hd1, <- app_assoc, Hd2, app_assoc. reflexivity.
Qed.

Lemma rx_run_safe ops : forall r s,
  tn_ok (rx_td r) -> exists x, rx_run r s ops = Some x.
Proof.
  induction ops as [|[h n] ops IH]; intros r s Hok; cbn [rx_run]; [eauto|].
  assert (exists r1 e cnt d c, telnet_ll_write h r (firstn n s) = Some (r1, e, cnt, d, c) /\ tn_ok (rx_td r1))
    as (r1 & e & cnt & d & c & E & H1).
  { unfold telnet_ll_write.
    destruct (negb (length (rx_data r) =? 0)%nat || (length (firstn n s) =? 0)%nat); cbn [obind].
    - destruct (length (rx_data r) =? 0)%nat; [eauto 8|]. destruct (h (rx_data r)); [|eauto 8].
      destruct (_ <=? _)%nat; eexists _, _, _, _, _; (split; [reflexivity|exact Hok]).
    - destruct (process_safe (firstn n s) (rx_td r) (rx_max r) Hok) as (td & o & c & rest & E & Hok' & _).
      rewrite E; cbn [obind rx_data rx_td]. destruct (length o =? 0)%nat; [eexists _, _, _, _, _; (split; [reflexivity|exact Hok'])|].
      destruct (h o); [|eexists _, _, _, _, _; (split; [reflexivity|exact Hok'])].
      destruct (_ <=? _)%nat; eexists _, _, _, _, _; (split; [reflexivity|exact Hok']). }
  rewrite E; cbn [obind]. destruct (IH r1 (skipn cnt s) H1) as [[[[a b] cc] dd] Hx].
  rewrite Hx; cbn [obind]. eauto.
Qed.

(** ** End to end *)
Lemma telnet_end_to_end mem txmax rxmax ops t acc out rops r rest ds cs :
  (2 <= txmax)%nat ->
  tx_ok (tx_init mem txmax) ops ->
  tx_run (tx_init mem txmax) ops = Some (t, acc, out, false) ->
  rx_run (rx_init rxmax) out rops = Some (r, rest, ds, cs) ->
  (exists x y, acc = ds ++ x /\ cmds_sent ops = cs ++ y) /\
  (tx_data t = [] -> buffer_cursize (tx_cmdbuf t) = 0%nat -> rest = [] -> rx_data r = [] ->
   ds = acc /\ cs = cmds_sent ops).
Proof.
  intros Hmax Hok Hrun Hrx.
  destruct (tx_run_inv ops _ _ _ _ (tx_init_inv mem txmax Hmax) Hok) as (t1 & a & w & e & E & Hn).
  rewrite E in Hrun. injection Hrun as <- <- <- ->. specialize (Hn eq_refl). cbn [app] in Hn.
  destruct (tx_inv_wire _ _ _ _ Hn) as (items & pend & Hio & Hw & Hd & Hc & Hp).
  destruct (run_wire items tn_init Hio idle_init) as (td' & Hrw & _).
  destruct (rx_run_spec _ _ _ _ _ _ _ Hrx) as (p & outs & Hs & Hr & Hds).
  cbn [rx_init rx_td rx_data app] in Hr, Hds.
  assert (Hpre : wire items = p ++ (rest ++ pend)) by (rewrite <- Hw, Hs, app_assoc; reflexivity).
  rewrite Hpre in Hrw.
  split.
  - destruct (bytes_run_prefix _ _ _ _ _ _ _ _ _ Hr Hrw) as (x & y & Hx & Hy).
    exists (rx_data r ++ x), y. rewrite app_assoc, <- Hds, <- Hd, <- Hc. auto.
  - intros H1 H2 -> H4. unfold buffer_cursize in H2. rewrite <- buf_abs_length in H2.
    assert (Hb0 : buf_abs (tx_cmdbuf t1) = []) by (destruct (buf_abs (tx_cmdbuf t1)); [reflexivity|discriminate]).
    rewrite (Hp H1 Hb0) in Hrw. rewrite !app_nil_r in Hrw. rewrite Hr in Hrw.
    injection Hrw as _ Ho Hcc. rewrite H4, app_nil_r in Hds. rewrite <- Hds, Ho, Hcc, Hd, Hc. auto.
Qed.

(** Nothing gets stuck: two calls with a lower layer that accepts everything
    leave nothing pending. *)

Lemma takes_all_lawful h : takes_all h -> lawful h.
Proof. intros H d n E. rewrite H in E. injection E as <-. lia. Qed.

Lemma feed_all h cs out err : takes_all h -> feed h cs out err -> err = false /\ out = concat cs.
Proof.
  intros Ha F. induction F as [|c cs H|c cs n H Hn|c cs n t f H Hn F IH].
  - split; reflexivity.
  - rewrite Ha in H. discriminate.
  - rewrite Ha in H. injection H as <-. lia.
  - destruct IH as [-> ->]. split; reflexivity.
Qed.

Lemma ul_write_flush h t out acc cs :
  takes_all h -> tx_inv t out acc cs ->
  exists t1 o, telnet_ul_write h h t [] = Some (t1, false, 0%nat, o) /\
    tx_data t1 = [] /\ (tx_state t <> IN_USER_WRITE -> buf_abs (tx_cmdbuf t1) = []) /\
    tx_state t1 = NOT_WRITING.
Proof.
  intros Ha Hinv. pose proof (takes_all_lawful _ Ha) as Hl.
  pose proof Hinv as (Hb & Hmax & Hu & Htn & _).
  rewrite ul_write_split.
  assert (Hload : tx_load t [] = (t, 0%nat)).
  { unfold tx_load. destruct t as [cb er st d mx]; cbn [tx_cmdbuf tx_err tx_state tx_data tx_max].
    destruct d; reflexivity. }
  rewrite Hload. cbv iota zeta.
  assert (Hc : exists t2 o2, tx_cmds h t = Some (t2, false, o2) /\ tx_data t2 = tx_data t /\
             (tx_state t <> IN_USER_WRITE -> buf_abs (tx_cmdbuf t2) = [] /\ tx_state t2 = NOT_WRITING) /\
             (tx_state t = IN_USER_WRITE -> t2 = t)).
  { unfold tx_cmds. destruct (tx_state t) eqn:Es.
    3:{ cbn [andb]. exists t, []. repeat split; congruence. }
    all: destruct (negb (buffer_cursize (tx_cmdbuf t) =? 0)%nat) eqn:Ez; cbn [andb].
    all: try (destruct (buffer_write_spec (tx_cmdbuf t) h Hb Hl)
      as (b1 & e1 & o1 & chunks & Ew & Hb1 & _ & Hcc & _ & _ & Hf & Hab);
      destruct (feed_all _ _ _ _ Ha Hf) as [-> ->]; rewrite Hcc in *;
      assert (Hab1 : buf_abs b1 = []) by
        (rewrite <- (app_nil_r (buf_abs (tx_cmdbuf t))) in Hab at 1; apply app_inv_head in Hab; congruence);
      rewrite Ew; cbn [obind];
      assert (Hz : buffer_cursize b1 = 0%nat) by (unfold buffer_cursize; rewrite <- buf_abs_length, Hab1; reflexivity);
      rewrite Hz; cbn [negb Nat.eqb];
      eexists _, _; repeat split; try congruence; cbn [tx_cmdbuf tx_state]; auto; discriminate).
    - exists t, []. repeat split; auto; try discriminate.
      unfold buffer_cursize in Ez. rewrite <- buf_abs_length in Ez.
      destruct (buf_abs (tx_cmdbuf t)); [reflexivity|discriminate].
    - exfalso. apply Htn; [reflexivity|].
      unfold buffer_cursize in Ez. rewrite <- buf_abs_length in Ez.
      destruct (buf_abs (tx_cmdbuf t)); [reflexivity|discriminate]. }
  destruct Hc as (t2 & o2 & Ec & Hd2 & Hnu & Hus). rewrite Ec; cbn [obind].
  unfold tx_user.
  destruct (tx_state t) eqn:Es.
  1,2: destruct Hnu as [Hab Hst]; [discriminate|]; rewrite Hst; cbn [andb];
    destruct (negb (length (tx_data t2) =? 0)%nat) eqn:Ez;
    [rewrite Ha, Nat.leb_refl; eexists _, _; split; [reflexivity|]; cbn; auto
    |eexists _, _; split; [reflexivity|]; repeat split; auto;
     destruct (tx_data t2); [reflexivity|discriminate]].
  rewrite (Hus eq_refl), Es. cbn [andb]. specialize (Hu eq_refl).
  replace (negb (length (tx_data t) =? 0)%nat) with true
    by (destruct (tx_data t); [congruence|reflexivity]).
  rewrite Ha, Nat.leb_refl. eexists _, _; split; [reflexivity|]. cbn. repeat split; congruence.
Qed.

Lemma telnet_flush mem txmax ops t acc out h :
  (2 <= txmax)%nat -> takes_all h ->
  tx_ok (tx_init mem txmax) ops ->
  tx_run (tx_init mem txmax) ops = Some (t, acc, out, false) ->
  exists t2 o2, tx_run t [TxWrite h h []; TxWrite h h []] = Some (t2, [], o2, false) /\
    tx_data t2 = [] /\ buffer_cursize (tx_cmdbuf t2) = 0%nat.
Proof.
  intros Hmax Ha Hok Hrun.
  destruct (tx_run_inv ops _ _ _ _ (tx_init_inv mem txmax Hmax) Hok) as (t1 & a & w & e & E & Hn).
  rewrite E in Hrun. injection Hrun as <- <- <- ->. specialize (Hn eq_refl). cbn [app] in Hn.
  pose proof (takes_all_lawful _ Ha) as Hl.
  destruct (ul_write_flush h _ _ _ _ Ha Hn) as (t2 & o2 & E2 & _ & _ & S2).
  destruct (tx_write_inv _ _ _ _ _ _ _ _ _ _ _ Hl Hl Hn E2 eq_refl) as [Hn2 _].
  destruct (ul_write_flush h _ _ _ _ Ha Hn2) as (t3 & o3 & E3 & D3 & B3 & _).
  exists t3, (o2 ++ o3). cbn [tx_run tx_step]. rewrite E2; cbn [obind]. rewrite E3; cbn [obind concat firstn app].
  rewrite app_nil_r. split; [reflexivity|]. split; [exact D3|].
  unfold buffer_cursize. rewrite <- buf_abs_length, B3; [reflexivity|]. rewrite S2; discriminate.
Qed.
