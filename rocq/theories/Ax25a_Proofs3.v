(** Texts of AX.25 addresses. *)
From Verif Require Import Base Cstr_Model Cstr_Spec Cstr_Proofs3 Mem_Proofs Time_Model Time_Proofs2 Ax25a_Model Ax25a_Spec Ax25a_Proofs.
Open Scope Z_scope.

Definition written_char (c : Z) : Prop := upper_case c \/ lower_case c \/ digit c.
Definition at_end (r : list Z) : Prop := match r with [] => True | c :: _ => c = 45 end.

Lemma sub_chars_ok cs : forall n done tail rest, Forall written_char cs -> (length cs <= n)%nat -> at_end rest ->
  (length cs <= length tail)%nat ->
  sub_chars n (done ++ tail) (length done) (cs ++ rest) =
    Some (Some (done ++ map capital cs ++ skipn (length cs) tail, (length done + length cs)%nat, rest)).
Proof.
  induction cs as [|c cs IH]; intros n done tail rest F Hn Hr Ht.
  - cbn [app map length skipn]. rewrite Nat.add_0_r. destruct n; [reflexivity|].
    destruct rest as [|c rest]; [reflexivity|]. cbn in Hr. subst c. reflexivity.
  - destruct n as [|n]; [cbn [length] in Hn; lia|]. destruct tail as [|y tail]; [cbn [length] in Ht; lia|].
    cbn [length] in Hn, Ht. cbn [app sub_chars].
    assert (G : forall x, x = capital c ->
      (call <- mset (done ++ y :: tail) (length done) x ;; sub_chars n call (S (length done)) (cs ++ rest)) =
      Some (Some (done ++ map capital (c :: cs) ++ skipn (S (length cs)) (y :: tail), (length done + S (length cs))%nat, rest))).
    { intros x ->. rewrite mset_app_mid. cbn [obind].
      specialize (IH n (done ++ [capital c]) tail rest (Forall_inv_tail F)). rewrite app_length in IH. cbn [length] in IH.
      rewrite <- !app_assoc in IH. cbn [app] in IH. replace (length done + 1)%nat with (S (length done)) in IH by lia.
      rewrite IH by (lia || assumption). cbn [map skipn app].
      replace (S (length done) + length cs)%nat with (length done + S (length cs))%nat by lia. reflexivity. }
    pose proof (Forall_inv F) as Hc. unfold written_char, upper_case, lower_case, digit in Hc.
    unfold isupper, isdigit, islower, capital in *.
    destruct Hc as [Hc|[Hc|Hc]].
    + replace ((65 <=? c) && (c <=? 90)) with true by lia. cbn [orb]. apply G.
      replace ((97 <=? c) && (c <=? 122)) with false by lia. reflexivity.
    + replace ((65 <=? c) && (c <=? 90)) with false by lia. replace ((48 <=? c) && (c <=? 57)) with false by lia. cbn [orb].
      replace ((97 <=? c) && (c <=? 122)) with true in * by lia. apply G. reflexivity.
    + replace ((65 <=? c) && (c <=? 90)) with false by lia. replace ((48 <=? c) && (c <=? 57)) with true by lia. cbn [orb].
      apply G. replace ((97 <=? c) && (c <=? 122)) with false by lia. reflexivity.
Qed.

Lemma zero_from_ok n : forall p r, (n <= length r)%nat ->
  zero_from n (p ++ r) (length p) = Some (p ++ repeat 0 n ++ skipn n r).
Proof.
  induction n as [|n IH]; intros p r H; [reflexivity|]. destruct r as [|y r]; [cbn [length] in H; lia|].
  cbn [zero_from]. rewrite mset_app_mid. cbn [obind].
  specialize (IH (p ++ [0]) r). rewrite app_length in IH. cbn [length] in IH, H.
  replace (length p + 1)%nat with (S (length p)) in IH by lia. rewrite <- !app_assoc in IH.
  cbn [app] in IH. rewrite IH by lia. reflexivity.
Qed.

(** strtoul on the numbers written *)
Definition ends_num (r : list Z) : Prop := match r with [] => True | c :: _ => c = 58 end.
Lemma ssid_strtoul ds n r : ssid_text ds n -> ends_num r -> strtoul10 (ds ++ r) = (n, r).
Proof.
  intros H Hr. destruct H as [[-> H]|[-> H]].
  - assert (Q : n = 0 \/ n = 1 \/ n = 2 \/ n = 3 \/ n = 4 \/ n = 5 \/ n = 6 \/ n = 7 \/ n = 8 \/ n = 9) by lia.
    destruct r as [|c r]; [|cbn in Hr; subst c];
    repeat (destruct Q as [->|Q]; [reflexivity|]); subst n; reflexivity.
  - assert (Q : n = 10 \/ n = 11 \/ n = 12 \/ n = 13 \/ n = 14 \/ n = 15) by lia.
    destruct r as [|c r]; [|cbn in Hr; subst c];
    repeat (destruct Q as [->|Q]; [reflexivity|]); subst n; reflexivity.
Qed.

(** A callsign alone *)
Lemma sub_plain cs a is_cr : written cs -> length (sa_call a) = 7%nat ->
  str_to_subaddr cs a is_cr =
    Some (Some (mksa (map capital cs ++ skipn (length cs) (sa_call a)) 0 (sa_ch a) (sa_r1 a) (sa_r2 a) (sa_r3 a))).
Proof.
  intros (L & F) L7. unfold str_to_subaddr. destruct cs as [|c cs]; [cbn in L; lia|].
  pose proof (sub_chars_ok (c :: cs) 6 [] (sa_call a) [] F) as E. rewrite app_nil_r in E. cbn [app length] in E, L.
  cbn [length app]. rewrite E by (cbn; lia || auto). cbn [obind]. reflexivity.
Qed.

(** A callsign with a number *)
Lemma sub_ssid cs ds n a is_cr : written cs -> ssid_text ds n -> length (sa_call a) = 7%nat ->
  str_to_subaddr (cs ++ 45 :: ds) a is_cr =
    Some (Some (mksa (map capital cs ++ repeat 0 (7 - length cs)) n 0 1 1 1)) /\
  str_to_subaddr (cs ++ 45 :: ds ++ [58; 104]) a is_cr =
    Some (if is_cr then None else Some (mksa (map capital cs ++ repeat 0 (7 - length cs)) n 1 1 1 1)).
Proof.
  intros (L & F) Hn L7.
  assert (G : forall t, str_to_subaddr (cs ++ 45 :: t) a is_cr =
      let '(v, e) := strtoul10 t in
            let j := v mod 2 ^ 32 in
            let fin ch := if 16 <=? j then None else Some (mksa (map capital cs ++ repeat 0 (7 - length cs)) j ch 1 1 1) in
            match e with
            | [] => Some (fin 0)
            | e0 :: e1 =>
                if e0 =? 58 then
                  match is_cr, e1 with
                  | false, [h] => if h =? 104 then Some (fin 1) else Some None
                  | _, _ => Some None
                  end
                else Some None
            end).
  { intros t. unfold str_to_subaddr. destruct (cs ++ 45 :: t) eqn:Q; [destruct cs; discriminate|]. rewrite <- Q. clear Q.
    pose proof (sub_chars_ok cs 6 [] (sa_call a) (45 :: t) F) as SC. cbn [app length Nat.add] in SC.
    rewrite SC by (cbn; lia || auto). cbn [obind].
    replace (negb (45 =? 45)) with false by reflexivity.
    replace (length cs) with (length (map capital cs)) by apply map_length.
    rewrite zero_from_ok by (rewrite skipn_length, map_length; lia). cbn [obind].
    rewrite (skipn_all2 (n := (7 - length (map capital cs)))) by (rewrite skipn_length; lia).
    rewrite app_nil_r. reflexivity. }
  assert (N16 : 0 <= n < 16) by (destruct Hn as [[_ H]|[_ H]]; lia).
  rewrite !G. pose proof (ssid_strtoul ds n [] Hn I) as E1. rewrite app_nil_r in E1. rewrite E1.
  rewrite (ssid_strtoul ds n [58; 104] Hn eq_refl). cbv zeta. rewrite Z.mod_small by lia.
  replace (16 <=? n) with false by lia. split; [reflexivity|]. destruct is_cr; reflexivity.
Qed.

(** What is accepted begins with at most six letters and digits, followed by
    nothing or a dash. *)
Lemma sub_chars_inv n : forall call i s r, sub_chars n call i s = Some (Some r) ->
  exists cs, s = cs ++ snd r /\ (length cs <= n)%nat /\ Forall written_char cs.
Proof.
  induction n as [|n IH]; intros call i s r H; cbn [sub_chars] in H.
  - assert (r = (call, i, s)) by (destruct s; congruence). subst r. exists []. cbn [snd length app]. auto.
  - destruct s as [|c s]; [assert (r = (call, i, [])) by congruence; subst r; exists []; cbn; auto with arith|].
    assert (Cont : forall x, written_char c ->
      (call' <- mset call i x ;; sub_chars n call' (S i) s) = Some (Some r) ->
      exists cs, c :: s = cs ++ snd r /\ (length cs <= S n)%nat /\ Forall written_char cs).
    { intros x Hc E. destruct (mset call i x) as [call'|]; [|discriminate]. cbn [obind] in E.
      destruct (IH _ _ _ _ E) as (cs & -> & Lc & Fc). exists (c :: cs). cbn [length app].
      split; [reflexivity|]. split; [lia|]. constructor; assumption. }
    unfold written_char, upper_case, lower_case, digit in Cont.
    destruct (isupper c || isdigit c) eqn:E1; [unfold isupper, isdigit in E1; eapply Cont; [lia|exact H]|].
    destruct (islower c) eqn:E2; [unfold islower in E2; eapply Cont; [lia|exact H]|].
    destruct (c =? 45) eqn:E3; [|discriminate].
    assert (r = (call, i, c :: s)) by congruence. subst r. exists []. cbn; auto with arith.
Qed.

Lemma sub_accept s a is_cr r : str_to_subaddr s a is_cr = Some (Some r) ->
  exists cs rest, s = cs ++ rest /\ (length cs <= 6)%nat /\ Forall written_char cs /\ at_end rest.
Proof.
  intros H. unfold str_to_subaddr in H. destruct s as [|c s]; [discriminate|].
  destruct (sub_chars 6 (sa_call a) 0 (c :: s)) as [[[[call i] rest]|]|] eqn:E; cbn [obind] in H; try discriminate.
  destruct (sub_chars_inv _ _ _ _ _ E) as (cs & E2 & L & F). cbn [snd] in E2. exists cs, rest.
  split; [exact E2|]. split; [exact L|]. split; [exact F|].
  destruct rest as [|d rest]; [exact I|]. destruct (d =? 45) eqn:E3; [cbn; lia|]. cbn [negb] in H. discriminate.
Qed.

(** ** Printing and reading back *)
Lemma callsign_written cs : callsign cs -> written cs /\ map capital cs = cs.
Proof.
  intros (L & F). split.
  - split; [exact L|]. eapply Forall_impl; [|exact F]. cbn beta. tauto.
  - clear L. induction F as [|c cs Hc F IH]; [reflexivity|]. cbn [map]. rewrite IH. f_equal.
    unfold capital, upper_case, digit in *. replace ((97 <=? c) && (c <=? 122)) with false by lia. reflexivity.
Qed.

Lemma callsign_cstr cs : callsign cs -> cstr_ok cs.
Proof.
  intros (_ & F). eapply Forall_impl; [|exact F]. cbn beta. unfold upper_case, digit. intros c H. lia.
Qed.

Lemma holds_cstring call cs : holds call cs -> callsign cs -> cstring call = Some cs.
Proof.
  intros -> H. destruct H as (L & F).
  replace (7 - length cs)%nat with (S (6 - length cs)) by lia. cbn [repeat]. apply cstring_app. apply callsign_cstr. split; assumption.
Qed.

Definition num_text (n : Z) : list Z := if n =? 0 then [] else 45 :: dec n.
Definition sub_text (cs : list Z) (n : Z) : list Z := cs ++ num_text n.

Lemma dec_ssid n : 0 <= n < 16 -> ssid_text (dec n) n.
Proof.
  intros H. unfold dec, ssid_text. destruct (n <? 10) eqn:E.
  - left. split; [reflexivity|lia].
  - right. replace (n <? 100) with true by lia. split; [|lia].
    replace (n / 10) with 1 by (apply (Z.div_unique _ 10 _ (n - 10)); lia).
    replace (n mod 10) with (n - 10) by (apply (Z.mod_unique _ 10 1); lia). reflexivity.
Qed.

Lemma subaddr_text_ok a cs : holds (sa_call a) cs -> callsign cs ->
  subaddr_text a false = Some (sub_text cs (sa_ssid a)).
Proof.
  intros Hh Hc. unfold subaddr_text. rewrite (holds_cstring _ _ Hh Hc). cbn [obind]. rewrite app_nil_r.
  unfold sub_text, num_text. destruct (sa_ssid a =? 0); [rewrite app_nil_r|]; reflexivity.
Qed.

(** what reading gives *)
Definition reread (a : subaddr) (ch : Z) : subaddr :=
  if sa_ssid a =? 0 then mksa (sa_call a) 0 0 0 0 0 else mksa (sa_call a) (sa_ssid a) ch 1 1 1.

Lemma reread_ok a cs is_cr : holds (sa_call a) cs -> callsign cs -> 0 <= sa_ssid a < 16 ->
  str_to_subaddr (sub_text cs (sa_ssid a)) zsub is_cr = Some (Some (reread a 0)).
Proof.
  intros Hh Hc Hs. destruct (callsign_written _ Hc) as [Hw Hm]. unfold sub_text, num_text, reread.
  destruct (sa_ssid a =? 0) eqn:E.
  - rewrite app_nil_r, sub_plain by (auto). rewrite Hm, Hh. cbn [sa_call zsub sa_ch sa_r1 sa_r2 sa_r3].
    do 4 f_equal. destruct Hc as [L _].
    replace 7%nat with (length cs + (7 - length cs))%nat at 1 by lia. rewrite repeat_app, skipn_app, skipn_all2 by (rewrite repeat_length; lia).
    rewrite repeat_length, Nat.sub_diag. reflexivity.
  - destruct (sub_ssid cs (dec (sa_ssid a)) (sa_ssid a) zsub is_cr Hw (dec_ssid _ Hs) eq_refl) as [-> _].
    rewrite Hm, Hh. reflexivity.
Qed.

Definition h_text (a : subaddr) : list Z := if sa_ch a =? 0 then [] else [58; 104].

Lemma reread_h a cs : holds (sa_call a) cs -> callsign cs -> fields_ok a -> (sa_ch a = 0 \/ sa_ssid a <> 0) ->
  str_to_subaddr (sub_text cs (sa_ssid a) ++ h_text a) zsub false = Some (Some (reread a (sa_ch a))).
Proof.
  intros Hh Hc (Hs & Hb) Hx. unfold h_text. destruct (sa_ch a =? 0) eqn:E.
  - rewrite app_nil_r, (reread_ok a cs) by assumption. unfold reread. destruct (sa_ssid a =? 0); [reflexivity|].
    replace (sa_ch a) with 0 by lia. reflexivity.
  - unfold sub_text, num_text, reread. destruct (callsign_written _ Hc) as [Hw Hm].
    destruct (sa_ssid a =? 0) eqn:E2; [lia|]. rewrite <- app_assoc. cbn [app].
    destruct (sub_ssid cs (dec (sa_ssid a)) (sa_ssid a) zsub false Hw (dec_ssid _ Hs) eq_refl) as [_ Q].
    rewrite Q. rewrite Hm, Hh. replace (sa_ch a) with 1 by lia. reflexivity.
Qed.

Lemma same_reread a : fields_ok a -> (sa_ch a = 0 \/ sa_ssid a <> 0) -> same_sub (reread a (sa_ch a)) a.
Proof.
  intros (Hs & Hb) Hx. unfold reread. destruct (sa_ssid a =? 0) eqn:E; unfold same_sub; cbn [sa_call sa_ssid sa_ch]; [|auto].
  repeat split; lia.
Qed.

(** commas *)
Definition no_comma (s : list Z) : Prop := Forall (fun c => c <> 44) s.
Lemma pieces_none s : no_comma s -> pieces s = [s].
Proof.
  induction 1 as [|c s Hc H IH]; [reflexivity|]. cbn [pieces]. rewrite IH. replace (c =? 44) with false by lia. reflexivity.
Qed.
Lemma pieces_comma s r : no_comma s -> pieces (s ++ 44 :: r) = s :: pieces r.
Proof.
  induction 1 as [|c s Hc H IH]; [reflexivity|]. cbn [pieces app]. rewrite IH. replace (c =? 44) with false by lia. reflexivity.
Qed.

Lemma dec_no_comma n : 0 <= n < 1000 -> Forall digit (dec n) /\ dec n <> [].
Proof.
  intros H. unfold dec, digit. assert (D := Z.mod_pos_bound n 10). assert (D2 := Z.mod_pos_bound (n / 10) 10).
  destruct (n <? 10) eqn:E; [split; [|discriminate]; repeat constructor; lia|].
  destruct (n <? 100) eqn:E2; (split; [|discriminate]).
  - assert (1 <= n / 10 <= 9) by (split; [apply Z.div_le_lower_bound|apply Z.lt_succ_r, Z.div_lt_upper_bound]; lia).
    repeat constructor; lia.
  - assert (1 <= n / 100 <= 9) by (split; [apply Z.div_le_lower_bound|apply Z.lt_succ_r, Z.div_lt_upper_bound]; lia).
    repeat constructor; lia.
Qed.

Lemma text_no_comma cs n : callsign cs -> 0 <= n < 16 -> no_comma (sub_text cs n).
Proof.
  intros (_ & F) H. unfold sub_text. apply Forall_app. split.
  - eapply Forall_impl; [|exact F]. cbn beta. unfold upper_case, digit. intros c Q. lia.
  - unfold num_text. destruct (n =? 0); [constructor|]. constructor; [lia|].
    destruct (dec_no_comma n) as [D _]; [lia|]. eapply Forall_impl; [|exact D]. cbn beta. unfold digit. intros c Q. lia.
Qed.

Lemma h_no_comma a : no_comma (h_text a).
Proof. unfold h_text. destruct (sa_ch a =? 0); repeat constructor; lia. Qed.

Definition extra_ok (a : subaddr) : Prop := legal_sub a /\ (sa_ch a = 0 \/ sa_ssid a <> 0).

Lemma extras_text_ok l : Forall extra_ok l ->
  exists t, extras_text l = Some t /\
    forall s, no_comma s -> exists ps, pieces (s ++ t) = s :: ps /\ length ps = length l /\
      alloc_extras ps = Some (Some (map (fun a => reread a (sa_ch a)) l)).
Proof.
  induction 1 as [|a l ((Hn & Hf) & Hx) H IH]; cbn [extras_text].
  - exists []. split; [reflexivity|]. intros s Hs. exists []. rewrite app_nil_r. split; [apply pieces_none; exact Hs|]. auto.
  - destruct Hn as (cs & Hc & Hh). rewrite (subaddr_text_ok a cs Hh Hc). cbn [obind].
    destruct IH as (t & -> & IH). cbn [obind]. eexists. split; [reflexivity|]. fold (h_text a). intros s Hs.
    assert (NC : no_comma (sub_text cs (sa_ssid a) ++ h_text a)).
    { apply Forall_app. split; [apply text_no_comma; [exact Hc|apply Hf]|apply h_no_comma]. }
    destruct (IH _ NC) as (ps & E1 & L1 & A1).
    exists ((sub_text cs (sa_ssid a) ++ h_text a) :: ps).
    rewrite pieces_comma by exact Hs. rewrite app_assoc, E1. split; [reflexivity|]. cbn [length map]. split; [lia|].
    cbn [alloc_extras]. rewrite (reread_h a cs) by assumption. cbn [obind]. rewrite A1. reflexivity.
Qed.

Lemma digits_stop ds : forall acc t, Forall digit ds -> exists v, digits 10 acc (ds ++ 44 :: t) = (v, 44 :: t).
Proof.
  induction ds as [|d ds IH]; intros acc t F; cbn [app digits].
  - eexists. reflexivity.
  - pose proof (Forall_inv F) as Hd. unfold digit in Hd. rewrite digit_of_decimal by exact Hd.
    replace (d - 48 <? 10) with true by lia. apply IH. apply (Forall_inv_tail F).
Qed.

Lemma port_strtoul ds t : Forall digit ds -> ds <> [] -> exists v, strtoul10 (ds ++ 44 :: t) = (v, 44 :: t).
Proof.
  intros F Ne. destruct ds as [|d ds]; [contradiction|]. pose proof (Forall_inv F) as Hd. unfold digit in Hd.
  unfold strtoul10. cbn [app skip_space]. unfold isspace.
  replace ((d =? 32) || (9 <=? d) && (d <=? 13)) with false by lia.
  replace (d =? 45) with false by lia. replace (d =? 43) with false by lia.
  rewrite digit_of_decimal by exact Hd. replace (d - 48 <? 10) with true by lia.
  destruct (digits_stop (d :: ds) 0 t F) as (v & E). cbn [app] in E. rewrite E. eexists. reflexivity.
Qed.

Lemma subaddr_equal_ok a b cs : holds (sa_call a) cs -> callsign cs -> sa_call b = sa_call a -> sa_ssid b = sa_ssid a ->
  subaddr_equal a b = Some true.
Proof.
  intros Hh Hc E1 E2. unfold subaddr_equal, strcmp_eq. rewrite E1, (holds_cstring _ _ Hh Hc). cbn [obind].
  destruct (list_eq_dec Z.eq_dec cs cs); [|contradiction]. rewrite E2, Z.eqb_refl. reflexivity.
Qed.

Lemma reread_call a ch : sa_call (reread a ch) = sa_call a.
Proof. unfold reread. destruct (sa_ssid a =? 0); reflexivity. Qed.
Lemma reread_ssid a ch : sa_ssid (reread a ch) = sa_ssid a.
Proof. unfold reread. destruct (sa_ssid a =? 0) eqn:E; cbn [sa_ssid]; lia. Qed.

Lemma extras_equal_ok l : Forall extra_ok l -> extras_equal l (map (fun a => reread a (sa_ch a)) l) = Some true.
Proof.
  induction 1 as [|a l (((cs & Hc & Hh) & Hf) & Hx) H IH]; [reflexivity|]. cbn [map extras_equal].
  rewrite (subaddr_equal_ok a _ cs) by (auto using reread_call, reread_ssid). cbn [obind]. exact IH.
Qed.

Lemma text_round_trip a : legal_sub (xa_dest a) -> legal_sub (xa_src a) -> Forall extra_ok (xa_extra a) ->
  (length (xa_extra a) <= 8)%nat -> 0 <= xa_port a < 256 ->
  exists t a', addr_text a = Some t /\ str_to_addr t = Some (Some a') /\
    xa_port a' = 0 /\ addr_equal a a' false true = Some true /\
    Forall2 same_sub (xa_extra a') (xa_extra a).
Proof.
  intros ((dc & Hdc & Hdh) & Hdf) ((sc & Hsc & Hsh) & Hsf) He Hl Hp. unfold addr_text.
  rewrite (subaddr_text_ok _ dc Hdh Hdc), (subaddr_text_ok _ sc Hsh Hsc). cbn [obind].
  destruct (extras_text_ok _ He) as (t & -> & HT). cbn [obind]. do 2 eexists. split; [reflexivity|].
  unfold str_to_addr.
  set (rest := sub_text dc (sa_ssid (xa_dest a)) ++ 44 :: sub_text sc (sa_ssid (xa_src a)) ++ t).
  replace (drop_prefix ax25_colon (ax25_colon ++ dec (xa_port a) ++ 44 :: rest)) with (Some (dec (xa_port a) ++ 44 :: rest))
    by reflexivity.
  destruct (dec_no_comma (xa_port a)) as [Dd Dn]; [lia|].
  destruct (port_strtoul _ rest Dd Dn) as (v & Ev).
  destruct (dec (xa_port a)) as [|d ds] eqn:Ed; [contradiction|]. cbn [app] in Ev |- *.
  pose proof (Forall_inv Dd) as Hd. unfold digit in Hd.
  unfold isdigit. replace ((48 <=? d) && (d <=? 57)) with true by lia. cbn [negb]. rewrite Ev.
  replace (44 =? 44) with true by reflexivity. cbn [negb]. unfold rest.
  rewrite pieces_comma by (apply text_no_comma; [exact Hdc|apply Hdf]).
  destruct (HT (sub_text sc (sa_ssid (xa_src a)))) as (ps & -> & Lp & Ap); [apply text_no_comma; [exact Hsc|apply Hsf]|].
  unfold max_extra. replace (8 <? length ps)%nat with false by lia.
  unfold addr_alloc, max_extra. replace (8 <? length ps)%nat with false by lia.
  rewrite (reread_ok (xa_dest a) dc) by (auto; apply Hdf). cbn [obind].
  rewrite (reread_ok (xa_src a) sc) by (auto; apply Hsf). cbn [obind]. rewrite Ap. cbn [obind].
  split; [reflexivity|]. split; [reflexivity|]. unfold addr_equal. cbn [xa_port xa_dest xa_src xa_extra andb].
  rewrite (subaddr_equal_ok (xa_dest a) _ dc) by (auto using reread_call, reread_ssid). cbn [obind negb].
  rewrite (subaddr_equal_ok (xa_src a) _ sc) by (auto using reread_call, reread_ssid). cbn [obind negb].
  rewrite map_length, Nat.eqb_refl. cbn [negb]. split; [apply extras_equal_ok; exact He|].
  clear - He. induction He as [|x l ((Hn & Hf) & Hx) H IH]; cbn [map]; constructor; [apply same_reread; assumption|exact IH].
Qed.
