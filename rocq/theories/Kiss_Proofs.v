(** Proofs about the kiss filter: receiver. *)
From Verif Require Import Base Buffer_Model Buffer_Spec Kiss_Model Kiss_Spec Msgdelim_Proofs2.
Open Scope Z_scope.

(** Decoder state after the bytes of a segment seen so far. *)
Inductive seg_st (maxr : nat) : list Z -> option (list Z * bool) -> Prop :=
| ss_nil : seg_st maxr [] (Some ([], false))
| ss_bad raw b : seg_st maxr raw None -> seg_st maxr (raw ++ [b]) None
| ss_esc raw s : seg_st maxr raw (Some (s, false)) -> seg_st maxr (raw ++ [219]) (Some (s, true))
| ss_plain raw s b : seg_st maxr raw (Some (s, false)) -> b <> 219 -> (length s < maxr)%nat ->
    seg_st maxr (raw ++ [b]) (Some (s ++ [b], false))
| ss_plain_full raw s b : seg_st maxr raw (Some (s, false)) -> b <> 219 -> (maxr <= length s)%nat ->
    seg_st maxr (raw ++ [b]) None
| ss_e raw s c x : seg_st maxr raw (Some (s, true)) -> (c = 220 /\ x = 192 \/ c = 221 /\ x = 219) ->
    (length s < maxr)%nat -> seg_st maxr (raw ++ [c]) (Some (s ++ [x], false))
| ss_e_full raw s c : seg_st maxr raw (Some (s, true)) -> (c = 220 \/ c = 221) ->
    (maxr <= length s)%nat -> seg_st maxr (raw ++ [c]) None
| ss_e_bad raw s c : seg_st maxr raw (Some (s, true)) -> c <> 220 -> c <> 221 -> seg_st maxr (raw ++ [c]) None.

(** Relation to the specification: decoding raw ++ tail. *)
Definition tail_of (st : bool) (tl : list Z) : option (list Z) :=
  if st then kiss_unescape (219 :: tl) else kiss_unescape tl.

Lemma seg_st_spec maxr raw st : seg_st maxr raw st -> forall tl,
  match st with
  | Some (s, e) => kiss_unescape (raw ++ tl) = option_map (app s) (tail_of e tl)
  | None => kiss_unescape (raw ++ tl) = None \/ exists u, kiss_unescape (raw ++ tl) = Some u /\ (maxr < length u)%nat
  end.
Proof.
  induction 1 as [|raw b H IH|raw s H IH|raw s b H IH Hb Hl|raw s b H IH Hb Hl|raw s c x H IH Hc Hl|raw s c H IH Hc Hl|raw s c H IH Hc1 Hc2];
    intros tl; rewrite <- ?app_assoc; cbn [app].
  - unfold tail_of. destruct (kiss_unescape tl); reflexivity.
  - apply IH.
  - rewrite IH. reflexivity.
  - rewrite IH. unfold tail_of. cbn [kiss_unescape]. replace (b =? 219) with false by lia.
    destruct (kiss_unescape tl); cbn [option_map]; [|reflexivity]. rewrite <- app_assoc. reflexivity.
  - rewrite IH. unfold tail_of. cbn [kiss_unescape]. replace (b =? 219) with false by lia.
    destruct (kiss_unescape tl) as [u|]; cbn [option_map]; [|left; reflexivity]. right. eexists. split; [reflexivity|].
    rewrite app_length. cbn [length]. lia.
  - rewrite IH. unfold tail_of. cbn [kiss_unescape]. change (219 =? 219) with true. cbn iota.
    destruct Hc as [[Hc1 Hc2]|[Hc1 Hc2]]; subst c x.
    + change (220 =? 220) with true. cbn iota. destruct (kiss_unescape tl); cbn [option_map]; [|reflexivity].
      rewrite <- app_assoc. reflexivity.
    + change (221 =? 220) with false. change (221 =? 221) with true. cbn iota.
      destruct (kiss_unescape tl); cbn [option_map]; [|reflexivity]. rewrite <- app_assoc. reflexivity.
  - rewrite IH. unfold tail_of. cbn [kiss_unescape]. change (219 =? 219) with true. cbn iota.
    destruct Hc as [Hc1|Hc1]; subst c.
    + change (220 =? 220) with true. cbn iota. destruct (kiss_unescape tl) as [u|]; cbn [option_map]; [|left; reflexivity].
      right. eexists. split; [reflexivity|]. rewrite app_length. cbn [length]. lia.
    + change (221 =? 220) with false. change (221 =? 221) with true. cbn iota.
      destruct (kiss_unescape tl) as [u|]; cbn [option_map]; [|left; reflexivity].
      right. eexists. split; [reflexivity|]. rewrite app_length. cbn [length]. lia.
  - rewrite IH. unfold tail_of. cbn [kiss_unescape]. change (219 =? 219) with true. cbn iota.
    replace (c =? 220) with false by lia. replace (c =? 221) with false by lia. left. reflexivity.
Qed.

Lemma seg_st_len maxr raw s e : seg_st maxr raw (Some (s, e)) -> (length s <= maxr)%nat.
Proof.
  remember (Some (s, e)) as st eqn:Est. intros H. revert s e Est.
  induction H; intros s0 e0 Est; try discriminate; assert (Hs : s0 = s0) by reflexivity; clear Hs;
    try (injection Est as <- <-).
  - cbn; lia.
  - eapply IHseg_st. reflexivity.
  - rewrite app_length. cbn [length]. lia.
  - rewrite app_length. cbn [length]. lia.
Qed.

Definition en_of (tncs : list bool) (t : Z) : bool := nth (Z.to_nat t) tncs false.

(** Receiver invariant: [rem] is what is still to come, [part] what the user
    has of the current packet, [all] the packets not yet fully delivered. *)
Inductive kr_inv (maxr : nat) (tncs : list bool) : kissrx -> list Z -> list Z -> list (Z * list Z) -> Prop :=
| kri_good mem raw s e tnc rem : length mem = maxr -> seg_st maxr raw (Some (s, e)) -> firstn (length s) mem = s ->
    bytes_ok s ->
    kr_inv maxr tncs (mkkr maxr tncs e false false mem 0 (length s) tnc) rem []
      (flat_map (kiss_packet maxr (en_of tncs)) (segments raw rem))
| kri_bad mem raw len e tnc rem : length mem = maxr -> seg_st maxr raw None -> (len <= maxr)%nat ->
    kr_inv maxr tncs (mkkr maxr tncs e false true mem 0 len tnc) rem []
      (flat_map (kiss_packet maxr (en_of tncs)) (segments raw rem))
| kri_full mem t d tnc rem seg : length mem = maxr -> (length (t :: d) <= maxr)%nat ->
    firstn (length (t :: d)) mem = t :: d -> bytes_ok (t :: d) -> kiss_unescape seg = Some (t :: d) ->
    kr_inv maxr tncs (mkkr maxr tncs false true false mem 0 (length (t :: d)) tnc) rem []
      (kiss_packet maxr (en_of tncs) seg ++ kiss_decode maxr (en_of tncs) rem)
| kri_part mem pos len tnc rem part d : length mem = maxr -> (0 < pos)%nat -> mread mem pos len = Some d ->
    kr_inv maxr tncs (mkkr maxr tncs false true false mem pos len tnc) rem part
      ((tnc, part ++ d) :: kiss_decode maxr (en_of tncs) rem).

Lemma kr_store_ok maxr tncs e bad mem tnc (s : list Z) b :
  length mem = maxr -> firstn (length s) mem = s -> (length s < maxr)%nat -> forall e0,
  exists mem', length mem' = maxr /\ firstn (length (s ++ [b])) mem' = s ++ [b] /\
   kr_store (mkkr maxr tncs e0 false bad mem 0 (length s) tnc) e b
   = Some (mkkr maxr tncs e false bad mem' 0 (length (s ++ [b])) tnc).
Proof.
  intros Hm Hs Hl e0. destruct (mset_append mem (length s) b) as (m' & E & L & F); [lia|].
  exists m'. rewrite app_length. cbn [length]. replace (length s + 1)%nat with (S (length s)) by lia.
  split; [lia|]. split; [rewrite F, Hs; reflexivity|].
  unfold kr_store. cbn [kr_maxr kr_len kr_mem]. replace (maxr <=? length s)%nat with false by lia. rewrite E. reflexivity.
Qed.

Lemma packet_bad maxr en raw : seg_st maxr raw None -> kiss_packet maxr en raw = [].
Proof.
  intros H. pose proof (seg_st_spec maxr raw None H []) as Hs. rewrite app_nil_r in Hs.
  unfold kiss_packet. destruct Hs as [->|(u & -> & Hl)]; [reflexivity|].
  destruct u as [|t d]; [reflexivity|]. replace (length (t :: d) <=? maxr)%nat with false by lia. reflexivity.
Qed.

Lemma unesc_good maxr raw s e : seg_st maxr raw (Some (s, e)) -> kiss_unescape raw = Some s.
Proof.
  intros H. pose proof (seg_st_spec maxr raw _ H []) as Hs. cbn iota beta in Hs. rewrite app_nil_r in Hs. rewrite Hs.
  replace (tail_of e []) with (Some (@nil Z)) by (destruct e; reflexivity).
  cbn [option_map]. rewrite app_nil_r. reflexivity.
Qed.

Lemma bytes_snoc s b : bytes_ok s -> is_byte b -> bytes_ok (s ++ [b]).
Proof. intros. unfold bytes_ok. apply Forall_app. split; [assumption|]. apply Forall_cons; [assumption|constructor]. Qed.

Lemma kr_byte_inv maxr tncs r b rem part all :
  is_byte b ->
  kr_inv maxr tncs r (b :: rem) part all -> kr_done r = false ->
  exists r', kr_byte r b = Some r' /\ kr_inv maxr tncs r' rem part all.
Proof.
  intros Hb Hinv Hd. remember (b :: rem) as w eqn:Hw. unfold is_byte in Hb.
  destruct Hinv as [mem raw s e tnc w Hm Hst Hs Hby|mem raw len e tnc w Hm Hst Hl|mem t d tnc w seg Hm Hl Hf Hby Hu|mem pos len tnc w part d Hm Hp Hr];
    subst w; [..|discriminate Hd|discriminate Hd].
  - pose proof (seg_st_len _ _ _ _ Hst) as Hls.
    unfold kr_byte. cbn [kr_bad kr_esc kr_len kr_maxr kr_tncs kr_done kr_mem kr_pos kr_tnc segments].
    destruct (b =? 192) eqn:E192.
    + cbn [flat_map]. destruct s as [|t d].
      * cbn [length Nat.ltb Nat.leb]. eexists. split; [reflexivity|].
        assert (Hp : kiss_packet maxr (en_of tncs) raw = [])
          by (unfold kiss_packet; rewrite (unesc_good _ _ _ _ Hst); reflexivity).
        rewrite Hp. cbn [app]. apply (kri_good maxr tncs mem [] [] false tnc rem); [exact Hm|apply ss_nil|reflexivity|constructor].
      * replace (0 <? length (t :: d))%nat with true by (cbn [length]; lia). eexists. split; [reflexivity|].
        apply kri_full; auto. eapply unesc_good; exact Hst.
    + destruct e.
      * destruct (b =? 220) eqn:E220.
        { assert (b = 220) by lia. subst b. destruct (Nat.le_gt_cases maxr (length s)) as [Hfull|Hroom].
          - eexists. split; [unfold kr_store; cbn [kr_maxr kr_len]; replace (maxr <=? length s)%nat with true by lia; reflexivity|].
            cbn [kr_done kr_mem kr_pos kr_len kr_tnc kr_tncs]. apply kri_bad; [exact Hm| |lia].
            eapply ss_e_full; [exact Hst|auto|exact Hfull].
          - destruct (kr_store_ok maxr tncs false false mem tnc s 192 Hm Hs Hroom true) as (m' & L & F & E).
            eexists. split; [exact E|]. apply kri_good; [exact L| |exact F|apply bytes_snoc; [exact Hby|unfold is_byte; lia]].
            eapply ss_e; [exact Hst|left; auto|exact Hroom]. }
        destruct (b =? 221) eqn:E221.
        { assert (b = 221) by lia. subst b. destruct (Nat.le_gt_cases maxr (length s)) as [Hfull|Hroom].
          - eexists. split; [unfold kr_store; cbn [kr_maxr kr_len]; replace (maxr <=? length s)%nat with true by lia; reflexivity|].
            cbn [kr_done kr_mem kr_pos kr_len kr_tnc kr_tncs]. apply kri_bad; [exact Hm| |lia].
            eapply ss_e_full; [exact Hst|auto|exact Hfull].
          - destruct (kr_store_ok maxr tncs false false mem tnc s 219 Hm Hs Hroom true) as (m' & L & F & E).
            eexists. split; [exact E|]. apply kri_good; [exact L| |exact F|apply bytes_snoc; [exact Hby|unfold is_byte; lia]].
            eapply ss_e; [exact Hst|right; auto|exact Hroom]. }
        eexists. split; [reflexivity|]. apply kri_bad; [exact Hm| |exact Hls].
        eapply ss_e_bad; [exact Hst|lia|lia].
      * destruct (b =? 219) eqn:E219.
        { assert (b = 219) by lia. subst b. eexists. split; [reflexivity|].
          apply kri_good; auto. apply ss_esc. exact Hst. }
        destruct (Nat.le_gt_cases maxr (length s)) as [Hfull|Hroom].
        { eexists. split; [unfold kr_store; cbn [kr_maxr kr_len]; replace (maxr <=? length s)%nat with true by lia; reflexivity|].
          cbn [kr_done kr_mem kr_pos kr_len kr_tnc kr_tncs]. apply kri_bad; [exact Hm| |lia].
          eapply ss_plain_full; [exact Hst|lia|exact Hfull]. }
        { destruct (kr_store_ok maxr tncs false false mem tnc s b Hm Hs Hroom false) as (m' & L & F & E).
          eexists. split; [exact E|]. apply kri_good; [exact L| |exact F|apply bytes_snoc; assumption].
          eapply ss_plain; [exact Hst|lia|exact Hroom]. }
  - unfold kr_byte. cbn [kr_bad kr_esc kr_len kr_maxr kr_tncs kr_done kr_mem kr_pos kr_tnc segments].
    destruct (b =? 192) eqn:E192.
    + cbn [flat_map]. rewrite (packet_bad _ _ _ Hst). cbn [app].
      eexists. split; [reflexivity|].
      apply (kri_good maxr tncs mem [] [] false tnc rem); [exact Hm|apply ss_nil|reflexivity|constructor].
    + unfold kr_store. cbn [kr_maxr kr_len kr_tncs kr_done kr_mem kr_pos kr_tnc kr_bad].
      destruct (maxr <=? len)%nat eqn:El.
      * eexists. split; [reflexivity|]. apply kri_bad; [exact Hm|apply ss_bad; exact Hst|exact Hl].
      * destruct (mset_append mem len b) as (m' & E & L & _); [lia|]. rewrite E. cbn [obind].
        eexists. split; [reflexivity|]. apply kri_bad; [lia|apply ss_bad; exact Hst|lia].
Qed.

Lemma kr_loop_inv maxr tncs buf : forall r rem part all,
  bytes_ok buf ->
  kr_inv maxr tncs r (buf ++ rem) part all ->
  exists r' n, kr_loop r buf = Some (r', n) /\ (n <= length buf)%nat /\
    kr_inv maxr tncs r' (skipn n buf ++ rem) part all /\
    (kr_done r' = false -> n = length buf) /\ (kr_done r = false -> kr_done r' = true -> (0 < n)%nat).
Proof.
  induction buf as [|b buf IH]; intros r rem part all Hby Hinv.
  - exists r, 0%nat. cbn [kr_loop length skipn]. split; [reflexivity|]. split; [lia|]. split; [exact Hinv|].
    split; [reflexivity|congruence].
  - cbn [kr_loop]. destruct (kr_done r) eqn:Ed.
    + exists r, 0%nat. cbn [length skipn]. split; [reflexivity|]. split; [lia|]. split; [exact Hinv|]. split; congruence.
    + inversion Hby as [|? ? Hb Hr]; subst.
      destruct (kr_byte_inv maxr tncs r b (buf ++ rem) part all Hb Hinv Ed) as (r1 & E1 & Hinv1).
      rewrite E1. cbn [obind].
      destruct (IH r1 rem part all Hr Hinv1) as (r2 & n & E2 & Hn & Hinv2 & Hd2 & _).
      rewrite E2. cbn [obind]. exists r2, (S n). cbn [length skipn]. split; [reflexivity|].
      split; [lia|]. split; [exact Hinv2|]. split; [|lia]. intros H. rewrite Hd2 by exact H. reflexivity.
Qed.

Lemma kr_give_inv maxr tncs h mem pos len tnc rem part d : length mem = maxr -> (0 < pos)%nat ->
  mread mem pos len = Some d ->
  exists r' ds part' ms all', kr_give h (mkkr maxr tncs false true false mem pos len tnc) = Some (r', ds) /\
    (tnc, part ++ d) :: kiss_decode maxr (en_of tncs) rem = ms ++ all' /\
    kiss_reassemble ds part = (ms, part') /\ kr_inv maxr tncs r' rem part' all' /\
    (takes_all h -> kr_done r' = false).
Proof.
  intros Hm Hp Hr. unfold kr_give. cbn [kr_mem kr_pos kr_len kr_maxr kr_tncs kr_esc kr_bad kr_tnc]. rewrite Hr. cbn [obind].
  destruct (mread_len _ _ _ _ Hr) as [Hld Hpl].
  destruct (h d) as [n|] eqn:Eh.
  - destruct (len <=? n)%nat eqn:En.
    + eexists _, [(tnc, d, true)], [], [(tnc, part ++ d)], _. split; [reflexivity|]. split; [reflexivity|].
      split; [reflexivity|]. split; [|reflexivity].
      apply (kri_good maxr tncs mem [] [] false tnc rem); [exact Hm|apply ss_nil|reflexivity|constructor].
    + eexists _, [(tnc, firstn n d, false)], (part ++ firstn n d), [], _. split; [reflexivity|]. split; [reflexivity|].
      split; [reflexivity|]. split.
      * assert (Hd : part ++ d = (part ++ firstn n d) ++ skipn n d) by (rewrite <- app_assoc, firstn_skipn; reflexivity).
        rewrite Hd. apply kri_part; [exact Hm|lia|]. apply mread_shift; [exact Hr|lia].
      * intros Ha. rewrite Ha in Eh. injection Eh as <-. lia.
  - eexists _, [], part, [], _. split; [reflexivity|]. split; [reflexivity|]. split; [reflexivity|].
    split; [apply kri_part; assumption|]. intros Ha. rewrite Ha in Eh. discriminate.
Qed.

Lemma kr_deliver_inv maxr tncs h r rem part all :
  length tncs = 16%nat ->
  kr_inv maxr tncs r rem part all ->
  exists r' ds part' ms all', kr_deliver h r = Some (r', ds) /\ all = ms ++ all' /\
    kiss_reassemble ds part = (ms, part') /\ kr_inv maxr tncs r' rem part' all' /\
    (takes_all h -> kr_done r' = false).
Proof.
  intros Ht Hinv. destruct (kr_done r) eqn:Ed.
  2:{ unfold kr_deliver. rewrite Ed. exists r, [], part, [], all. split; [reflexivity|]. split; [reflexivity|].
      split; [reflexivity|]. split; [exact Hinv|]. auto. }
  destruct Hinv as [mem raw s e tnc w Hm Hst Hs Hby|mem raw len e tnc w Hm Hst Hl|mem t d tnc w seg Hm Hl Hf Hby Hu|mem pos len tnc w part d Hm Hp Hr];
    try discriminate Ed.
  - unfold kr_deliver. cbn [kr_done kr_pos kr_mem kr_maxr kr_tncs kr_esc kr_bad kr_len]. change (0 =? 0)%nat with true. cbn iota.
    assert (Hg : mget mem 0 = Some t).
    { unfold mget. destruct mem as [|x mem]; [cbn in Hf; discriminate|]. cbn [length firstn nth_error] in *. congruence. }
    rewrite Hg. cbn [obind]. inversion Hby as [|? ? Hbt Hbd]; subst.
    unfold is_byte in Hbt.
    assert (Hsh : 0 <= Z.shiftr t 4 < 16).
    { rewrite Z.shiftr_div_pow2 by lia. change (2 ^ 4) with 16. split; [apply Z.div_pos; lia|apply Z.div_lt_upper_bound; lia]. }
    unfold kiss_packet. rewrite Hu. replace (length (t :: d) <=? length mem)%nat with true by lia. cbn [andb].
    assert (Hen : mget tncs (Z.to_nat (Z.shiftr t 4)) = Some (en_of tncs (Z.shiftr t 4))).
    { unfold mget, en_of. apply nth_error_nth'. lia. }
    destruct (Z.land t 15 =? 0); cbn [negb andb].
    + rewrite Hen. cbn [obind]. destruct (en_of tncs (Z.shiftr t 4)); cbn [negb].
      * assert (Hmr : mread mem 1 (length (t :: d) - 1) = Some d).
        { cbn [length]. rewrite mread_some by (cbn [length] in *; lia). f_equal.
          destruct mem as [|x mem]; [cbn in Hf; discriminate|]. cbn [length firstn skipn] in *.
          replace (S (length d) - 1)%nat with (length d) by lia. congruence. }
        destruct (kr_give_inv (length mem) tncs h mem 1 _ (Z.shiftr t 4) w [] d eq_refl ltac:(lia) Hmr)
          as (r' & ds & part' & ms & all' & E & Ha & Hre & Hinv' & Hta).
        exists r', ds, part', ms, all'. split; [exact E|]. cbn [app] in *. auto.
      * eexists _, [], [], [], _. split; [reflexivity|]. split; [reflexivity|]. split; [reflexivity|].
        split; [|reflexivity]. cbn [app].
        apply (kri_good (length mem) tncs mem [] [] false (Z.shiftr t 4) w); [reflexivity|apply ss_nil|reflexivity|constructor].
    + eexists _, [], [], [], _. split; [reflexivity|]. split; [reflexivity|]. split; [reflexivity|].
      split; [|reflexivity]. cbn [app].
      apply (kri_good (length mem) tncs mem [] [] false (Z.shiftr t 4) w); [reflexivity|apply ss_nil|reflexivity|constructor].
  - unfold kr_deliver. cbn [kr_done kr_pos]. replace (pos =? 0)%nat with false by lia.
    destruct (kr_give_inv maxr tncs h mem pos len tnc w part d Hm Hp Hr) as (r' & ds & part' & ms & all' & E & Ha & Hre & Hinv' & Hta).
    exists r', ds, part', ms, all'. auto.
Qed.

Lemma kr_recv_inv maxr tncs h r buf rem part all :
  length tncs = 16%nat -> bytes_ok buf ->
  kr_inv maxr tncs r (buf ++ rem) part all ->
  exists r' n ds part' ms all', kr_recv h r buf = Some (r', n, ds) /\ (n <= length buf)%nat /\
    all = ms ++ all' /\ kiss_reassemble ds part = (ms, part') /\
    kr_inv maxr tncs r' (skipn n buf ++ rem) part' all' /\
    (takes_all h -> kr_done r' = false /\ (kr_done r = false -> n = length buf \/ (0 < n)%nat)).
Proof.
  intros Ht Hby Hinv. unfold kr_recv.
  assert (H1 : exists r1 n, (if kr_done r then Some (r, 0%nat) else kr_loop r buf) = Some (r1, n) /\ (n <= length buf)%nat /\
    kr_inv maxr tncs r1 (skipn n buf ++ rem) part all /\ (kr_done r = false -> n = length buf \/ (0 < n)%nat)).
  { destruct (kr_done r) eqn:Ed.
    - exists r, 0%nat. cbn [skipn]. split; [reflexivity|]. split; [lia|]. split; [exact Hinv|congruence].
    - destruct (kr_loop_inv maxr tncs buf r rem part all Hby Hinv) as (r1 & n & E & Hn & Hi & Hx & Hy).
      exists r1, n. split; [exact E|]. split; [exact Hn|]. split; [exact Hi|]. intros _.
      destruct (kr_done r1) eqn:Ed1; [right; auto|left; auto]. }
  destruct H1 as (r1 & n & E1 & Hn & Hinv1 & Hd1). rewrite E1. cbn [obind].
  destruct (kr_deliver_inv maxr tncs h r1 _ part all Ht Hinv1) as (r2 & ds & part' & ms & all' & E2 & Ha & Hre & Hinv2 & Hta).
  rewrite E2. cbn [obind]. exists r2, n, ds, part', ms, all'. split; [reflexivity|]. split; [exact Hn|].
  split; [exact Ha|]. split; [exact Hre|]. split; [exact Hinv2|]. auto.
Qed.

Lemma kiss_reassemble_app a : forall b acc m1 l1 m2 l2,
  kiss_reassemble a acc = (m1, l1) -> kiss_reassemble b l1 = (m2, l2) -> kiss_reassemble (a ++ b) acc = (m1 ++ m2, l2).
Proof.
  induction a as [|[[t d] [|]] a IH]; intros b acc m1 l1 m2 l2 H1 H2; cbn [kiss_reassemble app] in *.
  - assert (m1 = [] /\ l1 = acc) as [-> ->] by (split; congruence). exact H2.
  - destruct (kiss_reassemble a []) as [ms l] eqn:E.
    assert (m1 = (t, acc ++ d) :: ms /\ l1 = l) as [-> ->] by (split; congruence).
    rewrite (IH b [] ms l m2 l2 E H2). reflexivity.
  - apply (IH b _ m1 l1 m2 l2 H1 H2).
Qed.

Lemma bytes_firstn n l : bytes_ok l -> bytes_ok (firstn n l).
Proof. intros H. rewrite <- (firstn_skipn n l) in H. apply Forall_app in H. tauto. Qed.
Lemma bytes_skipn n l : bytes_ok l -> bytes_ok (skipn n l).
Proof. intros H. rewrite <- (firstn_skipn n l) in H. apply Forall_app in H. tauto. Qed.

Lemma kr_run_inv maxr tncs evs : forall r w fut part all,
  length tncs = 16%nat -> bytes_ok w ->
  kr_inv maxr tncs r (w ++ fut) part all ->
  exists r' w' ds part' ms all', kr_run r w evs = Some (r', w', ds) /\ all = ms ++ all' /\
    kiss_reassemble ds part = (ms, part') /\ kr_inv maxr tncs r' (w' ++ fut) part' all'.
Proof.
  induction evs as [|[n h] evs IH]; intros r w fut part all Ht Hby Hinv.
  - exists r, w, [], part, [], all. cbn [kr_run kiss_reassemble]. auto.
  - cbn [kr_run].
    assert (Hinv' : kr_inv maxr tncs r (firstn n w ++ (skipn n w ++ fut)) part all)
      by (rewrite app_assoc, firstn_skipn; exact Hinv).
    destruct (kr_recv_inv maxr tncs h r (firstn n w) (skipn n w ++ fut) part all Ht (bytes_firstn n w Hby) Hinv')
      as (r1 & k & ds & part1 & ms1 & all1 & E1 & Hk & Ha1 & Hre1 & Hinv1 & _).
    rewrite E1. cbn [obind].
    assert (Hw : skipn k (firstn n w) ++ skipn n w ++ fut = skipn k w ++ fut).
    { rewrite app_assoc. f_equal. rewrite <- skipn_app_le by exact Hk. rewrite firstn_skipn. reflexivity. }
    rewrite Hw in Hinv1.
    destruct (IH r1 (skipn k w) fut part1 all1 Ht (bytes_skipn k w Hby) Hinv1) as (r2 & w2 & ds2 & part2 & ms2 & all2 & E2 & Ha2 & Hre2 & Hinv2).
    rewrite E2. cbn [obind]. exists r2, w2, (ds ++ ds2), part2, (ms1 ++ ms2), all2.
    split; [reflexivity|]. split; [rewrite Ha1, Ha2, app_assoc; reflexivity|].
    split; [eapply kiss_reassemble_app; eassumption|exact Hinv2].
Qed.

Lemma kr_init_inv maxr tncs w :
  kr_inv maxr tncs (kr_init maxr tncs) w [] (kiss_decode maxr (en_of tncs) w).
Proof.
  apply (kri_good maxr tncs (repeat 0 maxr) [] [] false 0 w); [apply repeat_length|apply ss_nil|reflexivity|constructor].
Qed.

(** The receiver is the specification's decoder, for every byte stream. *)
Lemma kiss_receiver : forall maxr tncs w evs,
  length tncs = 16%nat -> bytes_ok w ->
  exists r rest ds fs part, kr_run (kr_init maxr tncs) w evs = Some (r, rest, ds) /\
    kiss_reassemble ds [] = (fs, part) /\
    (exists more, kiss_decode maxr (en_of tncs) w = fs ++ more) /\
    (rest = [] -> kr_done r = false -> fs = kiss_decode maxr (en_of tncs) w /\ part = []).
Proof.
  intros maxr tncs w evs Ht Hby. pose proof (kr_init_inv maxr tncs w) as Hi. rewrite <- (app_nil_r w) in Hi at 1.
  destruct (kr_run_inv maxr tncs evs _ w [] [] _ Ht Hby Hi) as (r & rest & ds & part & ms & all' & E & Ha & Hre & Hinv).
  exists r, rest, ds, ms, part. split; [exact E|]. split; [exact Hre|]. split; [exists all'; exact Ha|].
  intros -> Hd. cbn [app] in Hinv.
  inversion Hinv; subst; try discriminate Hd; cbn [segments flat_map] in *; rewrite app_nil_r in Ha; auto.
Qed.

(** Progress. *)
Lemma kr_run_progress maxr tncs h : length tncs = 16%nat -> takes_all h -> forall k r w part all n,
  bytes_ok w -> kr_inv maxr tncs r w part all -> kr_done r = false ->
  (length w <= k)%nat -> (0 < n)%nat ->
  exists r' ds, kr_run r w (repeat (n, h) k) = Some (r', [], ds) /\ kr_done r' = false.
Proof.
  intros Ht Hta. induction k as [|k IH]; intros r w part all n Hby Hinv Hd Hk Hn.
  - destruct w; [|cbn in Hk; lia]. exists r, []. split; [reflexivity|exact Hd].
  - cbn [repeat kr_run].
    assert (Hinv' : kr_inv maxr tncs r (firstn n w ++ skipn n w) part all) by (rewrite firstn_skipn; exact Hinv).
    destruct (kr_recv_inv maxr tncs h r (firstn n w) (skipn n w) part all Ht (bytes_firstn n w Hby) Hinv')
      as (r1 & j & ds & part1 & ms & all1 & E1 & Hj & Ha & Hre & Hinv1 & Hx).
    rewrite E1. cbn [obind]. destruct (Hx Hta) as [Hd1 Hprog]. specialize (Hprog Hd).
    assert (Hw : skipn j (firstn n w) ++ skipn n w = skipn j w).
    { rewrite <- skipn_app_le by exact Hj. rewrite firstn_skipn. reflexivity. }
    rewrite Hw in Hinv1.
    assert (Hle : (length (skipn j w) <= k)%nat).
    { rewrite skipn_length. destruct w as [|b w]; [cbn [length]; lia|].
      rewrite firstn_length in Hprog. cbn [length] in *. lia. }
    destruct (IH r1 (skipn j w) part1 all1 n (bytes_skipn j w Hby) Hinv1 Hd1 Hle Hn) as (r2 & ds2 & E2 & Hd2).
    rewrite E2. cbn [obind]. eexists _, _. split; [reflexivity|exact Hd2].
Qed.

Lemma kiss_receiver_progress : forall maxr tncs w h n,
  length tncs = 16%nat -> bytes_ok w -> takes_all h -> (0 < n)%nat ->
  exists r ds, kr_run (kr_init maxr tncs) w (repeat (n, h) (length w)) = Some (r, [], ds) /\
    kiss_reassemble ds [] = (kiss_decode maxr (en_of tncs) w, []).
Proof.
  intros maxr tncs w h n Ht Hby Hta Hn.
  destruct (kr_run_progress maxr tncs h Ht Hta (length w) _ w [] _ n Hby (kr_init_inv maxr tncs w) eq_refl (le_n _) Hn) as (r & ds & E & Hd).
  exists r, ds. split; [exact E|].
  destruct (kiss_receiver maxr tncs w (repeat (n, h) (length w)) Ht Hby) as (r' & rest & ds' & fs & part & E' & Hre & _ & Hfin).
  rewrite E in E'. assert (r' = r /\ rest = [] /\ ds' = ds) as (-> & -> & ->) by (repeat split; congruence).
  destruct (Hfin eq_refl Hd) as [-> ->]. exact Hre.
Qed.
